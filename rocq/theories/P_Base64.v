(** Properties C12-C17: base64. *)
From Verif Require Import Base S_Bits S_Rfc4648 L_Bits L_Rfc M_Base64 L_Base64.

(** C12 *)
Theorem C12_to_base64_rfc4648 : forall buf, bytes buf ->
  to_base64 buf = rfc4648_base64 buf /\ length (to_base64 buf) = to_base64_length (length buf).
Proof. intros buf Hb. split; [exact (to_base64_spec false buf Hb)|exact (to_base64_len buf Hb)]. Qed.
Print Assumptions C12_to_base64_rfc4648.

(** C13 *)
Theorem C13_to_base64_urlsafe_rfc4648 : forall buf, bytes buf ->
  to_base64_urlsafe buf = rfc4648_base64url_nopad buf /\
  length (to_base64_urlsafe buf) = to_base64_urlsafe_length (length buf).
Proof.
  intros buf Hb. assert (E : to_base64_urlsafe buf = rfc4648_base64url_nopad buf).
  { unfold to_base64_urlsafe. rewrite (to_base64_spec true buf Hb). apply app_nil_r. }
  split; [exact E|]. rewrite E. apply body_length.
Qed.
Print Assumptions C13_to_base64_urlsafe_rfc4648.

(** C14: round trip, whatever follows the text in memory. *)
Theorem C14_base64_roundtrip : forall buf rest, bytes buf ->
  let text := to_base64 buf in
  from_base64 (text ++ rest) (length text) = Ok (length buf, buf) /\
  from_base64_length (text ++ rest) (length text) = Ok (length buf).
Proof. exact base64_roundtrip. Qed.
Print Assumptions C14_base64_roundtrip.

(** C15 *)
Theorem C15_base64_urlsafe_roundtrip : forall buf rest, bytes buf ->
  let text := to_base64_urlsafe buf in
  from_base64_urlsafe (text ++ rest) (length text) = Ok (length buf, buf) /\
  from_base64_urlsafe_length (length text) = length buf.
Proof. exact base64_urlsafe_roundtrip. Qed.
Print Assumptions C15_base64_urlsafe_roundtrip.

(** C16, url-safe: any text; nothing outside [text] need be readable ([rest] may be empty). *)
Theorem C16_from_base64_urlsafe_total : forall text rest, bytes text ->
  exists vals, valid_blocks (b64_value true) 4 text vals /\
    from_base64_urlsafe (text ++ rest) (length text) =
      Ok (length (regroup_bytes 6 vals), regroup_bytes 6 vals) /\
    (length (regroup_bytes 6 vals) <= from_base64_urlsafe_length (length text))%nat.
Proof.
  intros text rest Hb. destruct (from_base64_gen true text rest Hb) as (vals & Hv & E).
  exists vals. split; [exact Hv|]. split; [exact E|]. exact (valid_blocks_out_len true text vals Hv).
Qed.
Print Assumptions C16_from_base64_urlsafe_total.

(** C16, standard: up to two trailing '=' are dropped, then as above, with the library's lax
    idea of a valid character ('=' counts as a digit 0). *)
Theorem C16_from_base64_total : forall text rest, bytes text ->
  exists body pad vals, text = body ++ repeat 61 pad /\ (pad <= 2)%nat /\
    (pad = 2%nat \/ forall b0, body <> b0 ++ [61]) /\
    valid_blocks (b64_lax_value false) 4 body vals /\
    from_base64 (text ++ rest) (length text) =
      Ok (length (regroup_bytes 6 vals), regroup_bytes 6 vals) /\
    from_base64_length (text ++ rest) (length text) = Ok (from_base64_urlsafe_length (length body)) /\
    (length (regroup_bytes 6 vals) <= from_base64_urlsafe_length (length body))%nat.
Proof.
  intros text rest Hb. destruct (strip_pad_spec text rest) as (body & pad & E & Hp & HE & Hm).
  assert (Hbb : bytes body) by (rewrite E in Hb; apply bytes_app in Hb; tauto).
  destruct (from_base64_gen false body (repeat 61 pad ++ rest) Hbb) as (vals & Hv & E').
  exists body, pad, vals. split; [exact E|]. split; [exact Hp|]. split; [exact Hm|]. split; [exact Hv|].
  unfold from_base64, from_base64_length. rewrite HE. cbn [bind].
  rewrite E at 1. rewrite <- app_assoc. split; [exact E'|]. split; [reflexivity|].
  exact (valid_blocks_out_len false body vals Hv).
Qed.
Print Assumptions C16_from_base64_total.

(** C17, the part that holds.  If the url-safe decoder returns the announced length and there is no
    dangling character, every character is in the alphabet, and if moreover the unused
    trailing bits are zero the text is the encoding of the result. *)
Theorem C17_base64_urlsafe_strict_partial : forall text rest n out, bytes text ->
  from_base64_urlsafe (text ++ rest) (length text) = Ok (n, out) ->
  n = from_base64_urlsafe_length (length text) -> (length text mod 4 <> 1)%nat ->
  exists vals, all_values (b64_value true) text = Some vals /\
    (Forall (fun b => b = false) (spare_bits 6 vals) -> to_base64_urlsafe out = text).
Proof.
  intros text rest n out Hb E Hn Hm.
  destruct (strict_gen true text rest n out Hb E Hn Hm) as (vals & Hv & Eo). exists vals. split; [exact Hv|].
  intros Hz. subst out. unfold to_base64_urlsafe. rewrite to_base64_spec by apply regroup_bytes_bytes.
  rewrite app_nil_r. exact (reencode true vals text Hb Hv Hm Hz).
Qed.
Print Assumptions C17_base64_urlsafe_strict_partial.

(** Standard alphabet: same, for a [body] (text without its trailing '=') free of '='. *)
Theorem C17_base64_strict_partial : forall body rest n out, bytes body -> Forall (fun c => c <> 61) body ->
  from_base64 (body ++ rest) (length body) = Ok (n, out) ->
  n = from_base64_urlsafe_length (length body) -> (length body mod 4 <> 1)%nat ->
  exists vals, all_values (b64_value false) body = Some vals /\
    (Forall (fun b => b = false) (spare_bits 6 vals) ->
     to_base64 out = body ++ repeat 61 ((4 - length body mod 4) mod 4)).
Proof.
  intros body rest n out Hb Hp E Hn Hm.
  destruct (strip_pad_spec body rest) as (b' & pad & Eb & _ & HE & _).
  assert (pad = 0%nat) as ->.
  { destruct pad; [reflexivity|]. rewrite repeat_snoc in Eb. rewrite Eb in Hp.
    apply Forall_app in Hp. destruct Hp as [_ Hp]. inversion Hp. congruence. }
  cbn [repeat] in Eb. rewrite app_nil_r in Eb. subst b'. unfold from_base64 in E. rewrite HE in E. cbn [bind] in E.
  destruct (strict_gen false body rest n out Hb E Hn Hm) as (vals & Hv & Eo). exists vals.
  assert (Hv' : all_values (b64_value false) body = Some vals).
  { apply all_values_lax_nopad; [|exact Hv]. eapply Forall_impl; [|exact Hp]. intros; auto. }
  split; [exact Hv'|]. intros Hz. subst out. unfold to_base64. rewrite to_base64_spec by apply regroup_bytes_bytes.
  rewrite (reencode false vals body Hb Hv' Hm Hz). reflexivity.
Qed.
Print Assumptions C17_base64_strict_partial.

(** The full claim is false of the code: "AA=A" (a '=' inside), "AB==" (non-zero trailing
    bits) and "AAAAB" (a dangling character) all decode with the announced length, but no buffer encodes to any of them. *)
Theorem C17_base64_strict_refuted :
  Forall (fun text => bytes text /\
    (exists n out, from_base64 text (length text) = Ok (n, out) /\
                   from_base64_length text (length text) = Ok n /\ (0 < n)%nat) /\
    ~ exists buf, bytes buf /\ to_base64 buf = text)
  [ [65; 65; 61; 65]; [65; 66; 61; 61]; [65; 65; 65; 65; 66] ].
Proof.
  repeat constructor; try (unfold is_byte; lia);
    try (do 2 eexists; split; [vm_compute; reflexivity|split; [vm_compute; reflexivity|lia]]);
    intros (buf & Hb & E); pose proof (proj1 (base64_roundtrip buf [] Hb)) as R;
    rewrite app_nil_r, E in R; vm_compute in R; injection R as _ R; subst buf; vm_compute in E; discriminate.
Qed.
Print Assumptions C17_base64_strict_refuted.

Example base64_ex : bytes [102; 111; 111; 98] /\ to_base64 [102; 111; 111; 98] = [90; 109; 57; 118; 89; 103; 61; 61].
Proof. split; [repeat constructor; unfold is_byte; lia|reflexivity]. Qed.
Example C17_ex : let text := [95; 45; 56] in
  from_base64_urlsafe text 3 = Ok (2%nat, [255; 239]) /\ from_base64_urlsafe_length 3 = 2%nat
  /\ spare_bits 6 [63; 62; 60] = [false; false].
Proof. repeat split; reflexivity. Qed.
