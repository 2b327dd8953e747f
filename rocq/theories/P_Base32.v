(** Properties C18-C22: base32. *)
From Verif Require Import Base S_Bits S_Rfc4648 L_Bits L_Rfc M_Base32 L_Base32.

(** C18 *)
Theorem C18_to_base32_rfc4648 : forall buf, bytes buf ->
  to_base32 buf = rfc4648_base32_lower buf /\ length (to_base32 buf) = to_base32_length (length buf).
Proof. intros buf Hb. split; [exact (to_base32_spec false buf Hb)|exact (to_base32_len buf Hb)]. Qed.
Print Assumptions C18_to_base32_rfc4648.

(** C19 *)
Theorem C19_to_base32_raw : forall buf, bytes buf ->
  let '(size, vals) := to_base32_raw buf in
  vals = regroup_pad 5 buf /\ size = length vals /\ size = ((8 * length buf + 4) / 5)%nat /\
  Forall (fun v => 0 <= v < 32) vals.
Proof.
  intros buf Hb. unfold to_base32_raw. rewrite to_base32_spec by exact Hb. rewrite app_nil_r, to_size_spec.
  assert (E : enc_body true buf = regroup_pad 5 buf).
  { unfold enc_body. rewrite <- (map_id (regroup_pad 5 buf)) at 2. reflexivity. }
  split; [exact E|]. split; [rewrite enc_body_length; reflexivity|]. split; [reflexivity|].
  rewrite E. apply rg5_range.
Qed.
Print Assumptions C19_to_base32_raw.

(** C20: the text as written, followed in memory by a terminating NUL (or, when the text ends in
    padding, by anything). *)
Theorem C20_base32_roundtrip : forall buf rest, bytes buf ->
  let text := to_base32 buf in
  (exists rest', rest = 0 :: rest') \/ In 61 text ->
  from_base32 (text ++ rest) (length text) = Ok (length buf, buf) /\
  from_base32_length (text ++ rest) (length text) = Ok (length buf).
Proof.
  intros buf rest Hb text Hr. unfold text in *. clear text. unfold to_base32 in *.
  rewrite to_base32_spec in * by exact Hb.
  destruct (enc_body_vals false buf) as (_ & _ & N). destruct (N eq_refl) as [N61 N0].
  set (k := ((8 - length (enc_body false buf) mod 8) mod 8)%nat) in *.
  assert (L : base32_strlen ((enc_body false buf ++ repeat 61 k) ++ rest) (length (enc_body false buf ++ repeat 61 k))
              = Ok (length (enc_body false buf))).
  { unfold base32_strlen. rewrite <- app_assoc. destruct k as [|k'].
    - cbn [repeat app]. rewrite app_nil_r in *. destruct Hr as [[r ->]|Hr]; [|tauto].
      rewrite strchr_none by exact N61. reflexivity.
    - cbn [repeat app]. rewrite strchr_some by assumption. reflexivity. }
  unfold from_base32, from_base32_, from_base32_length. rewrite L. cbn [bind].
  rewrite <- app_assoc, blocks_decode by exact Hb. cbn [bind]. split; [reflexivity|].
  f_equal. exact (enc_body_out_len false buf Hb).
Qed.
Print Assumptions C20_base32_roundtrip.

(** C21, the part that holds: the raw decoder looks for a '=' (61) up to the first NUL, beyond the
    buffer if necessary; if memory does contain a NUL and no 61 before it, the round trip works.
    Missing: the round trip for every other content of the memory after the buffer. *)
Theorem C21_base32_raw_roundtrip_partial : forall buf rest p q, bytes buf ->
  let data := snd (to_base32_raw buf) in
  data ++ rest = p ++ 0 :: q -> ~ In 61 p ->
  from_base32_raw (data ++ rest) (length data) = Ok (length buf, buf) /\
  from_base32_raw_length (length data) = length buf.
Proof.
  intros buf rest p q Hb data Hm Hp. unfold data in *. clear data. cbn [to_base32_raw snd] in *.
  rewrite to_base32_spec in * by exact Hb. rewrite app_nil_r in *.
  split; [|exact (enc_body_out_len true buf Hb)].
  unfold from_base32_raw, from_base32_, base32_strlen. rewrite Hm at 1. rewrite strchr_none by exact Hp.
  cbn [bind]. rewrite blocks_decode by exact Hb. reflexivity.
Qed.
Print Assumptions C21_base32_raw_roundtrip_partial.

(** The full claim is false: after the raw encoding of [ff] ([31; 28]), a byte '=' in the
    memory that follows (here at distance 1) changes the result, and if nothing
    readable follows the behaviour is undefined. *)
Theorem C21_base32_raw_roundtrip_refuted :
  to_base32_raw [255] = (2%nat, [31; 28]) /\
  from_base32_raw ([31; 28] ++ [1; 61]) 2 <> Ok (1%nat, [255]) /\
  from_base32_raw ([31; 28] ++ [1; 1; 1; 1; 1; 1; 1; 61]) 2 <> Ok (1%nat, [255]) /\
  from_base32_raw ([31; 28] ++ []) 2 = UB.
Proof. split; [reflexivity|]. repeat split; vm_compute; discriminate || reflexivity. Qed.
Print Assumptions C21_base32_raw_roundtrip_refuted.

(** C22, the part that holds, for an ASCII [text] free of '=' and NUL that is directly followed by
    a NUL or by padding: the call is defined whatever follows, writes at most the announced
    number of bytes, stops before the first whole block with an invalid character, and
    decodes a text of valid characters to its bits.
    Missing: characters of 128 and above, texts not so terminated, and invalid characters in the last, incomplete block. *)
Theorem C22_from_base32_partial : forall text t rest,
  Forall (fun c => 0 < c < 128 /\ c <> 61) text -> t = 0 \/ t = 61 ->
  exists out, from_base32 (text ++ t :: rest) (length text) = Ok (length out, out) /\
    from_base32_length (text ++ t :: rest) (length text) = Ok (from_base32_raw_length (length text)) /\
    (length out <= from_base32_raw_length (length text))%nat /\
    (length out = from_base32_raw_length (length text) ->
       Forall (fun c => b32_value c <> None) (firstn (8 * (length text / 8)) text)) /\
    (forall vals, all_values b32_value text = Some vals -> b32_good_length (length text) ->
       out = regroup_bytes 5 vals /\ length out = from_base32_raw_length (length text)).
Proof.
  intros text t rest F Ht.
  assert (A : Forall is_ascii text) by (eapply Forall_impl; [|exact F]; cbv beta; unfold is_ascii; lia).
  assert (N61 : ~ In 61 text) by (intros H; rewrite Forall_forall in F; apply F in H; lia).
  assert (N0 : ~ In 0 text) by (intros H; rewrite Forall_forall in F; apply F in H; lia).
  assert (L : base32_strlen (text ++ t :: rest) (length text) = Ok (length text)).
  { unfold base32_strlen. destruct Ht as [-> | ->]; [rewrite strchr_none by exact N61|rewrite strchr_some by assumption]; reflexivity. }
  destruct (blocks_gen false text (t :: rest) A) as (out & E & D). exists out.
  unfold from_base32, from_base32_, from_base32_length. rewrite L. cbn [bind]. rewrite E. cbn [bind].
  split; [reflexivity|]. split; [reflexivity|]. split; [exact (out_le _ _ _ D)|]. split.
  - intros Hl. destruct (out_full _ _ _ D Hl) as [vs Hv]. clear - Hv. revert vs Hv.
    induction (firstn _ text) as [|c l IH]; intros vs Hv; [constructor|]. cbn [all_values b32_val] in Hv.
    destruct (b32_value c) eqn:Ec; [|discriminate]. destruct (all_values b32_value l) eqn:El; [|discriminate].
    constructor; [congruence|]. eapply IH. exact El.
  - intros vals Hv Hg. assert (Eo : out = regroup_bytes 5 vals).
    { destruct D as (vs & tl & Hvs & Eo & Hm). destruct (all_values (b32_val false) (firstn _ _)) eqn:Ef.
      - exact (proj2 Hm Hg vals Hv).
      - exfalso. rewrite <- (firstn_skipn (8 * (length text / 8)) text) in Hv. rewrite all_values_app in Hv.
        cbn [b32_val] in Ef. rewrite Ef in Hv. discriminate. }
    split; [exact Eo|]. rewrite Eo, good_len by exact Hg. rewrite regroup_bytes_length. f_equal. f_equal.
    apply (all_values_length _ _ _ Hv).
Qed.
Print Assumptions C22_from_base32_partial.

(** The full claim is false: "aa" with str_len 2 depends on what follows (a '=' 7 bytes later), a
    byte of 128 is undefined behaviour, and "a!" (an invalid character in an
    incomplete block) is accepted with the announced length. *)
Theorem C22_from_base32_refuted :
  (from_base32 ([97; 97] ++ [0]) 2 = Ok (1%nat, [0]) /\
   from_base32 ([97; 97] ++ [97; 97; 97; 97; 97; 97; 61; 0]) 2 = Ok (5%nat, [0; 0; 0; 0; 0])) /\
  (from_base32 [128; 97; 0] 2 = UB) /\
  (exists out, from_base32 [97; 33; 0] 2 = Ok (1%nat, out) /\ from_base32_length [97; 33; 0] 2 = Ok 1%nat
     /\ b32_value 33 = None).
Proof. repeat split. exists [63]. repeat split. Qed.
Print Assumptions C22_from_base32_refuted.

Example base32_ex : bytes [102; 111] /\ to_base32 [102; 111] = [109; 122; 120; 113; 61; 61; 61; 61] /\ In 61 (to_base32 [102; 111])
  /\ to_base32_raw [102; 111] = (4%nat, [12; 25; 23; 16]).
Proof. split; [repeat constructor; unfold is_byte; lia|]. split; [reflexivity|]. split; [vm_compute; tauto|reflexivity]. Qed.
Example C21_ex : exists p q, snd (to_base32_raw [102; 111]) ++ [7; 0; 9] = p ++ 0 :: q /\ ~ In 61 p.
Proof. exists [12; 25; 23; 16; 7], [9]. split; [reflexivity|]. cbn. lia. Qed.
Example C22_ex : Forall (fun c => 0 < c < 128 /\ c <> 61) [109; 122; 120; 113] /\ b32_good_length 4
  /\ all_values b32_value [109; 122; 120; 113] = Some [12; 25; 23; 16].
Proof. split; [repeat constructor; lia|]. split; [unfold b32_good_length; cbn; auto|reflexivity]. Qed.
