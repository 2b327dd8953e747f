From Verif Require Import Base M_Endian L_Endian S_Mem M_Hex M_Base64 M_Base32 M_Varint M_Mem.

Lemma written_length mem a bs : (a + length bs <= length mem)%nat -> length (written mem a bs) = length mem.
Proof. intros. unfold written. rewrite !app_length, firstn_length, skipn_length. lia. Qed.

Lemma nth_error_written mem a bs p : (a + length bs <= length mem)%nat ->
  nth_error (written mem a bs) p =
    if (a <=? p)%nat && (p <? a + length bs)%nat then nth_error bs (p - a) else nth_error mem p.
Proof.
  intros H. unfold written.
  assert (Ha : length (firstn a mem) = a) by (rewrite firstn_length; lia).
  destruct (Nat.leb_spec a p); cbn [andb].
  - rewrite nth_error_app2 by lia. rewrite Ha. destruct (Nat.ltb_spec p (a + length bs)).
    + apply nth_error_app1. lia.
    + rewrite nth_error_app2 by lia. rewrite nth_error_skipn. f_equal. lia.
  - rewrite nth_error_app1 by lia. apply nth_error_firstn. lia.
Qed.

Lemma written_nil mem a : written mem a [] = mem.
Proof. unfold written. cbn [length app]. rewrite Nat.add_0_r. apply firstn_skipn. Qed.

Lemma nth_error_ext {A} (l1 l2 : list A) : (forall p, nth_error l1 p = nth_error l2 p) -> l1 = l2.
Proof.
  revert l2. induction l1 as [|x l1 IH]; intros [|y l2] H; [reflexivity| | |].
  - specialize (H 0%nat). discriminate.
  - specialize (H 0%nat). discriminate.
  - f_equal; [specialize (H 0%nat); cbn in H; congruence|]. apply IH. intros p. apply (H (S p)).
Qed.

Lemma written_app mem a b1 b2 : (a + length b1 + length b2 <= length mem)%nat ->
  written (written mem a b1) (a + length b1) b2 = written mem a (b1 ++ b2).
Proof.
  intros H. apply nth_error_ext. intros p.
  rewrite !nth_error_written by (rewrite ?written_length, ?app_length; lia).
  rewrite app_length.
  destruct (Nat.leb_spec (a + length b1) p); destruct (Nat.ltb_spec p (a + length b1 + length b2));
  destruct (Nat.leb_spec a p); destruct (Nat.ltb_spec p (a + (length b1 + length b2)));
  destruct (Nat.ltb_spec p (a + length b1)); cbn [andb]; try lia; try reflexivity.
  - rewrite nth_error_app2 by lia. f_equal. lia.
  - rewrite nth_error_app1 by lia. reflexivity.
Qed.

Lemma put_ok mem a v : (a + 1 <= length mem)%nat -> put mem a v = Ok (written mem a [v]).
Proof. intros. unfold put. apply store_ok. exact H. Qed.

Lemma puts_ok : forall vs mem a, (a + length vs <= length mem)%nat -> puts mem a vs = Ok (written mem a vs).
Proof.
  induction vs as [|v vs IH]; intros mem a H; cbn [puts]; [rewrite written_nil; reflexivity|].
  cbn [length] in H. rewrite put_ok by lia. cbn [bind].
  rewrite IH by (rewrite written_length; cbn [length]; lia).
  replace (S a) with (a + length [v])%nat by (cbn [length]; lia). rewrite written_app by (cbn [length]; lia). reflexivity.
Qed.

Lemma skipn_nth {A} (mem : list A) p x : nth_error mem p = Some x -> skipn p mem = x :: skipn (p + 1) mem.
Proof.
  revert p. induction mem as [|y mem IH]; intros [|p] H; try discriminate.
  - cbn in H. injection H as ->. reflexivity.
  - cbn in H. cbn [skipn Nat.add]. apply IH, H.
Qed.

Lemma rd_some mem p x : nth_error mem p = Some x -> rd mem p = Ok x.
Proof. unfold rd. intros ->. reflexivity. Qed.

Lemma nth_some {A} (mem : list A) p : (p < length mem)%nat -> exists x, nth_error mem p = Some x.
Proof. intros H. destruct (nth_error mem p) eqn:E; [eauto|]. apply nth_error_None in E. lia. Qed.

(** [mem] and [mem0] agree on [a, b). *)
Definition agree (mem mem0 : list Z) (a b : nat) : Prop := forall p, (a <= p < b)%nat -> nth_error mem p = nth_error mem0 p.

Lemma agree_refl mem a b : agree mem mem a b.
Proof. intros p _. reflexivity. Qed.
Lemma agree_sub mem mem0 a b a' b' : agree mem mem0 a b -> (a <= a')%nat -> (b' <= b)%nat -> agree mem mem0 a' b'.
Proof. intros H ? ? p Hp. apply H. lia. Qed.
Lemma agree_written mem mem0 a b d bs : agree mem mem0 a b -> (d + length bs <= length mem)%nat ->
  (d + length bs <= a \/ b <= d)%nat -> agree (written mem d bs) mem0 a b.
Proof.
  intros H Hb Hd p Hp. rewrite nth_error_written by exact Hb.
  destruct (Nat.leb_spec d p); destruct (Nat.ltb_spec p (d + length bs)); cbn [andb]; try lia; apply H; lia.
Qed.

(** ** hex *)
Lemma to_hex_mem_ok : forall n mem mem0 src dst upper, agree mem mem0 src (src + n) ->
  length mem = length mem0 -> (src + n <= length mem)%nat -> (dst + 2 * n <= length mem)%nat ->
  (src + n <= dst \/ dst + n <= src)%nat ->
  to_hex_mem n mem src dst upper = Ok (written mem dst (to_hex (region mem0 src n) upper)).
Proof.
  induction n as [|n IH]; intros mem mem0 src dst upper Ha Hlen Hs Hd Hov; cbn [to_hex_mem].
  - unfold region. cbn [firstn to_hex]. rewrite written_nil. reflexivity.
  - destruct (nth_some mem0 src ltac:(lia)) as [x Ex].
    rewrite (rd_some mem src x) by (rewrite Ha by lia; exact Ex). cbn [bind].
    unfold region. rewrite (skipn_nth mem0 src x Ex). cbn [firstn to_hex].
    set (h := tget (hex_str upper) (Z.shiftr x 4)). set (l := tget (hex_str upper) (Z.land x 15)).
    rewrite put_ok by lia. cbn [bind]. rewrite put_ok by (rewrite written_length; cbn [length]; lia). cbn [bind].
    replace (dst + 1)%nat with (dst + length [h])%nat by reflexivity.
    rewrite written_app by (cbn [length]; lia). cbn [app].
    rewrite (IH _ mem0); [|apply agree_written; [eapply agree_sub; [exact Ha| |]|..]| | | |];
      try (rewrite written_length); cbn [length]; try lia.
    f_equal. replace (dst + 2)%nat with (dst + length [h; l])%nat by (cbn [length]; lia).
    assert (Hlh : forall l u, length (to_hex l u) = (2 * length l)%nat) by (induction l0 as [|? ? IHl]; intros u; cbn [to_hex length]; [reflexivity|]; rewrite IHl; lia).
    rewrite written_app; [reflexivity|]. unfold region. rewrite Hlh, firstn_length. cbn [length]. lia.
Qed.

Lemma from_hex_loop_mem : forall n mem mem0 src dst out, agree mem mem0 src (src + 2 * n) ->
  length mem = length mem0 -> (src + 2 * n <= length mem)%nat -> (dst <= src \/ src + 2 * n <= dst)%nat ->
  from_hex_loop n (skipn src mem0) = Ok out -> (dst + length out <= length mem)%nat ->
  from_hex_mem_loop n mem src dst = Ok ((dst + length out)%nat, written mem dst out).
Proof.
  induction n as [|n IH]; intros mem mem0 src dst out Ha Hlen Hs Hov E Hd; cbn [from_hex_mem_loop].
  - cbn [from_hex_loop] in E. injection E as <-. cbn [length]. rewrite written_nil, Nat.add_0_r. reflexivity.
  - destruct (nth_some mem0 src ltac:(lia)) as [x Ex]. destruct (nth_some mem0 (src + 1) ltac:(lia)) as [y Ey].
    rewrite (rd_some mem src x) by (rewrite Ha by lia; exact Ex).
    rewrite (rd_some mem (src + 1) y) by (rewrite Ha by lia; exact Ey). cbn [bind].
    rewrite (skipn_nth mem0 src x Ex), (skipn_nth mem0 (src + 1) y Ey) in E. cbn [from_hex_loop] in E. cbv zeta in E.
    cbv zeta. destruct ((tget HEX_MAP x =? 255) || (tget HEX_MAP y =? 255)).
    + injection E as <-. cbn [length]. rewrite written_nil, Nat.add_0_r. reflexivity.
    + apply bind_Ok in E. destruct E as (o & E & E'). injection E' as <-. cbn [length] in Hd |- *.
      set (b := u8 (Z.lor (Z.shiftl (tget HEX_MAP x) 4) (tget HEX_MAP y))) in *.
      rewrite put_ok by lia. cbn [bind].
      replace (src + 1 + 1)%nat with (src + 2)%nat in E by lia.
      rewrite (IH (written mem dst [b]) mem0 (src + 2)%nat (dst + 1)%nat o);
        try exact E; try (rewrite written_length); cbn [length]; try lia.
      2:{ apply agree_written; [eapply agree_sub; [exact Ha| |]| |]; cbn [length]; lia. }
      f_equal. f_equal; [lia|]. replace (dst + 1)%nat with (dst + length [b])%nat by reflexivity.
      rewrite written_app by (cbn [length]; lia). reflexivity.
Qed.

Lemma w_app mem a a' b1 b2 : a' = (a + length b1)%nat -> (a + length b1 + length b2 <= length mem)%nat ->
  written (written mem a b1) a' b2 = written mem a (b1 ++ b2).
Proof. intros -> H. apply written_app, H. Qed.

(** ** base64 *)
Lemma to_base64_len : forall n l u, (length l <= n)%nat -> (length (to_base64_ l u) <= (length l + 2) / 3 * 4)%nat.
Proof.
  induction n as [|n IH]; intros l u Hl.
  - destruct l; [cbn; lia|cbn in Hl; lia].
  - destruct l as [|a [|b [|c l]]]; [cbn; lia|destruct u; cbn; lia|destruct u; cbn; lia|].
    cbn [to_base64_ length]. cbn [length] in Hl. specialize (IH l u ltac:(lia)).
    replace (S (S (S (length l))) + 2)%nat with ((length l + 2) + 1 * 3)%nat by lia. rewrite Nat.div_add by lia. lia.
Qed.

Lemma to_base64_mem_ok : forall n t mem mem0 src dst u out, (t < 3)%nat ->
  agree mem mem0 src (src + (3 * n + t)) -> length mem = length mem0 -> (src + (3 * n + t) <= length mem)%nat ->
  out = to_base64_ (region mem0 src (3 * n + t)) u ->
  (dst + length out <= length mem)%nat -> (src + (3 * n + t) <= dst \/ dst + length out <= src)%nat ->
  to_base64_mem_loop n t mem src dst u = Ok (written mem dst out).
Proof.
  induction n as [|n IH]; intros t mem mem0 src dst u out Ht Ha Hlen Hs Eo Hd Hov; cbn [to_base64_mem_loop].
  - destruct t as [|[|[|t]]]; [| | |lia]; cbn [Nat.eqb].
    + unfold region in Eo. cbn in Eo. subst out. rewrite written_nil. reflexivity.
    + destruct (nth_some mem0 src ltac:(lia)) as [x Ex].
      unfold region in Eo. rewrite (skipn_nth mem0 src x Ex) in Eo. cbn [Nat.mul Nat.add firstn to_base64_] in Eo. cbv zeta in Eo.
      rewrite (rd_some mem src x) by (rewrite Ha by lia; exact Ex). cbn [bind].
      destruct u; subst out; cbn [length negb] in *.
      * rewrite put_ok by lia. cbn [bind]. rewrite put_ok by (rewrite written_length; cbn [length]; lia). cbn [bind].
        rewrite w_app by (cbn [length]; lia). reflexivity.
      * rewrite put_ok by lia. cbn [bind]. rewrite put_ok by (rewrite written_length; cbn [length]; lia). cbn [bind].
        rewrite w_app by (cbn [length]; lia). rewrite puts_ok by (rewrite written_length; cbn [length app]; lia).
        rewrite w_app by (cbn [length app]; lia). reflexivity.
    + destruct (nth_some mem0 src ltac:(lia)) as [x Ex]. destruct (nth_some mem0 (src + 1) ltac:(lia)) as [y Ey].
      unfold region in Eo. rewrite (skipn_nth mem0 src x Ex), (skipn_nth mem0 (src + 1) y Ey) in Eo.
      cbn [Nat.mul Nat.add firstn to_base64_] in Eo. cbv zeta in Eo.
      rewrite (rd_some mem src x) by (rewrite Ha by lia; exact Ex). cbn [bind].
      assert (Hd3 : (dst + 3 <= length mem)%nat) by (subst out; cbn [length] in Hd; lia).
      assert (Hov3 : (src + 2 <= dst \/ dst + 3 <= src)%nat) by (subst out; cbn [length] in Hov; lia).
      rewrite put_ok by lia. cbn [bind].
      rewrite (rd_some _ (src + 1) y).
      2:{ rewrite nth_error_written by (cbn [length]; lia). cbn [length].
          destruct (Nat.leb_spec dst (src + 1)); destruct (Nat.ltb_spec (src + 1) (dst + 1)); cbn [andb]; try lia; rewrite Ha by lia; exact Ey. }
      cbn [bind]. rewrite puts_ok by (rewrite written_length; cbn [length]; lia). cbn [bind].
      rewrite w_app by (cbn [length]; lia).
      destruct u; subst out; cbn [length negb app] in *; [reflexivity|].
      rewrite put_ok by (rewrite written_length; cbn [length]; lia). rewrite w_app by (cbn [length]; lia). reflexivity.
  - destruct (nth_some mem0 src ltac:(lia)) as [x Ex]. destruct (nth_some mem0 (src + 1) ltac:(lia)) as [y Ey].
    destruct (nth_some mem0 (src + 2) ltac:(lia)) as [z Ez].
    rewrite (rd_some mem src x) by (rewrite Ha by lia; exact Ex). rewrite (rd_some mem (src + 1) y) by (rewrite Ha by lia; exact Ey).
    rewrite (rd_some mem (src + 2) z) by (rewrite Ha by lia; exact Ez). cbn [bind].
    unfold region in Eo. rewrite (skipn_nth mem0 src x Ex), (skipn_nth mem0 (src + 1) y Ey) in Eo.
    replace (src + 1 + 1)%nat with (src + 2)%nat in Eo by lia. rewrite (skipn_nth mem0 (src + 2) z Ez) in Eo.
    replace (3 * S n + t)%nat with (S (S (S (3 * n + t)))) in Eo, Ha, Hs, Hov by lia. cbn [firstn to_base64_] in Eo. cbv zeta in Eo.
    replace (src + 2 + 1)%nat with (src + 3)%nat in Eo by lia. fold (region mem0 (src + 3) (3 * n + t)) in Eo.
    match type of Eo with out = ?a :: ?b :: ?c :: ?d :: ?r => set (o4 := [a; b; c; d]) in *; set (r' := r) in * end.
    change (out = o4 ++ r') in Eo.
    assert (Hl : length out = (4 + length r')%nat) by (rewrite Eo; reflexivity).
    cbv zeta. fold o4. rewrite puts_ok by (cbn [o4 length]; lia). cbn [bind].
    rewrite (IH t _ mem0 (src + 3)%nat (dst + 4)%nat u r'); try (rewrite written_length); try reflexivity; try lia; try (cbn [o4 length]; lia).
    + rewrite w_app by (cbn [o4 length]; lia). rewrite Eo. reflexivity.
    + apply agree_written; [eapply agree_sub; [exact Ha| |]| |]; cbn [o4 length]; lia.
Qed.

Lemma from_base64_loop_mem : forall n t mem mem0 src dst dec out, (t < 4)%nat ->
  agree mem mem0 src (src + (4 * n + t)) -> length mem = length mem0 -> (src + (4 * n + t) <= length mem)%nat ->
  (dst <= src \/ src + (4 * n + t) <= dst)%nat ->
  from_base64_loop n t (skipn src mem0) dec = Ok out -> (dst + length out <= length mem)%nat ->
  from_base64_mem_loop n t mem src dst dec = Ok ((dst + length out)%nat, written mem dst out).
Proof.
  induction n as [|n IH]; intros t mem mem0 src dst dec out Ht Ha Hlen Hs Hov E Hd; cbn [from_base64_mem_loop].
  - destruct t as [|[|[|[|t]]]]; [| | | |lia]; cbn [from_base64_loop] in E.
    + injection E as <-. cbn [length]. rewrite written_nil, Nat.add_0_r. reflexivity.
    + injection E as <-. cbn [length]. rewrite written_nil, Nat.add_0_r. reflexivity.
    + destruct (nth_some mem0 src ltac:(lia)) as [x Ex]. destruct (nth_some mem0 (src + 1) ltac:(lia)) as [y Ey].
      rewrite (rd_some mem src x) by (rewrite Ha by lia; exact Ex). rewrite (rd_some mem (src + 1) y) by (rewrite Ha by lia; exact Ey).
      rewrite (skipn_nth mem0 src x Ex), (skipn_nth mem0 (src + 1) y Ey) in E. cbn [bind]. cbv zeta in *.
      destruct ((tget dec x =? 255) || (tget dec y =? 255)); injection E as <-; cbn [length] in *.
      * rewrite written_nil, Nat.add_0_r. reflexivity.
      * rewrite put_ok by lia. reflexivity.
    + destruct (nth_some mem0 src ltac:(lia)) as [x Ex]. destruct (nth_some mem0 (src + 1) ltac:(lia)) as [y Ey].
      destruct (nth_some mem0 (src + 2) ltac:(lia)) as [z Ez].
      rewrite (rd_some mem src x) by (rewrite Ha by lia; exact Ex). rewrite (rd_some mem (src + 1) y) by (rewrite Ha by lia; exact Ey).
      rewrite (rd_some mem (src + 2) z) by (rewrite Ha by lia; exact Ez).
      rewrite (skipn_nth mem0 src x Ex), (skipn_nth mem0 (src + 1) y Ey) in E.
      replace (src + 1 + 1)%nat with (src + 2)%nat in E by lia. rewrite (skipn_nth mem0 (src + 2) z Ez) in E. cbn [bind]. cbv zeta in *.
      destruct ((tget dec x =? 255) || (tget dec y =? 255) || (tget dec z =? 255)); injection E as <-; cbn [length] in *.
      * rewrite written_nil, Nat.add_0_r. reflexivity.
      * rewrite puts_ok by (cbn [length]; lia). reflexivity.
  - destruct (nth_some mem0 src ltac:(lia)) as [x Ex]. destruct (nth_some mem0 (src + 1) ltac:(lia)) as [y Ey].
    destruct (nth_some mem0 (src + 2) ltac:(lia)) as [z Ez]. destruct (nth_some mem0 (src + 3) ltac:(lia)) as [w Ew].
    rewrite (rd_some mem src x) by (rewrite Ha by lia; exact Ex). rewrite (rd_some mem (src + 1) y) by (rewrite Ha by lia; exact Ey).
    rewrite (rd_some mem (src + 2) z) by (rewrite Ha by lia; exact Ez). rewrite (rd_some mem (src + 3) w) by (rewrite Ha by lia; exact Ew).
    rewrite (skipn_nth mem0 src x Ex), (skipn_nth mem0 (src + 1) y Ey) in E.
    replace (src + 1 + 1)%nat with (src + 2)%nat in E by lia. rewrite (skipn_nth mem0 (src + 2) z Ez) in E.
    replace (src + 2 + 1)%nat with (src + 3)%nat in E by lia. rewrite (skipn_nth mem0 (src + 3) w Ew) in E.
    cbn [from_base64_loop bind] in *. cbv zeta in *.
    destruct ((tget dec x =? 255) || (tget dec y =? 255) || (tget dec z =? 255) || (tget dec w =? 255)).
    + injection E as <-. cbn [length]. rewrite written_nil, Nat.add_0_r. reflexivity.
    + apply bind_Ok in E. destruct E as (o & E & E'). injection E' as <-. cbn [length] in Hd.
      match goal with |- context [puts mem dst ?v] => set (o3 := v) end.
      assert (Hl3 : length o3 = 3%nat) by reflexivity.
      rewrite puts_ok by lia. cbn [bind].
      rewrite (IH t (written mem dst o3) mem0 (src + 4)%nat (dst + 3)%nat dec o); try (rewrite written_length); try lia.
      * f_equal. f_equal; [cbn [length]; lia|]. rewrite w_app by lia. reflexivity.
      * apply agree_written; [eapply agree_sub; [exact Ha| |]| |]; lia.
      * replace (src + 4)%nat with (src + 3 + 1)%nat by lia. exact E.
Qed.

(** ** base32 *)
Lemma sk mem p x q : nth_error mem p = Some x -> q = (p + 1)%nat -> skipn p mem = x :: skipn (A:=Z) q mem.
Proof. intros H ->. apply skipn_nth, H. Qed.

Lemma to_base32_mem_ok : forall n t mem mem0 src dst raw out, (t < 5)%nat ->
  agree mem mem0 src (src + (5 * n + t)) -> length mem = length mem0 -> (src + (5 * n + t) <= length mem)%nat ->
  out = to_base32_chars (region mem0 src (5 * n + t)) raw ->
  (dst + length out <= length mem)%nat -> (src + (5 * n + t) <= dst \/ dst + length out <= src)%nat ->
  to_base32_mem_loop n t mem src dst raw = Ok (written mem dst out).
Proof.
  induction n as [|n IH]; intros t mem mem0 src dst raw out Ht Ha Hlen Hs Eo Hd Hov; cbn [to_base32_mem_loop].
  - destruct t as [|[|[|[|[|t]]]]]; [| | | | |lia].
    + unfold region in Eo. cbn in Eo. subst out. rewrite written_nil. reflexivity.
    + destruct (nth_some mem0 src ltac:(lia)) as [x0 E0].
      rewrite (rd_some mem src x0) by (rewrite Ha by lia; exact E0). cbn [bind].
      unfold region in Eo. rewrite (sk mem0 src x0 (src + 1) E0 eq_refl) in Eo.
      cbn [Nat.mul Nat.add firstn to_base32_chars] in Eo. cbv zeta in Eo.
      destruct raw; subst out; cbn [length negb] in *; rewrite puts_ok by (cbn [length]; lia); cbn [bind]; [reflexivity|].
      rewrite puts_ok by (rewrite written_length; cbn [length]; lia). rewrite w_app by (cbn [length]; lia). reflexivity.
    + destruct (nth_some mem0 src ltac:(lia)) as [x0 E0]. destruct (nth_some mem0 (src + 1) ltac:(lia)) as [x1 E1].
      rewrite (rd_some mem src x0) by (rewrite Ha by lia; exact E0). rewrite (rd_some mem (src + 1) x1) by (rewrite Ha by lia; exact E1). cbn [bind].
      unfold region in Eo. rewrite (sk mem0 src x0 (src + 1) E0 eq_refl), (sk mem0 (src + 1) x1 (src + 2) E1 ltac:(lia)) in Eo.
      cbn [Nat.mul Nat.add firstn to_base32_chars] in Eo. cbv zeta in Eo.
      destruct raw; subst out; cbn [length negb] in *; rewrite puts_ok by (cbn [length]; lia); cbn [bind]; [reflexivity|].
      rewrite puts_ok by (rewrite written_length; cbn [length]; lia). rewrite w_app by (cbn [length]; lia). reflexivity.
    + destruct (nth_some mem0 src ltac:(lia)) as [x0 E0]. destruct (nth_some mem0 (src + 1) ltac:(lia)) as [x1 E1].
      destruct (nth_some mem0 (src + 2) ltac:(lia)) as [x2 E2].
      rewrite (rd_some mem src x0) by (rewrite Ha by lia; exact E0). rewrite (rd_some mem (src + 1) x1) by (rewrite Ha by lia; exact E1).
      rewrite (rd_some mem (src + 2) x2) by (rewrite Ha by lia; exact E2). cbn [bind].
      unfold region in Eo. rewrite (sk mem0 src x0 (src + 1) E0 eq_refl), (sk mem0 (src + 1) x1 (src + 2) E1 ltac:(lia)), (sk mem0 (src + 2) x2 (src + 3) E2 ltac:(lia)) in Eo.
      cbn [Nat.mul Nat.add firstn to_base32_chars] in Eo. cbv zeta in Eo.
      destruct raw; subst out; cbn [length negb] in *; rewrite puts_ok by (cbn [length]; lia); cbn [bind]; [reflexivity|].
      rewrite puts_ok by (rewrite written_length; cbn [length]; lia). rewrite w_app by (cbn [length]; lia). reflexivity.
    + destruct (nth_some mem0 src ltac:(lia)) as [x0 E0]. destruct (nth_some mem0 (src + 1) ltac:(lia)) as [x1 E1].
      destruct (nth_some mem0 (src + 2) ltac:(lia)) as [x2 E2]. destruct (nth_some mem0 (src + 3) ltac:(lia)) as [x3 E3].
      rewrite (rd_some mem src x0) by (rewrite Ha by lia; exact E0). rewrite (rd_some mem (src + 1) x1) by (rewrite Ha by lia; exact E1).
      rewrite (rd_some mem (src + 2) x2) by (rewrite Ha by lia; exact E2). rewrite (rd_some mem (src + 3) x3) by (rewrite Ha by lia; exact E3). cbn [bind].
      unfold region in Eo. rewrite (sk mem0 src x0 (src + 1) E0 eq_refl), (sk mem0 (src + 1) x1 (src + 2) E1 ltac:(lia)), (sk mem0 (src + 2) x2 (src + 3) E2 ltac:(lia)), (sk mem0 (src + 3) x3 (src + 4) E3 ltac:(lia)) in Eo.
      cbn [Nat.mul Nat.add firstn to_base32_chars] in Eo. cbv zeta in Eo.
      destruct raw; subst out; cbn [length negb] in *; rewrite puts_ok by (cbn [length]; lia); cbn [bind]; [reflexivity|].
      rewrite put_ok by (rewrite written_length; cbn [length]; lia). rewrite w_app by (cbn [length]; lia). reflexivity.
  - destruct (nth_some mem0 src ltac:(lia)) as [x0 E0]. destruct (nth_some mem0 (src + 1) ltac:(lia)) as [x1 E1].
    destruct (nth_some mem0 (src + 2) ltac:(lia)) as [x2 E2]. destruct (nth_some mem0 (src + 3) ltac:(lia)) as [x3 E3].
    destruct (nth_some mem0 (src + 4) ltac:(lia)) as [x4 E4].
    rewrite (rd_some mem src x0) by (rewrite Ha by lia; exact E0). rewrite (rd_some mem (src + 1) x1) by (rewrite Ha by lia; exact E1).
    rewrite (rd_some mem (src + 2) x2) by (rewrite Ha by lia; exact E2). rewrite (rd_some mem (src + 3) x3) by (rewrite Ha by lia; exact E3).
    rewrite (rd_some mem (src + 4) x4) by (rewrite Ha by lia; exact E4). cbn [bind].
    unfold region in Eo. rewrite (sk mem0 src x0 (src + 1) E0 eq_refl), (sk mem0 (src + 1) x1 (src + 2) E1 ltac:(lia)), (sk mem0 (src + 2) x2 (src + 3) E2 ltac:(lia)), (sk mem0 (src + 3) x3 (src + 4) E3 ltac:(lia)), (sk mem0 (src + 4) x4 (src + 5) E4 ltac:(lia)) in Eo.
    replace (5 * S n + t)%nat with (S (S (S (S (S (5 * n + t)))))) in Eo, Ha, Hs, Hov by lia. cbn [firstn to_base32_chars] in Eo. cbv zeta in Eo.
    fold (region mem0 (src + 5) (5 * n + t)) in Eo.
    match type of Eo with out = ?a :: ?b :: ?c :: ?d :: ?e :: ?f :: ?g :: ?h :: ?r => set (o8 := [a; b; c; d; e; f; g; h]) in *; set (r' := r) in * end.
    change (out = o8 ++ r') in Eo.
    assert (Hl8 : length o8 = 8%nat) by reflexivity.
    assert (Hl : length out = (8 + length r')%nat) by (rewrite Eo; reflexivity).
    cbv zeta. fold o8. rewrite puts_ok by lia. cbn [bind].
    rewrite (IH t _ mem0 (src + 5)%nat (dst + 8)%nat raw r'); try (rewrite written_length); try reflexivity; try lia.
    + rewrite w_app by lia. rewrite Eo. reflexivity.
    + apply agree_written; [eapply agree_sub; [exact Ha| |]| |]; lia.
Qed.

Lemma dec_char_agree dec mem mem0 a b src i : agree mem mem0 a b -> (a <= src + i < b)%nat ->
  dec_char dec mem (src + i) = dec_char dec (skipn src mem0) i.
Proof. intros Ha Hi. unfold dec_char, rd. rewrite nth_error_skipn, Ha by exact Hi. reflexivity. Qed.
Lemma dec_char_agree0 dec mem mem0 a b src : agree mem mem0 a b -> (a <= src < b)%nat ->
  dec_char dec mem src = dec_char dec (skipn src mem0) 0.
Proof. intros Ha Hi. rewrite <- (Nat.add_0_r src) at 1. eapply dec_char_agree; [exact Ha|lia]. Qed.

Lemma from_base32_tail_mem t mem mem0 src dst dec out : (t < 8)%nat ->
  agree mem mem0 src (src + t) -> (dst <= src \/ src + t <= dst)%nat ->
  from_base32_tail t (skipn src mem0) dec = Ok out -> (dst + length out <= length mem)%nat ->
  from_base32_mem_tail t mem src dst dec = Ok ((dst + length out)%nat, written mem dst out).
Proof.
  intros Ht Ha Hov E Hd. unfold from_base32_mem_tail, from_base32_tail in *. cbv zeta in *.
  assert (Z0 : forall m, Ok (dst, m) = Ok ((dst + 0)%nat, written m dst [])) by (intros; rewrite written_nil, Nat.add_0_r; reflexivity).
  destruct t as [|[|[|[|[|[|[|[|t]]]]]]]]; [..|lia];
    match type of E with context [u8 ?e] => let v := eval vm_compute in (u8 e) in change (u8 e) with v in * end; cbn [Z.ltb Z.compare Pos.compare Pos.compare_cont] in *;
    try (injection E as <-; apply Z0).
  - rewrite (dec_char_agree0 dec mem mem0 _ _ src Ha) by lia. rewrite (dec_char_agree dec mem mem0 _ _ src 1 Ha) by lia.
    destruct (dec_char dec (skipn src mem0) 0) as [b1| |]; cbn [bind] in *; try discriminate.
    destruct (dec_char dec (skipn src mem0) 1) as [b2| |]; cbn [bind] in *; try discriminate.
    injection E as <-. cbn [length] in *. rewrite put_ok by lia. reflexivity.
  - rewrite (dec_char_agree0 dec mem mem0 _ _ src Ha) by lia. rewrite (dec_char_agree dec mem mem0 _ _ src 1 Ha) by lia.
    destruct (dec_char dec (skipn src mem0) 0) as [b1| |]; cbn [bind] in *; try discriminate.
    destruct (dec_char dec (skipn src mem0) 1) as [b2| |]; cbn [bind] in *; try discriminate.
    destruct (dec_char dec (skipn src mem0) 2) as [b3| |] eqn:D3; cbn [bind] in *; try discriminate.
    destruct (dec_char dec (skipn src mem0) 3) as [b4| |] eqn:D4; cbn [bind] in *; try discriminate.
    injection E as <-. cbn [length] in *. rewrite put_ok by lia. cbn [bind].
    assert (Ha1 : agree (written mem dst [b32_o0 b1 b2]) mem0 (src + 2) (src + 4)) by (apply agree_written; [eapply agree_sub; [exact Ha|lia|lia]|cbn [length]; lia|cbn [length]; lia]).
    rewrite (dec_char_agree dec _ mem0 _ _ src 2 Ha1) by lia. rewrite (dec_char_agree dec _ mem0 _ _ src 3 Ha1) by lia.
    rewrite D3, D4. cbn [bind]. rewrite put_ok by (rewrite written_length; cbn [length]; lia). cbn [bind].
    rewrite w_app by (cbn [length]; lia). reflexivity.
  - rewrite (dec_char_agree0 dec mem mem0 _ _ src Ha) by lia. rewrite (dec_char_agree dec mem mem0 _ _ src 1 Ha) by lia.
    destruct (dec_char dec (skipn src mem0) 0) as [b1| |]; cbn [bind] in *; try discriminate.
    destruct (dec_char dec (skipn src mem0) 1) as [b2| |]; cbn [bind] in *; try discriminate.
    destruct (dec_char dec (skipn src mem0) 2) as [b3| |] eqn:D3; cbn [bind] in *; try discriminate.
    destruct (dec_char dec (skipn src mem0) 3) as [b4| |] eqn:D4; cbn [bind] in *; try discriminate.
    destruct (dec_char dec (skipn src mem0) 4) as [b5| |] eqn:D5; cbn [bind] in *; try discriminate.
    injection E as <-. cbn [length] in *. rewrite put_ok by lia. cbn [bind].
    assert (Ha1 : agree (written mem dst [b32_o0 b1 b2]) mem0 (src + 2) (src + 5)) by (apply agree_written; [eapply agree_sub; [exact Ha|lia|lia]|cbn [length]; lia|cbn [length]; lia]).
    rewrite (dec_char_agree dec _ mem0 _ _ src 2 Ha1) by lia. rewrite (dec_char_agree dec _ mem0 _ _ src 3 Ha1) by lia.
    rewrite D3, D4. cbn [bind]. rewrite put_ok by (rewrite written_length; cbn [length]; lia). cbn [bind].
    rewrite w_app by (cbn [length]; lia). cbn [app].
    assert (Ha2 : agree (written mem dst [b32_o0 b1 b2; b32_o1 b2 b3 b4]) mem0 (src + 4) (src + 5)) by (apply agree_written; [eapply agree_sub; [exact Ha|lia|lia]|cbn [length]; lia|cbn [length]; lia]).
    rewrite (dec_char_agree dec _ mem0 _ _ src 4 Ha2) by lia. rewrite D5. cbn [bind].
    rewrite put_ok by (rewrite written_length; cbn [length]; lia). cbn [bind]. rewrite w_app by (cbn [length]; lia). reflexivity.
  - rewrite (dec_char_agree0 dec mem mem0 _ _ src Ha) by lia. rewrite (dec_char_agree dec mem mem0 _ _ src 1 Ha) by lia.
    destruct (dec_char dec (skipn src mem0) 0) as [b1| |]; cbn [bind] in *; try discriminate.
    destruct (dec_char dec (skipn src mem0) 1) as [b2| |]; cbn [bind] in *; try discriminate.
    destruct (dec_char dec (skipn src mem0) 2) as [b3| |] eqn:D3; cbn [bind] in *; try discriminate.
    destruct (dec_char dec (skipn src mem0) 3) as [b4| |] eqn:D4; cbn [bind] in *; try discriminate.
    destruct (dec_char dec (skipn src mem0) 4) as [b5| |] eqn:D5; cbn [bind] in *; try discriminate.
    destruct (dec_char dec (skipn src mem0) 5) as [b6| |] eqn:D6; cbn [bind] in *; try discriminate.
    destruct (dec_char dec (skipn src mem0) 6) as [b7| |] eqn:D7; cbn [bind] in *; try discriminate.
    injection E as <-. cbn [length] in *. rewrite put_ok by lia. cbn [bind].
    assert (Ha1 : agree (written mem dst [b32_o0 b1 b2]) mem0 (src + 2) (src + 7)) by (apply agree_written; [eapply agree_sub; [exact Ha|lia|lia]|cbn [length]; lia|cbn [length]; lia]).
    rewrite (dec_char_agree dec _ mem0 _ _ src 2 Ha1) by lia. rewrite (dec_char_agree dec _ mem0 _ _ src 3 Ha1) by lia.
    rewrite D3, D4. cbn [bind]. rewrite put_ok by (rewrite written_length; cbn [length]; lia). cbn [bind].
    rewrite w_app by (cbn [length]; lia). cbn [app].
    assert (Ha2 : agree (written mem dst [b32_o0 b1 b2; b32_o1 b2 b3 b4]) mem0 (src + 4) (src + 7)) by (apply agree_written; [eapply agree_sub; [exact Ha|lia|lia]|cbn [length]; lia|cbn [length]; lia]).
    rewrite (dec_char_agree dec _ mem0 _ _ src 4 Ha2) by lia. rewrite D5. cbn [bind].
    rewrite put_ok by (rewrite written_length; cbn [length]; lia). cbn [bind]. rewrite w_app by (cbn [length]; lia). cbn [app].
    assert (Ha3 : agree (written mem dst [b32_o0 b1 b2; b32_o1 b2 b3 b4; b32_o2 b4 b5]) mem0 (src + 5) (src + 7)) by (apply agree_written; [eapply agree_sub; [exact Ha|lia|lia]|cbn [length]; lia|cbn [length]; lia]).
    rewrite (dec_char_agree dec _ mem0 _ _ src 5 Ha3) by lia. rewrite (dec_char_agree dec _ mem0 _ _ src 6 Ha3) by lia. rewrite D6, D7. cbn [bind].
    rewrite put_ok by (rewrite written_length; cbn [length]; lia). cbn [bind]. rewrite w_app by (cbn [length]; lia). reflexivity.
Qed.

Lemma skipn_plus {A} (l : list A) a b : skipn a (skipn b l) = skipn (b + a) l.
Proof. apply nth_error_ext. intros p. rewrite !nth_error_skipn. f_equal. lia. Qed.

Lemma from_base32_loop_mem : forall n t mem mem0 src dst dec out, (t < 8)%nat ->
  agree mem mem0 src (src + (8 * n + t)) -> length mem = length mem0 ->
  (dst <= src \/ src + (8 * n + t) <= dst)%nat ->
  from_base32_blocks n t (skipn src mem0) dec = Ok out -> (dst + length out <= length mem)%nat ->
  from_base32_mem_loop n t mem src dst dec = Ok ((dst + length out)%nat, written mem dst out).
Proof.
  induction n as [|n IH]; intros t mem mem0 src dst dec out Ht Ha Hlen Hov E Hd; cbn [from_base32_mem_loop].
  - apply (from_base32_tail_mem t mem mem0); assumption.
  - cbn [from_base32_blocks] in E.
    rewrite (dec_char_agree0 dec mem mem0 _ _ src Ha) by lia.
    rewrite (dec_char_agree dec mem mem0 _ _ src 1 Ha) by lia. rewrite (dec_char_agree dec mem mem0 _ _ src 2 Ha) by lia.
    rewrite (dec_char_agree dec mem mem0 _ _ src 3 Ha) by lia. rewrite (dec_char_agree dec mem mem0 _ _ src 4 Ha) by lia.
    rewrite (dec_char_agree dec mem mem0 _ _ src 5 Ha) by lia. rewrite (dec_char_agree dec mem mem0 _ _ src 6 Ha) by lia.
    rewrite (dec_char_agree dec mem mem0 _ _ src 7 Ha) by lia.
    do 8 (match type of E with context [bind (dec_char ?d ?m ?i) _] => destruct (dec_char d m i) as [?b| |]; cbn [bind] in *; try discriminate end).
    match type of E with (if ?c then _ else _) = _ => destruct c end.
    + injection E as <-. cbn [length]. rewrite written_nil, Nat.add_0_r. reflexivity.
    + apply bind_Ok in E. destruct E as (o & E & E'). injection E' as <-. cbn [length] in Hd.
      match goal with |- context [puts mem dst ?v] => set (o5 := v) end.
      assert (Hl5 : length o5 = 5%nat) by reflexivity.
      rewrite puts_ok by lia. cbn [bind].
      rewrite (IH t (written mem dst o5) mem0 (src + 8)%nat (dst + 5)%nat dec o); try (rewrite written_length); try lia.
      * f_equal. f_equal; [cbn [length]; lia|]. rewrite w_app by lia. reflexivity.
      * apply agree_written; [eapply agree_sub; [exact Ha| |]| |]; lia.
      * rewrite skipn_plus in E. exact E.
Qed.

(** ** varint *)
Lemma encode_varint_mem_ok v mem a n out : encode_varint v = Ok (n, out) -> (a + length out <= length mem)%nat ->
  encode_varint_mem v mem a = Ok (n, written mem a out).
Proof.
  unfold encode_varint, encode_varint_mem. intros E H. apply bind_Ok in E. destruct E as (o & E & E'). injection E' as <- <-.
  rewrite E. cbn [bind]. rewrite puts_ok by exact H. reflexivity.
Qed.
