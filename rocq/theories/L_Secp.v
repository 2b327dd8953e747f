(** A concrete instance of the curve interface that obeys [secp_laws], so that the
    theorems that assume them are not vacuous: the group Z/n with generator 1. *)
From Coq Require Import Eqdep_dec.
From Verif Require Import Base S_Words L_Endian M_Endian M_Secp S_Secp.

Definition scalarb (k : Z) : bool := (0 <? k) && (k <? secp_n).
Lemma scalarb_ok k : scalarb k = true <-> scalar k.
Proof. unfold scalarb, scalar. lia. Qed.

Definition toy_pt : Type := { k : Z | scalarb k = true }.
Lemma toy_eq (P Q : toy_pt) : proj1_sig P = proj1_sig Q -> P = Q.
Proof.
  destruct P as [p Hp], Q as [q Hq]. cbn [proj1_sig]. intros ->. f_equal. apply UIP_dec, bool_dec.
Qed.
Definition toy_one : toy_pt := exist _ 1 eq_refl.
Definition toy_mk (k : Z) : option toy_pt :=
  match bool_dec (scalarb k) true with left H => Some (exist _ k H) | right _ => None end.
Lemma toy_mk_some k P : toy_mk k = Some P -> proj1_sig P = k.
Proof. unfold toy_mk. destruct (bool_dec _ _); [|discriminate]. intros H. injection H as <-. reflexivity. Qed.
Lemma toy_mk_scalar k : scalar k -> exists P, toy_mk k = Some P.
Proof. intros H. apply scalarb_ok in H. unfold toy_mk. destruct (bool_dec _ _); [eauto|contradiction]. Qed.
Lemma toy_mk_self P : toy_mk (proj1_sig P) = Some P.
Proof.
  destruct (toy_mk_scalar (proj1_sig P)) as [Q HQ]; [apply scalarb_ok, (proj2_sig P)|].
  rewrite HQ. f_equal. apply toy_eq. now apply toy_mk_some.
Qed.
Lemma toy_mk_none k : ~ scalar k -> toy_mk k = None.
Proof. intros H. unfold toy_mk. destruct (bool_dec _ _) as [e|]; [|reflexivity]. exfalso. exact (H (proj1 (scalarb_ok k) e)). Qed.

Definition toy_pub (k : Z) : toy_pt := match toy_mk k with Some P => P | None => toy_one end.
Definition toy_add (P : toy_pt) (t : Z) : option toy_pt := toy_mk ((proj1_sig P + t) mod secp_n).
Definition toy_ser (c : bool) (P : toy_pt) : list Z :=
  if c then (2 + proj1_sig P mod 2) :: be_bytes 32 (proj1_sig P)
  else 4 :: be_bytes 32 (proj1_sig P) ++ repeat 0 32.
Definition list_eqb (a b : list Z) : bool := if list_eq_dec Z.eq_dec a b then true else false.
Definition toy_parse (b : list Z) : option toy_pt :=
  match toy_mk (be_val (firstn 32 (skipn 1 b))) with
  | None => None
  | Some P => if list_eqb b (toy_ser true P) || list_eqb b (toy_ser false P) then Some P else None
  end.
(** ECDSA lookalike: (r, s) is good for hash h and public key k when r = s + h + k. *)
Definition toy_verify (sig : Z * Z) (hash : list Z) (P : toy_pt) : bool :=
  let '(r, s) := sig in scalarb r && scalarb s && (r =? (s + be_val hash + proj1_sig P) mod secp_n).
Definition toy_sign (key hash : list Z) (extra : option (list Z)) : option (Z * Z) :=
  let k := be_val key in
  if negb (scalarb k) then None else
  let c := match extra with None => 1 | Some e => 2 + le_val (firstn 4 e) mod 2 ^ 32 end in
  let r := (c + be_val hash + k) mod secp_n in
  if r =? 0 then Some (1, c + 1) else Some (r, c).
Definition toy : secp := mkSecp toy_pt toy_pub toy_add toy_ser toy_parse toy_verify toy_sign.

Lemma toy_pub_val k : scalar k -> proj1_sig (toy_pub k) = k.
Proof. intros H. unfold toy_pub. destruct (toy_mk_scalar k H) as [P E]. rewrite E. now apply toy_mk_some. Qed.
Lemma list_eqb_eq a b : list_eqb a b = true <-> a = b.
Proof. unfold list_eqb. destruct (list_eq_dec _ _ _); split; congruence. Qed.
Lemma n_bound : 0 < secp_n < 256 ^ Z.of_nat 32. Proof. split; reflexivity. Qed.
Lemma be32_small k : 0 <= k < secp_n -> be_val (be_bytes 32 k) = k.
Proof. intros H. rewrite be_val_be_bytes. apply Z.mod_small. pose proof n_bound. lia. Qed.
Lemma toy_ser_val c P : be_val (firstn 32 (skipn 1 (toy_ser c P))) = proj1_sig P.
Proof.
  pose proof (proj2_sig P) as H. apply scalarb_ok in H. unfold scalar in H. destruct c; unfold toy_ser.
  - change (skipn 1 (?a :: ?b)) with b. rewrite firstn_all2 by (rewrite be_bytes_length; lia). apply be32_small. lia.
  - change (skipn 1 (?a :: ?b)) with b. rewrite firstn_app, be_bytes_length, Nat.sub_diag, firstn_all2 by (rewrite be_bytes_length; lia).
    cbn [firstn]. rewrite app_nil_r. apply be32_small. lia.
Qed.

Theorem toy_laws : secp_laws toy.
Proof.
  pose proof n_bound as Hn.
  constructor; cbn [toy pt add_gen pub_of ser parse ecdsa ecdsa_ok].
  - intros k t Hk Ht. unfold toy_add. rewrite toy_pub_val by assumption.
    assert (B : 0 <= (k + t) mod secp_n < secp_n) by (apply Z.mod_pos_bound; lia).
    destruct (Z.eqb_spec ((k + t) mod secp_n) 0) as [E|E].
    + apply toy_mk_none. unfold scalar. lia.
    + assert (S : scalar ((k + t) mod secp_n)) by (unfold scalar; lia).
      unfold toy_pub. destruct (toy_mk_scalar _ S) as [P EP]. now rewrite EP.
  - intros P. pose proof (proj2_sig P) as H. unfold toy_ser. split; [cbn [length]; now rewrite be_bytes_length|].
    split; [|cbn [hd]; dlia]. apply bytes_cons. split; [unfold is_byte; dlia|apply be_bytes_bytes].
  - intros P. unfold toy_ser. split; [cbn [length]; rewrite app_length, be_bytes_length, repeat_length; reflexivity|].
    split; [|reflexivity]. apply bytes_cons. split; [unfold is_byte; lia|]. apply bytes_app. split; [apply be_bytes_bytes|].
    apply Forall_forall. intros x Hx. apply repeat_spec in Hx. subst. unfold is_byte; lia.
  - intros c P. unfold toy_parse. rewrite toy_ser_val, toy_mk_self.
    destruct c; [rewrite (proj2 (list_eqb_eq _ _) eq_refl)|rewrite (proj2 (list_eqb_eq (toy_ser false P) _) eq_refl), orb_true_r]; reflexivity.
  - intros b P Hb L. unfold toy_parse. destruct (toy_mk _) as [Q|]; [|discriminate].
    destruct (list_eqb b (toy_ser true Q)) eqn:E1; cbn [orb].
    + apply list_eqb_eq in E1. intros H. injection H as ->. now symmetry.
    + destruct (list_eqb b (toy_ser false Q)) eqn:E2; [|discriminate]. apply list_eqb_eq in E2. subst b.
      unfold toy_ser in L. cbn [length] in L. rewrite app_length, be_bytes_length, repeat_length in L. discriminate.
  - intros key hash extra r s Bk Lk Bh Lh. unfold toy_sign. set (k := be_val key). set (h := be_val hash).
    destruct (negb (scalarb k)) eqn:Ek; [discriminate|]. apply negb_false_iff, scalarb_ok in Ek.
    set (c := match extra with None => 1 | Some e => 2 + le_val (firstn 4 e) mod 2 ^ 32 end).
    assert (Hc : 1 <= c <= 2 ^ 32 + 1).
    { unfold c. destruct extra as [e|]; [|lia]. pose proof (Z.mod_pos_bound (le_val (firstn 4 e)) (2 ^ 32) ltac:(lia)). lia. }
    assert (H2 : 2 ^ 32 + 2 <= secp_n / 2) by (now apply Z.leb_le). assert (H3 : secp_n / 2 < secp_n) by (now apply Z.ltb_lt).
    assert (B : 0 <= (c + h + k) mod secp_n < secp_n) by (apply Z.mod_pos_bound; lia).
    destruct (Z.eqb_spec ((c + h + k) mod secp_n) 0) as [E|E]; intros H; injection H as <- <-.
    + split; [exact Ek|]. split; [unfold scalar; lia|]. split; [lia|]. unfold toy_verify. rewrite toy_pub_val by assumption. fold h.
      rewrite (proj2 (scalarb_ok 1)) by (unfold scalar; lia). rewrite (proj2 (scalarb_ok (c + 1))) by (unfold scalar; lia). cbn [andb].
      apply Z.eqb_eq. replace (c + 1 + h + k) with ((c + h + k) + 1) by lia. rewrite Z.add_mod, E by lia. reflexivity.
    + split; [exact Ek|]. split; [unfold scalar; lia|]. split; [lia|]. unfold toy_verify. rewrite toy_pub_val by assumption. fold h.
      rewrite (proj2 (scalarb_ok ((c + h + k) mod secp_n))) by (unfold scalar; lia). rewrite (proj2 (scalarb_ok c)) by (unfold scalar; lia).
      cbn [andb]. now apply Z.eqb_eq.
  - intros key hash extra Bk Lk Bh Lh Hk. unfold toy_sign. apply scalarb_ok in Hk. rewrite Hk. cbn [negb].
    destruct (_ =? 0); discriminate.
Qed.
