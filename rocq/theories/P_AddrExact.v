(** C125: exactly what address decoding gives. *)
From Verif Require Import Base L_Endian S_Bits S_Rfc4648 L_Bits L_Rfc M_Base32 L_Base32 S_Base32Exact P_Base32Exact.
From Verif Require Import S_Base58 S_Base58Check S_Bech32 S_Address S_Key M_Base58 M_Base58Check M_Bech32 M_Address L_Base58 L_Base58Check L_Bech32 L_Address P_Bech32 P_Address S_AddrExact.

Lemma trace_from text rest d : Forall (fun c => 0 < c < 128) text -> Z.of_nat (length text) * 733 <= INT_MAX ->
  base58_trace text d <-> from_base58 (text ++ 0 :: rest) (length text) = Ok (length d, d).
Proof.
  intros A Hl. destruct (from_base58_cases text rest A Hl) as [(body & out & T & F & I & Bo & _ & _ & E)|[N E]]; rewrite E.
  - split.
    + intros [[(b & Tb & Ib) Bd]|[-> N]].
      * rewrite (trims_fun text body b T F Tb (alpha_of _ _ Ib)) in I. rewrite (is_base58_inj d out b Bd Bo Ib I). reflexivity.
      * exfalso. apply N. exists out. split; [exact Bo|]. exists body. auto.
    + intros H. assert (H' : out = d) by congruence. subst d. left. split; [exists body; auto|exact Bo].
  - split.
    + intros [[(b & Tb & Ib) Bd]|[-> _]]; [|reflexivity]. exfalso. apply N. exists b. split; [exact Tb|exact (alpha_of _ _ Ib)].
    + intros H. assert (H' : [] = d) by congruence. subst d. right. split; [reflexivity|]. intros (d' & _ & b & Tb & Ib). apply N. exists b. split; [exact Tb|exact (alpha_of _ _ Ib)].
Qed.

Lemma trace_total text : Forall (fun c => 0 < c < 128) text -> Z.of_nat (length text) * 733 <= INT_MAX -> exists d, base58_trace text d.
Proof.
  intros A Hl. destruct (from_base58_cases text [] A Hl) as [(body & out & _ & _ & _ & _ & _ & _ & F)|[_ F]].
  - exists out. apply (trace_from text [] _ A Hl). exact F.
  - exists []. apply (trace_from text [] _ A Hl). exact F.
Qed.

Lemma attempt text rest cap p stack d : builtin p -> Forall (fun c => 0 < c < 128) text -> Z.of_nat (length text) * 733 <= INT_MAX ->
  (announced (length text) <= cap)%nat -> ~ also_base58 (cp_pubkey p) (cp_script p) text -> base58_trace text d ->
  address_decode (text ++ 0 :: rest) (length text) cap p stack = decode_bech32 (text ++ 0 :: rest) (length text) d cap p stack.
Proof.
  intros Bp A Hl Hc N T. destruct (b58_args p Bp) as (Np & Ns & Bpk & Bsc & _).
  apply (trace_from text rest d A Hl) in T. unfold address_decode.
  assert (Hlt : (cap <? from_base58_check_length (length text))%nat = false) by (apply Nat.ltb_ge; exact Hc). rewrite Hlt. clear Hlt.
  destruct (from_base58_check_cases text rest A Hl) as (n & out & E & En & Bo & Ec).
  assert (Eo : out = d) by congruence. subst out.
  destruct (from_base58_check_ok text rest A Hl) as [(data & body & Tr & B & Bd & R)|[Nx (o & R)]].
  - assert (Eo : data ++ checksum4 data = d) by (rewrite R in Ec; injection Ec; auto). rewrite R. cbn [bind].
    assert (C : forall x, x <> [] -> bytes x -> (forall pl, bytes pl -> ~ base58_address x pl text) ->
      negb (length data =? 0)%nat && (length x <=? length data)%nat && bytes_eqb (firstn (length x) (data ++ checksum4 data)) x = false).
    { intros x Hx Bx Nx. destruct (negb (length data =? 0)%nat && (length x <=? length data)%nat && bytes_eqb (firstn (length x) (data ++ checksum4 data)) x) eqn:Eb;
        [exfalso|reflexivity].
      apply andb_true_iff in Eb as [Eb E3]. apply andb_true_iff in Eb as [_ E2]. apply Nat.leb_le in E2. apply bytes_eqb_eq in E3.
      rewrite firstn_app in E3. replace (length x - length data)%nat with 0%nat in E3 by lia. cbn [firstn] in E3. rewrite app_nil_r in E3.
      apply (Nx (skipn (length x) data)); [now apply bytes_skipn|]. exists body. split; [exact Tr|]. rewrite <- E3 at 1. now rewrite firstn_skipn. }
    rewrite (C (cp_pubkey p)), (C (cp_script p)), Eo; auto; intros pl Bpl H; apply N; exists pl; auto.
  - assert (Eo : o = d) by (rewrite R in Ec; injection Ec; auto). subst o. rewrite R. cbn [bind]. reflexivity.
Qed.

Lemma in_split_first (P : Z -> Prop) (dec : forall x, {P x} + {~ P x}) l : (exists a x b, l = a ++ x :: b /\ P x /\ Forall (fun y => ~ P y) a) \/ Forall (fun y => ~ P y) l.
Proof.
  induction l as [|x l IH]; [right; constructor|]. destruct (dec x) as [H|H].
  - left. exists [], x, l. split; [reflexivity|]. split; [exact H|constructor].
  - destruct IH as [(a & y & b & E & Py & F)|F]; [left|right].
    + exists (x :: a), y, b. split; [cbn [app]; congruence|]. split; [exact Py|constructor; auto].
    + constructor; auto.
Qed.
Lemma program_read_total vals left : exists o, program_read vals left o.
Proof.
  destruct (in_split_first (fun x => x = 61 \/ x = 0)) with (l := vals ++ left) as [(a & x & b & E & Px & F)|F].
  - intros x. destruct (Z.eq_dec x 61); [left; auto|]. destruct (Z.eq_dec x 0); [left; auto|right; tauto].
  - rewrite Forall_forall in F. assert (N1 : ~ In 61 a) by (intros I; apply F in I; tauto). assert (N2 : ~ In 0 a) by (intros I; apply F in I; tauto).
    destruct Px as [->| ->]; eexists; [eapply read_mark|eapply read_nul]; eassumption.
  - rewrite Forall_forall in F. exists None. apply read_none; intros I; apply F in I; tauto.
Qed.

Lemma program_read_model vals left o : bytes (vals ++ left) -> program_read vals left o ->
  from_base32_raw (vals ++ left) (length vals) = result o.
Proof.
  intros B R. destruct (C22_decoders_exact (vals ++ left) B) as (X1 & X2 & X3).
  assert (L : (length vals <= length (vals ++ left))%nat) by (rewrite app_length; lia).
  destruct R as [a b E N1 N2|a b E N1 N2|N1 N2].
  - destruct (X2 a b (length vals) E N1 N2 L) as [_ ->]. now rewrite firstn_app_exact.
  - destruct (X1 a b (length vals) E N1 N2) as [_ ->]. reflexivity.
  - destruct (X3 (length vals) N1 N2) as [_ ->]. reflexivity.
Qed.

Lemma valid_facts p text ver vals : builtin p -> bech32_valid text (cp_hrp p) (ver :: vals) ->
  five_bit ver /\ Forall five_bit vals /\ (length vals + 10 <= length text)%nat /\ (length text <= 90)%nat.
Proof.
  intros Bp (L90 & _ & _ & h & d & chk & Es & Hne & _ & Eh & F & Lc & M & _). apply Forall_app in F as [F _]. inversion F as [|? ? Hv Fv]; subst x l.
  split; [exact Hv|]. split; [exact Fv|]. split; [|exact L90].
  apply (f_equal (@length Z)) in M. rewrite !map_length, app_length in M. cbn [length] in M. rewrite Es, !app_length. cbn [length].
  apply (f_equal (@length Z)) in Eh. rewrite map_length in Eh. assert (length (cp_hrp p) >= 2)%nat by (destruct Bp as [-> |[-> | ->]]; cbn; lia). lia.
Qed.
Lemma raw_length_le n : (from_base32_raw_length n <= n * 5 / 8)%nat.
Proof.
  unfold from_base32_raw_length. pose proof (Nat.div_mod n 8 ltac:(lia)) as D. pose proof (Nat.mod_upper_bound n 8 ltac:(lia)) as U.
  set (m := (n mod 8)%nat) in *. set (q := (n / 8)%nat) in *. clearbody m q. apply Nat.div_le_lower_bound; [lia|].
  destruct m as [|[|[|[|[|[|[|[|m]]]]]]]]; try lia; vm_compute (Z.to_nat _); lia.
Qed.
Lemma room (n L cap : nat) : (n + 10 <= L)%nat -> (announced L <= cap)%nat -> (from_base32_raw_length n <= cap)%nat.
Proof.
  intros H1 H2. pose proof (raw_length_le n). unfold announced in H2.
  pose proof (Nat.div_mod (n * 5) 8 ltac:(lia)). pose proof (Nat.div_mod (L * 733) 1000 ltac:(lia)). pose proof (Nat.mod_upper_bound (L * 733) 1000 ltac:(lia)). lia.
Qed.

Lemma witness_exact text rest p ver vals stack out cap o : builtin p -> bech32_valid text (cp_hrp p) (ver :: vals) ->
  bytes stack -> length stack = 128%nat -> (announced (length text) <= cap)%nat -> program_read vals (skipn (1 + length vals) stack) o ->
  decode_bech32 (text ++ 0 :: rest) (length text) out cap p stack =
    match o with None => UB | Some prog =>
      Ok (if ver =? 0 then
            mkAddr (if (length prog =? 20)%nat then WITNESSV0_KEYHASH_ADDRESS
                    else if (length prog =? 32)%nat then WITNESSV0_SCRIPTHASH_ADDRESS else BAD_ADDRESS)
                   (length prog) (overlay prog out)
          else
            mkAddr (if (ver <=? 16) && (2 <=? length prog)%nat && (length prog <=? 40)%nat then WITNESS_UNKNOWN_ADDRESS else BAD_ADDRESS)
                   (1 + length prog) (overlay (ver :: prog) out)) end.
Proof.
  intros Bp V Bs Hs Hc R. destruct (valid_facts p text ver vals Bp V) as (Hv & Fv & Lv & L90).
  assert (Hh : (length (cp_hrp p) <= 16)%nat) by (destruct Bp as [-> |[-> | ->]]; cbn; lia).
  assert (Bm : bytes (vals ++ skipn (1 + length vals) stack)).
  { apply bytes_app. split; [eapply Forall_impl; [|exact Fv]; unfold five_bit, is_byte; intros; lia|now apply bytes_skipn]. }
  pose proof (program_read_model _ _ o Bm R) as X. cbn [Nat.add] in X.
  unfold decode_bech32. rewrite (bech32_decode_accepts text rest (cp_hrp p) (ver :: vals) 16 V Hh). cbn [bind b_ret b_hrp_size b_hrp b_data].
  rewrite Nat.eqb_refl. rewrite (proj2 (bytes_eqb_eq (cp_hrp p) (cp_hrp p)) eq_refl). cbn [length].
  replace (Z.of_nat (S (length vals)) <? 1) with false by lia. cbn [negb orb].
  rewrite store_ok by (cbn [length]; lia). cbn [bind length firstn app].
  replace (Z.to_nat (Z.of_nat (S (length vals)) - 1)) with (length vals) by lia.
  pose proof (room _ _ _ Lv Hc) as Ro.
  replace (from_base32_raw_length (length vals) <=? cap)%nat with true by lia.
  cbn [rd nth_error bind skipn]. cbn [Nat.add]. rewrite X. unfold as_char. unfold five_bit in Hv.
  replace (ver <? 128) with true by lia. destruct o as [prog|]; cbn [result bind]; [|destruct (ver =? 0); reflexivity].
  destruct (Z.eqb_spec ver 0) as [->|Hnz].
  - unfold WITNESSV0_KEYID_SIZE, WITNESSV0_SCRIPTID_SIZE. destruct (length prog =? 20)%nat; [reflexivity|]. destruct (length prog =? 32)%nat; reflexivity.
  - rewrite u8_id by (unfold is_byte; lia).
    replace ((16 <? ver) || (length prog + 1 <? 3)%nat || (41 <? length prog + 1)%nat) with (negb ((ver <=? 16) && (2 <=? length prog)%nat && (length prog <=? 40)%nat)) by lia.
    rewrite Nat.add_comm. destruct ((ver <=? 16) && (2 <=? length prog)%nat && (length prog <=? 40)%nat); reflexivity.
Qed.

(** The classification of the specification as the library's constants. *)
Definition kind_code (k : kind) : address_kind :=
  match k with Bad => BAD_ADDRESS | PubkeyHash => PUBKEY_ADDRESS | ScriptHash => SCRIPT_ADDRESS
  | WitnessKeyHash => WITNESSV0_KEYHASH_ADDRESS | WitnessScriptHash => WITNESSV0_SCRIPTHASH_ADDRESS | WitnessOther => WITNESS_UNKNOWN_ADDRESS end.
(** The outcome of the call is the reading. *)
Definition gives (outcome : res address_result) (r : option reading) : Prop :=
  match r with
  | None => outcome = UB
  | Some x => exists out, outcome = Ok (mkAddr (kind_code (what x)) (size x) out) /\
      firstn (length (content x)) out = content x /\ length out = extent x
  end.

(** C125: for every network, every text of ASCII characters, whatever follows it in memory, every capacity and every content of
    the scratch buffer, the specification gives one reading, and the call gives that reading. *)
Theorem C125_address_decode_exact : forall p text rest cap stack, builtin p ->
  Forall (fun c => 0 < c < 128) text -> Z.of_nat (length text) * 733 <= INT_MAX -> bytes stack -> length stack = 128%nat ->
  let outcome := address_decode (text ++ 0 :: rest) (length text) cap p stack in
  (exists r, address_read (cp_pubkey p) (cp_script p) (cp_hrp p) text cap stack r) /\
  (forall r, address_read (cp_pubkey p) (cp_script p) (cp_hrp p) text cap stack r -> gives outcome r).
Proof.
  intros p text rest cap stack Bp A Hl Bs Ls outcome. destruct (b58_args p Bp) as (Np & Ns & Bpk & Bsc & Dif).
  pose proof (address_total text rest cap p stack A Hl Np Ns Bpk Bsc) as T. cbv zeta in T. fold outcome in T.
  destruct (trace_total text A Hl) as (d0 & TD). split.
  - destruct T as [[H _]|[[H (pl & out & Bpl & _ & _ & _ & _ & [(I & _)|(I & _)])]|(H & N & _)]].
    + eexists. apply too_small. exact H.
    + eexists. eapply key_hash; eauto.
    + eexists. eapply script_hash; eauto.
    + assert (NZ : Forall (fun c => 0 < c < 256) text) by (eapply Forall_impl; [|exact A]; cbv beta; intros; lia).
      destruct (bech32_decode_total text rest (length text) 16 NZ) as (r & E & Lh & _ & _ & R).
      destruct ((b_ret r <? 1) || negb (b_hrp_size r =? length (cp_hrp p))%nat || negb (bytes_eqb (b_hrp r) (cp_hrp p))) eqn:C.
      * eexists. eapply neither; [exact H|exact N| |exact TD]. intros ver vals V.
        assert (Hh : (length (cp_hrp p) <= 16)%nat) by (destruct Bp as [-> |[-> | ->]]; cbn; lia).
        rewrite (bech32_decode_accepts text rest (cp_hrp p) (ver :: vals) 16 V Hh) in E. injection E as <-. cbn [b_ret b_hrp_size b_hrp length] in C.
        rewrite Nat.eqb_refl, (proj2 (bytes_eqb_eq (cp_hrp p) (cp_hrp p)) eq_refl) in C. cbn [negb orb] in C. rewrite !orb_false_r in C. lia.
      * apply orb_false_iff in C as [C C3]. apply orb_false_iff in C as [C1 C2]. destruct R as [R|(R1 & R2 & _ & V)]; [lia|].
        rewrite firstn_all in V. apply negb_false_iff in C3. apply bytes_eqb_eq in C3. rewrite C3 in V.
        destruct (b_data r) as [|ver vals] eqn:Ed; [cbn [length] in R1; lia|].
        destruct (program_read_total vals (skipn (1 + length vals) stack)) as ([prog|] & PR).
        -- destruct (Z.eq_dec ver 0) as [->|Hz]; eexists; [eapply version_0|eapply version_n]; eassumption.
        -- eexists. eapply astray; eassumption.
  - intros r R. destruct R as [H|pl H Bpl I|pl H Bpl I|d H N V TD'|ver vals H N V PR|vals prog d H N V PR TD'|ver vals prog d H N Hz V PR TD'].
    + destruct T as [[_ E]|[[H' _]|[H' _]]]; [|exfalso; clear - H H'; change (from_base58_check_length (length text)) with (announced (length text)) in H'; lia..].
      exists []. cbn. auto.
    + destruct T as [[H' _]|[[_ (pl' & out & Bpl' & Bo & Fo & _ & _ & [(I' & Lo & E)|(I' & Lo & Nn & E)])]|(_ & Nn & _)]].
      * exfalso. clear - H H'. change (from_base58_check_length (length text)) with (announced (length text)) in H'. lia.
      * assert (Q : cp_pubkey p ++ pl = cp_pubkey p ++ pl') by (eapply base58_address_fun; eauto; apply bytes_app; auto). apply app_inv_head in Q. subst pl'.
        exists out. cbn [what kind_code size content extent]. auto.
      * exfalso. apply Nn. eauto.
      * exfalso. apply Nn. exists pl. auto.
    + destruct T as [[H' _]|[[_ (pl' & out & Bpl' & Bo & Fo & _ & _ & [(I' & Lo & E)|(I' & Lo & Nn & E)])]|(_ & Nn & _)]].
      * exfalso. clear - H H'. change (from_base58_check_length (length text)) with (announced (length text)) in H'. lia.
      * exfalso. assert (Q : cp_script p ++ pl = cp_pubkey p ++ pl') by (eapply base58_address_fun; eauto; apply bytes_app; auto).
        clear - Bp Q. destruct Bp as [-> |[-> | ->]]; cbn in Q; congruence.
      * assert (Q : cp_script p ++ pl = cp_script p ++ pl') by (eapply base58_address_fun; eauto; apply bytes_app; auto). apply app_inv_head in Q. subst pl'.
        exists out. cbn [what kind_code size content extent]. auto.
      * exfalso. apply Nn. exists pl. auto.
    + assert (NZ : Forall (fun c => 0 < c < 256) text) by (eapply Forall_impl; [|exact A]; cbv beta; intros; lia).
      exists d. unfold outcome. rewrite (attempt text rest cap p stack d Bp A Hl H N TD'), decode_bech32_bad; [|exact NZ|intros (ver & vals & W); exact (V ver vals W)].
      cbn [what kind_code size content extent]. split; [reflexivity|]. split; [apply firstn_all|reflexivity].
    + unfold gives, outcome. rewrite (attempt text rest cap p stack d0 Bp A Hl H N TD), (witness_exact text rest p ver vals stack d0 cap None Bp V Bs Ls H PR). reflexivity.
    + unfold gives, outcome. rewrite (attempt text rest cap p stack d Bp A Hl H N TD'), (witness_exact text rest p 0 vals stack d cap _ Bp V Bs Ls H PR).
      exists (overlay prog d). cbn [Z.eqb what size content extent]. split; [|split; [apply overlay_firstn|apply overlay_length]].
      destruct (length prog =? 20)%nat; [reflexivity|]. destruct (length prog =? 32)%nat; reflexivity.
    + unfold gives, outcome. rewrite (attempt text rest cap p stack d Bp A Hl H N TD'), (witness_exact text rest p ver vals stack d cap _ Bp V Bs Ls H PR).
      exists (overlay (ver :: prog) d). cbn [what size content extent]. split; [|split; [apply overlay_firstn|rewrite overlay_length; reflexivity]].
      replace (ver =? 0) with false by lia. destruct ((ver <=? 16) && (2 <=? length prog)%nat && (length prog <=? 40)%nat); reflexivity.
Qed.
Print Assumptions C125_address_decode_exact.

(** C46 exactly: the call writes beyond the capacity it was given just when the capacity is at least the announced size and either the text is Base58
    text of more bytes than that, or it is a witness address for which the reader runs on to a '=' in the scratch buffer that is far enough. *)
Theorem C46_overrun_exact : forall p text rest cap stack r, builtin p ->
  Forall (fun c => 0 < c < 128) text -> Z.of_nat (length text) * 733 <= INT_MAX -> bytes stack -> length stack = 128%nat ->
  address_decode (text ++ 0 :: rest) (length text) cap p stack = Ok r ->
  (cap < length (a_out r))%nat <->
  (announced (length text) <= cap)%nat /\
  ((exists d, bytes d /\ b58_decodes text d /\ (cap < length d)%nat) \/
   (~ also_base58 (cp_pubkey p) (cp_script p) text /\ exists ver vals prog, bech32_valid text (cp_hrp p) (ver :: vals) /\
      program_read vals (skipn (1 + length vals) stack) (Some prog) /\ (cap < (if (ver =? 0)%Z then 0 else 1) + length prog)%nat)).
Proof.
  intros p text rest cap stack r Bp A Hl Bs Ls E.
  destruct (C125_address_decode_exact p text rest cap stack Bp A Hl Bs Ls) as [(o & R) G].
  assert (Dec : forall pre pl, bytes pre -> bytes pl -> base58_address pre pl text -> exists d, bytes d /\ b58_decodes text d /\ length d = (length pre + length pl + 4)%nat).
  { intros pre pl B1 B2 (body & Tb & Ib). exists ((pre ++ pl) ++ checksum4 (pre ++ pl)). split; [|split].
    - apply bytes_app. split; [apply bytes_app; auto|apply checksum4_bytes].
    - exists body. auto.
    - rewrite !app_length, checksum4_length. lia. }
  assert (Un : forall d1 d2, bytes d1 -> bytes d2 -> b58_decodes text d1 -> b58_decodes text d2 -> d1 = d2).
  { intros d1 d2 B1 B2 (b1 & T1 & I1) (b2 & T2 & I2). rewrite (trims_fun text b1 b2 T1 (alpha_of _ _ I1) T2 (alpha_of _ _ I2)) in I1. eapply is_base58_inj; eauto. }
  destruct (b58_args p Bp) as (_ & _ & Bpk & Bsc & _). split.
  - intros Hc. pose proof (G o R) as X. rewrite E in X. destruct o as [x|]; [|discriminate]. destruct X as (out & X & _ & Lo).
    assert (Er : a_out r = out) by (injection X as ->; reflexivity). rewrite Er, Lo in Hc. clear X G E. inversion R; subst; cbn [extent] in *.
    + lia.
    + destruct (Dec _ payload Bpk ltac:(assumption) ltac:(assumption)) as (d & Bd & Dd & Ld). split; [assumption|]. left. exists d. rewrite Ld. auto.
    + destruct (Dec _ payload Bsc ltac:(assumption) ltac:(assumption)) as (d & Bd & Dd & Ld). split; [assumption|]. left. exists d. rewrite Ld. auto.
    + split; [assumption|]. left. match goal with H : base58_trace _ _ |- _ => destruct H as [[Dd Bd]|[-> _]] end; [|cbn [length] in Hc; lia]. exists d. auto.
    + split; [assumption|]. destruct (Nat.lt_ge_cases cap (length prog)).
      * right. split; [assumption|]. exists 0, vals, prog. auto.
      * left. match goal with H : base58_trace _ _ |- _ => destruct H as [[Dd Bd]|[-> _]] end; [|cbn [length] in Hc; lia]. exists d. split; [exact Bd|]. split; [exact Dd|]. lia.
    + split; [assumption|]. destruct (Nat.lt_ge_cases cap (1 + length prog)).
      * right. split; [assumption|]. exists ver, vals, prog. replace (ver =? 0) with false by lia. auto.
      * left. match goal with H : base58_trace _ _ |- _ => destruct H as [[Dd Bd]|[-> _]] end; [|cbn [length] in Hc; lia]. exists d. split; [exact Bd|]. split; [exact Dd|]. destruct (length d); lia.
  - intros [Ha H]. assert (K : exists x out, r = mkAddr (kind_code (what x)) (size x) out /\ length out = extent x /\ (cap < extent x)%nat);
      [|destruct K as (x & out & -> & Lo & K); cbn [a_out]; lia].
    assert (Fin : forall x, address_read (cp_pubkey p) (cp_script p) (cp_hrp p) text cap stack (Some x) -> (cap < extent x)%nat ->
       exists x out, r = mkAddr (kind_code (what x)) (size x) out /\ length out = extent x /\ (cap < extent x)%nat).
    { intros x Rx Kx. destruct (G _ Rx) as (out & X & _ & Lo). exists x, out. rewrite E in X. injection X as ->. auto. }
    destruct H as [(d & Bd & Dd & Ld)|(N & ver & vals & prog & V & PR & Lp)].
    + assert (TD : forall d', base58_trace text d' -> d' = d).
      { intros d' [[D' B']|[_ N']]; [eapply Un; eauto|]. exfalso. apply N'. eauto. }
      assert (UB' : o = None -> False) by (intros ->; specialize (G _ R); cbn in G; rewrite E in G; discriminate).
      destruct o as [x|]; [|exfalso; auto]. apply (Fin x R). clear Fin G E UB'. inversion R; subst; cbn [extent].
      * lia.
      * destruct (Dec _ payload Bpk ltac:(assumption) ltac:(assumption)) as (d' & Bd' & Dd' & Ld'). rewrite <- Ld', (Un d' d Bd' Bd Dd' Dd). exact Ld.
      * destruct (Dec _ payload Bsc ltac:(assumption) ltac:(assumption)) as (d' & Bd' & Dd' & Ld'). rewrite <- Ld', (Un d' d Bd' Bd Dd' Dd). exact Ld.
      * rewrite (TD d0) by assumption. exact Ld.
      * rewrite (TD d0) by assumption. lia.
      * rewrite (TD d0) by assumption. clear - Ld. destruct (length d); lia.
    + destruct (trace_total text A Hl) as (d & TD). destruct (Z.eq_dec ver 0) as [->|Hz].
      * eapply Fin; [eapply version_0; eassumption|]. cbn [extent Z.eqb Nat.add] in *. lia.
      * eapply Fin; [eapply version_n; eassumption|]. cbn [extent]. replace (ver =? 0) with false in Lp by lia. lia.
Qed.
Print Assumptions C46_overrun_exact.

Lemma meaning_all vals : Forall five_bit vals -> exists prog, b32_meaning b32_raw_value vals = Some prog /\ length prog = from_base32_raw_length (length vals).
Proof.
  intros F. assert (B : bytes (vals ++ [0])).
  { apply bytes_app. split; [eapply Forall_impl; [|exact F]; unfold five_bit, is_byte; intros; lia|repeat constructor; unfold is_byte; lia]. }
  destruct (in_split_first (fun x => x = 61 \/ x = 0)) with (l := vals ++ [0]) as [(a & x & b & E & Px & Fa)|Fa].
  { intros x. destruct (Z.eq_dec x 61); [left; auto|]. destruct (Z.eq_dec x 0); [left; auto|right; tauto]. }
  2: { rewrite Forall_forall in Fa. exfalso. apply (Fa 0); [apply in_or_app; right; left; reflexivity|auto]. }
  assert (Hx : x = 0).
  { destruct Px as [->|]; [|assumption]. exfalso. assert (I : In 61 (vals ++ [0])) by (rewrite E; apply in_or_app; right; left; reflexivity).
    apply in_app_or in I as [I|[I|[]]]; [|lia]. rewrite Forall_forall in F. specialize (F _ I). unfold five_bit in F. lia. }
  subst x. rewrite Forall_forall in Fa. assert (N1 : ~ In 61 a) by (intros I; apply Fa in I; tauto). assert (N2 : ~ In 0 a) by (intros I; apply Fa in I; tauto).
  pose proof (program_read_model vals [0] _ B (read_nul _ _ _ _ E N1 N2)) as X.
  destruct (raw_decode vals [0] F) as (prog & Y & L & _). { exists a, b. auto. }
  rewrite X in Y. destruct (b32_meaning b32_raw_value vals) as [o|]; [|discriminate]. cbn [result] in Y. assert (Q : o = prog) by congruence. subst o. eauto.
Qed.

(** C46 fails even for texts that are short enough: for every witness address without a zero five-bit value in its program there is a content of the
    scratch buffer with which the call writes 78 bytes or more to an output buffer of the announced size (67 bytes at most). *)
Theorem C46_stack_overrun_refuted : forall p text rest ver vals, builtin p ->
  bech32_valid text (cp_hrp p) (ver :: vals) -> ~ In 0 vals -> ~ also_base58 (cp_pubkey p) (cp_script p) text ->
  exists stack r, bytes stack /\ length stack = 128%nat /\
    address_decode (text ++ 0 :: rest) (length text) (announced (length text)) p stack = Ok r /\
    (announced (length text) <= 67)%nat /\ (78 <= length (a_out r))%nat.
Proof.
  intros p text rest ver vals Bp V Nz N. destruct (valid_facts p text ver vals Bp V) as (Hv & Fv & Lv & L90).
  set (stack := repeat 1 126 ++ [61; 0]). exists stack.
  assert (Ls : length stack = 128%nat) by reflexivity.
  assert (Bs : bytes stack) by (apply bytes_app; split; [apply Forall_forall; intros x I; apply repeat_spec in I; subst; unfold is_byte; lia|repeat constructor; unfold is_byte; lia]).
  assert (A : Forall (fun c => 0 < c < 128) text) by (destruct V as (_ & P & _); eapply Forall_impl; [|exact P]; cbv beta; intros; lia).
  assert (Hl : Z.of_nat (length text) * 733 <= INT_MAX) by (unfold INT_MAX; lia).
  assert (Ha : (announced (length text) <= 67)%nat).
  { unfold announced. pose proof (Nat.div_mod (length text * 733) 1000 ltac:(lia)). lia. }
  set (a := vals ++ repeat 1 (125 - length vals)).
  assert (Es : vals ++ skipn (1 + length vals) stack = a ++ 61 :: [0]).
  { unfold a, stack. rewrite <- app_assoc. f_equal. rewrite skipn_app, L_Md.skipn_repeat, repeat_length.
    replace (1 + length vals - 126)%nat with 0%nat by lia. replace (126 - (1 + length vals))%nat with (125 - length vals)%nat by lia. reflexivity. }
  assert (Fa : Forall five_bit a).
  { apply Forall_app. split; [exact Fv|]. apply Forall_forall. intros x I. apply repeat_spec in I. subst. unfold five_bit. lia. }
  assert (N1 : ~ In 61 a) by (intros I; rewrite Forall_forall in Fa; specialize (Fa _ I); unfold five_bit in Fa; lia).
  assert (N2 : ~ In 0 a).
  { intros I. apply in_app_or in I as [I|I]; [auto|]. apply repeat_spec in I. lia. }
  destruct (meaning_all a Fa) as (prog & Ep & Lp).
  assert (La : length a = 125%nat) by (unfold a; rewrite app_length, repeat_length; lia). rewrite La in Lp. change (from_base32_raw_length 125) with 78%nat in Lp.
  assert (PR : program_read vals (skipn (1 + length vals) stack) (Some prog)) by (rewrite <- Ep; exact (read_mark _ _ _ _ Es N1 N2)).
  destruct (C125_address_decode_exact p text rest (announced (length text)) stack Bp A Hl Bs Ls) as [_ G].
  destruct (trace_total text A Hl) as (d & TD). destruct (Z.eq_dec ver 0) as [->|Hz].
  - destruct (G _ (version_0 _ _ _ _ _ _ vals prog d (le_n _) N V PR TD)) as (out & -> & _ & Lo). cbn [extent] in Lo.
    eexists. split; [exact Bs|]. split; [exact Ls|]. split; [reflexivity|]. split; [exact Ha|]. cbn [a_out]. lia.
  - destruct (G _ (version_n _ _ _ _ _ _ ver vals prog d (le_n _) N Hz V PR TD)) as (out & -> & _ & Lo). cbn [extent] in Lo.
    eexists. split; [exact Bs|]. split; [exact Ls|]. split; [reflexivity|]. split; [exact Ha|]. cbn [a_out]. lia.
Qed.
Print Assumptions C46_stack_overrun_refuted.

Lemma bech32_kind str n out cap p stack r : decode_bech32 str n out cap p stack = Ok r -> a_kind r <> PUBKEY_ADDRESS /\ a_kind r <> SCRIPT_ADDRESS.
Proof.
  intros H. unfold decode_bech32 in H. apply bind_Ok in H as (b & _ & H). cbv zeta in H.
  destruct (_ || _ || _) in H; [injection H as <-; split; discriminate|]. apply bind_Ok in H as (buf & _ & H).
  destruct (_ <=? cap)%nat in H; [|injection H as <-; split; discriminate]. apply bind_Ok in H as (v & _ & H).
  destruct (as_char v =? 0); apply bind_Ok in H as ([sz prog] & _ & H).
  - destruct (sz =? _)%nat in H; [injection H as <-; split; discriminate|]. destruct (sz =? _)%nat in H; injection H as <-; split; discriminate.
  - destruct (_ || _ || _) in H; injection H as <-; split; discriminate.
Qed.

(** C50 exactly: the outcome is the same for all contents of the scratch buffer just when the capacity is too small, or the text is a Base58 address, or it is
    not a witness address of the network, or the program of the witness address has a zero five-bit value. *)
Theorem C50_uninitialised_exact : forall p text rest cap, builtin p ->
  Forall (fun c => 0 < c < 128) text -> Z.of_nat (length text) * 733 <= INT_MAX ->
  let outcome stack := address_decode (text ++ 0 :: rest) (length text) cap p stack in
  (forall s1 s2, bytes s1 -> bytes s2 -> length s1 = 128%nat -> length s2 = 128%nat -> outcome s1 = outcome s2) <->
  ((cap < announced (length text))%nat \/ also_base58 (cp_pubkey p) (cp_script p) text \/
   forall ver vals, bech32_valid text (cp_hrp p) (ver :: vals) -> In 0 vals).
Proof.
  intros p text rest cap Bp A Hl outcome. destruct (b58_args p Bp) as (_ & _ & Bpk & Bsc & _). split.
  - intros H. set (ones := repeat 1 128). set (zeros := repeat 0 128).
    assert (B1 : bytes ones) by (apply Forall_forall; intros x I; apply repeat_spec in I; subst; unfold is_byte; lia).
    assert (B0 : bytes zeros) by (apply Forall_forall; intros x I; apply repeat_spec in I; subst; unfold is_byte; lia).
    assert (L1 : length ones = 128%nat) by reflexivity. assert (L0 : length zeros = 128%nat) by reflexivity.
    destruct (Nat.lt_ge_cases cap (announced (length text))) as [Hc|Hc]; [left; exact Hc|right].
    destruct (C125_address_decode_exact p text rest cap ones Bp A Hl B1 L1) as [(o & R) G1].
    destruct (C125_address_decode_exact p text rest cap zeros Bp A Hl B0 L0) as [_ G0].
    assert (D : also_base58 (cp_pubkey p) (cp_script p) text \/ ~ also_base58 (cp_pubkey p) (cp_script p) text).
    { destruct R; try (right; assumption); [lia|left; exists payload; auto|left; exists payload; auto]. }
    destruct D as [D|D]; [left; exact D|right]. intros ver vals V. destruct (in_dec Z.eq_dec 0 vals) as [I|I]; [exact I|exfalso].
    destruct (valid_facts p text ver vals Bp V) as (Hv & Fv & Lv & L90).
    assert (N61 : ~ In 61 vals) by (intros J; rewrite Forall_forall in Fv; specialize (Fv _ J); unfold five_bit in Fv; lia).
    assert (P1 : program_read vals (skipn (1 + length vals) ones) None).
    { apply read_none; intros J; (apply in_app_or in J as [J|J]; [auto|]); unfold ones in J; rewrite L_Md.skipn_repeat in J; apply repeat_spec in J; lia. }
    pose proof (G1 _ (astray _ _ _ _ _ _ ver vals Hc D V P1)) as U. cbn [gives] in U.
    destruct (meaning_all vals Fv) as (prog & Ep & _).
    assert (P0 : program_read vals (skipn (1 + length vals) zeros) (Some prog)).
    { rewrite <- Ep. apply (read_nul vals _ vals (repeat 0 (126 - length vals))); auto.
      f_equal. unfold zeros. rewrite L_Md.skipn_repeat. replace (128 - (1 + length vals))%nat with (S (126 - length vals)) by lia. reflexivity. }
    destruct (trace_total text A Hl) as (d & TD).
    assert (X : exists x, address_read (cp_pubkey p) (cp_script p) (cp_hrp p) text cap zeros (Some x)).
    { destruct (Z.eq_dec ver 0) as [->|Hz]; eexists; [eapply version_0|eapply version_n]; eassumption. }
    destruct X as (x & X). destruct (G0 _ X) as (out & E & _). specialize (H ones zeros B1 B0 L1 L0). unfold outcome in H. congruence.
  - intros H s1 s2 B1 B2 L1 L2.
    destruct H as [H|[H|H]]; [|
      |apply (C50_uninitialised_partial p text rest cap s1 s2 Bp A Hl L1 L2); intros ver vals V; left; exact (H ver vals V)].
    + unfold outcome, address_decode. change (from_base58_check_length (length text)) with (announced (length text)). apply Nat.ltb_lt in H. rewrite H. reflexivity.
    + destruct (C125_address_decode_exact p text rest cap s1 Bp A Hl B1 L1) as [_ G].
      destruct (Nat.lt_ge_cases cap (announced (length text))) as [Hc|Hc].
      { unfold outcome, address_decode. change (from_base58_check_length (length text)) with (announced (length text)). apply Nat.ltb_lt in Hc. rewrite Hc. reflexivity. }
      assert (K : exists r, outcome s1 = Ok r /\ (a_kind r = PUBKEY_ADDRESS \/ a_kind r = SCRIPT_ADDRESS)).
      { destruct H as (pl & Bpl & [I|I]).
        - destruct (G _ (key_hash _ _ _ _ _ _ pl Hc Bpl I)) as (out & E & _). eexists. split; [exact E|]. left. reflexivity.
        - destruct (G _ (script_hash _ _ _ _ _ _ pl Hc Bpl I)) as (out & E & _). eexists. split; [exact E|]. right. reflexivity. }
      destruct K as (r & E & K). clear G. unfold outcome, address_decode in *.
      destruct (cap <? from_base58_check_length (length text))%nat; [reflexivity|].
      destruct (from_base58_check (text ++ 0 :: rest) (length text)) as [[sz out]| |]; cbn [bind] in *; [|reflexivity..]. cbv zeta in *.
      destruct (negb (sz =? 0)%nat && (length (cp_pubkey p) <=? sz)%nat && bytes_eqb (firstn (length (cp_pubkey p)) out) (cp_pubkey p)); [reflexivity|].
      destruct (negb (sz =? 0)%nat && (length (cp_script p) <=? sz)%nat && bytes_eqb (firstn (length (cp_script p)) out) (cp_script p)); [reflexivity|].
      exfalso. apply bech32_kind in E. tauto.
Qed.
Print Assumptions C50_uninitialised_exact.

(** C47 exactly: a witness address of one network is refused on a network with another prefix unless it happens to be a Base58 address there, and then it is not. *)
Theorem C47_witness_separation_exact : forall p q ver prog rest cap stack, builtin p -> builtin q -> cp_hrp p <> cp_hrp q ->
  bytes prog -> 0 <= ver <= 16 -> (2 <= length prog <= 40)%nat -> (ver = 0 -> length prog = 20%nat \/ length prog = 32%nat) ->
  let text := witness_text (cp_hrp p) ver prog in (announced (length text) <= cap)%nat ->
  exists r, address_decode (text ++ 0 :: rest) (length text) cap q stack = Ok r /\
    (a_kind r <> BAD_ADDRESS <-> also_base58 (cp_pubkey q) (cp_script q) text).
Proof.
  intros p q ver prog rest cap stack Bp Bq Hne Bpr Hv Lp H0 text Hc. destruct (b58_args q Bq) as (Np & Ns & Bpk & Bsc & _).
  assert (Sv : 0 <= ver < 32) by lia. destruct (valid_facts p text ver (regroup_pad 5 prog) Bp) as (_ & _ & _ & L90); [apply witness_valid; auto; lia|].
  assert (A : Forall (fun c => 0 < c < 128) text).
  { assert (V : bech32_valid text (cp_hrp p) (ver :: regroup_pad 5 prog)) by (apply witness_valid; auto; lia).
    destruct V as (_ & P & _). eapply Forall_impl; [|exact P]; cbv beta; intros; lia. }
  assert (Hl : Z.of_nat (length text) * 733 <= INT_MAX) by (unfold INT_MAX; lia).
  destruct (address_total text rest cap q stack A Hl Np Ns Bpk Bsc) as [[H _]|[[_ (pl & out & Bpl & _ & _ & _ & _ & [(I & _ & E)|(I & _ & _ & E)])]|(_ & N & _)]].
  - exfalso. change (from_base58_check_length (length text)) with (announced (length text)) in H. lia.
  - eexists. split; [exact E|]. cbn [a_kind]. split; [intros _|discriminate]. exists pl. auto.
  - eexists. split; [exact E|]. cbn [a_kind]. split; [intros _|discriminate]. exists pl. auto.
  - assert (K : match address_decode (text ++ 0 :: rest) (length text) cap q stack with Ok r => a_kind r = BAD_ADDRESS | _ => False end).
    { destruct (Z.eq_dec ver 0) as [Ev|Ev].
      - unfold text. rewrite Ev. apply (C47_witness_v0_network_separation p q prog rest cap stack Bp Bq Hne Bpr). auto.
      - apply (C47_witness_unknown_network_separation_partial p q ver prog rest cap stack Bp Bq Hne Bpr); [lia|lia|]. right. right. right. exact N. }
    destruct (address_decode (text ++ 0 :: rest) (length text) cap q stack) as [r| |]; try contradiction. exists r. split; [reflexivity|]. split; [intros Q; exfalso; auto|intros Q; exfalso; auto].
Qed.
Print Assumptions C47_witness_separation_exact.

(** C42, C43 and C44 exactly: the address of a witness program is read back as that program just when the text is not by accident a Base58Check
    address of the network, and the search for '=' or NUL in the scratch buffer ends where it does no harm. *)
Lemma roundtrip_exact p ver prog rest cap stack : builtin p -> bytes prog -> 0 <= ver <= 16 -> (2 <= length prog <= 40)%nat ->
  (ver = 0 -> length prog = 20%nat \/ length prog = 32%nat) -> bytes stack -> length stack = 128%nat ->
  let text := witness_text (cp_hrp p) ver prog in let vals := regroup_pad 5 prog in (announced (length text) <= cap)%nat ->
  let k := if ver =? 0 then if (length prog =? 20)%nat then WITNESSV0_KEYHASH_ADDRESS else WITNESSV0_SCRIPTHASH_ADDRESS else WITNESS_UNKNOWN_ADDRESS in
  let whole := if ver =? 0 then prog else ver :: prog in
  (exists out, address_decode (text ++ 0 :: rest) (length text) cap p stack = Ok (mkAddr k (length whole) out) /\ firstn (length whole) out = whole) <->
  (~ also_base58 (cp_pubkey p) (cp_script p) text /\ program_read vals (skipn (1 + length vals) stack) (Some prog)).
Proof.
  intros Bp Bpr Hv Lp H0 Bs Ls text vals Hc k whole.
  assert (V : bech32_valid text (cp_hrp p) (ver :: vals)) by (apply witness_valid; auto; try (change (0 <= ver < 32)); lia).
  destruct (valid_facts p text ver vals Bp V) as (_ & _ & _ & L90).
  assert (A : Forall (fun c => 0 < c < 128) text) by (destruct V as (_ & P & _); eapply Forall_impl; [|exact P]; cbv beta; intros; lia).
  assert (Hl : Z.of_nat (length text) * 733 <= INT_MAX) by (unfold INT_MAX; lia).
  destruct (C125_address_decode_exact p text rest cap stack Bp A Hl Bs Ls) as [(r & R) G]. cbv zeta in G. split.
  - intros (out & E & Fo). specialize (G r R). rewrite E in G.
    assert (Kp : k <> PUBKEY_ADDRESS /\ k <> SCRIPT_ADDRESS /\ k <> BAD_ADDRESS) by (unfold k; destruct (ver =? 0), (length prog =? 20)%nat; repeat split; discriminate).
    destruct R as [H|pl H Bpl I|pl H Bpl I|d H N V' TD'|ver' vals' H N V' PR|vals' prog' d H N V' PR TD'|ver' vals' prog' d H N Hz V' PR TD'];
      cbn [gives what kind_code size content extent] in G.
    + lia.
    + destruct G as (o & Q & _). injection Q as Q _ _. exfalso. clear - Kp Q. tauto.
    + destruct G as (o & Q & _). injection Q as Q _ _. exfalso. clear - Kp Q. tauto.
    + destruct G as (o & Q & _). injection Q as Q _ _. exfalso. clear - Kp Q. tauto.
    + discriminate G.
    + destruct (C36_bech32_valid_unique _ _ _ _ _ V V') as [_ Q]. injection Q as Q1 Q2. subst vals'. split; [exact N|].
      destruct G as (o & Q & F & _). injection Q as _ Q3 Q4. subst o. assert (Ew : whole = prog) by (unfold whole; rewrite Q1; reflexivity).
      rewrite Ew in *. rewrite Q3, F in Fo. subst prog'. exact PR.
    + destruct (C36_bech32_valid_unique _ _ _ _ _ V V') as [_ Q]. injection Q as Q1 Q2. subst vals' ver'. split; [exact N|].
      destruct G as (o & Q & F & _). injection Q as _ Q3 Q4. subst o. assert (Ew : whole = ver :: prog) by (unfold whole; replace (ver =? 0) with false by lia; reflexivity).
      rewrite Ew in *. rewrite Q3 in Fo. change (S (length prog')) with (length (ver :: prog')) in Fo. rewrite F in Fo. injection Fo as <-. exact PR.
  - intros [N PR]. destruct (trace_total text A Hl) as (d & TD). destruct (Z.eqb_spec ver 0) as [Ev|Hz].
    + rewrite Ev in V. destruct (G _ (version_0 _ _ _ _ _ _ vals prog d Hc N V PR TD)) as (out & -> & Fo & _). exists out. cbn [what size content] in *.
      split; [|exact Fo]. unfold k, whole. destruct (H0 Ev) as [E|E]; rewrite E; reflexivity.
    + destruct (G _ (version_n _ _ _ _ _ _ ver vals prog d Hc N Hz V PR TD)) as (out & -> & Fo & _). exists out. cbn [what size content] in *.
      split; [|exact Fo]. unfold k, whole. replace (ver <=? 16) with true by lia.
      replace (2 <=? length prog)%nat with true by lia. replace (length prog <=? 40)%nat with true by lia. reflexivity.
Qed.

Theorem C42_witness_keyhash_exact : forall p hash rest cap stack, builtin p -> bytes hash -> length hash = 20%nat -> bytes stack -> length stack = 128%nat ->
  let text := witness_text (cp_hrp p) 0 hash in (announced (length text) <= cap)%nat ->
  (exists out, address_decode (text ++ 0 :: rest) (length text) cap p stack = Ok (mkAddr WITNESSV0_KEYHASH_ADDRESS 20 out) /\ firstn 20 out = hash) <->
  program_read (regroup_pad 5 hash) (skipn 33 stack) (Some hash).
Proof.
  intros p hash rest cap stack Bp Bh Lh Bs Ls text Hc. 
  assert (R := roundtrip_exact p 0 hash rest cap stack Bp Bh ltac:(lia) ltac:(lia) (fun _ => or_introl Lh) Bs Ls Hc). cbv zeta in R. cbn [Z.eqb] in R.
  rewrite Lh in R. cbn [Nat.eqb] in R. destruct (raw_facts hash Bh) as (_ & _ & Lv). rewrite Lh in Lv. change ((8 * 20 + 4) / 5)%nat with 32%nat in Lv.
  rewrite Lv in R. cbn [Nat.add] in R. etransitivity; [exact R|]. split; [tauto|]. intros PR. split; [|exact PR].
  apply clash_free_ok; auto; [split; lia|lia|]. rewrite Lh. destruct Bp as [-> | [-> | ->]]; vm_compute; reflexivity.
Qed.
Print Assumptions C42_witness_keyhash_exact.

Theorem C43_witness_scripthash_exact : forall p hash rest cap stack, builtin p -> bytes hash -> length hash = 32%nat -> bytes stack -> length stack = 128%nat ->
  let text := witness_text (cp_hrp p) 0 hash in (announced (length text) <= cap)%nat ->
  (exists out, address_decode (text ++ 0 :: rest) (length text) cap p stack = Ok (mkAddr WITNESSV0_SCRIPTHASH_ADDRESS 32 out) /\ firstn 32 out = hash) <->
  (~ also_base58 (cp_pubkey p) (cp_script p) text /\ program_read (regroup_pad 5 hash) (skipn 53 stack) (Some hash)).
Proof.
  intros p hash rest cap stack Bp Bh Lh Bs Ls text Hc. 
  assert (R := roundtrip_exact p 0 hash rest cap stack Bp Bh ltac:(lia) ltac:(lia) (fun _ => or_intror Lh) Bs Ls Hc). cbv zeta in R. cbn [Z.eqb] in R.
  rewrite Lh in R. cbn [Nat.eqb] in R. destruct (raw_facts hash Bh) as (_ & _ & Lv). rewrite Lh in Lv. change ((8 * 32 + 4) / 5)%nat with 52%nat in Lv.
  rewrite Lv in R. cbn [Nat.add] in R. exact R.
Qed.
Print Assumptions C43_witness_scripthash_exact.

Theorem C44_witness_unknown_exact : forall p ver prog rest cap stack, builtin p -> bytes prog -> 1 <= ver <= 16 -> (2 <= length prog <= 40)%nat ->
  bytes stack -> length stack = 128%nat ->
  let text := witness_text (cp_hrp p) ver prog in let vals := regroup_pad 5 prog in (announced (length text) <= cap)%nat ->
  (exists out, address_decode (text ++ 0 :: rest) (length text) cap p stack = Ok (mkAddr WITNESS_UNKNOWN_ADDRESS (1 + length prog) out) /\
     firstn (1 + length prog) out = ver :: prog) <->
  (~ also_base58 (cp_pubkey p) (cp_script p) text /\ program_read vals (skipn (1 + length vals) stack) (Some prog)).
Proof.
  intros p ver prog rest cap stack Bp Bpr Hv Lp Bs Ls text vals Hc.
  assert (R := roundtrip_exact p ver prog rest cap stack Bp Bpr ltac:(lia) Lp ltac:(lia) Bs Ls Hc). cbv zeta in R.
  replace (ver =? 0) with false in R by lia. cbn [length] in R. exact R.
Qed.
Print Assumptions C44_witness_unknown_exact.

(** Concrete cases: the address of the hash ff..ff meets the hypotheses, and on such a scratch buffer the call overruns its 32 bytes. *)
Example C125_witness : let text := witness_text (cp_hrp mainnet) 0 (repeat 255 20) in
  builtin mainnet /\ Forall (fun c => 0 < c < 128) text /\ announced (length text) = 32%nat /\ ~ In 0 (regroup_pad 5 (repeat 255 20)) /\
  match address_decode (text ++ [0]) (length text) 32 mainnet (repeat 1 126 ++ [61; 0]) with Ok r => length (a_out r) = 78%nat /\ a_kind r = BAD_ADDRESS | _ => False end.
Proof.
  intros text. split; [left; reflexivity|]. split; [apply Forall_forall; intros x I; vm_compute in I; repeat (destruct I as [<-|I]; [lia|]); destruct I|].
  split; [vm_compute; reflexivity|]. split; [vm_compute; intros I; repeat (destruct I as [I|I]; [discriminate I|]); destruct I|]. vm_compute. auto.
Qed.
Example C46_stack_witness : bech32_valid (witness_text (cp_hrp testnet) 0 (repeat 255 20)) (cp_hrp testnet) (0 :: regroup_pad 5 (repeat 255 20)).
Proof. apply (witness_valid testnet 0 (repeat 255 20)); [right; left; reflexivity|apply Forall_forall; intros x I; apply repeat_spec in I; subst; unfold is_byte; lia|cbv; split; [discriminate|reflexivity]|cbn; lia]. Qed.
(* one scratch buffer with which ff..ff comes back, one with which it cannot *)
Example C42_exact_case : let h := repeat 255 20 in
  program_read (regroup_pad 5 h) (skipn 33 (repeat 0 128)) (Some h) /\ ~ program_read (regroup_pad 5 h) (skipn 33 (repeat 1 128)) (Some h).
Proof.
  intros h. split.
  - assert (E : b32_meaning b32_raw_value (regroup_pad 5 h) = Some h) by (vm_compute; reflexivity). rewrite <- E.
    apply (read_nul _ _ (regroup_pad 5 h) (repeat 0 94)); [vm_compute; reflexivity|vm_compute; intuition discriminate..].
  - assert (N0 : ~ In 0 (regroup_pad 5 h ++ skipn 33 (repeat 1 128))) by (vm_compute; intros I; repeat (destruct I as [I|I]; [discriminate I|]); destruct I).
    assert (N61 : ~ In 61 (regroup_pad 5 h ++ skipn 33 (repeat 1 128))) by (vm_compute; intros I; repeat (destruct I as [I|I]; [discriminate I|]); destruct I).
    intros R. inversion R as [a b E _ _ Q|a b E _ _ Q|]; [apply N0|apply N61]; rewrite E; apply in_or_app; right; left; reflexivity.
Qed.
