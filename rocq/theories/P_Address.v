(** Properties C40-C50: addresses. *)
From Verif Require Import Base M_Endian L_Endian S_Bits L_Bits S_Rfc4648 L_Rfc M_Base32 L_Base32 P_Base32 S_Base58 M_Base58 L_Base58 P_Base58
  S_Sha2 L_Sha2Top M_Hash L_Hash S_Base58Check M_Base58Check L_Base58Check P_Base58Check M_Bech32 S_Bech32 L_Bch L_Bech32 M_Address S_Address L_Address.

(** The three built-in networks; no other module is needed to read the theorems below. *)
Goal forall p, builtin p <-> p = mainnet \/ p = testnet \/ p = regnet.
Proof. reflexivity. Qed.

Lemma b58_text_ok d text : is_base58 d text -> Forall (fun c => 0 < c < 128) text.
Proof. intros B. eapply Forall_impl; [|exact (is_base58_alphabet _ _ B)]. unfold L_Base58.is_ascii. tauto. Qed.
Lemma b58_args p : builtin p -> cp_pubkey p <> [] /\ cp_script p <> [] /\ bytes (cp_pubkey p) /\ bytes (cp_script p) /\
  length (cp_pubkey p) = 1%nat /\ length (cp_script p) = 1%nat.
Proof.
  intros H. destruct (builtin_facts p H) as (_ & _ & _ & _ & a & b & -> & -> & Ha & Hb & _).
  repeat split; try discriminate; repeat constructor; apply Ha || apply Hb.
Qed.

(** C40: public key address round trip.  [cap] is the capacity given to the encoder, [out_size] to the decoder, [rest] what
    follows the terminating NUL and [stack] the uninitialised memory.  The decoder touches 25 bytes of its output. *)
Theorem C40_pubkey_address_roundtrip : forall p id cap rest stack, builtin p -> bytes id -> length id = 20%nat ->
  (to_base58_check_length 20 1 <= cap)%nat ->
  exists text, to_address_pubkey id cap p = Ok (length text, text) /\ (length text <= cap)%nat /\
    forall out_size, (from_base58_check_length (length text) <= out_size)%nat ->
    exists out, address_decode (text ++ 0 :: rest) (length text) out_size p stack = Ok (mkAddr PUBKEY_ADDRESS 20 out) /\
      firstn 20 out = id /\ length out = 25%nat.
Proof.
  intros p id cap rest stack Hp Hi Li Hc. destruct (b58_args p Hp) as (Np & Ns & Bp & Bs & Lp & Ls).
  destruct (C32_base58check_encode id (cp_pubkey p) Hi Bp) as (text & E & I & Lt).
  { rewrite Li, Lp. vm_compute. discriminate. }
  exists text. unfold to_address_pubkey. rewrite Li, Lp in *. replace (cap <? to_base58_check_length 20 1)%nat with false by lia.
  split; [exact E|]. split; [lia|]. intros out_size Ho.
  assert (BA : base58_address (cp_pubkey p) id text) by (exists text; split; [apply trims_self|exact I]).
  assert (Hl : Z.of_nat (length text) * 733 <= INT_MAX) by (change (to_base58_check_length 20 1) with 36%nat in Lt; change INT_MAX with 2147483647; lia).
  destruct (address_total text rest out_size p stack (b58_text_ok _ _ I) Hl Np Ns Bp Bs) as [[H _]|[(_ & pl & out & Bpl & Bo & Fo & _ & _ & [(BA2 & Lo & D)|(_ & _ & N & _)])|(_ & N & _)]].
  - lia.
  - assert (Q : cp_pubkey p ++ id = cp_pubkey p ++ pl) by (eapply base58_address_fun; try eassumption; now apply bytes_app).
    apply app_inv_head in Q. subst pl. exists out. rewrite D, Li in *. split; [reflexivity|]. split; [exact Fo|]. lia.
  - exfalso. apply N. eauto.
  - exfalso. apply N. exists id. auto.
Qed.
Print Assumptions C40_pubkey_address_roundtrip.
(* Bitcoin wiki: the address of hash160 010966776006953d5567439e5e39f86a0d273bee *)
Example C40_witness : to_address_pubkey [0x01;0x09;0x66;0x77;0x60;0x06;0x95;0x3D;0x55;0x67;0x43;0x9E;0x5E;0x39;0xF8;0x6A;0x0D;0x27;0x3B;0xEE] 36 mainnet =
  Ok (33%nat, [49;54;85;119;76;76;57;82;105;115;99;51;81;102;80;113;66;85;118;75;111;102;72;109;66;81;55;119;77;116;106;118;77]).
Proof. vm_compute. reflexivity. Qed.

(** C41: script address round trip. *)
Theorem C41_script_address_roundtrip : forall p id cap rest stack, builtin p -> bytes id -> length id = 20%nat ->
  (to_base58_check_length 20 1 <= cap)%nat ->
  exists text, to_address_script id cap p = Ok (length text, text) /\ (length text <= cap)%nat /\
    forall out_size, (from_base58_check_length (length text) <= out_size)%nat ->
    exists out, address_decode (text ++ 0 :: rest) (length text) out_size p stack = Ok (mkAddr SCRIPT_ADDRESS 20 out) /\
      firstn 20 out = id /\ length out = 25%nat.
Proof.
  intros p id cap rest stack Hp Hi Li Hc. destruct (b58_args p Hp) as (Np & Ns & Bp & Bs & Lp & Ls).
  destruct (C32_base58check_encode id (cp_script p) Hi Bs) as (text & E & I & Lt).
  { rewrite Li, Ls. vm_compute. discriminate. }
  exists text. unfold to_address_script. rewrite Li, Ls in *. replace (cap <? to_base58_check_length 20 1)%nat with false by lia.
  split; [exact E|]. split; [lia|]. intros out_size Ho.
  assert (BA : base58_address (cp_script p) id text) by (exists text; split; [apply trims_self|exact I]).
  assert (Hl : Z.of_nat (length text) * 733 <= INT_MAX) by (change (to_base58_check_length 20 1) with 36%nat in Lt; change INT_MAX with 2147483647; lia).
  destruct (address_total text rest out_size p stack (b58_text_ok _ _ I) Hl Np Ns Bp Bs) as [[H _]|[(_ & pl & out & Bpl & Bo & Fo & _ & _ & [(BA2 & Lo & D)|(BA2 & Lo & _ & D)])|(_ & N & _)]].
  - lia.
  - exfalso. assert (Q : cp_script p ++ id = cp_pubkey p ++ pl) by (eapply base58_address_fun; try eassumption; now apply bytes_app).
    destruct (builtin_facts p Hp) as (_ & _ & _ & _ & a & b & Ea & Eb & _ & _ & N). rewrite Ea, Eb in Q. cbn [app] in Q. congruence.
  - assert (Q : cp_script p ++ id = cp_script p ++ pl) by (eapply base58_address_fun; try eassumption; now apply bytes_app).
    apply app_inv_head in Q. subst pl. exists out. rewrite D, Li in *. split; [reflexivity|]. split; [exact Fo|]. lia.
  - exfalso. apply N. exists id. auto.
Qed.
Print Assumptions C41_script_address_roundtrip.

(** * Witness addresses *)
Lemma witness_decode p ver prog rest stack out_size : builtin p -> bytes prog -> 0 <= ver <= 16 -> (2 <= length prog <= 40)%nat ->
  ~ also_base58 (cp_pubkey p) (cp_script p) (witness_text (cp_hrp p) ver prog) ->
  length stack = 128%nat -> nul_first (regroup_pad 5 prog ++ skipn (S (length (regroup_pad 5 prog))) stack) ->
  let text := witness_text (cp_hrp p) ver prog in
  (from_base58_check_length (length text) <= out_size)%nat ->
  exists out, (length out <= out_size)%nat /\
    address_decode (text ++ 0 :: rest) (length text) out_size p stack =
      Ok (mkAddr (if ver =? 0 then (if (length prog =? 20)%nat then WITNESSV0_KEYHASH_ADDRESS
                    else if (length prog =? 32)%nat then WITNESSV0_SCRIPTHASH_ADDRESS else BAD_ADDRESS)
                  else WITNESS_UNKNOWN_ADDRESS) (length prog + (if ver =? 0 then 0 else 1)) out) /\
    firstn (length prog + (if ver =? 0 then 0 else 1)) out = if ver =? 0 then prog else ver :: prog.
Proof.
  intros Hp Hb Hv Hl NC Ls Hn text Ho. assert (Hs : sym ver) by (unfold sym; lia).
  pose proof (witness_valid p ver prog Hp Hb Hs ltac:(lia)) as V. fold text in V. pose proof V as (L90 & P & _).
  destruct (builtin_facts p Hp) as (Nh & _ & Lh & _ & _). destruct (b58_args p Hp) as (Np & Ns & Bp & Bs & _).
  assert (A : Forall (fun c => 0 < c < 128) text) by (eapply Forall_impl; [|exact P]; cbv beta; intros; lia).
  assert (Hi : Z.of_nat (length text) * 733 <= INT_MAX) by (change INT_MAX with 2147483647; lia).
  destruct (address_total text rest out_size p stack A Hi Np Ns Bp Bs) as [[H _]|[(_ & pl & o & Bpl & _ & _ & _ & _ & [(BA & _)|(BA & _)])|(_ & _ & out & Bo & Lo & Lo2 & D)]].
  - lia.
  - exfalso. apply NC. exists pl. auto.
  - exfalso. apply NC. exists pl. auto.
  - rewrite D. clear D. destruct (raw_facts prog Hb) as (_ & Fv & Lv).
    pose proof (witness_text_length p ver prog Hp Hb Hs) as Lw. fold text in Lw.
    assert (Lr : from_base32_raw_length (length (regroup_pad 5 prog)) = length prog).
    { pose proof (enc_body_out_len true prog Hb) as Q. unfold enc_body in Q. rewrite map_length in Q. exact Q. }
    assert (G : b32_good_length (length (regroup_pad 5 prog))).
    { pose proof (enc_body_good true prog) as Q. unfold enc_body in Q. rewrite map_length in Q. exact Q. }
    assert (Hlo : (length out <= out_size)%nat).
    { apply Nat.le_trans with (from_base58_length (length text)); [|exact Ho]. apply Lo2.
      intros s t Fs Et. rewrite Et in P. destruct s as [|c s].
      - cbn [app] in Et. unfold text, witness_text in Et. apply (f_equal (hd 0)) in Et. 
        destruct Hp as [-> | [-> | ->]]; cbn [cp_hrp mainnet testnet regnet app hd] in Et; discriminate Et.
      - cbn [app] in P. inversion P; subst. inversion Fs; subst. unfold is_space in *. lia. }
    assert (Hlp : (length prog + 1 <= out_size)%nat).
    { unfold from_base58_check_length, from_base58_length in Ho. rewrite Lw in Ho. dlia. }
    destruct (decode_bech32_ok text rest p ver (regroup_pad 5 prog) stack out out_size V ltac:(lia) Ls Hn ltac:(lia)) as (pr & Lpr & Hpr & D).
    rewrite D. clear D. assert (Epr : pr = prog) by (rewrite Hpr by exact G; apply regroup_roundtrip; [lia|exact Hb]). subst pr.
    destruct (Z.eqb_spec ver 0) as [->|Nz].
    + exists (overlay prog out). rewrite overlay_length. split; [lia|]. rewrite Nat.add_0_r. split; [reflexivity|]. apply overlay_firstn.
    + exists (overlay (ver :: prog) out). rewrite overlay_length. cbn [length]. split; [lia|].
      replace ((16 <? ver) || (length prog <? 2)%nat || (40 <? length prog)%nat) with false by lia. split; [reflexivity|].
      replace (length prog + 1)%nat with (length (ver :: prog)) by (cbn [length]; lia). apply overlay_firstn.
Qed.

(** C42, the part that holds: the round trip when the scan for '=' the base 32 decoder makes in the uninitialised part of
    the stack buffer ends at a NUL (for instance because the hash contains a zero 5-bit group).
    Missing: independence of the stack contents, see the refutation. *)
Theorem C42_witness_keyhash_roundtrip_partial : forall p hash cap rest stack, builtin p -> bytes hash -> length hash = 20%nat ->
  (44 <= cap)%nat -> length stack = 128%nat -> nul_first (regroup_pad 5 hash ++ skipn 33 stack) ->
  exists text, to_address_witnessv0_keyhash hash cap p = Ok (length text, text) /\ (length text <= 44)%nat /\
    text = witness_text (cp_hrp p) 0 hash /\
    forall out_size, (from_base58_check_length (length text) <= out_size)%nat ->
    exists out, address_decode (text ++ 0 :: rest) (length text) out_size p stack = Ok (mkAddr WITNESSV0_KEYHASH_ADDRESS 20 out) /\
      firstn 20 out = hash /\ (length out <= out_size)%nat.
Proof.
  intros p hash cap rest stack Hp Hb Hl Hc Ls Hn. destruct (builtin_facts p Hp) as (_ & _ & Lh & Bh & _).
  pose proof (witness_text_length p 0 hash Hp Hb sym0) as Lw. rewrite Hl in Lw. change ((8 * 20 + 4) / 5)%nat with 32%nat in Lw.
  destruct (raw_facts hash Hb) as (_ & _ & Lv). rewrite Hl in Lv. change ((8 * 20 + 4) / 5)%nat with 32%nat in Lv.
  destruct (encode_witness_ok 64 0 hash cap p Hb sym0 Bh ltac:(lia)) as [_ E]. cbv zeta in E.
  exists (witness_text (cp_hrp p) 0 hash). unfold to_address_witnessv0_keyhash. rewrite Hl. cbn [c_assert Nat.eqb WITNESSV0_KEYID_SIZE bind]. rewrite E.
  replace (cap <? _)%nat with false by lia. split; [reflexivity|]. split; [lia|]. split; [reflexivity|]. intros out_size Ho.
  destruct (witness_decode p 0 hash rest stack out_size Hp Hb ltac:(lia) ltac:(lia)) as (out & Lo & D & F); try assumption.
  - apply clash_free_ok; auto using sym0; [lia|]. rewrite Hl. destruct Hp as [-> | [-> | ->]]; vm_compute; reflexivity.
  - rewrite Lv. exact Hn.
  - exists out. rewrite D, Hl in *. cbn [Z.eqb Nat.add Nat.eqb] in *. auto.
Qed.
Print Assumptions C42_witness_keyhash_roundtrip_partial.

(** C42 is false as stated: with a hash without zero 5-bit groups, the outcome depends on the uninitialised bytes of the buffer.
    Without '=' and NUL in them the decoder reads past the end of the buffer, with a '=' in the wrong place a good
    address is rejected. *)
Theorem C42_witness_keyhash_refuted : forall text, text = witness_text (cp_hrp mainnet) 0 (repeat 255 20) ->
  to_address_witnessv0_keyhash (repeat 255 20) 44 mainnet = Ok (length text, text) /\
  address_decode (text ++ [0]) (length text) 64 mainnet (repeat 1 128) = UB /\
  match address_decode (text ++ [0]) (length text) 64 mainnet (repeat 1 49 ++ 61 :: repeat 0 78) with
  | Ok r => a_kind r = BAD_ADDRESS /\ a_size r = 30%nat
  | _ => False end.
Proof. intros text ->. split; [|split]; [vm_compute; reflexivity|vm_compute; reflexivity|vm_compute; split; reflexivity]. Qed.
Print Assumptions C42_witness_keyhash_refuted.
(* BIP-173: bc1qw508d6qejxtdg4y5r3zarvary0c5xw7kv8f3t4, with zero 5-bit groups: any stack will do *)
Definition bip173_hash : list Z := [0x75;0x1e;0x76;0xe8;0x19;0x91;0x96;0xd4;0x54;0x94;0x1c;0x45;0xd1;0xb3;0xa3;0x23;0xf1;0x43;0x3b;0xd6].
Example C42_witness : to_address_witnessv0_keyhash bip173_hash 44 mainnet =
    Ok (42%nat, [98;99;49;113;119;53;48;56;100;54;113;101;106;120;116;100;103;52;121;53;114;51;122;97;114;118;97;114;121;48;99;53;120;119;55;107;118;56;102;51;116;52]) /\
  forall stack, nul_first (regroup_pad 5 bip173_hash ++ skipn 33 stack).
Proof.
  split; [vm_compute; reflexivity|]. intros stack.
  assert (E : regroup_pad 5 bip173_hash = [14; 20; 15; 7; 13; 26] ++ 0 :: skipn 7 (regroup_pad 5 bip173_hash)) by (vm_compute; reflexivity).
  exists [14; 20; 15; 7; 13; 26], (skipn 7 (regroup_pad 5 bip173_hash) ++ skipn 33 stack). split; [rewrite E at 1; now rewrite <- app_assoc|].
  cbn [In]. intuition discriminate.
Qed.

(** C43, the part that holds: the round trip when (as in C42) the scan of the stack ends at a NUL and, on the main network,
    the text is not by accident a valid Base58Check text starting with the script prefix. *)
Theorem C43_witness_scripthash_roundtrip_partial : forall p hash cap rest stack, builtin p -> bytes hash -> length hash = 32%nat ->
  (64 <= cap)%nat -> length stack = 128%nat -> nul_first (regroup_pad 5 hash ++ skipn 53 stack) ->
  p <> mainnet \/ ~ also_base58 (cp_pubkey p) (cp_script p) (witness_text (cp_hrp p) 0 hash) ->
  exists text, to_address_witnessv0_scripthash hash cap p = Ok (length text, text) /\ (length text <= 64)%nat /\
    text = witness_text (cp_hrp p) 0 hash /\
    forall out_size, (from_base58_check_length (length text) <= out_size)%nat ->
    exists out, address_decode (text ++ 0 :: rest) (length text) out_size p stack = Ok (mkAddr WITNESSV0_SCRIPTHASH_ADDRESS 32 out) /\
      firstn 32 out = hash /\ (length out <= out_size)%nat.
Proof.
  intros p hash cap rest stack Hp Hb Hl Hc Ls Hn NC. destruct (builtin_facts p Hp) as (_ & _ & Lh & Bh & _).
  pose proof (witness_text_length p 0 hash Hp Hb sym0) as Lw. rewrite Hl in Lw. change ((8 * 32 + 4) / 5)%nat with 52%nat in Lw.
  destruct (raw_facts hash Hb) as (_ & _ & Lv). rewrite Hl in Lv. change ((8 * 32 + 4) / 5)%nat with 52%nat in Lv.
  destruct (encode_witness_ok 64 0 hash cap p Hb sym0 Bh ltac:(lia)) as [_ E]. cbv zeta in E.
  exists (witness_text (cp_hrp p) 0 hash). unfold to_address_witnessv0_scripthash. rewrite Hl. cbn [c_assert Nat.eqb WITNESSV0_SCRIPTID_SIZE bind]. rewrite E.
  replace (cap <? _)%nat with false by lia. split; [reflexivity|]. split; [lia|]. split; [reflexivity|]. intros out_size Ho.
  destruct (witness_decode p 0 hash rest stack out_size Hp Hb ltac:(lia) ltac:(lia)) as (out & Lo & D & F); try assumption.
  - destruct NC as [NC|NC]; [|exact NC]. apply clash_free_ok; auto using sym0; [lia|]. rewrite Hl. destruct Hp as [-> | [-> | ->]]; [congruence| |]; vm_compute; reflexivity.
  - rewrite Lv. exact Hn.
  - exists out. rewrite D, Hl in *. cbn [Z.eqb Nat.add Nat.eqb] in *. auto.
Qed.
Print Assumptions C43_witness_scripthash_roundtrip_partial.

(** C43 is false as stated, even with a cleared stack: this pay-to-witness-script-hash address of the main network is also
    a valid Base58Check text (of 42 bytes, the first being the script prefix), and is taken for a script address. *)
Definition clash_hash : list Z :=
  [102;17;30;158;209;76;83;194;27;12;141;199;103;120;62;174;109;50;187;118;102;250;38;30;123;132;1;100;49;18;68;40].
Theorem C43_witness_scripthash_refuted : forall text, text = witness_text (cp_hrp mainnet) 0 clash_hash ->
  to_address_witnessv0_scripthash clash_hash 64 mainnet = Ok (length text, text) /\
  match address_decode (text ++ [0]) (length text) 64 mainnet (repeat 0 128) with
  | Ok r => a_kind r = SCRIPT_ADDRESS /\ a_size r = 41%nat
  | _ => False end.
Proof. intros text ->. split; vm_compute; [reflexivity|split; reflexivity]. Qed.
Print Assumptions C43_witness_scripthash_refuted.

(** C44, the part that holds: the round trip when the scan of the stack ends at a NUL and, for programs of 23 or 32 bytes on
    the main network, the text is not by accident a Base58Check text starting with the script prefix. *)
Theorem C44_witness_unknown_roundtrip_partial : forall p ver prog cap rest stack, builtin p -> bytes prog ->
  1 <= ver <= 16 -> (2 <= length prog <= 40)%nat -> (76 <= cap)%nat -> length stack = 128%nat ->
  nul_first (regroup_pad 5 prog ++ skipn (S (length (regroup_pad 5 prog))) stack) ->
  p <> mainnet \/ (length prog <> 23 /\ length prog <> 32)%nat \/ ~ also_base58 (cp_pubkey p) (cp_script p) (witness_text (cp_hrp p) ver prog) ->
  exists text, to_address_witness_unknown (ver :: prog) cap p = Ok (length text, text) /\ (length text <= 76)%nat /\
    text = witness_text (cp_hrp p) ver prog /\
    forall out_size, (from_base58_check_length (length text) <= out_size)%nat ->
    exists out, address_decode (text ++ 0 :: rest) (length text) out_size p stack =
        Ok (mkAddr WITNESS_UNKNOWN_ADDRESS (S (length prog)) out) /\
      firstn (S (length prog)) out = ver :: prog /\ (length out <= out_size)%nat.
Proof.
  intros p ver prog cap rest stack Hp Hb Hv Hl Hc Ls Hn NC. destruct (builtin_facts p Hp) as (_ & _ & Lh & Bh & _).
  assert (Hs : sym ver) by (unfold sym; lia).
  pose proof (witness_text_length p ver prog Hp Hb Hs) as Lw. destruct (raw_facts prog Hb) as (_ & _ & Lv).
  assert (B64 : ((8 * length prog + 4) / 5 < 65)%nat) by (apply Nat.div_lt_upper_bound; lia).
  destruct (encode_witness_ok 128 ver prog cap p Hb Hs Bh ltac:(lia)) as [_ E]. cbv zeta in E.
  exists (witness_text (cp_hrp p) ver prog). unfold to_address_witness_unknown. cbn [length skipn].
  replace ((S (length prog) <? 3)%nat || (41 <? S (length prog))%nat) with false by lia. cbn [rd nth_error bind].
  replace ((ver <? 1) || (16 <? ver)) with false by lia. rewrite E.
  replace (cap <? _)%nat with false by lia. split; [reflexivity|]. split; [lia|]. split; [reflexivity|]. intros out_size Ho.
  destruct (witness_decode p ver prog rest stack out_size Hp Hb ltac:(lia) ltac:(lia)) as (out & Lo & D & F); try assumption.
  - destruct NC as [NC|[NC|NC]]; [| |exact NC]; apply clash_free_ok; auto; try lia.
    + assert (K : forall n, (n <= 40)%nat -> clash_free testnet testnet n = true /\ clash_free regnet regnet n = true).
      { intros n Hn2. rewrite <- andb_true_iff.
        assert (Q : forallb (fun n => clash_free testnet testnet n && clash_free regnet regnet n) (seq 0 41) = true) by (vm_compute; reflexivity).
        rewrite forallb_forall in Q. apply Q, in_seq. lia. }
      destruct (K (length prog) ltac:(lia)) as [K1 K2]. destruct Hp as [-> | [-> | ->]]; [congruence|exact K1|exact K2].
    + assert (K : forall q, builtin q -> forall n, (n <= 40)%nat -> n <> 23%nat -> n <> 32%nat -> n <> 0%nat -> clash_free q q n = true).
      { intros q Hq n Hn1 Hn2 Hn3 Hn4.
        assert (Q : forallb (fun n => (n =? 23)%nat || (n =? 32)%nat || (n =? 0)%nat || clash_free q q n) (seq 0 41) = true) by (destruct Hq as [-> | [-> | ->]]; vm_compute; reflexivity).
        rewrite forallb_forall in Q. specialize (Q n ltac:(apply in_seq; lia)). apply orb_true_iff in Q as [Q|Q]; [lia|exact Q]. }
      apply K; [exact Hp|lia|lia|lia|lia].
  - exists out. rewrite D in *. replace (ver =? 0) with false in * by lia. rewrite Nat.add_1_r in *. auto.
Qed.
Print Assumptions C44_witness_unknown_roundtrip_partial.
(** C44 is false as stated, even with a cleared stack: version 1 with this 32-byte program gives an address of the main network that
    is also a valid Base58Check text, and is taken for a script address.  (The dependence on the stack is as for C42.) *)
Definition clash_program : list Z :=
  [137;109;227;16;168;204;29;131;54;172;81;58;89;211;147;204;109;234;43;64;112;9;52;120;118;178;136;196;194;209;144;142].
Theorem C44_witness_unknown_refuted : forall text, text = witness_text (cp_hrp mainnet) 1 clash_program ->
  to_address_witness_unknown (1 :: clash_program) 76 mainnet = Ok (length text, text) /\
  match address_decode (text ++ [0]) (length text) 64 mainnet (repeat 0 128) with
  | Ok r => a_kind r = SCRIPT_ADDRESS /\ a_size r = 41%nat
  | _ => False end.
Proof. intros text ->. split; vm_compute; [reflexivity|split; reflexivity]. Qed.
Print Assumptions C44_witness_unknown_refuted.
(* the hypotheses of the partial theorem are met by the BIP-173 program, version 1, program repeated twice, any stack *)
Example C44_witness : match to_address_witness_unknown (1 :: bip173_hash ++ bip173_hash) 76 mainnet with
  | Ok (n, text) => match address_decode (text ++ [0]) n 64 mainnet (repeat 255 128) with
                    | Ok r => a_kind r = WITNESS_UNKNOWN_ADDRESS /\ firstn (a_size r) (a_out r) = 1 :: bip173_hash ++ bip173_hash
                    | _ => False end
  | _ => False end.
Proof. vm_compute. split; reflexivity. Qed.

(** C45: every encoder either returns 0, writing nothing, because the capacity is below the announced length (or the argument is
    refused), or writes exactly the returned number of characters, at most the capacity.  (A hash of a wrong size trips the assertion.) *)
Theorem C45_pubkey_capacity : forall p cap id, bytes (cp_pubkey p) -> bytes id ->
  Z.of_nat (to_base58_check_length (length id) (length (cp_pubkey p))) <= INT_MAX ->
  exists text, to_address_pubkey id cap p = Ok (length text, text) /\ (length text <= cap)%nat /\
    (((cap < to_base58_check_length (length id) (length (cp_pubkey p)))%nat /\ text = []) \/
     ((to_base58_check_length (length id) (length (cp_pubkey p)) <= cap)%nat /\ is_base58check (cp_pubkey p ++ id) text)).
Proof.
  intros p cap id Bp Bi H. unfold to_address_pubkey.
  destruct (Nat.ltb_spec cap (to_base58_check_length (length id) (length (cp_pubkey p)))).
  - exists []. cbn [length]. split; [reflexivity|]. split; [lia|]. left; auto.
  - destruct (C32_base58check_encode id (cp_pubkey p) Bi Bp H) as (text & E & I & L). exists text. split; [exact E|]. split; [lia|]. right. auto.
Qed.
Print Assumptions C45_pubkey_capacity.
Theorem C45_script_capacity : forall p cap id, bytes (cp_script p) -> bytes id ->
  Z.of_nat (to_base58_check_length (length id) (length (cp_script p))) <= INT_MAX ->
  exists text, to_address_script id cap p = Ok (length text, text) /\ (length text <= cap)%nat /\
    (((cap < to_base58_check_length (length id) (length (cp_script p)))%nat /\ text = []) \/
     ((to_base58_check_length (length id) (length (cp_script p)) <= cap)%nat /\ is_base58check (cp_script p ++ id) text)).
Proof.
  intros p cap id Bp Bi H. unfold to_address_script.
  destruct (Nat.ltb_spec cap (to_base58_check_length (length id) (length (cp_script p)))).
  - exists []. cbn [length]. split; [reflexivity|]. split; [lia|]. left; auto.
  - destruct (C32_base58check_encode id (cp_script p) Bi Bp H) as (text & E & I & L). exists text. split; [exact E|]. split; [lia|]. right. auto.
Qed.
Print Assumptions C45_script_capacity.
Lemma encode_witness_capacity cap_buf ver prog cap p : bytes prog -> sym ver -> bytes (cp_hrp p) -> (1 + length (regroup_pad 5 prog) <= cap_buf)%nat ->
  exists text, encode_witness cap_buf ver prog cap p = Ok (length text, text) /\ (length text <= cap)%nat /\
    (((cap < length (witness_text (cp_hrp p) ver prog))%nat /\ text = []) \/ text = witness_text (cp_hrp p) ver prog).
Proof.
  intros Hb Hv Hh Hc. destruct (encode_witness_ok cap_buf ver prog cap p Hb Hv Hh Hc) as [_ E]. cbv zeta in E. rewrite E.
  destruct (Nat.ltb_spec cap (length (witness_text (cp_hrp p) ver prog))); [exists []|eexists]; (split; [reflexivity|]); cbn [length]; split; auto; lia.
Qed.
Theorem C45_witness_keyhash_capacity : forall p cap hash, bytes (cp_hrp p) -> bytes hash ->
  (length hash <> 20%nat -> to_address_witnessv0_keyhash hash cap p = Abort) /\
  (length hash = 20%nat -> exists text, to_address_witnessv0_keyhash hash cap p = Ok (length text, text) /\ (length text <= cap)%nat /\
    (((cap < length (witness_text (cp_hrp p) 0 hash))%nat /\ text = []) \/ text = witness_text (cp_hrp p) 0 hash)).
Proof.
  intros p cap hash Bh Hb. unfold to_address_witnessv0_keyhash, WITNESSV0_KEYID_SIZE. split; intros Hl.
  - replace (length hash =? 20)%nat with false by lia. reflexivity.
  - rewrite Hl. cbn [c_assert Nat.eqb bind]. apply encode_witness_capacity; auto using sym0.
    destruct (raw_facts hash Hb) as (_ & _ & ->). rewrite Hl. change ((8 * 20 + 4) / 5)%nat with 32%nat. lia.
Qed.
Print Assumptions C45_witness_keyhash_capacity.
Theorem C45_witness_scripthash_capacity : forall p cap hash, bytes (cp_hrp p) -> bytes hash ->
  (length hash <> 32%nat -> to_address_witnessv0_scripthash hash cap p = Abort) /\
  (length hash = 32%nat -> exists text, to_address_witnessv0_scripthash hash cap p = Ok (length text, text) /\ (length text <= cap)%nat /\
    (((cap < length (witness_text (cp_hrp p) 0 hash))%nat /\ text = []) \/ text = witness_text (cp_hrp p) 0 hash)).
Proof.
  intros p cap hash Bh Hb. unfold to_address_witnessv0_scripthash, WITNESSV0_SCRIPTID_SIZE. split; intros Hl.
  - replace (length hash =? 32)%nat with false by lia. reflexivity.
  - rewrite Hl. cbn [c_assert Nat.eqb bind]. apply encode_witness_capacity; auto using sym0.
    destruct (raw_facts hash Hb) as (_ & _ & ->). rewrite Hl. change ((8 * 32 + 4) / 5)%nat with 52%nat. lia.
Qed.
Print Assumptions C45_witness_scripthash_capacity.
Theorem C45_witness_unknown_capacity : forall p cap arg, bytes (cp_hrp p) -> bytes arg ->
  exists text, to_address_witness_unknown arg cap p = Ok (length text, text) /\ (length text <= cap)%nat /\
    (text = [] \/ exists ver prog, arg = ver :: prog /\ text = witness_text (cp_hrp p) ver prog) /\
    (text = [] -> (forall ver prog, arg = ver :: prog -> 1 <= ver <= 16 -> (2 <= length prog <= 40)%nat ->
                     (cap < length (witness_text (cp_hrp p) ver prog))%nat)).
Proof.
  intros p cap arg Bh Ba. unfold to_address_witness_unknown.
  destruct ((length arg <? 3)%nat || (41 <? length arg)%nat) eqn:C.
  { exists []. cbn [length]. split; [reflexivity|]. split; [lia|]. split; [auto|]. intros _ ver prog -> _ Hl. cbn [length] in C. lia. }
  destruct arg as [|ver prog]; [cbn in C; discriminate|]. cbn [rd nth_error bind skipn]. cbn [length] in C.
  apply bytes_cons in Ba as [_ Bp].
  destruct ((ver <? 1) || (16 <? ver)) eqn:Cv.
  { exists []. cbn [length]. split; [reflexivity|]. split; [lia|]. split; [auto|]. intros _ v pr E Hv _. injection E as -> ->. lia. }
  destruct (encode_witness_capacity 128 ver prog cap p Bp ltac:(unfold sym; lia) Bh) as (text & E & L & R).
  { destruct (raw_facts prog Bp) as (_ & _ & ->). assert ((8 * length prog + 4) / 5 < 65)%nat by (apply Nat.div_lt_upper_bound; lia). lia. }
  exists text. split; [exact E|]. split; [exact L|]. split.
  - destruct R as [[_ R]|R]; [auto|right; eauto].
  - intros Et v pr Q _ _. injection Q as <- <-. destruct R as [[R _]|R]; [exact R|]. exfalso.
    rewrite Et in R. unfold witness_text in R. cbv zeta in R. destruct (cp_hrp p); discriminate R.
Qed.
Print Assumptions C45_witness_unknown_capacity.
Example C45_ex : to_address_witness_unknown [1; 117; 30] 9 mainnet = Ok (0%nat, []) /\
  match to_address_witness_unknown [16; 117; 30] 14 mainnet with Ok (n, t) => n = 14%nat | _ => False end /\
  to_address_pubkey (repeat 7 20) 35 mainnet = Ok (0%nat, []) /\ to_address_witnessv0_keyhash (repeat 7 19) 90 mainnet = Abort.
Proof. split; [|split; [|split]]; vm_compute; reflexivity. Qed.

(** C46, the part that holds: for texts that, after leading white space, do not start with "1111", and a stack on which
    the scan for '=' ends at a NUL, decoding is defined, and all bytes written and the resulting size are within the capacity. *)
Theorem C46_decode_capacity_partial : forall p text rest out_size stack, builtin p ->
  Forall (fun c => 0 < c < 128) text -> Z.of_nat (length text) * 733 <= INT_MAX ->
  length stack = 128%nat -> good_stack stack ->
  (forall s t, Forall is_space s -> text <> s ++ [49; 49; 49; 49] ++ t) ->
  exists r, address_decode (text ++ 0 :: rest) (length text) out_size p stack = Ok r /\
    (length (a_out r) <= out_size)%nat /\ (a_size r <= out_size)%nat.
Proof.
  intros p text rest out_size stack Hp A Hl Ls Gs N1. destruct (b58_args p Hp) as (Np & Ns & Bp & Bs & _).
  destruct (builtin_facts p Hp) as (_ & _ & Lh & _ & _).
  destruct (address_total text rest out_size p stack A Hl Np Ns Bp Bs) as [[H D]|[(Ho & pl & o & Bpl & _ & Fo & Lo & Lo2 & HC)|(Ho & _ & out & Bo & Lo & Lo2 & D)]].
  - rewrite D. eexists. split; [reflexivity|]. cbn [a_out a_size length]. lia.
  - specialize (Lo2 N1). unfold from_base58_check_length in Ho. destruct HC as [(_ & Le & D)|(_ & Le & _ & D)]; rewrite D; eexists; (split; [reflexivity|]); cbn [a_out a_size]; lia.
  - specialize (Lo2 N1). unfold from_base58_check_length in Ho. rewrite D. clear D.
    destruct (decode_bech32_total text rest p stack out out_size) as [D|(ver & vals & prog & V & Hr & Lp & _ & D)]; try assumption; [|lia| |].
    + eapply Forall_impl; [|exact A]. cbv beta. intros; lia.
    + rewrite D. eexists. split; [reflexivity|]. cbn [a_out a_size]. lia.
    + rewrite D. eexists. split; [reflexivity|].
      assert (length prog + 1 <= out_size)%nat.
      { destruct V as (L90 & _ & _ & h & d & chk & Es & _ & _ & _ & _ & Lc & M & _).
        apply (f_equal (@length Z)) in M. rewrite !map_length, app_length in M. cbn [length] in M.
        assert (Lt : (length vals + 8 <= length text)%nat) by (rewrite Es, !app_length; cbn [length]; lia).
        rewrite Lp, raw_len_eq. pose proof (Nat.div_mod (length vals) 8 ltac:(lia)) as DM. pose proof (Nat.mod_upper_bound (length vals) 8 ltac:(lia)) as MB.
        assert (tail_bytes (length vals mod 8) <= 4)%nat.
        { destruct (length vals mod 8)%nat as [|[|[|[|[|[|[|[|]]]]]]]]; cbn; lia. }
        unfold from_base58_length in Ho. dlia. }
      destruct (ver =? 0); cbn [a_out a_size]; rewrite overlay_length; cbn [length]; lia.
Qed.
Print Assumptions C46_decode_capacity_partial.
Example C46_witness : good_stack (repeat 0 128) /\ length (repeat 0 128) = 128%nat /\
  forall s t, Forall is_space s -> [98; 99; 49; 113; 119; 53] <> s ++ [49; 49; 49; 49] ++ t.
Proof.
  split; [split|split; [reflexivity|]].
  - intros I. apply repeat_spec in I. lia.
  - exists (repeat 0 127). reflexivity.
  - intros [|c s] t F E; [discriminate|]. inversion F; subst. injection E as <- _. unfold is_space in *. lia.
Qed.
(** C46 is false as stated: the burn address 1111111111111111111114oLvT2, decoded into a buffer of the announced 21 bytes,
    makes the decoder write 25 bytes. *)
Definition burn_text : list Z := repeat 49 21 ++ [52; 111; 76; 118; 84; 50].
Theorem C46_decode_capacity_refuted :
  (from_base58_check_length (length burn_text) <= 21)%nat /\
  match address_decode (burn_text ++ [0]) (length burn_text) 21 mainnet (repeat 0 128) with
  | Ok r => a_kind r = PUBKEY_ADDRESS /\ a_size r = 20%nat /\ length (a_out r) = 25%nat
  | _ => False end.
Proof. split; [vm_compute; repeat constructor|]. vm_compute. split; [|split]; reflexivity. Qed.
Print Assumptions C46_decode_capacity_refuted.

(** * C47: network separation *)
(** The numeral of at most 35 digits whose value starts, among 25 bytes, with byte [x], does not start with digit [c]. *)
Definition first_digit_excluded (x c : Z) : bool :=
  let q := 256 ^ 24 in digit_walk 40 1 (x * q) ((x + 1) * q) c.
Lemma first_digit x d c t : is_byte x -> bytes d -> length d = 24%nat -> 0 <= c < 58 -> (length t <= 39)%nat ->
  is_base58 (x :: d) (b58_char c :: t) -> x <> 0 -> first_digit_excluded x c = false.
Proof.
  intros Hx Hd Ld Hc Lt (z & r & ds & E & Hr & (Fd & Vd & Nz) & Et) Hx0.
  destruct z as [|z]; [|exfalso; cbn [repeat app] in E; congruence]. cbn [repeat app] in E, Et. subst r.
  destruct ds as [|d0 ds]; [discriminate|]. cbn [map] in Et. injection Et as E1 E2. apply Forall_cons_iff in Fd as [H0 Fd].
  assert (d0 = c) by (destruct (dec_digit d0 H0) as (Q1 & _); destruct (dec_digit c Hc) as (Q2 & _); rewrite <- Q1, <- Q2; now rewrite E1). subst d0.
  destruct (first_digit_excluded x c) eqn:Ex; [|reflexivity]. exfalso. unfold first_digit_excluded in Ex. cbv zeta in Ex.
  assert (Ld0 : length ds = length t) by (rewrite E2; now rewrite map_length).
  apply (digit_walk_ok _ _ _ _ _ (length ds)) in Ex; [|lia]. rewrite Z.mul_1_l in Ex.
  pose proof (numeral_bound 58 ds ltac:(lia) Fd) as B58. pose proof (numeral_bound 256 d ltac:(lia) Hd) as B256.
  rewrite !numeral_value_cons in Vd. rewrite Ld in Vd, B256. change (Z.of_nat 24) with 24 in *.
  set (P := 58 ^ Z.of_nat (length ds)) in *. set (Q := 256 ^ 24) in *. lia.
Qed.
(** a Base58Check address of 20 bytes of network [p] is not bech32 text of network [q] *)
Lemma base58_not_bech32 x q id text ver vals : is_byte x -> bytes id -> length id = 20%nat -> is_base58check ([x] ++ id) text -> (length text <= 40)%nat ->
  x = 0 \/ forallb (first_digit_excluded x) [34; 10; 51; 26] = true -> builtin q ->
  ~ bech32_valid text (cp_hrp q) (ver :: vals).
Proof.
  intros Hx Bi Li I Lt C Hq (_ & _ & _ & h & d & chk & Es & Nh & _ & Eh & _). unfold is_base58check in I. cbn [app] in I.
  destruct h as [|c h]; [congruence|]. cbn [map app] in *.
  assert (Tc : tolower c = 98 \/ tolower c = 116) by (destruct Hq as [-> | [-> | ->]]; cbn [cp_hrp mainnet testnet regnet] in Eh; injection Eh; auto).
  assert (Cc : In c [98; 66; 116; 84]) by (unfold tolower in Tc; cbn [In]; destruct ((65 <=? c) && (c <=? 90)) eqn:U; lia).
  destruct C as [->|C].
  - destruct (base58_zero _ _ I) as (t & Et). rewrite Et in Es. injection Es as <- _. cbn in Cc. intuition discriminate.
  - destruct (Z.eq_dec x 0) as [->|Nx].
    { destruct (base58_zero _ _ I) as (t & Et). rewrite Et in Es. injection Es as <- _. cbn in Cc. intuition discriminate. }
    rewrite forallb_forall in C.
    assert (K : forall g, 0 <= g < 58 -> In g [34; 10; 51; 26] -> b58_char g <> c).
    { intros g Hg Ig Eg. specialize (C g Ig). rewrite Es, <- Eg in I.
      rewrite (first_digit x (id ++ checksum4 (x :: id)) g (h ++ [49] ++ d)) in C; try assumption; try discriminate.
      - apply bytes_app. split; [exact Bi|apply checksum4_bytes].
      - rewrite app_length, checksum4_length, Li. reflexivity.
      - rewrite Es in Lt. cbn [length] in Lt. cbn [app]. lia. }
    cbn [In] in Cc. destruct Cc as [<-|[<-|[<-|[<-|[]]]]].
    + apply (K 34); [lia|cbn;auto 10|reflexivity].
    + apply (K 10); [lia|cbn;auto 10|reflexivity].
    + apply (K 51); [lia|cbn;auto 10|reflexivity].
    + apply (K 26); [lia|cbn;auto 10|reflexivity].
Qed.
Definition other_network (p q : chain_parameters) : Prop :=
  (p = mainnet /\ (q = testnet \/ q = regnet)) \/ (q = mainnet /\ (p = testnet \/ p = regnet)).
Lemma base58_separation p q x id text rest out_size stack : other_network p q -> x = cp_pubkey p \/ x = cp_script p ->
  bytes id -> length id = 20%nat -> is_base58check (x ++ id) text -> (length text <= 36)%nat ->
  match address_decode (text ++ 0 :: rest) (length text) out_size q stack with Ok r => a_kind r = BAD_ADDRESS | _ => False end.
Proof.
  intros O Hx Bi Li I Lt. assert (Hq : builtin q) by (unfold other_network, builtin in *; intuition). assert (Hp : builtin p) by (unfold other_network, builtin in *; intuition).
  destruct (b58_args q Hq) as (Np & Ns & Bp & Bs & _).
  assert (Hl : Z.of_nat (length text) * 733 <= INT_MAX) by (change INT_MAX with 2147483647; lia).
  assert (Ex : exists a, x = [a] /\ is_byte a /\ ~ In a (cp_pubkey q ++ cp_script q) /\ (a = 0 \/ forallb (first_digit_excluded a) [34; 10; 51; 26] = true)).
  { destruct O as [[-> [-> | ->]]|[-> [-> | ->]]]; destruct Hx as [-> | ->]; cbn [cp_pubkey cp_script mainnet testnet regnet app]; eexists;
    (split; [reflexivity|]); (split; [unfold is_byte; lia|]); (split; [cbn [In]; lia|]); (left; reflexivity) || (right; vm_compute; reflexivity). }
  destruct Ex as (a & -> & Ha & Na & Ca).
  assert (BA : base58_address [a] id text) by (exists text; split; [apply trims_self|exact I]).
  assert (Nx : forall y pl, bytes pl -> y = cp_pubkey q \/ y = cp_script q -> ~ base58_address y pl text).
  { intros y pl Bpl Hy BA2. assert (By : bytes y) by (destruct Hy; subst; assumption).
    assert (Q : [a] ++ id = y ++ pl).
    { apply (base58_address_fun [a] id y pl text); auto; apply bytes_app; split; auto. apply bytes_cons; split; [exact Ha|constructor]. }
    destruct (builtin_facts q Hq) as (_ & _ & _ & _ & u & v & Eu & Ev & _). apply Na. rewrite Eu, Ev in *. cbn [app In].
    destruct Hy; subst y; cbn [app] in Q; injection Q as <- _; auto. }
  destruct (address_total text rest out_size q stack (b58_text_ok _ _ I) Hl Np Ns Bp Bs) as [[H D]|[(_ & pl & o & Bpl & _ & _ & _ & _ & [(BA2 & _)|(BA2 & _)])|(_ & _ & out & Bo & Lo & Lo2 & D)]].
  - now rewrite D.
  - exfalso. exact (Nx _ pl Bpl (or_introl eq_refl) BA2).
  - exfalso. exact (Nx _ pl Bpl (or_intror eq_refl) BA2).
  - rewrite D, decode_bech32_bad; [reflexivity| |].
    + eapply Forall_impl; [|exact (b58_text_ok _ _ I)]. cbv beta. intros; lia.
    + intros (ver & vals & V). eapply base58_not_bech32; [exact Ha|exact Bi|exact Li|exact I|lia|exact Ca|exact Hq|exact V].
Qed.
(** Base 58 addresses of the main network are bad addresses for the test networks, and conversely, for all stacks. *)
Theorem C47_base58_network_separation : forall p q id cap rest out_size stack text, other_network p q ->
  bytes id -> length id = 20%nat -> text <> [] ->
  to_address_pubkey id cap p = Ok (length text, text) \/ to_address_script id cap p = Ok (length text, text) ->
  match address_decode (text ++ 0 :: rest) (length text) out_size q stack with Ok r => a_kind r = BAD_ADDRESS | _ => False end.
Proof.
  intros p q id cap rest out_size stack text O Bi Li Nt E. assert (Hp : builtin p) by (unfold other_network, builtin in *; intuition).
  destruct (b58_args p Hp) as (Np & Ns & Bp & Bs & L1 & L2). destruct E as [E|E].
  - destruct (C45_pubkey_capacity p cap id Bp Bi) as (t & E2 & _ & R); [rewrite Li, L1; vm_compute; discriminate|].
    assert (text = t) by (rewrite E in E2; injection E2; auto). subst t. destruct R as [[_ R]|[_ R]]; [contradiction|].
    apply (base58_separation p q (cp_pubkey p) id); auto. unfold to_address_pubkey in E.
    destruct (C32_base58check_encode id (cp_pubkey p) Bi Bp) as (t & E3 & _ & Lt); [rewrite Li, L1; vm_compute; discriminate|].
    rewrite Li, L1 in *. destruct (cap <? _)%nat; [injection E as _ ?; congruence|]. assert (text = t) by (rewrite E in E3; injection E3; auto). subst t. exact Lt.
  - destruct (C45_script_capacity p cap id Bs Bi) as (t & E2 & _ & R); [rewrite Li, L2; vm_compute; discriminate|].
    assert (text = t) by (rewrite E in E2; injection E2; auto). subst t. destruct R as [[_ R]|[_ R]]; [contradiction|].
    apply (base58_separation p q (cp_script p) id); auto. unfold to_address_script in E.
    destruct (C32_base58check_encode id (cp_script p) Bi Bs) as (t & E3 & _ & Lt); [rewrite Li, L2; vm_compute; discriminate|].
    rewrite Li, L2 in *. destruct (cap <? _)%nat; [injection E as _ ?; congruence|]. assert (text = t) by (rewrite E in E3; injection E3; auto). subst t. exact Lt.
Qed.
Print Assumptions C47_base58_network_separation.

(** Witness addresses of one network are bad addresses for a network with another human-readable part, for all stacks. *)
Lemma witness_separation p q ver prog rest out_size stack : builtin p -> builtin q -> cp_hrp p <> cp_hrp q -> bytes prog -> sym ver ->
  (length prog <= 40)%nat -> ~ also_base58 (cp_pubkey q) (cp_script q) (witness_text (cp_hrp p) ver prog) ->
  let text := witness_text (cp_hrp p) ver prog in
  match address_decode (text ++ 0 :: rest) (length text) out_size q stack with Ok r => a_kind r = BAD_ADDRESS | _ => False end.
Proof.
  intros Hp Hq Nh Hb Hv Hl NC text. pose proof (witness_valid p ver prog Hp Hb Hv Hl) as V. fold text in V. pose proof V as (L90 & P & _).
  destruct (b58_args q Hq) as (Np & Ns & Bp & Bs & _).
  assert (A : Forall (fun c => 0 < c < 128) text) by (eapply Forall_impl; [|exact P]; cbv beta; intros; lia).
  assert (Hi : Z.of_nat (length text) * 733 <= INT_MAX) by (change INT_MAX with 2147483647; lia).
  destruct (address_total text rest out_size q stack A Hi Np Ns Bp Bs) as [[H D]|[(_ & pl & o & Bpl & _ & _ & _ & _ & [(BA & _)|(BA & _)])|(_ & _ & out & Bo & Lo & Lo2 & D)]].
  - now rewrite D.
  - exfalso. apply NC. exists pl. auto.
  - exfalso. apply NC. exists pl. auto.
  - rewrite D, decode_bech32_bad; [reflexivity|eapply Forall_impl; [|exact A]; cbv beta; intros; lia|].
    intros (v & vals & V2). apply Nh. 
    pose proof (bech32_decode_accepts text [] _ _ (length (cp_hrp p) + length (cp_hrp q)) V ltac:(lia)) as E1.
    pose proof (bech32_decode_accepts text [] _ _ (length (cp_hrp p) + length (cp_hrp q)) V2 ltac:(lia)) as E2.
    rewrite E1 in E2. injection E2 as _ _ E _ _. exact E.
Qed.
Theorem C47_witness_v0_network_separation : forall p q hash rest out_size stack, builtin p -> builtin q -> cp_hrp p <> cp_hrp q ->
  bytes hash -> length hash = 20%nat \/ length hash = 32%nat ->
  let text := witness_text (cp_hrp p) 0 hash in
  match address_decode (text ++ 0 :: rest) (length text) out_size q stack with Ok r => a_kind r = BAD_ADDRESS | _ => False end.
Proof.
  intros p q hash rest out_size stack Hp Hq Nh Hb Hl. apply witness_separation; auto using sym0; [lia|].
  apply clash_free_ok; auto using sym0; [lia|].
  destruct Hp as [-> | [-> | ->]], Hq as [-> | [-> | ->]]; try (exfalso; apply Nh; reflexivity); destruct Hl as [-> | ->]; vm_compute; reflexivity.
Qed.
Print Assumptions C47_witness_v0_network_separation.
Theorem C47_witness_unknown_network_separation_partial : forall p q ver prog rest out_size stack, builtin p -> builtin q -> cp_hrp p <> cp_hrp q ->
  bytes prog -> 1 <= ver <= 16 -> (2 <= length prog <= 40)%nat ->
  q <> mainnet \/ (p = testnet /\ length prog <> 35%nat) \/ (p = regnet /\ length prog <> 31%nat) \/
    ~ also_base58 (cp_pubkey q) (cp_script q) (witness_text (cp_hrp p) ver prog) ->
  let text := witness_text (cp_hrp p) ver prog in
  match address_decode (text ++ 0 :: rest) (length text) out_size q stack with Ok r => a_kind r = BAD_ADDRESS | _ => False end.
Proof.
  intros p q ver prog rest out_size stack Hp Hq Nh Hb Hv Hl H. assert (Hs : sym ver) by (unfold sym; lia).
  apply witness_separation; auto; [lia|].
  assert (Hd : (q <> mainnet \/ (p = testnet /\ length prog <> 35%nat) \/ (p = regnet /\ length prog <> 31%nat)) \/ ~ also_base58 (cp_pubkey q) (cp_script q) (witness_text (cp_hrp p) ver prog)) by tauto.
  destruct Hd as [Hd|Hd]; [|exact Hd]. clear H. apply clash_free_ok; auto; [lia|].
  assert (K : forall bad, forallb (fun n => (n =? bad)%nat || clash_free p q n) (seq 2 39) = true -> length prog <> bad -> clash_free p q (length prog) = true).
  { intros bad Q N. rewrite forallb_forall in Q. specialize (Q (length prog) ltac:(apply in_seq; lia)). apply orb_true_iff in Q as [Q|Q]; [lia|exact Q]. }
  destruct Hp as [-> | [-> | ->]], Hq as [-> | [-> | ->]]; try (exfalso; apply Nh; reflexivity).
  - apply (K 99%nat); [vm_compute; reflexivity|lia].
  - apply (K 99%nat); [vm_compute; reflexivity|lia].
  - apply (K 35%nat); [vm_compute; reflexivity|]. destruct Hd as [Hd|[[_ Hd]|[Hd _]]]; [congruence|exact Hd|discriminate Hd].
  - apply (K 99%nat); [vm_compute; reflexivity|lia].
  - apply (K 31%nat); [vm_compute; reflexivity|]. destruct Hd as [Hd|[[Hd _]|[_ Hd]]]; [congruence|discriminate Hd|exact Hd].
  - apply (K 99%nat); [vm_compute; reflexivity|lia].
Qed.
Print Assumptions C47_witness_unknown_network_separation_partial.
(** C47 is false as stated: this version 1 address of the regression test network is a valid main network script address. *)
Definition regnet_program : list Z :=
  [56;125;211;65;174;154;207;225;130;177;5;149;24;39;91;140;2;11;142;169;113;109;204;132;119;32;217;97;201;56;81].
Theorem C47_network_separation_refuted : forall text, text = witness_text (cp_hrp regnet) 1 regnet_program ->
  to_address_witness_unknown (1 :: regnet_program) 76 regnet = Ok (length text, text) /\
  match address_decode (text ++ [0]) (length text) 64 mainnet (repeat 0 128) with
  | Ok r => a_kind r = SCRIPT_ADDRESS /\ a_size r = 41%nat
  | _ => False end.
Proof. intros text ->. split; vm_compute; [reflexivity|split; reflexivity]. Qed.
Print Assumptions C47_network_separation_refuted.
Example C47_ex : other_network mainnet regnet /\ cp_hrp mainnet <> cp_hrp regnet /\
  match to_address_pubkey bip173_hash 36 mainnet with
  | Ok (n, text) => n = 34%nat /\ length text = 34%nat
  | _ => False end.
Proof. split; [left; auto|]. split; [discriminate|]. vm_compute. split; reflexivity. Qed.

(** * C48: strictness of witness decoding *)
(** The part that holds: if an accepted text has canonical padding, it is (up to case) the encoding of the
    version and program it decodes to; so two such texts with equal results are equal up to case.
    Missing: the decoder does not itself reject other paddings, see the refutation. *)
Definition witness_result (r : address_result) (ver : Z) (prog : list Z) : Prop :=
  match a_kind r with
  | WITNESSV0_KEYHASH_ADDRESS => ver = 0 /\ length prog = 20%nat /\ a_size r = 20%nat /\ firstn 20 (a_out r) = prog
  | WITNESSV0_SCRIPTHASH_ADDRESS => ver = 0 /\ length prog = 32%nat /\ a_size r = 32%nat /\ firstn 32 (a_out r) = prog
  | WITNESS_UNKNOWN_ADDRESS => 1 <= ver <= 16 /\ (2 <= length prog <= 40)%nat /\ a_size r = S (length prog) /\ firstn (a_size r) (a_out r) = ver :: prog
  | _ => False
  end.
Definition is_witness (k : address_kind) : Prop :=
  k = WITNESSV0_KEYHASH_ADDRESS \/ k = WITNESSV0_SCRIPTHASH_ADDRESS \/ k = WITNESS_UNKNOWN_ADDRESS.
Theorem C48_witness_strict_partial : forall p text rest out_size stack r, builtin p ->
  Forall (fun c => 0 < c < 128) text -> Z.of_nat (length text) * 733 <= INT_MAX -> length stack = 128%nat -> good_stack stack ->
  address_decode (text ++ 0 :: rest) (length text) out_size p stack = Ok r -> is_witness (a_kind r) ->
  exists ver vals prog, bech32_valid text (cp_hrp p) (ver :: vals) /\ witness_result r ver prog /\
    (canonical_padding vals -> prog = regroup_bytes 5 vals /\ map tolower text = witness_text (cp_hrp p) ver prog).
Proof.
  intros p text rest out_size stack r Hp A Hl Ls Gs E W. destruct (b58_args p Hp) as (Np & Ns & Bp & Bs & _).
  destruct (builtin_facts p Hp) as (_ & _ & Lh & Bh & _).
  destruct (address_total text rest out_size p stack A Hl Np Ns Bp Bs) as [[H D]|[(Ho & pl & o & Bpl & _ & Fo & Lo & Lo2 & HC)|(Ho & _ & out & Bo & Lo & Lo2 & D)]].
  - rewrite D in E. injection E as <-. exfalso. unfold is_witness in W. cbn [a_kind] in W. intuition discriminate.
  - destruct HC as [(_ & _ & D)|(_ & _ & _ & D)]; rewrite D in E; injection E as <-; exfalso; unfold is_witness in W; cbn [a_kind] in W; intuition discriminate.
  - rewrite D in E. clear D.
    destruct (decode_bech32_total text rest p stack out out_size) as [D|(ver & vals & prog & V & Hr & Lp & G & D)]; try assumption; [|lia| |].
    + eapply Forall_impl; [|exact A]. cbv beta. intros; lia.
    + rewrite D in E. injection E as <-. exfalso; unfold is_witness in W; cbn [a_kind] in W; intuition discriminate.
    + exists ver, vals, prog. split; [exact V|]. assert (Hv : 0 <= ver < 32 /\ Forall sym vals).
      { destruct V as (_ & _ & _ & h & d & chk & _ & _ & _ & _ & F & _). apply Forall_app in F as [F _]. apply Forall_cons_iff in F as [F1 F2]. split; [exact F1|exact F2]. }
      destruct Hv as [Hv Fv]. split.
      * rewrite D in E. apply (f_equal (fun x => match x with Ok y => y | _ => r end)) in E. cbv beta iota in E. rewrite <- E in W |- *. clear E D.
        destruct (Z.eqb_spec ver 0) as [->|Nv].
        -- cbn [a_kind] in W. unfold witness_result. cbn [a_kind a_size a_out].
           destruct (Nat.eqb_spec (length prog) 20) as [E20|N20].
           { rewrite E20. repeat (split; [reflexivity|]). rewrite <- E20. apply overlay_firstn. }
           destruct (Nat.eqb_spec (length prog) 32) as [E32|N32]; [|exfalso; unfold is_witness in W; intuition discriminate].
           rewrite E32. repeat (split; [reflexivity|]). rewrite <- E32. apply overlay_firstn.
        -- cbn [a_kind] in W. unfold witness_result. cbn [a_kind a_size a_out].
           destruct ((16 <? ver) || (length prog <? 2)%nat || (40 <? length prog)%nat) eqn:C; [exfalso; unfold is_witness in W; intuition discriminate|].
           split; [lia|]. split; [lia|]. split; [lia|]. replace (length prog + 1)%nat with (length (ver :: prog)) by (cbn [length]; lia). apply overlay_firstn.
      * intros [C1 C2]. assert (Gl : b32_good_length (length vals)).
        { unfold spare_bits in C1. rewrite skipn_length, bit_string_length in C1. unfold b32_good_length.
          pose proof (Nat.div_mod (length vals) 8 ltac:(lia)) as DM. pose proof (Nat.mod_upper_bound (length vals) 8 ltac:(lia)) as MB.
          set (m := (length vals mod 8)%nat) in *. set (k := (length vals / 8)%nat) in *. clearbody m k. rewrite DM in C1.
          destruct m as [|[|[|[|[|[|[|[|]]]]]]]]; cbn [In]; try tauto; try lia; exfalso; clear -C1; dlia. }
        specialize (G Gl). split; [exact G|]. rewrite (bech32_text text (cp_hrp p) (ver :: vals) Bh V). unfold witness_text.
        rewrite G, regroup_back; [reflexivity|lia| |exact C1|exact C2]. eapply Forall_impl; [|exact Fv]. unfold sym. intros; lia.
Qed.
Print Assumptions C48_witness_strict_partial.
Theorem C48_witness_injective_partial : forall p text1 text2 rest1 rest2 size1 size2 stack1 stack2 r1 r2 ver prog vals1 vals2, builtin p ->
  Forall (fun c => 0 < c < 128) text1 -> Z.of_nat (length text1) * 733 <= INT_MAX -> length stack1 = 128%nat -> good_stack stack1 ->
  Forall (fun c => 0 < c < 128) text2 -> Z.of_nat (length text2) * 733 <= INT_MAX -> length stack2 = 128%nat -> good_stack stack2 ->
  address_decode (text1 ++ 0 :: rest1) (length text1) size1 p stack1 = Ok r1 ->
  address_decode (text2 ++ 0 :: rest2) (length text2) size2 p stack2 = Ok r2 ->
  witness_result r1 ver prog -> witness_result r2 ver prog ->
  bech32_valid text1 (cp_hrp p) (ver :: vals1) -> canonical_padding vals1 ->
  bech32_valid text2 (cp_hrp p) (ver :: vals2) -> canonical_padding vals2 ->
  map tolower text1 = map tolower text2.
Proof.
  assert (U : forall p text rest size stack r ver prog vals, builtin p -> Forall (fun c => 0 < c < 128) text -> Z.of_nat (length text) * 733 <= INT_MAX ->
    length stack = 128%nat -> good_stack stack -> address_decode (text ++ 0 :: rest) (length text) size p stack = Ok r ->
    witness_result r ver prog -> bech32_valid text (cp_hrp p) (ver :: vals) -> canonical_padding vals ->
    map tolower text = witness_text (cp_hrp p) ver prog).
  { intros p text rest size stack r ver prog vals Hp A Hl Ls Gs E W V C.
    destruct (C48_witness_strict_partial p text rest size stack r Hp A Hl Ls Gs E) as (v & vs & pr & V2 & W2 & K).
    { unfold witness_result in W. unfold is_witness. destruct (a_kind r); tauto. }
    pose proof (bech32_decode_accepts text [] _ _ (length (cp_hrp p)) V ltac:(lia)) as E1.
    pose proof (bech32_decode_accepts text [] _ _ (length (cp_hrp p)) V2 ltac:(lia)) as E2.
    assert (Ev : ver :: vals = v :: vs) by (rewrite E1 in E2; injection E2; congruence). injection Ev as <- <-.
    destruct (K C) as [_ T]. assert (pr = prog); [|congruence].
    unfold witness_result in W, W2. destruct (a_kind r); try contradiction; try (destruct W as (_ & _ & _ & W), W2 as (_ & _ & _ & W2); congruence). }
  intros. rewrite (U p text1 rest1 size1 stack1 r1 ver prog vals1) by assumption. symmetry. eapply U; eassumption.
Qed.
Print Assumptions C48_witness_injective_partial.

(** C48 is false as stated: BIP-173's test vector with non-zero padding bits, and the correct address, both in lower case, are
    both accepted and decode to the same version and program; a test vector with more than four padding bits is accepted too
    (with a 15-byte program, the last incomplete group of 8 characters being partly dropped). *)
Definition nonzero_text : list Z := [116;98;49;113;114;112;51;51;103;48;113;53;99;53;116;120;115;112;57;97;114;121;115;114;120;52;107;54;122;100;107;102;115;52;110;99;101;52;120;106;48;103;100;99;99;99;101;102;118;112;121;115;120;102;51;112;106;120;116;112;116;118].
Definition proper_text : list Z := [116;98;49;113;114;112;51;51;103;48;113;53;99;53;116;120;115;112;57;97;114;121;115;114;120;52;107;54;122;100;107;102;115;52;110;99;101;52;120;106;48;103;100;99;99;99;101;102;118;112;121;115;120;102;51;113;48;115;108;53;107;55].
Definition overlong_text : list Z := [98;99;49;122;119;53;48;56;100;54;113;101;106;120;116;100;103;52;121;53;114;51;122;97;114;118;97;114;121;118;113;121;122;102;51;100;117].
Theorem C48_witness_strict_refuted : nonzero_text <> proper_text /\
  match address_decode (nonzero_text ++ [0]) (length nonzero_text) 64 testnet (repeat 0 128),
        address_decode (proper_text ++ [0]) (length proper_text) 64 testnet (repeat 0 128) with
  | Ok r1, Ok r2 => a_kind r1 = WITNESSV0_SCRIPTHASH_ADDRESS /\ a_kind r2 = a_kind r1 /\ a_size r1 = 32%nat /\ a_size r2 = 32%nat /\
                    firstn 32 (a_out r1) = firstn 32 (a_out r2)
  | _, _ => False end /\
  match address_decode (overlong_text ++ [0]) (length overlong_text) 64 mainnet (repeat 0 128) with
  | Ok r => a_kind r = WITNESS_UNKNOWN_ADDRESS /\ a_size r = 16%nat
  | _ => False end.
Proof. split; [discriminate|]. split; vm_compute; [split; [|split; [|split; [|split]]]|split]; reflexivity. Qed.
Print Assumptions C48_witness_strict_refuted.
(* the hypotheses of the partial theorem hold for the proper text: its 52 values leave four zero bits *)
Example C48_witness : match bech32_decode (proper_text ++ [0]) (length proper_text) 16 with
  | Ok r => spare_bits 5 (skipn 1 (b_data r)) = [false; false; false; false] | _ => False end.
Proof. vm_compute. reflexivity. Qed.

(** * C49: what a base 58 classification means *)
(** The part that holds: the text (without surrounding white space) is the Base58Check text of the network's prefix and the payload
    returned.  Missing: the payload need not be 20 bytes long, see the refutation. *)
Theorem C49_base58_payload_partial : forall p text rest out_size stack r, builtin p ->
  Forall (fun c => 0 < c < 128) text -> Z.of_nat (length text) * 733 <= INT_MAX ->
  address_decode (text ++ 0 :: rest) (length text) out_size p stack = Ok r -> length stack = 128%nat -> good_stack stack ->
  (a_kind r = PUBKEY_ADDRESS -> base58_address (cp_pubkey p) (firstn (a_size r) (a_out r)) text /\ (a_size r + 5)%nat = length (a_out r)) /\
  (a_kind r = SCRIPT_ADDRESS -> base58_address (cp_script p) (firstn (a_size r) (a_out r)) text /\ (a_size r + 5)%nat = length (a_out r)).
Proof.
  intros p text rest out_size stack r Hp A Hl E Ls Gs. destruct (b58_args p Hp) as (Np & Ns & Bp & Bs & L1 & L2).
  destruct (builtin_facts p Hp) as (_ & _ & Lh & Bh & _).
  destruct (address_total text rest out_size p stack A Hl Np Ns Bp Bs) as [[H D]|[(Ho & pl & o & Bpl & _ & Fo & Lo & Lo2 & HC)|(Ho & _ & out & Bo & Lo & Lo2 & D)]].
  - rewrite D in E. injection E as <-. split; discriminate.
  - destruct HC as [(BA & Le & D)|(BA & Le & _ & D)]; rewrite D in E; injection E as <-; cbn [a_kind a_size a_out]; (split; intros K; [|]); try discriminate K; rewrite Fo; (split; [exact BA|lia]).
  - rewrite D in E. clear D.
    destruct (decode_bech32_total text rest p stack out out_size) as [D|(ver & vals & prog & V & Hr & Lp & G & D)]; try assumption; [|lia| |].
    + eapply Forall_impl; [|exact A]. cbv beta. intros; lia.
    + rewrite D in E. injection E as <-. split; discriminate.
    + rewrite D in E. injection E as <-. destruct (ver =? 0); cbn [a_kind].
      * destruct (length prog =? 20)%nat; [split; discriminate|]. destruct (length prog =? 32)%nat; split; discriminate.
      * destruct ((16 <? ver) || (length prog <? 2)%nat || (40 <? length prog)%nat); split; discriminate.
Qed.
Print Assumptions C49_base58_payload_partial.
(** C49 is false as stated: "1Wh4bh", the Base58Check text of the prefix alone, is a public key address with an empty payload. *)
Theorem C49_base58_payload_refuted :
  match address_decode ([49;87;104;52;98;104] ++ [0]) 6 20 mainnet (repeat 0 128) with
  | Ok r => a_kind r = PUBKEY_ADDRESS /\ a_size r = 0%nat
  | _ => False end.
Proof. vm_compute. split; reflexivity. Qed.
Print Assumptions C49_base58_payload_refuted.

(** * C50: dependence on uninitialised memory *)
(** The part that holds: unless the text is a witness address of the network without a zero 5-bit group in the program, the result is the same for all
    contents of the uninitialised buffer; and it is always the same for contents on which the scan for '=' ends at a NUL. *)
Theorem C50_uninitialised_partial : forall p text rest out_size stack1 stack2, builtin p ->
  Forall (fun c => 0 < c < 128) text -> Z.of_nat (length text) * 733 <= INT_MAX -> length stack1 = 128%nat -> length stack2 = 128%nat ->
  (forall ver vals, bech32_valid text (cp_hrp p) (ver :: vals) -> In 0 vals \/ (good_stack stack1 /\ good_stack stack2)) ->
  address_decode (text ++ 0 :: rest) (length text) out_size p stack1 = address_decode (text ++ 0 :: rest) (length text) out_size p stack2.
Proof.
  intros p text rest out_size s1 s2 Hp A Hl L1 L2 H. unfold address_decode. destruct (out_size <? _)%nat; [reflexivity|].
  destruct (from_base58_check (text ++ 0 :: rest) (length text)) as [[n o]| |]; cbn [bind]; [|reflexivity|reflexivity].
  destruct (_ && _); [reflexivity|]. destruct (_ && _); [reflexivity|].
  assert (NZ : Forall nonzero text) by (eapply Forall_impl; [|exact A]; unfold nonzero; intros; lia).
  destruct (builtin_facts p Hp) as (_ & _ & Lh & Bh & _).
  destruct (bech32_decode_total text rest (length text) 16 NZ) as (r & E & _ & _ & _ & R).
  unfold decode_bech32. rewrite E. cbn [bind].
  destruct ((b_ret r <? 1) || negb (b_hrp_size r =? length (cp_hrp p))%nat || negb (bytes_eqb (b_hrp r) (cp_hrp p))) eqn:C; [reflexivity|].
  apply orb_false_iff in C as [C C3]. apply orb_false_iff in C as [C1 C2]. destruct R as [R|(R1 & R2 & _ & V)]; [lia|].
  rewrite firstn_all in V. apply negb_false_iff in C3. apply bytes_eqb_eq in C3. rewrite C3 in V.
  destruct (b_data r) as [|ver vals] eqn:Ed; [cbn [length] in R1; lia|]. cbn [length] in R1. specialize (H _ _ V).
  assert (Vv := V). destruct Vv as (L90 & _ & _ & h & d & chk & Es & _ & _ & _ & F & Lc & M & _).
  apply Forall_app in F as [F _]. apply Forall_cons_iff in F as [Hv Fv].
  assert (Lv : (length vals <= 90)%nat).
  { apply (f_equal (@length Z)) in M. rewrite !map_length, app_length in M. cbn [length] in M. rewrite Es, !app_length in L90. lia. }
  assert (St : forall s, length s = 128%nat -> store s 0 (ver :: vals) = Ok (ver :: vals ++ skipn (S (length vals)) s)) by (intros s Ls; now rewrite store_ok by (cbn [length]; lia)).
  rewrite !St by assumption. cbn [bind rd nth_error].
  change (skipn 1 (ver :: vals ++ skipn (S (length vals)) s1)) with (vals ++ skipn (S (length vals)) s1).
  change (skipn 1 (ver :: vals ++ skipn (S (length vals)) s2)) with (vals ++ skipn (S (length vals)) s2).
  replace (Z.to_nat (b_ret r - 1)) with (length vals) by lia.
  assert (N : forall s, length s = 128%nat -> (In 0 vals \/ good_stack s) -> nul_first (vals ++ skipn (S (length vals)) s)).
  { intros s Ls [I|G]; [|now apply good_stack_nul].
    apply in_split in I as (a & b & ->). exists a, (b ++ skipn (S (length (a ++ 0 :: b))) s). split; [now rewrite <- app_assoc|].
    intros I. apply Forall_app in Fv as [Fa _]. rewrite Forall_forall in Fa. specialize (Fa _ I). unfold five_bit in Fa. cbv beta in Fa. lia. }
  assert (Q : from_base32_raw (vals ++ skipn (S (length vals)) s1) (length vals) = from_base32_raw (vals ++ skipn (S (length vals)) s2) (length vals)).
  { assert (B : forall s, nul_first (vals ++ skipn (S (length vals)) s) -> base32_strlen (vals ++ skipn (S (length vals)) s) (length vals) = Ok (length vals)).
    { intros s (a & b & Ea & Na). unfold base32_strlen. rewrite Ea, strchr_none by exact Na. reflexivity. }
    unfold from_base32_raw, from_base32_. rewrite !B by (apply N; tauto). cbn [bind].
    assert (As : Forall L_Base32.is_ascii vals) by (eapply Forall_impl; [|exact Fv]; unfold five_bit, L_Base32.is_ascii; intros; lia).
    now rewrite (blocks_local true vals (skipn (S (length vals)) s1) (skipn (S (length vals)) s2) As). }
  now rewrite Q.
Qed.
Print Assumptions C50_uninitialised_partial.

(** C50 is false as stated: this text decodes differently for two contents of the uninitialised buffer (see also C42). *)
Theorem C50_uninitialised_refuted : forall text, text = witness_text (cp_hrp mainnet) 0 (repeat 255 20) ->
  match address_decode (text ++ [0]) (length text) 64 mainnet (repeat 0 128),
        address_decode (text ++ [0]) (length text) 64 mainnet (repeat 1 49 ++ 61 :: repeat 0 78) with
  | Ok r1, Ok r2 => a_kind r1 = WITNESSV0_KEYHASH_ADDRESS /\ a_kind r2 = BAD_ADDRESS
  | _, _ => False end.
Proof. intros text ->. vm_compute. split; reflexivity. Qed.
Print Assumptions C50_uninitialised_refuted.
