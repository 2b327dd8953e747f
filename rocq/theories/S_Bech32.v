(** Specification: Bech32 (BIP-173).  No reference to the models. *)
From Verif Require Import Base.

(** Generator step of the checksum, as in BIP-173 (bech32_polymod). *)
Definition GEN : list Z := [0x3b6a57b2; 0x26508e6d; 0x1ea119fa; 0x3d4233dd; 0x2a1462b3].
Definition polymod_step (chk v : Z) : Z :=
  let b := Z.shiftr chk 25 in
  fold_left (fun acc i => if Z.testbit b i then Z.lxor acc (nth (Z.to_nat i) GEN 0) else acc)
            [0; 1; 2; 3; 4] (Z.lxor (Z.shiftl (Z.land chk 0x1ffffff) 5) v).
Definition polymod (values : list Z) : Z := fold_left polymod_step values 1.

Definition hrp_expand (hrp : list Z) : list Z :=
  map (fun c => Z.shiftr c 5) hrp ++ [0] ++ map (fun c => Z.land c 31) hrp.
Definition bech32_checksum_valid (hrp values : list Z) : Prop := polymod (hrp_expand hrp ++ values) = 1.
Definition bech32_checksum (hrp data : list Z) : list Z :=
  let p := Z.lxor (polymod (hrp_expand hrp ++ data ++ [0; 0; 0; 0; 0; 0])) 1 in
  map (fun i => Z.land (Z.shiftr p (5 * (5 - i))) 31) [0; 1; 2; 3; 4; 5].

(** Character set "qpzry9x8gf2tvdw0s3jn54khce6mua7l". *)
Definition bech32_charset : list Z :=
  [113;112;122;114;121;57;120;56;103;102;50;116;118;100;119;48;115;51;106;110;53;52;107;104;99;101;54;109;117;97;55;108].
Definition bech32_char (v : Z) : Z := nth (Z.to_nat v) bech32_charset (-1).
Definition five_bit (v : Z) : Prop := 0 <= v < 32.

Definition is_lower (c : Z) : Prop := 97 <= c <= 122.
Definition is_upper (c : Z) : Prop := 65 <= c <= 90.
Definition tolower (c : Z) : Z := if (65 <=? c) && (c <=? 90) then c + 32 else c.
Definition toupper (c : Z) : Z := if (97 <=? c) && (c <=? 122) then c - 32 else c.
Definition mixed_case (s : list Z) : Prop := Exists is_lower s /\ Exists is_upper s.

(** [bech32_valid s hrp data]: [s] is a valid Bech32 string with lower-case
    human-readable part [hrp] and data values [data] (checksum not included). *)
Definition bech32_valid (s hrp data : list Z) : Prop :=
  (length s <= 90)%nat /\ Forall (fun c => 33 <= c <= 126) s /\ ~ mixed_case s /\
  exists h d chk, s = h ++ [49] ++ d /\ h <> [] /\ ~ In 49 d /\ hrp = map tolower h /\
    Forall five_bit (data ++ chk) /\ length chk = 6%nat /\
    map tolower d = map bech32_char (data ++ chk) /\
    bech32_checksum_valid hrp (data ++ chk).

(** Number of positions in which two lists differ. *)
Fixpoint hamming (a b : list Z) : nat :=
  match a, b with
  | x :: a', y :: b' => ((if (x =? y)%Z then 0 else 1) + hamming a' b')%nat
  | _, _ => 0%nat
  end.
