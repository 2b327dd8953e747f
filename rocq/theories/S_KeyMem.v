(** Vocabulary for src/btc/key.c on memory: what the layout of libsecp256k1's two structures has to do, and when 64 bytes of
    memory hold a public key or a signature. *)
From Verif Require Import Base S_Words S_Mem M_Secp S_Secp M_Random M_Key M_KeyMem.

Record layout_laws (E : secp) (L : layout E) : Prop := {
  (** 64 bytes (secp256k1.h), from which the point can be read back *)
  lay_pub_len : forall P, length (pub_rep L P) = 64%nat;
  lay_pub_bytes : forall P, bytes (pub_rep L P);
  lay_pub : forall P, pub_load L (pub_rep L P) = Some P;
  (** the abscissa lies in the first half and is not zero (ARG_CHECK of secp256k1_pubkey_load) *)
  lay_pub_zero : forall l, length l = 64%nat -> firstn 32 l = repeat 0 32 -> pub_load L l = None;
  (** 64 bytes, from which scalars below the order can be read back *)
  lay_sig_len : forall s, length (sig_rep L s) = 64%nat;
  lay_sig_bytes : forall s, bytes (sig_rep L s);
  lay_sig : forall r s, 0 <= r < secp_n -> 0 <= s < secp_n -> sig_load L (sig_rep L (r, s)) = (r, s);
  (** a cleared structure is the zero signature (secp256k1_ecdsa_signature_parse_compact clears it with memset) *)
  lay_sig_zero : sig_rep L (0, 0) = repeat 0 64 }.

(** The 64 bytes at [a] hold the public key [P] / the signature (r, s). *)
Definition holds_pub {E} (L : layout E) (mem : list Z) (a : nat) (P : pt E) : Prop := region mem a 64 = pub_rep L P.
Definition holds_sig {E} (L : layout E) (mem : list Z) (a : nat) (sig : Z * Z) : Prop :=
  region mem a 64 = sig_rep L sig /\ 0 <= fst sig < secp_n /\ 0 <= snd sig < secp_n.

(** The layout of the 2018/2019 sources on a 64-bit little endian host: little endian 256-bit numbers. *)
Definition std_layout (E : secp) : layout E := mkLayout E
  (fun P => let xy := tl (ser E false P) in rev (firstn 32 xy) ++ rev (skipn 32 xy))
  (fun l => if forallb (Z.eqb 0) (firstn 32 l) then None else parse E (4 :: rev (firstn 32 l) ++ rev (skipn 32 l)))
  (fun s => le_bytes 32 (fst s) ++ le_bytes 32 (snd s))
  (fun l => (le_val (firstn 32 l), le_val (skipn 32 l))).

(** Buffers (address, size) inside a memory of [n] bytes, no two of which overlap. *)
Definition apart (n : nat) (bufs : list (nat * nat)) : Prop :=
  Forall (fun b => (fst b + snd b <= n)%nat) bufs /\ ForallOrdPairs (fun a b => disjoint (fst a) (snd a) (fst b) (snd b)) bufs.

(** A client: derive the public key, send it in compressed form, read it back, sign, send the DER form, read it back, verify. *)
Definition session (fuel : nat) (E : secp) (L : layout E) (g : globals) (mem : list Z) (key hash pub enc pub2 sig der sig2 : nat)
  : res (outcome (bool * bool * Z * bool)) :=
  mem <- get_pub_mem E L g mem key pub ;;
  '(sent, mem) <- pubkey_encode_mem E L g mem pub enc 33 ;;
  '(got, mem) <- pubkey_decode_mem E L g mem enc 33 pub2 ;;
  r <- sign_mem fuel E L g mem key hash sig ;;
  match r with
  | Returned mem =>
      '(n, mem) <- signature_encode_mem E L g mem sig der ;;
      '(parsed, mem) <- signature_decode_mem E L g mem der n sig2 ;;
      ok <- verify_mem E L g mem pub2 hash sig2 ;;
      Ok (Returned (sent, got, parsed, ok))
  | Fatal => Ok Fatal
  | Running => Ok Running
  end.
