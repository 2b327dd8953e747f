(** The part of libsecp256k1 (external/secp256k1, a git submodule that is not in
    the checkout) that src/btc/key.c calls, modelled after its documented interface
    (include/secp256k1.h) and the 2018/2019 sources key.c was written against.

    Scalars are integers.  Everything that involves no curve arithmetic is
    defined here; the curve part is the record [secp], about which the theorems
    assume only [secp_laws] (S_Secp.v).

    Simplifications: a secp256k1_pubkey is a curve point (a caller can only get one
    from create/parse/tweak_add) and a secp256k1_ecdsa_signature is the pair (r,s) of
    scalars it stores; the 64-byte representation of these opaque structures is not modelled. *)
From Verif Require Import Base S_Words M_Endian.

(** The order of the group. *)
(** SEC 2 (libsecp256k1; also in the bytes of key.c:276-278) *)
Definition secp_n : Z := 0xFFFFFFFFFFFFFFFFFFFFFFFFFFFFFFFEBAAEDCE6AF48A03BBFD25E8CD0364141.

(** Curve operations: [pt] are the points other than infinity, [pub_of k] is k*G,
    [add_gen P t] is P + t*G ([None] at infinity), [ser compressed P] and
    [parse] are the SEC1 formats, [ecdsa_ok (r,s) hash P] is ECDSA verification,
    [ecdsa key hash extra] is RFC 6979 signing (with additional entropy). *)
(** libsecp256k1, the operations key.c calls *)
Record secp := mkSecp {
  pt : Type;
  pub_of : Z -> pt;
  add_gen : pt -> Z -> option pt;
  ser : bool -> pt -> list Z;
  parse : list Z -> option pt;
  ecdsa_ok : Z * Z -> list Z -> pt -> bool;
  ecdsa : list Z -> list Z -> option (list Z) -> option (Z * Z) }.

(** A context: what it was created for, and its address. *)
(** libsecp256k1, created at key.c:335,337 *)
Record context := mkCtx { can_sign : bool; can_verify : bool; ctx_id : nat }.

(** Calling the library with a null context is undefined; calling a function with a
    context made for another purpose invokes the illegal-argument callback, which aborts. *)
(** libsecp256k1 (ARG_CHECK) *)
Definition any_ctx (c : option context) : res unit := match c with None => UB | Some _ => Ok tt end.
(** libsecp256k1 (ARG_CHECK on ecmult_gen_context) *)
Definition sign_ctx (c : option context) : res unit := match c with None => UB | Some x => c_assert (can_sign x) end.
(** libsecp256k1 (ARG_CHECK on ecmult_context) *)
Definition verify_ctx (c : option context) : res unit := match c with None => UB | Some x => c_assert (can_verify x) end.

(** secp256k1_ec_seckey_verify(ctx, key) *)
(** called at key.c:232,357 *)
Definition secp_seckey_verify (c : option context) (key : list Z) : res bool :=
  _ <- any_ctx c ;; k <- slice key 0 32 ;; Ok ((0 <? be_val k) && (be_val k <? secp_n)).

(** secp256k1_ec_pubkey_create(ctx, &pubkey, key): [None] is the return value 0. *)
(** called at key.c:259,457 *)
Definition secp_pubkey_create (E : secp) (c : option context) (key : list Z) : res (option (pt E)) :=
  _ <- sign_ctx c ;; k <- slice key 0 32 ;;
  Ok (if (0 <? be_val k) && (be_val k <? secp_n) then Some (pub_of E (be_val k)) else None).

(** secp256k1_ec_privkey_tweak_add(ctx, key, tweak): return value and the new contents of [key] (cleared on failure). *)
(** called at key.c:421 *)
Definition secp_privkey_tweak_add (c : option context) (key tweak : list Z) : res (bool * list Z) :=
  _ <- any_ctx c ;; k <- slice key 0 32 ;; t <- slice tweak 0 32 ;;
  let sum := (be_val k + be_val t) mod secp_n in
  if (be_val t <? secp_n) && negb (sum =? 0) then Ok (true, be_bytes 32 sum) else Ok (false, repeat 0 32).

(** secp256k1_ec_pubkey_tweak_add(ctx, &pubkey, tweak) *)
(** called at key.c:477 *)
Definition secp_pubkey_tweak_add (E : secp) (c : option context) (P : pt E) (tweak : list Z) : res (option (pt E)) :=
  _ <- verify_ctx c ;; t <- slice tweak 0 32 ;;
  Ok (if be_val t <? secp_n then add_gen E P (be_val t) else None).

(** secp256k1_ec_pubkey_parse(ctx, &pubkey, input, len) *)
(** called at key.c:474,513 *)
Definition secp_pubkey_parse (E : secp) (c : option context) (input : list Z) (len : nat) : res (option (pt E)) :=
  _ <- any_ctx c ;; bs <- slice input 0 len ;; Ok (parse E bs).

(** secp256k1_ec_pubkey_serialize(ctx, output, &len, &pubkey, flags): the bytes
    written; a [len] that is too small is an illegal argument. *)
(** called at key.c:288,321,494 *)
Definition secp_pubkey_serialize (E : secp) (c : option context) (P : pt E) (len : nat) (compressed : bool) : res (list Z) :=
  _ <- any_ctx c ;; _ <- c_assert ((if compressed then 33 else 65) <=? len)%nat ;; Ok (ser E compressed P).

(** secp256k1_ecdsa_signature_parse_compact(ctx, &sig, input64): return value and signature (zero on failure). *)
(** called at key.c:32,155,161 *)
Definition secp_parse_compact (c : option context) (input : list Z) : res (bool * (Z * Z)) :=
  _ <- any_ctx c ;; a <- slice input 0 32 ;; b <- slice input 32 32 ;;
  if (be_val a <? secp_n) && (be_val b <? secp_n) then Ok (true, (be_val a, be_val b)) else Ok (false, (0, 0)).

(** secp256k1_ecdsa_signature_serialize_compact *)
(** called at key.c:520 *)
Definition secp_serialize_compact (c : option context) (sig : Z * Z) : res (list Z) :=
  _ <- any_ctx c ;; Ok (be_bytes 32 (fst sig) ++ be_bytes 32 (snd sig)).

(** The integer part of DER: 33 bytes, of which leading zeros are dropped while the
    next byte has a clear top bit (secp256k1_ecdsa_sig_serialize). *)
(** part of the function called at key.c:562 *)
Fixpoint der_strip (l : list Z) : list Z :=
  match l with
  | a :: t => match t with b :: _ => if (a =? 0) && (b <? 128) then der_strip t else l | [] => l end
  | [] => l
  end.

(** secp256k1_ecdsa_signature_serialize_der(ctx, output, &len, &sig): [None] when [capacity] is too small. *)
(** called at key.c:562 *)
Definition secp_serialize_der (c : option context) (sig : Z * Z) (capacity : nat) : res (option (list Z)) :=
  _ <- any_ctx c ;;
  let r := der_strip (0 :: be_bytes 32 (fst sig)) in
  let s := der_strip (0 :: be_bytes 32 (snd sig)) in
  let total := (6 + length r + length s)%nat in
  Ok (if (capacity <? total)%nat then None
      else Some ([48; Z.of_nat (4 + length r + length s); 2; Z.of_nat (length r)] ++ r ++ [2; Z.of_nat (length s)] ++ s)).

(** secp256k1_ecdsa_signature_normalize(ctx, &out, &in) *)
(** called at key.c:597 *)
Definition secp_normalize (c : option context) (sig : Z * Z) : res (Z * Z) :=
  _ <- any_ctx c ;; Ok (if secp_n / 2 <? snd sig then (fst sig, (secp_n - snd sig) mod secp_n) else sig).

(** secp256k1_ecdsa_verify(ctx, &sig, hash, &pubkey): only signatures with a low s verify. *)
(** called at key.c:599 *)
Definition secp_ecdsa_verify (E : secp) (c : option context) (sig : Z * Z) (hash : list Z) (P : pt E) : res bool :=
  _ <- verify_ctx c ;; h <- slice hash 0 32 ;;
  Ok (negb (secp_n / 2 <? snd sig) && ecdsa_ok E sig h P).

(** secp256k1_ecdsa_sign(ctx, &sig, hash, key, nonce_function_rfc6979, extra): [None] is the return value 0. *)
(** called at key.c:538,548 *)
Definition secp_ecdsa_sign (E : secp) (c : option context) (hash key : list Z) (extra : option (list Z)) : res (option (Z * Z)) :=
  _ <- sign_ctx c ;; h <- slice hash 0 32 ;; k <- slice key 0 32 ;;
  match extra with
  | None => Ok (ecdsa E k h None)
  | Some e => e <- slice e 0 32 ;; Ok (ecdsa E k h (Some e))
  end.
