(** src/btc/key.c on one shared memory: public keys and signatures are the 64 bytes libsecp256k1 keeps in its two opaque
    structures, arguments are addresses, and loads and stores happen in program order, so that arguments may overlap.
    (M_Key describes the same functions by values, M_Overlap the derivations.) *)
From Verif Require Import Base M_Endian M_Hash M_Random M_Secp M_Key M_Overlap.

(** How libsecp256k1 lays out its structures is its own business (secp256k1.h: "the exact representation of data inside is
    implementation defined and not guaranteed to be portable"), so the model takes any layout: [pub_rep P] are the 64 bytes
    saved for the point P, [pub_load] what is read back ([None]: bytes whose loading invokes the illegal argument
    callback), [sig_rep] and [sig_load] the same for (r, s). *)
(** secp256k1_pubkey and secp256k1_ecdsa_signature (cast at key.c:456,492,512,537,560,579,589,590) *)
Record layout (E : secp) := mkLayout {
  pub_rep : pt E -> list Z;
  pub_load : list Z -> option (pt E);
  sig_rep : Z * Z -> list Z;
  sig_load : list Z -> Z * Z }.
Arguments pub_rep {E}. Arguments pub_load {E}. Arguments sig_rep {E}. Arguments sig_load {E}.

(* ---------------------------------------------------------------- *)
(** ** libsecp256k1, with its outputs in memory (2018/2019 sources) *)

(** secp256k1_ec_pubkey_create: the structure is cleared before the secret key is read *)
(** called at key.c:457 *)
Definition pubkey_create_at (E : secp) (L : layout E) (c : option context) (mem : list Z) (pub key : nat) : res (bool * list Z) :=
  mem <- store mem pub (repeat 0 64) ;;
  p <- secp_pubkey_create E c (skipn key mem) ;;
  match p with
  | None => Ok (false, mem)
  | Some P => mem <- store mem pub (pub_rep L P) ;; Ok (true, mem)
  end.

(** secp256k1_ec_pubkey_parse: the structure is cleared before the input is read *)
(** called at key.c:513 *)
Definition pubkey_parse_at (E : secp) (L : layout E) (c : option context) (mem : list Z) (pub input len : nat) : res (bool * list Z) :=
  mem <- store mem pub (repeat 0 64) ;;
  p <- secp_pubkey_parse E c (skipn input mem) len ;;
  match p with
  | None => Ok (false, mem)
  | Some P => mem <- store mem pub (pub_rep L P) ;; Ok (true, mem)
  end.

(** secp256k1_ec_pubkey_serialize: the output is cleared before the structure is loaded; number of bytes and memory *)
(** called at key.c:494 *)
Definition pubkey_serialize_at (E : secp) (L : layout E) (c : option context) (mem : list Z) (out len pub : nat) (compressed : bool)
  : res (nat * list Z) :=
  _ <- any_ctx c ;;
  _ <- c_assert ((if compressed then 33 else 65) <=? len)%nat ;;
  mem <- store mem out (repeat 0 len) ;;
  rep <- slice mem pub 64 ;;
  match pub_load L rep with
  | None => Abort
  | Some P =>
      bs <- secp_pubkey_serialize E c P len compressed ;;
      mem <- store mem out bs ;;
      Ok (length bs, mem)
  end.

(** secp256k1_ecdsa_sign: everything is read before the structure is written; it is cleared on failure *)
(** called at key.c:538,548 *)
Definition ecdsa_sign_at (E : secp) (L : layout E) (c : option context) (mem : list Z) (sig hash key : nat) (extra : option (list Z))
  : res (bool * list Z) :=
  s <- secp_ecdsa_sign E c (skipn hash mem) (skipn key mem) extra ;;
  match s with
  | None => mem <- store mem sig (repeat 0 64) ;; Ok (false, mem)
  | Some s => mem <- store mem sig (sig_rep L s) ;; Ok (true, mem)
  end.

(** secp256k1_ecdsa_signature_parse_compact on a local array: the structure gets the signature, or is cleared *)
(** called at key.c:32,155,161 *)
Definition parse_compact_at (E : secp) (L : layout E) (c : option context) (mem : list Z) (sig : nat) (input : list Z) : res (bool * list Z) :=
  '(ok, s) <- secp_parse_compact c input ;;
  mem <- store mem sig (if ok : bool then sig_rep L s else repeat 0 64) ;;
  Ok (ok, mem).

(* ---------------------------------------------------------------- *)
(** ** Public keys *)

(** key.c:454-461 *)
Definition get_pub_mem (E : secp) (L : layout E) (g : globals) (mem : list Z) (key pub : nat) : res (list Z) :=
  '(r, mem) <- pubkey_create_at E L (g_sign g) mem pub key ;;
  _ <- c_assert r ;;
  Ok mem.

(** key.c:483-501 *)
Definition pubkey_encode_mem (E : secp) (L : layout E) (g : globals) (mem : list Z) (pub out len : nat) : res (bool * list Z) :=
  _ <- c_assert ((len =? BTC_PUBLIC_KEY_SIZE) || (len =? BTC_COMPRESSED_PUBLIC_KEY_SIZE))%nat ;;
  '(out_len, mem) <- pubkey_serialize_at E L (g_sign g) mem out len pub (len =? 33)%nat ;;
  let r := (out_len =? len)%nat in
  _ <- c_assert (out_len =? len)%nat ;;
  Ok (r, mem).

(** key.c:503-515 *)
Definition pubkey_decode_mem (E : secp) (L : layout E) (g : globals) (mem : list Z) (enc len pub : nat) : res (bool * list Z) :=
  _ <- c_assert ((len =? BTC_PUBLIC_KEY_SIZE) || (len =? BTC_COMPRESSED_PUBLIC_KEY_SIZE))%nat ;;
  pubkey_parse_at E L (g_verify g) mem pub enc len.

(* ---------------------------------------------------------------- *)
(** ** Private keys *)

(** key.c:187-237: [p] moves through the input, [e] is [end]; [no]: the return value 0 with the memory as it is *)
Definition import_der_mem (rule : copy_rule) (c : option context) (mem : list Z) (out32 privkey privkeylen : nat) : res (bool * list Z) :=
  let e := (privkey + privkeylen)%nat in
  mem <- store mem out32 (repeat 0 32) ;;
  let no := Ok (false, mem) in
  let p := privkey in
  if (e - p <? 1)%nat then no else
  b <- rd mem p ;;
  if negb (b =? 0x30) then no else
  let p := (p + 1)%nat in
  if (e - p <? 1)%nat then no else
  b <- rd mem p ;;
  if Z.land b 0x80 =? 0 then no else
  let lenb := Z.land b 0xFFFFFF7F in
  let p := (p + 1)%nat in
  if (lenb <? 1) || (2 <? lenb) then no else
  if Z.of_nat (e - p) <? lenb then no else
  lo <- rd mem (p + Z.to_nat (lenb - 1)) ;;
  hi <- (if 1 <? lenb then h <- rd mem (p + Z.to_nat (lenb - 2)) ;; Ok (Z.shiftl h 8) else Ok 0) ;;
  let len := Z.lor lo hi in
  let p := (p + Z.to_nat lenb)%nat in
  if Z.of_nat (e - p) <? len then no else
  if (e - p <? 3)%nat then no else
  b0 <- rd mem p ;; b1 <- rd mem (p + 1) ;; b2 <- rd mem (p + 2) ;;
  if negb (b0 =? 0x02) || negb (b1 =? 0x01) || negb (b2 =? 0x01) then no else
  let p := (p + 3)%nat in
  if (e - p <? 2)%nat then no else
  b0 <- rd mem p ;;
  if negb (b0 =? 0x04) then no else
  oslen <- rd mem (p + 1) ;;
  let p := (p + 2)%nat in
  if (32 <? oslen) || (Z.of_nat (e - p) <? oslen) then no else
  mem <- memcpy_at rule mem (out32 + (32 - Z.to_nat oslen)) p (Z.to_nat oslen) ;;
  ok <- secp_seckey_verify c (skipn out32 mem) ;;
  if ok : bool then Ok (true, mem) else (mem <- store mem out32 (repeat 0 32) ;; Ok (false, mem)).

(** key.c:448-452 *)
Definition key_decode_mem (rule : copy_rule) (g : globals) (mem : list Z) (enc len key : nat) : res (bool * list Z) :=
  import_der_mem rule (g_sign g) mem key enc len.

(** key.c:253-327; the public key is a local structure, the two constant arrays lie elsewhere *)
Definition export_der_mem (rule : copy_rule) (E : secp) (c : option context) (mem : list Z) (privkey privkeylen key : nat) (compressed : bool)
  : res (bool * nat * list Z) :=
  p <- secp_pubkey_create E c (skipn key mem) ;;
  match p with
  | None => Ok (false, O, mem)
  | Some pubkey =>
      let '(begin, middle, publen, total) :=
        if compressed then (der_begin_c, der_middle_c, BTC_COMPRESSED_PUBLIC_KEY_SIZE, BTC_COMPRESSED_PRIVATE_KEY_SIZE)
        else (der_begin_u, der_middle_u, BTC_PUBLIC_KEY_SIZE, BTC_PRIVATE_KEY_SIZE) in
      _ <- c_assert (total <=? privkeylen)%nat ;;
      mem <- store mem privkey begin ;;
      let ptr := (privkey + length begin)%nat in
      mem <- memcpy_at rule mem ptr key 32 ;;
      let ptr := (ptr + 32)%nat in
      mem <- store mem ptr middle ;;
      let ptr := (ptr + length middle)%nat in
      pub <- secp_pubkey_serialize E c pubkey publen compressed ;;
      mem <- store mem ptr pub ;;
      let ptr := (ptr + length pub)%nat in
      _ <- c_assert (ptr - privkey =? total)%nat ;;
      Ok (true, (ptr - privkey)%nat, mem)
  end.

(** key.c:428-446 *)
Definition key_encode_mem (rule : copy_rule) (E : secp) (g : globals) (mem : list Z) (key out len : nat) : res (bool * list Z) :=
  _ <- c_assert ((len =? BTC_PRIVATE_KEY_SIZE) || (len =? BTC_COMPRESSED_PRIVATE_KEY_SIZE))%nat ;;
  '(r, encoded_len, mem) <- export_der_mem rule E (g_sign g) mem out len key (len =? BTC_COMPRESSED_PRIVATE_KEY_SIZE)%nat ;;
  let r := if (encoded_len =? len)%nat then r else false in
  _ <- c_assert (encoded_len =? len)%nat ;;
  Ok (r, mem).

(* ---------------------------------------------------------------- *)
(** ** Signatures *)

(** key.c:518-532 *)
Definition low_r_mem (E : secp) (L : layout E) (g : globals) (mem : list Z) (sig : nat) : res bool :=
  rep <- slice mem sig 64 ;;
  SigHasLowR g (sig_load L rep).

(** key.c:546-552: hash and key are read again in every round *)
Fixpoint grind_mem (fuel : nat) (E : secp) (L : layout E) (g : globals) (mem : list Z) (hash key sig : nat) (ret : bool)
  (extra_entropy : list Z) (counter : Z) : res (outcome (bool * list Z)) :=
  if negb ret then Ok (Returned (false, mem)) else
  low <- low_r_mem E L g mem sig ;;
  if low : bool then Ok (Returned (true, mem))
  else
    match fuel with
    | O => Ok Running
    | S fuel' =>
        let counter := u32 (counter + 1) in
        extra_entropy <- write_little_32 extra_entropy counter ;;
        '(ret, mem) <- ecdsa_sign_at E L (g_sign g) mem sig hash key (Some extra_entropy) ;;
        grind_mem fuel' E L g mem hash key sig ret extra_entropy counter
    end.

(** key.c:534-554 *)
Definition sign_mem (fuel : nat) (E : secp) (L : layout E) (g : globals) (mem : list Z) (key hash sig : nat) : res (outcome (list Z)) :=
  '(ret, mem) <- ecdsa_sign_at E L (g_sign g) mem sig hash key None ;;
  r <- grind_mem fuel E L g mem hash key sig ret (repeat 0 32) 0 ;;
  match r with
  | Returned (true, mem) => Ok (Returned mem)
  | Returned (false, _) => Abort
  | Fatal => Ok Fatal
  | Running => Ok Running
  end.

(** key.c:556-566: the signature is loaded before anything is written; the length and the memory *)
Definition signature_encode_mem (E : secp) (L : layout E) (g : globals) (mem : list Z) (sig out : nat) : res (nat * list Z) :=
  rep <- slice mem sig 64 ;;
  r <- secp_serialize_der (g_sign g) (sig_load L rep) BTC_SIGNATURE_SIZE ;;
  match r with
  | Some bs => mem <- store mem out bs ;; Ok (length bs, mem)
  | None => Ok (O, mem)
  end.

(** key.c:130-163 *)
Definition finish_sig_mem (E : secp) (L : layout E) (c : option context) (mem : list Z) (input sig : nat) (rlen rpos slen spos : Z)
  : res (Z * list Z) :=
  let tmpsig := repeat 0 64 in
  '(rpos, rn) <- skip_zeros (skipn input mem) rpos (Z.to_nat rlen) ;;
  t1 <- copy_integer (skipn input mem) tmpsig rpos rn 32 ;;
  '(spos, sn) <- skip_zeros (skipn input mem) spos (Z.to_nat slen) ;;
  let tmp := match t1 with Some t => t | None => tmpsig end in
  t2 <- copy_integer (skipn input mem) tmp spos sn 64 ;;
  '(ok, mem) <- (match t1, t2 with Some _, Some tmp => parse_compact_at E L c mem sig tmp | _, _ => Ok (false, mem) end) ;;
  if ok : bool then Ok (1, mem)
  else '(_, mem) <- parse_compact_at E L c mem sig (repeat 0 64) ;; Ok (1, mem).

(** key.c:21-164: the structure is set to the zero signature before the input is read, and written again at the end *)
Definition parse_der_lax_mem (E : secp) (L : layout E) (c : option context) (mem : list Z) (sig input : nat) (inputlen : Z) : res (Z * list Z) :=
  let tmpsig := repeat 0 64 in
  '(_, mem) <- parse_compact_at E L c mem sig tmpsig ;;
  let no := Ok (0, mem) in
  let inp := skipn input mem in
  let pos := 0 in
  if pos =? inputlen then no else
  tag <- rdz inp pos ;;
  if negb (tag =? 0x30) then no else
  let pos := pos + 1 in
  if pos =? inputlen then no else
  lenbyte <- rdz inp pos ;;
  let pos := pos + 1 in
  opos <- (if negb (Z.land lenbyte 0x80 =? 0) then
             let lenbyte := lenbyte - 0x80 in
             if u64 (inputlen - pos) <? lenbyte then Ok None else Ok (Some (pos + lenbyte))
           else Ok (Some pos)) ;;
  match opos with
  | None => no
  | Some pos =>
      r <- parse_integer inp inputlen pos ;;
      match r with
      | None => no
      | Some (rlen, rpos) =>
          s <- parse_integer inp inputlen (rpos + rlen) ;;
          match s with
          | None => no
          | Some (slen, spos) => finish_sig_mem E L c mem input sig rlen rpos slen spos
          end
      end
  end.

(** key.c:576-583 *)
Definition signature_decode_mem (E : secp) (L : layout E) (g : globals) (mem : list Z) (enc len sig : nat) : res (Z * list Z) :=
  parse_der_lax_mem E L (g_verify g) mem sig enc (Z.of_nat len).

(** key.c:585-601: nothing but a local structure is written *)
Definition verify_mem (E : secp) (L : layout E) (g : globals) (mem : list Z) (pub hash sig : nat) : res bool :=
  srep <- slice mem sig 64 ;;
  n <- secp_normalize (g_verify g) (sig_load L srep) ;;
  prep <- slice mem pub 64 ;;
  match pub_load L prep with
  | None => Abort
  | Some P => secp_ecdsa_verify E (g_verify g) n (skipn hash mem) P
  end.

(* ---------------------------------------------------------------- *)
(** ** Key ids *)

(** key.c:609-617: [encoded_pubkey] is a local array, modelled as 65 bytes behind the caller's memory *)
Definition pubkey_keyid_mem (E : secp) (L : layout E) (g : globals) (mem : list Z) (pub : nat) (compress : bool) (keyid : nat) : res (list Z) :=
  let encoded_len := if compress then BTC_COMPRESSED_PUBLIC_KEY_SIZE else BTC_PUBLIC_KEY_SIZE in
  let l := length mem in
  rep <- slice mem pub 64 ;;
  '(r, m) <- pubkey_encode_mem E L g (mem ++ uninit BTC_PUBLIC_KEY_SIZE) pub l encoded_len ;;
  _ <- c_assert r ;;
  window <- slice m l encoded_len ;;
  digest <- btc_hash160 window encoded_len ;;
  store mem keyid digest.

(** key.c:603-607: [pubkey] is a local array behind the caller's memory; the outputs must lie in the caller's memory *)
Definition key_keyid_mem (E : secp) (L : layout E) (g : globals) (mem : list Z) (key : nat) (compress : bool) (keyid : nat) : res (list Z) :=
  let l := length mem in
  _ <- slice mem key 32 ;;
  m <- get_pub_mem E L g (mem ++ uninit 64) key l ;;
  _ <- c_defined (keyid + 20 <=? l)%nat ;;
  m <- pubkey_keyid_mem E L g m l compress keyid ;;
  Ok (firstn l m).
