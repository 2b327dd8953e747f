(** Model of src/btc/key.c. *)
From Verif Require Import Base M_Endian M_Hash M_Base58Check M_Address M_Random M_Secp.

(** include/fingera_libc/btc/key.h:20-24 *)
Definition BTC_PRIVATE_KEY_SIZE : nat := 279.
(** btc/key.h:21 *)
Definition BTC_COMPRESSED_PRIVATE_KEY_SIZE : nat := 214.
(** btc/key.h:22 *)
Definition BTC_PUBLIC_KEY_SIZE : nat := 65.
(** btc/key.h:23 *)
Definition BTC_COMPRESSED_PUBLIC_KEY_SIZE : nat := 33.
(** btc/key.h:24 *)
Definition BTC_SIGNATURE_SIZE : nat := 72.

(** key.c:329-330: the two file-scope context pointers. *)
Record globals := mkGlobals { g_sign : option context; g_verify : option context }.

(* ---------------------------------------------------------------- *)
(** ** Lax DER signature parsing *)

(** [p[i]] for a size_t [i] *)
(** key.c:37-152 (the reads of [input]) *)
Definition rdz (mem : list Z) (i : Z) : res Z := if i <? 0 then UB else rd mem (Z.to_nat i).

(** key.c:69-72 / 108-111: [while (lenbyte > 0 && input[pos] == 0) { pos++; lenbyte--; }];
    the same loop with (rlen, rpos) is key.c:131-134 and with (slen, spos) key.c:143-146. *)
Fixpoint skip_zeros (input : list Z) (pos : Z) (lenbyte : nat) : res (Z * nat) :=
  match lenbyte with
  | O => Ok (pos, O)
  | S l => b <- rdz input pos ;; if b =? 0 then skip_zeros input (pos + 1) l else Ok (pos, lenbyte)
  end.

(** key.c:77-82 / 116-121: big-endian length *)
Fixpoint read_len (input : list Z) (pos : Z) (lenbyte : nat) (len : Z) : res (Z * Z) :=
  match lenbyte with
  | O => Ok (len, pos)
  | S l => b <- rdz input pos ;; read_len input (pos + 1) l (u64 (u64 (len * 2 ^ 8) + b))
  end.

(** key.c:53-90 for R and 92-128 for S: tag, length, position of an INTEGER; [None] is "return 0". *)
Definition parse_integer (input : list Z) (inputlen pos : Z) : res (option (Z * Z)) :=
  if pos =? inputlen then Ok None else
  tag <- rdz input pos ;;
  if negb (tag =? 0x02) then Ok None else
  let pos := pos + 1 in
  if pos =? inputlen then Ok None else
  lenbyte <- rdz input pos ;;
  let pos := pos + 1 in
  lp <- (if negb (Z.land lenbyte 0x80 =? 0) then
           let lenbyte := lenbyte - 0x80 in
           if u64 (inputlen - pos) <? lenbyte then Ok None
           else
             '(pos, lb) <- skip_zeros input pos (Z.to_nat lenbyte) ;;
             if (4 <=? lb)%nat then Ok None
             else lp <- read_len input pos lb 0 ;; Ok (Some lp)
         else Ok (Some (lenbyte, pos))) ;;
  match lp with
  | None => Ok None
  | Some (len, pos) => if u64 (inputlen - pos) <? len then Ok None else Ok (Some (len, pos))
  end.

(** key.c:135-140 / 147-152: copy the [len] bytes at [pos] so that they end at
    tmpsig[top]; [None] is the overflow flag. *)
Definition copy_integer (input tmpsig : list Z) (pos : Z) (len : nat) (top : nat) : res (option (list Z)) :=
  if (32 <? len)%nat then Ok None
  else bs <- slice (skipn (Z.to_nat pos) input) 0 len ;; t <- store tmpsig (top - len) bs ;; Ok (Some t).

(** key.c:130-163: copy the two integers found into a compact signature and parse it; a value that does not
    fit is replaced by the (invalid) zero signature. *)
Definition finish_sig (c : option context) (input : list Z) (rlen rpos slen spos : Z) : res (Z * (Z * Z)) :=
  let tmpsig := repeat 0 64 in
  '(rpos, rn) <- skip_zeros input rpos (Z.to_nat rlen) ;;
  t1 <- copy_integer input tmpsig rpos rn 32 ;;
  '(spos, sn) <- skip_zeros input spos (Z.to_nat slen) ;;
  let tmp := match t1 with Some t => t | None => tmpsig end in
  t2 <- copy_integer input tmp spos sn 64 ;;
  match t1, t2 with
  | Some _, Some tmp =>
      '(ok, sig) <- secp_parse_compact c tmp ;;
      if ok : bool then Ok (1, sig)
      else '(_, sig) <- secp_parse_compact c (repeat 0 64) ;; Ok (1, sig)
  | _, _ => '(_, sig) <- secp_parse_compact c (repeat 0 64) ;; Ok (1, sig)
  end.

(** key.c:52-163: the two integers after the sequence length; [sig] is what [sig] holds so far. *)
Definition parse_integers (c : option context) (input : list Z) (inputlen : Z) (sig : Z * Z) (pos : Z) : res (Z * (Z * Z)) :=
  r <- parse_integer input inputlen pos ;;
  match r with
  | None => Ok (0, sig)
  | Some (rlen, rpos) =>
      s <- parse_integer input inputlen (rpos + rlen) ;;
      match s with
      | None => Ok (0, sig)
      | Some (slen, spos) => finish_sig c input rlen rpos slen spos
      end
  end.

(** key.c:21-164: return value and the signature written to [sig].  [input] is the readable memory. *)
Definition parse_der_lax (c : option context) (input : list Z) (inputlen : Z) : res (Z * (Z * Z)) :=
  let tmpsig := repeat 0 64 in
  '(_, sig) <- secp_parse_compact c tmpsig ;;
  let pos := 0 in
  if pos =? inputlen then Ok (0, sig) else
  tag <- rdz input pos ;;
  if negb (tag =? 0x30) then Ok (0, sig) else
  let pos := pos + 1 in
  if pos =? inputlen then Ok (0, sig) else
  lenbyte <- rdz input pos ;;
  let pos := pos + 1 in
  opos <- (if negb (Z.land lenbyte 0x80 =? 0) then
             let lenbyte := lenbyte - 0x80 in
             if u64 (inputlen - pos) <? lenbyte then Ok None else Ok (Some (pos + lenbyte))
           else Ok (Some pos)) ;;
  match opos with
  | None => Ok (0, sig)
  | Some pos => parse_integers c input inputlen sig pos
  end.

(* ---------------------------------------------------------------- *)
(** ** DER private keys *)

(** key.c:187-237: return value and out32.  [privkey] is exactly the [privkeylen] bytes of
    input; pointer differences are list lengths of what is left. *)
Definition import_der (c : option context) (privkey : list Z) : res (bool * list Z) :=
  let out32 := repeat 0 32 in
  let no := Ok (false, out32) in
  if (length privkey <? 1)%nat then no else
  b <- rd privkey 0 ;;
  if negb (b =? 0x30) then no else
  let privkey := skipn 1 privkey in
  if (length privkey <? 1)%nat then no else
  b <- rd privkey 0 ;;
  if Z.land b 0x80 =? 0 then no else
  let lenb := Z.land b 0xFFFFFF7F in
  let privkey := skipn 1 privkey in
  if (lenb <? 1) || (2 <? lenb) then no else
  if Z.of_nat (length privkey) <? lenb then no else
  lo <- rd privkey (Z.to_nat (lenb - 1)) ;;
  hi <- (if 1 <? lenb then h <- rd privkey (Z.to_nat (lenb - 2)) ;; Ok (Z.shiftl h 8) else Ok 0) ;;
  let len := Z.lor lo hi in
  let privkey := skipn (Z.to_nat lenb) privkey in
  if Z.of_nat (length privkey) <? len then no else
  if (length privkey <? 3)%nat then no else
  b0 <- rd privkey 0 ;; b1 <- rd privkey 1 ;; b2 <- rd privkey 2 ;;
  if negb (b0 =? 0x02) || negb (b1 =? 0x01) || negb (b2 =? 0x01) then no else
  let privkey := skipn 3 privkey in
  if (length privkey <? 2)%nat then no else
  b0 <- rd privkey 0 ;;
  if negb (b0 =? 0x04) then no else
  oslen <- rd privkey 1 ;;
  let privkey := skipn 2 privkey in
  if (32 <? oslen) || (Z.of_nat (length privkey) <? oslen) then no else
  bs <- slice privkey 0 (Z.to_nat oslen) ;;
  out32 <- store out32 (32 - Z.to_nat oslen) bs ;;
  ok <- secp_seckey_verify c out32 ;;
  if ok : bool then Ok (true, out32) else Ok (false, repeat 0 32).

(** key.c:265-266 *)
Definition der_begin_c : list Z := [0x30; 0x81; 0xD3; 0x02; 0x01; 0x01; 0x04; 0x20].
(** key.c:267-279 *)
Definition der_middle_c : list Z := [
  0xA0; 0x81; 0x85; 0x30; 0x81; 0x82; 0x02; 0x01; 0x01; 0x30; 0x2C; 0x06;
  0x07; 0x2A; 0x86; 0x48; 0xCE; 0x3D; 0x01; 0x01; 0x02; 0x21; 0x00; 0xFF;
  0xFF; 0xFF; 0xFF; 0xFF; 0xFF; 0xFF; 0xFF; 0xFF; 0xFF; 0xFF; 0xFF; 0xFF;
  0xFF; 0xFF; 0xFF; 0xFF; 0xFF; 0xFF; 0xFF; 0xFF; 0xFF; 0xFF; 0xFF; 0xFF;
  0xFF; 0xFF; 0xFE; 0xFF; 0xFF; 0xFC; 0x2F; 0x30; 0x06; 0x04; 0x01; 0x00;
  0x04; 0x01; 0x07; 0x04; 0x21; 0x02; 0x79; 0xBE; 0x66; 0x7E; 0xF9; 0xDC;
  0xBB; 0xAC; 0x55; 0xA0; 0x62; 0x95; 0xCE; 0x87; 0x0B; 0x07; 0x02; 0x9B;
  0xFC; 0xDB; 0x2D; 0xCE; 0x28; 0xD9; 0x59; 0xF2; 0x81; 0x5B; 0x16; 0xF8;
  0x17; 0x98; 0x02; 0x21; 0x00; 0xFF; 0xFF; 0xFF; 0xFF; 0xFF; 0xFF; 0xFF;
  0xFF; 0xFF; 0xFF; 0xFF; 0xFF; 0xFF; 0xFF; 0xFF; 0xFE; 0xBA; 0xAE; 0xDC;
  0xE6; 0xAF; 0x48; 0xA0; 0x3B; 0xBF; 0xD2; 0x5E; 0x8C; 0xD0; 0x36; 0x41;
  0x41; 0x02; 0x01; 0x01; 0xA1; 0x24; 0x03; 0x22; 0x00].
(** key.c:295-296 *)
Definition der_begin_u : list Z := [0x30; 0x82; 0x01; 0x13; 0x02; 0x01; 0x01; 0x04; 0x20].
(** key.c:297-312 *)
Definition der_middle_u : list Z := [
  0xA0; 0x81; 0xA5; 0x30; 0x81; 0xA2; 0x02; 0x01; 0x01; 0x30; 0x2C; 0x06;
  0x07; 0x2A; 0x86; 0x48; 0xCE; 0x3D; 0x01; 0x01; 0x02; 0x21; 0x00; 0xFF;
  0xFF; 0xFF; 0xFF; 0xFF; 0xFF; 0xFF; 0xFF; 0xFF; 0xFF; 0xFF; 0xFF; 0xFF;
  0xFF; 0xFF; 0xFF; 0xFF; 0xFF; 0xFF; 0xFF; 0xFF; 0xFF; 0xFF; 0xFF; 0xFF;
  0xFF; 0xFF; 0xFE; 0xFF; 0xFF; 0xFC; 0x2F; 0x30; 0x06; 0x04; 0x01; 0x00;
  0x04; 0x01; 0x07; 0x04; 0x41; 0x04; 0x79; 0xBE; 0x66; 0x7E; 0xF9; 0xDC;
  0xBB; 0xAC; 0x55; 0xA0; 0x62; 0x95; 0xCE; 0x87; 0x0B; 0x07; 0x02; 0x9B;
  0xFC; 0xDB; 0x2D; 0xCE; 0x28; 0xD9; 0x59; 0xF2; 0x81; 0x5B; 0x16; 0xF8;
  0x17; 0x98; 0x48; 0x3A; 0xDA; 0x77; 0x26; 0xA3; 0xC4; 0x65; 0x5D; 0xA4;
  0xFB; 0xFC; 0x0E; 0x11; 0x08; 0xA8; 0xFD; 0x17; 0xB4; 0x48; 0xA6; 0x85;
  0x54; 0x19; 0x9C; 0x47; 0xD0; 0x8F; 0xFB; 0x10; 0xD4; 0xB8; 0x02; 0x21;
  0x00; 0xFF; 0xFF; 0xFF; 0xFF; 0xFF; 0xFF; 0xFF; 0xFF; 0xFF; 0xFF; 0xFF;
  0xFF; 0xFF; 0xFF; 0xFF; 0xFE; 0xBA; 0xAE; 0xDC; 0xE6; 0xAF; 0x48; 0xA0;
  0x3B; 0xBF; 0xD2; 0x5E; 0x8C; 0xD0; 0x36; 0x41; 0x41; 0x02; 0x01; 0x01;
  0xA1; 0x44; 0x03; 0x42; 0x00].

(** key.c:253-327: return value, final *privkeylen and the bytes of [privkey] afterwards.  [privkey] is the
    output buffer before the call; a write past its end is undefined. *)
Definition export_der (E : secp) (c : option context) (privkey : list Z) (privkeylen : nat) (key32 : list Z) (compressed : bool)
  : res (bool * nat * list Z) :=
  p <- secp_pubkey_create E c key32 ;;
  match p with
  | None => Ok (false, O, privkey)
  | Some pubkey =>
      let '(begin, middle, publen, total) :=
        if compressed then (der_begin_c, der_middle_c, BTC_COMPRESSED_PUBLIC_KEY_SIZE, BTC_COMPRESSED_PRIVATE_KEY_SIZE)
        else (der_begin_u, der_middle_u, BTC_PUBLIC_KEY_SIZE, BTC_PRIVATE_KEY_SIZE) in
      _ <- c_assert (total <=? privkeylen)%nat ;;
      privkey <- store privkey 0 begin ;;
      let ptr := length begin in
      k <- slice key32 0 32 ;;
      privkey <- store privkey ptr k ;;
      let ptr := (ptr + 32)%nat in
      privkey <- store privkey ptr middle ;;
      let ptr := (ptr + length middle)%nat in
      pub <- secp_pubkey_serialize E c pubkey publen compressed ;;
      privkey <- store privkey ptr pub ;;
      let ptr := (ptr + length pub)%nat in
      _ <- c_assert (ptr =? total)%nat ;;
      Ok (true, ptr, privkey)
  end.

(** key.c:428-446; the test of line 432 never fires after the assertion *)
Definition key_encode (E : secp) (g : globals) (key32 encoded_key : list Z) (encoded_key_len : nat) : res (bool * list Z) :=
  _ <- c_assert ((encoded_key_len =? BTC_PRIVATE_KEY_SIZE) || (encoded_key_len =? BTC_COMPRESSED_PRIVATE_KEY_SIZE))%nat ;;
  '(r, encoded_len, out) <- export_der E (g_sign g) encoded_key encoded_key_len key32 (encoded_key_len =? BTC_COMPRESSED_PRIVATE_KEY_SIZE)%nat ;;
  let r := if (encoded_len =? encoded_key_len)%nat then r else false in
  _ <- c_assert (encoded_len =? encoded_key_len)%nat ;;
  Ok (r, out).

(** key.c:448-452; [encoded_key] is exactly the [encoded_key_len] bytes *)
Definition key_decode (g : globals) (encoded_key : list Z) : res (bool * list Z) := import_der (g_sign g) encoded_key.

(* ---------------------------------------------------------------- *)
(** ** Life cycle *)

(** The heap of contexts: the ids of the live ones and the next fresh id. *)
(** key.c:335,337 (what secp256k1_context_create allocates) *)
Record ctx_heap := mkHeap { live : list nat; fresh : nat }.

(** secp256k1_context_create (libsecp256k1; allocation is assumed to succeed) *)
(** called at key.c:335,337 *)
Definition context_create (h : ctx_heap) (sign verify : bool) : context * ctx_heap :=
  (mkCtx sign verify (fresh h), mkHeap (fresh h :: live h) (S (fresh h))).
(** secp256k1_context_destroy: undefined on a context that is not alive *)
(** called at key.c:347,350 *)
Definition context_destroy (h : ctx_heap) (c : context) : res ctx_heap :=
  if existsb (Nat.eqb (ctx_id c)) (live h) then Ok (mkHeap (remove Nat.eq_dec (ctx_id c) (live h)) (fresh h)) else UB.

(** [p == NULL] *)
(** key.c:334,336,346,349 *)
Definition is_null (p : option context) : bool := match p with None => true | Some _ => false end.

(** key.c:332-343.  secp256k1_context_randomize needs a signing context and returns 1. *)
Definition key_init (fuel : nat) (o : os) (st : globals * ctx_heap) : res (outcome (globals * ctx_heap)) :=
  let '(g, h) := st in
  let rand_buffer := uninit 32 in
  _ <- c_assert (is_null (g_verify g)) ;;
  let '(cv, h) := context_create h false true in
  let g := mkGlobals (g_sign g) (Some cv) in
  _ <- c_assert (is_null (g_sign g)) ;;
  let '(cs, h) := context_create h true false in
  let g := mkGlobals (Some cs) (g_verify g) in
  r <- os_rand_bytes fuel o rand_buffer 32 ;;
  match r with
  | Returned rand_buffer =>
      _ <- sign_ctx (g_sign g) ;;
      _ <- cleanse rand_buffer 0 32 ;;
      Ok (Returned (g, h))
  | Fatal => Ok Fatal
  | Running => Ok Running
  end.

(** key.c:345-352 *)
Definition key_uninit (st : globals * ctx_heap) : res (globals * ctx_heap) :=
  let '(g, h) := st in
  match g_sign g with
  | None => Abort
  | Some cs =>
      h <- context_destroy h cs ;;
      let g := mkGlobals None (g_verify g) in
      match g_verify g with
      | None => Abort
      | Some cv => h <- context_destroy h cv ;; Ok (mkGlobals (g_sign g) None, h)
      end
  end.

(** key.c:354-358.  [draw j] is the operating system during the [j]-th call of
    fingera_os_rand_bytes, [mem] the memory [key32] points to. *)
Fixpoint key_new (fuel : nat) (rand_fuel : nat) (draw : nat -> os) (j : nat) (g : globals) (mem : list Z) : res (outcome (list Z)) :=
  match fuel with
  | O => Ok Running
  | S fuel' =>
      r <- os_rand_bytes rand_fuel (draw j) mem 32 ;;
      match r with
      | Returned mem =>
          ok <- secp_seckey_verify (g_sign g) mem ;;
          if ok : bool then Ok (Returned mem) else key_new fuel' rand_fuel draw (S j) g mem
      | Fatal => Ok Fatal
      | Running => Ok Running
      end
  end.

(* ---------------------------------------------------------------- *)
(** ** WIF *)

(** key.h:44-46 *)
Definition key_string_max_length : nat := to_base58_check_length 32 8.

(** key.c:360-375: return value and characters written *)
Definition key_to_string (key32 : list Z) (is_compressed : bool) (param : chain_parameters) : res (nat * list Z) :=
  if is_compressed then
    let buf33 := uninit 33 in
    k <- slice key32 0 32 ;;
    buf33 <- store buf33 0 k ;;
    buf33 <- store buf33 32 [1] ;;
    r <- to_base58_check buf33 (cp_secret param) ;;
    _ <- cleanse buf33 0 33 ;;
    Ok r
  else
    k <- slice key32 0 32 ;;   (* the callee is told that 32 bytes are readable *)
    to_base58_check k (cp_secret param).

(** key.c:376-399: return value, *key32 and *is_compressed afterwards; [key32] is the output
    buffer and [is_compressed] the variable before the call. *)
Definition key_from_string (key_str : list Z) (str_len : nat) (key32 : list Z) (is_compressed : Z) (param : chain_parameters)
  : res (Z * list Z * Z) :=
  let buf := uninit (32 + 8) in
  let psize := length (cp_secret param) in
  _ <- c_assert (psize <=? 8)%nat ;;
  '(size, out) <- from_base58_check key_str str_len ;;
  buf <- store buf 0 out ;;
  if (size <=? 32)%nat then Ok (0, key32, is_compressed) else
  let pre_size := (size - 32)%nat in
  c <- (if negb (psize =? pre_size)%nat then
          if negb (psize =? pre_size - 1)%nat then Ok None
          else
            b <- rd buf (size - 1) ;;
            if negb (b =? 1) then Ok None else Ok (Some 1)
        else Ok (Some 0)) ;;
  match c with
  | None => Ok (0, key32, is_compressed)
  | Some is_compressed =>
      p <- slice buf 0 psize ;;
      if negb (bytes_eqb p (cp_secret param)) then Ok (0, key32, is_compressed) else
      k <- slice buf psize 32 ;;
      key32 <- store key32 0 k ;;
      Ok (1, key32, is_compressed)
  end.

(* ---------------------------------------------------------------- *)
(** ** Public keys *)

(** key.c:454-461: the point written to pubkey64 *)
Definition key_get_pub (E : secp) (g : globals) (key32 : list Z) : res (pt E) :=
  p <- secp_pubkey_create E (g_sign g) key32 ;;
  match p with Some P => Ok P | None => Abort end.

(** key.c:483-501: return value and contents of the output buffer [out] afterwards; the test of line 488 never fires. *)
Definition pubkey_encode (E : secp) (g : globals) (P : pt E) (out : list Z) (len : nat) : res (bool * list Z) :=
  _ <- c_assert ((len =? BTC_PUBLIC_KEY_SIZE) || (len =? BTC_COMPRESSED_PUBLIC_KEY_SIZE))%nat ;;
  bs <- secp_pubkey_serialize E (g_sign g) P len (len =? 33)%nat ;;
  out <- store out 0 bs ;;
  let out_len := length bs in
  let r := (out_len =? len)%nat in
  _ <- c_assert (out_len =? len)%nat ;;
  Ok (r, out).

(** key.c:503-515: [None] is the return value 0; the test of line 508 never fires. *)
Definition pubkey_decode (E : secp) (g : globals) (encoded_pubkey : list Z) (len : nat) : res (option (pt E)) :=
  _ <- c_assert ((len =? BTC_PUBLIC_KEY_SIZE) || (len =? BTC_COMPRESSED_PUBLIC_KEY_SIZE))%nat ;;
  secp_pubkey_parse E (g_verify g) encoded_pubkey len.

(* ---------------------------------------------------------------- *)
(** ** Derivation *)

(** key.c:401-426: return value, *out_key32 and *out_chain32 afterwards ([out_key32],
    [out_chain32]: before the call).  The output buffers are not the inputs. *)
Definition key_derive (E : secp) (g : globals) (key32 chain32 out_key32 out_chain32 : list Z) (child : Z)
  : res (bool * list Z * list Z) :=
  '(ret, out) <- (if Z.shiftr child 31 =? 0 then
       pubkey64 <- key_get_pub E g key32 ;;
       '(ret, encoded_pubkey) <- pubkey_encode E g pubkey64 (uninit BTC_COMPRESSED_PUBLIC_KEY_SIZE) BTC_COMPRESSED_PUBLIC_KEY_SIZE ;;
       header <- rd encoded_pubkey 0 ;;
       out <- btc_bip32_hash chain32 child header (skipn 1 encoded_pubkey) ;;
       _ <- cleanse encoded_pubkey 0 BTC_COMPRESSED_PUBLIC_KEY_SIZE ;;
       Ok (ret, out)
     else
       out <- btc_bip32_hash chain32 child 0 key32 ;;
       Ok (true, out)) ;;
  if negb ret then Ok (ret, out_key32, out_chain32)
  else
    k <- slice key32 0 32 ;;
    out_key32 <- store out_key32 0 k ;;
    c <- slice out 32 32 ;;
    out_chain32 <- store out_chain32 0 c ;;
    '(ret, k) <- secp_privkey_tweak_add (g_sign g) out_key32 out ;;
    out_key32 <- store out_key32 0 k ;;
    Ok (ret, out_key32, out_chain32).

(** key.c:463-481 *)
Definition pubkey_derive (E : secp) (g : globals) (encoded_pubkey33 chain32 out_pubkey33 out_chain32 : list Z) (child : Z)
  : res (bool * list Z * list Z) :=
  _ <- c_assert (Z.shiftr child 31 =? 0) ;;
  header <- rd encoded_pubkey33 0 ;;
  _ <- c_assert ((header =? 2) || (header =? 3)) ;;
  p <- pubkey_decode E g encoded_pubkey33 33 ;;
  match p with
  | None => Ok (false, out_pubkey33, out_chain32)
  | Some _ =>
      out <- btc_bip32_hash chain32 child header (skipn 1 encoded_pubkey33) ;;
      c <- slice out 32 32 ;;
      out_chain32 <- store out_chain32 0 c ;;
      p <- secp_pubkey_parse E (g_verify g) encoded_pubkey33 33 ;;
      match p with
      | None => Ok (false, out_pubkey33, out_chain32)
      | Some P =>
          q <- secp_pubkey_tweak_add E (g_verify g) P out ;;
          match q with
          | None => Ok (false, out_pubkey33, out_chain32)
          | Some Q =>
              '(r, out_pubkey33) <- pubkey_encode E g Q out_pubkey33 33 ;;
              Ok (r, out_pubkey33, out_chain32)
          end
      end
  end.

(* ---------------------------------------------------------------- *)
(** ** Signatures *)

(** key.c:518-532 *)
Definition SigHasLowR (g : globals) (sig : Z * Z) : res bool :=
  compact_sig <- secp_serialize_compact (g_sign g) sig ;;
  b <- rd compact_sig 0 ;;
  Ok (b <? 0x80).

(** key.c:546-552.  [sig] is [None] when [ret] is 0. *)
Fixpoint grind (fuel : nat) (E : secp) (g : globals) (hash32 key32 : list Z) (sig : option (Z * Z)) (extra_entropy : list Z) (counter : Z)
  : res (outcome (option (Z * Z))) :=
  match sig with
  | None => Ok (Returned None)
  | Some s =>
      low <- SigHasLowR g s ;;
      if low : bool then Ok (Returned (Some s))
      else
        match fuel with
        | O => Ok Running
        | S fuel' =>
            let counter := u32 (counter + 1) in
            extra_entropy <- write_little_32 extra_entropy counter ;;
            sig <- secp_ecdsa_sign E (g_sign g) hash32 key32 (Some extra_entropy) ;;
            grind fuel' E g hash32 key32 sig extra_entropy counter
        end
  end.

(** key.c:534-554: the signature written *)
Definition key_sign (fuel : nat) (E : secp) (g : globals) (key32 hash32 : list Z) : res (outcome (Z * Z)) :=
  sig <- secp_ecdsa_sign E (g_sign g) hash32 key32 None ;;
  r <- grind fuel E g hash32 key32 sig (repeat 0 32) 0 ;;
  match r with
  | Returned (Some s) => Ok (Returned s)
  | Returned None => Abort
  | Fatal => Ok Fatal
  | Running => Ok Running
  end.

(** key.c:556-566: return value and bytes written to [encoded_sig] (its capacity is the caller's business: 72 bytes are announced). *)
Definition signature_encode (g : globals) (sig : Z * Z) : res (nat * list Z) :=
  r <- secp_serialize_der (g_sign g) sig BTC_SIGNATURE_SIZE ;;
  match r with Some bs => Ok (length bs, bs) | None => Ok (O, []) end.

(** key.c:576-583; [encoded_sig] is the readable memory *)
Definition signature_decode (g : globals) (encoded_sig : list Z) (encoded_sig_len : nat) : res (Z * (Z * Z)) :=
  parse_der_lax (g_verify g) encoded_sig (Z.of_nat encoded_sig_len).

(** key.c:585-601 *)
Definition key_verify (E : secp) (g : globals) (P : pt E) (hash32 : list Z) (sig : Z * Z) : res bool :=
  sig_normalized <- secp_normalize (g_verify g) sig ;;
  secp_ecdsa_verify E (g_verify g) sig_normalized hash32 P.

(* ---------------------------------------------------------------- *)
(** ** Key ids *)

(** key.c:609-617 *)
Definition pubkey_keyid (E : secp) (g : globals) (P : pt E) (compress : bool) : res (list Z) :=
  let encoded_len := if compress then BTC_COMPRESSED_PUBLIC_KEY_SIZE else BTC_PUBLIC_KEY_SIZE in
  '(r, encoded_pubkey) <- pubkey_encode E g P (uninit BTC_PUBLIC_KEY_SIZE) encoded_len ;;
  _ <- c_assert r ;;
  window <- slice encoded_pubkey 0 encoded_len ;;
  btc_hash160 window encoded_len.

(** key.c:603-607 *)
Definition key_keyid (E : secp) (g : globals) (key32 : list Z) (compress : bool) : res (list Z) :=
  P <- key_get_pub E g key32 ;; pubkey_keyid E g P compress.

(** key.c:619-623 *)
Definition key_fingerprint (E : secp) (g : globals) (key32 : list Z) (compress : bool) : res Z :=
  keyid <- key_keyid E g key32 compress ;; read_little_32 keyid.

(** key.c:624-628 *)
Definition pubkey_fingerprint (pubkey33 : list Z) : res Z :=
  window <- slice pubkey33 0 33 ;;
  keyid <- btc_hash160 window 33 ;; read_little_32 keyid.
