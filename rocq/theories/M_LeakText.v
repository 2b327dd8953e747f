(** The text encoders with their observations, as M_Leak does for the hash functions
    (same conventions: test outcomes and positions of memory accesses; scalar locals are not observed). *)
From Verif Require Import Base M_Endian M_Hex M_Base58 M_Base58Check M_Hash M_Address M_Random M_Key M_Leak.

(** hex.c:15-20, byte number [i] on. *)
Fixpoint to_hex_loop_l (p str : ptr) (hs : list Z) (i : nat) (buf : list Z) : list obs * list Z :=
  match buf with
  | [] => ([Test false], [])
  | byte :: rest =>
      let '(t, out) := to_hex_loop_l p str hs (S i) rest in
      (Test true :: read (padd p i) 1
       :: Read HexTable (Z.to_nat (Z.shiftr byte 4)) 1 :: write (padd str (2 * i)) 1
       :: Read HexTable (Z.to_nat (Z.land byte 15)) 1 :: write (padd str (2 * i + 1)) 1 :: t,
       tget hs (Z.shiftr byte 4) :: tget hs (Z.land byte 15) :: out)
  end.
(** hex.c:11-21 [fingera_to_hex] *)
Definition to_hex_l (p str : ptr) (buf : list Z) (upper : Z) : list obs * list Z :=
  let '(t, out) := to_hex_loop_l p str (hex_str upper) 0 buf in (Test (negb (upper =? 0)) :: t, out).

(** base58.c:34-37: [begin != end && *begin == 0], from byte number [i] on. *)
Fixpoint skip_zeroes_l (p : ptr) (i : nat) (buf : list Z) : list obs * (nat * list Z) :=
  match buf with
  | [] => ([Test false], (O, []))
  | x :: r =>
      let t := [Test true; read (padd p i) 1; Test (x =? 0)] in
      if x =? 0 then let '(t', (z, b)) := skip_zeroes_l p (S i) r in (t ++ t', (S z, b)) else (t, (O, buf))
  end.

(** base58.c:48-53: the condition is [(carry != 0 || i < length) && it >= 0] with [it = size - 1 - i];
    [b] is the scratch area from [it] down, as in M_Base58. *)
Fixpoint carry_loop_l (mul base carry : Z) (size i len : nat) (b : list Z) : list obs * (Z * nat * list Z) :=
  let t := Test (negb (carry =? 0)) :: (if carry =? 0 then [Test (i <? len)%nat] else []) in
  let go := negb (carry =? 0) || (i <? len)%nat in
  match b with
  | [] => (t ++ (if go then [Test false] else []), (carry, i, []))
  | d :: b' =>
      if go then
        let c := carry + mul * d in
        let '(t', (carry', i', b'')) := carry_loop_l mul base (c / base) size (S i) len b' in
        (t ++ [Test true; Read B58 (size - 1 - i) 1; Write B58 (size - 1 - i) 1] ++ t',
         (carry', i', c mod base :: b''))
      else (t, (carry, i, b))
  end.

(** base58.c:45-57, from byte number [k] of the input on. *)
Fixpoint to_base58_loop_l (p : ptr) (k size : nat) (buf : list Z) (len : nat) (b58 : list Z) : lk (nat * list Z) :=
  match buf with
  | [] => _ <~ tell [Test false] ;; pure (Ok (len, b58))
  | x :: r =>
      _ <~ tell [Test true; read (padd p k) 1] ;;
      let '(t, (carry, i, b58')) := carry_loop_l 256 58 x size 0 len b58 in
      _ <~ tell (t ++ [Test (carry =? 0)]) ;;
      _ <~ pure (c_assert (carry =? 0)) ;;
      to_base58_loop_l p (S k) size r i b58'
  end.

(** base58.c:65: the characters [k], [k + 1], .. of the text; [size - length iter] is the position of the next
    digit in the scratch area. *)
Fixpoint translate_l (str : ptr) (size k : nat) (iter : list Z) : list obs * list Z :=
  match iter with
  | [] => ([Test false], [])
  | d :: r =>
      let '(t, out) := translate_l str size (S k) r in
      (Test true :: Read B58 (size - length iter) 1 :: Read Base58Table (Z.to_nat d) 1 :: write (padd str k) 1 :: t,
       tget BASE58_ENCODE d :: out)
  end.

(** base58.c:29-71 [fingera_to_base58]; the tests on the size are those of DECLARE_BUFFER and FREE_BUFFER
    (sl/buffer.h:13-26). *)
Definition to_base58_l (p str : ptr) (buf : list Z) : lk (nat * list Z) :=
  let '(t0, (zeroes, rest)) := skip_zeroes_l p 0 buf in
  _ <~ tell t0 ;;
  let size := (length rest * 138 / 100 + 1)%nat in
  _ <~ pure (c_defined (Z.of_nat size <=? INT_MAX)) ;;
  _ <~ tell [Test (size <=? 128)%nat; Write B58 0 size] ;;
  '(len, b58) <~ to_base58_loop_l p zeroes size rest 0 (repeat 0 size) ;;
  let '(t1, (_, iter)) := skip_zeroes_l (B58, (size - len)%nat) 0 (rev (firstn len b58)) in
  _ <~ tell (t1 ++ [write str zeroes]) ;;
  let '(t2, chars) := translate_l str size zeroes iter in
  _ <~ tell (t2 ++ [Write B58 0 size; Test (negb (size <=? 128)%nat)]) ;;
  let out := repeat 49 zeroes ++ chars in
  pure (Ok (length out, out)).

(** btc/base58_check.c:10-31 *)
Definition to_base58_check_l (pb pp str : ptr) (buf prefix : list Z) : lk (nat * list Z) :=
  let size_of_data := (length buf + length prefix)%nat in
  let size_of_all := (size_of_data + 4)%nat in
  _ <~ tell [Test (size_of_all <=? 128)%nat] ;;
  let buffer := uninit size_of_all in
  _ <~ tell [read pp (length prefix); Write CheckBuffer 0 (length prefix)] ;;
  buffer <~ pure (store buffer 0 prefix) ;;
  _ <~ tell [read pb (length buf); Write CheckBuffer (length prefix) (length buf)] ;;
  buffer <~ pure (store buffer (length prefix) buf) ;;
  window <~ pure (slice buffer 0 size_of_data) ;;
  hash <~ btc_hash256_l (CheckBuffer, 0%nat) (CheckHash, 0%nat) window size_of_data ;;
  _ <~ tell [Read CheckHash 0 4; Write CheckBuffer size_of_data 4] ;;
  h4 <~ pure (slice hash 0 4) ;;
  buffer <~ pure (store buffer size_of_data h4) ;;
  r <~ to_base58_l (CheckBuffer, 0%nat) str buffer ;;
  _ <~ tell [Write CheckBuffer 0 size_of_all; Test (negb (size_of_all <=? 128)%nat)] ;;
  pure (Ok r).

(** btc/key.c:360-375 [fingera_btc_key_to_string] *)
Definition key_to_string_l (pk str : ptr) (key32 : list Z) (is_compressed : bool) (param : chain_parameters)
  : lk (nat * list Z) :=
  _ <~ tell [Test is_compressed] ;;
  if is_compressed then
    let buf33 := uninit 33 in
    _ <~ tell [read pk 32; Write Buf33 0 32] ;;
    k <~ pure (slice key32 0 32) ;;
    buf33 <~ pure (store buf33 0 k) ;;
    _ <~ tell [Write Buf33 32 1] ;;
    buf33 <~ pure (store buf33 32 [1]) ;;
    r <~ to_base58_check_l (Buf33, 0%nat) (Prefix, 0%nat) str buf33 (cp_secret param) ;;
    _ <~ tell [Write Buf33 0 33] ;;
    _ <~ pure (cleanse buf33 0 33) ;;
    pure (Ok r)
  else
    k <~ pure (slice key32 0 32) ;;
    to_base58_check_l pk (Prefix, 0%nat) str k (cp_secret param).
