(** The functions that use scratch buffers (DECLARE_BUFFER / FREE_BUFFER), with the life time of those
    buffers explicit: include/fingera_libc/sl/buffer.h, src/base58.c, src/btc/base58_check.c,
    src/btc/address.c.  (M_Base58, M_Base58Check and M_Address describe the same functions by their
    return value and the bytes written.) *)
From Verif Require Import Base M_Endian M_Base58 M_Base58Check M_Hash M_Base32 M_Bech32 M_Address.

(** What the process decides: the result of the [k]-th request when it goes to malloc (None: NULL; otherwise
    the initial contents of the block), and the initial contents of the 128 byte array on the stack. *)
(** include/fingera_libc/sl/buffer.h:14,21 *)
Record env := mkEnv { e_malloc : nat -> Z -> option (list Z); e_stack : nat -> list Z }.

(** The state: the caller's memory; the live scratch blocks (number, is it a heap block, contents); the number of
    requests so far; the blocks given up so far (by free, or by leaving the function that has them on its
    stack), with what they contained then. *)
(** include/fingera_libc/sl/buffer.h:13-26 *)
Record world := mkWorld {
  w_mem : list Z; w_blocks : list (nat * (bool * list Z)); w_next : nat; w_dead : list (nat * list Z) }.

(** [name] and [name##_in_heap]; None is the null pointer *)
(** include/fingera_libc/sl/buffer.h:15-16 *)
Record buffer := mkBuffer { b_block : option nat; b_in_heap : bool }.

(** A [void *] argument: an address in the caller's memory or in a scratch block. *)
(** src/base58.c:29 (called from src/btc/base58_check.c:25 with a scratch block) *)
Inductive ptr := Caller (a : nat) | Scratch (k a : nat).

(** The block with a given number; a block that is not live cannot be accessed. *)
(** include/fingera_libc/sl/buffer.h:13-26 *)
Fixpoint find_block (k : nat) (bl : list (nat * (bool * list Z))) : res (bool * list Z) :=
  match bl with
  | [] => UB
  | (k', b) :: r => if (k =? k')%nat then Ok b else find_block k r
  end.
(** Change the contents of a block. *)
(** src/base58.c:41,51 (stores through the scratch pointer) *)
Fixpoint change_block (k : nat) (d : list Z) (bl : list (nat * (bool * list Z))) : list (nat * (bool * list Z)) :=
  match bl with
  | [] => []
  | (k', (h, d')) :: r => if (k =? k')%nat then (k', (h, d)) :: r else (k', (h, d')) :: change_block k d r
  end.
(** Remove a block. *)
(** include/fingera_libc/sl/buffer.h:25-26 *)
Fixpoint drop_block (k : nat) (bl : list (nat * (bool * list Z))) : list (nat * (bool * list Z)) :=
  match bl with
  | [] => []
  | (k', b) :: r => if (k =? k')%nat then r else (k', b) :: drop_block k r
  end.

(** sl/buffer.h:13-23 DECLARE_BUFFER(type, name, real_size); [real_size] as a size_t *)
Definition declare_buffer (e : env) (real_size : Z) (w : world) : buffer * world :=
  let k := w_next w in
  if real_size <=? 128 then
    (mkBuffer (Some k) false, mkWorld (w_mem w) ((k, (false, e_stack e k)) :: w_blocks w) (S k) (w_dead w))
  else
    match e_malloc e k real_size with
    | Some d => (mkBuffer (Some k) true, mkWorld (w_mem w) ((k, (true, d)) :: w_blocks w) (S k) (w_dead w))
    | None => (mkBuffer None true, mkWorld (w_mem w) (w_blocks w) (S k) (w_dead w))
    end.

(** sl/buffer.h:25-26 FREE_BUFFER(name): freeing what is not a live heap block is undefined, freeing NULL does nothing *)
Definition free_buffer (b : buffer) (w : world) : res world :=
  if b_in_heap b then
    match b_block b with
    | None => Ok w
    | Some k =>
        '(h, d) <- find_block k (w_blocks w) ;;
        _ <- c_defined h ;;
        Ok (mkWorld (w_mem w) (drop_block k (w_blocks w)) (w_next w) ((k, d) :: w_dead w))
    end
  else Ok w.

(** Returning from the function that declared the buffer: its stack array is given up. *)
(** include/fingera_libc/sl/buffer.h:14 *)
Definition leave_buffer (b : buffer) (w : world) : res world :=
  if b_in_heap b then Ok w
  else
    match b_block b with
    | None => Ok w
    | Some k =>
        '(h, d) <- find_block k (w_blocks w) ;;
        Ok (mkWorld (w_mem w) (drop_block k (w_blocks w)) (w_next w) ((k, d) :: w_dead w))
    end.

(** Reading and writing through the scratch pointer: undefined through NULL, after free, or outside the block. *)
(** src/base58.c:50,61,65 and 101,117,121 *)
Definition buffer_read (b : buffer) (a n : nat) (w : world) : res (list Z) :=
  match b_block b with
  | None => UB
  | Some k => '(_, d) <- find_block k (w_blocks w) ;; slice d a n
  end.
(** src/base58.c:41,51 and 88,102 *)
Definition buffer_write (b : buffer) (a : nat) (bs : list Z) (w : world) : res world :=
  match b_block b with
  | None => UB
  | Some k =>
      '(_, d) <- find_block k (w_blocks w) ;;
      d <- store d a bs ;;
      Ok (mkWorld (w_mem w) (change_block k d (w_blocks w)) (w_next w) (w_dead w))
  end.
(** src/cleanse.c:8-15 [fingera_cleanse(name, size)] *)
Definition buffer_cleanse (b : buffer) (size : nat) (w : world) : res world := buffer_write b 0 (repeat 204 size) w.

(** Reading through a pointer argument; writing to the caller's memory. *)
(** src/base58.c:34,46 *)
Definition p_read (p : ptr) (n : nat) (w : world) : res (list Z) :=
  match p with
  | Caller a => slice (w_mem w) a n
  | Scratch k a => '(_, d) <- find_block k (w_blocks w) ;; slice d a n
  end.
(** src/base58.c:64-65,119-121 *)
Definition p_write (a : nat) (bs : list Z) (w : world) : res world :=
  mem <- store (w_mem w) a bs ;;
  Ok (mkWorld mem (w_blocks w) (w_next w) (w_dead w)).

(** src/base58.c:29-71 [fingera_to_base58].  The loop over the scratch area (lines 45-57) is
    [M_Base58.to_base58_loop], which works on the area from its end; the input bytes, which nothing
    changes before line 64, are read at once. *)
Definition to_base58_w (e : env) (buf : ptr) (buf_size : nat) (str : nat) (w : world) : res (nat * world) :=
  input <- p_read buf buf_size w ;;
  let '(zeroes, rest) := skip_zeroes input in
  let size := (length rest * 138 / 100 + 1)%nat in
  _ <- c_defined (Z.of_nat size <=? INT_MAX) ;;
  let '(b58, w) := declare_buffer e (Z.of_nat size) w in
  w <- buffer_write b58 0 (repeat 0 size) w ;;
  area <- buffer_read b58 0 size w ;;
  '(len, area) <- to_base58_loop rest 0 (rev area) ;;
  w <- buffer_write b58 0 (rev area) w ;;
  area <- buffer_read b58 0 size w ;;
  let iter := result_digits len (rev area) in
  w <- p_write str (repeat 49 zeroes) w ;;
  w <- p_write (str + zeroes) (map (tget BASE58_ENCODE) iter) w ;;
  w <- buffer_cleanse b58 size w ;;
  w <- free_buffer b58 w ;;
  w <- leave_buffer b58 w ;;
  Ok ((zeroes + length iter)%nat, w).

(** src/base58.c:90-108: the decoding loop; false: an invalid character (line 93); then [length], the scratch
    area (from its end) and the memory from the stopping point on. *)
Fixpoint from_base58_loop_w (str : list Z) (len : nat) (b256 : list Z) : res (bool * nat * list Z * list Z) :=
  match str with
  | [] => UB
  | c :: r =>
      if c =? 0 then Ok (true, len, b256, str)
      else
        s <- isspace c ;;
        if s then Ok (true, len, b256, str)
        else
          let carry := tget BASE58_DECODE c in
          if carry =? -1 then Ok (false, len, b256, str)
          else
            let '(carry', i, b256') := carry_loop 58 256 carry 0 len b256 in
            _ <- c_assert (carry' =? 0) ;;
            from_base58_loop_w r i b256'
  end.

(** src/base58.c:73-126 [fingera_from_base58]; [str] and [buf] are addresses in the caller's memory, to which nothing is
    written before line 119. *)
Definition from_base58_w (e : env) (str str_len buf : nat) (w : world) : res (nat * world) :=
  '(spaces, s1) <- skip_leading_spaces (skipn str (w_mem w)) ;;
  '(zeroes, s2) <- skip_ones s1 ;;
  let product := to_int (Z.of_nat str_len - Z.of_nat spaces - Z.of_nat zeroes) * 733 in
  _ <- c_defined ((- 2 ^ 31 <=? product) && (product <=? INT_MAX)) ;;
  let size := Z.quot product 1000 + 1 in
  _ <- c_defined (0 <=? size) ;;
  let size := Z.to_nat size in
  let '(b256, w) := declare_buffer e (Z.of_nat size) w in
  w <- buffer_write b256 0 (repeat 0 size) w ;;
  area <- buffer_read b256 0 size w ;;
  '(valid, len, area, s3) <- from_base58_loop_w s2 0 (rev area) ;;
  w <- buffer_write b256 0 (rev area) w ;;
  if negb valid then
      w <- buffer_cleanse b256 size w ;;
      w <- free_buffer b256 w ;;
      w <- leave_buffer b256 w ;;
      Ok (O, w)
  else
      s4 <- skip_trailing_spaces s3 ;;
      c <- rd s4 0 ;;
      if negb (c =? 0) then
        w <- buffer_cleanse b256 size w ;;
        w <- free_buffer b256 w ;;
        w <- leave_buffer b256 w ;;
        Ok (O, w)
      else
        area <- buffer_read b256 0 size w ;;
        let it := result_digits len (rev area) in
        w <- p_write buf (repeat 0 zeroes) w ;;
        w <- p_write (buf + zeroes) it w ;;
        w <- buffer_cleanse b256 size w ;;
        w <- free_buffer b256 w ;;
        w <- leave_buffer b256 w ;;
        Ok ((zeroes + length it)%nat, w).

(** src/btc/base58_check.c:10-31 [fingera_to_base58_check] (the local array [hash] is not scratch memory in this sense) *)
Definition to_base58_check_w (e : env) (buf buf_size prefix prefix_size str : nat) (w : world) : res (nat * world) :=
  let size_of_data := (buf_size + prefix_size)%nat in
  let size_of_all := (size_of_data + 4)%nat in
  let '(buffer, w) := declare_buffer e (Z.of_nat size_of_all) w in
  p <- p_read (Caller prefix) prefix_size w ;;
  w <- buffer_write buffer 0 p w ;;
  d <- p_read (Caller buf) buf_size w ;;
  w <- buffer_write buffer prefix_size d w ;;
  window <- buffer_read buffer 0 size_of_data w ;;
  hash <- btc_hash256 window size_of_data ;;
  h4 <- slice hash 0 4 ;;
  w <- buffer_write buffer size_of_data h4 w ;;
  k <- match b_block buffer with Some k => Ok k | None => UB end ;;
  '(r, w) <- to_base58_w e (Scratch k 0) size_of_all str w ;;
  w <- buffer_cleanse buffer size_of_all w ;;
  w <- free_buffer buffer w ;;
  w <- leave_buffer buffer w ;;
  Ok (r, w).

(** src/btc/base58_check.c:33-40 [fingera_from_base58_check] *)
Definition from_base58_check_w (e : env) (str str_len buf : nat) (w : world) : res (nat * world) :=
  '(buf_size, w) <- from_base58_w e str str_len buf w ;;
  if (buf_size <? 4)%nat then Ok (O, w)
  else
    window <- p_read (Caller buf) (buf_size - 4) w ;;
    hash <- btc_hash256 window (buf_size - 4) ;;
    h4 <- slice hash 0 4 ;;
    c4 <- p_read (Caller (buf + (buf_size - 4))) 4 w ;;
    if negb (bytes_eqb h4 c4) then Ok (O, w)
    else Ok ((buf_size - 4)%nat, w).

(** src/btc/address.c:95-140 [decode_bech32]; [out] is an address in the caller's memory, [*out_size] a value returned
    with the classification.  [fingera_bech32_decode] is [M_Bech32.bech32_decode]: it stores [b_data] in the buffer.  Past the
    tests the buffer is the 128 byte array (str_len is between 8 and 90), so bytes 1 to 127 of it can be read. *)
Definition decode_bech32_w (e : env) (str str_len out out_size : nat) (param : chain_parameters) (w : world)
  : res (address_kind * nat * world) :=
  let '(buffer, w) := declare_buffer e ((Z.of_nat str_len - 7) mod 2 ^ 64) w in
  r <- bech32_decode (skipn str (w_mem w)) str_len 16 ;;
  w <- match b_data r with [] => Ok w | d => buffer_write buffer 0 d w end ;;
  let bech32_size := b_ret r in
  if (bech32_size <? 1) || negb (b_hrp_size r =? length (cp_hrp param))%nat || negb (bytes_eqb (b_hrp r) (cp_hrp param))
  then w <- free_buffer buffer w ;; w <- leave_buffer buffer w ;; Ok (BAD_ADDRESS, out_size, w)
  else
    let n := Z.to_nat (bech32_size - 1) in
    if (from_base32_raw_length n <=? out_size)%nat then
      v <- buffer_read buffer 0 1 w ;;
      let version := as_char (nth 0 v 0) in
      groups <- buffer_read buffer 1 127 w ;;
      if version =? 0 then
        '(size, prog) <- from_base32_raw groups n ;;
        w <- p_write out prog w ;;
        let kind :=
          if (size =? WITNESSV0_KEYID_SIZE)%nat then WITNESSV0_KEYHASH_ADDRESS
          else if (size =? WITNESSV0_SCRIPTID_SIZE)%nat then WITNESSV0_SCRIPTHASH_ADDRESS
          else BAD_ADDRESS in
        w <- free_buffer buffer w ;;
        w <- leave_buffer buffer w ;;
        Ok (kind, size, w)
      else
        w <- p_write out [u8 version] w ;;
        '(size, prog) <- from_base32_raw groups n ;;
        w <- p_write (out + 1) prog w ;;
        let size := (size + 1)%nat in
        let kind :=
          if (16 <? version) || (size <? 3)%nat || (41 <? size)%nat then BAD_ADDRESS else WITNESS_UNKNOWN_ADDRESS in
        w <- free_buffer buffer w ;;
        w <- leave_buffer buffer w ;;
        Ok (kind, size, w)
    else w <- free_buffer buffer w ;; w <- leave_buffer buffer w ;; Ok (BAD_ADDRESS, out_size, w).

(** src/btc/address.c:142-165 [fingera_btc_address_decode] (memmove: all bytes are read before any is stored) *)
Definition address_decode_w (e : env) (str str_len out out_size : nat) (param : chain_parameters) (w : world)
  : res (address_kind * nat * world) :=
  if (out_size <? from_base58_check_length str_len)%nat then Ok (BAD_ADDRESS, out_size, w)
  else
    '(size, w) <- from_base58_check_w e str str_len out w ;;
    let np := length (cp_pubkey param) in
    let ns := length (cp_script param) in
    pk <- (if negb (size =? 0)%nat && (np <=? size)%nat
           then p <- p_read (Caller out) np w ;; Ok (bytes_eqb p (cp_pubkey param)) else Ok false) ;;
    if (pk : bool) then
      d <- p_read (Caller (out + np)) (size - np) w ;;
      w <- p_write out d w ;;
      Ok (PUBKEY_ADDRESS, (size - np)%nat, w)
    else
      sc <- (if negb (size =? 0)%nat && (ns <=? size)%nat
             then p <- p_read (Caller out) ns w ;; Ok (bytes_eqb p (cp_script param)) else Ok false) ;;
      if (sc : bool) then
        d <- p_read (Caller (out + ns)) (size - ns) w ;;
        w <- p_write out d w ;;
        Ok (SCRIPT_ADDRESS, (size - ns)%nat, w)
      else decode_bech32_w e str str_len out out_size param w.
