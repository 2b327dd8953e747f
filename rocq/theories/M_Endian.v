(** Model of include/fingera_libc/endian.h on a little-endian host (the
    __linux__ branch, lines 11-13, with glibc's <endian.h>), and of the memory
    accesses (memcpy, stores through casted pointers) the hash code uses.
    Simplification: alignment and effective-type rules are not modelled: a
    [uint32_t*] or [uint64_t*] store into a byte buffer is a store of its bytes. *)
From Verif Require Import Base.

(** memcpy-style read of [n] bytes at offset [off]: undefined outside the memory. *)
(** the memory access of endian.h:116-135 and of every memcpy/memcmp source *)
Definition slice (mem : list Z) (off n : nat) : res (list Z) :=
  if (off + n <=? length mem)%nat then Ok (firstn n (skipn off mem)) else UB.
(** memcpy-style write at offset [off]: undefined outside the memory. *)
(** the memory access of endian.h:137-145 and of every memcpy destination *)
Definition store (mem : list Z) (off : nat) (bs : list Z) : res (list Z) :=
  if (off + length bs <=? length mem)%nat
  then Ok (firstn off mem ++ bs ++ skipn (off + length bs) mem) else UB.
(** Assignment of a local array element / variable bank entry. *)
(** assignment to a local, e.g. sha2.c:22-35 *)
Definition upd {A} (l : list A) (i : nat) (v : A) : list A := firstn i l ++ v :: skipn (S i) l.

(** The bytes of an unsigned integer object in the memory of a little-endian host. *)
(** object representation used by endian.h:137-145 *)
Fixpoint host_bytes (n : nat) (v : Z) : list Z :=
  match n with O => [] | S n' => Z.land v 255 :: host_bytes n' (Z.shiftr v 8) end.
(** object representation used by endian.h:116-135 *)
Fixpoint host_val (bs : list Z) : Z :=
  match bs with [] => 0 | b :: t => Z.lor b (Z.shiftl (host_val t) 8) end.

(** glibc <endian.h>: [htobe32]/[htobe64] reverse the bytes of the object,
    [htole32]/[htole64] are the identity (endian.h:13). *)
Definition htobe32 (v : Z) : Z := host_val (rev (host_bytes 4 v)).
(** endian.h:13 *)
Definition htobe64 (v : Z) : Z := host_val (rev (host_bytes 8 v)).
(** endian.h:13 *)
Definition htole32 (v : Z) : Z := v.
(** endian.h:13 *)
Definition htole64 (v : Z) : Z := v.

(** endian.h:116-120 *)
Definition read_little_32 (buf : list Z) : res Z := bs <- slice buf 0 4 ;; Ok (htole32 (host_val bs)).
(** endian.h:121-125 *)
Definition read_little_64 (buf : list Z) : res Z := bs <- slice buf 0 8 ;; Ok (htole64 (host_val bs)).
(** endian.h:126-130 *)
Definition read_big_32 (buf : list Z) : res Z := bs <- slice buf 0 4 ;; Ok (htobe32 (host_val bs)).
(** endian.h:131-135 *)
Definition read_big_64 (buf : list Z) : res Z := bs <- slice buf 0 8 ;; Ok (htobe64 (host_val bs)).
(** endian.h:137-140 *)
Definition write_little_32 (buf : list Z) (value : Z) : res (list Z) := store buf 0 (host_bytes 4 (htole32 value)).
(** endian.h:142-145 *)
Definition write_big_32 (buf : list Z) (value : Z) : res (list Z) := store buf 0 (host_bytes 4 (htobe32 value)).
(** Pointer arithmetic [mem + offset], then a read. *)
(** endian.h:147-158 *)
Definition at_off (mem : list Z) (offset : nat) : list Z := skipn offset mem.
(** endian.h:147-149 *)
Definition le32 (mem : list Z) (offset : nat) : res Z := read_little_32 (at_off mem offset).
(** endian.h:150-152 *)
Definition le64 (mem : list Z) (offset : nat) : res Z := read_little_64 (at_off mem offset).
(** endian.h:153-155 *)
Definition be32 (mem : list Z) (offset : nat) : res Z := read_big_32 (at_off mem offset).
(** endian.h:156-158 *)
Definition be64 (mem : list Z) (offset : nat) : res Z := read_big_64 (at_off mem offset).
