(** Specification for C139: accesses stay inside the buffers. *)
From Verif Require Import Base M_Leak.

(** A buffer: where it starts and how many bytes it has. *)
Definition buffer : Type := (ptr * nat)%type.
(** The [k] bytes at offset [off] of [o] lie in the buffer. *)
Definition within (o : object) (off k : nat) (b : buffer) : Prop :=
  o = fst (fst b) /\ (snd (fst b) <= off)%nat /\ (off + k <= snd (fst b) + snd b)%nat.
(** Reads only from [ins] and the local arrays, writes only to [outs] and the local arrays, no library call. *)
Definition in_bounds (ins outs locals : list buffer) (e : obs) : Prop :=
  match e with
  | Test _ => True
  | Read o off k => Exists (within o off k) (ins ++ locals)
  | Write o off k => Exists (within o off k) (outs ++ locals)
  | Lib _ _ _ => False
  end.
(** The local arrays of one call: their names and sizes in bytes. *)
Definition local (o : object) (n : nat) : buffer := ((o, 0%nat), n).
Definition locals_sha256 : list buffer := [local Digest 32; local LastChunk 64].
Definition locals_sha512 : list buffer := [local Digest 64; local LastChunk 128].
Definition locals_160 : list buffer := [local Digest 20; local LastChunk 64].
Definition locals_hmac256 : list buffer :=
  [local DigestInner 32; local DigestOutter 32; local Buffer 64; local KeyInner 64; local KeyOutter 64] ++ locals_sha256.
Definition locals_hmac512 : list buffer :=
  [local DigestInner 64; local DigestOutter 64; local Buffer 128; local KeyInner 128; local KeyOutter 128] ++ locals_sha512.
