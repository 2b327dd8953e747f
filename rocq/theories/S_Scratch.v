(** What "clean" scratch memory means. *)
From Verif Require Import Base.

(** The byte fingera_cleanse fills memory with. *)
Definition wipe_byte : Z := 204.

(** [after] is what a piece of storage contains when it is given up, [before] what it contained when the
    library got it: every byte is either wiped or was never written. *)
Definition wiped_or_untouched (before after : list Z) : Prop :=
  Forall2 (fun b a => a = wipe_byte \/ a = b) before after.
Definition all_wiped (after : list Z) : Prop := Forall (fun a => a = wipe_byte) after.
