(** Specification helper for C108: a text with its non-ASCII bytes replaced by DEL (127), a control character that belongs to no
    alphabet and is not white space. *)
From Verif Require Import Base.

Definition ascii_image (text : list Z) : list Z := map (fun c => if 128 <=? c then 127 else c) text.
