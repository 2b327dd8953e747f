(** Specification vocabulary for what is left in local arrays: [left] lists the arrays of a call, by name, with their contents
    when the call returned. *)
From Coq Require Import String.
From Verif Require Import Base.
Open Scope Z_scope.
Open Scope list_scope.

(** Every byte was overwritten by fingera_cleanse (with 0xCC). *)
Definition cleansed (content : list Z) : Prop := Forall (fun b => b = 0xCC) content.
(** All of them. *)
Definition all_cleansed (left : list (string * list Z)) : Prop := Forall (fun a => cleansed (snd a)) left.
(** How many bytes each array has. *)
Definition sizes (left : list (string * list Z)) : list (string * nat) := map (fun a => (fst a, length (snd a))) left.
(** Some array still holds [secret] somewhere. *)
Definition exposes (left : list (string * list Z)) (secret : list Z) : Prop :=
  exists name before after, In (name, before ++ secret ++ after) left.
