(** What a release build owes: whenever the call returns in a debug build, it returns the same in a release build. *)
From Verif Require Import Base.

Definition same_as_debug {A} (release debug : res A) : Prop := forall r, debug = Ok r -> release = Ok r.
