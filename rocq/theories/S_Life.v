(** Vocabulary: the state between a successful init and uninit. *)
From Verif Require Import Base M_Random M_Secp M_Key S_Sign.

(** Both contexts exist and have the capability they are used for. *)
Definition ready (g : globals) : Prop :=
  exists cs cv, g_sign g = Some cs /\ g_verify g = Some cv /\ can_sign cs = true /\ can_verify cv = true.

(** A heap of contexts: nothing allocated yet has a fresh id; no id twice. *)
Definition heap_ok (h : ctx_heap) : Prop := NoDup (live h) /\ Forall (fun i => (i < fresh h)%nat) (live h).
(** Uninitialised, with [others] the contexts of the rest of the program. *)
Definition off (others : list nat) (st : globals * ctx_heap) : Prop :=
  g_sign (fst st) = None /\ g_verify (fst st) = None /\ live (snd st) = others /\ heap_ok (snd st).
(** Initialised: two live contexts of its own. *)
Definition on (others : list nat) (st : globals * ctx_heap) : Prop :=
  ready (fst st) /\ heap_ok (snd st) /\
  exists cs cv, g_sign (fst st) = Some cs /\ g_verify (fst st) = Some cv /\ live (snd st) = [ctx_id cs; ctx_id cv] ++ others.

(** Histories: a list of calls, executed one after the other. *)
Fixpoint run (ops : list life_op) (st : globals * ctx_heap) : res (outcome (globals * ctx_heap)) :=
  match ops with
  | [] => Ok (Returned st)
  | OpInit o :: ops =>
      r <- key_init 32 o st ;;
      match r with Returned st => run ops st | Fatal => Ok Fatal | Running => Ok Running end
  | OpUninit :: ops => st <- key_uninit st ;; run ops st
  end.

