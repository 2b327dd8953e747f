(** Specification vocabulary for signing, key generation and the life cycle. *)
From Verif Require Import Base S_Words M_Random S_Random M_Secp S_Secp.

(** The [c]-th signature tried: RFC 6979, for c > 0 with c as additional entropy
    (32 bytes, the counter in the first four, little-endian). *)
Definition attempt (E : secp) (key hash : list Z) (c : nat) : option (Z * Z) :=
  ecdsa E key hash (if (c =? 0)%nat then None else Some (le_bytes 4 (Z.of_nat c) ++ repeat 0 28)).
Definition low_r (sig : option (Z * Z)) : Prop := exists r s, sig = Some (r, s) /\ r < 2 ^ 255.

(** A generator that delivers 32 bytes at once: [d]. *)
Definition delivers (o : os) (d : list Z) : Prop :=
  os_open o = true /\ length d = 32%nat /\ os_read o 0 32 = Some d.

(** Calls of init (with the operating system of that moment) and uninit, and
    what is legal: [legal on ops] is the status at the end, [None] if a call comes in the wrong state. *)
Inductive life_op := OpInit (o : os) | OpUninit.
Fixpoint legal (on : bool) (ops : list life_op) : option bool :=
  match ops with
  | [] => Some on
  | OpInit _ :: ops => if on then None else legal true ops
  | OpUninit :: ops => if on then legal false ops else None
  end.
(** The operating system of every init opens the device and lets every read succeed. *)
Definition healthy (o : os) : Prop := read_contract o /\ os_open o = true /\ exists ds, reads o 0 32 ds.
