(** Vocabulary for C119: client programs that encode or decode a long input piece by piece. *)
From Verif Require Import Base.

(** All pieces but the last are made of whole groups of [k]. *)
Definition whole (k : nat) (pieces : list (list Z)) : Prop := Forall (fun p => (length p mod k = 0)%nat) (removelast pieces).

(** Decode each piece (NUL-terminated, as C strings are) with [dec] and join the results; stop after the first piece for which
    [dec] returns less than [full] of its length. *)
Fixpoint decode_pieces (dec : list Z -> nat -> res (nat * list Z)) (full : nat -> nat) (pieces : list (list Z)) : res (list Z) :=
  match pieces with
  | [] => Ok []
  | p :: ps =>
      '(n, out) <- dec (p ++ [0]) (length p) ;;
      if (n <? full (length p))%nat then Ok out
      else more <- decode_pieces dec full ps ;; Ok (out ++ more)
  end.

(** Decode everything at once. *)
Definition decode_once (dec : list Z -> nat -> res (nat * list Z)) (text : list Z) : res (list Z) :=
  '(_, out) <- dec (text ++ [0]) (length text) ;; Ok out.

(** A reader that calls a decoder of numbers on the remaining bytes and advances by the returned size. *)
Fixpoint read_numbers (dec : list Z -> nat -> res (nat * Z)) (fuel : nat) (buf : list Z) : option (list Z) :=
  match fuel, buf with
  | _, [] => Some []
  | O, _ => None
  | S f, _ =>
      match dec buf (length buf) with
      | Ok (S n, v) => option_map (cons v) (read_numbers dec f (skipn (S n) buf))
      | _ => None
      end
  end.
