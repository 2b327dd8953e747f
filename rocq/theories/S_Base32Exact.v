(** What the Base32 decoders give for every text, valid or not. *)
From Verif Require Import Base S_Bits S_Rfc4648.

(** An invalid character of the last, incomplete group counts as 255. *)
Definition wide (val : Z -> option Z) (c : Z) : Z := match val c with Some v => v | None => 255 end.

(** Byte [j] of the group: the values of the characters whose five bits overlap its eight bits, each moved to its place and or-ed. *)
Definition overlap (ws : list Z) (j : nat) : Z :=
  fold_right (fun i acc => if ((5 * i <? 8 * j + 8) && (8 * j <? 5 * i + 5))%nat then Z.lor (Z.shiftl (nth i ws 0) (8 * Z.of_nat j + 3 - 5 * Z.of_nat i)) acc else acc)
    0 (seq 0 (length ws)) mod 256.

(** How many bytes an incomplete group of [n] characters gives, and how many of its characters are looked at. *)
Definition tail_gives (n : nat) : nat := nth n [0; 0; 1; 0; 2; 3; 0; 4]%nat 0%nat.
Definition tail_uses (n : nat) : nat := nth n [0; 0; 2; 0; 4; 5; 0; 7]%nat 0%nat.

(** The meaning of a text: [None], undefined, when a character of 128 or more is looked up. Whole groups of eight are decoded while all
    their characters are valid; the first group with an invalid one ends the text. *)
Fixpoint b32_meaning (val : Z -> option Z) (text : list Z) : option (list Z) :=
  match text with
  | a :: b :: c :: d :: e :: f :: g :: h :: rest =>
      let group := [a; b; c; d; e; f; g; h] in
      if existsb (fun x => 128 <=? x) group then None
      else match all_values val group with
           | None => Some []
           | Some vs => option_map (app (regroup_bytes 5 vs)) (b32_meaning val rest)
           end
  | tail =>
      if existsb (fun x => 128 <=? x) (firstn (tail_uses (length tail)) tail) then None
      else Some (map (overlap (map (wide val) tail)) (seq 0 (tail_gives (length tail))))
  end.
