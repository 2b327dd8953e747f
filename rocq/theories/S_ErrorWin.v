(** Specification of the last words on Windows: the line with the code of the last error. *)
From Verif Require Import Base M_Error S_Error S_Base58.
From Coq Require Import String.
Open Scope Z_scope.
Open Scope list_scope.

(** [hex8 n text]: [text] is [n] in base 16 with exactly eight lower-case digits. *)
Definition hex8 (n : Z) (text : list Z) : Prop :=
  exists ds, List.length ds = 8%nat /\ Forall (fun d => 0 <= d < 16) ds /\ numeral_value 16 ds = n /\
    text = map (fun d => nth (Z.to_nat d) (lit "0123456789abcdef") 0) ds.

(** The line with Windows' own message and code, only if there is an error. *)
Definition code_line (message : Z -> option (list Z)) (last : Z) (text : list Z) : Prop :=
  (last = 0 /\ text = []) \/
  (last <> 0 /\ exists m x, message last = Some m /\ hex8 last x /\ text = [9] ++ m ++ lit " ErrorCode(" ++ x ++ lit ")" ++ [10]).

(** The whole output: what it is elsewhere, followed by that line. *)
Definition last_words_win (strerror : Z -> list Z) (message : Z -> option (list Z)) (errno last : Z)
    (func file : list Z) (line : Z) (msg text : list Z) : Prop :=
  exists t c, last_words strerror errno func file line msg t /\ code_line message last c /\ text = t ++ c.
