(** Specification of the library's last words: decimal numbers, printf formats, the text of a fatal error. *)
From Verif Require Import Base M_Error S_Base58.
From Coq Require Import String.
Open Scope Z_scope.
Open Scope list_scope.

(** [decimal n text]: [text] is [n] written in decimal: "0", or digits without a leading
    zero, with a minus sign for a negative number. *)
Inductive decimal : Z -> list Z -> Prop :=
| decimal_zero : decimal 0 [48]
| decimal_pos n ds : 0 < n -> is_numeral 10 n ds -> decimal n (map (fun d => 48 + d) ds)
| decimal_neg n ds : n < 0 -> is_numeral 10 (- n) ds -> decimal n (45 :: map (fun d => 48 + d) ds).

(** [renders fmt args text]: printing [args] according to [fmt] gives [text]. *)
Inductive renders : list Z -> list c_arg -> list Z -> Prop :=
| renders_end args : renders [] args []
| renders_char c fmt args t : c <> 37 -> renders fmt args t -> renders (c :: fmt) args (c :: t)
| renders_percent fmt args t : renders fmt args t -> renders (lit "%%" ++ fmt) args (lit "%" ++ t)
| renders_d n d fmt args t : decimal n d -> renders fmt args t -> renders (lit "%d" ++ fmt) (AInt n :: args) (d ++ t)
| renders_s s fmt args t : renders fmt args t -> renders (lit "%s" ++ fmt) (AStr s :: args) (s ++ t)
| renders_ld n d fmt args t : decimal n d -> renders fmt args t -> renders (lit "%ld" ++ fmt) (ALong n :: args) (d ++ t)
| renders_lu n d fmt args t : decimal n d -> renders fmt args t -> renders (lit "%lu" ++ fmt) (AULong n :: args) (d ++ t).

(** The numbers a C program can pass. *)
Definition arg_ok (a : c_arg) : Prop :=
  match a with
  | AInt n => - 2 ^ 31 <= n < 2 ^ 31 | AUInt n => 0 <= n < 2 ^ 32
  | ALong n => - 2 ^ 63 <= n < 2 ^ 63 | AULong n => 0 <= n < 2 ^ 64 | AStr _ => True
  end.

(** The reason of the system, a second line, only if there is one. *)
Definition reason_line (strerror : Z -> list Z) (errno : Z) (text : list Z) : Prop :=
  (errno = 0 /\ text = []) \/
  (errno <> 0 /\ exists d, decimal errno d /\ text = [9] ++ strerror errno ++ lit "(" ++ d ++ lit ")" ++ [10]).

(** [last_words strerror errno func file line msg text]: the whole output. *)
Definition last_words (strerror : Z -> list Z) (errno : Z) (func file : list Z) (line : Z) (msg text : list Z) : Prop :=
  exists d r, decimal line d /\ reason_line strerror errno r /\
    text = lit "FATAL " ++ msg ++ lit " (" ++ func ++ lit ")(" ++ file ++ lit ":" ++ d ++ lit ")" ++ [10] ++ r.

(** [s_delivers o i n ds]: from call [i] on the reads for [n] bytes deliver [ds] and then nothing is missing.
    [s_stops o i n e r]: before that, a read returns [r <= 0]; [e] is the errno it sets, if it sets one. *)
Inductive s_delivers (o : sys) : nat -> nat -> list (list Z) -> Prop :=
| s_done i : s_delivers o i 0 []
| s_more i n data ds : (0 < n)%nat -> s_read o i n = RData data ->
    s_delivers o (S i) (n - List.length data) ds -> s_delivers o i n (data :: ds).
Inductive s_stops (o : sys) : nat -> nat -> option Z -> Z -> Prop :=
| s_eof i n : (0 < n)%nat -> s_read o i n = REof -> s_stops o i n None 0
| s_err i n e : (0 < n)%nat -> s_read o i n = RErr e -> s_stops o i n (Some e) (-1)
| s_later i n data e r : (0 < n)%nat -> s_read o i n = RData data ->
    s_stops o (S i) (n - List.length data) e r -> s_stops o i n e r.

(** POSIX: a read delivers at least one byte, no more than asked for and than an int counts (Linux), errno values
    are positive ints. *)
Definition sys_contract (o : sys) : Prop :=
  (forall i n data, s_read o i n = RData data -> (1 <= List.length data <= n)%nat /\ Z.of_nat (List.length data) <= INT_MAX) /\
  (forall i n e, s_read o i n = RErr e -> 0 < e <= INT_MAX) /\
  (forall e, s_open o = Some e -> 0 < e <= INT_MAX).
