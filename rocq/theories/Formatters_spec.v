(** * What a hexdump and an array text show *)
From Coq Require Import String.
From Verif Require Import Base Uuid_spec.
Open Scope N_scope.
Open Scope list_scope.

(** ** Hexdumps *)
(** An offset: as many hexadecimal digits as it takes, and at least 8. *)
Definition offset_text (o : N) (t : list N) : Prop :=
  exists k, (8 <= k)%nat /\ o < 16 ^ N.of_nat k /\ (k = 8%nat \/ 16 ^ N.of_nat (k - 1) <= o) /\ t = digits false k o.
(** The bytes of a row, each two digits and a space, with one more space after the eighth. *)
Definition cell (b : N) : list N := byte_text b ++ text " ".
Definition cells (bytes : list N) : list N := flat_map cell (firstn 8 bytes) ++ text " " ++ flat_map cell (skipn 8 bytes).
(** Text followed by spaces, up to a width. *)
Definition padded (width : nat) (t : list N) : list N := t ++ repeat 32 (width - length t).
Definition printable (b : N) : N := if (32 <=? b) && (b <=? 126) then b else 46.
(** The rows of a dump: up to 16 bytes at an offset, or the sign for repeated rows. *)
Inductive item := Row (o : N) (bytes : list N) | Repeated.
Inductive row_text : item -> list N -> Prop :=
| row_text_row o bytes t : offset_text o t ->
    row_text (Row o bytes) (t ++ text "  " ++ padded 50 (cells bytes) ++ map printable bytes ++ [10])
| row_text_repeated : row_text Repeated (text "..." ++ [10]).
Definition rows_text (items : list item) (t : list N) : Prop := exists ts, Forall2 row_text items ts /\ t = concat ts.
(** What a sequence of rows says about the data from an offset on, after the row [prev]: the
    rows have all the bytes in order, and a sign stands for copies of the row before it up to
    the offset of the row after it. *)
Inductive dump : option (list N) -> N -> list item -> list N -> Prop :=
| dump_end prev o : dump prev o [] []
| dump_row prev o bytes items data : len bytes = 16 -> dump (Some bytes) (o + 16) items data -> dump prev o (Row o bytes :: items) (bytes ++ data)
| dump_last prev o bytes : 0 < len bytes < 16 -> dump prev o [Row o bytes] bytes
| dump_repeated prev o n bytes items data : (0 < n)%nat -> dump (Some prev) (o + 16 * N.of_nat n) (Row (o + 16 * N.of_nat n) bytes :: items) data ->
    dump (Some prev) o (Repeated :: Row (o + 16 * N.of_nat n) bytes :: items) (concat (repeat prev n) ++ data).

(** ** Arrays: the elements in rows of 16, each row joined by ", " *)
Fixpoint join (separator : list N) (l : list (list N)) : list N :=
  match l with [] => [] | [x] => x | x :: l => x ++ separator ++ join separator l end.
Definition rows_of_16 (rows : list (list (list N))) : Prop := Forall (fun r => length r = 16%nat) rows.
(** A number in decimal digits, the most significant first and not zero but for 0 itself. *)
Definition decimal_text (v : N) (t : list N) : Prop :=
  Forall (fun c => 48 <= c <= 57) t /\ fold_left (fun a c => a * 10 + (c - 48)) t 0 = v /\ (exists c t', t = c :: t' /\ (c = 48 -> t' = [])).
