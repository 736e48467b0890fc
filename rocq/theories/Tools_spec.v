(** * What the shared pieces of the tools should do *)
From Coq Require Import String ZArith.
From Verif Require Import Base Datetime_spec Formatters_spec Streams_model.
Open Scope N_scope.
Open Scope list_scope.

(** How a reader ends after its content: with no more data, or with an error. *)
Inductive ending := Done | Failed.
(** A reader in state [st], called again and again with a buffer of [size] bytes, gives
    [content] in pieces of any sizes and then ends. *)
Inductive gives {St} (read : St -> N -> res (list N) * St) (size : N) : St -> list N -> ending -> Prop :=
| gives_done st st' : read st size = (Ok [], st') -> gives read size st [] Done
| gives_failed st st' : read st size = (Err, st') -> gives read size st [] Failed
| gives_piece st st' piece content e : read st size = (Ok piece, st') -> piece <> [] -> len piece <= size ->
    gives read size st' content e -> gives read size st (piece ++ content) e.

(** The reader of a data stream with calls [Read] *)
Definition stream_reader {St} (step : St -> stream_op -> St * stream_out) (st : St) (size : N) : res (list N) * St :=
  match step st (Read size) with
  | (st, Data r) => (r, st)
  | (st, Position _) => (Panic, st)
  end.

(** The text of the number [v] / 10 ^ [places]: a sign if it is negative, the decimal digits of
    the whole part, a point, and [places] digits. *)
Definition decimal_fraction_text (places : nat) (v : Z) (t : list N) : Prop :=
  exists whole part text, Z.abs_N v = whole * 10 ^ N.of_nat places + part /\ part < 10 ^ N.of_nat places /\
  decimal_text whole text /\ t = (if (v <? 0)%Z then [45] else []) ++ text ++ [46] ++ digits places part.
(** The text of a whole number *)
Definition integer_text (v : Z) (t : list N) : Prop :=
  exists text, decimal_text (Z.abs_N v) text /\ t = (if (v <? 0)%Z then [45] else []) ++ text.

(** The FILETIME of 1970-01-01 00:00:00: 134774 days after 1601-01-01, in 100 ns *)
Definition filetime_of_1970 : Z := (134774 * 86400 * 10000000)%Z.

(** The letters of the powers of the base *)
Definition unit_letters : string := "KMGTPEZY".
