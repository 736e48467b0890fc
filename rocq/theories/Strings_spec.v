(** * What the string types are expected to do *)
From Coq Require Import String.
From Verif Require Import Base Uuid_spec.
Open Scope list_scope.

(** [l] consists of the 16-bit values stored in [bytes], in the given byte order. *)
Inductive u16s (big : bool) : list N -> list N -> Prop :=
| u16s_nil : u16s big [] []
| u16s_cons a b bytes l : u16s big bytes l ->
    u16s big (a :: b :: bytes) ((if big then 256 * a + b else a + 256 * b) :: l).

(** [p] is the part of [l] before the first zero. *)
Definition before_nul (l p : list N) : Prop :=
  Forall (fun x => x <> 0) p /\ (l = p \/ exists rest, l = p ++ 0 :: rest).

(** Lexicographic order. *)
Inductive lex_lt : list N -> list N -> Prop :=
| lex_nil b l : lex_lt [] (b :: l)
| lex_head a b l m : a < b -> lex_lt (a :: l) (b :: m)
| lex_tail a l m : lex_lt l m -> lex_lt (a :: l) (a :: m).

Definition scalar (c : N) : Prop := c < 0xd800 \/ 0xe000 <= c < 0x110000.

(** UTF-16 (Unicode standard 3.9, D91). *)
Definition utf16_char (c : N) : list N :=
  if c <? 0x10000 then [c]
  else [0xd800 + (c - 0x10000) / 0x400; 0xdc00 + (c - 0x10000) mod 0x400].
Definition utf16 (s : list N) : list N := flat_map utf16_char s.

(** Reads the printable form back: [\\] is a backslash, [\{hhhh}] the element hhhh. *)
Definition digit_value (c : N) : N :=
  if c <? 0x40 then c - 0x30 else if c <? 0x60 then c - 0x41 + 10 else c - 0x61 + 10.
Fixpoint unescape (s : list N) : list N :=
  match s with
  | 0x5c :: 0x5c :: rest => 0x5c :: unescape rest
  | 0x5c :: 0x7b :: a :: b :: c :: d :: 0x7d :: rest =>
      (((digit_value a * 16 + digit_value b) * 16 + digit_value c) * 16 + digit_value d) :: unescape rest
  | c :: rest => c :: unescape rest
  | [] => []
  end.
