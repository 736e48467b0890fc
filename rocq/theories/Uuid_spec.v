(** * The text form of a UUID (RFC 9562 section 4) *)
From Coq Require Import String Ascii.
From Verif Require Import Base Uuid_model.
Open Scope list_scope.

(** A string literal as its bytes. *)
Fixpoint text (s : string) : list N :=
  match s with
  | EmptyString => []
  | String c rest => N_of_ascii c :: text rest
  end.

Definition digit_chars : list N := text "0123456789abcdef".
Definition upper_chars : list N := text "0123456789ABCDEF".

(** The hexadecimal digit [d], lower or upper case. *)
Definition digit_char (upper : bool) (d : N) : N :=
  nth (N.to_nat d) (if upper then upper_chars else digit_chars) 0.

(** The [n] hexadecimal digits of [v], most significant first. *)
Fixpoint digits (upper : bool) (n : nat) (v : N) : list N :=
  match n with
  | O => []
  | S m => digit_char upper (v / 16 ^ N.of_nat m mod 16) :: digits upper m v
  end.

Definition dash : list N := text "-".
(** The canonical 8-4-4-4-12 form. *)
Definition uuid_text (upper : bool) (p1 p2 p3 p4 p5 : N) : list N :=
  digits upper 8 p1 ++ dash ++ digits upper 4 p2 ++ dash ++ digits upper 4 p3 ++ dash ++
  digits upper 4 p4 ++ dash ++ digits upper 12 p5.
Definition braced (s : list N) : list N := text "{" ++ s ++ text "}".

(** A byte as two digits. *)
Definition byte_text (b : N) : list N := digits false 2 b.
Definition bytes_text (l : list N) : list N := flat_map byte_text l.

(** [c] is a hexadecimal digit of value [d], in either case. *)
Definition is_digit_of (c d : N) : Prop := d < 16 /\ (c = digit_char false d \/ c = digit_char true d).
(** [s] spells [v] in hexadecimal, cases mixed freely. *)
Inductive spells : list N -> N -> Prop :=
| spells_nil : spells [] 0
| spells_snoc s v c d : spells s v -> is_digit_of c d -> spells (s ++ [c]) (16 * v + d).

(** Restrictions on strings used by the partial theorems. *)
Definition ascii_only (s : list N) : Prop := Forall (fun c => c < 128) s.
Definition no_plus (s : list N) : Prop := Forall (fun c => c <> 0x2b) s.

(** The widths of the fields: 32, 16, 16, 16 and 48 bits. *)
Definition uuid_ok (u : uuid) : Prop :=
  part1 u < 2 ^ 32 /\ part2 u < 2 ^ 16 /\ part3 u < 2 ^ 16 /\ part4 u < 2 ^ 16 /\ part5 u < 2 ^ 48.

(** Bytes [a] up to [b] of [s]. *)
Definition part_of (s : list N) (a b : N) : list N := firstn (N.to_nat (b - a)) (skipn (N.to_nat a) s).

(** Five groups separated by dashes. *)
Definition form (g1 g2 g3 g4 g5 : list N) : list N := g1 ++ dash ++ g2 ++ dash ++ g3 ++ dash ++ g4 ++ dash ++ g5.

(** [s] is an 8-4-4-4-12 text of [u], in any mix of cases. *)
Definition uuid_form (s : list N) (u : uuid) : Prop :=
  exists g1 g2 g3 g4 g5, s = form g1 g2 g3 g4 g5 /\
    len g1 = 8 /\ len g2 = 4 /\ len g3 = 4 /\ len g4 = 4 /\ len g5 = 12 /\
    spells g1 (part1 u) /\ spells g2 (part2 u) /\ spells g3 (part3 u) /\ spells g4 (part4 u) /\ spells g5 (part5 u).
