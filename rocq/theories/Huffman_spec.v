(** * Canonical Huffman codes (RFC 1951, 3.2.2)

    Written from the RFC: code words of the same length are consecutive, in the order of
    their symbols, and shorter code words come before longer ones. *)
From Verif Require Import Base.

(** How many symbols have code length [l]. *)
Definition count_of (l : N) (lengths : list N) : N :=
  len (filter (fun x => x =? l) lengths).

(** [next_code] of step 2 in the RFC, where [bl_count[0] = 0]. *)
Fixpoint first_code (lengths : list N) (l : nat) : N :=
  match l with
  | O => 0
  | S O => 0
  | S m => 2 * (first_code lengths m + count_of (N.of_nat m) lengths)
  end.

(** The code word of symbol [s], step 3 in the RFC: its value and, from it, its bits, the
    most significant first. *)
Definition length_of (lengths : list N) (s : N) : N := nth (N.to_nat s) lengths 0.
Definition canonical_code (lengths : list N) (s : N) : N :=
  first_code lengths (N.to_nat (length_of lengths s)) +
  count_of (length_of lengths s) (firstn (N.to_nat s) lengths).
Fixpoint bits_msb (n : nat) (v : N) : list bool :=
  match n with
  | O => []
  | S m => N.testbit v (N.of_nat m) :: bits_msb m v
  end.
Definition code_word (lengths : list N) (s : N) : list bool :=
  bits_msb (N.to_nat (length_of lengths s)) (canonical_code lengths s).

(** [s] takes part in the code. *)
Definition coded (lengths : list N) (s : N) : Prop := s < len lengths /\ 0 < length_of lengths s.

(** The Kraft sum in units of [2^-largest]. *)
Definition kraft (largest : N) (lengths : list N) : N :=
  fold_right (fun l acc => (if l =? 0 then 0 else 2 ^ (largest - l)) + acc) 0 lengths.
Definition over_subscribed (largest : N) (lengths : list N) : Prop :=
  2 ^ largest < kraft largest lengths.

(** A stream of bits as a list; past its end it reads zeros. *)
Definition list_bit (l : list bool) : res (N * list bool) :=
  match l with
  | [] => Ok (0, [])
  | b :: r => Ok (N.b2n b, r)
  end.
