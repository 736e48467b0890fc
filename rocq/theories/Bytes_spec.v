(** * Integers in memory *)
From Verif Require Import Base.

(** Byte [i] (counted from the least significant) of [v]. *)
Definition byte_of (v i : N) : N := (v / 256 ^ i) mod 256.

(** The [n] bytes of [a] from offset [e] hold [v], least significant byte first. *)
Definition holds_le (a : list N) (e n v : N) : Prop :=
  v < 256 ^ n /\ forall i, i < n -> nth_error a (N.to_nat (e + i)) = Some (byte_of v i).
(** Most significant byte first. *)
Definition holds_be (a : list N) (e n v : N) : Prop :=
  v < 256 ^ n /\ forall i, i < n -> nth_error a (N.to_nat (e + i)) = Some (byte_of v (n - 1 - i)).

(** [v] is the two's complement of [z] in [n] bytes. *)
Definition twos_complement (n v : N) (z : Z) : Prop :=
  (- 2 ^ (8 * Z.of_N n - 1) <= z < 2 ^ (8 * Z.of_N n - 1))%Z /\
  Z.of_N v = (z mod 2 ^ (8 * Z.of_N n))%Z.
