(** * What Adler-32 and CRC-32 are, independent of the code *)
From Verif Require Import Base.

(** RFC 1950 section 8.2: [s1] and [s2] are updated per byte modulo 65521; the
    checksum is [s2 * 65536 + s1]. *)
Definition adler_byte (s : N * N) (b : N) : N * N :=
  let s1 := (fst s + b) mod 65521 in
  (s1, (snd s + s1) mod 65521).

Definition adler32 (initial : N) (data : list N) : N :=
  let '(s1, s2) := fold_left adler_byte data (initial mod 65536, initial / 65536) in
  s2 * 65536 + s1.

(** Closed form of RFC 1950 section 9: [s1] is 1 plus the sum of the bytes, [s2]
    the sum of all intermediate [s1]. *)
Definition sumN (l : list N) : N := fold_right N.add 0 l.
Fixpoint prefix_sums (a : N) (l : list N) : list N :=
  match l with
  | [] => []
  | b :: t => (a + b) :: prefix_sums (a + b) t
  end.
Definition adler32_closed (data : list N) : N :=
  (sumN (prefix_sums 1 data) mod 65521) * 65536 + (1 + sumN data) mod 65521.

(** CRC: a 32-bit shift register fed one message bit at a time. Bits of a byte
    go in most significant first (forward) or least significant first
    (reflected). *)
Definition bits_msb (b : N) : list bool :=
  map (N.testbit b) [7; 6; 5; 4; 3; 2; 1; 0].
Definition bits_lsb (b : N) : list bool :=
  map (N.testbit b) [0; 1; 2; 3; 4; 5; 6; 7].

Definition register_msb (polynomial r : N) (bit : bool) : N :=
  N.lxor ((2 * r) mod 4294967296)
         (if xorb (N.testbit r 31) bit then polynomial else 0).
Definition register_lsb (polynomial r : N) (bit : bool) : N :=
  N.lxor (r / 2)
         (if xorb (N.testbit r 0) bit then polynomial else 0).

Definition complement32 (x : N) : N := N.lxor x 0xffffffff.

Definition crc32_forward (polynomial initial : N) (data : list N) : N :=
  complement32 (fold_left (register_msb polynomial)
                          (concat (map bits_msb data)) (complement32 initial)).
Definition crc32_reflected (polynomial initial : N) (data : list N) : N :=
  complement32 (fold_left (register_lsb polynomial)
                          (concat (map bits_lsb data)) (complement32 initial)).
