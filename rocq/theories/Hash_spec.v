(** * RFC 1321 (MD5) and FIPS 180-4 (SHA-1, SHA-2), written from the standards *)
From Verif Require Import Base.

(** ** Padding and iteration *)

(** Append a one bit, the least number of zero bytes, and the length field of
    [field] bytes so that the total is a multiple of the block size. *)
Definition zero_bytes (bs field n : N) : N := (bs - (n + 1 + field) mod bs) mod bs.
Definition pad (bs field : N) (length_field : N -> list N) (m : list N) : list N :=
  m ++ [0x80] ++ repeat 0 (N.to_nat (zero_bytes bs field (len m))) ++ length_field (8 * len m).

Fixpoint chunks (bs : nat) (n : nat) (l : list N) : list (list N) :=
  match n with
  | O => []
  | S n' => firstn bs l :: chunks bs n' (skipn bs l)
  end.
Definition blocks_of (bs : N) (l : list N) : list (list N) :=
  chunks (N.to_nat bs) (N.to_nat (len l / bs)) l.

(** ** Words *)
Definition ROTL (w n x : N) : N := N.lor ((x * 2 ^ n) mod 2 ^ w) (x / 2 ^ (w - n)).
Definition ROTR (w n x : N) : N := N.lor (x / 2 ^ n) ((x * 2 ^ (w - n)) mod 2 ^ w).
Definition SHR (n x : N) : N := x / 2 ^ n.
Definition NOT (w x : N) : N := N.lnot x w.
Definition sum_mod (w : N) (l : list N) : N := fold_right N.add 0 l mod 2 ^ w.
Definition Ch w x y z := N.lxor (N.land x y) (N.land (NOT w x) z).
Definition Maj x y z := N.lxor (N.lxor (N.land x y) (N.land x z)) (N.land y z).
Definition Parity x y z := N.lxor (N.lxor x y) z.

Definition words_be (n : nat) (block : list N) : list N :=
  map (fun i => be_value (firstn n (skipn (n * i) block))) (seq 0 16).
Definition words_le (n : nat) (block : list N) : list N :=
  map (fun i => le_value (firstn n (skipn (n * i) block))) (seq 0 16).

(** ** MD5, RFC 1321 section 3.4 *)

(** [T i]: the integer part of 4294967296 times abs(sin(i)), i in radians; sin is
    evaluated by its power series in fixed point with 256 fractional bits. *)
Fixpoint sin_terms (n : nat) (k : Z) (x2 term acc : Z) : Z :=
  match n with
  | O => acc
  | S n' =>
      let acc := (acc + term)%Z in
      let term := (- (term * x2) / ((2 * k + 2) * (2 * k + 3)))%Z in
      sin_terms n' (k + 1) x2 term acc
  end.
Definition sin_fixed (x : Z) : Z := sin_terms 110 0 (x * x) (x * 2 ^ 160) 0.
Definition md5_T (i : nat) : N := Z.to_N (Z.abs (sin_fixed (Z.of_nat i)) / 2 ^ 128).

Definition md5_s (i : nat) : N :=
  nth (i mod 4) (nth (i / 16) [[7; 12; 17; 22]; [5; 9; 14; 20]; [4; 11; 16; 23]; [6; 10; 15; 21]] []) 0.
Definition md5_k (i : nat) : nat :=
  match (i / 16)%nat with
  | 0%nat => i mod 16
  | 1%nat => (5 * i + 1) mod 16
  | 2%nat => (3 * i + 5) mod 16
  | _ => (7 * i) mod 16
  end%nat.
Definition md5_fun (i : nat) (x y z : N) : N :=
  match (i / 16)%nat with
  | 0%nat => N.lor (N.land x y) (N.land (NOT 32 x) z)
  | 1%nat => N.lor (N.land x z) (N.land y (NOT 32 z))
  | 2%nat => N.lxor (N.lxor x y) z
  | _ => N.lxor y (N.lor x (NOT 32 z))
  end.
(** a = b + ((a + f(b,c,d) + X[k] + T[i]) <<< s), then the registers rotate *)
Definition md5_op (X : list N) (st : N * N * N * N) (i : nat) : N * N * N * N :=
  let '(a, b, c, d) := st in
  let a' := sum_mod 32 [b; ROTL 32 (md5_s i)
              (sum_mod 32 [a; md5_fun i b c d; nth (md5_k i) X 0; md5_T (i + 1)])] in
  (d, a', b, c).
Definition md5_compress (h : N * N * N * N) (block : list N) : N * N * N * N :=
  let '(A, B, C, D) := h in
  let '(a, b, c, d) := fold_left (md5_op (words_le 4 block)) (seq 0 64) h in
  (sum_mod 32 [A; a], sum_mod 32 [B; b], sum_mod 32 [C; c], sum_mod 32 [D; d]).
Definition MD5 (m : list N) : list N :=
  let '(a, b, c, d) := fold_left md5_compress (blocks_of 64 (pad 64 8 (le_bytes 8) m))
     (0x67452301, 0xefcdab89, 0x98badcfe, 0x10325476) in
  le_bytes 4 a ++ le_bytes 4 b ++ le_bytes 4 c ++ le_bytes 4 d.

(** ** SHA-1, FIPS 180-4 section 6.1 *)

(** Message schedule, latest word first. *)
Fixpoint sha1_W (n : nat) (M : list N) : list N :=
  match n with
  | O => rev M
  | S n' =>
      let W := sha1_W n' M in
      ROTL 32 1 (N.lxor (N.lxor (N.lxor (nth 2 W 0) (nth 7 W 0)) (nth 13 W 0)) (nth 15 W 0)) :: W
  end.
Definition sha1_f (t : nat) (x y z : N) : N :=
  match (t / 20)%nat with
  | 0%nat => Ch 32 x y z
  | 2%nat => Maj x y z
  | _ => Parity x y z
  end.
Definition sha1_K (t : nat) : N :=
  nth (t / 20) [0x5a827999; 0x6ed9eba1; 0x8f1bbcdc; 0xca62c1d6] 0.
Definition sha1_op (W : list N) (st : N * N * N * N * N) (t : nat) : N * N * N * N * N :=
  let '(a, b, c, d, e) := st in
  let T := sum_mod 32 [ROTL 32 5 a; sha1_f t b c d; e; sha1_K t; nth t W 0] in
  (T, a, ROTL 32 30 b, c, d).
Definition sha1_compress (h : N * N * N * N * N) (block : list N) : N * N * N * N * N :=
  let '(A, B, C, D, E) := h in
  let '(a, b, c, d, e) := fold_left (sha1_op (rev (sha1_W 64 (words_be 4 block)))) (seq 0 80) h in
  (sum_mod 32 [A; a], sum_mod 32 [B; b], sum_mod 32 [C; c], sum_mod 32 [D; d], sum_mod 32 [E; e]).
Definition SHA1 (m : list N) : list N :=
  let '(a, b, c, d, e) := fold_left sha1_compress (blocks_of 64 (pad 64 8 (be_bytes 8) m))
     (0x67452301, 0xefcdab89, 0x98badcfe, 0x10325476, 0xc3d2e1f0) in
  be_bytes 4 a ++ be_bytes 4 b ++ be_bytes 4 c ++ be_bytes 4 d ++ be_bytes 4 e.

(** ** SHA-2, FIPS 180-4 sections 4 to 6 *)

(** The constants are fractional bits of square and cube roots of primes. *)
Definition is_prime (n : N) : bool :=
  (1 <? n) && forallb (fun d => negb (n mod d =? 0)) (seqN 2 (N.to_nat (n - 2))).
Definition primes_below (n : N) : list N := filter is_prime (seqN 0 (N.to_nat n)).

(** Integer cube root by bisection: the invariant is lo^3 <= x < hi^3. *)
Fixpoint cbrt_bisect (fuel : nat) (lo hi x : N) : N :=
  match fuel with
  | O => lo
  | S f =>
      let mid := (lo + hi) / 2 in
      if mid * mid * mid <=? x then cbrt_bisect f mid hi x else cbrt_bisect f lo mid x
  end.
Definition cbrt (x : N) : N := cbrt_bisect 300 0 (x + 1) x.

(** first [w] bits of the fractional part of the root of [p] *)
Definition sqrt_frac (w p : N) : N := N.sqrt (p * 2 ^ (2 * w)) mod 2 ^ w.
Definition cbrt_frac (w p : N) : N := cbrt (p * 2 ^ (3 * w)) mod 2 ^ w.

Record sha2_functions := {
  f_w : N;
  f_Sigma0 : N -> N; f_Sigma1 : N -> N; f_sigma0 : N -> N; f_sigma1 : N -> N;
  f_rounds : nat;
  f_K : list N
}.
Definition xor3 (a b c : N) : N := N.lxor (N.lxor a b) c.
(** FIPS 180-4 section 4.1.2 and 4.2.2: SHA-224 and SHA-256 *)
Definition sha256_functions : sha2_functions :=
  {| f_w := 32;
     f_Sigma0 := fun x => xor3 (ROTR 32 2 x) (ROTR 32 13 x) (ROTR 32 22 x);
     f_Sigma1 := fun x => xor3 (ROTR 32 6 x) (ROTR 32 11 x) (ROTR 32 25 x);
     f_sigma0 := fun x => xor3 (ROTR 32 7 x) (ROTR 32 18 x) (SHR 3 x);
     f_sigma1 := fun x => xor3 (ROTR 32 17 x) (ROTR 32 19 x) (SHR 10 x);
     f_rounds := 64;
     f_K := map (cbrt_frac 32) (primes_below 312) |}.
(** FIPS 180-4 section 4.1.3 and 4.2.3: SHA-512 *)
Definition sha512_functions : sha2_functions :=
  {| f_w := 64;
     f_Sigma0 := fun x => xor3 (ROTR 64 28 x) (ROTR 64 34 x) (ROTR 64 39 x);
     f_Sigma1 := fun x => xor3 (ROTR 64 14 x) (ROTR 64 18 x) (ROTR 64 41 x);
     f_sigma0 := fun x => xor3 (ROTR 64 1 x) (ROTR 64 8 x) (SHR 7 x);
     f_sigma1 := fun x => xor3 (ROTR 64 19 x) (ROTR 64 61 x) (SHR 6 x);
     f_rounds := 80;
     f_K := map (cbrt_frac 64) (primes_below 410) |}.

Definition st8 : Type := N * N * N * N * N * N * N * N.
Fixpoint sha2_W (F : sha2_functions) (n : nat) (M : list N) : list N :=
  match n with
  | O => rev M
  | S n' =>
      let W := sha2_W F n' M in
      sum_mod (f_w F) [f_sigma1 F (nth 1 W 0); nth 6 W 0; f_sigma0 F (nth 14 W 0); nth 15 W 0] :: W
  end.
Definition sha2_op (F : sha2_functions) (W : list N) (st : st8) (t : nat) : st8 :=
  let '(a, b, c, d, e, f, g, h) := st in
  let w := f_w F in
  let T1 := sum_mod w [h; f_Sigma1 F e; Ch w e f g; nth t (f_K F) 0; nth t W 0] in
  let T2 := sum_mod w [f_Sigma0 F a; Maj a b c] in
  (sum_mod w [T1; T2], a, b, c, sum_mod w [d; T1], e, f, g).
Definition sha2_compress (F : sha2_functions) (H : st8) (block : list N) : st8 :=
  let w := f_w F in
  let '(A, B, C, D, E, F', G, H') := H in
  let W := rev (sha2_W F (f_rounds F - 16) (words_be (N.to_nat (w / 8)) block)) in
  let '(a, b, c, d, e, f, g, h) := fold_left (sha2_op F W) (seq 0 (f_rounds F)) H in
  (sum_mod w [A; a], sum_mod w [B; b], sum_mod w [C; c], sum_mod w [D; d],
   sum_mod w [E; e], sum_mod w [F'; f], sum_mod w [G; g], sum_mod w [H'; h]).

Definition tuple8 (l : list N) : st8 :=
  match l with
  | [a; b; c; d; e; f; g; h] => (a, b, c, d, e, f, g, h)
  | _ => (0, 0, 0, 0, 0, 0, 0, 0)
  end.
Definition list8 (s : st8) : list N :=
  let '(a, b, c, d, e, f, g, h) := s in [a; b; c; d; e; f; g; h].

Definition sha256_H0 : list N := map (sqrt_frac 32) (primes_below 20).
Definition sha512_H0 : list N := map (sqrt_frac 64) (primes_below 20).
(** the second 32 bits of the fractional parts of the square roots of the ninth
    to sixteenth primes *)
Definition sha224_H0 : list N :=
  map (fun p => sqrt_frac 64 p mod 2 ^ 32) (skipn 8 (primes_below 54)).

Definition SHA256 (m : list N) : list N :=
  concat (map (be_bytes 4) (list8
    (fold_left (sha2_compress sha256_functions) (blocks_of 64 (pad 64 8 (be_bytes 8) m))
       (tuple8 sha256_H0)))).
Definition SHA224 (m : list N) : list N :=
  concat (map (be_bytes 4) (firstn 7 (list8
    (fold_left (sha2_compress sha256_functions) (blocks_of 64 (pad 64 8 (be_bytes 8) m))
       (tuple8 sha224_H0))))).
(** the length field has 128 bits *)
Definition SHA512 (m : list N) : list N :=
  concat (map (be_bytes 8) (list8
    (fold_left (sha2_compress sha512_functions) (blocks_of 128 (pad 128 16 (be_bytes 16) m))
       (tuple8 sha512_H0)))).
