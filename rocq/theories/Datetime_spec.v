(** * Specification of calendar dates and of the ISO 8601 text form *)
From Coq Require Import ZArith List.
From Verif Require Import Base.
Import ListNotations.
Local Open Scope Z_scope.

(** The proleptic Gregorian calendar, one day at a time. *)
Definition leapb (y : Z) : bool :=
  ((y mod 4 =? 0) && negb (y mod 100 =? 0)) || (y mod 400 =? 0).
Definition month_length (y m : Z) : Z :=
  nth (Z.to_nat (m - 1)) [31; (if leapb y then 29 else 28); 31; 30; 31; 30; 31; 31; 30; 31; 30; 31] 0.

(** A date is (year, month, day). *)
Definition next_day (date : Z * Z * Z) : Z * Z * Z :=
  let '(y, m, d) := date in
  if d <? month_length y m then (y, m, d + 1)
  else if m <? 12 then (y, m + 1, 1)
  else (y + 1, 1, 1).

(** The date [n] days after a date. *)
Definition days_after (n : nat) (date : Z * Z * Z) : Z * Z * Z := Nat.iter n next_day date.

(** The number [v] in [width] decimal digits. *)
Fixpoint digits (width : nat) (v : N) : list N :=
  match width with
  | O => []
  | S width => (48 + (v / 10 ^ N.of_nat width) mod 10)%N :: digits width v
  end.

(** The ISO 8601 text of a date of the years 0 to 9999, of a time of day and of a fraction. *)
Definition iso_date (date : Z * Z * Z) : list N :=
  let '(y, m, d) := date in
  digits 4 (Z.to_N y) ++ [45]%N ++ digits 2 (Z.to_N m) ++ [45]%N ++ digits 2 (Z.to_N d).
Definition iso_time (second_of_day : N) : list N :=
  digits 2 (second_of_day / 3600) ++ [58]%N ++
  digits 2 (second_of_day / 60 mod 60) ++ [58]%N ++ digits 2 (second_of_day mod 60).

(** FAT: the packed date and time of the FAT file system specification. *)
Definition fat_pack_date (year month day : N) : N := ((year - 1980) * 512 + month * 32 + day)%N.
Definition fat_pack_time (hours minutes seconds : N) : N :=
  (hours * 2048 + minutes * 32 + seconds / 2)%N.
