(** * Model of keramics-datetime: FILETIME, POSIX and FAT timestamps *)
From Verif Require Import Base Bytes_model.
From Coq Require Import ZArith.
Local Open Scope N_scope.

(** ** Machine integers used by the date code: i16 years, u8 months, i64 days *)
Definition i16_chk (z : Z) : res Z :=
  if ((-32768 <=? z) && (z <=? 32767))%Z then Ok z else Panic.
Definition i64_chk (z : Z) : res Z :=
  if ((-9223372036854775808 <=? z) && (z <=? 9223372036854775807))%Z then Ok z else Panic.
Definition u8_chk (z : Z) : res Z :=
  if ((0 <=? z) && (z <=? 255))%Z then Ok z else Panic.
(** [z as u8] *)
Definition as_u8 (z : Z) : Z := (z mod 256)%Z.
(** [z as usize] of a 64-bit target *)
Definition as_usize (z : Z) : Z := (z mod 18446744073709551616)%Z.

Local Open Scope Z_scope.

(** keramics-datetime/src/util.rs 16-20.  Rust's [%] takes the sign of the dividend,
    which does not matter for comparing the remainder with zero. *)
Definition is_leap_year (year : Z) : bool :=
  ((Z.rem year 4 =? 0) && negb (Z.rem year 100 =? 0)) || (Z.rem year 400 =? 0).

(** util.rs 22-37; a month outside 1..12 is a [panic!]. *)
Definition get_days_in_month (year month : Z) : res Z :=
  if existsb (Z.eqb month) [1; 3; 5; 7; 8; 10; 12] then Ok 31
  else if month =? 2 then Ok (if is_leap_year year then 29 else 28)
  else if existsb (Z.eqb month) [4; 6; 9; 11] then Ok 30
  else Panic.

(** util.rs 39-57: [DAYS_IN_YEAR], a table of 10000 entries, entry [year] holding the
    value computed for [year].  Simplification: the table is the function that fills
    it, with the bound of the array. *)
Definition days_in_year_table (index : Z) : res Z :=
  if (0 <=? index) && (index <? 10000)
  then Ok (if is_leap_year index then 366 else 365) else Panic.

(** util.rs 60-70: note that year 10000 is looked up in the table too. *)
Definition get_days_in_year (year : Z) : res Z :=
  if (0 <=? year) && (year <=? 10000) then days_in_year_table year
  else Ok (if is_leap_year year then 366 else 365).

(** util.rs 72-90: [DAYS_IN_CENTURY], a table of 100 entries, entry [i] holding the
    value computed for year [100 * i]. *)
Definition days_in_century_table (index : Z) : res Z :=
  if (0 <=? index) && (index <? 100)
  then Ok (if is_leap_year (100 * index) then 36525 else 36524) else Panic.

(** util.rs 92-101 *)
Definition get_days_in_century (year : Z) : res Z :=
  if (0 <=? year) && (year <=? 10000) then days_in_century_table (Z.quot year 100)
  else Ok (if is_leap_year year then 36525 else 36524).

(** One year or century forward, or backward before the epoch: i16 arithmetic. *)
Definition move_year (before_epoch : bool) (year delta : Z) : res Z :=
  i16_chk (if before_epoch then year - delta else year + delta).
(** One month forward or backward: u8 arithmetic. *)
Definition move_month (before_epoch : bool) (month : Z) : res Z :=
  u8_chk (if before_epoch then month - 1 else month + 1).

(** util.rs 120-139: [while month > 1].  The month reaches 1 within 12 turns, so that
    fuel of 16 turns is never used up. *)
Fixpoint align_year (fuel : nat) (before_epoch : bool) (year month number_of_days : Z)
  : res (Z * Z * Z) :=
  match fuel with
  | O => Panic
  | S fuel =>
    if month >? 1 then
      days_in_month <- get_days_in_month year month ;;
      if number_of_days <? days_in_month then Ok (year, month, number_of_days)
      else
        month <- move_month before_epoch month ;;
        '(year, month) <-
          (if month >? 12 then year <- i16_chk (year + 1) ;; Ok (year, 1)
           else Ok (year, month)) ;;
        number_of_days <- i64_chk (number_of_days - days_in_month) ;;
        align_year fuel before_epoch year month number_of_days
    else Ok (year, month, number_of_days)
  end.

(** util.rs 141-153: [for _ in remaining_years..100], [turns] of them. *)
Fixpoint align_century (turns : nat) (before_epoch : bool) (year number_of_days : Z)
  : res (Z * Z) :=
  match turns with
  | O => Ok (year, number_of_days)
  | S turns =>
    days_in_year <- get_days_in_year year ;;
    if number_of_days <? days_in_year then Ok (year, number_of_days)
    else
      year <- move_year before_epoch year 1 ;;
      number_of_days <- i64_chk (number_of_days - days_in_year) ;;
      align_century turns before_epoch year number_of_days
  end.

(** util.rs 154-164: [while number_of_days > days_in_century].  An i16 year leaves its
    range within 656 centuries, so that fuel of 700 turns is never used up. *)
Fixpoint centuries (fuel : nat) (before_epoch : bool) (year number_of_days : Z)
  : res (Z * Z) :=
  match fuel with
  | O => Panic
  | S fuel =>
    days_in_century <- get_days_in_century year ;;
    if number_of_days >? days_in_century then
      year <- move_year before_epoch year 100 ;;
      number_of_days <- i64_chk (number_of_days - days_in_century) ;;
      centuries fuel before_epoch year number_of_days
    else Ok (year, number_of_days)
  end.

(** util.rs 165-175: [while number_of_days > days_in_year].  It starts with at most
    36525 days, so that fuel of 128 turns is never used up. *)
Fixpoint years (fuel : nat) (before_epoch : bool) (year number_of_days : Z)
  : res (Z * Z) :=
  match fuel with
  | O => Panic
  | S fuel =>
    days_in_year <- get_days_in_year year ;;
    if number_of_days >? days_in_year then
      year <- move_year before_epoch year 1 ;;
      number_of_days <- i64_chk (number_of_days - days_in_year) ;;
      years fuel before_epoch year number_of_days
    else Ok (year, number_of_days)
  end.

(** util.rs 176-194: [while number_of_days > days_in_month].  It starts with at most 366
    days, so that fuel of 16 turns is never used up. *)
Fixpoint months (fuel : nat) (before_epoch : bool) (year month number_of_days : Z)
  : res (Z * Z * Z) :=
  match fuel with
  | O => Panic
  | S fuel =>
    days_in_month <- get_days_in_month year month ;;
    if number_of_days >? days_in_month then
      month <- move_month before_epoch month ;;
      '(year, month) <-
        (if month <=? 0 then year <- i16_chk (year - 1) ;; Ok (year, 12)
         else if month >? 12 then year <- i16_chk (year + 1) ;; Ok (year, 1)
         else Ok (year, month)) ;;
      number_of_days <- i64_chk (number_of_days - days_in_month) ;;
      months fuel before_epoch year month number_of_days
    else Ok (year, month, number_of_days)
  end.

(** util.rs 103-203: [get_date_values]; the epoch is (year, month, day of month). *)
Definition get_date_values (number_of_days : Z) (epoch : Z * Z * Z) : res (Z * Z * Z) :=
  let '(year, month, day_of_month) := epoch in
  let before_epoch := number_of_days <? 0 in
  number_of_days <- i64_chk (number_of_days + day_of_month) ;;
  '(year, month, number_of_days) <-
    (if before_epoch then
       month <- u8_chk (month - 1) ;;
       '(year, month) <-
         (if month <=? 0 then year <- i16_chk (year - 1) ;; Ok (year, 12)
          else Ok (year, month)) ;;
       number_of_days <- i64_chk (number_of_days * -1) ;;
       Ok (year, month, number_of_days)
     else Ok (year, month, number_of_days)) ;;
  '(year, month, number_of_days) <- align_year 16 before_epoch year month number_of_days ;;
  let remaining_years := Z.rem (as_usize year) 100 in
  '(year, number_of_days) <-
    align_century (Z.to_nat (100 - remaining_years)) before_epoch year number_of_days ;;
  '(year, number_of_days) <- centuries 700 before_epoch year number_of_days ;;
  '(year, number_of_days) <- years 128 before_epoch year number_of_days ;;
  '(year, month, number_of_days) <- months 16 before_epoch year month number_of_days ;;
  if before_epoch then
    days_in_month <- get_days_in_month year month ;;
    number_of_days <- i64_chk (days_in_month - number_of_days) ;;
    Ok (year, month, as_u8 number_of_days)
  else if number_of_days =? 0 then
    year <- i16_chk (year - 1) ;;
    Ok (year, 12, 31)
  else Ok (year, month, as_u8 number_of_days).

(** util.rs 205-217: [get_time_values].  [Z.modulo] and [Z.div] by a positive number
    are [rem_euclid] and [div_euclid]. *)
Definition get_time_values (number_of_seconds : Z) : Z * Z * Z * Z :=
  let seconds := as_u8 (number_of_seconds mod 60) in
  let number_of_seconds := number_of_seconds / 60 in
  let minutes := as_u8 (number_of_seconds mod 60) in
  let number_of_seconds := number_of_seconds / 60 in
  let hours := as_u8 (number_of_seconds mod 24) in
  let number_of_seconds := number_of_seconds / 24 in
  (number_of_seconds, hours, minutes, seconds).

(** ** Formatting integers: [format!("{:0width$}", value)] *)

(** The decimal digits of a number, as characters.  20 digits are enough for 64 bits. *)
Fixpoint decimal (fuel : nat) (v : N) : list N :=
  match fuel with
  | O => [48 + v mod 10]%N
  | S fuel => if (v <? 10)%N then [48 + v]%N else decimal fuel (v / 10) ++ [48 + v mod 10]%N
  end.
(** Zero padded to a minimal width, the sign counts and comes first. *)
Definition fmt (width : nat) (v : Z) : list N :=
  let digits := decimal 19 (Z.abs_N v) in
  let sign := if v <? 0 then [45]%N else [] in
  sign ++ repeat 48%N (width - length sign - length digits) ++ digits.

(** "{:04}-{:02}-{:02}T{:02}:{:02}:{:02}" *)
Definition fmt_date (year month day : Z) : list N :=
  fmt 4 year ++ [45]%N ++ fmt 2 month ++ [45]%N ++ fmt 2 day.
Definition fmt_time (hours minutes seconds : Z) : list N :=
  fmt 2 hours ++ [58]%N ++ fmt 2 minutes ++ [58]%N ++ fmt 2 seconds.

(** keramics-datetime/src/filetime.rs 21-25 and posix.rs 21-25 *)
Definition filetime_epoch : Z * Z * Z := (1601, 1, 1).
Definition posix_epoch : Z * Z * Z := (1970, 1, 1).

(** [x as i64] of a u64 *)
Definition u64_as_i64 (v : N) : Z := to_signed 8 v.

(** filetime.rs 46-55: [from_bytes]; the two halves do not overlap, so that [|] adds. *)
Definition filetime_from_bytes (data : list N) : res N :=
  lower <- u32_le data 0%N ;;
  upper <- u32_le data 4%N ;;
  Ok (upper * two32 + lower)%N.

(** filetime.rs 57-68: [to_iso8601_string] of a u64 *)
Definition filetime_to_iso8601_string (timestamp : N) : res (list N) :=
  let fraction := (timestamp mod 10000000)%N in
  let number_of_seconds := (timestamp / 10000000)%N in
  let '(days, hours, minutes, seconds) := get_time_values (u64_as_i64 number_of_seconds) in
  '(year, month, day_of_month) <- get_date_values days filetime_epoch ;;
  Ok (fmt_date year month day_of_month ++ [84]%N ++ fmt_time hours minutes seconds ++
      [46]%N ++ fmt 7 (Z.of_N fraction)).

(** posix.rs 44-60: [PosixTime32::from_be_bytes], [from_le_bytes] *)
Definition posix32_from_be_bytes (data : list N) : res Z := i32_be data 0%N.
Definition posix32_from_le_bytes (data : list N) : res Z := i32_le data 0%N.

(** posix.rs 62-72: [PosixTime32::to_iso8601_string] of an i32 *)
Definition posix32_to_iso8601_string (timestamp : Z) : res (list N) :=
  let '(days, hours, minutes, seconds) := get_time_values timestamp in
  '(year, month, day_of_month) <- get_date_values days posix_epoch ;;
  Ok (fmt_date year month day_of_month ++ [84]%N ++ fmt_time hours minutes seconds).

(** posix.rs 108-116: [PosixTime64Ns::to_iso8601_string] of an i64 and a u32 *)
Definition posix64_to_iso8601_string (timestamp : Z) (fraction : N) : res (list N) :=
  let '(days, hours, minutes, seconds) := get_time_values timestamp in
  '(year, month, day_of_month) <- get_date_values days posix_epoch ;;
  Ok (fmt_date year month day_of_month ++ [84]%N ++ fmt_time hours minutes seconds ++
      [46]%N ++ fmt 9 (Z.of_N fraction)).

Local Open Scope N_scope.

(** ** FAT timestamps, keramics-datetime/src/fat.rs; u16 arithmetic *)

(** fat.rs 30-33, 67-74, 116-124: [from_bytes] *)
Definition fat_date_from_bytes (data : list N) : res N := u16_le data 0.
Definition fat_time_date_from_bytes (data : list N) : res (N * N) :=
  time <- u16_le data 0 ;; date <- u16_le data 2 ;; Ok (date, time).
Definition fat_time_date_10ms_from_bytes (data : list N) : res (N * N * N) :=
  time <- u16_le data 1 ;; date <- u16_le data 3 ;; fraction <- idx data 0 ;;
  Ok (date, time, fraction).

(** fat.rs 36-42: [FatDate::to_iso8601_string], the year, month and day printed *)
Definition fat_date_fields (date : N) : res (N * N * N) :=
  year <- add_chk two16 1980 (N.land (N.shiftr date 9) 0x7f) ;;
  Ok (year, N.land (N.shiftr date 5) 0x0f, N.land date 0x1f).
Definition fat_date_to_iso8601_string (date : N) : res (list N) :=
  '(year, month, day) <- fat_date_fields date ;;
  Ok (fmt_date (Z.of_N year) (Z.of_N month) (Z.of_N day)).

(** fat.rs 77-90: [FatTimeDate::to_iso8601_string] *)
Definition fat_time_fields (time : N) : res (N * N * N) :=
  seconds <- mul_chk two16 (N.land time 0x1f) 2 ;;
  Ok (N.land (N.shiftr time 11) 0x1f, N.land (N.shiftr time 5) 0x3f, seconds).
Definition fat_time_date_to_iso8601_string (date time : N) : res (list N) :=
  '(year, month, day) <- fat_date_fields date ;;
  '(hours, minutes, seconds) <- fat_time_fields time ;;
  Ok (fmt_date (Z.of_N year) (Z.of_N month) (Z.of_N day) ++ [84] ++
      fmt_time (Z.of_N hours) (Z.of_N minutes) (Z.of_N seconds)).

(** fat.rs 127-146: [FatTimeDate10Ms::to_iso8601_string] *)
Definition fat_time_10ms_fields (time fraction : N) : res (N * N * N * N) :=
  seconds <- mul_chk two16 (N.land time 0x1f) 2000 ;;
  hundredths <- mul_chk two16 fraction 10 ;;
  milliseconds <- add_chk two16 seconds hundredths ;;
  Ok (N.land (N.shiftr time 11) 0x1f, N.land (N.shiftr time 5) 0x3f,
      milliseconds / 1000, (milliseconds mod 1000) / 10).
Definition fat_time_date_10ms_to_iso8601_string (date time fraction : N) : res (list N) :=
  '(year, month, day) <- fat_date_fields date ;;
  '(hours, minutes, seconds, hundredths) <- fat_time_10ms_fields time fraction ;;
  Ok (fmt_date (Z.of_N year) (Z.of_N month) (Z.of_N day) ++ [84] ++
      fmt_time (Z.of_N hours) (Z.of_N minutes) (Z.of_N seconds) ++ [46] ++
      fmt 2 (Z.of_N hundredths)).
