(** * C18: dates and times are those of the proleptic Gregorian calendar *)
From Verif Require Import Base BaseLemmas Bytes_model Fields Datetime_model Datetime_spec Datetime_proofs.
From Coq Require Import ZArith.
Local Open Scope Z_scope.

(** Every 64-bit FILETIME: the text is that of the date so many days after 1 January
    1601, of the time of day and of the fraction; from the year 10000 on it panics. *)
Theorem C18_filetime :
  forall timestamp : N, (timestamp < two64)%N ->
  let seconds := (timestamp / 10000000)%N in
  let date := days_after (N.to_nat (seconds / 86400)) (1601, 1, 1) in
  filetime_to_iso8601_string timestamp =
    if fst (fst date) <? 10000
    then Ok (iso_date date ++ [84]%N ++ iso_time (seconds mod 86400) ++
             [46]%N ++ digits 7 (timestamp mod 10000000))
    else Panic.
Proof.
  intros t Ht seconds date. unfold filetime_to_iso8601_string. fold seconds.
  assert (Hs : (seconds < 1844674407371)%N) by (unfold seconds, two64 in *; lia).
  assert (Hi : u64_as_i64 seconds = Z.of_N seconds).
  { unfold u64_as_i64, to_signed. replace (seconds <? 2 ^ (8 * 8 - 1))%N with true; [reflexivity|].
    symmetry. apply N.ltb_lt. clear - Hs. cbn. lia. }
  rewrite Hi.
  pose proof (fmt_time_iso (Z.of_N seconds)) as G.
  destruct (get_time_values (Z.of_N seconds)) as [[[days hours] minutes] secs].
  destruct G as [-> ->].
  assert (Hfr : fmt 7 (Z.of_N (t mod 10000000)) = digits 7 (t mod 10000000)).
  { rewrite fmt_digits.
    - now rewrite N2Z.id.
    - lia.
    - rewrite N2Z.id. change (10 ^ N.of_nat 7)%N with 10000000%N. lia.
    - lia. }
  rewrite Hfr. clear Hfr Ht Hi. clearbody seconds.
  unfold filetime_epoch. rewrite get_date_values_after by lia.
  assert (Hd : Z.to_nat (Z.of_N seconds / 86400) = N.to_nat (seconds / 86400)) by lia.
  pose proof (date_ok 1601 (Z.of_N seconds / 86400) ltac:(lia)) as Hok.
  pose proof (year_nonneg 1601 (Z.of_N seconds / 86400) ltac:(lia) ltac:(lia)) as Hyn.
  rewrite Hd in *. cbv zeta. fold date in Hok, Hyn |- *.
  replace (Z.to_N (Z.of_N seconds mod 86400)) with (seconds mod 86400)%N by lia.
  clear Hd. clearbody date. destruct date as [[y m] d]. cbn [fst] in *.
  destruct (Z.ltb_spec y 10000); [|reflexivity]. cbn [bind].
  rewrite fmt_date_iso by lia. reflexivity.
Qed.
Print Assumptions C18_filetime.

(** The bytes of a FILETIME are little-endian. *)
Theorem C18_filetime_from_bytes :
  forall timestamp rest, (timestamp < two64)%N ->
  filetime_from_bytes (le_bytes 8 timestamp ++ rest) = Ok timestamp.
Proof.
  intros t rest Ht. unfold filetime_from_bytes, u32_le, two64 in *.
  change (le_bytes 8 t) with (le_bytes (4 + 4) t). rewrite le_bytes_app, <- app_assoc.
  change (256 ^ N.of_nat 4)%N with 4294967296%N.
  rewrite (le_bytes_mod 4 t). change (256 ^ N.of_nat 4)%N with 4294967296%N.
  pose proof (read_le 4 [] (t mod 4294967296) (le_bytes 4 (t / 4294967296) ++ rest) 0%N) as H1.
  cbn [app] in H1. change (N.of_nat 4) with 4%N in H1. rewrite H1.
  2: reflexivity. 2: reflexivity. 2: (change (256 ^ 4)%N with 4294967296%N; lia).
  cbn [bind].
  pose proof (read_le 4 (le_bytes 4 (t mod 4294967296)) (t / 4294967296) rest 4%N) as H2.
  change (N.of_nat 4) with 4%N in H2. rewrite H2.
  2: reflexivity. 2: reflexivity. 2: (change (256 ^ 4)%N with 4294967296%N; lia).
  cbn [bind]. unfold two32. f_equal. lia.
Qed.
Print Assumptions C18_filetime_from_bytes.

(** Every non-negative 32-bit POSIX time. What is missing for the full property is the
    times before the epoch, see below. *)
Theorem C18_posix32_after_epoch_partial :
  forall timestamp : N, (timestamp < 2 ^ 31)%N ->
  posix32_to_iso8601_string (Z.of_N timestamp) =
    Ok (iso_date (days_after (N.to_nat (timestamp / 86400)) (1970, 1, 1)) ++ [84]%N ++
        iso_time (timestamp mod 86400)).
Proof.
  intros t Ht. change (2 ^ 31)%N with 2147483648%N in Ht. unfold posix32_to_iso8601_string.
  pose proof (fmt_time_iso (Z.of_N t)) as G.
  destruct (get_time_values (Z.of_N t)) as [[[days hours] minutes] secs].
  destruct G as [-> ->].
  unfold posix_epoch. rewrite get_date_values_after by lia.
  assert (Hd : Z.to_nat (Z.of_N t / 86400) = N.to_nat (t / 86400)) by lia.
  pose proof (date_ok 1970 (Z.of_N t / 86400) ltac:(lia)) as Hok.
  pose proof (year_nonneg 1970 (Z.of_N t / 86400) ltac:(lia) ltac:(lia)) as Hyn.
  assert (Hyb : fst (fst (days_after (Z.to_nat (Z.of_N t / 86400)) (1970, 1, 1))) < 10000).
  { pose proof (year_bound 1970 100 (Z.of_N t / 86400)) as G.
    change (years_length 1970 100) with 36525 in G. lia. }
  rewrite Hd in *. cbv zeta.
  replace (Z.to_N (Z.of_N t mod 86400)) with (t mod 86400)%N by lia.
  clear Hd. set (date := days_after _ _) in *. clearbody date. destruct date as [[y m] d].
  cbn [fst] in *. replace (y <? 10000) with true by lia. cbn [bind].
  rewrite fmt_date_iso by lia. reflexivity.
Qed.
Print Assumptions C18_posix32_after_epoch_partial.

(** Every non-negative 64-bit POSIX time with nanoseconds: from the year 10000 on it
    panics. What is missing for the full property is the times before the epoch. *)
Theorem C18_posix64_after_epoch_partial :
  forall timestamp fraction : N, (timestamp < two63)%N -> (fraction < 1000000000)%N ->
  let date := days_after (N.to_nat (timestamp / 86400)) (1970, 1, 1) in
  posix64_to_iso8601_string (Z.of_N timestamp) fraction =
    if fst (fst date) <? 10000
    then Ok (iso_date date ++ [84]%N ++ iso_time (timestamp mod 86400) ++ [46]%N ++
             digits 9 fraction)
    else Panic.
Proof.
  intros t fr Ht Hfr date. unfold two63 in Ht. unfold posix64_to_iso8601_string.
  pose proof (fmt_time_iso (Z.of_N t)) as G.
  destruct (get_time_values (Z.of_N t)) as [[[days hours] minutes] secs].
  destruct G as [-> ->].
  rewrite (fmt_digits 9) by
    (try (rewrite N2Z.id; change (10 ^ N.of_nat 9)%N with 1000000000%N); lia).
  rewrite N2Z.id.
  unfold posix_epoch. rewrite get_date_values_after by lia.
  assert (Hd : Z.to_nat (Z.of_N t / 86400) = N.to_nat (t / 86400)) by lia.
  pose proof (date_ok 1970 (Z.of_N t / 86400) ltac:(lia)) as Hok.
  pose proof (year_nonneg 1970 (Z.of_N t / 86400) ltac:(lia) ltac:(lia)) as Hyn.
  rewrite Hd in *. cbv zeta. fold date in Hok, Hyn |- *.
  replace (Z.to_N (Z.of_N t mod 86400)) with (t mod 86400)%N by lia.
  clear Hd. clearbody date. destruct date as [[y m] d]. cbn [fst] in *.
  destruct (Z.ltb_spec y 10000); [|reflexivity]. cbn [bind].
  rewrite fmt_date_iso by lia. reflexivity.
Qed.
Print Assumptions C18_posix64_after_epoch_partial.

(** The year before the POSIX epoch: the epoch is so many days after the date given. *)
Theorem C18_year_before_epoch_partial :
  forall n : N, (1 <= n <= 365)%N ->
  exists date, get_date_values (- Z.of_N n) posix_epoch = Ok date /\
    days_after (N.to_nat n) date = (1970, 1, 1).
Proof.
  intros n Hn.
  assert (E : forallb (fun k =>
      match get_date_values (- Z.of_N k) posix_epoch with
      | Ok date => match days_after (N.to_nat k) date with
                   | (y, m, d) => (y =? 1970) && (m =? 1) && (d =? 1) end
      | _ => false end) (seqN 1 365) = true) by (vm_compute; reflexivity).
  rewrite forallb_forall in E. specialize (E n ltac:(apply in_seqN; lia)).
  destruct (get_date_values _ _) as [date| |]; try discriminate.
  exists date. split; [reflexivity|]. destruct (days_after _ _) as [[y m] d].
  apply andb_prop in E as [E E3]. apply andb_prop in E as [E1 E2].
  apply Z.eqb_eq in E1, E2, E3. now subst.
Qed.
Print Assumptions C18_year_before_epoch_partial.

(** Further back the dates are wrong: 31 December 1968 is reported as 1969-01-00,
    7 April 1967 as 6 April. *)
Theorem C18_before_epoch_refuted :
  posix32_to_iso8601_string (-366 * 86400) = Ok
    [49; 57; 54; 57; 45; 48; 49; 45; 48; 48; 84; 48; 48; 58; 48; 48; 58; 48; 48]%N /\
  days_after 366 (1968, 12, 31) = (1970, 1, 1) /\
  (* one day off *)
  get_date_values (-1000) posix_epoch = Ok (1967, 4, 6) /\
  days_after 1000 (1967, 4, 7) = (1970, 1, 1).
Proof. vm_compute. repeat split; reflexivity. Qed.
Print Assumptions C18_before_epoch_refuted.

(** The conversion is not total. *)
Theorem C18_no_panic_refuted :
  filetime_to_iso8601_string (two64 - 1) = Panic /\
  posix64_to_iso8601_string (Z.of_N (two63 - 1)) 0 = Panic /\
  posix64_to_iso8601_string (- Z.of_N two63) 0 = Panic.
Proof. vm_compute. auto. Qed.
Print Assumptions C18_no_panic_refuted.

(** 2010-08-12T21:06:31.5468750, the test vector of filetime.rs. *)
Example C18_case_filetime :
  filetime_to_iso8601_string 0x01cb3a623d0a17ce = Ok
    [50; 48; 49; 48; 45; 48; 56; 45; 49; 50; 84; 50; 49; 58; 48; 54; 58; 51; 49; 46; 53; 52;
     54; 56; 55; 53; 48]%N.
Proof. vm_compute. reflexivity. Qed.
(** 2038-01-19T03:14:07 is the last 32-bit time. *)
Example C18_case_posix32 :
  posix32_to_iso8601_string 2147483647 = Ok
    [50; 48; 51; 56; 45; 48; 49; 45; 49; 57; 84; 48; 51; 58; 49; 52; 58; 48; 55]%N.
Proof. vm_compute. reflexivity. Qed.
(** 2000-02-29 exists. *)
Example C18_case_leap_day : get_date_values 11016 posix_epoch = Ok (2000, 2, 29).
Proof. vm_compute. reflexivity. Qed.
