(** * C19: FAT dates and times are unpacked into the fields of the FAT specification *)
From Verif Require Import Base BaseLemmas Bytes_model Fields Datetime_model Datetime_spec Datetime_proofs.

Ltac bits := rewrite ?N.shiftr_div_pow2;
  repeat match goal with
  | |- context [N.land ?x 0x7f] => change 0x7f with (N.ones 7)
  | |- context [N.land ?x 0x3f] => change 0x3f with (N.ones 6)
  | |- context [N.land ?x 0x1f] => change 0x1f with (N.ones 5)
  | |- context [N.land ?x 0x0f] => change 0x0f with (N.ones 4)
  end; rewrite ?N.land_ones.

Lemma fat_date_fields_eq date :
  date < two16 ->
  fat_date_fields date = Ok (1980 + date / 512, date / 32 mod 16, date mod 32).
Proof.
  intros H. unfold two16 in H. unfold fat_date_fields, add_chk, two16. bits.
  change (2 ^ 9) with 512. change (2 ^ 7) with 128. change (2 ^ 5) with 32.
  change (2 ^ 4) with 16.
  replace (1980 + (date / 512) mod 128 <? 65536) with true by lia. cbn [bind].
  replace ((date / 512) mod 128) with (date / 512) by lia. reflexivity.
Qed.

Lemma fat_time_fields_eq time :
  time < two16 ->
  fat_time_fields time = Ok (time / 2048, time / 32 mod 64, time mod 32 * 2).
Proof.
  intros H. unfold two16 in H. unfold fat_time_fields, mul_chk, two16. bits.
  change (2 ^ 11) with 2048. change (2 ^ 6) with 64. change (2 ^ 5) with 32.
  replace (time mod 32 * 2 <? 65536) with true by lia. cbn [bind].
  replace ((time / 2048) mod 32) with (time / 2048) by lia. reflexivity.
Qed.

Lemma fat_time_10ms_fields_eq time fraction :
  time < two16 -> fraction < 256 ->
  fat_time_10ms_fields time fraction =
    Ok (time / 2048, time / 32 mod 64, time mod 32 * 2 + fraction / 100, fraction mod 100).
Proof.
  intros H H'. unfold two16 in H. unfold fat_time_10ms_fields, mul_chk, add_chk, two16. bits.
  change (2 ^ 11) with 2048. change (2 ^ 6) with 64. change (2 ^ 5) with 32.
  replace (time mod 32 * 2000 <? 65536) with true by lia. cbn [bind].
  replace (fraction * 10 <? 65536) with true by lia. cbn [bind].
  replace (time mod 32 * 2000 + fraction * 10 <? 65536) with true by lia. cbn [bind].
  replace ((time / 2048) mod 32) with (time / 2048) by lia.
  replace ((time mod 32 * 2000 + fraction * 10) / 1000) with (time mod 32 * 2 + fraction / 100) by lia.
  replace ((time mod 32 * 2000 + fraction * 10) mod 1000 / 10) with (fraction mod 100) by lia.
  reflexivity.
Qed.

(** Dates: each of the 65536 packed values is one year, month and day, in the ranges of
    the fields, and packs back. *)
Theorem C19_date :
  forall date, date < two16 ->
  exists year month day,
  fat_date_fields date = Ok (year, month, day) /\
  fat_pack_date year month day = date /\
  1980 <= year <= 2107 /\ month < 16 /\ day < 32 /\
  fat_date_to_iso8601_string date =
    Ok (digits 4 year ++ [45] ++ digits 2 month ++ [45] ++ digits 2 day).
Proof.
  intros date H. exists (1980 + date / 512), (date / 32 mod 16), (date mod 32).
  assert (Hb : date < 65536) by exact H.
  split; [now apply fat_date_fields_eq|]. split; [unfold fat_pack_date; lia|].
  split; [lia|]. split; [lia|]. split; [lia|].
  unfold fat_date_to_iso8601_string. rewrite fat_date_fields_eq by assumption. cbn [bind].
  unfold fmt_date. rewrite !fmt_digits; rewrite ?N2Z.id; try lia; try reflexivity; cbn; lia.
Qed.
Print Assumptions C19_date.

(** Times: each of the 65536 packed values is one hour, minute and even second, and packs
    back. *)
Theorem C19_time :
  forall date time, date < two16 -> time < two16 ->
  exists year month day hours minutes seconds,
  fat_date_fields date = Ok (year, month, day) /\
  fat_time_fields time = Ok (hours, minutes, seconds) /\
  fat_pack_date year month day = date /\ fat_pack_time hours minutes seconds = time /\
  hours < 32 /\ minutes < 64 /\ seconds <= 62 /\ seconds mod 2 = 0 /\
  fat_time_date_to_iso8601_string date time =
    Ok (digits 4 year ++ [45] ++ digits 2 month ++ [45] ++ digits 2 day ++ [84] ++
        digits 2 hours ++ [58] ++ digits 2 minutes ++ [58] ++ digits 2 seconds).
Proof.
  intros date time H H'.
  exists (1980 + date / 512), (date / 32 mod 16), (date mod 32),
    (time / 2048), (time / 32 mod 64), (time mod 32 * 2).
  assert (Hb : date < 65536) by exact H. assert (Hb' : time < 65536) by exact H'.
  split; [now apply fat_date_fields_eq|]. split; [now apply fat_time_fields_eq|].
  split; [unfold fat_pack_date; lia|]. split; [unfold fat_pack_time; lia|].
  split; [lia|]. split; [lia|]. split; [lia|]. split; [lia|].
  unfold fat_time_date_to_iso8601_string.
  rewrite fat_date_fields_eq, fat_time_fields_eq by assumption. cbn [bind].
  unfold fmt_date, fmt_time.
  rewrite !fmt_digits; rewrite ?N2Z.id; try lia; try (cbn; lia).
  now rewrite <- !app_assoc.
Qed.
Print Assumptions C19_time.

(** The 10 ms fraction (0 to 199 in the specification) adds to the seconds: the packed
    time is the printed time in units of 10 ms. *)
Theorem C19_time_10ms :
  forall date time fraction, date < two16 -> time < two16 -> fraction < 256 ->
  exists year month day hours minutes seconds hundredths,
  fat_date_fields date = Ok (year, month, day) /\
  fat_time_10ms_fields time fraction = Ok (hours, minutes, seconds, hundredths) /\
  fat_pack_date year month day = date /\
  hours * 2048 + minutes * 32 = time - time mod 32 /\
  hours < 32 /\ minutes < 64 /\ hundredths < 100 /\
  seconds * 100 + hundredths = time mod 32 * 200 + fraction /\
  (* a fraction of less than two seconds can be told from the printed values *)
  (fraction < 200 -> fat_pack_time hours minutes seconds = time /\
                     (seconds mod 2) * 100 + hundredths = fraction) /\
  fat_time_date_10ms_to_iso8601_string date time fraction =
    Ok (digits 4 year ++ [45] ++ digits 2 month ++ [45] ++ digits 2 day ++ [84] ++
        digits 2 hours ++ [58] ++ digits 2 minutes ++ [58] ++ digits 2 seconds ++ [46] ++
        digits 2 hundredths).
Proof.
  intros date time fraction H H' Hf.
  exists (1980 + date / 512), (date / 32 mod 16), (date mod 32),
    (time / 2048), (time / 32 mod 64), (time mod 32 * 2 + fraction / 100), (fraction mod 100).
  assert (Hb : date < 65536) by exact H. assert (Hb' : time < 65536) by exact H'.
  split; [now apply fat_date_fields_eq|]. split; [now apply fat_time_10ms_fields_eq|].
  split; [unfold fat_pack_date; lia|]. split; [lia|].
  split; [lia|]. split; [lia|]. split; [lia|]. split; [lia|].
  split; [intros Hf2; unfold fat_pack_time; split; lia|].
  unfold fat_time_date_10ms_to_iso8601_string.
  rewrite fat_date_fields_eq, fat_time_10ms_fields_eq by assumption. cbn [bind].
  unfold fmt_date, fmt_time.
  rewrite !fmt_digits; rewrite ?N2Z.id; try lia; try (cbn; lia).
  now rewrite <- !app_assoc.
Qed.
Print Assumptions C19_time_10ms.

(** Packing the fields of any date and time of the FAT calendar and unpacking it gives
    them back. *)
Theorem C19_unpacks_what_was_packed :
  forall year month day hours minutes seconds,
  1980 <= year <= 2107 -> month < 16 -> day < 32 -> hours < 32 -> minutes < 64 ->
  seconds <= 62 -> seconds mod 2 = 0 ->
  fat_date_fields (fat_pack_date year month day) = Ok (year, month, day) /\
  fat_time_fields (fat_pack_time hours minutes seconds) = Ok (hours, minutes, seconds).
Proof.
  intros. unfold fat_pack_date, fat_pack_time.
  rewrite fat_date_fields_eq by (unfold two16; lia).
  rewrite fat_time_fields_eq by (unfold two16; lia).
  split; f_equal; repeat apply (f_equal2 pair); lia.
Qed.
Print Assumptions C19_unpacks_what_was_packed.

(** The bytes on disk: little-endian time then date, after the fraction byte. *)
Theorem C19_from_bytes :
  forall date time fraction rest, date < two16 -> time < two16 ->
  fat_date_from_bytes (le_bytes 2 date ++ rest) = Ok date /\
  fat_time_date_from_bytes (le_bytes 2 time ++ le_bytes 2 date ++ rest) = Ok (date, time) /\
  fat_time_date_10ms_from_bytes (fraction :: le_bytes 2 time ++ le_bytes 2 date ++ rest) =
    Ok (date, time, fraction).
Proof.
  intros date time fraction rest Hd Ht.
  assert (R : forall pre v r e, v < two16 -> e = len pre -> len pre < 100 ->
    u16_le (pre ++ le_bytes 2 v ++ r) e = Ok v).
  { intros. apply (read_le 2 pre v r e); auto. unfold two64. cbn. lia. }
  unfold fat_date_from_bytes, fat_time_date_from_bytes, fat_time_date_10ms_from_bytes.
  split; [apply (R []); auto; reflexivity|]. split.
  - pose proof (R [] time (le_bytes 2 date ++ rest) 0 Ht eq_refl ltac:(reflexivity)) as H1.
    cbn [app] in H1. rewrite H1. cbn [bind].
    rewrite (R (le_bytes 2 time) date rest 2) by (auto; reflexivity). reflexivity.
  - pose proof (R [fraction] time (le_bytes 2 date ++ rest) 1 Ht eq_refl ltac:(reflexivity)) as H1.
    cbn [app] in H1. rewrite H1. cbn [bind].
    pose proof (R (fraction :: le_bytes 2 time) date rest 3 Hd eq_refl ltac:(reflexivity)) as H2.
    cbn [app] in H2. rewrite H2. reflexivity.
Qed.
Print Assumptions C19_from_bytes.

(** 2010-08-12T21:06:33.25, the test vector of fat.rs. *)
Example C19_case :
  fat_time_date_10ms_to_iso8601_string 0x3d0c 0xa8d0 0x7d = Ok
    [50; 48; 49; 48; 45; 48; 56; 45; 49; 50; 84; 50; 49; 58; 48; 54; 58; 51; 51; 46; 50; 53].
Proof. vm_compute. reflexivity. Qed.
