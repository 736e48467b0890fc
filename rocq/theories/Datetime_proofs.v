(** * Proofs about the calendar of keramics-datetime *)
From Verif Require Import Base BaseLemmas Bytes_model Datetime_model Datetime_spec.
From Coq Require Import ZArith.
Local Open Scope Z_scope.

Ltac deq := repeat apply (f_equal2 pair); (reflexivity || lia).
Arguments leapb : simpl never.
Arguments is_leap_year : simpl never.

Lemma leap_eq y : 0 <= y -> is_leap_year y = leapb y.
Proof.
  intros H. unfold is_leap_year, leapb.
  rewrite !Z.rem_mod_nonneg by lia. reflexivity.
Qed.

Definition year_length (y : Z) : Z := if leapb y then 366 else 365.
Definition century_length (y : Z) : Z := if leapb y then 36525 else 36524.

Lemma year_length_pos y : 365 <= year_length y <= 366.
Proof. unfold year_length. destruct (leapb y); lia. Qed.

Lemma get_days_in_month_eq y m :
  0 <= y -> 1 <= m <= 12 -> get_days_in_month y m = Ok (month_length y m).
Proof.
  intros Hy Hm.
  assert (E : m = 1 \/ m = 2 \/ m = 3 \/ m = 4 \/ m = 5 \/ m = 6 \/ m = 7 \/ m = 8 \/ m = 9 \/
              m = 10 \/ m = 11 \/ m = 12) by lia.
  repeat destruct E as [-> | E]; subst; cbn; rewrite ?leap_eq by lia; reflexivity.
Qed.

Lemma month_length_pos y m : 1 <= m <= 12 -> 28 <= month_length y m <= 31.
Proof.
  intros Hm.
  assert (E : m = 1 \/ m = 2 \/ m = 3 \/ m = 4 \/ m = 5 \/ m = 6 \/ m = 7 \/ m = 8 \/ m = 9 \/
              m = 10 \/ m = 11 \/ m = 12) by lia.
  assert (G : forall b : bool, Forall (fun z => 28 <= z <= 31)
    [31; (if b then 29 else 28); 31; 30; 31; 30; 31; 31; 30; 31; 30; 31]).
  { intros b. destruct b; repeat constructor; lia. }
  unfold month_length. specialize (G (leapb y)). rewrite Forall_forall in G. apply G.
  apply nth_In. cbn [length]. lia.
Qed.

Lemma get_days_in_year_eq y : 0 <= y < 10000 -> get_days_in_year y = Ok (year_length y).
Proof.
  intros H. unfold get_days_in_year, days_in_year_table, year_length.
  rewrite leap_eq by lia.
  replace ((0 <=? y) && (y <=? 10000))%bool with true by lia.
  replace ((0 <=? y) && (y <? 10000))%bool with true by lia. reflexivity.
Qed.

Lemma get_days_in_century_eq y :
  0 <= y < 10000 -> y mod 100 = 0 -> get_days_in_century y = Ok (century_length y).
Proof.
  intros H Hc. unfold get_days_in_century, days_in_century_table, century_length.
  replace ((0 <=? y) && (y <=? 10000))%bool with true by lia.
  rewrite Z.quot_div_nonneg by lia.
  replace ((0 <=? y / 100) && (y / 100 <? 100))%bool with true by lia.
  replace (100 * (y / 100)) with y by lia. rewrite leap_eq by lia. reflexivity.
Qed.

Lemma get_days_in_century_some y :
  0 <= y < 10000 -> exists c, get_days_in_century y = Ok c /\ 36524 <= c.
Proof.
  intros H. unfold get_days_in_century, days_in_century_table.
  replace ((0 <=? y) && (y <=? 10000))%bool with true by lia.
  rewrite Z.quot_div_nonneg by lia.
  replace ((0 <=? y / 100) && (y / 100 <? 100))%bool with true by lia.
  eexists. split; [reflexivity|]. destruct (is_leap_year _); lia.
Qed.

(** ** Whole months, years and centuries of days *)

Lemma days_after_add a b d : days_after (a + b) d = days_after a (days_after b d).
Proof.
  unfold days_after. induction a as [|a IH]; [reflexivity|].
  change (Nat.iter (S a + b) next_day d) with (next_day (Nat.iter (a + b) next_day d)).
  now rewrite IH.
Qed.

Lemma days_after_S a d : days_after (S a) d = next_day (days_after a d).
Proof. reflexivity. Qed.

Lemma within_month y m j :
  (Z.of_nat j < month_length y m) -> days_after j (y, m, 1) = (y, m, 1 + Z.of_nat j).
Proof.
  induction j as [|j IH]; intros H.
  - cbn. reflexivity.
  - rewrite days_after_S, IH by lia. unfold next_day.
    destruct (Z.ltb_spec (1 + Z.of_nat j) (month_length y m)); [|lia].
    deq.
Qed.

Lemma whole_month y m :
  1 <= m < 12 -> days_after (Z.to_nat (month_length y m)) (y, m, 1) = (y, m + 1, 1).
Proof.
  intros H. pose proof (month_length_pos y m ltac:(lia)) as Hp.
  replace (Z.to_nat (month_length y m)) with (S (Z.to_nat (month_length y m - 1))) by lia.
  rewrite days_after_S, within_month by lia. unfold next_day.
  destruct (Z.ltb_spec (1 + Z.of_nat (Z.to_nat (month_length y m - 1))) (month_length y m)); [lia|].
  destruct (Z.ltb_spec m 12); [reflexivity|lia].
Qed.

Lemma last_month y : days_after 31 (y, 12, 1) = (y + 1, 1, 1).
Proof.
  change 31%nat with (S 30). rewrite days_after_S, within_month by (change (month_length y 12) with 31; lia). reflexivity.
Qed.

(** Days before a month in its year *)
Definition before_month (y m : Z) : Z :=
  fold_right Z.add 0 (map (fun i => month_length y (Z.of_nat i)) (seq 1 (Z.to_nat (m - 1)))).

Lemma before_month_S y m :
  1 <= m -> before_month y (m + 1) = before_month y m + month_length y m.
Proof.
  intros H. unfold before_month.
  replace (Z.to_nat (m + 1 - 1)) with (S (Z.to_nat (m - 1))) by lia.
  rewrite seq_S, map_app, fold_right_app. cbn [map fold_right].
  replace (Z.of_nat (1 + Z.to_nat (m - 1))) with m by lia.
  generalize (map (fun i => month_length y (Z.of_nat i)) (seq 1 (Z.to_nat (m - 1)))) as l.
  intros l. induction l as [|x l IH]; cbn [fold_right]; lia.
Qed.

Lemma before_month_13 y : before_month y 13 = year_length y.
Proof. unfold before_month, year_length. cbn. destruct (leapb y); reflexivity. Qed.

Lemma before_month_nonneg y m : 0 <= before_month y m.
Proof.
  unfold before_month.
  assert (Hn : forall l, (forall x, In x l -> 0 <= x) -> 0 <= fold_right Z.add 0 l).
  { induction l as [|x l IH]; cbn; intros Hl; [lia|].
    pose proof (Hl x (or_introl eq_refl)). pose proof (IH (fun z hz => Hl z (or_intror hz))). lia. }
  apply Hn. intros x Hx. apply in_map_iff in Hx as (i & <- & _).
  unfold month_length.
  generalize (Z.to_nat (Z.of_nat i - 1)) as k. intros k.
  generalize (leapb y) as b. intros b.
  destruct k as [|[|[|[|[|[|[|[|[|[|[|[|k]]]]]]]]]]]]; cbn [nth]; destruct b; try lia.
  all: destruct k; lia.
Qed.

Lemma start_of_month y m :
  1 <= m <= 12 -> days_after (Z.to_nat (before_month y m)) (y, 1, 1) = (y, m, 1).
Proof.
  intros H. replace m with (1 + Z.of_nat (Z.to_nat (m - 1))) in * by lia.
  remember (Z.to_nat (m - 1)) as k. clear Heqk.
  induction k as [|k IH].
  - reflexivity.
  - replace (1 + Z.of_nat (S k)) with ((1 + Z.of_nat k) + 1) in * by lia.
    rewrite before_month_S by lia.
    pose proof (month_length_pos y (1 + Z.of_nat k) ltac:(lia)).
    pose proof (before_month_nonneg y (1 + Z.of_nat k)).
    rewrite Z2Nat.inj_add by lia. rewrite Nat.add_comm, days_after_add, IH by lia.
    apply whole_month. lia.
Qed.

Lemma whole_year y : days_after (Z.to_nat (year_length y)) (y, 1, 1) = (y + 1, 1, 1).
Proof.
  rewrite <- before_month_13. change 13 with (12 + 1). rewrite before_month_S by lia.
  pose proof (before_month_nonneg y 12).
  change (month_length y 12) with 31.
  rewrite Z2Nat.inj_add by lia. rewrite Nat.add_comm, days_after_add, start_of_month by lia.
  apply last_month.
Qed.

(** Days of [k] years *)
Fixpoint years_length (y : Z) (k : nat) : Z :=
  match k with O => 0 | S k => years_length y k + year_length (y + Z.of_nat k) end.

Lemma years_length_nonneg y k : 0 <= years_length y k.
Proof.
  induction k; cbn; [lia|]. pose proof (year_length_pos (y + Z.of_nat k)). lia.
Qed.

Lemma whole_years y k :
  days_after (Z.to_nat (years_length y k)) (y, 1, 1) = (y + Z.of_nat k, 1, 1).
Proof.
  induction k as [|k IH].
  - cbn. deq.
  - cbn [years_length]. pose proof (years_length_nonneg y k).
    pose proof (year_length_pos (y + Z.of_nat k)).
    rewrite Z2Nat.inj_add by lia. rewrite Nat.add_comm, days_after_add, IH, whole_year.
    deq.
Qed.

(** Days before a year, in closed form *)
Definition before_year (y : Z) : Z := 365 * y + (y - 1) / 4 - (y - 1) / 100 + (y - 1) / 400.

Lemma before_year_S y : before_year (y + 1) = before_year y + year_length y.
Proof.
  unfold before_year, year_length, leapb.
  replace (y + 1 - 1) with y by lia.
  assert (E4 : y / 4 - (y - 1) / 4 = if y mod 4 =? 0 then 1 else 0).
  { destruct (Z.eqb_spec (y mod 4) 0); lia. }
  assert (E100 : y / 100 - (y - 1) / 100 = if y mod 100 =? 0 then 1 else 0).
  { destruct (Z.eqb_spec (y mod 100) 0); lia. }
  assert (E400 : y / 400 - (y - 1) / 400 = if y mod 400 =? 0 then 1 else 0).
  { destruct (Z.eqb_spec (y mod 400) 0); lia. }
  assert (H1 : y mod 400 = 0 -> y mod 100 = 0) by lia.
  assert (H2 : y mod 100 = 0 -> y mod 4 = 0) by lia.
  set (a := y / 4) in *. set (a' := (y - 1) / 4) in *. set (b := y / 100) in *.
  set (b' := (y - 1) / 100) in *. set (c := y / 400) in *. set (c' := (y - 1) / 400) in *.
  clearbody a a' b b' c c'.
  set (r4 := y mod 4) in *. set (r100 := y mod 100) in *. set (r400 := y mod 400) in *.
  clearbody r4 r100 r400.
  destruct (Z.eqb_spec r4 0), (Z.eqb_spec r100 0), (Z.eqb_spec r400 0); cbn [andb orb negb]; lia.
Qed.

Lemma years_length_eq y k : years_length y k = before_year (y + Z.of_nat k) - before_year y.
Proof.
  induction k as [|k IH].
  - cbn. replace (y + 0) with y by lia. lia.
  - cbn [years_length]. rewrite IH.
    replace (y + Z.of_nat (S k)) with (y + Z.of_nat k + 1) by lia. rewrite before_year_S. lia.
Qed.

Lemma century_years y : y mod 100 = 0 -> years_length y 100 = century_length y.
Proof.
  intros H. rewrite years_length_eq. change (Z.of_nat 100) with 100.
  unfold before_year, century_length, leapb.
  assert (E4 : (y + 100 - 1) / 4 - (y - 1) / 4 = 25) by lia.
  assert (E100 : (y + 100 - 1) / 100 - (y - 1) / 100 = 1) by lia.
  assert (E400 : (y + 100 - 1) / 400 - (y - 1) / 400 = if y mod 400 =? 0 then 1 else 0).
  { destruct (Z.eqb_spec (y mod 400) 0); lia. }
  rewrite H. cbn [Z.eqb]. rewrite andb_false_r. cbn [orb].
  destruct (y mod 400 =? 0); clear - E4 E100 E400;
    set (a := (y + 100 - 1) / 4) in *; set (b := (y + 100 - 1) / 100) in *;
    set (c := (y + 100 - 1) / 400) in *; set (a' := (y - 1) / 4) in *;
    set (b' := (y - 1) / 100) in *; set (c' := (y - 1) / 400) in *;
    clearbody a b c a' b' c'; lia.
Qed.

Lemma whole_century y :
  y mod 100 = 0 -> days_after (Z.to_nat (century_length y)) (y, 1, 1) = (y + 100, 1, 1).
Proof. intros H. rewrite <- century_years by assumption. apply whole_years. Qed.

Lemma years_length_mono y j k : (j <= k)%nat -> years_length y j <= years_length y k.
Proof.
  induction 1; [lia|]. cbn. pose proof (year_length_pos (y + Z.of_nat m)). lia.
Qed.

(** ** The year of a date *)
Lemma year_of_days y n :
  0 <= n < year_length y -> exists m d, days_after (Z.to_nat n) (y, 1, 1) = (y, m, d) /\
    1 <= m <= 12 /\ 1 <= d <= month_length y m /\ n = before_month y m + d - 1.
Proof.
  intros H. rewrite <- before_month_13 in H.
  assert (G : forall k, 0 <= n < before_month y (1 + Z.of_nat k) -> (k <= 12)%nat ->
    exists m d, 1 <= m <= 12 /\ 1 <= d <= month_length y m /\ n = before_month y m + d - 1).
  { induction k as [|k IH]; intros Hk Hle.
    - cbn in Hk. lia.
    - destruct (Z.ltb_spec n (before_month y (1 + Z.of_nat k))) as [Hlt|Hge].
      + apply IH; lia.
      + replace (1 + Z.of_nat (S k)) with (1 + Z.of_nat k + 1) in Hk by lia.
        rewrite before_month_S in Hk by lia.
        exists (1 + Z.of_nat k), (n - before_month y (1 + Z.of_nat k) + 1). lia. }
  destruct (G 12%nat) as (m & d & Hm & Hd & ->); [exact H|lia|].
  exists m, d. split; [|auto].
  pose proof (before_month_nonneg y m).
  replace (Z.to_nat (before_month y m + d - 1))
    with (Z.to_nat (d - 1) + Z.to_nat (before_month y m))%nat by lia.
  rewrite days_after_add, start_of_month, within_month by lia. deq.
Qed.

Lemma days_after_years y k n :
  0 <= n -> years_length y k <= n ->
  days_after (Z.to_nat n) (y, 1, 1) =
  days_after (Z.to_nat (n - years_length y k)) (y + Z.of_nat k, 1, 1).
Proof.
  intros H1 H2. pose proof (years_length_nonneg y k).
  replace (Z.to_nat n) with (Z.to_nat (n - years_length y k) + Z.to_nat (years_length y k))%nat by lia.
  now rewrite days_after_add, whole_years.
Qed.

Lemma year_bound y k n :
  0 <= n < years_length y k ->
  y <= fst (fst (days_after (Z.to_nat n) (y, 1, 1))) < y + Z.of_nat k.
Proof.
  intros H. induction k as [|k IH]; [cbn in H; lia|].
  destruct (Z.ltb_spec n (years_length y k)) as [Hlt|Hge].
  - specialize (IH ltac:(lia)). lia.
  - rewrite (days_after_years y k) by lia. cbn [years_length] in H.
    destruct (year_of_days (y + Z.of_nat k) (n - years_length y k)) as (m & d & -> & _); [lia|].
    cbn. lia.
Qed.

Lemma year_at_least y k n :
  0 <= n -> years_length y k <= n ->
  y + Z.of_nat k <= fst (fst (days_after (Z.to_nat n) (y, 1, 1))).
Proof.
  intros H1 H2. rewrite (days_after_years y k) by lia.
  set (r := n - years_length y k). assert (0 <= r) by (unfold r; lia).
  assert (Hb : 0 <= r < years_length (y + Z.of_nat k) (S (Z.to_nat r))).
  { split; [lia|]. clear - H. 
    assert (G : forall z j, 365 * Z.of_nat j <= years_length z j).
    { intros z. induction j; cbn [years_length]; [lia|].
      pose proof (year_length_pos (z + Z.of_nat j)). lia. }
    pose proof (G (y + Z.of_nat k) (S (Z.to_nat r))). lia. }
  apply year_bound in Hb. lia.
Qed.

Ltac i16 := unfold move_year, i16_chk;
  match goal with |- context [if ?b then _ else _] => replace b with true by lia end; cbn [bind].
Ltac i64 := unfold i64_chk;
  match goal with |- context [if ?b then _ else _] => replace b with true by lia end; cbn [bind].

(** ** The loops, after the epoch.  [D] is the date; [n] counts from 1, and 0 stands for
    the day before the first of January. *)
Definition Date (D : Z * Z * Z) (y n : Z) : Prop :=
  (1 <= n /\ D = days_after (Z.to_nat (n - 1)) (y, 1, 1)) \/ (n = 0 /\ D = (y - 1, 12, 31)).

Lemma Date_after D y n l y' :
  days_after (Z.to_nat l) (y, 1, 1) = (y', 1, 1) -> 0 < l -> l < n ->
  Date D y n -> Date D y' (n - l).
Proof.
  intros Hl Hp Hlt [[H1 ->]|[H1 ->]]; [|lia]. left. split; [lia|].
  replace (Z.to_nat (n - 1)) with (Z.to_nat (n - l - 1) + Z.to_nat l)%nat by lia.
  now rewrite days_after_add, Hl.
Qed.

Lemma Date_year_end D y :
  Date D y (year_length y) -> D = (y, 12, 31).
Proof.
  pose proof (year_length_pos y).
  intros [[H1 ->]|[H1 ->]]; [|lia].
  assert (E : year_length y = before_month y 12 + 31).
  { rewrite <- before_month_13. change 13 with (12 + 1). now rewrite before_month_S by lia. }
  pose proof (before_month_nonneg y 12).
  replace (Z.to_nat (year_length y - 1)) with (30 + Z.to_nat (before_month y 12))%nat by lia.
  rewrite days_after_add, start_of_month by lia. rewrite within_month by (change (month_length y 12) with 31; lia). reflexivity.
Qed.

Lemma Date_next_year D y n :
  year_length y <= n -> Date D y n -> Date D (y + 1) (n - year_length y).
Proof.
  pose proof (year_length_pos y). intros Hn HD.
  destruct (Z.eqb_spec n (year_length y)) as [->|Hne].
  - right. apply Date_year_end in HD. subst D. split; [lia|]. deq.
  - apply (Date_after D y); [apply whole_year|lia|lia|assumption].
Qed.

Lemma align_century_after D turns : forall y n,
  0 <= y -> y + Z.of_nat turns <= 9999 -> 0 <= n < 9000000000000000000 -> Date D y n ->
  exists y' n', align_century turns false y n = Ok (y', n') /\ Date D y' n' /\
    0 <= n' <= n /\ y <= y' /\
    ((y' < y + Z.of_nat turns /\ n' < year_length y') \/ y' = y + Z.of_nat turns).
Proof.
  induction turns as [|turns IH]; intros y n Hy Hb Hn HD; cbn [align_century].
  - exists y, n. repeat split; auto; try lia.
  - rewrite get_days_in_year_eq by lia. cbn [bind].
    destruct (Z.ltb_spec n (year_length y)) as [Hlt|Hge].
    + exists y, n. repeat split; auto; try lia. 
    + pose proof (year_length_pos y). i16. i64.
      destruct (IH (y + 1) (n - year_length y)) as (y' & n' & E & HD' & H1 & H2 & H3);
        [lia|lia|lia|now apply Date_next_year|].
      exists y', n'. repeat split; auto; try lia.
Qed.

Lemma centuries_after D fuel : forall y n,
  0 <= y <= 9900 -> y mod 100 = 0 -> 0 <= n < 9000000000000000000 -> Date D y n ->
  fst (fst D) < 10000 -> 9900 - y < 100 * Z.of_nat fuel ->
  exists y' n', centuries fuel false y n = Ok (y', n') /\ Date D y' n' /\
    0 <= n' <= century_length y' /\ y <= y' <= 9900 /\ y' mod 100 = 0.
Proof.
  induction fuel as [|fuel IH]; intros y n Hy Hc Hn HD HY Hf; [lia|]. cbn [centuries].
  rewrite get_days_in_century_eq by (assumption || lia). cbn [bind].
  assert (Hcl : 36524 <= century_length y <= 36525)
    by (unfold century_length; destruct (leapb y); lia).
  destruct (Z.gtb_spec n (century_length y)) as [Hgt|Hle].
  - assert (y < 9900).
    { destruct (Z.eqb_spec y 9900) as [->|]; [|lia]. exfalso.
      destruct HD as [[H1 ->]|[H1 ->]]; [|lia].
      pose proof (year_at_least 9900 100 (n - 1) ltac:(lia)) as G.
      rewrite century_years in G by reflexivity.
      specialize (G ltac:(lia)). lia. }
    i16. i64.
    destruct (IH (y + 100) (n - century_length y)) as (y' & n' & E & HD' & H1 & H2 & H3).
    + lia.
    + lia.
    + lia.
    + apply (Date_after D y); [now apply whole_century|lia|lia|assumption].
    + assumption.
    + lia.
    + exists y', n'. split; [exact E|]. split; [exact HD'|]. split; [exact H1|]. split; [lia|exact H3].
  - exists y, n. split; [reflexivity|]. split; [exact HD|]. split; [lia|]. split; [lia|exact Hc].
Qed.

Lemma centuries_panics D fuel : forall y n,
  0 <= y <= 9900 -> y mod 100 = 0 -> 0 <= n < 9000000000000000000 -> Date D y n ->
  10000 <= fst (fst D) -> centuries fuel false y n = Panic.
Proof.
  induction fuel as [|fuel IH]; intros y n Hy Hc Hn HD HY; [reflexivity|]. cbn [centuries].
  rewrite get_days_in_century_eq by (assumption || lia). cbn [bind].
  assert (Hcl : 36524 <= century_length y <= 36525)
    by (unfold century_length; destruct (leapb y); lia).
  destruct (Z.gtb_spec n (century_length y)) as [Hgt|Hle].
  - i16. i64.
    assert (HD' : Date D (y + 100) (n - century_length y))
      by (apply (Date_after D y); [now apply whole_century|lia|lia|assumption]).
    destruct (Z.eqb_spec y 9900) as [->|Hne].
    + destruct fuel; [reflexivity|]. cbn [centuries]. reflexivity.
    + apply IH; auto; lia.
  - exfalso. destruct HD as [[H1 ->]|[H1 ->]]; cbn in HY; [|lia].
    pose proof (year_bound y 100 (n - 1)) as G. rewrite century_years in G by assumption.
    specialize (G ltac:(lia)). lia.
Qed.

Lemma years_after D fuel : forall y n k,
  0 <= y -> y + Z.of_nat k <= 9999 -> 0 <= n < 9000000000000000000 -> Date D y n ->
  n <= years_length y (S k) -> (k < fuel)%nat ->
  exists y' n', years fuel false y n = Ok (y', n') /\ Date D y' n' /\
    0 <= n' <= year_length y' /\ y <= y' <= 9999.
Proof.
  induction fuel as [|fuel IH]; intros y n k Hy Hb Hn HD Hl Hf; [lia|]. cbn [years].
  rewrite get_days_in_year_eq by lia. cbn [bind].
  pose proof (year_length_pos y).
  destruct (Z.gtb_spec n (year_length y)) as [Hgt|Hle].
  - destruct k as [|k].
    { cbn [years_length] in Hl. replace (y + Z.of_nat 0) with y in Hl by lia. lia. }
    i16. i64.
    destruct (IH (y + 1) (n - year_length y) k) as (y' & n' & E & HD' & H1 & H2).
    + lia.
    + lia.
    + lia.
    + apply Date_next_year; [lia|assumption].
    + rewrite years_length_eq in *.
      replace (y + 1 + Z.of_nat (S k)) with (y + Z.of_nat (S (S k))) by lia.
      rewrite before_year_S. lia.
    + lia.
    + exists y', n'. repeat split; auto; lia.
  - exists y, n. repeat split; auto; lia.
Qed.

Lemma months_after y fuel : forall m n,
  0 <= y <= 9999 -> 1 <= m <= 12 -> 1 <= n < 9000000000000000000 ->
  n <= before_month y 13 - before_month y m -> 12 - m < Z.of_nat fuel ->
  exists m' n', months fuel false y m n = Ok (y, m', n') /\
    days_after (Z.to_nat (n - 1)) (y, m, 1) = (y, m', n') /\ 1 <= m' <= 12 /\ 1 <= n' <= 31.
Proof.
  induction fuel as [|fuel IH]; intros m n Hy Hm Hn Hl Hf; [lia|]. cbn [months].
  rewrite get_days_in_month_eq by lia. cbn [bind].
  pose proof (month_length_pos y m Hm).
  destruct (Z.gtb_spec n (month_length y m)) as [Hgt|Hle].
  - assert (m < 12).
    { destruct (Z.eqb_spec m 12) as [->|]; [|lia]. exfalso.
      change 13 with (12 + 1) in Hl. rewrite before_month_S in Hl by lia. lia. }
    unfold move_month, u8_chk.
    replace ((0 <=? m + 1) && (m + 1 <=? 255))%bool with true by lia. cbn [bind].
    replace (m + 1 <=? 0) with false by lia. replace (m + 1 >? 12) with false by lia. cbn [bind].
    i64.
    destruct (IH (m + 1) (n - month_length y m)) as (m' & n' & E & HD & H1 & H2); try lia.
    { rewrite (before_month_S y m) by lia. lia. }
    exists m', n'. split; [exact E|]. split; [|auto].
    replace (Z.to_nat (n - 1))
      with (Z.to_nat (n - month_length y m - 1) + Z.to_nat (month_length y m))%nat by lia.
    rewrite days_after_add, whole_month by lia. exact HD.
  - exists m, n. split; [reflexivity|]. rewrite within_month by lia.
    split; [deq|lia].
Qed.

(** [get_date_values] from a first of January on. *)
Lemma get_date_values_after y0 n :
  0 <= y0 < 9900 -> 0 <= n < 8999999999999999999 ->
  let D := days_after (Z.to_nat n) (y0, 1, 1) in
  get_date_values n (y0, 1, 1) = if fst (fst D) <? 10000 then Ok D else Panic.
Proof.
  intros Hy Hn D. unfold get_date_values.
  replace (n <? 0) with false by lia. i64. cbn [align_year].
  change (1 >? 1) with false. cbv iota. cbn [bind].
  assert (HD : Date D y0 (n + 1)).
  { left. split; [lia|]. unfold D. replace (n + 1 - 1) with n by lia. reflexivity. }
  unfold as_usize. rewrite (Z.mod_small y0) by lia. rewrite Z.rem_mod_nonneg by lia.
  pose proof (Z.mod_pos_bound y0 100 ltac:(lia)).
  destruct (align_century_after D (Z.to_nat (100 - y0 mod 100)) y0 (n + 1))
    as (y1 & n1 & E1 & HD1 & Hn1 & Hy1 & Hc1); [lia|lia|lia|exact HD|].
  rewrite E1. cbn [bind]. clear E1.
  assert (Hcent : (n1 < year_length y1 /\ 0 <= y1 <= 9900) \/
                  (y1 mod 100 = 0 /\ 0 <= y1 <= 9900)).
  { destruct Hc1 as [[Hlt Hlt']|Hc1]; [left; lia|right; lia]. }
  clear Hc1.
  assert (Hfin : forall y2 n2, Date D y2 n2 -> 0 <= n2 <= year_length y2 -> 0 <= y2 <= 9999 ->
    ('(year, month, number_of_days) <- months 16 false y2 1 n2 ;;
     (if number_of_days =? 0
      then year0 <- i16_chk (year - 1) ;; Ok (year0, 12, 31)
      else Ok (year, month, as_u8 number_of_days))) = Ok D /\ fst (fst D) < 10000).
  { clear - D. intros y2 n2 HD Hn Hy. destruct HD as [[H1 HD]|[-> HD]].
    - pose proof (year_length_pos y2).
      destruct (months_after y2 16 1 n2) as (m & d & E & E' & Hm & Hd);
        [lia|lia|lia| |lia|].
      { rewrite before_month_13. change (before_month y2 1) with 0. lia. }
      rewrite E. cbn [bind].
      replace (d =? 0) with false by lia. rewrite HD, E'.
      unfold as_u8. rewrite Z.mod_small by lia. split; [reflexivity|cbn; lia].
    - cbn [months]. rewrite get_days_in_month_eq by lia. cbn [bind].
      change (0 >? month_length y2 1) with false. cbv iota. cbn [bind].
      change (0 =? 0) with true. cbv iota. i16. rewrite HD. split; [reflexivity|cbn; lia]. }
  destruct Hcent as [[Hlt Hy1']|[Hmod Hy1']].
  - (* the year was found before the end of the first century *)
    pose proof (year_length_pos y1).
    destruct (Hfin y1 n1 HD1) as [Hr HY]; [lia|lia|].
    replace (fst (fst D) <? 10000) with true by lia.
    cbn [centuries].
    destruct (get_days_in_century_some y1) as (c & Ec & Hc); [lia|]. rewrite Ec. cbn [bind].
    replace (n1 >? c) with false by lia. cbn [bind years].
    rewrite get_days_in_year_eq by lia. cbn [bind].
    replace (n1 >? year_length y1) with false by lia. cbn [bind]. exact Hr.
  - destruct (Z.ltb_spec (fst (fst D)) 10000) as [HY|HY].
    + destruct (centuries_after D 700 y1 n1) as (y2 & n2 & E2 & HD2 & Hn2 & Hy2 & Hc2);
        [lia|exact Hmod|lia|exact HD1|exact HY|lia|].
      rewrite E2. cbn [bind]. clear E2.
      assert (Hcl : 36524 <= century_length y2 <= 36525)
        by (unfold century_length; destruct (leapb y2); lia).
      destruct (years_after D 128 y2 n2 99) as (y3 & n3 & E3 & HD3 & Hn3 & Hy3);
        [lia|lia|lia|exact HD2| |lia|].
      { rewrite century_years by exact Hc2. lia. }
      rewrite E3. cbn [bind]. apply (Hfin y3 n3 HD3); lia.
    + rewrite (centuries_panics D) by (assumption || lia). reflexivity.
Qed.

(** ** Text *)
Local Open Scope N_scope.

Lemma digits_split w : forall v, digits (S w) v = digits w (v / 10) ++ [48 + v mod 10].
Proof.
  induction w as [|w IH]; intros v.
  - cbn. now rewrite N.div_1_r.
  - change (digits (S (S w)) v)
      with ((48 + (v / 10 ^ N.of_nat (S w)) mod 10) :: digits (S w) v).
    rewrite IH. cbn [digits app]. f_equal. f_equal. f_equal.
    rewrite N.div_div by (try apply N.pow_nonzero; lia).
    f_equal. rewrite Nat2N.inj_succ, N.pow_succ_r'. reflexivity.
Qed.

Lemma length_digits w v : length (digits w v) = w.
Proof. induction w; cbn; auto. Qed.

Lemma digits_zero w : digits w 0 = repeat 48 w.
Proof.
  induction w as [|w IH]; [reflexivity|]. cbn [digits repeat]. rewrite IH.
  rewrite N.div_0_l by (apply N.pow_nonzero; lia). reflexivity.
Qed.

Lemma decimal_pad fuel : forall w v,
  v < 10 ^ N.of_nat w -> (w <= S fuel)%nat -> (1 <= w)%nat ->
  repeat 48 (w - length (decimal fuel v)) ++ decimal fuel v = digits w v /\
  (length (decimal fuel v) <= w)%nat.
Proof.
  induction fuel as [|fuel IH]; intros w v Hv Hw Hw1.
  - assert (w = 1%nat) by lia. subst. cbn in *. rewrite N.div_1_r. split; [reflexivity|lia].
  - cbn [decimal]. destruct (N.ltb_spec v 10) as [Hlt|Hge].
    + destruct w as [|w]; [lia|]. rewrite digits_split.
      rewrite N.mod_small by lia. rewrite N.div_small by lia. rewrite digits_zero.
      cbn [length]. replace (S w - 1)%nat with w by lia. split; [reflexivity|lia].
    + destruct w as [|w]; [lia|].
      assert (Hv' : v / 10 < 10 ^ N.of_nat w).
      { rewrite Nat2N.inj_succ, N.pow_succ_r' in Hv. apply N.div_lt_upper_bound; lia. }
      destruct w as [|w].
      { cbn in Hv. lia. }
      destruct (IH (S w) (v / 10) Hv') as [E L]; [lia|lia|].
      rewrite digits_split, app_length. cbn [length].
      rewrite <- E, <- app_assoc. split; [|lia]. f_equal. f_equal. lia.
Qed.

Lemma fmt_digits w v :
  (0 <= v)%Z -> Z.to_N v < 10 ^ N.of_nat w -> (1 <= w <= 20)%nat -> fmt w v = digits w (Z.to_N v).
Proof.
  intros H1 H2 H3. unfold fmt. replace (v <? 0)%Z with false by lia. cbn [app length].
  rewrite Nat.sub_0_r. replace (Z.abs_N v) with (Z.to_N v) by lia.
  apply (decimal_pad 19 w); lia.
Qed.

Lemma fmt_time_iso s :
  let '(days, hours, minutes, seconds) := get_time_values s in
  days = (s / 86400)%Z /\ fmt_time hours minutes seconds = iso_time (Z.to_N (s mod 86400)).
Proof.
  unfold get_time_values, as_u8. split.
  - rewrite !Z.div_div by lia. reflexivity.
  - unfold fmt_time, iso_time.
    rewrite !(Z.mod_small (_ mod _) 256) by lia.
    assert (E3 : (s / 60 / 60 mod 24 = s mod 86400 / 3600)%Z) by lia.
    assert (E2 : (s / 60 mod 60 = s mod 86400 / 60 mod 60)%Z) by lia.
    assert (E1 : (s mod 60 = (s mod 86400) mod 60)%Z) by lia.
    rewrite E1, E2, E3.
    set (t := (s mod 86400)%Z). assert (0 <= t < 86400)%Z by (unfold t; lia). clearbody t.
    clear - H.
    rewrite !fmt_digits by (cbn; lia).
    replace (Z.to_N (t / 3600)) with (Z.to_N t / 3600) by lia.
    replace (Z.to_N ((t / 60) mod 60)) with ((Z.to_N t / 60) mod 60) by lia.
    replace (Z.to_N (t mod 60)) with (Z.to_N t mod 60) by lia. reflexivity.
Qed.

Lemma fmt_date_iso y m d :
  (0 <= y < 10000)%Z -> (1 <= m <= 12)%Z -> (1 <= d <= 31)%Z -> fmt_date y m d = iso_date (y, m, d).
Proof.
  intros. unfold fmt_date, iso_date. rewrite !fmt_digits by (cbn; lia). reflexivity.
Qed.

Local Open Scope Z_scope.
Lemma date_ok y n :
  0 <= n -> let '(_, m, d) := days_after (Z.to_nat n) (y, 1, 1) in 1 <= m <= 12 /\ 1 <= d <= 31.
Proof.
  intros H.
  assert (G : forall k, let '(y', m, d) := days_after k (y, 1, 1) in
                1 <= m <= 12 /\ 1 <= d <= month_length y' m).
  { induction k as [|k IH]; [cbn; lia|].
    rewrite days_after_S. destruct (days_after k (y, 1, 1)) as [[y' m] d]. unfold next_day.
    destruct (Z.ltb_spec d (month_length y' m)); [lia|].
    destruct (Z.ltb_spec m 12).
    - pose proof (month_length_pos y' (m + 1)). lia.
    - cbn. lia. }
  specialize (G (Z.to_nat n)). destruct (days_after _ _) as [[y' m] d].
  pose proof (month_length_pos y' m). lia.
Qed.
Lemma year_nonneg y n : 0 <= y -> 0 <= n -> 0 <= fst (fst (days_after (Z.to_nat n) (y, 1, 1))).
Proof.
  intros Hy Hn. pose proof (year_at_least y 0 n Hn). cbn [years_length] in H.
  specialize (H ltac:(lia)). lia.
Qed.
