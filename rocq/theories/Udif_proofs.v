From Verif Require Import Base BaseLemmas Bytes_model Streams_model Streams_spec Streams_proofs BlockTree_model BlockTree_spec BlockTree_proofs
  Blocks_model Blocks_proofs Lru_model Lru_proofs Image_proofs Sparse_proofs Part_spec Part_proofs Vhd_model Vhd_proofs Udif_model Udif_spec.
Ltac Zify.zify_post_hook ::= idtac.

(** ** Tables *)
Lemma entry_read_ok t i : 204 + 40 * i + 40 <= len t -> len t < two64 ->
  udif_entry_read (bytes_at t (204 + 40 * i) 40) = Ok (udif_table_entry t i).
Proof.
  intros H Hl. assert (Ld : len (bytes_at t (204 + 40 * i) 40) = 40) by (rewrite len_bytes_at; lia).
  unfold udif_entry_read. rewrite Ld. change (40 =? 40) with true. cbn [check bind].
  unfold u32_be, u64_be. rewrite !be_field by (rewrite Ld; unfold two64; lia). cbn [bind].
  rewrite !field_be_inner by lia. rewrite N.add_0_r. reflexivity.
Qed.
Lemma entries_read_shape t : len t < two64 -> forall n i,
  (204 + 40 * i + 40 * N.of_nat n <= len t /\ udif_entries_read n t (204 + 40 * i) = Ok (map (udif_table_entry t) (seqN i n))) \/
  (len t < 204 + 40 * i + 40 * N.of_nat n /\ udif_entries_read n t (204 + 40 * i) = Err \/ n = O).
Proof.
  intros Hl. induction n as [|n IH]; intros i; [right; right; reflexivity|].
  cbn [udif_entries_read seqN map]. destruct (N.ltb_spec (len t) (204 + 40 * i + 40)) as [H|H]; cbn [negb check bind].
  { right. left. split; [lia|reflexivity]. }
  rewrite slice_bytes_at by lia. replace (204 + 40 * i + 40 - (204 + 40 * i)) with 40 by lia. cbn [bind].
  rewrite entry_read_ok by assumption. cbn [bind].
  replace (204 + 40 * i + 40) with (204 + 40 * (i + 1)) by lia.
  destruct (IH (i + 1)) as [[H1 ->]|[[H1 ->]| ->]]; cbn [bind].
  - left. split; [lia|reflexivity].
  - right. left. split; [lia|reflexivity].
  - left. split; [lia|reflexivity].
Qed.
Lemma table_shape t : len t < two64 ->
  (udif_table_ok t /\ udif_table_read t = Ok (udif_table_start t, map (udif_table_entry t) (seqN 0 (N.to_nat (udif_table_number t))))) \/
  (~ udif_table_ok t /\ udif_table_read t = Err).
Proof.
  intros Hl. unfold udif_table_read, udif_table_ok. destruct (N.ltb_spec (len t) 204) as [H|H]; cbn [negb check bind].
  { right. split; [intros [H1 _]; lia|reflexivity]. }
  rewrite slice_bytes_at by lia. change (204 - 0) with 204. cbn [bind].
  assert (Ld : len (bytes_at t 0 204) = 204) by (rewrite len_bytes_at; lia).
  unfold udif_table_header_read. rewrite Ld. change (204 =? 204) with true. cbn [check bind].
  rewrite slice_bytes_at by lia. change (4 - 0) with 4. rewrite bytes_at_bytes_at by lia. change (0 + 0) with 0. cbn [bind].
  destruct (same_bytes (bytes_at t 0 4) udif_table_signature) eqn:Es; cbn [check bind].
  2:{ right. split; [|reflexivity]. intros (_ & H1 & _). apply same_bytes_true in H1. unfold udif_table_signature in Es. congruence. }
  apply same_bytes_true in Es. unfold u32_be, u64_be. rewrite !be_field by (rewrite Ld; unfold two64; lia). cbn [bind].
  rewrite !field_be_inner by lia. rewrite !N.add_0_l.
  destruct (N.eqb_spec (field_be t 4 4) 1) as [E1|E1]; cbn [check bind].
  2:{ right. split; [|reflexivity]. intros (_ & _ & H1). contradiction. }
  change (field_be t 8 8) with (udif_table_start t). change (field_be t 200 4) with (udif_table_number t).
  pose proof (entries_read_shape t Hl (N.to_nat (N.min (udif_table_number t) (len t))) 0) as S.
  change (204 + 40 * 0) with 204 in S. rewrite N2Nat.id in S.
  destruct S as [[H1 ->]|[[H1 ->]|H1]]; cbn [bind].
  - left. assert (H2 : udif_table_number t <= len t) by lia. rewrite N.min_l in H1 |- * by lia. split; [auto|reflexivity].
  - right. split; [|reflexivity]. intros (H2 & _). lia.
  - assert (H2 : udif_table_number t = 0) by lia. left. rewrite H1, H2. split; [split; [lia|auto]|]. reflexivity.
Qed.

(** ** The ranges of the tables *)
Definition range_of (o : N) (e : udif_entry) : udif_range :=
  {| ur_media_offset := o; ur_data_offset := if udif_is_zero e then 0 else ue_offset e; ur_size := ue_sectors e * 512;
     ur_compressed_size := if udif_is_compressed e then ue_size e mod two32 else 0;
     ur_type := if udif_is_zero e then UdifSparse else if udif_is_raw e then UdifInFile else UdifCompressed |}.
Fixpoint ranges_of (o : N) (l : list udif_entry) : list udif_range :=
  match l with [] => [] | e :: l => range_of o e :: ranges_of (o + ue_sectors e * 512) l end.
Fixpoint methods_ok (c : N) (l : list udif_entry) : Prop :=
  match l with
  | [] => True
  | e :: l => if udif_is_compressed e then (c = 0 \/ ue_type e = c) /\ methods_ok (ue_type e) l else methods_ok c l
  end.
Fixpoint method (c : N) (l : list udif_entry) : N :=
  match l with [] => c | e :: l => method (if udif_is_compressed e then ue_type e else c) l end.
Definition state_of (s : udif_state) (l : list udif_entry) : udif_state :=
  {| us_ranges := rev (ranges_of (us_offset s) l) ++ us_ranges s; us_sector := us_sector s + udif_sectors l;
     us_offset := us_offset s + 512 * udif_sectors l; us_compressed := method (us_compressed s) l |}.

Lemma type_cases e :
  udif_is_zero e = true /\ udif_is_raw e = false /\ udif_is_compressed e = false \/
  udif_is_zero e = false /\ udif_is_raw e = true /\ udif_is_compressed e = false \/
  udif_is_zero e = false /\ udif_is_raw e = false /\ udif_is_compressed e = true \/
  udif_is_zero e = false /\ udif_is_raw e = false /\ udif_is_compressed e = false.
Proof.
  unfold udif_is_zero, udif_is_raw, udif_is_compressed.
  destruct (N.eqb_spec (ue_type e) 0), (N.eqb_spec (ue_type e) 2), (N.eqb_spec (ue_type e) 1), (N.leb_spec 0x80000004 (ue_type e)),
    (N.leb_spec (ue_type e) 0x80000007); cbn [orb andb]; try tauto; lia.
Qed.

Lemma udif_entries_cons fo fe st e l s : ue_type e <> 0xffffffff -> ue_type e <> 0x7ffffffe ->
  us_offset s = 512 * us_sector s -> us_offset s < two64 -> st <= us_sector s ->
  (st + ue_start e = us_sector s /\ udif_range_ok fo fe e /\
     (udif_is_compressed e = true -> us_compressed s = 0 \/ ue_type e = us_compressed s) /\
     512 * (us_sector s + ue_sectors e) < two64 /\
     udif_entries fo fe st (e :: l) s = udif_entries fo fe st l (state_of s [e])) \/
  (~ (st + ue_start e = us_sector s /\ udif_range_ok fo fe e /\
     (udif_is_compressed e = true -> us_compressed s = 0 \/ ue_type e = us_compressed s) /\
     512 * (us_sector s + ue_sectors e) < two64) /\
   (udif_entries fo fe st (e :: l) s = Err \/ 
    udif_entries fo fe st (e :: l) s = Panic /\ two64 <= 512 * (us_sector s + ue_sectors e))).
Proof.
  intros H1 H2 Ho Ho' Hst. remember (udif_entries fo fe st (e :: l) s) as q eqn:Eq. cbn [udif_entries] in Eq.
  destruct (N.eqb_spec (ue_type e) 0xffffffff); [contradiction|]. destruct (N.eqb_spec (ue_type e) 0x7ffffffe); [contradiction|].
  assert (Hm : maximum_number_of_sectors = 36028797018963967) by reflexivity. rewrite Hm in Eq.
  assert (Hs : us_sector s <= 36028797018963967) by (unfold two64 in *; lia).
  assert (Es : sub_chk 36028797018963967 st = Ok (36028797018963967 - st)).
  { unfold sub_chk. destruct (N.leb_spec st 36028797018963967); [reflexivity|lia]. }
  rewrite Es in Eq. cbn [bind] in Eq.
  destruct (N.ltb_spec (36028797018963967 - st) (ue_start e)) as [L|L]; cbn [negb check bind] in Eq.
  { right. split; [|left; exact Eq]. intros (E & _). lia. }
  destruct (N.eqb_spec (st + ue_start e) (us_sector s)) as [E|E]; cbn [check bind] in Eq.
  2:{ right. split; [|left; exact Eq]. intros (E' & _). lia. }
  unfold udif_range_ok.
  destruct (N.eqb_spec (ue_sectors e) 0) as [E0|E0]; cbn [orb negb check bind] in Eq.
  { right. split; [|left; exact Eq]. intros (_ & (_ & E' & _) & _). lia. }
  destruct (N.ltb_spec 36028797018963967 (ue_sectors e)) as [L1|L1]; cbn [orb negb check bind] in Eq.
  { right. split; [|left; exact Eq]. intros (_ & _ & _ & E'). unfold two64 in E'. lia. }
  destruct (N.ltb_spec (ue_offset e) fo) as [L2|L2]; cbn [orb negb check bind] in Eq.
  { right. split; [|left; exact Eq]. intros (_ & (_ & _ & E' & _) & _). lia. }
  destruct (N.leb_spec fe (ue_offset e)) as [L3|L3]; cbn [orb negb check bind] in Eq.
  { right. split; [|left; exact Eq]. intros (_ & (_ & _ & E' & _) & _). lia. }
  destruct (N.ltb_spec (fe - ue_offset e) (ue_size e)) as [L4|L4]; cbn [orb negb check bind] in Eq.
  { right. split; [|left; exact Eq]. intros (_ & (_ & _ & _ & E') & _). lia. }
  assert (Eqz : (ue_type e =? 0) || (ue_type e =? 2) = udif_is_zero e) by reflexivity.
  assert (Eqr : (ue_type e =? 1) = udif_is_raw e) by reflexivity.
  assert (Eqc : (0x80000004 <=? ue_type e) && (ue_type e <? 0x80000008) = udif_is_compressed e).
  { unfold udif_is_compressed. f_equal. destruct (N.ltb_spec (ue_type e) 0x80000008), (N.leb_spec (ue_type e) 0x80000007); auto; lia. }
  rewrite Eqz, Eqr, Eqc in Eq.
  assert (Fin : forall c, 
    ('(r, compressed) <- Ok (range_of (us_offset s) e, c) ;;
        offset <- add_chk two64 (us_offset s) (ue_sectors e * 512) ;;
        sector <- add_chk two64 (us_sector s) (ue_sectors e) ;;
        udif_entries fo fe st l
          {| us_ranges := r :: us_ranges s; us_sector := sector; us_offset := offset; us_compressed := compressed |}) = q ->
    c = (if udif_is_compressed e then ue_type e else us_compressed s) ->
    512 * (us_sector s + ue_sectors e) < two64 /\ q = udif_entries fo fe st l (state_of s [e]) \/
    two64 <= 512 * (us_sector s + ue_sectors e) /\ q = Panic).
  { intros c E' Ec. cbn [bind] in E'. unfold add_chk at 1 in E'.
    destruct (N.ltb_spec (us_offset s + ue_sectors e * 512) two64) as [Lf|Lf]; cbn [bind] in E'; [left|right; split; [lia|auto]].
    split; [lia|]. unfold add_chk in E'. destruct (N.ltb_spec (us_sector s + ue_sectors e) two64); [|lia]. cbn [bind] in E'.
    rewrite <- E'. f_equal. unfold state_of. cbn [ranges_of rev app udif_sectors fold_right method]. rewrite Ec. f_equal; lia. }
  destruct (type_cases e) as [(Z1 & Z2 & Z3)|[(Z1 & Z2 & Z3)|[(Z1 & Z2 & Z3)|(Z1 & Z2 & Z3)]]]; rewrite Z1, ?Z2, ?Z3 in Eq.
  - destruct (Fin (us_compressed s)) as [[F1 F2]|[F1 F2]].
    + rewrite Eq. unfold range_of. rewrite Z1, Z3. reflexivity.
    + rewrite Z3. reflexivity.
    + left. split; [assumption|]. split; [split; [auto|split; [lia|split; lia]]|]. split; [congruence|]. auto.
    + right. split; [intros (_ & _ & _ & F); lia|]. right. auto.
  - destruct (Fin (us_compressed s)) as [[F1 F2]|[F1 F2]].
    + rewrite Eq. unfold range_of. rewrite Z1, Z2, Z3. reflexivity.
    + rewrite Z3. reflexivity.
    + left. split; [assumption|]. split; [split; [auto|split; [lia|split; lia]]|]. split; [congruence|]. auto.
    + right. split; [intros (_ & _ & _ & F); lia|]. right. auto.
  - destruct (N.ltb_spec 2048 (ue_sectors e)) as [L5|L5]; cbn [negb check bind] in Eq.
    { right. split; [|left; exact Eq]. intros (_ & ([E'|[E'|[_ E']]] & _) & _); [congruence|congruence|lia]. }
    destruct ((us_compressed s =? 0) || (ue_type e =? us_compressed s)) eqn:Ec; cbn [check bind] in Eq.
    2:{ right. split; [|left; exact Eq]. apply orb_false_iff in Ec as [Ec1 Ec2]. apply N.eqb_neq in Ec1, Ec2.
        intros (_ & _ & E' & _). specialize (E' Z3). tauto. }
    assert (Ec' : us_compressed s = 0 \/ ue_type e = us_compressed s) by (apply orb_true_iff in Ec as [Ec|Ec]; apply N.eqb_eq in Ec; auto).
    destruct (Fin (ue_type e)) as [[F1 F2]|[F1 F2]].
    + rewrite Eq. unfold range_of. rewrite Z1, Z2, Z3. reflexivity.
    + rewrite Z3. reflexivity.
    + left. split; [assumption|]. split; [split; [auto|split; [lia|split; lia]]|]. split; [auto|]. auto.
    + right. split; [intros (_ & _ & _ & F); lia|]. right. auto.
  - right. split; [|left; exact Eq]. intros (_ & ([E'|[E'|[E' _]]] & _) & _); congruence.
Qed.

Lemma sectors_cons e l : udif_sectors (e :: l) = ue_sectors e + udif_sectors l.
Proof. reflexivity. Qed.
Lemma sectors_app a b : udif_sectors (a ++ b) = udif_sectors a + udif_sectors b.
Proof. induction a as [|e a IH]; [reflexivity|]. cbn [app]. rewrite !sectors_cons. lia. Qed.
Lemma ranges_of_app a : forall b o, ranges_of o (a ++ b) = ranges_of o a ++ ranges_of (o + 512 * udif_sectors a) b.
Proof.
  induction a as [|e a IH]; intros b o.
  - cbn [app ranges_of udif_sectors fold_right]. f_equal. lia.
  - cbn [app ranges_of]. rewrite IH, sectors_cons. do 3 f_equal. lia.
Qed.
Lemma method_app a : forall b c, method c (a ++ b) = method (method c a) b.
Proof. induction a as [|e a IH]; intros b c; [reflexivity|]. cbn [app method]. apply IH. Qed.
Lemma methods_ok_app a : forall b c, methods_ok c (a ++ b) <-> methods_ok c a /\ methods_ok (method c a) b.
Proof.
  induction a as [|e a IH]; intros b c; cbn [app methods_ok method]; [tauto|].
  destruct (udif_is_compressed e); rewrite IH; tauto.
Qed.
Lemma state_of_app s a b : state_of (state_of s a) b = state_of s (a ++ b).
Proof.
  unfold state_of. cbn [us_ranges us_sector us_offset us_compressed]. rewrite ranges_of_app, rev_app_distr, <- app_assoc, sectors_app, method_app.
  f_equal; lia.
Qed.

Definition entries_ok (fo fe : N) (s : udif_state) (l : list udif_entry) : Prop :=
  Forall (udif_range_ok fo fe) l /\ methods_ok (us_compressed s) l /\ 512 * (us_sector s + udif_sectors l) < two64.
Lemma entries_shape fo fe st : forall l s, us_offset s = 512 * us_sector s -> us_offset s < two64 -> st <= us_sector s ->
  let rs := udif_before_end l in
  (udif_consecutive (us_sector s - st) rs /\ entries_ok fo fe s rs /\ udif_entries fo fe st l s = Ok (state_of s rs)) \/
  (~ (udif_consecutive (us_sector s - st) rs /\ entries_ok fo fe s rs) /\
   (udif_entries fo fe st l s = Err \/ udif_entries fo fe st l s = Panic /\ two64 <= 512 * (us_sector s + udif_sectors rs))).
Proof.
  induction l as [|e l IH]; intros s Ho Ho' Hst; cbv zeta.
  - left. cbn [udif_before_end udif_consecutive udif_entries]. split; [exact I|]. split.
    + split; [constructor|]. split; [exact I|]. cbn [udif_sectors fold_right]. lia.
    + unfold state_of. cbn [ranges_of rev app udif_sectors fold_right method]. rewrite !N.add_0_r. destruct s; reflexivity.
  - cbn [udif_before_end]. destruct (N.eqb_spec (ue_type e) 0xffffffff) as [E1|E1].
    { left. cbn [udif_entries]. apply N.eqb_eq in E1. rewrite E1. cbn [udif_consecutive]. split; [exact I|]. split.
      + split; [constructor|]. split; [exact I|]. cbn [udif_sectors fold_right]. lia.
      + unfold state_of. cbn [ranges_of rev app udif_sectors fold_right method]. rewrite !N.add_0_r. destruct s; reflexivity. }
    destruct (N.eqb_spec (ue_type e) 0x7ffffffe) as [E2|E2].
    { assert (Es : udif_entries fo fe st (e :: l) s = udif_entries fo fe st l s).
      { cbn [udif_entries]. apply N.eqb_neq in E1. apply N.eqb_eq in E2. rewrite E1, E2. reflexivity. }
      rewrite Es. apply IH; assumption. }
    cbn [udif_consecutive]. set (rs := udif_before_end l) in *.
    unfold entries_ok. rewrite Forall_cons_iff, sectors_cons. cbn [methods_ok].
    destruct (udif_entries_cons fo fe st e l s E1 E2 Ho Ho' Hst) as [(H1 & H2 & H3 & H4 & ->)|(H1 & H2)].
    + destruct (IH (state_of s [e])) as [(I1 & I2 & I3)|(I1 & I2)];
        cbn [state_of us_sector us_offset us_compressed udif_sectors fold_right method]; try lia.
      * left. cbn [state_of us_sector us_offset us_compressed udif_sectors fold_right method] in I1, I2.
        replace (us_sector s + (ue_sectors e + 0) - st) with (us_sector s - st + ue_sectors e) in I1 by lia.
        destruct I2 as (J1 & J2 & J3). cbn [state_of us_sector us_offset us_compressed udif_sectors fold_right method] in J2, J3.
        split; [split; [lia|exact I1]|]. split.
        -- split; [auto|]. split; [|unfold udif_sectors in *; lia]. destruct (udif_is_compressed e); auto.
        -- rewrite I3, state_of_app. reflexivity.
      * right. split.
        -- intros [[_ K1] ([_ K2] & K3 & K4)]. apply I1. cbn [state_of us_sector us_offset us_compressed udif_sectors fold_right method].
           replace (us_sector s + (ue_sectors e + 0) - st) with (us_sector s - st + ue_sectors e) by lia.
           split; [assumption|]. unfold entries_ok. cbn [state_of us_sector us_offset us_compressed udif_sectors fold_right method].
           split; [assumption|]. split; [|unfold udif_sectors in *; lia]. destruct (udif_is_compressed e); tauto.
        -- destruct I2 as [I2|[I2 I4]]; [left; assumption|right; split; [assumption|]].
           cbn [state_of us_sector us_offset us_compressed udif_sectors fold_right method] in I4. unfold rs in *. unfold udif_sectors in *. lia.
    + right. split.
      * intros [[K0 K1] ([K5 K2] & K3 & K4)]. apply H1. split; [lia|]. split; [assumption|]. split; [|lia].
        intros Ec. rewrite Ec in K3. tauto.
      * destruct H2 as [H2|[H2 H3]]; [left|right]; auto. split; [assumption|]. lia.
Qed.

Lemma tables_shape fo fe : forall tables s, Forall (fun t => len t < two64) tables ->
  us_offset s = 512 * us_sector s -> us_offset s < two64 ->
  let rs := udif_ranges tables in
  (udif_tables_follow (us_sector s) tables /\ entries_ok fo fe s rs /\ udif_tables fo fe tables s = Ok (state_of s rs)) \/
  (~ (udif_tables_follow (us_sector s) tables /\ entries_ok fo fe s rs) /\
   (udif_tables fo fe tables s = Err \/ udif_tables fo fe tables s = Panic /\ two64 <= 512 * (us_sector s + udif_sectors rs))).
Proof.
  induction tables as [|t tables IH]; intros s Hw Ho Ho'; cbv zeta.
  - left. cbn [udif_tables_follow udif_tables udif_ranges flat_map]. split; [exact I|]. split.
    + split; [constructor|]. split; [exact I|]. cbn [udif_sectors fold_right]. lia.
    + unfold state_of. cbn [ranges_of rev app udif_sectors fold_right method]. rewrite !N.add_0_r. destruct s; reflexivity.
  - apply Forall_cons_iff in Hw as [Hl Hw]. cbn [udif_tables_follow udif_tables].
    change (udif_ranges (t :: tables)) with (udif_table_ranges t ++ udif_ranges tables).
    unfold entries_ok. rewrite Forall_app, methods_ok_app, sectors_app.
    destruct (table_shape t Hl) as [[Ht ->]|[Ht ->]]; cbn [bind].
    2:{ right. split; [tauto|left; reflexivity]. }
    destruct (N.eqb_spec (udif_table_start t) (us_sector s)) as [Es|Es]; cbn [check bind].
    2:{ right. split; [tauto|left; reflexivity]. }
    rewrite Es. pose proof (entries_shape fo fe (us_sector s) (map (udif_table_entry t) (seqN 0 (N.to_nat (udif_table_number t)))) s Ho Ho' (N.le_refl _)) as S.
    cbv zeta in S. fold (udif_table_ranges t) in S. rewrite N.sub_diag in S. set (rs := udif_table_ranges t) in *.
    destruct S as [(S1 & (S2 & S3 & S4) & ->)|(S1 & S2)]; cbn [bind].
    + destruct (IH (state_of s rs)) as [(I1 & (I2 & I3 & I4) & ->)|(I1 & I2)]; cbn [state_of us_sector us_offset us_compressed] in *; try lia; auto.
      * left. split; [auto|]. split; [split; [auto|split; [auto|lia]]|]. rewrite state_of_app. reflexivity.
      * right. split.
        -- intros [(_ & _ & _ & K1) ((_ & K2) & (_ & K3) & K4)]. apply I1. unfold entries_ok. cbn [state_of us_sector us_offset us_compressed].
           split; [assumption|]. split; [assumption|]. split; [assumption|]. lia.
        -- destruct I2 as [I2|[I2 I3]]; [left; assumption|right]. split; [assumption|lia].
    + right. split.
      * intros [(_ & _ & K0 & _) ((K1 & _) & (K2 & _) & K4)]. apply S1. split; [assumption|]. split; [assumption|]. split; [assumption|]. lia.
      * destruct S2 as [->|[-> S3]]; cbn [bind]; [left; reflexivity|right]. split; [reflexivity|lia].
Qed.

Lemma methods_one l : methods_ok 0 l <-> udif_one_method l.
Proof.
  assert (G : forall c, c <> 0 -> methods_ok c l <-> Forall (fun e => udif_is_compressed e = true -> ue_type e = c) l).
  { induction l as [|e l IH]; intros c Hc; cbn [methods_ok]; [split; auto|]. rewrite Forall_cons_iff.
    destruct (udif_is_compressed e) eqn:Ec.
    - split; [intros [[H|H] H']|intros [H H']]; [contradiction| |].
      + subst c. split; [auto|]. apply IH; assumption.
      + specialize (H eq_refl). subst c. split; [auto|]. apply IH; assumption.
    - rewrite IH by assumption. intuition discriminate. }
  unfold udif_one_method. induction l as [|e l IH]; cbn [methods_ok]; [split; [exists 0; constructor|auto]|].
  destruct (udif_is_compressed e) eqn:Ec.
  - assert (Hn : ue_type e <> 0).
    { unfold udif_is_compressed in Ec. destruct (N.leb_spec 0x80000004 (ue_type e)); [lia|discriminate]. }
    split.
    + intros [_ H]. exists (ue_type e). specialize (G (ue_type e) Hn). cbn [methods_ok] in G. rewrite Ec in G. apply G. auto.
    + intros (m & H). split; [auto|]. assert (H' := H). apply Forall_cons_iff in H' as [Em _]. specialize (Em Ec). subst m.
      specialize (G (ue_type e) Hn). cbn [methods_ok] in G. rewrite Ec in G. apply G. assumption.
  - assert (G' : forall c, c <> 0 -> methods_ok c l <-> Forall (fun e => udif_is_compressed e = true -> ue_type e = c) l).
    { intros c Hc. specialize (G c Hc). cbn [methods_ok] in G. rewrite Ec, Forall_cons_iff in G. rewrite G. intuition congruence. }
    rewrite (IH G'). split; intros (m & H); exists m; [constructor; [congruence|assumption]|]. apply Forall_cons_iff in H as [_ H]. assumption.
Qed.

(** ** Consecutive ranges inserted last one first *)
Lemma spec_inserts_app {V} d slot a : forall (m : slot_map V) b,
  spec_inserts d slot m (a ++ b) =
  (fst (spec_inserts d slot (fst (spec_inserts d slot m a)) b),
   snd (spec_inserts d slot m a) ++ snd (spec_inserts d slot (fst (spec_inserts d slot m a)) b)).
Proof.
  induction a as [|[[o s] v] a IH]; intros m b; cbn [app spec_inserts fst snd].
  - destruct (spec_inserts d slot m b); reflexivity.
  - destruct (spec_insert d slot m o s v) as [m1 r]. rewrite IH. destruct (spec_inserts d slot m1 a) as [m2 rs]. cbn [fst snd app]. reflexivity.
Qed.
Lemma reversed_accepted {V} d slot (l : list (N * V)) : 0 < slot -> forall o m,
  o mod slot = 0 -> Forall (fun e => fst e mod slot = 0) l -> o + total l <= d ->
  (forall x, o / slot <= x -> m x = None) ->
  Forall (fun b => b = true) (snd (spec_inserts d slot m (rev (consecutive o l)))) /\
  (forall x, x < o / slot -> fst (spec_inserts d slot m (rev (consecutive o l))) x = m x).
Proof.
  intros Hs. induction l as [|[s v] l IH]; intros o m Ho Hl Ht Hm.
  { cbn [consecutive rev spec_inserts fst snd]. split; [constructor|reflexivity]. }
  apply Forall_cons_iff in Hl as [Hs0 Hl]. cbn [fst] in Hs0.
  cbn [total fold_right fst] in Ht. fold (total l) in Ht.
  cbn [consecutive rev]. rewrite spec_inserts_app. cbn [fst snd].
  assert (Ed : (o + s) / slot = o / slot + s / slot).
  { apply N.mod_divides in Hs0 as [q ->]; [|lia]. rewrite N.mul_comm, N.div_add, N.div_mul by lia. reflexivity. }
  assert (Em : (o + s) mod slot = 0).
  { rewrite N.add_mod, Ho, Hs0 by lia. apply N.mod_0_l. lia. }
  destruct (IH (o + s) m Em Hl ltac:(lia)) as [I1 I2].
  { intros x Hx. apply Hm. rewrite Ed in Hx. pose proof (N.le_0_l (s / slot)). remember (s / slot). remember (o / slot). lia. }
  set (m1 := fst (spec_inserts d slot m (rev (consecutive (o + s) l)))) in *.
  cbn [spec_inserts]. unfold spec_insert. rewrite Ho, Hs0. destruct (N.leb_spec (o + s) d); [|lia]. cbn [N.eqb andb].
  destruct (BlockTree_proofs.fill_free (N.to_nat (s / slot)) (o / slot) v m1) as [F1 F2].
  { intros x Hx. rewrite I2 by lia. apply Hm. apply Hx. }
  destruct (fill _ _ v m1) as [m2 b]. cbn [fst snd] in *. subst b. split.
  - apply Forall_app. split; [assumption|]. constructor; [reflexivity|constructor].
  - intros x Hx. rewrite F2. destruct (N.leb_spec (o / slot) x); [lia|]. cbn [andb]. apply I2. rewrite Ed. pose proof (N.le_0_l (s / slot)). remember (s / slot). remember (o / slot). lia.
Qed.
Lemma reversed_tree {V} d el slot (l : list (N * V)) :
  0 < slot -> Forall (fun e => 0 < fst e /\ fst e mod slot = 0) l -> total l <= d ->
  flat_geometry d el slot (rev (consecutive 0 l)) \/ levelled_geometry d el slot 0 (rev (consecutive 0 l)) ->
  exists t, insert_ranges (bt_new d el slot) (rev (consecutive 0 l)) = Ok t /\
    forall x, x < total l -> exists o s v, bt_get t x = Ok (Some v) /\ In (o, s, v) (consecutive 0 l) /\ o <= x < o + s.
Proof.
  intros Hs Hl Ht G.
  assert (A : Forall (fun r => r = Ok tt) (map accepted (snd (spec_inserts d slot nothing (rev (consecutive 0 l)))))).
  { apply Forall_map. eapply Forall_impl; [|apply reversed_accepted; auto].
    - intros b ->. reflexivity.
    - eapply Forall_impl; [|exact Hl]. intros e He. apply He. }
  assert (E : exists t, bt_inserts (bt_new d el slot) (rev (consecutive 0 l)) = (t, map accepted (snd (spec_inserts d slot nothing (rev (consecutive 0 l)))))).
  { destruct G as [G|G]; [destruct (flat_map_ok _ _ _ _ G) as (t & E & _)|destruct (levelled_map_ok _ _ _ _ _ G) as (t & E & _)]; eauto. }
  destruct E as (t & E). exists t. split.
  - rewrite insert_ranges_inserts; rewrite E; [reflexivity|exact A].
  - intros x Hx. destruct (consecutive_covers l 0 x) as ([[o s] v] & He & Hc); [lia|].
    exists o, s, v. split; [|split; [assumption|exact Hc]].
    eapply (accepted_ok (V := V) d el slot 0 (rev (consecutive 0 l)) t _ G E A x v); [lia|].
    exists (o, s, v). split; [apply -> in_rev; assumption|split; [exact Hc|reflexivity]].
Qed.

(** ** A cache of values that belong to their keys *)
Definition cache_ok {V} (P : N -> V -> Prop) (n : N) (c : lru V) : Prop :=
  lru_inv c /\ lru_size c = n /\ forall k v, lru_get c k = Some v -> P k v.
Lemma cache_ok_new {V} (P : N -> V -> Prop) n : cache_ok P n (lru_new n).
Proof. split; [apply lru_inv_new|]. split; [reflexivity|]. intros k v H. discriminate. Qed.
Lemma cache_ok_insert {V} (P : N -> V -> Prop) n c k v : 0 < n -> cache_ok P n c -> P k v ->
  exists c', lru_insert c k v = Ok c' /\ cache_ok P n c' /\ lru_get c' k = Some v.
Proof.
  intros Hn (Hi & Hs & Hp) Hv. destruct (lru_insert_inv c k v) as (c' & E & Hi' & Hs'); [lia|assumption|].
  exists c'. split; [assumption|]. destruct (insert_shape c k v) as (c'' & E' & _ & Sh); [lia|apply Hi|]. rewrite E in E'. injection E' as <-.
  assert (Hg : lru_get c' k = Some v /\ forall k' v', lru_get c' k' = Some v' -> k' = k /\ v' = v \/ lru_get c k' = Some v').
  { unfold lru_get. destruct Sh as [(_ & _ & ->)|(old & rest & _ & _ & _ & ->)]; (split; [rewrite hm_get_insert, N.eqb_refl; reflexivity|]);
      intros k' v'; rewrite hm_get_insert; destruct (N.eqb_spec k' k) as [->|_]; try (intros [= ->]; auto; fail); auto.
    rewrite hm_get_remove. destruct (k' =? old); [discriminate|auto]. }
  destruct Hg as [Hg1 Hg2]. split; [|assumption]. split; [assumption|]. split; [lia|].
  intros k' v' H. destruct (Hg2 k' v' H) as [[-> ->]|H']; auto.
Qed.

Lemma bytes_at_zeros n o k : o + k <= n -> bytes_at (repeat 0 (N.to_nat n)) o k = repeat 0 (N.to_nat k).
Proof. intros H. unfold bytes_at. rewrite skipn_repeat, firstn_repeat. f_equal. lia. Qed.

(** ** Reads *)
  Definition sized (l : list udif_range) : list (N * udif_range) := map (fun r => (ur_size r, r)) l.

  Lemma ranges_consecutive l : forall o, map (fun r => (ur_media_offset r, ur_size r, r)) (ranges_of o l) = consecutive o (sized (ranges_of o l)).
  Proof. induction l as [|e l IH]; intros o; [reflexivity|]. cbn [ranges_of sized map consecutive]. rewrite IH. reflexivity. Qed.
  Lemma total_ranges l : forall o, total (sized (ranges_of o l)) = 512 * udif_sectors l.
  Proof.
    induction l as [|e l IH]; intros o; [reflexivity|]. cbn [ranges_of sized map total fold_right fst]. fold (sized (ranges_of (o + ue_sectors e * 512) l)).
    fold (total (sized (ranges_of (o + ue_sectors e * 512) l))). rewrite IH, sectors_cons. cbn [range_of ur_size]. lia.
  Qed.
  Lemma in_ranges l : forall o r, In r (ranges_of o l) -> exists o' e, In e l /\ r = range_of o' e.
  Proof.
    induction l as [|e l IH]; intros o r H; [destruct H|]. cbn [ranges_of] in H. destruct H as [<-|H].
    - exists o, e. split; [left|]; reflexivity.
    - destruct (IH _ _ H) as (o' & e' & H1 & H2). exists o', e'. split; [right|]; assumption.
  Qed.
  Lemma in_consecutive {V} (l : list (N * V)) : forall o o' s v, In (o', s, v) (consecutive o l) -> In (s, v) l.
  Proof.
    induction l as [|[s0 v0] l IH]; intros o o' s v H; [destruct H|]. cbn [consecutive] in H. destruct H as [[= <- <- <-]|H]; [left; reflexivity|].
    right. eapply IH; exact H.
  Qed.
  Lemma in_consecutive_ranges l o o' s r : In (o', s, r) (consecutive o (sized (ranges_of o l))) -> o' = ur_media_offset r /\ s = ur_size r /\ In r (ranges_of o l).
  Proof.
    rewrite <- ranges_consecutive. intros H. apply in_map_iff in H as (r' & [= <- <- <-] & H). auto.
  Qed.

Section Reads.
  Variables (decompress : N -> list N -> N -> res (list N)) (file : list N) (m : N).
  Hypothesis (Hlen : len file < two64).

  Definition rpiece (r : N * udif_range) : list N :=
    let r := snd r in
    match ur_type r with
    | UdifSparse => repeat 0 (N.to_nat (ur_size r))
    | UdifInFile => bytes_at file (ur_data_offset r) (ur_size r)
    | UdifCompressed =>
        match decompress m (bytes_at file (ur_data_offset r) (ur_compressed_size r)) (ur_size r) with Ok data => data | _ => [] end
    end.
  Definition typed (fo fe : N) (e : udif_entry) : Prop :=
    udif_range_ok fo fe e /\ udif_complete decompress file e /\ (udif_is_compressed e = true -> ue_type e = m).
  Lemma rpiece_range fo fe e o : typed fo fe e ->
    rpiece (ur_size (range_of o e), range_of o e) = udif_piece decompress file e /\ len (udif_piece decompress file e) = 512 * ue_sectors e.
  Proof.
    intros ((Ht & _) & (Hr & Hc) & Hm). unfold rpiece, udif_piece, range_of. cbn [snd ur_type ur_size ur_data_offset ur_compressed_size]. rewrite (N.mul_comm (ue_sectors e)).
    destruct (type_cases e) as [(-> & E2 & E3)|[(-> & E2 & E3)|[(-> & E2 & E3)|(E1 & E2 & E3)]]].
    - split; [reflexivity|]. rewrite len_repeat. lia.
    - rewrite E2. split; [reflexivity|]. specialize (Hr E2). rewrite len_bytes_at. lia.
    - rewrite E2, E3. specialize (Hm E3). subst m. destruct (Hc E3) as (H1 & H2 & data & H3 & H4). rewrite N.mod_small by assumption. rewrite H3. auto.
    - rewrite E1, E2, E3 in Ht. exfalso. intuition discriminate.
  Qed.
  Lemma rpieces fo fe l : Forall (typed fo fe) l -> forall o,
    flat_map rpiece (sized (ranges_of o l)) = flat_map (udif_piece decompress file) l /\
    Forall (fun e => len (rpiece e) = fst e) (sized (ranges_of o l)) /\
    Forall (fun e => 0 < fst e /\ fst e mod 512 = 0) (sized (ranges_of o l)).
  Proof.
    induction 1 as [|e l He Hl IH]; intros o; [repeat split; constructor|]. cbn [ranges_of sized map flat_map].
    fold (sized (ranges_of (o + ue_sectors e * 512) l)). destruct (IH (o + ue_sectors e * 512)) as (I1 & I2 & I3). rewrite I1.
    destruct (rpiece_range fo fe e o He) as [P1 P2]. rewrite P1. split; [reflexivity|]. split; constructor; try assumption.
    - rewrite P1, P2. cbn [fst range_of ur_size]. lia.
    - cbn [fst range_of ur_size]. split; [destruct He as ((_ & He & _) & _); lia|]. apply N.mod_mul. lia.
  Qed.
  Variables (fo fe : N) (rs : list udif_entry) (v : udif_file).
  Hypotheses (Hrs : Forall (typed fo fe) rs) (Hd : udif_offsets_differ rs)
    (Hm : uf_compressed v = m)
    (Hv : forall x, x < 512 * udif_sectors rs -> exists o s r, bt_get (uf_tree v) x = Ok (Some r) /\
      In (o, s, r) (consecutive 0 (sized (ranges_of 0 rs))) /\ o <= x < o + s).

  Definition of_range (k : N) (data : list N) : Prop :=
    exists o e, In e rs /\ udif_is_compressed e = true /\ ue_offset e = k /\ data = rpiece (0, range_of o e).

  Lemma udif_step_exact : exact_step (cache_ok of_range 64) (512 * udif_sectors rs) (flat_map (udif_piece decompress file) rs)
    (udif_step decompress file v).
  Proof.
    intros c o n Hc Ho Hn Hon. destruct (Hv o Ho) as (ro & size & r & Hg & Hin & Hro).
    destruct (rpieces fo fe rs Hrs 0) as (P1 & P2 & P3).
    pose proof (bytes_at_concat rpiece _ P2 0 ro size r [] eq_refl Hin) as Pc. cbn [app] in Pc. rewrite P1 in Pc.
    apply in_consecutive_ranges in Hin as (-> & -> & Hin). apply in_ranges in Hin as (o' & e & He & Er).
    assert (He' := Hrs). rewrite Forall_forall in He'. specialize (He' e He).
    destruct (rpiece_range fo fe e o' He') as [R1 R2]. rewrite <- Er in R1.
    set (C := flat_map (udif_piece decompress file) rs) in *.
    unfold udif_step. rewrite Hg. cbn [bind of_option]. unfold sub_chk.
    destruct (N.leb_spec (ur_media_offset r) o); [|lia]. cbn [bind].
    destruct (N.leb_spec (o - ur_media_offset r) (ur_size r)); [|lia]. cbn [bind].
    set (rel := o - ur_media_offset r) in *. set (k := N.min n (ur_size r - rel)).
    assert (Hk : 0 < k <= n /\ rel + k <= ur_size r) by (unfold k, rel; lia).
    assert (Ec : bytes_at C o k = bytes_at (rpiece (ur_size r, r)) rel k).
    { rewrite <- Pc, bytes_at_bytes_at by lia. f_equal. unfold rel. lia. }
    assert (Es : ur_size r = 512 * ue_sectors e) by (rewrite Er; cbn [range_of ur_size]; lia).
    assert (El : len (rpiece (ur_size r, r)) = ur_size r) by (rewrite R1, R2; auto).
    destruct (ur_type r) eqn:Et.
    - (* compressed *)
      assert (Ecm : udif_is_compressed e = true).
      { rewrite Er in Et. cbn [range_of ur_type] in Et. destruct (type_cases e) as [(E1 & E2 & E3)|[(E1 & E2 & E3)|[(E1 & E2 & E3)|(E1 & E2 & E3)]]];
          rewrite E1, ?E2 in Et; try discriminate; auto. destruct He' as ((Ht & _) & _). rewrite E1, E2, E3 in Ht. intuition discriminate. }
      assert (Eo : ur_data_offset r = ue_offset e).
      { rewrite Er. cbn [range_of ur_data_offset]. destruct (type_cases e) as [(E1 & E2 & E3)|[(E1 & E2 & E3)|[(E1 & E2 & E3)|(E1 & E2 & E3)]]]; rewrite E1; congruence. }
      assert (Hval : forall data, of_range (ue_offset e) data -> data = rpiece (ur_size r, r)).
      { intros data (o2 & e2 & I1 & I2 & I3 & ->). destruct (Hd e2 e I1 He I2 Ecm I3) as [D1 D2].
        unfold rpiece. rewrite Er. cbn [snd range_of ur_type ur_data_offset ur_compressed_size ur_size]. rewrite I2, Ecm, D1, D2, I3.
        destruct (type_cases e) as [(E1 & E2 & E3)|[(E1 & E2 & E3)|[(E1 & E2 & E3)|(E1 & E2 & E3)]]]; try congruence.
        destruct (type_cases e2) as [(F1 & F2 & F3)|[(F1 & F2 & F3)|[(F1 & F2 & F3)|(F1 & F2 & F3)]]]; try congruence.
        rewrite E1, E2, F1, F2. reflexivity. }
      assert (Hcach : exists c', udif_cached decompress file v c r = (c', Ok (rpiece (ur_size r, r))) /\ cache_ok of_range 64 c').
      { unfold udif_cached. rewrite Eo. destruct (lru_contains c (ue_offset e)) eqn:Ect.
        - unfold lru_contains in Ect. destruct (hm_get (lru_values c) (ue_offset e)) as [data|] eqn:Eh; [|discriminate].
          exists c. unfold lru_get. rewrite Eh. cbn [of_option]. split; [|assumption]. do 2 f_equal. apply Hval. apply Hc. exact Eh.
        - unfold udif_read_compressed. rewrite Hm. destruct He' as (_ & (_ & Hcc) & Hmm). destruct (Hcc Ecm) as (H1 & H2 & data & H3 & H4).
          assert (Ecs : ur_compressed_size r = ue_size e) by (rewrite Er; cbn [range_of ur_compressed_size]; rewrite Ecm; apply N.mod_small; assumption).
          rewrite Ecs, Eo. destruct (read_exact_shape file (ue_offset e) (ue_size e)) as [[-> _]|[_ H']]; [|lia]. cbn [bind].
          rewrite Es. rewrite <- (Hmm Ecm), H3. cbn [bind].
          assert (Ed : data = rpiece (ur_size r, r)).
          { rewrite R1. unfold udif_piece. destruct (type_cases e) as [(E1 & E2 & E3)|[(E1 & E2 & E3)|[(E1 & E2 & E3)|(E1 & E2 & E3)]]]; try congruence.
            rewrite E1, E2, H3. reflexivity. }
          destruct (cache_ok_insert of_range 64 c (ue_offset e) data) as (c' & I1 & I2 & I3); [lia|assumption| |].
          { exists o', e. rewrite <- Er. auto. }
          exists c'. rewrite I1, I3. cbn [of_option]. rewrite <- Es, <- Ed. auto. }
      destruct Hcach as (c' & -> & Hc'). cbn [bind]. exists c', k. split; [|split; [assumption|lia]].
      rewrite slice_bytes_at by lia. replace (rel + k - rel) with k by lia. rewrite Ec. reflexivity.
    - exists c, k. split; [|split; [assumption|lia]].
      assert (Er' : rpiece (ur_size r, r) = bytes_at file (ur_data_offset r) (ur_size r)) by (unfold rpiece; cbn [snd]; rewrite Et; reflexivity).
      rewrite Er', len_bytes_at in El. rewrite Ec, Er', bytes_at_bytes_at by lia.
      unfold add_chk. destruct (N.ltb_spec (ur_data_offset r + rel) two64); [|lia]. reflexivity.
    - exists c, k. split; [|split; [assumption|lia]].
      assert (Er' : rpiece (ur_size r, r) = repeat 0 (N.to_nat (ur_size r))) by (unfold rpiece; cbn [snd]; rewrite Et; reflexivity).
      rewrite Ec, Er'. rewrite bytes_at_zeros by lia. reflexivity.
  Qed.
End Reads.

(** ** Opening *)
Lemma footer_shape file : len file < two64 ->
  let data := udif_footer file in
  (udif_footer_ok file \/ (512 <= len file /\ bytes_at data 0 4 = udif_footer_signature /\ field_be data 4 4 = 4 /\ two64 <= udif_fork_end file)) /\
    512 <= len file /\ read_exact_at file (len file - 512) 512 = Ok data /\
    udif_footer_read data = Ok (udif_fork_offset file, udif_fork_size file, udif_plist_offset file, udif_plist_size file) \/
  ~ udif_footer_ok file /\ (len file < 512 \/ read_exact_at file (len file - 512) 512 = Ok data /\ udif_footer_read data = Err).
Proof.
  intros Hl data. destruct (N.ltb_spec (len file) 512) as [H|H].
  { right. split; [intros [H' _]; lia|left; assumption]. }
  assert (Er : read_exact_at file (len file - 512) 512 = Ok data).
  { destruct (read_exact_shape file (len file - 512) 512) as [[-> _]|[_ H']]; [reflexivity|lia]. }
  assert (Ld : len data = 512) by (unfold data, udif_footer; rewrite len_bytes_at; lia).
  rewrite Er. unfold udif_footer_ok. change (udif_footer file) with data.
  destruct (same_bytes (bytes_at data 0 4) udif_footer_signature) eqn:Es.
  2:{ right. split.
      - intros (_ & H' & _). apply same_bytes_true in H'. unfold udif_footer_signature in Es. congruence.
      - right. split; [reflexivity|]. unfold udif_footer_read. rewrite Ld. change (512 =? 512) with true. cbn [check bind].
        rewrite slice_bytes_at by lia. change (4 - 0) with 4. cbn [bind]. rewrite Es. reflexivity. }
  destruct (N.eqb_spec (field_be data 4 4) 4) as [Ev|Ev].
  2:{ right. split; [tauto|]. right. split; [reflexivity|]. unfold udif_footer_read. rewrite Ld. change (512 =? 512) with true. cbn [check bind].
      rewrite slice_bytes_at by lia. change (4 - 0) with 4. cbn [bind]. rewrite Es. cbn [check bind]. unfold u32_be.
      rewrite be_field by (unfold two64; lia). cbn [bind]. apply N.eqb_neq in Ev. rewrite Ev. reflexivity. }
  left. split.
  { apply same_bytes_true in Es. unfold udif_footer_signature in *. destruct (N.ltb_spec (udif_fork_end file) two64); [left|right]; auto. }
  split; [assumption|]. split; [reflexivity|]. unfold udif_footer_read. rewrite Ld. change (512 =? 512) with true. cbn [check bind].
  rewrite slice_bytes_at by lia. change (4 - 0) with 4. cbn [bind]. rewrite Es. cbn [check bind]. unfold u32_be, u64_be.
  rewrite !be_field by (unfold two64; lia). cbn [bind]. rewrite Ev. reflexivity.
Qed.

Lemma sized_bounds {V} (l : list (N * V)) : Forall (fun e => 0 < fst e) l -> forall o, o + total l < two64 ->
  Forall (fun '(o, s, _) => 0 < s /\ o + s < two64) (consecutive o l).
Proof.
  induction 1 as [|[s v] l H1 Hl IH]; intros o Ho; [constructor|]. cbn [total fold_right fst consecutive] in *. fold (total l) in *.
  constructor; [split; [assumption|lia]|]. apply IH. lia.
Qed.
Lemma groups_levelled l : forall n, Forall (fun e => 0 < ue_sectors e) l -> 512 * (n + udif_sectors l) < two64 -> udif_in_groups n l ->
  Forall (fun '(o, s, _) => o + s < two64 /\ o mod 512 = 0 /\ s mod 512 = 0 /\ 0 < s /\ s < 512 * 16384 /\
            o / (512 * 16384) = (o + s - 1) / (512 * 16384)) (consecutive (n * 512) (sized (ranges_of (n * 512) l))).
Proof.
  induction l as [|e l IH]; intros n Hp Ht Hg; [constructor|]. apply Forall_cons_iff in Hp as [Hp Hp'].
  cbn [udif_in_groups] in Hg. destruct Hg as (G1 & G2 & G3). rewrite sectors_cons in Ht.
  cbn [ranges_of sized map consecutive]. constructor.
  - cbn [range_of ur_size]. split; [lia|]. split; [apply N.mod_mul; lia|]. split; [apply N.mod_mul; lia|]. split; [lia|]. split; [lia|].
    rewrite <- N.div_div by lia. rewrite N.div_mul by lia. rewrite G2. rewrite <- N.div_div by lia. f_equal.
    apply N.div_unique with 511; lia.
  - cbn [range_of ur_size]. replace (n * 512 + ue_sectors e * 512) with ((n + ue_sectors e) * 512) by lia. apply IH; [assumption|lia|assumption].
Qed.
Lemma geometry_tree l : Forall (fun e => 0 < ue_sectors e) l -> udif_fits l -> udif_geometry l ->
  let d := 16384 * ((udif_sectors l + 16383) / 16384) * 512 in
  exists t, insert_ranges (bt_new d 16384 512) (map (fun r => (ur_media_offset r, ur_size r, r)) (rev (ranges_of 0 l))) = Ok t /\
    forall x, x < 512 * udif_sectors l -> exists o s v, bt_get t x = Ok (Some v) /\ In (o, s, v) (consecutive 0 (sized (ranges_of 0 l))) /\ o <= x < o + s.
Proof.
  intros Hp Hf Hg d.
  assert (Hs : Forall (fun e => 0 < fst e /\ fst e mod 512 = 0) (sized (ranges_of 0 l))).
  { clear Hf Hg d. enough (G : forall o, Forall (fun e => 0 < fst e /\ fst e mod 512 = 0) (sized (ranges_of o l))) by apply G.
    induction Hp as [|e l He Hl IH]; intros o; [constructor|]. cbn [ranges_of sized map]. constructor; [|apply IH].
    cbn [fst range_of ur_size]. split; [lia|]. apply N.mod_mul. lia. }
  assert (Hc : udif_sectors l <= 16384 * ((udif_sectors l + 16383) / 16384)).
  { pose proof (N.mod_lt (udif_sectors l + 16383) 16384 ltac:(lia)). pose proof (N.div_mod (udif_sectors l + 16383) 16384 ltac:(lia)). lia. }
  unfold udif_fits in Hf.
  assert (Hd : d < two64) by (unfold d; clear - Hf; lia).
  assert (Ht : total (sized (ranges_of 0 l)) <= d) by (rewrite total_ranges; unfold d; clear - Hc; lia).
  rewrite map_rev, ranges_consecutive. rewrite <- (total_ranges l 0).
  apply reversed_tree; [lia|assumption|assumption|]. destruct Hg as [Hg|Hg]; [left|right].
  - unfold flat_geometry. split; [lia|]. split; [assumption|]. split; [reflexivity|]. split.
    + right. unfold d. rewrite N.div_mul by lia.
      assert ((udif_sectors l + 16383) / 16384 < 2) by (apply N.div_lt_upper_bound; lia). lia.
    + apply Forall_rev. apply sized_bounds; [|rewrite N.add_0_l; eapply N.le_lt_trans; [exact Ht|exact Hd]].
      eapply Forall_impl; [|exact Hs]. intros e He. apply He.
  - unfold levelled_geometry, unit_size. rewrite N.pow_0_r, N.mul_1_r. split; [lia|]. split; [lia|]. split; [assumption|]. split; [reflexivity|].
    apply Forall_rev. apply (groups_levelled l 0); [assumption| |assumption]. clear - Hf Hc. lia.
Qed.

Definition udif_state0 : udif_state := {| us_ranges := []; us_sector := 0; us_offset := 0; us_compressed := 0 |}.
Lemma tables_ok_iff fo fe tables : udif_tables_follow 0 tables /\ entries_ok fo fe udif_state0 (udif_ranges tables) <->
  udif_tables_ok fo fe tables /\ 512 * udif_sectors (udif_ranges tables) < two64.
Proof.
  unfold udif_tables_ok, entries_ok. cbn [udif_state0 us_compressed us_sector]. rewrite methods_one, N.add_0_l. tauto.
Qed.
Lemma method_all l m c : Forall (fun e => udif_is_compressed e = true -> ue_type e = m) l -> (exists e, In e l /\ udif_is_compressed e = true) -> method c l = m.
Proof.
  revert c. induction l as [|e l IH]; intros c H [x [Hx Hx']]; [destruct Hx|]. apply Forall_cons_iff in H as [H1 H2]. cbn [method].
  destruct (existsb udif_is_compressed l) eqn:Ex.
  - apply existsb_exists in Ex as (y & Hy & Hy'). apply IH; [assumption|]. eauto.
  - assert (Hn : forall y, In y l -> udif_is_compressed y = false).
    { intros y Hy. destruct (udif_is_compressed y) eqn:E; [|reflexivity]. enough (existsb udif_is_compressed l = true) by congruence. apply existsb_exists. eauto. }
    assert (Hm : forall c, method c l = c).
    { clear - Hn. induction l as [|y l IH]; intros c; [reflexivity|]. cbn [method]. rewrite (Hn y) by (left; reflexivity). apply IH. intros z Hz. apply Hn. right. assumption. }
    rewrite Hm. destruct Hx as [<-|Hx]; [rewrite Hx'; auto|]. rewrite (Hn x Hx) in Hx'. discriminate.
Qed.

Lemma plist_data file : read_at file (udif_plist_offset file) (udif_plist_size file) ++
    repeat 0 (N.to_nat (udif_plist_size file - len (read_at file (udif_plist_offset file) (udif_plist_size file)))) = udif_plist_data file.
Proof. reflexivity. Qed.

Lemma udif_open_ok plist file tables : len file < two64 -> udif_footer_ok file ->
  0 < udif_plist_size file <= 65536 -> plist (udif_plist_data file) = Ok tables -> Forall (fun t => len t < two64) tables ->
  udif_tables_ok (udif_fork_offset file) (udif_fork_end file) tables ->
  udif_fits (udif_ranges tables) -> udif_geometry (udif_ranges tables) ->
  exists v, udif_open plist file = Ok v /\ uf_has_ranges v = true /\ uf_media_size v = 512 * udif_sectors (udif_ranges tables) /\
    uf_compressed v = method 0 (udif_ranges tables) /\
    forall x, x < 512 * udif_sectors (udif_ranges tables) -> exists o s r, bt_get (uf_tree v) x = Ok (Some r) /\
      In (o, s, r) (consecutive 0 (sized (ranges_of 0 (udif_ranges tables)))) /\ o <= x < o + s.
Proof.
  intros Hl Hf Hps Hpl Htl Htab Hfit Hgeo. set (rs := udif_ranges tables) in *. unfold udif_open.
  destruct (footer_shape file Hl) as [(_ & H512 & -> & E)|[H _]]; [|contradiction].
  destruct (N.ltb_spec (len file) 512) as [H|_]; [lia|]. cbn [negb check bind]. rewrite E. cbn [bind].
  destruct Hf as (_ & _ & _ & Hfe). unfold udif_fork_end in Hfe. unfold add_chk at 1. apply N.ltb_lt in Hfe. rewrite Hfe. cbn [bind].
  destruct (N.eqb_spec (udif_plist_size file) 0) as [H|_]; [lia|]. destruct (N.ltb_spec 65536 (udif_plist_size file)) as [H|_]; [lia|]. cbn [negb check bind].
  rewrite plist_data, Hpl. cbn [bind]. fold udif_state0. fold (udif_fork_end file).
  assert (Hc : udif_sectors rs <= 16384 * ((udif_sectors rs + 16383) / 16384)).
  { pose proof (N.mod_lt (udif_sectors rs + 16383) 16384 ltac:(lia)). pose proof (N.div_mod (udif_sectors rs + 16383) 16384 ltac:(lia)). lia. }
  unfold udif_fits in Hfit.
  assert (H5 : 512 * udif_sectors rs < two64) by (clear - Hfit Hc; lia).
  destruct (tables_shape (udif_fork_offset file) (udif_fork_end file) tables udif_state0 Htl eq_refl eq_refl) as [(_ & _ & ->)|[Hn _]].
  2:{ exfalso. apply Hn. apply tables_ok_iff. split; assumption. }
  cbn [bind state_of us_sector us_ranges us_offset us_compressed udif_state0]. fold rs. rewrite !N.add_0_l, app_nil_r.
  rewrite Sparse_proofs.div_ceil_ok by lia. cbn [bind].
  replace (udif_sectors rs + 16384 - 1) with (udif_sectors rs + 16383) by lia.
  assert (E1 : mul_chk two64 ((udif_sectors rs + 16383) / 16384) 16384 = Ok (16384 * ((udif_sectors rs + 16383) / 16384))).
  { unfold mul_chk. destruct (N.ltb_spec ((udif_sectors rs + 16383) / 16384 * 16384) two64); [f_equal; lia|lia]. }
  assert (E2 : mul_chk two64 (16384 * ((udif_sectors rs + 16383) / 16384)) 512 = Ok (16384 * ((udif_sectors rs + 16383) / 16384) * 512)).
  { unfold mul_chk. destruct (N.ltb_spec (16384 * ((udif_sectors rs + 16383) / 16384) * 512) two64); [reflexivity|lia]. }
  rewrite E1. cbn [bind]. rewrite E2. cbn [bind].
  destruct (geometry_tree rs) as (t & Et & Hg); [|assumption|assumption|].
  { destruct Htab as (_ & Htab & _). eapply Forall_impl; [|exact Htab]. intros e He. apply He. }
  rewrite Et. cbn [bind]. eexists. split; [reflexivity|]. cbn [uf_has_ranges uf_media_size uf_compressed uf_tree]. auto.
Qed.

Lemma udif_open_inv plist file v : len file < two64 -> udif_open plist file = Ok v ->
  udif_footer_ok file /\
  (udif_plist_size file = 0 /\ v = {| uf_fork_offset := udif_fork_offset file; uf_has_ranges := false; uf_tree := bt_new 0 0 0; uf_compressed := 0;
     uf_media_size := udif_fork_size file |} \/
   0 < udif_plist_size file <= 65536 /\ exists tables, plist (udif_plist_data file) = Ok tables /\
     (Forall (fun t => len t < two64) tables -> udif_tables_ok (udif_fork_offset file) (udif_fork_end file) tables /\
        uf_media_size v = 512 * udif_sectors (udif_ranges tables) /\ uf_media_size v < two64)).
Proof.
  intros Hl. unfold udif_open.
  destruct (footer_shape file Hl) as [(Hf & H512 & -> & E)|[_ [H|[-> E]]]].
  2:{ apply N.ltb_lt in H. rewrite H. discriminate. }
  2:{ destruct (len file <? 512); cbn [negb check bind]; [discriminate|]. rewrite E. discriminate. }
  destruct (N.ltb_spec (len file) 512) as [H|_]; [lia|]. cbn [negb check bind]. rewrite E. cbn [bind].
  unfold add_chk at 1. fold (udif_fork_end file). destruct (N.ltb_spec (udif_fork_end file) two64) as [Hfe|Hfe]; cbn [bind]; [|discriminate].
  assert (Hf' : udif_footer_ok file) by (destruct Hf as [Hf|(_ & _ & _ & Hf)]; [assumption|lia]).
  destruct (N.eqb_spec (udif_plist_size file) 0) as [H0|H0].
  { intros [= <-]. split; [assumption|]. left. auto. }
  destruct (N.ltb_spec 65536 (udif_plist_size file)) as [H|H]; cbn [negb check bind]; [discriminate|].
  rewrite plist_data. fold udif_state0. intros Ho. apply bind_Ok_inv in Ho as (tables & Ep & Ho). split; [assumption|]. right. split; [lia|].
  exists tables. split; [assumption|]. intros Htl. apply bind_Ok_inv in Ho as (s & Es & Ho).
  destruct (tables_shape (udif_fork_offset file) (udif_fork_end file) tables udif_state0 Htl eq_refl eq_refl) as [(T1 & T2 & T3)|[_ [T|[T _]]]];
    rewrite Es in *; try discriminate.
  injection T3 as ->. pose proof (conj T1 T2) as T. apply tables_ok_iff in T as [T T']. split; [assumption|].
  apply bind_Ok_inv in Ho as (g & _ & Ho). apply bind_Ok_inv in Ho as (g1 & _ & Ho). apply bind_Ok_inv in Ho as (g2 & _ & Ho). apply bind_Ok_inv in Ho as (t & _ & Ho).
  injection Ho as <-. cbn [uf_media_size state_of us_offset udif_state0]. split; [reflexivity|exact T'].
Qed.

Lemma udif_raw_exact decompress file v : len file < two64 -> uf_has_ranges v = false -> uf_fork_offset v + uf_media_size v <= len file ->
  exact_rd (fun _ => True) (uf_media_size v) (bytes_at file (uf_fork_offset v) (uf_media_size v)) (udif_rd decompress file v).
Proof.
  intros Hl Hr He c o n _ Ho Hn. exists c. split; [|exact I]. unfold udif_rd. rewrite Hr. unfold add_chk.
  destruct (N.ltb_spec (uf_fork_offset v + o) two64); [|lia]. cbn [bind]. rewrite bytes_at_bytes_at by lia. reflexivity.
Qed.
