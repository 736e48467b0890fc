From Verif Require Import Base BaseLemmas Bytes_model Strings_model Streams_model Streams_spec Streams_proofs BlockTree_model
  BlockTree_spec BlockTree_proofs Blocks_model Blocks_proofs Lazy_model Lazy_proofs Image_spec Image_proofs Part_spec Part_proofs
  Fat_proofs Sparse_proofs Vhd_model Vhd_spec Vhd_proofs Qcow_model Qcow_spec.
Ltac Zify.zify_post_hook ::= idtac.

(** ** Opening one file *)
Lemma ldiff_1 x : (N.ldiff x 1 =? 0) = (x <=? 1).
Proof.
  change 1 with (N.ones 1) at 1. rewrite N.ldiff_ones_r, N.shiftl_mul_pow2, N.shiftr_div_pow2, N.pow_1_r.
  destruct (mod_split x 2 ltac:(lia)) as [H1 H2]. destruct (N.eqb_spec (x / 2 * 2) 0), (N.leb_spec x 1); lia.
Qed.
Lemma field_be_1 data i : field_be data i 1 = field data i 1.
Proof.
  unfold field_be, field. assert (H : (length (bytes_at data i 1) <= 1)%nat).
  { pose proof (len_bytes_at data i 1). unfold len in *. lia. }
  destruct (bytes_at data i 1) as [|b [|c l]]; cbn in *; try reflexivity; [|lia]. unfold be_value. cbn. lia.
Qed.

Definition header_form (file : list N) : Prop :=
  112 <= len file /\ bytes_at file 0 4 = [0x51; 0x46; 0x49; 0xfb] /\
  (qcow_version file = 1 /\ qcow_cluster_bits file <= 63 /\ qcow_l2_bits file <= 63 \/
   qcow_version file = 2 /\ 9 <= qcow_cluster_bits file <= 63 \/
   qcow_version file = 3 /\ 9 <= qcow_cluster_bits file <= 63 /\
     field_be file 72 8 <= 1 /\ field_be file 80 8 <= 1 /\ (field_be file 100 4 = 104 \/ field_be file 100 4 = 112)).
Definition header_of (file : list N) (h : qcow_header) : Prop :=
  qh_version h = qcow_version file /\ qh_size h = qcow_header_size file /\
  (qcow_version file <> 1 -> qh_l1_entries h = qcow_l1_entries file) /\ qh_l1_offset h = qcow_l1_offset file /\
  qh_l2_bits h = qcow_l2_bits file /\ qh_cluster_bits h = qcow_cluster_bits file /\ qh_media_size h = qcow_media_size file /\
  qh_encryption h = qcow_encryption file /\ qh_backing_offset h = qcow_name_offset file /\ qh_backing_size h = qcow_name_size file.

Lemma header_v23 file version size : 112 <= len file -> qcow_version file = version -> version <> 1 -> size = qcow_header_size file ->
  (9 <= qcow_cluster_bits file <= 63 /\ exists h, qcow_header_v23 version size (bytes_at file 0 112) = Ok h /\ header_of file h) \/
  (~ 9 <= qcow_cluster_bits file <= 63 /\ qcow_header_v23 version size (bytes_at file 0 112) = Err).
Proof.
  intros Hl Hv Hv1 ->. unfold qcow_header_v23, u32_be, u64_be.
  assert (Ld : len (bytes_at file 0 112) = 112) by (rewrite len_bytes_at; lia).
  rewrite !be_field by (rewrite Ld; unfold two64; lia). cbn [bind]. rewrite !field_be_inner by lia. cbn [N.add].
  assert (Ev : (qcow_version file =? 1) = false) by (apply N.eqb_neq; congruence).
  assert (Eb : field_be file 20 4 = qcow_cluster_bits file) by (unfold qcow_cluster_bits; rewrite Ev; reflexivity).
  rewrite Eb.
  destruct (N.leb_spec (qcow_cluster_bits file) 8) as [H1|H1]; cbn [orb negb check bind]; [right; split; [lia|reflexivity]|].
  destruct (N.ltb_spec 63 (qcow_cluster_bits file)) as [H2|H2]; cbn [orb negb check bind]; [right; split; [lia|reflexivity]|].
  left. split; [lia|]. eexists. split; [reflexivity|]. unfold header_of. cbn [qh_version qh_size qh_l1_entries qh_l1_offset qh_l2_bits qh_cluster_bits qh_media_size qh_encryption qh_backing_offset qh_backing_size].
  repeat split; auto; unfold qcow_l1_entries, qcow_l2_bits, qcow_encryption; rewrite Ev; reflexivity.
Qed.
Lemma header_shape file : (header_form file /\ exists h, qcow_header_read file = Ok h /\ header_of file h) \/
  (~ header_form file /\ qcow_header_read file = Err).
Proof.
  unfold qcow_header_read, header_form.
  destruct (read_exact_shape file 0 112) as [[-> Hl]|[-> Hl]]; cbn [bind]; [|right; split; [lia|reflexivity]].
  assert (Ld : len (bytes_at file 0 112) = 112) by (rewrite len_bytes_at; lia).
  rewrite slice_bytes_at by lia. cbn [bind]. rewrite bytes_at_bytes_at by lia. change (0 + 0) with 0. change (4 - 0) with 4.
  destruct (same_bytes (bytes_at file 0 4) qcow_signature) eqn:Es; cbn [check bind].
  2:{ right. split; [|reflexivity]. intros (_ & H & _). apply same_bytes_true in H. unfold qcow_signature in Es. congruence. }
  apply same_bytes_true in Es. unfold u32_be, u64_be. rewrite be_field by (rewrite Ld; unfold two64; lia). cbn [bind].
  rewrite field_be_inner by lia. change (0 + 4) with 4. fold (qcow_version file).
  assert (Cv : qcow_version file = 1 \/ qcow_version file = 2 \/ qcow_version file = 3 \/
    (qcow_version file <> 1 /\ qcow_version file <> 2 /\ qcow_version file <> 3)) by lia.
  destruct Cv as [Ev|[Ev|[Ev|Ev]]].
  - rewrite Ev. cbv iota. unfold qcow_header_v1, u32_be, u64_be.
    rewrite !be_field by (rewrite Ld; unfold two64; lia). rewrite !idx_field by lia. cbn [bind].
    rewrite !field_be_inner, !field_inner by lia. cbn [N.add].
    assert (Eb : field file 32 1 = qcow_cluster_bits file) by (unfold qcow_cluster_bits; rewrite Ev; symmetry; apply field_be_1).
    assert (E2 : field file 33 1 = qcow_l2_bits file) by (unfold qcow_l2_bits; rewrite Ev; symmetry; apply field_be_1).
    rewrite Eb, E2.
    destruct (N.ltb_spec 63 (qcow_cluster_bits file)) as [H1|H1]; cbn [negb check bind]; [right; split; [lia|reflexivity]|].
    destruct (N.ltb_spec 63 (qcow_l2_bits file)) as [H2|H2]; cbn [negb check bind]; [right; split; [lia|reflexivity]|].
    left. split; [split; [lia|split; [exact Es|left; lia]]|]. eexists. split; [reflexivity|]. unfold header_of. cbn [qh_version qh_size qh_l1_entries qh_l1_offset qh_l2_bits qh_cluster_bits qh_media_size qh_encryption qh_backing_offset qh_backing_size].
    repeat split; auto; unfold qcow_header_size, qcow_encryption; rewrite ?Ev; try reflexivity. intros Hne; destruct (Hne eq_refl).
  - rewrite Ev. cbv iota. destruct (header_v23 file 2 72 Hl Ev) as [[H1 H2]|[H1 ->]]; [lia|unfold qcow_header_size; rewrite Ev; reflexivity| |].
    + left. split; [split; [lia|split; [exact Es|right; left; lia]]|exact H2].
    + right. split; [|reflexivity]. intros (_ & _ & H). lia.
  - rewrite Ev. cbv iota. unfold u64_be, u32_be. rewrite be_field by (rewrite Ld; unfold two64; lia). cbn [bind].
    rewrite field_be_inner by lia. change (0 + 72) with 72. rewrite ldiff_1.
    destruct (N.leb_spec (field_be file 72 8) 1) as [H1|H1]; cbn [check bind]; [|right; split; [lia|reflexivity]].
    rewrite !be_field by (rewrite Ld; unfold two64; lia). cbn [bind]. rewrite !field_be_inner by lia. cbn [N.add]. rewrite ldiff_1.
    destruct (N.leb_spec (field_be file 80 8) 1) as [H2|H2]; cbn [check bind]; [|right; split; [lia|reflexivity]].
    destruct (header_v23 file 3 (field_be file 100 4) Hl Ev) as [[H3 (h & -> & Hh)]|[H3 ->]];
      [lia|unfold qcow_header_size; rewrite Ev; reflexivity| |]; cbn [bind].
    + destruct (N.eqb_spec (field_be file 100 4) 104); cbn [orb check bind]; [left; split; [split; [lia|split; [exact Es|right; right; lia]]|eauto]|].
      destruct (N.eqb_spec (field_be file 100 4) 112); cbn [orb check bind]; [left; split; [split; [lia|split; [exact Es|right; right; lia]]|eauto]|].
      right. split; [lia|reflexivity].
    + right. split; [|reflexivity]. intros (_ & _ & H). lia.
  - right. split; [lia|]. destruct (qcow_version file) as [|[[|[]|]|[|[]|]|]]; try reflexivity; lia.
Qed.

Definition qcow_of (file : list N) (v : qcow_file) : Prop :=
  qf_version v = qcow_version file /\ qf_l1_shift v = qcow_cluster_bits file + qcow_l2_bits file /\
  qf_l1_offset v = qcow_l1_offset file /\ qf_l1_entries v = qcow_l1_entries file /\ qf_l2_bits v = qcow_l2_bits file /\
  qf_cluster_bits v = qcow_cluster_bits file /\
  qf_backing v = (if qcow_has_backing file then Some (qcow_name file) else None) /\
  qf_media_size v = qcow_media_size file /\
  qf_tree v = bt_new (qcow_clusters file * qcow_cluster_size file) (2 ^ qcow_l2_bits file) (qcow_cluster_size file).
Definition qcow_overflow (file : list N) : Prop :=
  qcow_version file <> 1 /\ qcow_cluster_bits file = 63 \/ two64 <= qcow_clusters file * qcow_cluster_size file.

Lemma string_from_slice_eq l : string_from_slice l = before_zero l.
Proof.
  unfold string_from_slice. induction l as [|c l IH]; [reflexivity|]. cbn [position0 before_zero].
  destruct (c =? 0); [reflexivity|]. rewrite <- IH. destruct (position0 l); reflexivity.
Qed.

Lemma qcow_open_shape file : 
  (qcow_header_ok file /\ exists v, qcow_open file = Ok v /\ qcow_of file v) \/
  (~ qcow_header_ok file /\ (qcow_open file = Err \/ qcow_open file = Panic /\ qcow_overflow file)).
Proof.
  remember (qcow_open file) as o eqn:Eo. unfold qcow_open in Eo.
  assert (Hform : qcow_header_ok file -> header_form file).
  { intros (H1 & H2 & H3 & H4 & _). split; [assumption|]. split; [assumption|]. destruct H3 as [H3|[H3|H3]]; lia. }
  destruct (header_shape file) as [[Hf (h & Eh & (Q1 & Q2 & Q3 & Q4 & Q5 & Q6 & Q7 & Q8 & Q9 & Q10))]|[Hf Eh]]; rewrite Eh in Eo; cbn [bind] in Eo.
  2:{ right. split; [tauto|]. left. exact Eo. }
  rewrite Q1, Q2, Q4, Q5, Q6, Q7, Q8, Q9, Q10 in Eo.
  assert (Hcb : qcow_cluster_bits file <= 63) by (destruct Hf as (_ & _ & Hf); lia).
  fold (qcow_cluster_size file) in Eo. set (cb := qcow_cluster_bits file) in *. set (l2 := qcow_l2_bits file) in *.
  assert (Hsub : sub_chk (if qcow_version file =? 1 then 63 else 62) cb = Panic /\ qcow_version file <> 1 /\ cb = 63 \/
    exists s, sub_chk (if qcow_version file =? 1 then 63 else 62) cb = Ok s).
  { unfold sub_chk. destruct (N.eqb_spec (qcow_version file) 1) as [Ev|Ev]; [destruct (N.leb_spec cb 63); [eauto|lia]|].
    destruct (N.leb_spec cb 62); [eauto|]. left. split; [reflexivity|]. lia. }
  destruct Hsub as [(Es & Hv & Hc)|(s & Es)]; rewrite Es in Eo; cbn [bind] in Eo.
  { right. split; [|right; split; [exact Eo|left; auto]]. intros (_ & _ & _ & H & _). fold cb l2 in H.
    unfold l2, qcow_l2_bits in H. destruct (N.eqb_spec (qcow_version file) 1); [contradiction|]. fold cb in H. lia. }
  destruct (N.ltb_spec 63 (cb + l2)) as [Hs|Hs]; cbn [negb check bind] in Eo.
  { right. split; [|left; exact Eo]. intros (_ & _ & _ & H & _). fold cb l2 in H. lia. }
  assert (Pow : qcow_cluster_size file * 2 ^ l2 = qcow_l1_range file) by (unfold qcow_l1_range, qcow_cluster_size; rewrite N.pow_add_r; reflexivity).
  assert (Pr : qcow_l1_range file <= 2 ^ 63) by (unfold qcow_l1_range; apply N.pow_le_mono_r; [lia|exact Hs]).
  assert (Hl1 : (if qcow_version file =? 1
    then check (negb (18446744073709551615 / 2 ^ l2 <? qcow_cluster_size file));;;
         ' product <- mul_chk two64 (qcow_cluster_size file) (2 ^ l2);;
         ' n <- div_ceil (qcow_media_size file) product;; check (negb (4294967295 <? n));;; Ok n
    else Ok (qh_l1_entries h)) =
    if (qcow_version file =? 1) && (0xffffffff <? qcow_l1_entries file) then Err else Ok (qcow_l1_entries file)).
  { destruct (N.eqb_spec (qcow_version file) 1) as [Ev|Ev]; cbn [andb]; [|rewrite Q3 by assumption; reflexivity].
    assert (P0 : 2 ^ l2 <> 0) by (apply N.pow_nonzero; lia). assert (P1 : qcow_l1_range file <> 0) by (apply N.pow_nonzero; lia).
    destruct (N.ltb_spec (18446744073709551615 / 2 ^ l2) (qcow_cluster_size file)) as [Hd|_]; cbn [negb check bind].
    { exfalso. apply N.lt_nge in Hd. apply Hd. apply N.div_le_lower_bound; [assumption|]. rewrite N.mul_comm, Pow.
      eapply N.le_trans; [exact Pr|]. vm_compute. discriminate. }
    unfold mul_chk. rewrite Pow. destruct (N.ltb_spec (qcow_l1_range file) two64) as [_|Hd].
    2:{ exfalso. apply N.le_ngt in Hd. apply Hd. eapply N.le_lt_trans; [exact Pr|]. reflexivity. }
    cbn [bind]. rewrite Sparse_proofs.div_ceil_ok by lia. cbn [bind].
    assert (E : (qcow_media_size file + qcow_l1_range file - 1) / qcow_l1_range file = qcow_l1_entries file) by (unfold qcow_l1_entries; rewrite Ev; reflexivity).
    rewrite E. change 4294967295 with 0xffffffff. destruct (0xffffffff <? qcow_l1_entries file); reflexivity. }
  rewrite Hl1 in Eo. clear Hl1.
  destruct ((qcow_version file =? 1) && (0xffffffff <? qcow_l1_entries file)) eqn:E1; cbn [bind] in Eo.
  { right. split; [|left; exact Eo]. apply andb_true_iff in E1 as [Ev E1]. apply N.eqb_eq in Ev. apply N.ltb_lt in E1.
    intros (_ & _ & H & _). rewrite Ev in H. destruct H as [[_ H]|[[H _]|[H _]]]; lia. }
  assert (Hcs : 0 < qcow_cluster_size file) by (unfold qcow_cluster_size; apply N.neq_0_lt_0, N.pow_nonzero; lia).
  rewrite Sparse_proofs.div_ceil_ok in Eo by assumption. cbn [bind] in Eo. fold (qcow_clusters file) in Eo.
  assert (Hm : mul_chk two64 (qcow_clusters file) (qcow_cluster_size file) =
    if qcow_clusters file * qcow_cluster_size file <? two64 then Ok (qcow_clusters file * qcow_cluster_size file) else Panic) by reflexivity.
  rewrite Hm in Eo. destruct (N.ltb_spec (qcow_clusters file * qcow_cluster_size file) two64) as [H64|H64]; cbn [bind] in Eo.
  2:{ right. split; [|right; split; [exact Eo|right; assumption]]. intros (_ & _ & _ & _ & H & _). lia. }
  assert (Hb : (0 <? qcow_name_offset file) && (0 <? qcow_name_size file) = qcow_has_backing file).
  { unfold qcow_has_backing. destruct (N.eqb_spec (qcow_name_offset file) 0) as [->|B1]; [reflexivity|].
    rewrite (proj2 (N.ltb_lt 0 (qcow_name_offset file))) by lia. cbn [andb].
    destruct (N.eqb_spec (qcow_name_size file) 0) as [->|B2]; [reflexivity|]. apply N.ltb_lt. lia. }
  rewrite Hb in Eo.
  assert (Hn : (qcow_has_backing file = true ->
     qcow_header_size file <= qcow_name_offset file /\ qcow_name_size file <= 65536 /\
     qcow_name_offset file + qcow_name_size file <= len file) /\
    (if qcow_has_backing file
     then ' name <- qcow_backing_name file (qcow_header_size file) (qcow_name_offset file) (qcow_name_size file);; Ok (Some name)
     else Ok None) = Ok (if qcow_has_backing file then Some (qcow_name file) else None) \/
    ~ (qcow_has_backing file = true ->
     qcow_header_size file <= qcow_name_offset file /\ qcow_name_size file <= 65536 /\
     qcow_name_offset file + qcow_name_size file <= len file) /\
    (if qcow_has_backing file
     then ' name <- qcow_backing_name file (qcow_header_size file) (qcow_name_offset file) (qcow_name_size file);; Ok (Some name)
     else Ok None) = Err).
  { destruct (qcow_has_backing file); [|left; split; [discriminate|reflexivity]]. unfold qcow_backing_name.
    destruct (N.ltb_spec (qcow_name_offset file) (qcow_header_size file)) as [B1|B1]; cbn [negb check bind].
    { right. split; [|reflexivity]. intros H. specialize (H eq_refl). lia. }
    destruct (N.ltb_spec 65536 (qcow_name_size file)) as [B2|B2]; cbn [negb check bind].
    { right. split; [|reflexivity]. intros H. specialize (H eq_refl). lia. }
    destruct (read_exact_shape file (qcow_name_offset file) (qcow_name_size file)) as [[-> B3]|[-> B3]]; cbn [bind].
    - left. split; [auto|]. rewrite string_from_slice_eq. reflexivity.
    - right. split; [|reflexivity]. intros H. specialize (H eq_refl). lia. }
  destruct Hn as [[Hn En]|[Hn En]]; rewrite En in Eo; cbn [bind] in Eo.
  2:{ right. split; [|left; exact Eo]. intros (_ & _ & _ & _ & _ & H & _). contradiction. }
  destruct (N.eqb_spec (qcow_encryption file) 0) as [Ee|Ee]; cbn [check bind] in Eo.
  2:{ right. split; [|left; exact Eo]. intros (_ & _ & _ & _ & _ & _ & H). contradiction. }
  left. split.
  - destruct Hf as (F1 & F2 & F3). repeat (split; [assumption|]). split; [|auto].
    destruct F3 as [(F3 & _)|[(F3 & F4)|(F3 & F4 & F5)]]; [left|right; left; lia|right; right; split; [assumption|split; [lia|assumption]]].
    split; [assumption|]. rewrite F3 in E1. cbn [N.eqb Pos.eqb andb] in E1. apply N.ltb_ge in E1. lia.
  - eexists. split; [exact Eo|]. unfold qcow_of. cbn [qf_version qf_l1_shift qf_l1_offset qf_l1_entries qf_l2_bits qf_cluster_bits qf_backing qf_media_size qf_tree]. repeat split; reflexivity.
Qed.

(** ** The files of an image *)
Lemma qcow_image_sound resolver : forall fuel name files, qcow_image_open fuel resolver name = Ok files ->
  qcow_chain resolver name (map fst files) /\ Forall (fun f => qcow_header_ok (fst f) /\ qcow_of (fst f) (snd f)) files.
Proof.
  induction fuel as [|fuel IH]; intros name files H; [discriminate|].
  cbn [qcow_image_open] in H. destruct (resolver name) as [file|] eqn:En; cbn [of_option bind] in H; [|discriminate].
  destruct (qcow_open_shape file) as [[Hh (v & Ev & Hv)]|[_ [Ev|[Ev _]]]]; rewrite Ev in H; cbn [bind] in H; try discriminate.
  assert (Hv' := Hv). destruct Hv' as (_ & _ & _ & _ & _ & _ & Eb & _). rewrite Eb in H. destruct (qcow_has_backing file) eqn:Ehb.
  - apply bind_Ok_inv in H as (fs & Ef & H). injection H as <-. destruct (IH _ _ Ef) as [H1 H2].
    split; [|constructor; auto]. cbn [map fst]. apply qcow_more; assumption.
  - injection H as <-. split; [|constructor; [auto|constructor]]. apply qcow_last; assumption.
Qed.
Lemma qcow_image_complete resolver name files : qcow_chain resolver name files ->
  forall fuel, (length files <= fuel)%nat -> exists fs, qcow_image_open fuel resolver name = Ok fs /\ map fst fs = files.
Proof.
  induction 1 as [name file En Hh Hb|name file files En Hh Hb Hc IH]; intros fuel Hf;
    (destruct fuel as [|fuel]; [cbn in Hf; lia|]); cbn [qcow_image_open]; rewrite En; cbn [of_option bind];
    (destruct (qcow_open_shape file) as [[_ (v & Ev & Hv)]|[Hh' _]]; [|contradiction]); rewrite Ev; cbn [bind];
    destruct Hv as (_ & _ & _ & _ & _ & _ & Eb & _); rewrite Eb, Hb.
  - exists [(file, v)]. split; reflexivity.
  - destruct (IH fuel) as (fs & Ef & Em); [cbn [length] in Hf; lia|]. rewrite Ef. cbn [bind]. exists ((file, v) :: fs).
    split; [reflexivity|]. cbn [map fst]. congruence.
Qed.

(** ** Entries *)
Lemma land_flag e k : N.testbit e k = false -> N.land e (2 ^ k) = 0.
Proof.
  intros H. apply N.bits_inj. intros i. rewrite N.land_spec, N.bits_0, N.pow2_bits_eqb. destruct (N.eqb_spec k i) as [<-|]; [rewrite H|apply andb_false_r].
  reflexivity.
Qed.
Lemma small_bit e k i : e < 2 ^ k -> k <= i -> N.testbit e i = false.
Proof.
  intros H Hi. destruct (N.eq_dec e 0) as [->|He]; [apply N.bits_0|]. apply N.bits_above_log2. apply N.log2_lt_pow2 in H; lia.
Qed.
Lemma entry_masks file v e : qcow_of file v -> qcow_entry_plain file e ->
  N.land e (qcow_offset_mask v) = qcow_offset file e /\ N.land e (qcow_compression_flag v) = 0 /\ qcow_zero file e = false.
Proof.
  intros (Ev & _) Hp. unfold qcow_entry_plain in Hp. unfold qcow_offset_mask, qcow_compression_flag, qcow_offset, qcow_zero. rewrite Ev.
  destruct (N.eqb_spec (qcow_version file) 1) as [E1|E1].
  - change 0x7fffffffffffffff with (N.ones 63). rewrite N.land_ones. split; [reflexivity|]. rewrite E1. split; [|reflexivity].
    apply land_flag. apply small_bit with 63; [assumption|lia].
  - destruct Hp as [Hm H0]. change 0x3fffffffffffffff with (N.ones 62). rewrite N.land_ones.
    set (m := e mod 2 ^ 63) in *.
    assert (M62 : e mod 2 ^ 62 = m).
    { assert (E : m mod 2 ^ 62 = m) by (apply N.mod_small; eapply N.lt_trans; [exact Hm|reflexivity]).
      rewrite <- E. unfold m. change (2 ^ 63) with (2 ^ 62 * 2). rewrite N.mod_mul_r by discriminate.
      rewrite N.mul_comm, N.mod_add by discriminate. rewrite N.mod_mod by discriminate. reflexivity. }
    assert (M56 : e mod 2 ^ 56 = m).
    { assert (E : m mod 2 ^ 56 = m) by (apply N.mod_small; exact Hm).
      rewrite <- E. unfold m. change (2 ^ 63) with (2 ^ 56 * 128). rewrite N.mod_mul_r by discriminate.
      rewrite N.mul_comm, N.mod_add by discriminate. rewrite N.mod_mod by discriminate. reflexivity. }
    assert (M9 : m mod 512 = 0).
    { rewrite <- H0. unfold m. change (2 ^ 63) with (512 * 2 ^ 54). rewrite N.mod_mul_r by discriminate.
      rewrite N.mul_comm, N.mod_add by discriminate. rewrite N.mod_mod by discriminate. reflexivity. }
    rewrite M62, M56. destruct (mod_split m 512 ltac:(lia)) as [_ Hs]. rewrite M9, N.add_0_r in Hs.
    split; [rewrite N.mul_comm; exact Hs|]. split.
    + apply land_flag. transitivity (N.testbit m 62).
      * symmetry. apply N.mod_pow2_bits_low. lia.
      * apply small_bit with 56; [exact Hm|lia].
    + destruct (qcow_version file =? 3); [|reflexivity]. transitivity (N.testbit (e mod 2 ^ 9) 0).
      * symmetry. apply N.mod_pow2_bits_low. lia.
      * change (2 ^ 9) with 512. rewrite H0. reflexivity.
Qed.

(** ** Layers *)
Section Qcow.
  Variables (file : list N) (v : qcow_file).
  Hypotheses (Hw : wf_bytes file) (Hlen : len file < two64) (Hok : qcow_header_ok file) (Hv : qcow_of file v)
    (Hc : qcow_complete file) (Ht : qcow_l2_tables file).
  Let cs := qcow_cluster_size file.
  Let l2 := qcow_l2_bits file.
  Let ms := qcow_media_size file.

  Lemma cs_pos : 0 < cs.
  Proof. unfold cs, qcow_cluster_size. apply N.neq_0_lt_0, N.pow_nonzero. lia. Qed.
  Lemma range_eq : qcow_l1_range file = cs * 2 ^ l2.
  Proof. unfold qcow_l1_range, cs, qcow_cluster_size. rewrite N.pow_add_r. reflexivity. Qed.
  Lemma index1 x : x / qcow_l1_range file = x / cs / 2 ^ l2.
  Proof. rewrite range_eq. rewrite N.div_div; [reflexivity| |]; [pose proof cs_pos; lia|apply N.pow_nonzero; lia]. Qed.
  Lemma index2 x : x mod qcow_l1_range file / cs = x / cs mod 2 ^ l2.
  Proof.
    pose proof cs_pos as Hp. rewrite range_eq. rewrite N.mod_mul_r by (try apply N.pow_nonzero; lia).
    rewrite N.mul_comm, N.div_add by lia. rewrite N.div_small by (apply N.mod_lt; lia). reflexivity.
  Qed.
  Lemma l1_same x y : x / cs = y / cs -> qcow_l1_entry file x = qcow_l1_entry file y.
  Proof. intros H. unfold qcow_l1_entry. rewrite !index1, H. reflexivity. Qed.
  Lemma l2_same x y : x / cs = y / cs -> qcow_l2_entry file x = qcow_l2_entry file y.
  Proof. intros H. unfold qcow_l2_entry. rewrite (l1_same x y H). fold cs. rewrite !index2, H. reflexivity. Qed.

  Definition qcow_value (n : N) : block_range :=
    let o := qcow_offset file (qcow_l2_entry file (n * cs)) in
    {| br_media_offset := n * cs; br_data_offset := o; br_size := cs;
       br_type := if o =? 0 then if qcow_has_backing file then InParent else Sparse else InFile |}.

  Lemma entry_ok o number i : i < number -> o + 8 * i + 8 <= len file ->
    qcow_entry_read file o number i = Ok (field_be file (o + 8 * i) 8).
  Proof.
    intros Hi Hl. unfold qcow_entry_read. destruct (N.ltb_spec i number); [|lia]. cbn [check bind].
    assert (A : add_chk two64 o (i * 8) = Ok (o + 8 * i)).
    { unfold add_chk. destruct (N.ltb_spec (o + i * 8) two64); [f_equal; lia|lia]. }
    rewrite A. cbn [bind]. destruct (read_exact_shape file (o + 8 * i) 8) as [[-> _]|[_ H']]; [|lia]. cbn [bind].
    unfold u64_be. rewrite be_field by (rewrite len_bytes_at; unfold two64; lia). rewrite field_be_inner by lia. rewrite N.add_0_r. reflexivity.
  Qed.

  Lemma l1_bound : qcow_l1_entries file < two32.
  Proof.
    destruct Hok as (_ & _ & H & _). unfold qcow_l1_entries. destruct (N.eqb_spec (qcow_version file) 1) as [E|E].
    - unfold qcow_l1_entries in H. rewrite E in H. destruct H as [[_ H]|[[H _]|[H _]]]; [exact H|discriminate|discriminate].
    - apply (field_be_bound file 36 4 Hw).
  Qed.

  Lemma qcow_layer_ok : layer_ok (qcow_layer file v) cs (2 ^ l2) 0 (qcow_clusters file) qcow_value.
  Proof.
    pose proof cs_pos as Hcs. destruct Hv as (V1 & V2 & V3 & V4 & V5 & V6 & V7 & V8 & V9). destruct Hc as [Hl2 Hcx].
    assert (Ebs : 2 ^ qf_cluster_bits v = cs) by (rewrite V6; reflexivity).
    assert (Hp2 : 2 ^ l2 <> 0) by (apply N.pow_nonzero; lia).
    destruct Hok as (_ & _ & _ & Hs63 & Hs64 & _).
    fold cs in Hs64.
    assert (Hnc : ms <= qcow_clusters file * cs) by (apply ceil_bound; assumption).
    constructor; cbn [qcow_layer ly_file ly_media_size ly_block_size ly_fixed ly_load]; rewrite ?Ebs, ?V8; fold ms.
    - reflexivity.
    - assumption.
    - lia.
    - rewrite N.mul_comm, <- range_eq. unfold qcow_l1_range. eapply N.le_lt_trans; [apply N.pow_le_mono_r; [lia|exact Hs63]|reflexivity].
    - rewrite N.pow_0_r. lia.
    - assumption.
    - assumption.
    - intros n Hn. unfold qcow_value. set (o := qcow_offset file (qcow_l2_entry file (n * cs))). cbn [br_media_offset br_size br_type br_data_offset].
      split; [reflexivity|]. split; [reflexivity|]. destruct (N.eqb_spec o 0) as [E|E].
      { destruct (qcow_has_backing file); split; discriminate. }
      split; [discriminate|]. intros _. set (k := N.min cs (ms - n * cs)).
      assert (Hk : 0 < k <= cs /\ n * cs + (k - 1) < ms) by (unfold k; lia).
      assert (Ed : (n * cs + (k - 1)) / cs = n) by (symmetry; apply N.div_unique with (k - 1); lia).
      assert (Em : (n * cs + (k - 1)) mod cs = k - 1) by (symmetry; apply N.mod_unique with n; lia).
      assert (En : n * cs / cs = n) by (apply N.div_mul; lia).
      destruct (Hcx (n * cs + (k - 1))) as (_ & _ & _ & H); [fold ms; lia|]. destruct H as (_ & _ & H); [apply Ht; fold ms; lia|].
      fold cs in H. rewrite Em, (l2_same _ (n * cs)) in H by congruence. fold o in H. specialize (H E). lia.
    - assumption.
    - intros t x n Hx ->. set (n := x / cs). unfold qcow_load. rewrite V2, V3, V4, V5, V6. fold l2.
      destruct (Hcx x Hx) as (C1 & C2 & C3 & C4). specialize (Ht x Hx). destruct (C4 Ht) as (C5 & C6 & _).
      pose proof l1_bound as Hb.
      rewrite N.shiftr_div_pow2. change (2 ^ (qcow_cluster_bits file + l2)) with (qcow_l1_range file).
      rewrite (N.mod_small (x / qcow_l1_range file) two32) by (eapply N.lt_trans; [exact C1|exact Hb]).
      rewrite (N.mod_small (qcow_l1_entries file) two32) by exact Hb. rewrite entry_ok by assumption. cbn [bind]. fold (qcow_l1_entry file x).
      destruct (entry_masks file v _ Hv C3) as (-> & _). destruct (N.eqb_spec (qcow_offset file (qcow_l1_entry file x)) 0); [contradiction|].
      rewrite N.shiftr_div_pow2, N.land_ones. fold (qcow_cluster_size file). fold cs. fold n.
      fold cs in C5. rewrite index2 in C5. fold n in C5.
      assert (Hp32 : 2 ^ l2 < two32) by (change two32 with (2 ^ 32); apply N.pow_lt_mono_r; [lia|exact Hl2]).
      pose proof (N.mod_lt n (2 ^ l2) Hp2) as Hi2.
      rewrite (N.mod_small (2 ^ l2) two32) by assumption. rewrite (N.mod_small (n mod 2 ^ l2) two32) by (eapply N.lt_trans; [exact Hi2|exact Hp32]).
      rewrite entry_ok by assumption. cbn [bind].
      assert (E2 : field_be file (qcow_offset file (qcow_l1_entry file x) + 8 * (n mod 2 ^ l2)) 8 = qcow_l2_entry file x).
      { unfold qcow_l2_entry. fold cs. rewrite index2. reflexivity. }
      rewrite E2. destruct (entry_masks file v _ Hv C6) as (-> & -> & _). rewrite N.eqb_refl.
      assert (Eo : N.shiftl (x / qcow_l1_range file) (qcow_cluster_bits file + l2) + n mod 2 ^ l2 * cs = n * cs).
      { rewrite N.shiftl_mul_pow2, index1. fold n. change (2 ^ (qcow_cluster_bits file + l2)) with (qcow_l1_range file). rewrite range_eq.
        destruct (mod_split n (2 ^ l2) ltac:(clear - Hp2; lia)) as [_ Hs]. rewrite Hs at 3. ring. }
      assert (Hnc' : n * cs <= x) by (unfold n; rewrite N.mul_comm; apply N.mul_div_le; clear - Hcs; lia).
      assert (Ea : add_chk two64 (N.shiftl (x / qcow_l1_range file) (qcow_cluster_bits file + l2)) (n mod 2 ^ l2 * cs) = Ok (n * cs)).
      { unfold add_chk. rewrite Eo. destruct (N.ltb_spec (n * cs) two64) as [|Hge]; [reflexivity|]. clear - Hge Hnc' Hx Hnc Hs64. fold ms in Hx. lia. }
      rewrite Ea. cbn [bind]. cbn [br_media_offset br_size].
      rewrite (l2_same x (n * cs)) by (unfold n; rewrite N.div_mul by lia; reflexivity).
      unfold qcow_value. rewrite V7. destruct (_ =? 0); [destruct (qcow_has_backing file)|]; reflexivity.
  Qed.

  Lemma qcow_value_byte backing x : x < ms -> qcow_byte file backing x = range_byte file backing qcow_value cs x.
  Proof.
    intros Hx. pose proof cs_pos as Hcs. destruct Hc as [_ Hcx]. destruct (Hcx x Hx) as (_ & _ & _ & H). pose proof (Ht x Hx) as H1. destruct (H H1) as (_ & H2 & _).
    unfold qcow_byte, range_byte, qcow_value. cbn [br_type br_data_offset].
    rewrite (l2_same (x / cs * cs) x) by (apply N.div_mul; lia).
    destruct (N.eqb_spec (qcow_offset file (qcow_l1_entry file x)) 0); [contradiction|].
    destruct (entry_masks file v _ Hv H2) as (_ & _ & ->).
    destruct (_ =? 0); [destruct (qcow_has_backing file)|]; reflexivity.
  Qed.
End Qcow.

Lemma qcow_layers_ok resolver name files : qcow_chain resolver name files ->
  Forall (fun f => wf_bytes f /\ len f < two64) files -> Forall qcow_complete files -> Forall qcow_l2_tables files -> qcow_sizes files ->
  forall fs, map fst fs = files -> Forall (fun f => qcow_header_ok (fst f) /\ qcow_of (fst f) (snd f)) fs ->
  layers_ok (qcow_layers fs) (qcow_start fs) (qcow_disk files) /\ layers_size (qcow_layers fs) = qcow_media_size (hd [] files).
Proof.
  induction 1 as [name file En Hh Hb|name file files En Hh Hb Hch IH]; intros Hwf Hc Ht Hs fs Em Hof;
    (destruct fs as [|[f v] fs]; [discriminate|]); injection Em as -> Em;
    apply Forall_cons_iff in Hwf as [[Hw Hl] Hwf]; apply Forall_cons_iff in Hc as [Hc Hcs]; apply Forall_cons_iff in Ht as [Ht Hts];
    apply Forall_cons_iff in Hof as [[_ Hv] Hof]; cbn [fst snd] in Hv;
    change (qcow_layers ((file, v) :: fs)) with (qcow_layer file v :: qcow_layers fs);
    change (qcow_start ((file, v) :: fs)) with ((qf_tree v, 0) :: qcow_start fs); cbn [layers_ok layers_size hd];
    assert (V := Hv); destruct V as (V1 & V2 & V3 & V4 & V5 & V6 & V7 & V8 & V9);
    (split; [|exact V8]); right;
    exists (qcow_cluster_size file), (2 ^ qcow_l2_bits file), 0, (qcow_clusters file), (qcow_value file).
  - exists (fun _ => 0). split; [apply qcow_layer_ok; assumption|]. cbn [qcow_layer ly_file ly_media_size ly_block_size]. rewrite V8, V9.
    split.
    { pose proof (filled_new (qcow_cluster_size file) (2 ^ qcow_l2_bits file) 0 (qcow_clusters file) (qcow_value file)) as F.
      rewrite N.pow_0_r, N.mul_1_r in F. exact F. }
    rewrite V6. fold (qcow_cluster_size file). split.
    + intros x Hx. cbn [qcow_disk]. destruct (N.ltb_spec x (qcow_media_size file)); [|lia].
      rewrite <- (qcow_value_byte file v) by assumption. unfold qcow_byte. rewrite Hb. reflexivity.
    + left. intros n _. unfold qcow_value. cbn [br_type]. rewrite Hb. destruct (_ =? 0); discriminate.
  - exists (qcow_disk files). split; [apply qcow_layer_ok; assumption|]. cbn [qcow_layer ly_file ly_media_size ly_block_size]. rewrite V8, V9.
    split.
    { pose proof (filled_new (qcow_cluster_size file) (2 ^ qcow_l2_bits file) 0 (qcow_clusters file) (qcow_value file)) as F.
      rewrite N.pow_0_r, N.mul_1_r in F. exact F. }
    rewrite V6. fold (qcow_cluster_size file). split.
    + intros x Hx. cbn [qcow_disk]. destruct (N.ltb_spec x (qcow_media_size file)); [|lia].
      apply (qcow_value_byte file v); assumption.
    + right. destruct files as [|file' files]; [inversion Hch|]. cbn [qcow_sizes] in Hs. destruct Hs as [Hs1 Hs].
      destruct (IH Hwf Hcs Hts Hs fs Em Hof) as [IH1 IH2]. split; [exact IH1|]. rewrite IH2. cbn [hd]. split; [assumption|].
      apply Forall_cons_iff in Hwf as [[Hw' _] _]. apply (field_be_bound file' 24 8 Hw').
Qed.
