(** * Proofs about the ext file system: opening, inodes, directories and paths *)
From Coq Require Import Permutation Sorted.
From Verif Require Import Base BaseLemmas Bytes_model Checksums_model Checksums_spec Checksums_proofs Strings_model Strings_spec Strings_proofs.
From Verif Require Import Streams_model Streams_spec Streams_proofs BlockTree_model BlockTree_spec BlockTree_proofs Blocks_model Blocks_proofs.
From Verif Require Import Part_spec Part_model Fat_proofs Part_proofs Ext_model Ext_spec Ext_proofs Headers_model Headers_spec Headers_proofs ExtFs_model ExtFs_spec ExtFs_proofs.
Ltac Zify.zify_post_hook ::= idtac.

(** ** The superblock *)
Lemma superblock_answers : answers ext_superblock_read.
Proof.
  intros data Hb. destruct (N.eq_dec (field data 24 4) 22) as [G|G].
  2:{ rewrite (ext_superblock_ok' data Hb G). destruct (ext_superblock_ok data); discriminate. }
  unfold ext_superblock_read. destruct (N.eqb_spec (len data) 1024) as [L|L]; [|discriminate]. cbn [check bind]. reads Hb.
  destruct (same _ _); [|discriminate]. cbn [check bind]. reads Hb.
  destruct (field data 76 4 <=? 1); [|discriminate]. cbn [check bind]. reads Hb.
  rewrite if_ok. cbn [bind]. destruct (negb _); [|discriminate]. cbn [check bind]. reads Hb. rewrite G.
  change (22 <=? 22) with true. change (shl_chk 32 1024 22) with (@Ok N 0). cbn [check bind]. reads Hb.
  destruct (negb _); [|discriminate]. cbn [check bind]. reads Hb.
  destruct (negb _); [|discriminate]. cbn [check bind]. rewrite !(i32_at data) by room. cbn [bind]. reads Hb.
  destruct (N.ltb_spec (byte data 372) 16); [|discriminate]. cbn [check bind]. rewrite shl1 by lia. cbn [bind]. reads Hb.
  assert (B624 : sub_chk 4294967295 (field data 624 4) = Ok (2 ^ 32 - 1 - field data 624 4)).
  { unfold sub_chk. pose proof (field_lt data Hb 624 4) as B. change (2 ^ (8 * 4)) with 4294967296 in B.
    destruct (N.leb_spec (field data 624 4) 4294967295); [reflexivity|lia]. }
  rewrite B624. cbn [bind]. rewrite if_ok. cbn [bind].
  destruct (negb (N.land (field data 100 4) 1024 =? 0)); cbn [bind]; [|discriminate].
  destruct (byte data 373 =? 1); cbn [check bind]; [|discriminate]. reads Hb.
  rewrite crc32c_read by (reflexivity || (constructor; [apply wf_bytes_at, Hb|constructor])). cbn [bind concat].
  rewrite app_nil_r. change (crc32_reflected 2197175160 0 (bytes_at data 0 (1020 - 0))) with (crc32c (bytes_at data 0 1020)).
  pose proof (crc32c_bound (bytes_at data 0 1020)) as B. unfold sub_chk.
  destruct (N.leb_spec (crc32c (bytes_at data 0 1020)) 4294967295); [|change (2 ^ 32) with 4294967296 in B; lia]. cbn [bind].
  destruct (negb _); discriminate.
Qed.
Lemma read_exact_inside volume o n : o + n <= len volume -> read_exact_at volume o n = Ok (bytes_at volume o n).
Proof. intros H. unfold read_exact_at. destruct (N.leb_spec (o + n) (len volume)); [reflexivity|lia]. Qed.
Lemma superblock_at_answers volume o : buffer volume -> superblock_at volume o <> Panic.
Proof.
  intros Hb. unfold superblock_at, read_exact_at. destruct (_ <=? _); [|discriminate]. cbn [bind].
  apply superblock_answers, buffer_part, Hb.
Qed.
Lemma superblock_first volume : buffer volume -> superblock_ok volume -> block_size volume <= 65536 ->
  superblock_at volume 1024 = Ok (superblock volume).
Proof.
  intros Hb [H1 H2] H3. unfold superblock_at. rewrite read_exact_inside by lia. cbn [bind].
  rewrite (ext_superblock_ok' (bytes_at volume 1024 1024)).
  - now rewrite H2.
  - now apply buffer_part.
  - unfold not_22. intros E. unfold block_size, superblock, ext_superblock_of in H3. cbn [es_block_size] in H3. rewrite E in H3.
    vm_compute in H3. now apply H3.
Qed.

(** ** Features *)
Lemma has_flags_lor v a b : has_flags v (N.lor a b) = has_flags v a || has_flags v b.
Proof.
  unfold has_flags. rewrite N.land_lor_distr_r. apply bool_eq. rewrite orb_true_iff, !negb_true_iff, !N.eqb_neq, N.lor_eq_0_iff.
  destruct (N.eq_dec (N.land v a) 0); tauto.
Qed.
Lemma has_flags_bit v k : has_flags v (2 ^ k) = flag v k.
Proof. unfold has_flags. now rewrite land_flag, negb_involutive. Qed.
Lemma has_flags_bits v l : has_flags v (fold_right (fun k m => N.lor (2 ^ k) m) 0 l) = existsb (flag v) l.
Proof.
  induction l as [|k l IH]; cbn [fold_right existsb].
  - unfold has_flags. now rewrite N.land_0_r.
  - now rewrite has_flags_lor, has_flags_bit, IH.
Qed.
Lemma version_ok volume : ext_version (superblock volume) = version volume.
Proof.
  unfold ext_version, version. cbv zeta. set (s := superblock volume).
  change 0x1f7c0 with (fold_right (fun k m => N.lor (2 ^ k) m) 0 [6; 7; 8; 9; 10; 12; 13; 14; 15; 16]).
  change 0x378 with (fold_right (fun k m => N.lor (2 ^ k) m) 0 [3; 4; 5; 6; 8; 9]).
  change 0xc with (fold_right (fun k m => N.lor (2 ^ k) m) 0 [2; 3]).
  change 0x200 with (2 ^ 9). change (has_flags (es_compatible s) 4) with (has_flags (es_compatible s) (2 ^ 2)). rewrite !has_flags_bits, !has_flags_bit. reflexivity.
Qed.
Lemma unsupported_ok volume : buffer volume -> features_known volume -> ext_unsupported (superblock volume) = false.
Proof.
  intros Hb H. unfold ext_unsupported.
  change (0xffffffff - fold_right N.lor 0 ext_supported) with
    (fold_right (fun k m => N.lor (2 ^ k) m) 0 [0; 4; 5; 8; 11; 12; 14; 18; 19; 20; 21; 22; 23; 24; 25; 26; 27; 28; 29; 30; 31]).
  rewrite has_flags_bits. apply not_true_is_false. intros E. apply existsb_exists in E as (k & Hk & Ek).
  apply H in Ek. clear - Hk Ek.
  assert (F : forallb (fun k => negb (existsb (N.eqb k) [1; 2; 3; 6; 7; 9; 10; 13; 15; 16; 17]))
    [0; 4; 5; 8; 11; 12; 14; 18; 19; 20; 21; 22; 23; 24; 25; 26; 27; 28; 29; 30; 31] = true) by reflexivity.
  rewrite forallb_forall in F. specialize (F k Hk). apply negb_true_iff in F. rewrite <- not_true_iff_false in F. apply F.
  apply existsb_exists. exists k. split; [exact Ek|apply N.eqb_refl].
Qed.
Lemma no_meta volume : features_known volume -> has_flags (es_incompatible (superblock volume)) 0x10 = false.
Proof.
  intros H. change 0x10 with (2 ^ 4). rewrite has_flags_bit. apply not_true_is_false. intros E. apply H in E.
  cbn [In] in E. intuition discriminate.
Qed.
Lemma descriptor_size_ok volume : ext_descriptor_size (superblock volume) = descriptor_size volume.
Proof. unfold ext_descriptor_size, descriptor_size. change 0x80 with (2 ^ 7). now rewrite has_flags_bit. Qed.
Lemma crc_bound p seed data : p < 2 ^ 32 -> seed < 2 ^ 32 -> crc32_reflected p seed data < 2 ^ 32.
Proof.
  intros Hp Hs. unfold crc32_reflected, complement32. apply lxor_bound; [|reflexivity].
  apply feed_lsb_bound; [exact Hp|]. apply lxor_bound; [exact Hs|reflexivity].
Qed.
Lemma seed_ok volume : buffer volume ->
  ext_checksum_seed (superblock volume) = Ok (if checksums volume then Some (checksum_seed volume) else None).
Proof.
  intros Hb. unfold ext_checksum_seed, checksums. change 0x400 with (2 ^ 10). rewrite has_flags_bit.
  destruct (flag _ 10); [|reflexivity]. rewrite crc32c_read.
  - cbn [bind concat]. now rewrite app_nil_r.
  - reflexivity.
  - repeat constructor. unfold superblock, ext_superblock_of. cbn [es_identifier]. repeat apply wf_bytes_at. apply Hb.
Qed.
Lemma seed_bound volume : checksum_seed volume < 2 ^ 32.
Proof. apply crc32c_bound. Qed.

(** ** Group descriptors *)
Lemma descriptor_checksum_check_ok volume g d : buffer volume -> buffer d -> 32 <= len d -> g < 2 ^ 32 ->
  descriptor_checksum_check (checksum_seed volume) g d (field d 30 2) =
    check ((field d 30 2 =? 0) || (field d 30 2 =? seeded (checksum_seed volume)
      (le_bytes 4 g ++ bytes_at d 0 30 ++ [0; 0] ++ bytes_at d 32 (len d - 32)) mod 2 ^ 16)).
Proof.
  intros Hv Hb Hl Hg. unfold descriptor_checksum_check. rewrite !slice_at by lia. cbn [bind].
  change (30 - 0) with 30.
  rewrite crc32c_read.
  - cbn [bind concat]. rewrite app_nil_r. unfold seeded. set (D := le_bytes 4 g ++ _).
    pose proof (crc_bound 0x82f63b78 (checksum_seed volume) D eq_refl (seed_bound volume)) as B.
    unfold sub_chk. change (2 ^ 32) with 4294967296 in B. destruct (N.leb_spec (crc32_reflected 2197175160 (checksum_seed volume) D) 0xffffffff); [|lia].
    cbn [bind]. rewrite stored_or. do 3 f_equal.
    change 0xffff with (N.ones 16). now rewrite N.land_ones.
  - apply seed_bound.
  - constructor; [apply le_bytes_wf|]. constructor; [apply wf_bytes_at, Hb|]. constructor; [repeat constructor|]. constructor; [apply wf_bytes_at, Hb|constructor].
Qed.
Definition table_entries (volume : list N) (g : N) (k : N) (n : nat) : list (N * N) :=
  map (fun j => ext_group_descriptor_of (descriptor volume g j)) (seqN k n).
Lemma descriptors_read_ok volume g : buffer volume -> table_ok volume g -> groups volume < 2 ^ 30 ->
  forall n k, k + N.of_nat n = groups volume ->
  descriptors_read n (version volume) (if checksums volume then Some (checksum_seed volume) else None)
    (descriptor_size volume) 0 k (bytes_at volume (table_in volume g) (groups volume * descriptor_size volume)) (k * descriptor_size volume) =
  Ok (table_entries volume g k n).
Proof.
  intros Hb [Ht Hok] Hg. set (ds := descriptor_size volume) in *. set (D := bytes_at volume _ _).
  assert (Hds : ds = 32 \/ ds = 64) by (unfold ds, descriptor_size; destruct (flag _ 7); auto).
  assert (HD : len D = groups volume * ds) by (unfold D; rewrite len_bytes_at; lia).
  assert (HbD : buffer D) by (apply buffer_part, Hb).
  induction n as [|n IH]; intros k Hk; [reflexivity|].
  destruct (Hok k) as [Hz Hc]; [lia|]. cbn [descriptors_read].
  assert (Hle : k * ds + ds <= groups volume * ds) by nia.
  rewrite slice_at by lia. replace (k * ds + ds - k * ds) with ds by lia.
  assert (Ed : bytes_at D (k * ds) ds = descriptor volume g k).
  { unfold D, descriptor. rewrite bytes_at_bytes_at by lia. reflexivity. }
  rewrite Ed. cbn [bind].
  assert (Ld : len (descriptor volume g k) = ds) by (unfold descriptor; rewrite len_bytes_at; fold ds; lia).
  assert (Hbd : buffer (descriptor volume g k)) by (apply buffer_part, Hb).
  destruct (same _ _) eqn:Es; [apply same_iff in Es; contradiction|].
  rewrite (ext_group_descriptor_ok' (version volume) _ Hbd I).
  assert (Eo : ext_group_descriptor_ok (version volume) (descriptor volume g k) = true).
  { unfold ext_group_descriptor_ok. rewrite Ld. unfold ds, descriptor_size, version. cbv zeta. cbn [existsb].
    destruct (flag (es_incompatible (superblock volume)) 7); [|reflexivity].
    rewrite !orb_true_r. reflexivity. }
  rewrite Eo. cbn [bind]. destruct (ext_group_descriptor_of (descriptor volume g k)) as [b c] eqn:Eg. cbn beta iota.
  assert (Ec : c = field (descriptor volume g k) 30 2) by (unfold ext_group_descriptor_of in Eg; congruence).
  assert (Echk : match (if checksums volume then Some (checksum_seed volume) else None) with
     | Some seed => group <- add_chk two32 0 k ;; descriptor_checksum_check seed group (descriptor volume g k) c
     | None => Ok tt end = Ok tt).
  { destruct (checksums volume); [|reflexivity]. unfold add_chk. rewrite N.add_0_l.
    destruct (N.ltb_spec k two32); [|unfold two32 in *; change (2 ^ 30) with 1073741824 in Hg; lia]. cbn [bind].
    rewrite Ec, descriptor_checksum_check_ok; auto; [|lia]. specialize (Hc eq_refl). unfold descriptor_checksum_ok in Hc. cbv zeta in Hc.
    destruct Hc as [E|E]; [rewrite E; reflexivity|]. rewrite <- E, N.eqb_refl, orb_true_r. reflexivity. }
  rewrite Echk. cbn [bind]. replace (k * ds + ds) with ((k + 1) * ds) by lia. rewrite IH by lia. cbn [bind].
  unfold table_entries. cbn [seqN map]. rewrite Eg. reflexivity.
Qed.
Lemma table_read_ok volume g : buffer volume -> table_ok volume g -> groups volume < 2 ^ 30 ->
  descriptor_table_read volume (version volume) (if checksums volume then Some (checksum_seed volume) else None)
    (descriptor_size volume) 0 (groups volume) (table_in volume g) = Ok (table_entries volume g 0 (N.to_nat (groups volume))).
Proof.
  intros Hb Ht Hg. unfold descriptor_table_read, mul_chk.
  assert (Hds : descriptor_size volume <= 64) by (unfold descriptor_size; destruct (flag _ 7); lia).
  destruct (N.ltb_spec (groups volume * descriptor_size volume) two64).
  2:{ unfold two64 in *. change (2 ^ 30) with 1073741824 in Hg. nia. }
  cbn [bind]. rewrite read_exact_inside by apply Ht. cbn [bind].
  replace 0 with (0 * descriptor_size volume) at 3 by lia. apply descriptors_read_ok; auto. lia.
Qed.

(** ** Block groups *)
Lemma power_next b m : b = 3 \/ b = 5 \/ b = 7 -> b ^ m < 2 ^ 30 -> b ^ (m + 1) < 2 ^ 32.
Proof.
  intros Hb H.
  assert (G : forall n, 2 ^ 30 <= b ^ n -> b ^ n < 2 ^ 32 -> b ^ (m + 1) < 2 ^ 32).
  { intros n H1 H2. assert (Hm : m < n).
    { destruct (N.lt_ge_cases m n) as [L|L]; [exact L|]. pose proof (N.pow_le_mono_r b n m ltac:(lia) L). lia. }
    pose proof (N.pow_le_mono_r b (m + 1) n ltac:(lia) ltac:(lia)). lia. }
  destruct Hb as [->|[->| ->]]; [apply (G 19)|apply (G 13)|apply (G 11)]; (vm_compute; discriminate) || (vm_compute; reflexivity).
Qed.
Definition power_before (b g e : N) : Prop := exists k, e = b ^ (k + 1) /\ g <= e + 1 /\ (k = 0 \/ b ^ k < g).
Definition power_after (b g e : N) : Prop := exists k, e = b ^ (k + 1) /\ g <= e /\ (k = 0 \/ b ^ k < g).
Lemma next_power_ok b g e : b = 3 \/ b = 5 \/ b = 7 -> g < 2 ^ 30 -> power_before b g e ->
  exists e', next_power b e g = Ok e' /\ power_after b g e'.
Proof.
  intros Hb Hg (k & E & H1 & H2). unfold next_power. destruct (N.ltb_spec e g) as [L|L].
  - pose proof (power_next b (k + 1) Hb ltac:(lia)) as B. rewrite N.pow_add_r, N.pow_1_r, <- E in B.
    unfold mul_chk. change two32 with (2 ^ 32). destruct (N.ltb_spec (e * b) (2 ^ 32)); [|lia]. exists (e * b). split; [reflexivity|].
    exists (k + 1). split; [now rewrite (N.pow_add_r b (k + 1)), <- E, N.pow_1_r|].
    assert (1 <= e) by (rewrite E; pose proof (N.pow_nonzero b (k + 1) ltac:(lia)); lia). split; [nia|]. right. lia.
  - exists e. split; [reflexivity|]. exists k. auto.
Qed.
Lemma power_step b g e : power_after b g e -> power_before b (g + 1) e.
Proof. intros (k & E & H1 & H2). exists k. split; [exact E|]. split; [lia|]. destruct H2; [auto|right; lia]. Qed.
Lemma power_start b : power_before b 0 b.
Proof. exists 0. split; [now rewrite N.add_0_l, N.pow_1_r|]. split; [lia|auto]. Qed.
Lemma has_superblock_backup volume g e3 e5 e7 : power_after 3 g e3 -> power_after 5 g e5 -> power_after 7 g e7 ->
  (group_has_superblock (superblock volume) g e3 e5 e7 = true <-> has_backup volume g).
Proof.
  intros (k3 & A1 & A2 & A3) (k5 & B1 & B2 & B3) (k7 & C1 & C2 & C3). unfold group_has_superblock, has_backup.
  change 0x200 with (2 ^ 9). change (has_flags (es_read_only (superblock volume)) 1) with (has_flags (es_read_only (superblock volume)) (2 ^ 0)).
  rewrite !has_flags_bit. destruct (N.eqb_spec g 0) as [E0|E0]; [tauto|].
  destruct (flag (es_read_only (superblock volume)) 0); cbn [negb]; [|tauto].
  destruct (flag (es_compatible (superblock volume)) 9); [intuition discriminate|].
  rewrite !orb_true_iff, !N.eqb_eq.
  assert (P : forall b k e j, 1 < b -> e = b ^ (k + 1) -> g <= e -> (k = 0 \/ b ^ k < g) -> g = b ^ j -> g = 1 \/ g = e).
  { intros b k e j Hb He Hge Hk Hj. destruct (N.eq_dec j 0) as [->|J0]; [left; exact Hj|right].
    rewrite He, Hj in Hge. apply N.pow_le_mono_r_iff in Hge; [|exact Hb].
    destruct Hk as [->|Hk]; [rewrite Hj, He; f_equal; lia|]. rewrite Hj in Hk. apply N.pow_lt_mono_r_iff in Hk; [|exact Hb]. rewrite Hj, He. f_equal. lia. }
  split.
  - intros H. right. right. split; [reflexivity|]. destruct H as [[[H|H]|H]|H]; [now left|right; exists (k3 + 1); left; congruence|
      right; exists (k5 + 1); right; left; congruence|right; exists (k7 + 1); right; right; congruence].
  - intros [H|[H|[_ [H|(j & [H|[H|H]])]]]]; [lia|discriminate|auto| | |].
    + destruct (P 3 k3 e3 j); auto. lia.
    + destruct (P 5 k5 e5 j); auto. lia.
    + destruct (P 7 k7 e7 j); auto. lia.
Qed.

Definition groups_state (volume : list N) (g : N) (st : group_state) : Prop :=
  gs_number st = g /\ gs_offset st = g * (es_blocks_per_group (superblock volume) * block_size volume) /\
  power_before 3 g (gs_e3 st) /\ power_before 5 g (gs_e5 st) /\ power_before 7 g (gs_e7 st) /\
  gs_descriptors st = if g =? 0 then [] else table_entries volume 0 0 (N.to_nat (groups volume)).
Definition the_seed (volume : list N) : option N := if checksums volume then Some (checksum_seed volume) else None.
Lemma group_read_ok volume g st : ext_volume volume -> g < groups volume -> groups_state volume g st ->
  exists st', group_read volume (superblock volume) (the_seed volume) (groups volume)
    (es_blocks_per_group (superblock volume) * block_size volume) 0 0 st = Ok st' /\ groups_state volume (g + 1) st'.
Proof.
  intros (Hb & Hs & Hf & Hbs & Hipg & His & Hg & Hsize & Hinodes & Ht) Hlt (S1 & S2 & S3 & S4 & S5 & S6).
  set (gsz := es_blocks_per_group (superblock volume) * block_size volume) in *.
  assert (Hoff : (g + 1) * gsz < 2 ^ 63).
  { eapply N.le_lt_trans; [|exact Hsize]. rewrite <- N.mul_assoc. fold gsz. apply N.mul_le_mono_r. lia. }
  unfold group_read. cbv zeta. rewrite S1, S2, (no_meta volume Hf). cbn [negb orb].
  destruct (next_power_ok 3 g (gs_e3 st)) as (e3 & -> & P3); auto; [lia|]. cbn [bind].
  destruct (next_power_ok 5 g (gs_e5 st)) as (e5 & -> & P5); auto; [lia|]. cbn [bind].
  destruct (next_power_ok 7 g (gs_e7 st)) as (e7 & -> & P7); auto; [lia|]. cbn [bind].
  pose proof (has_superblock_backup volume g e3 e5 e7 P3 P5 P7) as Hback.
  fold (block_size volume). change (2 ^ 63) with 9223372036854775808 in Hoff.
  assert (Hbk : (if group_has_superblock (superblock volume) g e3 e5 e7 && negb (g =? 0)
     then superblock_offset <- (if (g * gsz =? 0) || (block_size volume =? 1024) then add_chk two64 (g * gsz) 1024 else Ok (g * gsz)) ;;
          match superblock_at volume superblock_offset with Panic => Panic | _ => Ok tt end
     else Ok tt) = Ok tt).
  { destruct (_ && _); [|reflexivity].
    assert (E : exists o, (if (g * gsz =? 0) || (block_size volume =? 1024) then add_chk two64 (g * gsz) 1024 else Ok (g * gsz)) = Ok o).
    { destruct (_ || _); [|eauto]. unfold add_chk, two64. destruct (N.ltb_spec (g * gsz + 1024) 18446744073709551616); [eauto|lia]. }
    destruct E as (o & ->). cbn [bind]. pose proof (superblock_at_answers volume o Hb). destruct (superblock_at volume o); congruence. }
  rewrite Hbk. cbn [bind]. clear Hbk. cbn beta iota.
  assert (Hnext : add_chk two32 g 1 = Ok (g + 1)).
  { unfold add_chk, two32. change (2 ^ 30) with 1073741824 in Hg. destruct (N.ltb_spec (g + 1) 4294967296); [reflexivity|lia]. }
  assert (Hnexto : add_chk two64 (g * gsz) gsz = Ok ((g + 1) * gsz)).
  { unfold add_chk, two64. replace (g * gsz + gsz) with ((g + 1) * gsz) by lia. destruct (N.ltb_spec ((g + 1) * gsz) 18446744073709551616); [reflexivity|lia]. }
  destruct (group_has_superblock (superblock volume) g e3 e5 e7) eqn:Eh.
  - assert (HB : has_backup volume g) by (apply Hback; reflexivity).
    assert (Epos : (position <- (if block_size volume =? 1024 then add_chk two64 (g * gsz) 1024 else Ok (g * gsz)) ;;
       add_chk two64 position (block_size volume)) = Ok (table_in volume g)).
    { unfold table_in. rewrite <- N.mul_assoc. fold gsz. unfold add_chk, two64. destruct (N.eqb_spec (block_size volume) 1024) as [E|E].
      - destruct (N.ltb_spec (g * gsz + 1024) 18446744073709551616); [|lia]. cbn [bind].
        destruct (N.ltb_spec (g * gsz + 1024 + block_size volume) 18446744073709551616); [|lia]. f_equal. lia.
      - cbn [bind]. destruct (N.ltb_spec (g * gsz + block_size volume) 18446744073709551616); [|lia]. f_equal. }
    assert (Ebind : forall A (k : N -> res A), (position <- (if block_size volume =? 1024 then add_chk two64 (g * gsz) 1024 else Ok (g * gsz)) ;;
       position <- add_chk two64 position (block_size volume) ;; k position) = k (table_in volume g)).
    { intros A k. destruct (if block_size volume =? 1024 then add_chk two64 (g * gsz) 1024 else Ok (g * gsz)) as [p| |]; cbn [bind] in *; try discriminate. now rewrite Epos. }
    rewrite Ebind. cbn [bind]. rewrite version_ok, descriptor_size_ok.
    rewrite (N.mod_small (groups volume)) by (unfold two32; change (2 ^ 30) with 1073741824 in Hg; lia).
    unfold the_seed. rewrite table_read_ok by auto. cbn [bind]. rewrite Hnext, Hnexto. cbn [bind].
    eexists. split; [reflexivity|]. unfold groups_state. cbn [gs_number gs_offset gs_e3 gs_e5 gs_e7 gs_descriptors]. fold gsz.
    split; [reflexivity|]. split; [reflexivity|]. split; [now apply power_step|]. split; [now apply power_step|]. split; [now apply power_step|].
    rewrite S6. replace (g + 1 =? 0) with false by lia. destruct (N.eqb_spec g 0) as [->|E]; [reflexivity|reflexivity].
  - rewrite Hnext, Hnexto. cbn [bind].
    eexists. split; [reflexivity|]. unfold groups_state. cbn [gs_number gs_offset gs_e3 gs_e5 gs_e7 gs_descriptors]. fold gsz.
    split; [reflexivity|]. split; [reflexivity|]. split; [now apply power_step|]. split; [now apply power_step|]. split; [now apply power_step|].
    rewrite S6. replace (g + 1 =? 0) with false by lia. destruct (N.eqb_spec g 0) as [->|E]; [|reflexivity].
    exfalso. assert (false = true) by (apply Hback; now left). discriminate.
Qed.
Lemma groups_read_ok volume : ext_volume volume -> forall fuel g st, g < groups volume -> groups volume <= g + N.of_nat fuel ->
  groups_state volume g st ->
  groups_read fuel volume (superblock volume) (the_seed volume) (groups volume)
    (es_blocks_per_group (superblock volume) * block_size volume) 0 0 st = Ok (table_entries volume 0 0 (N.to_nat (groups volume))).
Proof.
  intros HV. induction fuel as [|fuel IH]; intros g st Hg Hf Hst; [lia|]. cbn [groups_read].
  destruct (group_read_ok volume g st HV Hg Hst) as (st' & -> & Hst'). cbn [bind].
  destruct Hst' as (S1 & S). rewrite S1. destruct (N.leb_spec (groups volume) (g + 1)) as [L|L].
  - destruct S as (_ & _ & _ & _ & ->). replace (g + 1 =? 0) with false by lia. reflexivity.
  - apply (IH (g + 1)); [exact L|lia|]. split; assumption.
Qed.

(** ** The inode table *)
Fixpoint numbered {V} (i : N) (l : list V) : list (N * V) :=
  match l with [] => [] | v :: l => (i, v) :: numbered (i + 1) l end.
Lemma table_insert_ranges gs l : forall i t, (i + len l) * gs < two64 ->
  table_insert gs l (i * gs) t = insert_ranges t (block_inserts gs (numbered i l)).
Proof.
  induction l as [|d l IH]; intros i t H; [reflexivity|]. rewrite len_cons in H.
  cbn [table_insert numbered]. unfold block_inserts. cbn [map fst snd insert_ranges]. fold (block_inserts gs (numbered (i + 1) l)).
  destruct (bt_insert t (i * gs) gs d) as [t1 [[]| |]]; try reflexivity.
  unfold add_chk. replace (i * gs + gs) with ((i + 1) * gs) by lia. destruct (N.ltb_spec ((i + 1) * gs) two64); [|nia].
  cbn [bind]. apply IH. eapply N.le_lt_trans; [|exact H]. apply N.mul_le_mono_r. lia.
Qed.
Lemma numbered_results {V} k (l : list V) : forall i before, Forall (fun e : N * V => fst e < i) before -> i + len l <= k ->
  Forall (fun b => b = true) (block_results k before (numbered i l)).
Proof.
  induction l as [|c l IH]; intros i before Hb Hk; [constructor|]. rewrite len_cons in Hk. cbn [numbered block_results].
  constructor.
  - destruct (N.ltb_spec i k); [|lia]. cbn [andb]. apply negb_true_iff. apply not_true_is_false. intros Hex. apply existsb_exists in Hex as (e & He & Ee).
    rewrite Forall_forall in Hb. specialize (Hb e He). apply N.eqb_eq in Ee. lia.
  - apply IH; [|lia]. apply Forall_app. split; [eapply Forall_impl; [|exact Hb]; cbn beta; intros; lia|repeat constructor; cbn [fst]; lia].
Qed.
Lemma numbered_find {V} (l : list V) : forall i x, i <= x -> x < i + len l ->
  exists c, nth_error l (N.to_nat (x - i)) = Some c /\ find (fun e => fst e =? x) (numbered i l) = Some (x, c).
Proof.
  induction l as [|c l IH]; intros i x H1 H2; [rewrite len_nil in H2; lia|]. rewrite len_cons in H2. cbn [numbered find fst].
  destruct (N.eqb_spec i x) as [->|Hne].
  - exists c. rewrite N.sub_diag. auto.
  - destruct (IH (i + 1) x) as (c' & E1 & E2); [lia|lia|]. exists c'. split; [|assumption].
    replace (N.to_nat (x - i)) with (S (N.to_nat (x - (i + 1)))) by lia. exact E1.
Qed.
Lemma table_init_ok version seed bs isz ipg l : 0 < isz -> 1 <= ipg -> ipg * isz < two64 -> len l * (ipg * isz) < two64 ->
  exists tree, ext_table_init version seed bs isz ipg l =
      Ok {| xt_version := version; xt_seed := seed; xt_block_size := bs; xt_inode_size := isz; xt_per_group := ipg; xt_tree := tree |} /\
    forall x, x < len l * (ipg * isz) -> exists d, nth_error l (N.to_nat (x / (ipg * isz))) = Some d /\ bt_get tree x = Ok (Some d).
Proof.
  intros Hi Hp H1 H2. unfold ext_table_init. remember (ipg * isz) as gs eqn:Egs.
  assert (Hgs : 0 < gs) by (rewrite Egs; nia).
  unfold mul_chk. rewrite <- Egs. destruct (N.ltb_spec gs two64); [|lia]. cbn [bind].
  destruct (N.ltb_spec (len l * gs) two64); [|lia]. cbn [bind].
  change 0 with (0 * gs) at 1. rewrite table_insert_ranges by (rewrite N.add_0_l; exact H2).
  assert (Eb : isz * ipg ^ 1 = gs) by (rewrite N.pow_1_r, Egs; lia).
  destruct (blocks_ok (V := N * N) ipg isz 1 (len l) (numbered 0 l)) as (t & E1 & E2); auto; rewrite ?Eb; auto; [lia| |].
  { assert (G : forall (m : list (N * N)) i, (i + len m) * gs < two64 -> Forall (fun e : N * (N * N) => fst e * gs + gs < two64) (numbered i m)).
    { clear - Hgs. induction m as [|c m IH]; intros i H; [constructor|]. rewrite len_cons in H. cbn [numbered]. constructor; [|apply IH; eapply N.le_lt_trans; [|exact H]; apply N.mul_le_mono_r; lia].
      cbn [fst]. nia. }
    apply G. rewrite N.add_0_l. exact H2. }
  rewrite Eb in E1, E2. rewrite insert_ranges_inserts; rewrite E1.
  2:{ cbn [snd]. apply Forall_map. eapply Forall_impl; [|apply numbered_results; [constructor|lia]]. intros b ->. reflexivity. }
  cbn [fst bind]. exists t. split; [reflexivity|]. intros x Hx. rewrite E2 by exact Hx. unfold offered.
  assert (Hd : x / gs < len l) by (apply N.div_lt_upper_bound; lia).
  destruct (numbered_find l 0 (x / gs)) as (c & F1 & F2); [apply N.le_0_l|rewrite N.add_0_l; exact Hd|]. rewrite N.sub_0_r in F1.
  destruct (N.ltb_spec (x / gs) (len l)); [|lia]. rewrite F2. exists c. auto.
Qed.

(** ** Opening *)
Record opened (volume : list N) (fs : ext_fs) : Prop := {
  opened_superblock : xf_superblock fs = superblock volume;
  opened_version : xt_version (xf_table fs) = version volume;
  opened_seed : xt_seed (xf_table fs) = the_seed volume;
  opened_block_size : xt_block_size (xf_table fs) = block_size volume;
  opened_inode_size : xt_inode_size (xf_table fs) = es_inode_size (superblock volume);
  opened_per_group : xt_per_group (xf_table fs) = es_inodes_per_group (superblock volume);
  opened_tree : forall i, 1 <= i -> (i - 1) / es_inodes_per_group (superblock volume) < groups volume ->
    bt_get (xt_tree (xf_table fs)) ((i - 1) * es_inode_size (superblock volume)) =
      Ok (Some (ext_group_descriptor_of (descriptor volume 0 ((i - 1) / es_inodes_per_group (superblock volume)))))
}.
Lemma nth_table_entries volume g k n j : (j < n)%nat ->
  nth_error (table_entries volume g k n) j = Some (ext_group_descriptor_of (descriptor volume g (k + N.of_nat j))).
Proof. intros H. unfold table_entries. rewrite nth_error_map, nth_error_seqN by exact H. reflexivity. Qed.
Lemma superblock_bounds volume : buffer volume ->
  es_inode_size (superblock volume) < 2 ^ 16 /\ es_inodes_per_group (superblock volume) < 2 ^ 32 /\
  es_blocks_per_group (superblock volume) < 2 ^ 32 /\ es_inodes (superblock volume) < 2 ^ 32.
Proof.
  intros Hb. unfold superblock, ext_superblock_of. cbn [es_inode_size es_inodes_per_group es_blocks_per_group es_inodes].
  pose proof (buffer_part volume 1024 1024 Hb) as B.
  repeat match goal with |- _ /\ _ => split end; first [apply (field_lt _ B _ 2)|apply (field_lt _ B _ 4)].
Qed.
Lemma open_ok volume : ext_volume volume ->
  exists fs, ext_open volume = Ok fs /\ opened volume fs /\
    xf_label fs = match es_label (superblock volume) with [] => None | l => Some l end.
Proof.
  intros HV. pose proof HV as (Hb & Hs & Hf & Hbs & Hipg & His & Hg & Hsize & Hinodes & Ht).
  destruct (superblock_bounds volume Hb) as (B1 & B2 & B3 & B4).
  change (2 ^ 16) with 65536 in B1. change (2 ^ 32) with 4294967296 in B2, B3, B4. change (2 ^ 30) with 1073741824 in Hg.
  assert (Hpg : 1 <= es_blocks_per_group (superblock volume) /\ 1 <= es_blocks (superblock volume)).
  { destruct Hs as [_ Hs]. unfold ext_superblock_ok in Hs. rewrite !andb_true_iff, !N.leb_le in Hs.
    unfold superblock, ext_superblock_of. cbn [es_blocks_per_group es_blocks]. tauto. }
  destruct Hpg as [Hpg Hbl].
  unfold ext_open. rewrite superblock_first by (auto || lia). cbn [bind]. rewrite seed_ok by assumption. cbn [bind]. fold (the_seed volume).
  assert (Eg : div_ceil (es_blocks (superblock volume)) (es_blocks_per_group (superblock volume)) = Ok (groups volume)).
  { unfold groups, div_ceil, div_chk. remember (es_blocks_per_group (superblock volume)) as p eqn:Ep. remember (es_blocks (superblock volume)) as n eqn:En.
    clear - Hpg Hbl. destruct (N.eqb_spec p 0); [lia|]. cbn [bind]. f_equal.
    pose proof (N.div_mod n p ltac:(lia)) as D. pose proof (N.mod_lt n p ltac:(lia)) as M.
    destruct (N.eqb_spec (n mod p) 0) as [E|E]; [apply (N.div_unique _ _ _ (p - 1))|apply (N.div_unique _ _ _ (n mod p - 1))]; nia. }
  rewrite Eg. cbn [bind]. fold (block_size volume). unfold mul_chk at 1.
  destruct (N.ltb_spec (es_blocks_per_group (superblock volume) * block_size volume) two64) as [L|L]; [|assert (es_blocks_per_group (superblock volume) * block_size volume <= 4294967296 * 65536) by (apply N.mul_le_mono; lia); unfold two64 in *; lia].
  cbn [bind]. rewrite (no_meta volume Hf). cbn [bind].
  assert (Hg1 : 0 < groups volume).
  { unfold groups. apply N.div_str_pos. lia. }
  rewrite (groups_read_ok volume HV _ 0) by (try lia; repeat split; cbn [gs_number gs_offset gs_e3 gs_e5 gs_e7 gs_descriptors]; try apply power_start; reflexivity).
  cbn [bind]. destruct (N.ltb_spec 0 (es_inodes_per_group (superblock volume))); [|lia].
  rewrite version_ok.
  assert (Lt : len (table_entries volume 0 0 (N.to_nat (groups volume))) = groups volume).
  { unfold table_entries, len. rewrite map_length, seqN_length. lia. }
  set (isz := es_inode_size (superblock volume)) in *. set (ipg := es_inodes_per_group (superblock volume)) in *.
  assert (Hisz : 0 < isz) by lia.
  change (2 ^ 63) with 9223372036854775808 in Hinodes. rewrite <- N.mul_assoc in Hinodes.
  destruct (table_init_ok (version volume) (the_seed volume) (block_size volume) isz ipg (table_entries volume 0 0 (N.to_nat (groups volume)))) as (t & E & G).
  { exact Hisz. } { exact Hipg. } { unfold two64. clear - Hinodes Hg1 Hisz. nia. } { rewrite Lt. unfold two64. lia. }
  rewrite E. cbn [bind]. eexists. split; [reflexivity|]. split; [|reflexivity].
  constructor; cbn [xf_superblock xf_table xt_version xt_seed xt_block_size xt_inode_size xt_per_group xt_tree]; try reflexivity.
  fold isz ipg. intros i Hi1 Hi2. rewrite Lt in G.
  assert (Ed : (i - 1) * isz / (ipg * isz) = (i - 1) / ipg) by (rewrite N.mul_comm, (N.mul_comm ipg), N.div_mul_cancel_l by lia; reflexivity).
  destruct (G ((i - 1) * isz)) as (d & G1 & G2).
  { pose proof (N.div_mod (i - 1) ipg ltac:(lia)). pose proof (N.mod_lt (i - 1) ipg ltac:(lia)).
    assert (i - 1 < groups volume * ipg) by nia. rewrite N.mul_assoc. apply N.mul_lt_mono_pos_r; lia. }
  rewrite G2. rewrite Ed in G1. rewrite nth_table_entries in G1 by lia. rewrite N.add_0_l, N2Nat.id in G1. congruence.
Qed.

(** ** The blocks of an inode *)
Definition good_ranges (ranges : list ext_range) : Prop :=
  Forall (fun r => er_physical r < 2 ^ 48 /\ (er_sparse r = false -> 0 < er_physical r)) ranges.
Lemma bn_entries_done step total data offsets st : total <= snd st -> bn_entries step total data offsets st = Ok st.
Proof. intros H. destruct offsets; [reflexivity|]. cbn [bn_entries]. destruct (N.leb_spec total (snd st)); [reflexivity|lia]. Qed.
Lemma bn_read_done depth volume bs total data st : total <= snd st -> bn_read depth volume bs total data st = Ok st.
Proof. intros H. destruct depth; cbn [bn_read]; now apply bn_entries_done. Qed.
Lemma direct_numbers_ok volume bs total ref : wf_bytes volume -> len volume < two64 -> geometry bs total ->
  wf_bytes ref -> len ref = 60 -> total <= 12 ->
  exists ranges, block_numbers_read volume bs total ref = Ok ranges /\ contiguous 0 ranges /\
     described ranges = mapped_blocks volume bs total ref /\ good_ranges ranges.
Proof.
  intros Hw Hv Hg Hwr Hlr Ht. destruct (words_reference ref Hlr) as (W0 & _ & _ & _).
  unfold block_numbers_read. rewrite (slice_ok ref 0 48), (slice_ok ref 48 52), (slice_ok ref 52 56), (slice_ok ref 56 60) by lia.
  change (N.to_nat (48 - 0)) with 48%nat. change (N.to_nat 0) with 0%nat. change (skipn 0 ref) with ref. cbn [bind].
  assert (L0 : len (firstn 48 ref) = 48) by (unfold len in *; rewrite firstn_length; lia).
  destruct (bn_read_ok volume bs total Hw Hv Hg 0 (firstn 48 ref) [] 0 [] ltac:(lia)) as [(r0 & E0 & B0)|[_ Hn]].
  { now apply wf_firstn. } { rewrite L0. unfold two64. lia. } { rewrite L0. reflexivity. } { apply built_nil. }
  2: { exfalso. apply Hn. apply Forall_forall. intros x _. exact I. }
  rewrite E0. cbn [bind]. rewrite W0 in B0, E0. rewrite N.sub_0_r, N.add_0_l in *. cbn [app] in B0. rewrite flat_map_blocks in B0.
  rewrite W0, flat_map_blocks. set (D := firstn 12 (words ref)) in *.
  assert (LD : length D = 12%nat).
  { unfold D. clear - Hlr. unfold len in Hlr. do 60 (destruct ref as [|? ref]; [cbn [length] in Hlr; lia|]). reflexivity. }
  assert (LQ : len (firstn (N.to_nat total) D) = total) by (unfold len; rewrite firstn_length; lia).
  rewrite LQ in *.
  rewrite bn_read_done by (cbn [snd]; lia). cbn [bind]. rewrite bn_read_done by (cbn [snd]; lia). cbn [bind].
  rewrite bn_read_done by (cbn [snd]; lia). cbn [bind]. destruct (N.ltb_spec total total); [lia|].
  destruct B0 as (F1 & F2 & _ & F4). eexists. split; [reflexivity|]. split; [exact F1|]. split; [|now apply Forall_rev].
  rewrite F2. unfold mapped_blocks. fold D. rewrite firstn_app, LD.
  replace (N.to_nat total - 12)%nat with 0%nat by lia. cbn [firstn]. now rewrite app_nil_r.
Qed.

(** ** Reading an inode *)
Lemma kind_ok inode k : xi_mode inode < 2 ^ 16 -> k < 16 -> (ext_type inode =? k * 4096) = (kind inode =? k).
Proof.
  intros H Hk. unfold ext_type, kind. change 0xf000 with (N.shiftl (N.ones 4) 12).
  assert (E : N.land (xi_mode inode) (N.shiftl (N.ones 4) 12) = (xi_mode inode / 4096 mod 16) * 4096).
  { change 4096 with (2 ^ 12) at 2. rewrite <- N.shiftl_mul_pow2. change 16 with (2 ^ 4). rewrite <- N.land_ones.
    change 4096 with (2 ^ 12). rewrite <- N.shiftr_div_pow2.
    apply N.bits_inj. intros j. rewrite !N.land_spec.
    destruct (N.lt_ge_cases j 12) as [L|L].
    - rewrite !N.shiftl_spec_low by exact L. apply andb_false_r.
    - rewrite !N.shiftl_spec_high' by exact L. rewrite N.land_spec, N.shiftr_spec'. replace (j - 12 + 12) with j by lia. reflexivity. }
  rewrite E. apply bool_eq. rewrite !N.eqb_eq. lia.
Qed.

Lemma inode_mode_lt version data k : buffer data -> xi_mode (ext_inode_of version data k) < 2 ^ 16.
Proof. intros H. apply (field_lt data H 0 2). Qed.
Lemma bit_flag v k : negb (N.land v (2 ^ k) =? 0) = flag v k.
Proof. now rewrite land_flag, negb_involutive. Qed.
Lemma block_size_power volume : exists k, block_size volume = 1024 * 2 ^ k.
Proof. eexists. reflexivity. Qed.
Lemma ceil_total a b : 0 < b -> div_ceil a b = Ok ((a + (b - 1)) / b).
Proof.
  intros Hb. unfold div_ceil, div_chk. destruct (N.eqb_spec b 0); [lia|]. cbn [bind]. f_equal.
  pose proof (N.div_mod a b ltac:(lia)) as D. pose proof (N.mod_lt a b ltac:(lia)) as M.
  destruct (N.eqb_spec (a mod b) 0) as [E|E]; [apply (N.div_unique _ _ _ (b - 1))|apply (N.div_unique _ _ _ (a mod b - 1))]; nia.
Qed.
Lemma total_ok volume inode : 1024 <= block_size volume -> ext_total inode (block_size volume) = Ok (blocks_total volume inode).
Proof. intros H. unfold ext_total, blocks_total. rewrite ceil_total by lia. reflexivity. Qed.
Lemma inode_ranges_ok volume inode blocks : ext_volume volume -> xi_mode inode < 2 ^ 16 -> wf_bytes (xi_reference inode) ->
  len (xi_reference inode) = 60 -> file_blocks volume inode blocks ->
  exists ranges, ext_inode_ranges (version volume) volume (block_size volume) inode = Ok ranges /\
    contiguous 0 ranges /\ described ranges = blocks /\ good_ranges ranges.
Proof.
  intros (Hb & Hs & Hf & Hbs & Hipg & His & Hg & Hsize & Hinodes & Ht) Hm Hw Hl [Htot Hblocks].
  unfold ext_inode_ranges. change 0x2000 with (2 * 4096). change 0x6000 with (6 * 4096). rewrite !kind_ok by (assumption || reflexivity).
  fold (is_device inode). destruct (is_device inode).
  { subst blocks. exists []. split; [reflexivity|]. repeat split. constructor. }
  rewrite total_ok by lia. cbn [bind]. change 0x00080000 with (2 ^ 19). rewrite bit_flag.
  assert (Hgeo : geometry (block_size volume) (blocks_total volume inode)).
  { unfold geometry. destruct (block_size_power volume) as (e & E). split; [lia|]. split.
    - rewrite E. replace (1024 * 2 ^ e) with (256 * 2 ^ e * 4) by lia. apply N.mod_mul. lia.
    - split; [lia|]. change two63 with (2 ^ 63). nia. }
  assert (Hv : len volume < two64) by apply Hb.
  destruct ((version volume =? 4) && flag (xi_flags inode) 19).
  - destruct Hblocks as (depth & extents & Hn & Hsort & Hlen & ->).
    destruct (extents_read_ok volume (block_size volume) (blocks_total volume inode) (xi_reference inode) depth extents) as (r & E & R); auto.
    { rewrite Hl. reflexivity. } { eapply extents_node_extents_ok, Hn. }
    exists r. auto.
  - destruct Hblocks as [Hin ->]. destruct (N.le_gt_cases (blocks_total volume inode) 12) as [L|L].
    + apply direct_numbers_ok; auto. apply Hb.
    + destruct (block_numbers_ok volume (block_size volume) (blocks_total volume inode) (xi_reference inode)) as [R|[_ R]]; auto; [apply Hb|].
      exfalso. apply R, Hin, L.
Qed.

Lemma inode_checksum_check_ok volume i data stored : buffer volume -> buffer data ->
  len data = 128 \/ 152 <= len data -> i < 2 ^ 32 -> inode_checksum_ok volume i stored data ->
  inode_checksum_check (checksum_seed volume) i data stored = Ok tt.
Proof.
  intros Hv Hb Hl Hi H. unfold inode_checksum_check. rewrite !(slice_at data) by lia. cbn [bind].
  set (ext := if 128 <? len data then _ else _).
  assert (Ex : exists chunks, ext = Ok chunks /\ Forall wf_bytes chunks /\
    concat chunks = if 128 <? len data then bytes_at data 128 2 ++ [0; 0] ++ bytes_at data 132 (len data - 132) else []).
  { unfold ext. destruct (N.ltb_spec 128 (len data)).
    - rewrite !(slice_at data) by lia. cbn [bind]. eexists. split; [reflexivity|]. split.
      + constructor; [apply wf_bytes_at, Hb|]. constructor; [repeat constructor|]. constructor; [apply wf_bytes_at, Hb|constructor].
      + cbn [concat]. now rewrite app_nil_r.
    - eexists. split; [reflexivity|]. split; [constructor|reflexivity]. }
  destruct Ex as (chunks & -> & W & C). cbn [bind].
  rewrite crc32c_read.
  2: apply seed_bound.
  2:{ apply Forall_app. split; [|exact W]. constructor; [apply le_bytes_wf|]. constructor; [apply wf_bytes_at, Hb|].
      constructor; [apply wf_bytes_at, Hb|]. constructor; [repeat constructor|]. constructor; [apply wf_bytes_at, Hb|constructor]. }
  cbn [bind]. rewrite concat_app, C. cbn [concat]. rewrite app_nil_r, <- !app_assoc.
  change (104 - 100) with 4. change (124 - 0) with 124. change (128 - 126) with 2.
  unfold inode_checksum_ok, seeded in H. cbv zeta in H. set (D := le_bytes 4 i ++ _) in H |- *.
  pose proof (crc_bound 0x82f63b78 (checksum_seed volume) D eq_refl (seed_bound volume)) as B.
  unfold sub_chk. change (2 ^ 32) with 4294967296 in *. destruct (N.leb_spec (crc32_reflected 2197175160 (checksum_seed volume) D) 0xffffffff); [|lia].
  cbn [bind]. rewrite stored_or. change (4294967296 - 1) with 0xffffffff in H.
  set (c := 0xffffffff - _) in H |- *.
  assert (Ec : (if len data <=? 128 then N.land c 0xffff else c) = if 128 <? len data then c else c mod 2 ^ 16).
  { change 0xffff with (N.ones 16). rewrite N.land_ones. destruct (N.leb_spec (len data) 128), (N.ltb_spec 128 (len data)); try lia; reflexivity. }
  rewrite Ec. destruct H as [->| ->]; [reflexivity|]. rewrite N.eqb_refl, orb_true_r. reflexivity.
Qed.

Lemma get_inode_ok volume fs i inode blocks : ext_volume volume -> opened volume fs -> file_at volume i inode blocks ->
  exists ranges, ext_get_inode volume (xf_table fs) i = Ok (inode, ranges) /\
    contiguous 0 ranges /\ described ranges = blocks /\ good_ranges ranges.
Proof.
  intros HV HO (H1 & H2 & H3 & H4 & (k & H5 & H6) & H7 & H8).
  pose proof HV as (Hb & Hs & Hf & Hbs & Hipg & His & Hg & Hsize & Hinodes & Ht).
  destruct (superblock_bounds volume Hb) as (B1 & B2 & B3 & B4). destruct HO as [O1 O2 O3 O4 O5 O6 O7].
  unfold ext_get_inode. rewrite O2, O3, O4, O5, O6. unfold sub_chk. destruct (N.leb_spec 1 i); [|lia]. cbn [bind].
  specialize (O7 i H1 H2).
  unfold inode_offset in H4. cbv zeta in H4.
  set (isz := es_inode_size (superblock volume)) in *. set (ipg := es_inodes_per_group (superblock volume)) in *.
  change (2 ^ 16) with 65536 in *. change (2 ^ 32) with 4294967296 in *.
  unfold mul_chk at 1. destruct (N.ltb_spec ((i - 1) * isz) two64) as [L|L].
  2:{ assert ((i - 1) * isz <= 4294967296 * 65536) by (apply N.mul_le_mono; lia). unfold two64 in L. lia. }
  cbn [bind]. rewrite O7. cbn [bind of_option].
  destruct (ext_group_descriptor_of (descriptor volume 0 ((i - 1) / ipg))) as [b c] eqn:Ed. cbn [fst] in H4. cbn beta iota.
  unfold mod_chk. destruct (N.eqb_spec ipg 0); [lia|]. cbn [bind].
  assert (Hv : len volume < 2 ^ 64) by apply Hb. change (2 ^ 64) with two64 in Hv.
  unfold mul_chk, add_chk. destruct (N.ltb_spec ((i - 1) mod ipg * isz) two64); [|lia]. cbn [bind].
  destruct (N.ltb_spec (b * block_size volume) two64); [|lia]. cbn [bind].
  rewrite (N.add_comm ((i - 1) mod ipg * isz)). destruct (N.ltb_spec (b * block_size volume + (i - 1) mod ipg * isz) two64); [|lia]. cbn [bind].
  rewrite read_exact_inside by exact H4. cbn [bind].
  assert (Ei : bytes_at volume (b * block_size volume + (i - 1) mod ipg * isz) isz = inode_bytes volume i).
  { unfold inode_bytes, inode_offset. cbv zeta. fold isz ipg. rewrite Ed. reflexivity. }
  rewrite Ei. set (data := inode_bytes volume i) in *.
  assert (Hbd : buffer data) by (apply buffer_part, Hb).
  assert (Hld : len data = isz) by (rewrite <- Ei, len_bytes_at; lia).
  destruct (inode_exact (version volume) data Hbd ltac:(rewrite Hld; exact His)) as [Hread _].
  rewrite (Hread k H5). cbn [bind]. rewrite <- H6.
  assert (Ec : match the_seed volume with Some seed => inode_checksum_check seed i data (xi_checksum inode) | None => Ok tt end = Ok tt).
  { unfold the_seed. destruct (checksums volume); [|reflexivity]. apply inode_checksum_check_ok; auto. rewrite Hld. exact His. }
  rewrite Ec. cbn [bind].
  destruct (inode_ranges_ok volume inode blocks HV) as (r & E & R); auto.
  { rewrite H6. now apply inode_mode_lt. }
  { rewrite H6. unfold ext_inode_of. cbn [xi_reference]. apply wf_bytes_at, Hbd. }
  { rewrite H6. unfold ext_inode_of. cbn [xi_reference]. rewrite len_bytes_at. lia. }
  rewrite E. cbn [bind]. exists r. auto.
Qed.

(** ** The map of directory entries *)
Definition key_lt (a b : list N * ext_dirent) : Prop := lex_lt (fst a) (fst b).
Lemma key_lt_trans : Relations_1.Transitive key_lt.
Proof. intros a b c. unfold key_lt. apply lex_trans. Qed.
Lemma insert_new key e l : ~ In key (map fst l) -> Permutation (xmap_insert key e l) ((key, e) :: l).
Proof.
  induction l as [|[k v] l IH]; intros H; [reflexivity|]. cbn [xmap_insert].
  destruct (ucs2_compare key k) eqn:E.
  - exfalso. apply H. left. apply compare_eq in E. now subst.
  - reflexivity.
  - rewrite IH; [apply perm_swap|]. intros X. apply H. now right.
Qed.
Lemma insert_sorted key e l : StronglySorted key_lt l -> StronglySorted key_lt (xmap_insert key e l).
Proof.
  induction l as [|[k v] l IH]; intros H; [repeat constructor|]. cbn [xmap_insert].
  inversion H as [|? ? Hs Hf]; subst. destruct (ucs2_compare key k) eqn:E.
  - constructor; [assumption|]. eapply Forall_impl; [|exact Hf]. intros [k' v']. exact (fun x => x).
  - apply compare_lt in E. constructor; [assumption|]. constructor; [exact E|]. eapply Forall_impl; [|exact Hf].
    intros a Ha. eapply key_lt_trans; [|exact Ha]. exact E.
  - constructor; [auto|]. apply compare_gt in E. rewrite Forall_forall in *. intros [k' v'] Hin.
    assert (Hin' : k' = key \/ In (k', v') l).
    { clear - Hin. induction l as [|[k v] l IH]; cbn [xmap_insert] in Hin.
      - destruct Hin as [Hin|[]]. inversion Hin. now left.
      - destruct (ucs2_compare key k) eqn:E; cbn [In] in *.
        + apply compare_eq in E. subst. destruct Hin as [Hin|Hin]; [inversion Hin; now left|tauto].
        + destruct Hin as [Hin|Hin]; [inversion Hin; now left|tauto].
        + destruct Hin as [Hin|Hin]; [tauto|]. destruct (IH Hin); tauto. }
    destruct Hin' as [->|Hin']; [|exact (Hf _ Hin')]. exact E.
Qed.
Lemma insert_same key e l : StronglySorted key_lt l -> In (key, e) l -> xmap_insert key e l = l.
Proof.
  induction l as [|[k v] l IH]; intros Hs Hi; [destruct Hi|]. inversion Hs as [|? ? Hs' Hf]; subst. cbn [xmap_insert].
  destruct Hi as [Hi|Hi].
  - injection Hi as -> ->. now rewrite (proj2 (compare_eq key key) eq_refl).
  - rewrite Forall_forall in Hf. specialize (Hf _ Hi). apply compare_gt in Hf. cbn [fst] in Hf. rewrite Hf. f_equal. now apply IH.
Qed.
Lemma find_key key l : xmap_find key l = None <-> ~ In key (map fst l).
Proof.
  induction l as [|[k v] l IH]; cbn [xmap_find map In fst]; [tauto|].
  destruct (ucs2_compare key k) eqn:E.
  - apply compare_eq in E. subst. split; [discriminate|]. intros H. exfalso. apply H. now left.
  - rewrite IH. assert (k <> key) by (intros ->; rewrite (proj2 (compare_eq key key) eq_refl) in E; discriminate). tauto.
  - rewrite IH. assert (k <> key) by (intros ->; rewrite (proj2 (compare_eq key key) eq_refl) in E; discriminate). tauto.
Qed.
Lemma find_in key v l : NoDup (map fst l) -> In (key, v) l -> xmap_find key l = Some v.
Proof.
  induction l as [|[k w] l IH]; cbn [xmap_find map In fst]; intros Hd Hi; [contradiction|].
  inversion Hd as [|? ? H1 H2]; subst. destruct Hi as [Hi|Hi].
  - inversion Hi; subst. now rewrite (proj2 (compare_eq key key) eq_refl).
  - destruct (ucs2_compare key k) eqn:E; auto. apply compare_eq in E. subst. exfalso. apply H1.
    apply in_map_iff. now exists (k, v).
Qed.

(** ** Directory blocks *)
Definition dirent_of (r : record) : ext_dirent := (rc_inode r, rc_size r, len (rc_name r), rc_type r).
Definition pair_of (r : record) : list N * ext_dirent := (rc_name r, dirent_of r).
Definition insert_records (rs : list record) (m : ext_map) : ext_map :=
  fold_left (fun m r => xmap_insert (rc_name r) (dirent_of r) m) (filter listed rs) m.
Lemma insert_records_app a b m : insert_records (a ++ b) m = insert_records b (insert_records a m).
Proof. unfold insert_records. now rewrite filter_app, fold_left_app. Qed.
Lemma string_whole l : ~ In 0 l -> string_from_slice l = l.
Proof.
  intros H. rewrite string_zero. induction l as [|a l IH]; [reflexivity|]. cbn [up_to_zero].
  destruct (N.eqb_spec a 0) as [->|E]; [exfalso; apply H; now left|]. f_equal. apply IH. intros X. apply H. now right.
Qed.
Lemma listed_names r : listed r = negb ((rc_inode r =? 0) || same (rc_name r) [0x2e] || same (rc_name r) [0x2e; 0x2e]).
Proof.
  unfold listed. rewrite !negb_orb. f_equal; [f_equal|].
  - destruct (list_eq_dec _ _ _) as [E|E]; destruct (same _ _) eqn:S; try reflexivity.
    + injection E as E. rewrite E in S. discriminate.
    + apply same_iff in S. exfalso. apply E. now rewrite S.
  - destruct (list_eq_dec _ _ _) as [E|E]; destruct (same _ _) eqn:S; try reflexivity.
    + injection E as E. rewrite E in S. discriminate.
    + apply same_iff in S. exfalso. apply E. now rewrite S.
Qed.
Lemma dir_node_ok data : buffer data -> forall o rs, records data o rs -> forall fuel entries, len data < o + N.of_nat fuel ->
  dir_node fuel data o entries = (insert_records rs entries, Ok tt).
Proof.
  intros Hb o rs H. induction H as [|o H1 H2|o r rs (R1 & R2 & R3 & R4 & R5 & R6 & R7) _ IH]; intros fuel entries Hf.
  - destruct fuel as [|fuel]; [lia|]. cbn [dir_node]. destruct (N.ltb_spec (len data) (len data)); [lia|]. reflexivity.
  - destruct fuel as [|fuel]; [lia|]. cbn [dir_node]. destruct (N.ltb_spec o (len data)); [|lia]. cbn [negb].
    rewrite slice_at by lia. cbn [bind].
    rewrite (ext_directory_entry_ok' _ (buffer_part data o (len data - o) Hb) I). rewrite len_bytes_at.
    destruct (N.leb_spec 8 (N.min (len data - o) (len data - o))); [|lia].
    unfold ext_directory_entry_of. rewrite !field_part, !byte_part by lia. rewrite H2. reflexivity.
  - destruct fuel as [|fuel]; [lia|]. cbn [dir_node]. destruct (N.ltb_spec o (len data)); [|lia]. cbn [negb].
    rewrite slice_at by lia. cbn [bind].
    assert (Hd : buffer (bytes_at data o (len data - o))) by (now apply buffer_part).
    rewrite (ext_directory_entry_ok' _ Hd I). rewrite len_bytes_at.
    destruct (N.leb_spec 8 (N.min (len data - o) (len data - o))); [|lia].
    unfold ext_directory_entry_of. rewrite !field_part, !byte_part by lia. rewrite N.add_0_r, <- R1, <- R2, <- R3.
    destruct (N.eqb_spec (rc_size r) 0); [lia|]. destruct (N.ltb_spec (rc_size r) 8); [lia|].
    destruct (N.ltb_spec (len data - o) (rc_size r)); [lia|]. cbn [orb].
    rewrite slice_at by lia. cbn [bind]. rewrite len_bytes_at.
    destruct (N.leb_spec (byte data (o + 6)) (N.min (len data - (o + 8)) (len data - (o + 8)))); [|lia]. cbn [check bind].
    rewrite slice_at by (rewrite ?len_bytes_at; lia). cbn [bind]. rewrite bytes_at_bytes_at by lia.
    rewrite N.add_0_r, N.sub_0_r, <- R4. unfold bytestring_read_data. cbn [app].
    replace (o + 8 + (rc_size r - 8)) with (o + rc_size r) by lia.
    assert (Ln : byte data (o + 6) = len (rc_name r)) by (rewrite R4, len_bytes_at; lia).
    unfold insert_records. cbn [filter]. rewrite listed_names. destruct R7 as [R7|R7].
    + rewrite R7. cbn [N.eqb orb negb]. rewrite IH by lia. reflexivity.
    + rewrite string_whole by exact R7. destruct ((rc_inode r =? 0) || same (rc_name r) [46] || same (rc_name r) [46; 46]); cbn [negb].
      * rewrite IH by lia. reflexivity.
      * rewrite IH by lia. cbn [fold_left]. rewrite Ln. reflexivity.
Qed.

Lemma dir_blocks_ok volume : buffer volume -> forall n p rs entries, blocks_records volume (seqN p n) rs ->
  dir_blocks n volume (block_size volume) (p * block_size volume) entries = (insert_records rs entries, Ok tt).
Proof.
  intros Hb. induction n as [|n IH]; intros p rs entries H; cbn [seqN] in H.
  - inversion H. reflexivity.
  - inversion H as [|b bs rs1 rest Hin Hr Hrest]. subst. cbn [dir_blocks]. rewrite read_exact_inside by exact Hin.
    fold (block_at volume (block_size volume) p).
    rewrite (dir_node_ok _ (buffer_part _ _ _ Hb) 0 rs1 Hr) by (rewrite N.add_0_l; unfold len; rewrite Nat2N.inj_succ; apply N.lt_succ_diag_r).
    unfold add_chk. assert (Hv : len volume < two64) by apply Hb.
    destruct (N.ltb_spec (p * block_size volume + block_size volume) two64); [|lia].
    replace (p * block_size volume + block_size volume) with ((p + 1) * block_size volume) by lia.
    rewrite (IH (p + 1) rest) by exact Hrest. now rewrite insert_records_app.
Qed.
Lemma blocks_records_split volume a : forall b rs, blocks_records volume (a ++ b) rs ->
  exists ra rb, rs = ra ++ rb /\ blocks_records volume a ra /\ blocks_records volume b rb.
Proof.
  induction a as [|x a IH]; intros b rs H.
  - exists [], rs. repeat split; [constructor|exact H].
  - cbn [app] in H. inversion H as [|x' bs rs1 rest Hin Hr Hrest]. subst. destruct (IH b rest Hrest) as (ra & rb & -> & H1 & H2).
    exists (rs1 ++ ra), rb. rewrite app_assoc. repeat split; [|exact H2]. now constructor.
Qed.
Lemma live_prefix (a : list N) : forall live zeros rest, ~ In 0 a -> a ++ rest = live ++ repeat 0 zeros -> exists live', live = a ++ live' /\ rest = live' ++ repeat 0 zeros.
Proof.
  induction a as [|x a IH]; intros live zeros rest Ha E.
  - exists live. auto.
  - destruct live as [|y live].
    + cbn [app] in E. destruct zeros; [discriminate|]. cbn [repeat] in E. injection E as Ex _. exfalso. apply Ha. left. exact Ex.
    + cbn [app] in E. injection E as -> E. destruct (IH live zeros rest) as (l' & -> & ->); [intros X; apply Ha; now right|exact E|].
      exists l'. auto.
Qed.
Lemma dir_ranges_ok volume : buffer volume -> forall ranges first live holes rs entries,
  contiguous first ranges -> good_ranges ranges -> described ranges = live ++ repeat 0 holes -> ~ In 0 live ->
  blocks_records volume live rs ->
  dir_ranges volume (block_size volume) ranges entries = (insert_records rs entries, Ok tt).
Proof.
  intros Hb. induction ranges as [|r ranges IH]; intros first live holes rs entries Hc Hg Hd Hz Hr.
  - assert (live = []) by (destruct live; [reflexivity|discriminate]). subst live. inversion Hr. reflexivity.
  - destruct Hc as (C1 & C2 & C3). apply Forall_cons_iff in Hg as [[G1 G2] G3]. cbn [dir_ranges].
    change (described (r :: ranges)) with (range_blocks r ++ described ranges) in Hd. unfold range_blocks in Hd.
    destruct (er_sparse r) eqn:Es.
    + assert (live = []).
      { destruct live as [|y live]; [reflexivity|]. exfalso. destruct (N.to_nat (er_count r)) eqn:En; [lia|]. cbn [repeat app] in Hd.
        injection Hd as Hd _. apply Hz. left. now symmetry. }
      subst live. inversion Hr. reflexivity.
    + specialize (G2 eq_refl). destruct (live_prefix (seqN (er_physical r) (N.to_nat (er_count r))) live holes (described ranges)) as (live' & -> & E).
      { intros X. apply in_seqN in X. lia. } { exact Hd. }
      destruct (blocks_records_split volume _ _ _ Hr) as (ra & rb & -> & R1 & R2).
      unfold mul_chk. assert (Hin : er_physical r * block_size volume + block_size volume <= len volume).
      { destruct (N.to_nat (er_count r)) eqn:En; [lia|]. cbn [seqN] in R1. now inversion R1. }
      assert (Hv : len volume < two64) by apply Hb. destruct (N.ltb_spec (er_physical r * block_size volume) two64); [|lia].
      rewrite (dir_blocks_ok volume Hb _ _ ra) by exact R1.
      rewrite (IH (first + er_count r) live' holes rb) by (trivial; intros X; apply Hz; apply in_or_app; now right).
      now rewrite insert_records_app.
Qed.

(** ** Directories *)
(** The entries are those of the directory, or not read yet. *)
Definition map_of (rs : list record) : ext_map := insert_records rs [].
Lemma fold_insert l : forall m, NoDup (map rc_name l) -> (forall r, In r l -> ~ In (rc_name r) (map fst m)) -> StronglySorted key_lt m ->
  let m' := fold_left (fun m r => xmap_insert (rc_name r) (dirent_of r) m) l m in
  StronglySorted key_lt m' /\ Permutation m' (map pair_of l ++ m).
Proof.
  induction l as [|r l IH]; intros m Hn Hd Hs; cbn [fold_left map app].
  - auto.
  - cbn [map] in Hn. inversion Hn as [|? ? H1 H2]; subst.
    assert (Hnew : ~ In (rc_name r) (map fst m)) by (apply Hd; now left).
    pose proof (insert_new (rc_name r) (dirent_of r) m Hnew) as P.
    destruct (IH (xmap_insert (rc_name r) (dirent_of r) m)) as [S P']; auto.
    + intros r' Hr' X. apply (Permutation_in _ (Permutation_map fst P)) in X. cbn [map fst] in X. destruct X as [X|X].
      * apply H1. rewrite X. now apply in_map.
      * apply (Hd r'); [now right|exact X].
    + now apply insert_sorted.
    + split; [exact S|]. rewrite P'. rewrite P. symmetry. apply Permutation_middle.
Qed.
Lemma map_of_ok rs : NoDup (map rc_name (filter listed rs)) ->
  StronglySorted key_lt (map_of rs) /\ Permutation (map_of rs) (map pair_of (filter listed rs)).
Proof.
  intros H. destruct (fold_insert (filter listed rs) [] H) as [S P].
  - intros r _ [].
  - constructor.
  - split; [exact S|]. now rewrite app_nil_r in P.
Qed.
Lemma insert_again l m : StronglySorted key_lt m -> (forall r, In r l -> In (pair_of r) m) ->
  fold_left (fun m r => xmap_insert (rc_name r) (dirent_of r) m) l m = m.
Proof.
  induction l as [|r l IH]; intros Hs Hi; [reflexivity|]. cbn [fold_left]. rewrite insert_same.
  - apply IH; [exact Hs|]. intros r' Hr'. apply Hi. now right.
  - exact Hs.
  - apply Hi. now left.
Qed.
Lemma map_of_again rs : NoDup (map rc_name (filter listed rs)) -> insert_records rs (map_of rs) = map_of rs.
Proof.
  intros H. destruct (map_of_ok rs H) as [S P]. unfold insert_records. apply insert_again; [exact S|].
  intros r Hr. apply (Permutation_in _ (Permutation_sym P)). now apply in_map.
Qed.

(** A file entry of inode [i], with its blocks. *)
Record file_entry (i : N) (inode : ext_inode) (blocks : list N) (e : ext_entry) : Prop := {
  entry_number : xe_number e = i;
  entry_inode : xe_inode e = inode;
  entry_contiguous : contiguous 0 (xe_ranges e);
  entry_blocks : described (xe_ranges e) = blocks;
  entry_good : good_ranges (xe_ranges e)
}.
(** What the records of a directory are. *)
Definition directory_records (volume : list N) (inode : ext_inode) (blocks : list N) (rs : list record) : Prop :=
  NoDup (map rc_name (filter listed rs)) /\
  if is_inline inode then records (xi_reference inode) 4 rs
  else exists live holes, blocks = live ++ repeat 0 holes /\ ~ In 0 live /\ blocks_records volume live rs.
Definition unloaded_or (rs : list record) (e : ext_entry) : Prop :=
  (xe_entries e = [] /\ xe_read e = false) \/ xe_entries e = map_of rs.
Definition loaded (rs : list record) (e : ext_entry) : Prop := xe_entries e = map_of rs.

Lemma is_directory_ok e i inode blocks : file_entry i inode blocks e -> xi_mode inode < 2 ^ 16 ->
  ext_is_directory e = is_directory inode.
Proof. intros H Hm. unfold ext_is_directory, is_directory. rewrite (entry_inode _ _ _ _ H). apply (kind_ok inode 4); [exact Hm|reflexivity]. Qed.
Lemma load_ok volume table i inode blocks rs e : buffer volume -> xt_block_size table = block_size volume ->
  file_entry i inode blocks e -> xi_mode inode < 2 ^ 16 -> buffer (xi_reference inode) -> len (xi_reference inode) = 60 ->
  is_directory inode = true -> directory_records volume inode blocks rs -> unloaded_or rs e ->
  exists e', ext_load volume table e = (e', Ok tt) /\ file_entry i inode blocks e' /\ xe_name e' = xe_name e /\ loaded rs e'.
Proof.
  intros Hb Ht He Hm Hbr Hlr Hd (Hn & Hr) Hu. unfold ext_load. rewrite (is_directory_ok e i inode blocks He Hm), Hd. cbn [andb].
  assert (Hm2 : insert_records rs (xe_entries e) = map_of rs).
  { destruct Hu as [[-> _]| ->]; [reflexivity|now apply map_of_again]. }
  destruct (xe_read e) eqn:Er; cbn [negb].
  { destruct Hu as [[_ Hu]|Hu]; [congruence|]. exists e. auto. }
  unfold ext_read_entries. rewrite (entry_inode _ _ _ _ He).
  change 0x10000000 with (2 ^ 28). rewrite bit_flag. fold (is_inline inode). destruct (is_inline inode).
  - unfold dir_inline. rewrite (u32_at _ Hbr) by lia.
    rewrite (dir_node_ok _ Hbr 4 rs Hr) by (unfold len; lia). eexists. split; [reflexivity|].
    split; [destruct He; constructor; cbn [xe_number xe_inode xe_ranges]; first [assumption|reflexivity]|]. split; [reflexivity|]. exact Hm2.
  - destruct Hr as (live & holes & E & Hz & Hr). rewrite Ht.
    rewrite (dir_ranges_ok volume Hb (xe_ranges e) 0 live holes rs); trivial;
      [|apply He|apply He|rewrite (entry_blocks _ _ _ _ He); exact E].
    eexists. split; [reflexivity|]. split; [destruct He; constructor; cbn [xe_number xe_inode xe_ranges]; first [assumption|reflexivity]|]. split; [reflexivity|]. exact Hm2.
Qed.

(** ** What is known of every entry *)
Definition entry_ok (volume : list N) (table : ext_table) (e : ext_entry) : Prop :=
  ext_get_inode volume table (xe_number e) = Ok (xe_inode e, xe_ranges e) /\
  (ext_is_directory e = false -> xe_entries e = []) /\
  forall rs, directory volume (xe_number e) rs -> unloaded_or rs e.
Lemma new_entry_ok volume table i found name : ext_get_inode volume table i = Ok found -> entry_ok volume table (ext_entry_new i found name).
Proof.
  intros H. destruct found as [inode ranges]. split; [exact H|]. split; [reflexivity|]. intros rs _. left. auto.
Qed.
Lemma file_facts volume i inode blocks : ext_volume volume -> file_at volume i inode blocks ->
  xi_mode inode < 2 ^ 16 /\ buffer (xi_reference inode) /\ len (xi_reference inode) = 60.
Proof.
  intros HV (H1 & H2 & H3 & H4 & (k & H5 & H6) & H7 & H8).
  pose proof HV as (Hb & Hs & Hf & Hbs & Hipg & His & _).
  assert (Hbd : buffer (inode_bytes volume i)) by (apply buffer_part, Hb).
  assert (Hl : len (inode_bytes volume i) = es_inode_size (superblock volume)) by (unfold inode_bytes; rewrite len_bytes_at; lia).
  rewrite H6. split; [now apply inode_mode_lt|]. unfold ext_inode_of. cbn [xi_reference]. split; [now apply buffer_part|]. rewrite len_bytes_at. lia.
Qed.
Lemma file_entry_of volume fs e inode blocks : ext_volume volume -> opened volume fs -> entry_ok volume (xf_table fs) e ->
  file_at volume (xe_number e) inode blocks -> file_entry (xe_number e) inode blocks e.
Proof.
  intros HV HO [HE _] HF. destruct (get_inode_ok volume fs (xe_number e) inode blocks HV HO HF) as (r & E & C & D & G).
  rewrite E in HE. injection HE as E1 E2. subst. constructor; trivial.
Qed.
Lemma load_entry volume fs e : ext_volume volume -> opened volume fs -> entry_ok volume (xf_table fs) e ->
  forall e' r, ext_load volume (xf_table fs) e = (e', r) ->
  xe_number e' = xe_number e /\ xe_name e' = xe_name e /\ entry_ok volume (xf_table fs) e' /\
  forall rs, directory volume (xe_number e) rs -> r = Ok tt /\ loaded rs e'.
Proof.
  intros HV HO HE e' r EL.
  assert (Hsame : xe_number e' = xe_number e /\ xe_name e' = xe_name e /\ xe_inode e' = xe_inode e /\ xe_ranges e' = xe_ranges e).
  { unfold ext_load, ext_read_entries in EL. destruct (ext_is_directory e && negb (xe_read e)); [|injection EL as <- _; auto].
    destruct (negb _).
    - destruct (dir_inline _ _) as [m [u| |]]; injection EL as <- _; auto.
    - destruct (dir_ranges _ _ _ _) as [m u]; injection EL as <- _; auto. }
  destruct Hsame as (S1 & S2 & S3 & S4).
  assert (HL : forall rs, directory volume (xe_number e) rs -> r = Ok tt /\ loaded rs e').
  { intros rs HD. pose proof HD as (inode & blocks & HF & Hd & Hn & Hr).
    destruct (file_facts volume _ inode blocks HV HF) as (F1 & F2 & F3).
    destruct (load_ok volume (xf_table fs) (xe_number e) inode blocks rs e) as (e'' & E & _ & _ & L); trivial.
    - apply HV.
    - apply HO.
    - apply (file_entry_of volume fs); trivial.
    - split; assumption.
    - apply HE. exact HD.
    - rewrite EL in E. injection E as -> ->. auto. }
  split; [exact S1|]. split; [exact S2|]. split; [|exact HL]. split; [|split].
  - rewrite S1, S3, S4. apply HE.
  - unfold ext_is_directory. rewrite S3. fold (ext_is_directory e). intros Ed. unfold ext_load in EL. rewrite Ed in EL. injection EL as <- _. now apply HE.
  - intros rs HD. rewrite S1 in HD. right. now apply HL.
Qed.
Lemma walk_entry volume fs : ext_volume volume -> opened volume fs -> forall names e, entry_ok volume (xf_table fs) e ->
  forall e', ext_walk volume (xf_table fs) e names = Ok (Some e') -> entry_ok volume (xf_table fs) e'.
Proof.
  intros HV HO. induction names as [|name names IH]; intros e HE e' E; cbn [ext_walk] in E.
  - injection E as <-. exact HE.
  - apply bind_Ok_inv in E as (found & E1 & E2). destruct found as [e1|]; [|discriminate]. apply (IH e1); [|exact E2].
    unfold ext_entry_by_name in E1. destruct (ext_load volume (xf_table fs) e) as [e2 [[]| |]]; cbn [snd] in E1; try discriminate.
    destruct (xmap_find name (xe_entries e2)) as [[[[j ?] ?] ?]|]; [|discriminate]. apply bind_Ok_inv in E1 as (f & F1 & F2). injection F2 as <-. now apply new_entry_ok.
Qed.
Lemma obtained_ok volume fs : ext_volume volume -> opened volume fs -> forall e, obtained volume fs e -> entry_ok volume (xf_table fs) e.
Proof.
  intros HV HO.
  assert (Hid : forall i e, ext_by_identifier volume fs i = Ok e -> entry_ok volume (xf_table fs) e).
  { intros i e H. unfold ext_by_identifier in H. destruct (ext_unsupported _); [discriminate|]. apply bind_Ok_inv in H as (? & _ & H).
    apply bind_Ok_inv in H as (f & H1 & H2). injection H2 as <-. now apply new_entry_ok. }
  assert (Hroot : forall e, ext_root volume fs = Ok (Some e) -> entry_ok volume (xf_table fs) e).
  { intros e H. unfold ext_root in H. destruct (_ =? 0); [discriminate|]. apply bind_Ok_inv in H as (e0 & H1 & H2). injection H2 as <-. now apply (Hid 2). }
  assert (Hload : forall e, entry_ok volume (xf_table fs) e -> entry_ok volume (xf_table fs) (fst (ext_load volume (xf_table fs) e))).
  { intros e He. destruct (ext_load volume (xf_table fs) e) as [e1 r] eqn:E. apply (load_entry volume fs e HV HO He e1 r E). }
  intros e H. induction H as [i e H|e H|path e H|e k e' _ IH H|e name e' _ IH H|e _ IH|e k _ IH|e name _ IH].
  - now apply (Hid i).
  - now apply Hroot.
  - unfold ext_by_path in H. destruct path as [|[|? ?] names]; try discriminate. apply bind_Ok_inv in H as (root & H1 & H2).
    destruct root as [root|]; [|discriminate]. apply (walk_entry volume fs HV HO names root); [now apply Hroot|exact H2].
  - unfold ext_entry_by_index in H. destruct (ext_load volume (xf_table fs) e) as [e2 [[]| |]]; cbn [snd] in H; try discriminate.
    destruct (nth_error _ _) as [[? [[[j ?] ?] ?]]|]; [|discriminate]. apply bind_Ok_inv in H as (f & F1 & F2). injection F2 as <-. now apply new_entry_ok.
  - unfold ext_entry_by_name in H. destruct (ext_load volume (xf_table fs) e) as [e2 [[]| |]]; cbn [snd] in H; try discriminate.
    destruct (xmap_find _ _) as [[[[j ?] ?] ?]|]; [|discriminate]. apply bind_Ok_inv in H as (f & F1 & F2). injection F2 as <-. now apply new_entry_ok.
  - specialize (Hload e IH). unfold ext_number_of_entries. destruct (ext_load volume (xf_table fs) e) as [e2 [[]| |]]; exact Hload.
  - specialize (Hload e IH). unfold ext_entry_by_index. destruct (ext_load volume (xf_table fs) e) as [e2 [[]| |]]; exact Hload.
  - specialize (Hload e IH). unfold ext_entry_by_name. destruct (ext_load volume (xf_table fs) e) as [e2 [[]| |]]; exact Hload.
Qed.

(** ** Answers *)
Definition entry_at (i : N) (name : option (list N)) (e : ext_entry) : Prop := xe_number e = i /\ xe_name e = name.
Lemma count_ok volume fs e rs : ext_volume volume -> opened volume fs -> entry_ok volume (xf_table fs) e -> directory volume (xe_number e) rs ->
  snd (ext_number_of_entries volume (xf_table fs) e) = Ok (len (filter listed rs)).
Proof.
  intros HV HO HE HD. destruct (ext_load volume (xf_table fs) e) as [e1 r] eqn:E.
  destruct (load_entry volume fs e HV HO HE e1 r E) as (_ & _ & _ & L). destruct (L rs HD) as [-> L'].
  unfold ext_number_of_entries. rewrite E. cbn [snd]. f_equal. rewrite L'. destruct HD as (inode & blocks & _ & _ & Hn & _).
  destruct (map_of_ok rs Hn) as [_ P]. unfold len. rewrite (Permutation_length P). now rewrite map_length.
Qed.
Lemma order_ok volume fs e rs : ext_volume volume -> opened volume fs -> entry_ok volume (xf_table fs) e -> directory volume (xe_number e) rs ->
  exists order, Permutation order (filter listed rs) /\ StronglySorted before order /\
    forall k, match nth_error order (N.to_nat k) with
      | Some r => forall inode blocks, file_at volume (rc_inode r) inode blocks ->
          exists e', snd (ext_entry_by_index volume (xf_table fs) e k) = Ok e' /\ entry_at (rc_inode r) (Some (rc_name r)) e'
      | None => snd (ext_entry_by_index volume (xf_table fs) e k) = Err
      end.
Proof.
  intros HV HO HE HD. destruct (ext_load volume (xf_table fs) e) as [e1 r] eqn:E.
  destruct (load_entry volume fs e HV HO HE e1 r E) as (_ & _ & _ & L). destruct (L rs HD) as [-> L'].
  destruct HD as (inode & blocks & _ & _ & Hn & _). destruct (map_of_ok rs Hn) as [S P].
  destruct (Permutation_map_inv _ _ P) as (order & Eo & Po). exists order. split; [now symmetry|]. split.
  - rewrite Eo in S. clear - S. induction order as [|a order IH]; [constructor|]. cbn [map] in S. inversion S as [|? ? H1 H2]; subst.
    constructor; [auto|]. rewrite Forall_map in H2. exact H2.
  - intros k. unfold ext_entry_by_index. rewrite E. cbn [snd]. rewrite L', Eo, nth_error_map.
    destruct (nth_error order (N.to_nat k)) as [rec|]; cbn [option_map]; [|reflexivity].
    intros inode' blocks' HF. unfold pair_of, dirent_of.
    destruct (get_inode_ok volume fs _ _ _ HV HO HF) as (rg & -> & _). cbn [bind]. eexists. split; [reflexivity|]. split; reflexivity.
Qed.
Lemma name_ok volume fs e rs name : ext_volume volume -> opened volume fs -> entry_ok volume (xf_table fs) e -> directory volume (xe_number e) rs ->
  match named rs name with
  | Some r => forall inode blocks, file_at volume (rc_inode r) inode blocks ->
      exists e', snd (ext_entry_by_name volume (xf_table fs) e name) = Ok (Some e') /\ entry_at (rc_inode r) (Some name) e'
  | None => snd (ext_entry_by_name volume (xf_table fs) e name) = Ok None
  end.
Proof.
  intros HV HO HE HD. destruct (ext_load volume (xf_table fs) e) as [e1 r] eqn:E.
  destruct (load_entry volume fs e HV HO HE e1 r E) as (_ & _ & _ & L). destruct (L rs HD) as [-> L'].
  destruct HD as (inode & blocks & _ & _ & Hn & _). destruct (map_of_ok rs Hn) as [S P].
  unfold ext_entry_by_name. rewrite E. cbn [snd]. rewrite L'.
  assert (Hk : Permutation (map fst (map_of rs)) (map rc_name (filter listed rs))).
  { rewrite (Permutation_map fst P), map_map. reflexivity. }
  unfold named. destruct (find _ (filter listed rs)) as [rec|] eqn:Ef.
  - intros inode' blocks' HF. apply find_some in Ef as [E1 E2]. destruct (list_eq_dec N.eq_dec (rc_name rec) name) as [En|]; [|discriminate].
    rewrite (find_in name (dirent_of rec)).
    + unfold dirent_of. destruct (get_inode_ok volume fs _ _ _ HV HO HF) as (rg & -> & _). cbn [bind]. eexists. split; [reflexivity|]. split; reflexivity.
    + eapply Permutation_NoDup; [symmetry; exact Hk|exact Hn].
    + apply (Permutation_in _ (Permutation_sym P)). apply in_map_iff. exists rec. split; [unfold pair_of; now rewrite En|exact E1].
  - rewrite (proj2 (find_key name (map_of rs))); [reflexivity|]. intros X. apply (Permutation_in _ Hk) in X. apply in_map_iff in X as (rec & E1 & E2).
    pose proof (find_none _ _ Ef rec E2) as F. cbn beta in F. destruct (list_eq_dec N.eq_dec (rc_name rec) name); [discriminate|contradiction].
Qed.

(** ** Identifiers and paths *)
Lemma by_identifier_ok volume fs i inode blocks : ext_volume volume -> opened volume fs -> file_at volume i inode blocks ->
  i <= es_inodes (superblock volume) ->
  exists e, ext_by_identifier volume fs i = Ok e /\ entry_at i None e.
Proof.
  intros HV HO HF Hi. pose proof HF as (H1 & _). pose proof HV as (Hb & Hs & Hf & _).
  unfold ext_by_identifier. rewrite (opened_superblock _ _ HO), unsupported_ok by assumption.
  destruct (N.eqb_spec i 0); [lia|]. destruct (N.ltb_spec (es_inodes (superblock volume)) i); [lia|]. cbn [orb negb check bind].
  destruct (get_inode_ok volume fs _ _ _ HV HO HF) as (rg & -> & _). cbn [bind]. eexists. split; [reflexivity|]. split; reflexivity.
Qed.
Definition last_name (first : option (list N)) (path : list (list N)) : option (list N) :=
  fold_left (fun _ name => Some name) path first.
Lemma walk_ok volume fs : ext_volume volume -> opened volume fs -> forall i path to, leads volume i path to ->
  forall e, entry_ok volume (xf_table fs) e -> xe_number e = i ->
  match to with
  | Some j => exists e', ext_walk volume (xf_table fs) e path = Ok (Some e') /\ entry_at j (last_name (xe_name e) path) e'
  | None => ext_walk volume (xf_table fs) e path = Ok None
  end.
Proof.
  intros HV HO i path to H. induction H as [i inode blocks HF|i rs name path HD Hn|i inode blocks name path HF Hd|i rs name r path to HD Hn Hl IH]; intros e HE Ei.
  - exists e. split; [reflexivity|]. split; [exact Ei|reflexivity].
  - cbn [ext_walk]. rewrite <- Ei in HD. pose proof (name_ok volume fs e rs name HV HO HE HD) as Q. rewrite Hn in Q. rewrite Q. reflexivity.
  - cbn [ext_walk]. rewrite <- Ei in HF. destruct (file_facts volume _ inode blocks HV HF) as (F1 & _).
    pose proof (file_entry_of volume fs e inode blocks HV HO HE HF) as FE. unfold ext_entry_by_name, ext_load.
    rewrite (is_directory_ok e _ inode blocks FE F1), Hd. cbn [andb snd].
    rewrite (proj1 (proj2 HE)); [reflexivity|]. now rewrite (is_directory_ok e _ inode blocks FE F1).
  - cbn [ext_walk]. rewrite <- Ei in HD. pose proof (name_ok volume fs e rs name HV HO HE HD) as Q. rewrite Hn in Q.
    assert (HF : exists inode blocks, file_at volume (rc_inode r) inode blocks).
    { inversion Hl as [? inode blocks HF|? rs' ? ? (inode & blocks & HF & _)|? inode blocks ? ? HF|? rs' ? ? ? ? (inode & blocks & HF & _)]; eauto. }
    destruct HF as (inode & blocks & HF). destruct (Q inode blocks HF) as (e' & E & (A1 & A2)). rewrite E. cbn [bind].
    assert (HE' : entry_ok volume (xf_table fs) e').
    { unfold ext_entry_by_name in E. destruct (ext_load volume (xf_table fs) e) as [e2 [[]| |]]; cbn [snd] in E; try discriminate.
      destruct (xmap_find _ _) as [[[[j ?] ?] ?]|]; [|discriminate]. apply bind_Ok_inv in E as (f & G1 & G2). injection G2 as <-. now apply new_entry_ok. }
    specialize (IH e' HE' A1). rewrite A2 in IH. exact IH.
Qed.
Lemma root_ok volume fs : ext_volume volume -> opened volume fs -> forall inode blocks, file_at volume 2 inode blocks ->
  2 <= es_inodes (superblock volume) -> exists e, ext_root volume fs = Ok (Some e) /\ entry_at 2 None e /\ entry_ok volume (xf_table fs) e.
Proof.
  intros HV HO inode blocks HF H2. destruct (by_identifier_ok volume fs 2 inode blocks HV HO HF H2) as (e & E & A).
  exists e. unfold ext_root. rewrite (opened_superblock _ _ HO). destruct (N.eqb_spec (es_inodes (superblock volume)) 0); [lia|].
  rewrite E. cbn [bind]. split; [reflexivity|]. split; [exact A|]. apply (obtained_ok volume fs HV HO). now apply from_identifier with 2.
Qed.
Lemma leads_file volume i path to : leads volume i path to -> exists inode blocks, file_at volume i inode blocks.
Proof. intros H. destruct H as [i inode blocks HF|i rs name path (inode & blocks & HF & _) Hn|i inode blocks name path HF Hd|i rs name r path to (inode & blocks & HF & _) Hn Hl]; eauto. Qed.
Lemma by_path_ok volume fs path to : ext_volume volume -> opened volume fs -> 2 <= es_inodes (superblock volume) -> leads volume 2 path to ->
  match to with
  | Some j => exists e, ext_by_path volume fs ([] :: path) = Ok (Some e) /\ entry_at j (last_name None path) e
  | None => ext_by_path volume fs ([] :: path) = Ok None
  end.
Proof.
  intros HV HO H2 HL. destruct (leads_file volume 2 path to HL) as (inode & blocks & HF).
  destruct (root_ok volume fs HV HO inode blocks HF H2) as (e & E & (A1 & A2) & OK).
  unfold ext_by_path. rewrite E. cbn [bind]. pose proof (walk_ok volume fs HV HO 2 path to HL e OK A1) as Q. rewrite A2 in Q. exact Q.
Qed.

(** ** Content *)
Lemma len_mapped volume bs n ref : len (mapped_blocks volume bs n ref) = n.
Proof. unfold mapped_blocks. cbv zeta. unfold len. rewrite firstn_length, !app_length, repeat_length. lia. Qed.
Lemma len_file_blocks volume inode blocks : file_blocks volume inode blocks -> is_device inode = false ->
  len blocks = blocks_total volume inode.
Proof.
  intros [_ H] Hd. rewrite Hd in H. destruct ((version volume =? 4) && flag (xi_flags inode) 19).
  - destruct H as (depth & extents & _ & _ & L & ->). rewrite len_app. unfold len at 2. rewrite repeat_length. lia.
  - destruct H as [_ ->]. apply len_mapped.
Qed.
Lemma stream_ok volume i inode blocks e : ext_volume volume -> file_entry i inode blocks e -> file_blocks volume inode blocks ->
  is_device inode = false -> Forall (fun b => b = 0 \/ b * block_size volume + block_size volume <= len volume) blocks ->
  exists stream, ext_stream_open (block_size volume) (xi_size inode) (blocks_total volume inode) (xe_ranges e) = Ok stream /\
    forall ops, seeks_ok (xi_size inode) (blocks_content volume (block_size volume) blocks (xi_size inode)) 0 ops ->
    run (ext_stream_step volume stream) (tt, 0) ops =
      ((tt, fst (run (file_step (xi_size inode) (blocks_content volume (block_size volume) blocks (xi_size inode))) 0 ops)),
       snd (run (file_step (xi_size inode) (blocks_content volume (block_size volume) blocks (xi_size inode))) 0 ops)).
Proof.
  intros HV HE HF Hd Hin. pose proof HV as (Hb & Hs & Hf & Hbs & _).
  pose proof (len_file_blocks volume inode blocks HF Hd) as L. destruct HF as [Htot _].
  assert (Hsz : xi_size inode <= blocks_total volume inode * block_size volume).
  { unfold blocks_total. set (n := (xi_size inode + (block_size volume - 1)) / block_size volume).
    assert (xi_size inode <= n * block_size volume).
    { pose proof (N.div_mod (xi_size inode + (block_size volume - 1)) (block_size volume) ltac:(lia)) as D.
      pose proof (N.mod_lt (xi_size inode + (block_size volume - 1)) (block_size volume) ltac:(lia)) as M. fold n in D. nia. }
    nia. }
  destruct HE as [E1 E2 E3 E4 E5].
  change (2 ^ 63) with two63 in Htot.
  destruct (ext_reads volume (block_size volume) (xe_ranges e) (xi_size inode)) as (stream & S1 & S2); trivial.
  - lia.
  - rewrite E4. exact Hin.
  - rewrite E4, L. unfold two63, two64 in *. lia.
  - apply Hb.
  - rewrite E4, L. exact Hsz.
  - lia.
  - rewrite E4, L in S1. rewrite E4 in S2. exists stream. auto.
Qed.
Lemma stream_open_size bs size n ranges stream : ext_stream_open bs size n ranges = Ok stream -> xs_size stream = size.
Proof.
  unfold ext_stream_open. intros H. apply bind_Ok_inv in H as (a & _ & H). apply bind_Ok_inv in H as (t & _ & H). injection H as <-. reflexivity.
Qed.
Lemma link_ok volume fs e inode blocks : ext_volume volume -> opened volume fs -> entry_ok volume (xf_table fs) e ->
  file_at volume (xe_number e) inode blocks -> Forall (fun b => b = 0 \/ b * block_size volume + block_size volume <= len volume) blocks \/ xi_size inode < 60 ->
  ext_link_target volume (xf_table fs) e =
    if is_link inode then if xi_size inode <=? block_size volume then Ok (Some (link_text volume inode blocks)) else Err else Ok None.
Proof.
  intros HV HO HE HF Hin. destruct (file_facts volume _ inode blocks HV HF) as (F1 & _).
  pose proof (file_entry_of volume fs e inode blocks HV HO HE HF) as FE. pose proof HV as (_ & _ & _ & Hbs & _).
  unfold ext_link_target. cbv zeta. rewrite (entry_inode _ _ _ _ FE), (opened_block_size _ _ HO).
  change 0xa000 with (10 * 4096). rewrite kind_ok by (assumption || reflexivity). fold (is_link inode). destruct (is_link inode) eqn:Hl; [|reflexivity].
  destruct (xi_size inode <=? block_size volume); cbn [check bind]; [|reflexivity]. unfold link_text.
  destruct (N.ltb_spec (xi_size inode) 60) as [L|L].
  - cbn [bind]. now rewrite string_zero.
  - destruct Hin as [Hin|Hin]; [|lia]. rewrite total_ok by lia. cbn [bind].
    assert (Hd : is_device inode = false).
    { unfold is_device, is_link in *. apply N.eqb_eq in Hl. rewrite Hl. reflexivity. }
    destruct HF as (_ & _ & _ & _ & _ & _ & HB).
    destruct (stream_ok volume _ inode blocks e HV FE HB Hd Hin) as (stream & S1 & S2). rewrite S1. cbn [bind].
    specialize (S2 [Read (xi_size inode)] ltac:(cbn [seeks_ok]; auto)).
    cbn [run] in S2. unfold ext_stream_step, stream_step in S2. rewrite (stream_open_size _ _ _ _ _ S1) in S2.
    destruct (stream_read (xi_size inode) (ext_rd volume stream) (tt, 0) (xi_size inode)) as [st r] eqn:Er.
    set (C := blocks_content volume (block_size volume) blocks (xi_size inode)) in *.
    assert (Er' : r = Ok (bytes_at C 0 (xi_size inode))).
    { cbn [file_step run snd] in S2. congruence. }
    subst r. cbn [snd bind].
    assert (LC : len C = xi_size inode).
    { unfold C, blocks_content. rewrite len_bytes_at, len_blocks_content by exact Hin. rewrite (len_file_blocks volume inode blocks HB Hd).
      unfold blocks_total. set (n := (xi_size inode + (block_size volume - 1)) / block_size volume).
      assert (xi_size inode <= n * block_size volume).
      { pose proof (N.div_mod (xi_size inode + (block_size volume - 1)) (block_size volume) ltac:(lia)) as D.
        pose proof (N.mod_lt (xi_size inode + (block_size volume - 1)) (block_size volume) ltac:(lia)) as M. fold n in D. nia. }
      nia. }
    assert (EC : bytes_at C 0 (xi_size inode) = C).
    { unfold bytes_at. cbn [skipn N.to_nat]. rewrite <- LC at 1. unfold len. rewrite Nat2N.id. apply firstn_all. }
    rewrite EC, LC, N.eqb_refl. cbn [check bind]. now rewrite string_zero.
Qed.
Lemma data_ok volume fs e inode blocks : ext_volume volume -> opened volume fs -> entry_ok volume (xf_table fs) e ->
  file_at volume (xe_number e) inode blocks ->
  let size := xi_size inode in
  let content := if is_inline inode then bytes_at (xi_reference inode) 0 size else blocks_content volume (block_size volume) blocks size in
  (if is_inline inode then size <= 60 else Forall (fun b => b = 0 \/ b * block_size volume + block_size volume <= len volume) blocks) ->
  if is_regular inode
  then exists data, ext_data_stream (xf_table fs) e = Ok (Some data) /\
    forall ops, seeks_ok size content 0 ops ->
    snd (run (ext_data_step volume data) (tt, 0) ops) = snd (run (file_step size content) 0 ops)
  else ext_data_stream (xf_table fs) e = Ok None.
Proof.
  intros HV HO HE HF size content Hin. destruct (file_facts volume _ inode blocks HV HF) as (F1 & F2 & F3).
  pose proof (file_entry_of volume fs e inode blocks HV HO HE HF) as FE. pose proof HV as (_ & _ & _ & Hbs & _).
  unfold ext_data_stream. cbv zeta. rewrite (entry_inode _ _ _ _ FE), (opened_block_size _ _ HO).
  change 0x8000 with (8 * 4096). rewrite kind_ok by (assumption || reflexivity). fold (is_regular inode). destruct (is_regular inode) eqn:Hr; [|reflexivity]. cbn [negb].
  change 0x10000000 with (2 ^ 28). rewrite bit_flag. fold (is_inline inode). unfold content in *. destruct (is_inline inode).
  - eexists. split; [reflexivity|]. intros ops Hops. cbn [ext_data_step]. unfold fake_step. fold size.
    destruct (run_exact (fun _ => True) size (bytes_at (xi_reference inode) 0 size) (fake_rd (xi_reference inode))) with (ops := ops) (s := tt) (p := 0) as (s' & E & _); auto.
    + intros u o n _ Ho Hn. exists u. split; [|exact I]. rewrite fake_rd_straight by lia. destruct (N.ltb_spec o (len (xi_reference inode))); [|lia].
      now rewrite bytes_at_bytes_at by lia.
    + rewrite len_bytes_at. lia.
    + unfold two63. lia.
    + unfold two63. lia.
    + rewrite E. reflexivity.
  - rewrite total_ok by lia. cbn [bind].
    assert (Hd : is_device inode = false).
    { unfold is_device, is_regular in *. apply N.eqb_eq in Hr. rewrite Hr. reflexivity. }
    destruct HF as (_ & _ & _ & _ & _ & _ & HB).
    destruct (stream_ok volume _ inode blocks e HV FE HB Hd Hin) as (stream & S1 & S2). rewrite S1. cbn [bind].
    eexists. split; [reflexivity|]. intros ops Hops. cbn [ext_data_step]. rewrite S2 by exact Hops. reflexivity.
Qed.
Lemma entry_values volume fs e inode blocks : ext_volume volume -> opened volume fs -> entry_ok volume (xf_table fs) e ->
  file_at volume (xe_number e) inode blocks ->
  xe_inode e = inode /\ ext_is_directory e = is_directory inode /\
  ext_size e = (if is_regular inode || is_link inode then xi_size inode else 0) /\
  ext_device e = (if is_device inode then if xi_size inode <=? 2 then Ok (Some (field (xi_reference inode) 0 2)) else Err else Ok None).
Proof.
  intros HV HO HE HF. destruct (file_facts volume _ inode blocks HV HF) as (F1 & F2 & F3).
  pose proof (file_entry_of volume fs e inode blocks HV HO HE HF) as FE. split; [apply FE|]. split; [now apply (is_directory_ok e (xe_number e) inode blocks)|].
  unfold ext_size, ext_device. rewrite (entry_inode _ _ _ _ FE).
  change 0x8000 with (8 * 4096). change 0xa000 with (10 * 4096). change 0x2000 with (2 * 4096). change 0x6000 with (6 * 4096).
  rewrite !kind_ok by (assumption || reflexivity). split; [reflexivity|]. fold (is_device inode). destruct (is_device inode); [|reflexivity].
  destruct (xi_size inode <=? 2); cbn [check bind]; [|reflexivity]. rewrite (u16_at _ F2) by lia. reflexivity.
Qed.
