(** * Proofs about FAT directories *)
From Coq Require Import Permutation Sorted.
From Verif Require Import Base BaseLemmas Bytes_model Streams_model Streams_spec Streams_proofs Blocks_model Blocks_proofs.
From Verif Require Import CodePages_model Strings_model Strings_spec Strings_proofs Part_model Part_spec Fat_model Fat_spec Fat_proofs.
From Verif Require Import Headers_model Headers_spec Headers_proofs Case_model FatDir_model FatDir_spec.
Ltac Zify.zify_post_hook ::= idtac.

(** ** Records *)
Definition rec_ok (r : record) : Prop := len (snd r) = 32 /\ wf_bytes (snd r) /\ fst r + 32 < two64.
Lemma rec_buffer r : rec_ok r -> buffer (snd r).
Proof. intros (L & W & _). split; [assumption|]. rewrite L. reflexivity. Qed.

Lemma same_refl l : same l l = true.
Proof. unfold same. now destruct (list_eq_dec N.eq_dec l l). Qed.
Lemma same_ne a b : a <> b -> same a b = false.
Proof. unfold same. now destruct (list_eq_dec N.eq_dec a b). Qed.
Lemma two_bytes d o : o + 2 <= len d -> bytes_at d o 2 = [byte d o; byte d (o + 1)].
Proof.
  intros H. unfold bytes_at, byte. replace (N.to_nat (o + 1)) with (S (N.to_nat o)) by lia.
  change (N.to_nat 2) with 2%nat.
  assert (H' : (N.to_nat o + 2 <= length d)%nat) by (unfold len in H; lia). clear H. revert H'.
  generalize (N.to_nat o) as k. intros k. revert d. induction k as [|k IH]; intros [|a d] H; cbn [length] in H; try lia.
  - destruct d as [|b d]; cbn [length] in H; [lia|]. reflexivity.
  - cbn [skipn nth]. apply IH. lia.
Qed.
Lemma whole d n : len d = n -> bytes_at d 0 n = d.
Proof. intros <-. unfold bytes_at, len. cbn [skipn N.to_nat]. rewrite Nnat.Nat2N.id. apply firstn_all. Qed.

Lemma type_deleted d : buffer d -> len d = 32 -> byte d 0 = 0xe5 -> entry_type_read d = Ok Unallocated.
Proof. intros Hb L H. unfold entry_type_read. rewrite (idx_at _ Hb) by lia. cbn [bind]. rewrite H. reflexivity. Qed.
Lemma type_short d : buffer d -> len d = 32 -> byte d 0 <> 0xe5 -> byte d 0 <> 0 -> byte d 11 <> 15 ->
  entry_type_read d = Ok ShortName.
Proof.
  intros Hb L H0 H1 H2. unfold entry_type_read. rewrite (idx_at _ Hb), !slice_at by lia. cbn [bind].
  change (13 - 11) with 2. change (28 - 26) with 2. change (32 - 0) with 32.
  rewrite (two_bytes d 11) by lia. rewrite (whole d 32) by assumption.
  destruct (N.eqb_spec (byte d 0) 0xe5) as [|_]; [contradiction|].
  rewrite (same_ne [byte d 11; byte d (11 + 1)]) by (intros E; injection E as E _; congruence). cbn [bind andb].
  rewrite same_ne; [reflexivity|]. intros E. apply H1. rewrite E. reflexivity.
Qed.
Lemma type_long d : buffer d -> len d = 32 -> byte d 11 = 15 -> byte d 12 = 0 -> field d 26 2 = 0 ->
  1 <= byte d 0 <= 19 \/ 65 <= byte d 0 <= 84 -> entry_type_read d = Ok LongName.
Proof.
  intros Hb L H1 H2 H3 H0. unfold entry_type_read. rewrite (idx_at _ Hb), !slice_at by lia. cbn [bind].
  change (13 - 11) with 2. change (28 - 26) with 2. change (32 - 0) with 32.
  rewrite (two_bytes d 11) by lia. change (11 + 1) with 12. rewrite H1, H2, same_refl. cbn [bind].
  unfold field in H3. rewrite (two_bytes d 26) in * by lia. change (26 + 1) with 27 in *.
  assert (byte d 26 = 0 /\ byte d 27 = 0) as [-> ->].
  { cbn [le_value] in H3. lia. }
  rewrite same_refl. destruct (N.eqb_spec (byte d 0) 0xe5); [lia|].
  destruct (N.leb_spec 1 (byte d 0)), (N.leb_spec (byte d 0) 19), (N.leb_spec 65 (byte d 0)), (N.leb_spec (byte d 0) 84);
    cbn; try reflexivity; lia.
Qed.
Lemma type_zero : entry_type_read (repeat 0 32) = Ok Terminator.
Proof. reflexivity. Qed.

Lemma short_read r : rec_ok r -> fat_short_entry_read (snd r) = Ok (fat_short_entry_of (snd r)).
Proof. intros H. rewrite (fat_short_entry_ok' _ (rec_buffer r H) I). destruct H as (-> & _). reflexivity. Qed.
Lemma long_read r : rec_ok r -> fat_padding (fat_units (snd r)) = true ->
  fat_long_entry_read (snd r) = Ok (byte (snd r) 0, up_to_zero (fat_units (snd r))).
Proof. intros H P. rewrite (fat_long_entry_ok' _ (rec_buffer r H) P). destruct H as (-> & _). reflexivity. Qed.

(** The mask of the attributes. *)
Lemma mask_label a : a < 64 -> (N.land a 0x58 =? 0x08) = flag a 3 && negb (flag a 4).
Proof.
  intros H. assert (A : forallb (fun a => eqb (N.land a 0x58 =? 0x08) (flag a 3 && negb (flag a 4))) (seqN 0 64) = true)
    by (vm_compute; reflexivity).
  rewrite forallb_forall in A. apply eqb_prop, A, in_seqN. lia.
Qed.
Lemma mask_directory a : a < 64 -> (N.land a 0x58 =? 0x10) = flag a 4 && negb (flag a 3).
Proof.
  intros H. assert (A : forallb (fun a => eqb (N.land a 0x58 =? 0x10) (flag a 4 && negb (flag a 3))) (seqN 0 64) = true)
    by (vm_compute; reflexivity).
  rewrite forallb_forall in A. apply eqb_prop, A, in_seqN. lia.
Qed.

Section Step.
  Variable mappings : N -> option N.
  (** One record, where a terminator changes nothing. *)
  Definition step (s : dir_state) (r : record) : res dir_state :=
    o <- dir_record mappings (snd r) (fst r) s ;; Ok (match o with Some s => s | None => s end).
  Fixpoint run_steps (s : dir_state) (rs : list record) : res dir_state :=
    match rs with [] => Ok s | r :: rs => s <- step s r ;; run_steps s rs end.
  Lemma run_steps_app s a b : run_steps s (a ++ b) = (s <- run_steps s a ;; run_steps s b).
  Proof.
    revert s. induction a as [|r a IH]; intros s; cbn [app run_steps bind]; [reflexivity|].
    destruct (step s r); cbn [bind]; [apply IH|reflexivity|reflexivity].
  Qed.

  Lemma step_deleted s r : rec_ok r -> byte (snd r) 0 = 0xe5 -> step s r = Ok s.
  Proof.
    intros H E. unfold step, dir_record. rewrite (type_deleted _ (rec_buffer r H)) by (trivial; apply H). reflexivity.
  Qed.
  Lemma step_zero s r : snd r = repeat 0 32 -> step s r = Ok s.
  Proof. intros E. unfold step, dir_record. rewrite E, type_zero. reflexivity. Qed.
  Lemma step_label s r : rec_ok r -> short_record r -> is_label r ->
    step s r = Ok {| ds_entries := ds_entries s; ds_label := Some (fat_name (snd r)); ds_last := ds_last s;
                     ds_pending := ds_pending s |}.
  Proof.
    intros H ((U1 & U2 & _) & A & B) (L1 & L2). unfold step, dir_record.
    rewrite (type_short _ (rec_buffer r H)) by (trivial; apply H). cbn [bind]. rewrite short_read by assumption. cbn [bind].
    change (fs_attributes (fat_short_entry_of (snd r))) with (attributes r). rewrite mask_label, L1, L2 by assumption. reflexivity.
  Qed.
  Lemma step_dot s r : rec_ok r -> short_record r -> flag (attributes r) 3 = false -> is_dot r -> step s r = Ok s.
  Proof.
    intros H ((U1 & U2 & _) & A & B) L1 D. unfold step, dir_record.
    rewrite (type_short _ (rec_buffer r H)) by (trivial; apply H). cbn [bind]. rewrite short_read by assumption. cbn [bind].
    change (fs_attributes (fat_short_entry_of (snd r))) with (attributes r). rewrite mask_label, L1 by assumption. cbn [andb].
    change (fs_name (fat_short_entry_of (snd r))) with (fat_name (snd r)).
    destruct D as [-> | ->]; reflexivity.
  Qed.
  Lemma step_short s r : rec_ok r -> short_record r -> flag (attributes r) 3 = false -> ~ is_dot r ->
    let e := {| de_identifier := fst r mod two32; de_short := fat_short_entry_of (snd r);
                de_long := set_long_name (ds_pending s) |} in
    step s r = Ok {| ds_entries := map_insert (entry_lookup_name mappings e) e (ds_entries s); ds_label := ds_label s;
                     ds_last := ds_last s; ds_pending := [] |}.
  Proof.
    intros H ((U1 & U2 & _) & A & B) L1 D. unfold step, dir_record.
    rewrite (type_short _ (rec_buffer r H)) by (trivial; apply H). cbn [bind]. rewrite short_read by assumption. cbn [bind].
    change (fs_attributes (fat_short_entry_of (snd r))) with (attributes r). rewrite mask_label, L1 by assumption. cbn [andb].
    change (fs_name (fat_short_entry_of (snd r))) with (fat_name (snd r)).
    rewrite !same_ne; [reflexivity| |]; intros E; apply D; [now right|now left].
  Qed.

  (** *** Long names *)
  Definition long_pair (r : record) : N * list N := (byte (snd r) 0, up_to_zero (fat_units (snd r))).
  Lemma part_number k : 1 <= k <= 20 ->
    N.land (k + 64) 0x1f = k /\ N.land (k + 64) 0x40 = 64 /\ N.land k 0x1f = k /\ N.land k 0x40 = 0.
  Proof.
    intros H. assert (A : forallb (fun k => (N.land (k + 64) 0x1f =? k) && (N.land (k + 64) 0x40 =? 64) &&
      (N.land k 0x1f =? k) && (N.land k 0x40 =? 0)) (seqN 1 20) = true) by (vm_compute; reflexivity).
    rewrite forallb_forall in A. specialize (A k ltac:(apply in_seqN; lia)).
    rewrite !andb_true_iff, !N.eqb_eq in A. tauto.
  Qed.
  Lemma step_part s short r n k : rec_ok r -> 1 <= k <= n -> n <= 20 -> long_part n k short r ->
    fat_padding (fat_units (snd r)) = true ->
    (k < n -> ds_last s = k + 1) ->
    step s r = Ok {| ds_entries := ds_entries s; ds_label := ds_label s; ds_last := k;
                     ds_pending := (if k =? n then [] else ds_pending s) ++ [long_pair r] |}.
  Proof.
    intros H Hk Hn (P0 & P1 & P2 & P3 & _) P Hl. unfold attributes in P1. unfold step, dir_record.
    rewrite (type_long _ (rec_buffer r H)); [|apply H|assumption..|].
    2: { rewrite P0. destruct (N.eqb_spec k n); lia. }
    cbn [bind]. rewrite long_read by assumption. cbn [bind]. rewrite P0.
    destruct (part_number k ltac:(lia)) as (Q1 & Q2 & Q3 & Q4). unfold long_pair. rewrite P0.
    destruct (N.eqb_spec k n).
    - rewrite Q1, Q2. reflexivity.
    - rewrite N.add_0_r, Q3, Q4, Hl, !N.eqb_refl by lia. reflexivity.
  Qed.
  Lemma steps_parts short n : n <= 20 -> forall k parts s, N.of_nat k <= n ->
    long_parts n k short parts -> Forall rec_ok parts ->
    Forall (fun r => fat_padding (fat_units (snd r)) = true) parts ->
    (N.of_nat k < n -> ds_last s = N.of_nat k + 1) ->
    (1 <= k)%nat \/ N.of_nat k < n ->
    run_steps s parts = Ok {| ds_entries := ds_entries s; ds_label := ds_label s; ds_last := 1;
      ds_pending := (if N.of_nat k =? n then [] else ds_pending s) ++ map long_pair parts |}.
  Proof.
    intros Hn. induction k as [|k IH]; intros [|r parts] s Hk Hp Hr Hf Hl H1; cbn [long_parts] in Hp; try contradiction.
    - cbn [run_steps map]. destruct H1 as [H1|H1]; [lia|]. destruct (N.eqb_spec (N.of_nat 0) n); [lia|].
      specialize (Hl H1). rewrite app_nil_r. destruct s; cbn in *. subst. reflexivity.
    - destruct Hp as [Hp Hps]. inversion Hr as [|? ? Hr1 Hr2]; inversion Hf as [|? ? Hf1 Hf2]; subst.
      cbn [run_steps]. rewrite (step_part s short r n (N.of_nat (S k))); trivial; [|lia]. cbn [bind].
      rewrite IH; trivial; cbn [ds_last ds_pending ds_entries ds_label]; try lia.
      cbn [map]. destruct (N.eqb_spec (N.of_nat k) n); [lia|]. rewrite <- app_assoc. reflexivity.
  Qed.
End Step.

(** ** The characters of a long name *)
Lemma up_to_zero_app a b : ~ In 0 a -> up_to_zero (a ++ b) = a ++ up_to_zero b.
Proof.
  induction a as [|x a IH]; intros H; [reflexivity|]. cbn [app up_to_zero].
  destruct (N.eqb_spec x 0) as [->|]; [exfalso; apply H; now left|]. f_equal. apply IH. intros E. apply H. now right.
Qed.
Lemma padding_app a b : ~ In 0 a -> fat_padding (a ++ b) = fat_padding b.
Proof.
  induction a as [|x a IH]; intros H; [reflexivity|]. cbn [app fat_padding].
  destruct (N.eqb_spec x 0) as [->|]; [exfalso; apply H; now left|]. apply IH. intros E. apply H. now right.
Qed.
Lemma padding_none a : ~ In 0 a -> fat_padding a = true /\ up_to_zero a = a.
Proof.
  intros H. pose proof (padding_app a [] H) as P. pose proof (up_to_zero_app a [] H) as U. rewrite !app_nil_r in *.
  split; [exact P|]. rewrite U. first [reflexivity | apply app_nil_r].
Qed.
Lemma filling k : fat_padding (firstn k (0 :: repeat 0xffff 13)) = true /\ up_to_zero (firstn k (0 :: repeat 0xffff 13)) = [].
Proof.
  destruct k as [|k]; [split; reflexivity|]. cbn [firstn fat_padding up_to_zero N.eqb]. split; [|reflexivity].
  apply forallb_forall. intros x Hx. rewrite <- (firstn_skipn k (repeat 0xffff 13)) in *.
  assert (In x (repeat 0xffff 13)) as Hr. { rewrite <- (firstn_skipn k (repeat 0xffff 13)). apply in_or_app. left.
    rewrite firstn_skipn in Hx. exact Hx. }
  apply repeat_spec in Hr. now subst.
Qed.
Lemma chunks : forall us name, us <> [] -> Forall (fun u => length u = 13%nat) us -> ~ In 0 name ->
  (13 * (length us - 1) < length name <= 13 * length us)%nat ->
  concat us = name ++ firstn (length us * 13 - length name) (0 :: repeat 0xffff 13) ->
  concat (map up_to_zero us) = name /\ Forall (fun u => fat_padding u = true) us.
Proof.
  induction us as [|u us IH]; intros name Hn Hu Hz Hl E; [contradiction|].
  inversion Hu as [|? ? Lu Hu']; subst. destruct us as [|u' us].
  - cbn [concat] in E. rewrite app_nil_r in E. cbn [map concat]. rewrite app_nil_r. cbn [length] in *.
    rewrite E at 1. rewrite up_to_zero_app by assumption. rewrite (proj2 (filling _)), app_nil_r. split; [reflexivity|].
    constructor; [|constructor]. rewrite E, padding_app by assumption. apply filling.
  - cbn [length] in Hl.
    assert (Hs : name = u ++ skipn 13 name).
    { rewrite <- (firstn_skipn 13 name) at 1. f_equal. apply (f_equal (firstn 13)) in E.
      cbn [concat] in E. rewrite !firstn_app in E. rewrite <- Lu in E at 1. rewrite firstn_all in E.
      rewrite Lu in E. rewrite Nat.sub_diag in E. replace (13 - length name)%nat with 0%nat in E by lia.
      cbn [firstn] in E. rewrite !app_nil_r in E. symmetry. exact E. }
    assert (Ls : length (skipn 13 name) = (length name - 13)%nat) by apply skipn_length.
    assert (Hz' : ~ In 0 u /\ ~ In 0 (skipn 13 name)).
    { split; intros H; apply Hz; rewrite Hs; apply in_or_app; tauto. }
    assert (E' : concat (u' :: us) = skipn 13 name ++ firstn (length (u' :: us) * 13 - length (skipn 13 name)) (0 :: repeat 0xffff 13)).
    { change (concat (u :: u' :: us)) with (u ++ concat (u' :: us)) in E. rewrite Hs in E at 1. rewrite <- app_assoc in E.
      apply app_inv_head in E. rewrite E. f_equal. f_equal. cbn [length] in *. lia. }
    destruct (IH (skipn 13 name) ltac:(discriminate) Hu' (proj2 Hz') ltac:(cbn [length]; lia) E') as [I1 I2].
    destruct (padding_none u (proj1 Hz')) as [P1 P2]. split.
    + change (concat (map up_to_zero (u :: u' :: us))) with (up_to_zero u ++ concat (map up_to_zero (u' :: us))).
      rewrite P2, I1. now symmetry.
    + constructor; assumption.
Qed.
Lemma units_13 r : rec_ok r -> length (fat_units (snd r)) = 13%nat.
Proof.
  intros (L & _). unfold fat_units. rewrite !app_length.
  pose proof (len_pairs_at (snd r) 1 5 ltac:(lia)) as L1. pose proof (len_pairs_at (snd r) 14 6 ltac:(lia)) as L2.
  pose proof (len_pairs_at (snd r) 28 2 ltac:(lia)) as L3. unfold len in L1, L2, L3.
  change 10 with (2 * 5). change 12 with (2 * 6). change 4 with (2 * 2). lia.
Qed.
Lemma long_name_read parts short name : Forall rec_ok parts -> long_name parts short name ->
  Forall (fun r => fat_padding (fat_units (snd r)) = true) parts /\ set_long_name (map long_pair parts) = Some name.
Proof.
  intros Hr (Hn & _ & Hz & Hl & E). rewrite flat_map_concat_map in E.
  destruct (chunks (map (fun r => fat_units (snd r)) (rev parts)) name) as [C1 C2].
  - intros X. apply (f_equal (@length _)) in X. rewrite map_length, rev_length in X. cbn [length] in X. lia.
  - apply Forall_map, Forall_rev. eapply Forall_impl; [|exact Hr]. intros r. apply units_13.
  - exact Hz.
  - rewrite map_length, rev_length. unfold len in Hl. lia.
  - rewrite E. rewrite map_length, rev_length. reflexivity.
  - split.
    + apply Forall_map in C2. rewrite <- (rev_involutive parts). apply Forall_rev. exact C2.
    + unfold set_long_name. destruct parts as [|p parts]; [cbn [length] in Hn; lia|]. remember (p :: parts) as l.
      rewrite <- map_rev, map_map. rewrite map_map in C1. cbn [snd long_pair]. rewrite <- C1.
      destruct (map long_pair l) eqn:El; [subst; discriminate|]. reflexivity.
Qed.

(** ** The map of the entries *)
Definition key_lt (a b : list N * dir_entry) : Prop := ucs2_compare (fst a) (fst b) = Lt.
Lemma key_lt_trans : Relations_1.Transitive key_lt.
Proof. intros a b c. unfold key_lt. rewrite !compare_lt. apply lex_trans. Qed.
Lemma insert_new key e l : ~ In key (map fst l) -> Permutation (map_insert key e l) ((key, e) :: l).
Proof.
  induction l as [|[k v] l IH]; intros H; [reflexivity|]. cbn [map_insert].
  destruct (ucs2_compare key k) eqn:E.
  - exfalso. apply H. left. apply compare_eq in E. now subst.
  - reflexivity.
  - rewrite IH; [apply perm_swap|]. intros X. apply H. now right.
Qed.
Lemma insert_sorted key e l : StronglySorted key_lt l -> StronglySorted key_lt (map_insert key e l).
Proof.
  induction l as [|[k v] l IH]; intros H; [repeat constructor|]. cbn [map_insert].
  inversion H as [|? ? Hs Hf]; subst. destruct (ucs2_compare key k) eqn:E.
  - constructor; [assumption|]. eapply Forall_impl; [|exact Hf]. intros [k' v']. exact (fun x => x).
  - constructor; [assumption|]. constructor; [exact E|]. eapply Forall_impl; [|exact Hf].
    intros a Ha. eapply key_lt_trans; [|exact Ha]. exact E.
  - constructor; [auto|]. apply compare_gt in E. rewrite Forall_forall in *. intros [k' v'] Hin.
    assert (Hin' : k' = key \/ In (k', v') l).
    { clear - Hin. induction l as [|[k v] l IH]; cbn [map_insert] in Hin.
      - destruct Hin as [Hin|[]]. inversion Hin. now left.
      - destruct (ucs2_compare key k) eqn:E; cbn [In] in *.
        + apply compare_eq in E. subst. destruct Hin as [Hin|Hin]; [inversion Hin; now left|tauto].
        + destruct Hin as [Hin|Hin]; [inversion Hin; now left|tauto].
        + destruct Hin as [Hin|Hin]; [tauto|]. destruct (IH Hin); tauto. }
    destruct Hin' as [->|Hin']; [|exact (Hf _ Hin')]. apply compare_lt. exact E.
Qed.
Lemma find_key key l : map_find key l = None <-> ~ In key (map fst l).
Proof.
  induction l as [|[k v] l IH]; cbn [map_find map In fst]; [tauto|].
  destruct (ucs2_compare key k) eqn:E.
  - apply compare_eq in E. subst. split; [discriminate|]. intros H. exfalso. apply H. now left.
  - rewrite IH. assert (k <> key) by (intros ->; rewrite (proj2 (compare_eq key key) eq_refl) in E; discriminate). tauto.
  - rewrite IH. assert (k <> key) by (intros ->; rewrite (proj2 (compare_eq key key) eq_refl) in E; discriminate). tauto.
Qed.
Lemma find_in key v l : NoDup (map fst l) -> In (key, v) l -> map_find key l = Some v.
Proof.
  induction l as [|[k w] l IH]; cbn [map_find map In fst]; intros Hd Hi; [contradiction|].
  inversion Hd as [|? ? H1 H2]; subst. destruct Hi as [Hi|Hi].
  - inversion Hi; subst. now rewrite (proj2 (compare_eq key key) eq_refl).
  - destruct (ucs2_compare key k) eqn:E; auto. apply compare_eq in E. subst. exfalso. apply H1.
    apply in_map_iff. now exists (k, v).
Qed.

(** ** Items *)
Definition ascii_case (mapping : N -> option N) : Prop :=
  forall c, c < 128 -> mapping c = if (97 <=? c) && (c <=? 122) then Some (c - 32) else None.
Section Items.
  Variable mappings : N -> option N.
  Hypothesis Hm : ascii_case mappings.
  Notation step := (step mappings).
  Notation run_steps := (run_steps mappings).
  Definition pair_of (f : file) : list N * dir_entry := (upper mappings (fl_name f), entry_of f).

  Lemma lookup_name_of f : file_ok f -> entry_lookup_name mappings (entry_of f) = upper mappings (fl_name f).
  Proof.
    intros (_ & _ & _ & H). unfold entry_lookup_name, entry_of. cbn [de_long de_short].
    destruct (fl_parts f) as [|p ps]; [|reflexivity]. destruct H as [-> Ha]. cbn [fs_name fat_short_entry_of]. unfold upper.
    apply map_ext_in. intros c Hc. rewrite Forall_forall in Ha. rewrite (Hm c (Ha c Hc)).
    destruct ((97 <=? c) && (c <=? 122)); reflexivity.
  Qed.

  Definition after (s : dir_state) (i : item) : list (list N * dir_entry) * option (list N) :=
    (match i with File f => map_insert (fst (pair_of f)) (snd (pair_of f)) (ds_entries s) | _ => ds_entries s end,
     match i with Label r => Some (fat_name (snd r)) | _ => ds_label s end).
  Lemma steps_item s i : ds_pending s = [] -> item_ok i -> Forall rec_ok (item_records i) ->
    exists s', run_steps s (item_records i) = Ok s' /\ ds_pending s' = [] /\ (ds_entries s', ds_label s') = after s i.
  Proof.
    intros Hp Hi Hr. destruct i as [r|r|r|f]; cbn [item_records item_ok] in *;
      [apply Forall_cons_iff in Hr as [Hr1 _]..|].
    - exists s. cbn [FatDir_proofs.run_steps]. rewrite step_deleted by assumption. auto.
    - destruct Hi as [Hi1 Hi2]. eexists. cbn [FatDir_proofs.run_steps]. rewrite step_label by assumption. cbn [bind]. split; [reflexivity|].
      cbn. auto.
    - destruct Hi as (Hi1 & Hi2 & Hi3). exists s. cbn [FatDir_proofs.run_steps]. rewrite step_dot by assumption. auto.
    - pose proof (lookup_name_of f Hi) as Hn. destruct Hi as (S1 & S2 & S3 & S4). apply Forall_app in Hr as [Hr1 Hr2].
      inversion Hr2 as [|? ? Hr3 _]; subst.
      assert (Hs : exists s1, run_steps s (fl_parts f) = Ok s1 /\ set_long_name (ds_pending s1) = de_long (entry_of f) /\
        ds_entries s1 = ds_entries s /\ ds_label s1 = ds_label s).
      { destruct (fl_parts f) as [|p ps] eqn:Ep.
        - exists s. unfold entry_of. rewrite Ep, Hp. auto.
        - rewrite <- Ep in *. destruct (long_name_read (fl_parts f) (fl_short f) (fl_name f)) as [N1 N2]; trivial.
          destruct S4 as (L1 & L2 & _). eexists. split.
          { apply (steps_parts mappings (fl_short f) (len (fl_parts f))) with (k := length (fl_parts f)); trivial;
              unfold len; lia. }
          cbn [ds_pending ds_entries ds_label]. unfold len. rewrite N.eqb_refl. cbn [app]. rewrite N2.
          unfold entry_of. rewrite Ep. auto. }
      destruct Hs as (s1 & R & L & E1 & E2). rewrite run_steps_app, R. cbn [bind FatDir_proofs.run_steps].
      rewrite step_short by assumption. cbn [bind]. eexists. split; [reflexivity|]. cbn [ds_pending ds_entries ds_label].
      split; [reflexivity|]. unfold after, pair_of. cbn [fst snd]. rewrite L, E1, E2, <- Hn. reflexivity.
  Qed.
  Definition insert_files (m : list (list N * dir_entry)) (fs : list file) : list (list N * dir_entry) :=
    fold_left (fun m f => map_insert (fst (pair_of f)) (snd (pair_of f)) m) fs m.
  Lemma steps_items items : forall s, ds_pending s = [] -> Forall item_ok items ->
    Forall rec_ok (flat_map item_records items) ->
    exists s', run_steps s (flat_map item_records items) = Ok s' /\ ds_pending s' = [] /\
      ds_entries s' = insert_files (ds_entries s) (files items) /\
      ds_label s' = fold_left (fun l i => match i with Label r => Some (fat_name (snd r)) | _ => l end) items (ds_label s).
  Proof.
    induction items as [|i items IH]; intros s Hp Hi Hr; [exists s; auto|].
    inversion Hi as [|? ? Hi1 Hi2]; subst. cbn [flat_map] in *. apply Forall_app in Hr as [Hr1 Hr2].
    destruct (steps_item s i Hp Hi1 Hr1) as (s1 & R1 & P1 & A1). unfold after in A1. inversion A1 as [[E1 E2]].
    destruct (IH s1 P1 Hi2 Hr2) as (s2 & R2 & P2 & A2 & B2). exists s2.
    rewrite run_steps_app, R1. cbn [bind]. repeat split; trivial.
    - rewrite A2, E1. unfold files. cbn [flat_map]. destruct i; reflexivity.
    - rewrite B2, E2. cbn [fold_left]. destruct i; reflexivity.
  Qed.
  Lemma insert_files_ok fs : forall m, StronglySorted key_lt m ->
    NoDup (map fst m ++ map (fun f => fst (pair_of f)) fs) ->
    StronglySorted key_lt (insert_files m fs) /\ Permutation (insert_files m fs) (m ++ map pair_of fs).
  Proof.
    induction fs as [|f fs IH]; intros m Hs Hd; [cbn; rewrite app_nil_r; auto|].
    cbn [insert_files fold_left]. cbn [map] in Hd.
    assert (Hn : ~ In (fst (pair_of f)) (map fst m)).
    { apply NoDup_remove_2 in Hd. intros X. apply Hd. apply in_or_app. now left. }
    pose proof (insert_new (fst (pair_of f)) (snd (pair_of f)) m Hn) as P.
    destruct (IH (map_insert (fst (pair_of f)) (snd (pair_of f)) m)) as [I1 I2].
    - now apply insert_sorted.
    - eapply Permutation_NoDup; [|exact Hd]. rewrite <- Permutation_middle.
      rewrite (Permutation_map fst P). cbn [map fst]. reflexivity.
    - split; [exact I1|]. unfold insert_files in I2. rewrite I2, P. cbn [map app]. rewrite <- Permutation_middle.
      destruct (pair_of f). reflexivity.
  Qed.
  Lemma steps_free s free : Forall (fun r => snd r = repeat 0 32) free -> run_steps s free = Ok s.
  Proof.
    induction 1 as [|r free H _ IH]; [reflexivity|]. cbn [FatDir_proofs.run_steps]. rewrite step_zero by assumption. exact IH.
  Qed.

  (** What the entries of a directory that was read are. *)
  Definition listing (s : dir_state) (items : list item) : Prop :=
    StronglySorted key_lt (ds_entries s) /\ Permutation (ds_entries s) (map pair_of (files items)) /\ ds_label s = label items.
  Lemma steps_holds rs items : holds rs items -> Forall rec_ok rs -> distinct_names mappings items ->
    exists s, run_steps dir_new rs = Ok s /\ listing s items.
  Proof.
    intros (Hi & free & -> & Hf) Hr Hd. apply Forall_app in Hr as [Hr1 Hr2].
    destruct (steps_items items dir_new eq_refl Hi Hr1) as (s & R & P & A & B). exists s.
    rewrite run_steps_app, R. cbn [bind]. rewrite steps_free by assumption. split; [reflexivity|].
    destruct (insert_files_ok (files items) []) as [I1 I2]; [constructor|exact Hd|].
    unfold listing. change (ds_entries dir_new) with (@nil (list N * dir_entry)) in A. rewrite A. auto.
  Qed.
  Lemma listing_keys s items : listing s items -> distinct_names mappings items -> NoDup (map fst (ds_entries s)).
  Proof.
    intros (_ & P & _) Hd. eapply Permutation_NoDup; [symmetry; apply (Permutation_map fst), P|]. rewrite map_map. exact Hd.
  Qed.
  Lemma listing_find s items name : listing s items -> distinct_names mappings items ->
    map_find (upper mappings name) (ds_entries s) = option_map entry_of (named mappings items name).
  Proof.
    intros L Hd. pose proof (listing_keys s items L Hd) as Hk. destruct L as (_ & P & _). unfold named.
    destruct (find _ (files items)) as [f|] eqn:E; cbn [option_map].
    - apply find_some in E as [E1 E2]. unfold same_name in E2.
      destruct (list_eq_dec N.eq_dec (upper mappings (fl_name f)) (upper mappings name)) as [E3|]; [|discriminate].
      apply find_in; [exact Hk|]. eapply Permutation_in; [symmetry; exact P|]. apply in_map_iff. exists f.
      unfold pair_of. now rewrite E3.
    - apply find_key. intros X. eapply (Permutation_in _ (Permutation_map fst P)) in X. rewrite map_map in X.
      apply in_map_iff in X as (f & E1 & E2). pose proof (find_none _ _ E f E2) as E3. unfold same_name in E3.
      cbn [fst pair_of] in E1. destruct (list_eq_dec N.eq_dec (upper mappings (fl_name f)) (upper mappings name)); congruence.
  Qed.
End Items.

(** ** Blocks of records *)
Fixpoint tail_free (rs : list record) : Prop :=
  match rs with
  | [] => True
  | r :: rs => (snd r = repeat 0 32 -> Forall (fun r => snd r = repeat 0 32) rs) /\ tail_free rs
  end.
Lemma tail_free_all rs : Forall (fun r => snd r = repeat 0 32) rs -> tail_free rs.
Proof. induction 1 as [|r rs H Hf IH]; cbn [tail_free]; auto. Qed.
Lemma tail_free_holds rs items : holds rs items -> tail_free rs.
Proof.
  intros (Hi & free & -> & Hf).
  assert (Hz : Forall (fun r => byte (snd r) 0 <> 0) (flat_map item_records items)).
  { apply Forall_flat_map. eapply Forall_impl; [|exact Hi]. intros i Ok. destruct i as [r|r|r|f]; cbn [item_ok item_records] in *.
    - constructor; [lia|constructor].
    - constructor; [apply Ok|constructor].
    - constructor; [apply Ok|constructor].
    - destruct Ok as (S1 & _ & _ & S4). apply Forall_app. split; [|constructor; [apply S1|constructor]].
      destruct (fl_parts f) as [|p ps] eqn:E; [constructor|]. rewrite <- E in *. destruct S4 as (_ & L & _).
      revert L. generalize (length (fl_parts f)) as k. generalize (len (fl_parts f)) as n. intros n k. clear.
      revert k. induction (fl_parts f) as [|r ps IH]; intros k L; [constructor|]. destruct k as [|k]; [contradiction|].
      cbn [long_parts] in L. destruct L as [L1 L2]. constructor; [|exact (IH k L2)].
      destruct L1 as (-> & _). lia. }
  induction Hz as [|r rs Hr _ IH]; [now apply tail_free_all|]. cbn [app tail_free]. split; [|exact IH].
  intros E. rewrite E in Hr. exfalso. apply Hr. reflexivity.
Qed.
Lemma tail_free_app a b : tail_free (a ++ b) -> tail_free a /\ tail_free b.
Proof.
  induction a as [|r a IH]; intros H; [cbn; auto|]. cbn [app tail_free] in H. destruct H as [H1 H2].
  destruct (IH H2) as [I1 I2]. split; [|exact I2]. cbn [tail_free]. split; [|exact I1].
  intros E. apply H1 in E. apply Forall_app in E. tauto.
Qed.

Lemma terminator_zero d : entry_type_read d = Ok Terminator -> len d = 32 -> d = repeat 0 32.
Proof.
  intros H L. unfold entry_type_read in H.
  apply bind_Ok_inv in H as (b & _ & H). destruct (b =? 0xe5); [discriminate|].
  apply bind_Ok_inv in H as (a & _ & H). apply bind_Ok_inv in H as (c & _ & H).
  destruct (c && _); [discriminate|]. rewrite slice_at in H by lia. cbn [bind] in H.
  change (32 - 0) with 32 in H. rewrite (whole d 32 L) in H. unfold same in H.
  destruct (list_eq_dec N.eq_dec d (repeat 0 32)); [assumption|discriminate].
Qed.
Lemma record_end mappings d o s : dir_record mappings d o s = Ok None -> len d = 32 -> d = repeat 0 32.
Proof.
  intros H L. unfold dir_record in H. apply bind_Ok_inv in H as (t & Ht & H). destruct t.
  - apply bind_Ok_inv in H as ([sq nm] & _ & H). apply bind_Ok_inv in H as (p & _ & H). discriminate.
  - apply bind_Ok_inv in H as (e & _ & H). destruct (_ =? 8); [discriminate|]. destruct (same _ _ || _); discriminate.
  - now apply terminator_zero.
  - discriminate.
Qed.

Fixpoint cut (n : nat) (data : list N) (o : N) : list record :=
  match n with O => [] | S n => (o, firstn 32 data) :: cut n (skipn 32 data) (o + 32) end.
Lemma read_cut mappings n : forall fuel data o s s', (n < fuel)%nat -> length data = (32 * n)%nat ->
  o + len data < two64 -> tail_free (cut n data o) ->
  run_steps mappings s (cut n data o) = Ok s' -> dir_read_data fuel mappings data o s = Ok s'.
Proof.
  induction n as [|n IH]; intros [|fuel] data o s s' Hf Hl Ho Ht H; try lia.
  - destruct data; [|discriminate Hl]. exact H.
  - assert (L : len (firstn 32 data) = 32) by (unfold len; rewrite firstn_length; lia).
    cbn [cut run_steps dir_read_data] in *. unfold len at 1. destruct (N.eqb_spec (N.of_nat (length data)) 0); [lia|].
    destruct (N.leb_spec 32 (len data)); [|unfold len in *; lia]. cbn [check bind].
    apply bind_Ok_inv in H as (s1 & H1 & H2). unfold step in H1. cbn [fst snd] in H1.
    destruct (dir_record mappings (firstn 32 data) o s) as [[s2|]| |] eqn:E; cbn [bind] in *; try discriminate.
    + inversion H1; subst. unfold add_chk. destruct (N.ltb_spec (o + 32) two64); [|unfold len in *; lia]. cbn [bind].
      apply IH; trivial; try lia.
      * rewrite skipn_length. lia.
      * unfold len in *. rewrite skipn_length. lia.
      * apply Ht.
    + apply record_end in E; [|exact L]. apply Ht in E. inversion H1; subst.
      rewrite (steps_free mappings s1 _ E) in H2. exact H2.
Qed.
Lemma records_cut volume o n : records_at volume o (32 * n) = cut (N.to_nat n) (bytes_at volume o (32 * n)) o.
Proof.
  unfold records_at. rewrite N.mul_comm, N.div_mul by lia.
  assert (X : exists k, n = N.of_nat k) by (exists (N.to_nat n); lia). destruct X as [k ->]. rewrite Nnat.Nat2N.id.
  assert (G : forall j o0 data, (forall i, (i < k)%nat -> bytes_at data (32 * N.of_nat i) 32 = bytes_at volume (o0 + 32 * j + 32 * N.of_nat i) 32) ->
    map (fun i => (o0 + 32 * i, bytes_at volume (o0 + 32 * i) 32)) (seqN j k) = cut k data (o0 + 32 * j)).
  { induction k as [|k IH]; intros j o0 data H; [reflexivity|].
    change (seqN j (S k)) with (j :: seqN (j + 1) k). cbn [map cut]. f_equal.
    - f_equal. specialize (H O ltac:(lia)). cbn [N.of_nat] in H. rewrite N.mul_0_r, N.add_0_r in H. rewrite <- H. reflexivity.
    - replace (o0 + 32 * j + 32) with (o0 + 32 * (j + 1)) by lia. apply IH. intros i Hi.
      specialize (H (S i) ltac:(lia)). replace (o0 + 32 * (j + 1) + 32 * N.of_nat i) with (o0 + 32 * j + 32 * N.of_nat (S i)) by lia.
      rewrite <- H. unfold bytes_at. f_equal. rewrite skipn_skipn. f_equal. lia. }
  rewrite (G 0 o (bytes_at volume o (N.of_nat k * 32))); [f_equal; lia|].
  intros i Hi. rewrite bytes_at_bytes_at by lia. f_equal. lia.
Qed.
Lemma records_ok volume o n : wf_bytes volume -> len volume < two63 -> o + 32 * n <= len volume -> Forall rec_ok (records_at volume o (32 * n)).
Proof.
  intros W V H. unfold records_at. apply Forall_map, Forall_forall. intros i Hi. apply in_seqN in Hi.
  rewrite N.mul_comm, N.div_mul in Hi by lia. unfold rec_ok. cbn [fst snd]. rewrite len_bytes_at.
  split; [lia|]. split; [now apply wf_bytes_at|]. unfold two63, two64 in *. lia.
Qed.
Lemma read_block mappings volume o size s s' : len volume < two63 -> o + size <= len volume -> size mod 32 = 0 ->
  tail_free (records_at volume o size) -> run_steps mappings s (records_at volume o size) = Ok s' ->
  dir_read mappings (bytes_at volume o size) o s = Ok s'.
Proof.
  intros V H M. pose proof (N.div_mod size 32 ltac:(lia)) as D. rewrite M, N.add_0_r in D.
  set (n := size / 32) in *. clearbody n. subst size. rewrite records_cut. intros Ht Hr.
  assert (L : len (bytes_at volume o (32 * n)) = 32 * n) by (rewrite len_bytes_at; lia).
  unfold dir_read. apply (read_cut mappings (N.to_nat n)); trivial.
  - unfold len in L. lia.
  - unfold len in L. lia.
  - rewrite L. unfold two63, two64 in *. lia.
Qed.

(** ** Chains of clusters *)
Lemma walk_chain mappings volume table t : volume_ok volume table t -> first_cluster_offset table < two63 ->
  forall clusters start fuel seen s s',
  chain (table_format table) (fat_entry (table_format table) t) start clusters -> NoDup clusters ->
  (forall c, In c clusters -> ~ In c seen) ->
  Forall (fun c => c < number_of_entries table /\ reserved_clear (table_format table) t c /\
    match table_format table with Fat12 => c / 2 * 3 + 3 | Fat16 => c * 2 + 2 | Fat32 => c * 4 + 4 end <= len t /\
    first_cluster_offset table + (c - 2) * cluster_block_size table + cluster_block_size table <= len volume) clusters ->
  (length clusters < fuel)%nat ->
  tail_free (records_in volume (first_cluster_offset table) (cluster_block_size table) clusters) ->
  run_steps mappings s (records_in volume (first_cluster_offset table) (cluster_block_size table) clusters) = Ok s' ->
  dir_walk fuel mappings volume table seen start s = Ok s'.
Proof.
  intros (W & V & Et & Ht & Hc & Hm) Hf. induction clusters as [|c clusters IH]; intros start [|fuel] seen s s' Hch Hn Hs Ha Hl Hz Hr;
    cbn [length] in Hl; try lia; cbn [dir_walk].
  - inversion Hch as [? He|]; subst. cbn [records_in flat_map run_steps] in Hr.
    destruct ((2 <=? start) && (start <? largest_cluster_block_number (table_format table))) eqn:E; [|exact Hr].
    apply andb_true_iff in E as [_ E]. apply N.ltb_lt in E. exfalso. unfold end_of_chain in He.
    destruct (table_format table); cbn [largest_cluster_block_number] in E; lia.
  - inversion Hch as [|? ? Hd Hch']; subst. inversion Ha as [|? ? (A1 & A2 & A3 & A4) Ha']; subst.
    inversion Hn as [|? ? Hn1 Hn2]; subst.
    assert (E : (2 <=? c) && (c <? largest_cluster_block_number (table_format table)) = true).
    { unfold data_cluster in Hd. apply andb_true_iff. rewrite N.leb_le, N.ltb_lt.
      destruct (table_format table); cbn [largest_cluster_block_number]; lia. }
    rewrite E. destruct (existsb (N.eqb c) seen) eqn:Es.
    { apply existsb_exists in Es as (x & Hx & Ex). apply N.eqb_eq in Ex. subst. exfalso. apply (Hs x); [now left|exact Hx]. }
    unfold mul_chk. destruct (N.ltb_spec ((c - 2) * cluster_block_size table) two64);
      [|clear - A4 V H; unfold two63, two64 in *; exfalso; generalize dependent ((c - 2) * cluster_block_size table); lia]. cbn [bind].
    unfold add_chk. destruct (N.ltb_spec (first_cluster_offset table + (c - 2) * cluster_block_size table) two64);
      [|clear - A4 V H0; unfold two63, two64 in *; exfalso; generalize dependent ((c - 2) * cluster_block_size table); lia]. cbn [bind].
    unfold read_exact_at. destruct (N.leb_spec (first_cluster_offset table + (c - 2) * cluster_block_size table + cluster_block_size table) (len volume)); [|lia].
    cbn [bind]. unfold records_in in Hz, Hr. cbn [flat_map] in Hz, Hr. apply tail_free_app in Hz as [Hz1 Hz2].
    rewrite run_steps_app in Hr. apply bind_Ok_inv in Hr as (s1 & Hr1 & Hr2).
    rewrite (read_block mappings volume _ _ s s1) by assumption. cbn [bind].
    rewrite (read_entry_slot volume table t c); trivial; [|unfold two63, two64 in *; lia].
    rewrite reserved_clear_entry by assumption. cbn [bind].
    apply IH; trivial; [|lia]. intros x Hx [<-|Hx2]; [contradiction|]. apply (Hs x); [now right|exact Hx2].
Qed.
Lemma read_clusters_ok mappings volume table t start items : ascii_case mappings -> volume_ok volume table t ->
  directory mappings volume table t start items ->
  exists s, dir_read_clusters mappings volume table start = Ok s /\ listing mappings s items.
Proof.
  intros Hm Hv (Hd & clusters & (Hch & Hn & Ha) & Hh).
  assert (Hf : clusters = [] \/ first_cluster_offset table < two63).
  { destruct clusters as [|c cl]; [now left|]. right. inversion Ha as [|? ? (_ & _ & _ & A) _]; subst. destruct Hv as (_ & V & _).
    generalize dependent ((c - 2) * cluster_block_size table). intros. lia. }
  assert (Hr : Forall rec_ok (records_in volume (first_cluster_offset table) (cluster_block_size table) clusters)).
  { unfold records_in. apply Forall_flat_map. eapply Forall_impl; [|exact Ha]. intros c (_ & _ & _ & A).
    destruct Hv as (W & V & _ & _ & _ & M). pose proof (N.div_mod (cluster_block_size table) 32 ltac:(lia)) as D.
    rewrite M, N.add_0_r in D. rewrite D. apply records_ok; trivial. rewrite <- D. exact A. }
  destruct (steps_holds mappings Hm _ items Hh Hr Hd) as (s & Hs & L). exists s. split; [|exact L].
  assert (Hlen : (length clusters < N.to_nat (number_of_entries table) + 2)%nat).
  { assert (L' : (length clusters <= N.to_nat (number_of_entries table))%nat).
    { rewrite <- (seqN_length 0 (N.to_nat (number_of_entries table))).
      apply NoDup_incl_length; [assumption|]. intros x Hx. apply in_seqN. rewrite Forall_forall in Ha. apply Ha in Hx. lia. }
    lia. }
  destruct Hf as [->|Hf].
  - cbn in Hs. inversion Hs; subst. unfold dir_read_clusters. rewrite Nat.add_comm. cbn [Nat.add dir_walk].
    inversion Hch as [? He|]; subst.
    destruct ((2 <=? start) && (start <? largest_cluster_block_number (table_format table))) eqn:E; [|reflexivity].
    apply andb_true_iff in E as [_ E]. apply N.ltb_lt in E. exfalso. unfold end_of_chain in He.
    destruct (table_format table); cbn [largest_cluster_block_number] in E; lia.
  - unfold dir_read_clusters. eapply (walk_chain mappings volume table t Hv Hf clusters); trivial.
    + intros c _ [].
    + eapply tail_free_holds; exact Hh.
Qed.
Lemma read_fixed_ok mappings volume offset size items : ascii_case mappings -> wf_bytes volume -> len volume < two63 ->
  fixed_directory mappings volume offset size items ->
  exists s, dir_read_position mappings volume size offset = Ok s /\ listing mappings s items.
Proof.
  intros Hm W V (Hd & Ho & M & Hz & Hh). pose proof (N.div_mod size 32 ltac:(lia)) as D. rewrite M, N.add_0_r in D.
  assert (Hr : Forall rec_ok (records_at volume offset size)).
  { rewrite D. apply records_ok; trivial. rewrite <- D. exact Ho. }
  destruct (steps_holds mappings Hm _ items Hh Hr Hd) as (s & Hs & L). exists s. split; [|exact L].
  unfold dir_read_position. destruct (N.leb_spec 32 size), (N.leb_spec size 2097152); try lia. cbn [andb check bind].
  unfold read_exact_at. destruct (N.leb_spec (offset + size) (len volume)); [|lia]. cbn [bind].
  apply read_block; trivial. eapply tail_free_holds; exact Hh.
Qed.

(** ** File entries *)
Lemma case_mapping_ascii : ascii_case case_mapping.
Proof.
  intros c H. assert (A : forallb (fun c => match case_mapping c, (if (97 <=? c) && (c <=? 122) then Some (c - 32) else None) with
    | Some a, Some b => a =? b | None, None => true | _, _ => false end) (seqN 0 128) = true) by (vm_compute; reflexivity).
  rewrite forallb_forall in A. specialize (A c ltac:(apply in_seqN; lia)). revert A.
  destruct (case_mapping c) as [a|], (if (97 <=? c) && (c <=? 122) then Some (c - 32) else None) as [b|];
    try discriminate; [|reflexivity]. intros A. apply N.eqb_eq in A. now subst.
Qed.
Lemma directory_flag f : file_ok f -> ff_is_directory (ff_of (entry_of f)) = is_directory (fl_short f).
Proof.
  intros ((_ & A & _) & L & _). unfold ff_is_directory. cbn [ff_of ff_entry].
  change (fs_attributes (de_short (entry_of f))) with (attributes (fl_short f)). rewrite mask_directory, L by assumption.
  unfold is_directory. now rewrite andb_true_r.
Qed.
Lemma entry_cluster (format : fat_format) f : start_cluster format (fl_short f) < 65536 ->
  fs_cluster (de_short (entry_of f)) = start_cluster format (fl_short f).
Proof.
  intros H. change (fs_cluster (de_short (entry_of f))) with (field (snd (fl_short f)) 26 2). unfold start_cluster in *.
  destruct format; lia.
Qed.
Lemma named_ok mappings items name f : Forall item_ok items -> named mappings items name = Some f -> file_ok f.
Proof.
  intros H E. unfold named in E. apply find_some in E as [E _]. unfold files in E. apply in_flat_map in E as (i & Hi & E).
  rewrite Forall_forall in H. specialize (H i Hi). destruct i; cbn [In] in E; try contradiction. destruct E as [->|[]]. exact H.
Qed.
Lemma files_ok items f : Forall item_ok items -> In f (files items) -> file_ok f.
Proof.
  intros H E. unfold files in E. apply in_flat_map in E as (i & Hi & E).
  rewrite Forall_forall in H. specialize (H i Hi). destruct i; cbn [In] in E; try contradiction. destruct E as [->|[]]. exact H.
Qed.
Section Listed.
  Variables (volume : list N) (table : fat_table) (f : fat_file) (s : dir_state) (items : list item).
  Hypothesis He : ff_entries case_mapping volume table f = Ok s.
  Hypothesis Hl : listing case_mapping s items.
  Hypothesis Hd : distinct_names case_mapping items.
  Lemma listed_count : ff_count case_mapping volume table f = Ok (len (files items)).
  Proof.
    unfold ff_count. rewrite He. cbn [bind]. unfold dir_count, len. destruct Hl as (_ & P & _).
    apply Permutation_length in P. rewrite map_length in P. now rewrite P.
  Qed.
  Lemma listed_name name : ff_by_name case_mapping volume table f (Ucs2Name name) =
    Ok (option_map (fun x => ff_of (entry_of x)) (named case_mapping items name)).
  Proof.
    unfold ff_by_name. rewrite He. cbn [bind dir_by_name string_lookup_name]. unfold dir_by_name, string_lookup_name. cbn [bind].
    change (ucs2_case_folding name case_mapping) with (upper case_mapping name).
    rewrite (listing_find case_mapping s items name Hl Hd). destruct (named case_mapping items name); reflexivity.
  Qed.
  Lemma listed_order : exists order, Permutation order (files items) /\ StronglySorted (before case_mapping) order /\
    forall i, ff_by_index case_mapping volume table f i =
      match nth_error order (N.to_nat i) with Some x => Ok (ff_of (entry_of x)) | None => Err end.
  Proof.
    destruct Hl as (S & P & _). apply Permutation_map_inv in P as (order & E & P). exists order.
    split; [now symmetry|]. split.
    - clear - S E. rewrite E in S. clear E. induction order as [|x order IH]; [constructor|]. cbn [map] in S.
      inversion S as [|? ? S1 S2]; subst. constructor; [auto|]. rewrite Forall_map in S2. exact S2.
    - intros i. unfold ff_by_index. rewrite He. cbn [bind]. unfold dir_by_index. rewrite E, nth_error_map.
      destruct (nth_error order (N.to_nat i)); reflexivity.
  Qed.
End Listed.

Lemma entries_of_directory volume table t f items : volume_ok volume table t -> file_ok f ->
  is_directory (fl_short f) = true -> start_cluster (table_format table) (fl_short f) < 65536 ->
  directory case_mapping volume table t (start_cluster (table_format table) (fl_short f)) items ->
  exists s, ff_entries case_mapping volume table (ff_of (entry_of f)) = Ok s /\ listing case_mapping s items.
Proof.
  intros Hv Hf Hi Hc Hd. unfold ff_entries. cbn [ff_of ff_sub ff_entry].
  change {| ff_identifier := _; ff_entry := _; ff_sub := _ |} with (ff_of (entry_of f)).
  rewrite directory_flag, Hi by assumption. cbn [of_option bind]. rewrite (entry_cluster (table_format table)) by assumption.
  apply (read_clusters_ok case_mapping volume table t); trivial. exact case_mapping_ascii.
Qed.
Lemma entries_of_file volume table f : file_ok f -> is_directory (fl_short f) = false ->
  ff_entries case_mapping volume table (ff_of (entry_of f)) = Ok dir_new.
Proof.
  intros Hf Hi. unfold ff_entries. cbn [ff_of ff_sub ff_entry].
  change {| ff_identifier := _; ff_entry := _; ff_sub := _ |} with (ff_of (entry_of f)).
  now rewrite directory_flag, Hi.
Qed.

(** ** Paths *)
Lemma descend_ok volume table t : volume_ok volume table t -> forall items path through r,
  leads case_mapping volume table t items path through r ->
  Forall (fun d => start_cluster (table_format table) (fl_short d) < 65536) through ->
  forall f s, ff_entries case_mapping volume table f = Ok s -> listing case_mapping s items ->
  distinct_names case_mapping items -> Forall item_ok items ->
  fat_descend case_mapping volume table f (map Ucs2Name path) = Ok (option_map (fun x => ff_of (entry_of x)) r).
Proof.
  intros Hv. induction 1 as [items name path H|items name f H|items name f next path H Hn|items name f sub next path through r H Hi Hd Hl IH];
    intros Hth d s He Hls Hdn Hok; cbn [map fat_descend]; rewrite (listed_name volume table d s items) by assumption;
    rewrite H; cbn [option_map bind].
  - reflexivity.
  - reflexivity.
  - pose proof (named_ok _ _ _ _ Hok H) as Hf.
    unfold ff_by_name. rewrite entries_of_file by assumption. reflexivity.
  - inversion Hth as [|? ? Hc Hth']; subst. pose proof (named_ok _ _ _ _ Hok H) as Hf.
    destruct (entries_of_directory volume table t f sub Hv Hf Hi Hc Hd) as (s' & Es & Ls).
    eapply (IH Hth' (ff_of (entry_of f)) s'); trivial.
    + apply Hd.
    + destruct Hd as (_ & cl & _ & Hh). apply Hh.
Qed.

(** ** Identifiers *)
Section Scan.
  Variables (volume : list N) (short : record) (n : N).
  Hypothesis Hn : n <= 20.
  (** The parts [k], [k] + 1, ... backwards from an offset. *)
  Fixpoint down (k o : N) (ps : list record) : Prop :=
    match ps with
    | [] => True
    | r :: ps => long_part n k short r /\ r = (o, bytes_at volume o 32) /\ o + 32 <= len volume /\
        (ps = [] \/ 32 <= o) /\ down (k + 1) (o - 32) ps
    end.
  Lemma down_snoc ps r : forall k o, 32 * len ps <= o -> down k o ps ->
    long_part n (k + len ps) short r -> r = (o - 32 * len ps, bytes_at volume (o - 32 * len ps) 32) ->
    o - 32 * len ps + 32 <= len volume -> down k o (ps ++ [r]).
  Proof.
    induction ps as [|p ps IH]; intros k o Ho Hd Hp Hr Hv; cbn [app down] in *.
    - assert (E1 : o - 32 * len (@nil record) = o) by (change (len (@nil record)) with 0; lia).
      assert (E2 : k + len (@nil record) = k) by (change (len (@nil record)) with 0; lia). rewrite E1 in Hr, Hv. rewrite E2 in Hp.
      split; [assumption|]. split; [assumption|]. split; [assumption|]. split; [now left|exact I].
    - rewrite len_cons in *. destruct Hd as (D1 & D2 & D3 & D4 & D5). repeat split; trivial.
      + apply D1. + apply D1. + apply D1. + apply D1. + apply D1.
      + right. lia.
      + apply IH; trivial; try lia.
        * replace (k + 1 + len ps) with (k + (len ps + 1)) by lia. exact Hp.
        * replace (o - 32 - 32 * len ps) with (o - 32 * (len ps + 1)) by lia. exact Hr.
  Qed.
  Lemma scan_down first : forall ps k o last pending fuel, (length ps <= fuel)%nat -> ps <> [] -> 1 <= k -> k + len ps = n + 1 ->
    down k o ps -> Forall rec_ok ps -> Forall (fun r => fat_padding (fat_units (snd r)) = true) ps ->
    first + 32 * len ps <= o + 32 -> (last = 0 \/ last + 1 = k) ->
    long_scan fuel volume first o last pending = Ok (pending ++ map long_pair ps).
  Proof.
    induction ps as [|r ps IH]; intros k o last pending [|fuel] Hf Hne Hk Hl Hd Hr Hp Ho Hla; cbn [length] in Hf; try contradiction; try lia.
    rewrite len_cons in *. cbn [down] in Hd. destruct Hd as (D1 & D2 & D3 & D4 & D5).
    inversion Hr as [|? ? Hr1 Hr2]; inversion Hp as [|? ? Hp1 Hp2]; subst r. cbn [long_scan].
    set (r := (o, bytes_at volume o 32)) in *. destruct (N.leb_spec first o); [|lia].
    unfold read_exact_at. destruct (N.leb_spec (o + 32) (len volume)); [|lia]. cbn [bind].
    change (bytes_at volume o 32) with (snd r). destruct D1 as (P0 & P1 & P2 & P3 & P4). unfold attributes in P1.
    rewrite (type_long _ (rec_buffer r Hr1)); [|apply Hr1|assumption..|].
    2: { rewrite P0. destruct (N.eqb_spec k n); lia. }
    cbn [bind]. rewrite long_read by assumption. cbn [bind]. rewrite P0.
    destruct (part_number (fun _ => None) k ltac:(lia)) as (Q1 & Q2 & Q3 & Q4). 
    destruct (N.eqb_spec k n).
    - rewrite Q1, Q2. change (negb (64 =? 0)) with true. cbv iota. destruct ps as [|p ps]; [|rewrite len_cons in Hl; lia].
      cbn [map]. unfold long_pair. rewrite P0. reflexivity.
    - rewrite N.add_0_r, Q3, Q4, N.eqb_refl. cbn [negb].
      assert (E : negb (last =? 0) && negb (last + 1 =? k) = false).
      { destruct Hla as [-> | ->]; [reflexivity|]. rewrite N.eqb_refl. apply andb_false_r. }
      rewrite E. destruct D4 as [->|D4]; [rewrite len_nil in Hl; lia|].
      unfold sub_chk. destruct (N.leb_spec 32 o); [|lia]. cbn [bind].
      rewrite (IH (k + 1)); trivial; try lia.
      + cbn [map]. rewrite <- app_assoc. unfold long_pair. rewrite P0, N.add_0_r. reflexivity.
      + intros ->. rewrite len_nil in Hl. lia.
  Qed.
  Lemma parts_down parts : forall k o, N.of_nat k = len parts -> 32 * len parts <= o ->
    long_parts n k short parts -> parts = records_at volume (o - 32 * len parts) (32 * len parts) ->
    o + 32 <= len volume -> down 1 (o - 32) (rev parts).
  Proof.
    induction parts as [|r parts IH]; intros k o Hk Ho Hp E Hv; [exact I|]. rewrite len_cons in *.
    destruct k as [|k]; [lia|]. cbn [long_parts] in Hp. destruct Hp as [Hp1 Hp2].
    unfold records_at in E. rewrite N.mul_comm, N.div_mul in E by lia.
    replace (N.to_nat (len parts + 1)) with (S (N.to_nat (len parts))) in E by lia.
    change (seqN 0 (S (N.to_nat (len parts)))) with (0 :: seqN (0 + 1) (N.to_nat (len parts))) in E. cbn [map] in E.
    pose proof (f_equal (hd r) E) as Er. pose proof (f_equal (@tl _) E) as Ep. cbn [hd tl] in Er, Ep. rewrite N.mul_0_r, N.add_0_r in Er.
    cbn [rev]. apply down_snoc.
    - unfold len. rewrite rev_length. fold (len parts). lia.
    - apply (IH k); trivial; try lia. rewrite Ep at 1. unfold records_at. replace (32 * len parts / 32) with (len parts) by (rewrite N.mul_comm, N.div_mul; lia).
      assert (M : forall m j, map (fun i => (o - (len parts + 1) * 32 + 32 * i, bytes_at volume (o - (len parts + 1) * 32 + 32 * i) 32)) (seqN (j + 1) m)
        = map (fun i => (o - 32 * len parts + 32 * i, bytes_at volume (o - 32 * len parts + 32 * i) 32)) (seqN j m)).
      { induction m as [|m IHm]; intros j; [reflexivity|]. change (seqN (j + 1) (S m)) with (j + 1 :: seqN (j + 1 + 1) m).
        change (seqN j (S m)) with (j :: seqN (j + 1) m). cbn [map]. rewrite IHm.
        replace (o - (len parts + 1) * 32 + 32 * (j + 1)) with (o - 32 * len parts + 32 * j) by lia. reflexivity. }
      apply (M _ 0).
    - unfold len. rewrite rev_length. fold (len parts). replace (1 + len parts) with (N.of_nat (S k)) by lia. exact Hp1.
    - unfold len. rewrite rev_length. fold (len parts). rewrite Er.
      replace (o - (len parts + 1) * 32) with (o - 32 - 32 * len parts) by lia. reflexivity.
    - unfold len. rewrite rev_length. fold (len parts). unfold len in *. lia.
  Qed.
End Scan.

(** ** Nothing panics *)
Lemma record_no_panic mappings d o s : buffer d -> len d = 32 -> dir_record mappings d o s <> Panic.
Proof.
  intros Hb L. unfold dir_record.
  assert (T : exists t, entry_type_read d = Ok t).
  { unfold entry_type_read. rewrite (idx_at _ Hb), !slice_at by lia. cbn [bind].
    destruct (byte d 0 =? 0xe5); [eauto|]. destruct (same (bytes_at d 11 (13 - 11)) [15; 0]); cbn [bind];
      (destruct (_ && _); [eauto|]; destruct (same (bytes_at d 0 (32 - 0)) (repeat 0 32)); eauto). }
  destruct T as [t ->]. cbn [bind]. destruct t; try discriminate.
  - pose proof (fat_long_entry_answers d Hb) as A. destruct (fat_long_entry_read d) as [[sq nm]| |]; cbn [bind]; [|discriminate|contradiction].
    destruct (negb _); cbn [bind]; [discriminate|]. destruct (negb _); discriminate.
  - rewrite (fat_short_entry_ok' d Hb I). destruct (N.leb_spec 32 (len d)); [|lia]. cbn [bind].
    destruct (_ =? 8); [discriminate|]. destruct (same _ _ || _); discriminate.
Qed.
Lemma read_data_no_panic mappings : forall fuel data o s, wf_bytes data -> o + len data + 32 < two64 -> (length data < fuel)%nat ->
  dir_read_data fuel mappings data o s <> Panic.
Proof.
  induction fuel as [|fuel IH]; intros data o s W Ho Hf; [lia|]. cbn [dir_read_data].
  destruct (N.eqb_spec (len data) 0); [discriminate|]. destruct (N.leb_spec 32 (len data)); [|discriminate]. cbn [check bind].
  assert (L : len (firstn 32 data) = 32) by (unfold len in *; rewrite firstn_length; lia).
  assert (Hb : buffer (firstn 32 data)). { split; [apply wf_bytes_firstn; exact W|]. rewrite L. reflexivity. }
  pose proof (record_no_panic mappings (firstn 32 data) o s Hb L) as R.
  destruct (dir_record mappings (firstn 32 data) o s) as [[s'|]| |]; cbn [bind]; try discriminate; [|contradiction].
  unfold add_chk. destruct (N.ltb_spec (o + 32) two64); [|lia]. cbn [bind]. apply IH.
  - apply wf_bytes_skipn. exact W.
  - unfold len in *. rewrite skipn_length. lia.
  - rewrite skipn_length. unfold len in *. lia.
Qed.
Lemma dir_walk_no_panic mappings volume table : wf_bytes volume -> len volume < two63 ->
  table_offset table < two63 -> first_cluster_offset table < two63 -> cluster_block_size table < two32 ->
  forall fuel seen c s, NoDup seen -> (forall x, In x seen -> x < number_of_entries table) ->
  (N.to_nat (number_of_entries table) + 1 < fuel + length seen)%nat ->
  dir_walk fuel mappings volume table seen c s <> Panic.
Proof.
  intros W V H1 H2 H3. induction fuel as [|fuel IH]; intros seen c s Hnd Hb Hm.
  - exfalso. assert (L : (length seen <= N.to_nat (number_of_entries table))%nat).
    { rewrite <- (seqN_length 0 (N.to_nat (number_of_entries table))).
      apply NoDup_incl_length; [assumption|]. intros x Hx. apply in_seqN. apply Hb in Hx. lia. }
    lia.
  - cbn [dir_walk]. destruct ((2 <=? c) && (c <? largest_cluster_block_number (table_format table))) eqn:E; [|discriminate].
    apply andb_true_iff in E as [E1 E2]. apply N.leb_le in E1. apply N.ltb_lt in E2.
    assert (Hc : c < 2 ^ 28) by (destruct (table_format table); cbn [largest_cluster_block_number] in E2; lia).
    destruct (existsb (N.eqb c) seen) eqn:Es; [discriminate|].
    assert (Hp : (c - 2) * cluster_block_size table < 2 ^ 60).
    { apply N.le_lt_trans with ((c - 2) * 2 ^ 32); [apply N.mul_le_mono_l; unfold two32 in H3; lia|].
      change (2 ^ 60) with (2 ^ 28 * 2 ^ 32). apply N.mul_lt_mono_pos_r; lia. }
    unfold mul_chk. set (p := (c - 2) * cluster_block_size table) in *. clearbody p.
    destruct (N.ltb_spec p two64); [|unfold two64 in *; lia]. cbn [bind]. unfold add_chk.
    destruct (N.ltb_spec (first_cluster_offset table + p) two64); [|unfold two63, two64 in *; lia]. cbn [bind].
    unfold read_exact_at. destruct (N.leb_spec (first_cluster_offset table + p + cluster_block_size table) (len volume)); [|discriminate]. cbn [bind].
    assert (D : dir_read mappings (bytes_at volume (first_cluster_offset table + p) (cluster_block_size table)) (first_cluster_offset table + p) s <> Panic).
    { unfold dir_read. apply read_data_no_panic; [now apply wf_bytes_at| |lia]. rewrite len_bytes_at. unfold two63, two64 in *. lia. }
    destruct (dir_read _ _ _ _) as [s'| |] eqn:Ed; cbn [bind]; [|discriminate|congruence].
    assert (Hr : read_entry volume table c <> Panic).
    { apply read_entry_no_panic; trivial; unfold two63, two64, two32 in *; lia. }
    destruct (read_entry volume table c) as [next| |] eqn:En; cbn [bind]; [|discriminate|congruence].
    assert (Hlt : c < number_of_entries table).
    { unfold read_entry in En. destruct (N.ltb_spec c (number_of_entries table)); [assumption|discriminate]. }
    apply IH.
    + constructor; [|assumption]. intros X. assert (existsb (N.eqb c) seen = true) as Y; [|congruence].
      apply existsb_exists. exists c. split; [assumption|apply N.eqb_refl].
    + intros x [<-|Hx]; [assumption|now apply Hb].
    + cbn [length]. lia.
Qed.
