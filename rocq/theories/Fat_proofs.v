From Verif Require Import Base BaseLemmas Bytes_model Streams_model Streams_spec Streams_proofs
  BlockTree_model BlockTree_spec BlockTree_proofs Blocks_model Blocks_proofs Fat_model Fat_spec.
Ltac Zify.zify_post_hook ::= idtac.

(** ** Entries *)
Lemma pow2_8 n : 2 ^ (8 * n) = 256 ^ n.
Proof. rewrite N.pow_mul_r. reflexivity. Qed.

Lemma wf_bytes_at l o n : wf_bytes l -> wf_bytes (bytes_at l o n).
Proof.
  intros H. unfold bytes_at, wf_bytes in *. rewrite Forall_forall in *. intros x Hx. apply H.
  assert (In x (skipn (N.to_nat o) l)).
  { rewrite <- (firstn_skipn (N.to_nat n)). apply in_or_app. now left. }
  rewrite <- (firstn_skipn (N.to_nat o)). apply in_or_app. now right.
Qed.

Lemma bits_at_bytes t p q c n :
  wf_bytes t -> p + n <= len t -> q + c <= 8 * n ->
  bits_at t (8 * p + q) c = le_value (bytes_at t p n) / 2 ^ q mod 2 ^ c.
Proof.
  intros Hw Hp Hq. unfold bits_at.
  set (A := firstn (N.to_nat p) t). set (B := bytes_at t p n). set (C := skipn (N.to_nat n) (skipn (N.to_nat p) t)).
  assert (E : t = A ++ B ++ C).
  { unfold A, B, C, bytes_at. now rewrite firstn_skipn, firstn_skipn. }
  assert (LA : len A = p) by (unfold A, len in *; rewrite firstn_length; lia).
  assert (LB : len B = n) by (unfold B; rewrite len_bytes_at; lia).
  assert (BA : le_value A < 256 ^ p).
  { rewrite <- LA. apply le_value_bound. unfold wf_bytes in *. rewrite E, Forall_app in Hw. apply Hw. }
  rewrite E at 1. rewrite !le_value_app, LA, LB.
  rewrite N.pow_add_r, <- N.div_div, pow2_8 by (apply N.pow_nonzero; lia).
  rewrite (N.add_comm (le_value A)), N.mul_comm, N.div_add_l by (apply N.pow_nonzero; lia).
  rewrite (N.div_small (le_value A)) by assumption. rewrite N.add_0_r.
  rewrite <- pow2_8. replace (8 * n) with (q + (c + (8 * n - q - c))) by lia.
  rewrite !N.pow_add_r.
  replace (le_value B + 2 ^ q * (2 ^ c * 2 ^ (8 * n - q - c)) * le_value C)
    with (le_value B + (2 ^ (8 * n - q - c) * le_value C * 2 ^ c) * 2 ^ q) by lia.
  rewrite N.div_add by (apply N.pow_nonzero; lia).
  rewrite N.mod_add by (apply N.pow_nonzero; lia). reflexivity.
Qed.

Definition entry_end (f : fat_format) (i : N) : N :=
  match f with Fat12 => i / 2 * 3 + 3 | Fat16 => i * 2 + 2 | Fat32 => i * 4 + 4 end.

Lemma u_le_bytes_at n l o m e : e + n <= m -> o + m <= len l -> e + n < two64 ->
  bytes_to_uint_le n (bytes_at l o m) e = Ok (le_value (bytes_at l (o + e) n)).
Proof.
  intros H1 H2 H3. unfold bytes_to_uint_le, add_chk. destruct (N.ltb_spec (e + n) two64); [|lia].
  cbn [bind]. rewrite slice_ok by (rewrite ?len_bytes_at; lia). cbn [bind]. do 2 f_equal.
  fold (bytes_at (bytes_at l o m) e (e + n - e)).
  replace (e + n - e) with n by lia. apply bytes_at_bytes_at. lia.
Qed.

(** The value read, all bits of the slot. *)
Lemma read_entry_slot volume table t i :
  wf_bytes volume -> t = bytes_at volume (table_offset table) (len t) ->
  i < number_of_entries table -> entry_end (table_format table) i <= len t ->
  table_offset table + len t < two64 ->
  read_entry volume table i = Ok (bits_at t (slot_bits (table_format table) * i) (slot_bits (table_format table))).
Proof.
  intros Hw Ht Hi He Ho.
  assert (Hlen : table_offset table + len t <= len volume \/ len t = 0).
  { pose proof (f_equal len Ht) as Hl. rewrite len_bytes_at in Hl. lia. }
  assert (Hwt : wf_bytes t) by (rewrite Ht; now apply wf_bytes_at).
  assert (Hsub : forall p n, p + n <= len t -> bytes_at t p n = bytes_at volume (table_offset table + p) n).
  { intros p n Hp. rewrite Ht at 1. apply bytes_at_bytes_at. lia. }
  unfold read_entry. destruct (N.ltb_spec i (number_of_entries table)); [|lia]. cbn [check bind].
  destruct (table_format table); cbn [slot_bits entry_end] in *.
  - unfold add_chk. set (j := i / 2) in *. destruct (N.ltb_spec (table_offset table + j * 3) two64); [|lia].
    cbn [bind]. unfold read_exact_at. destruct (N.leb_spec (table_offset table + j * 3 + 3) (len volume)); [|lia].
    cbn [bind]. pose proof (N.div_mod i 2 ltac:(lia)) as Ei. fold j in Ei.
    pose proof (N.mod_lt i 2 ltac:(lia)) as Lm. set (m := i mod 2) in *. clearbody m j.
    destruct (N.eqb_spec m 0) as [Em|Em].
    + unfold u16_le. rewrite u_le_bytes_at by (unfold two64; lia). cbn [bind].
      change 0x0fff with (N.ones 12). rewrite N.land_ones, N.add_0_r.
      replace (12 * i) with (8 * (j * 3) + 0) by lia.
      rewrite (bits_at_bytes t (j * 3) 0 12 2) by (try assumption; lia).
      rewrite Hsub by lia. rewrite N.pow_0_r, N.div_1_r. reflexivity.
    + unfold u16_le. rewrite u_le_bytes_at by (unfold two64; lia). cbn [bind].
      rewrite N.shiftr_div_pow2.
      replace (12 * i) with (8 * (j * 3 + 1) + 4) by lia.
      rewrite (bits_at_bytes t (j * 3 + 1) 4 12 2) by (try assumption; lia).
      rewrite Hsub by lia. rewrite N.add_assoc. f_equal. symmetry. apply N.mod_small.
      assert (B : le_value (bytes_at volume (table_offset table + j * 3 + 1) 2) < 256 ^ 2).
      { eapply N.lt_le_trans; [apply le_value_bound, wf_bytes_at, Hw|]. rewrite len_bytes_at.
        apply N.pow_le_mono_r; lia. }
      apply N.div_lt_upper_bound; [lia|]. exact B.
  - unfold add_chk. destruct (N.ltb_spec (table_offset table + i * 2) two64); [|lia].
    cbn [bind]. unfold read_exact_at. destruct (N.leb_spec (table_offset table + i * 2 + 2) (len volume)); [|lia].
    cbn [bind]. unfold u16_le. rewrite u_le_bytes_at by (unfold two64; lia).
    replace (16 * i) with (8 * (i * 2) + 0) by lia.
    rewrite (bits_at_bytes t (i * 2) 0 16 2) by (try assumption; lia).
    rewrite Hsub by lia. rewrite N.pow_0_r, N.div_1_r, N.add_0_r. f_equal. symmetry. apply N.mod_small.
    eapply N.lt_le_trans; [apply le_value_bound, wf_bytes_at, Hw|]. rewrite len_bytes_at.
    change (2 ^ 16) with (256 ^ 2). apply N.pow_le_mono_r; lia.
  - unfold add_chk. destruct (N.ltb_spec (table_offset table + i * 4) two64); [|lia].
    cbn [bind]. unfold read_exact_at. destruct (N.leb_spec (table_offset table + i * 4 + 4) (len volume)); [|lia].
    cbn [bind]. unfold u32_le. rewrite u_le_bytes_at by (unfold two64; lia).
    replace (32 * i) with (8 * (i * 4) + 0) by lia.
    rewrite (bits_at_bytes t (i * 4) 0 32 4) by (try assumption; lia).
    rewrite Hsub by lia. rewrite N.pow_0_r, N.div_1_r, N.add_0_r. f_equal. symmetry. apply N.mod_small.
    eapply N.lt_le_trans; [apply le_value_bound, wf_bytes_at, Hw|]. rewrite len_bytes_at.
    change (2 ^ 32) with (256 ^ 4). apply N.pow_le_mono_r; lia.
Qed.

Lemma reserved_clear_entry f t i : reserved_clear f t i ->
  bits_at t (slot_bits f * i) (slot_bits f) = fat_entry f t i.
Proof.
  unfold reserved_clear, fat_entry, bits_at. intros H.
  rewrite <- (N.mod_small _ _ H) at 1. set (x := le_value t / _). clearbody x.
  destruct f; cbn [slot_bits value_bits]; [apply N.mod_mod; lia|apply N.mod_mod; lia|].
  change (2 ^ 32) with (2 ^ 28 * 16). rewrite N.mod_mul_r by lia.
  rewrite N.mul_comm, N.mod_add by lia. apply N.mod_mod. lia.
Qed.
Lemma reserved_clear_12_16 f t i : f <> Fat32 -> reserved_clear f t i.
Proof.
  intros Hf. unfold reserved_clear, bits_at.
  destruct f; [| |congruence]; cbn [slot_bits value_bits]; apply N.mod_lt; lia.
Qed.

Lemma read_entry_no_panic volume table i :
  table_offset table < two63 -> i < two32 -> len volume < two64 -> read_entry volume table i <> Panic.
Proof.
  intros Ho Hi Hv. unfold read_entry. destruct (i <? number_of_entries table); [|discriminate].
  cbn [check bind]. pose proof (N.div_le_upper_bound i 2 i ltac:(lia) ltac:(lia)) as Hd.
  assert (B : forall x, x <= i * 4 -> table_offset table + x < two64) by (unfold two63, two32, two64 in *; lia).
  destruct (table_format table); unfold add_chk.
  - destruct (N.ltb_spec (table_offset table + i / 2 * 3) two64); [|match goal with H : two64 <= table_offset table + ?x |- _ => pose proof (B x); lia end]. cbn [bind].
    unfold read_exact_at. destruct (N.leb_spec (table_offset table + i / 2 * 3 + 3) (len volume)); cbn [bind]; [|discriminate].
    cbn [bind]. destruct (i mod 2 =? 0); unfold u16_le; rewrite u_le_bytes_at by (unfold two64 in *; lia); cbn [bind]; discriminate.
  - destruct (N.ltb_spec (table_offset table + i * 2) two64); [|match goal with H : two64 <= table_offset table + ?x |- _ => pose proof (B x); lia end]. cbn [bind].
    unfold read_exact_at. destruct (N.leb_spec (table_offset table + i * 2 + 2) (len volume)); cbn [bind]; [|discriminate].
    unfold u16_le; rewrite u_le_bytes_at by (unfold two64 in *; lia); discriminate.
  - destruct (N.ltb_spec (table_offset table + i * 4) two64); [|match goal with H : two64 <= table_offset table + ?x |- _ => pose proof (B x); lia end]. cbn [bind].
    unfold read_exact_at. destruct (N.leb_spec (table_offset table + i * 4 + 4) (len volume)); cbn [bind]; [|discriminate].
    unfold u32_le; rewrite u_le_bytes_at by (unfold two64 in *; lia); discriminate.
Qed.

(** ** The walk *)
Inductive raw_chain (volume : list N) (table : fat_table) : N -> list N -> Prop :=
| raw_end c : ~ data_cluster (table_format table) c -> raw_chain volume table c []
| raw_next c c' cs : data_cluster (table_format table) c -> read_entry volume table c = Ok c' ->
    raw_chain volume table c' cs -> raw_chain volume table c (c :: cs).

Definition fat_range_of (table : fat_table) (bs o c : N) : fat_range :=
  {| logical_offset := o;
     physical_offset := first_cluster_offset table + (c - 2) * cluster_block_size table;
     fr_size := bs |}.
Fixpoint fat_ranges (table : fat_table) (bs o : N) (cs : list N) : list (N * fat_range) :=
  match cs with
  | [] => []
  | c :: cs => (bs, fat_range_of table bs o c) :: fat_ranges table bs (o + bs) cs
  end.

Lemma in_cluster_range f c :
  (2 <=? c) && (c <? largest_cluster_block_number f) = true <-> data_cluster f c.
Proof. unfold data_cluster, largest_cluster_block_number. destruct f; lia. Qed.

Lemma data_cluster_small f c : data_cluster f c -> c < two32.
Proof. unfold data_cluster, two32. destruct f; lia. Qed.

Lemma existsb_In c l : existsb (N.eqb c) l = true <-> In c l.
Proof.
  rewrite existsb_exists. split.
  - intros (x & H & E). apply N.eqb_eq in E. congruence.
  - intros H. exists c. split; [assumption|]. apply N.eqb_refl.
Qed.

Definition table_ok (table : fat_table) : Prop :=
  table_offset table < two63 /\ first_cluster_offset table < two63 /\ cluster_block_size table < two32.

Lemma physical_ok table c : table_ok table -> data_cluster (table_format table) c ->
  mul_chk two64 (c - 2) (cluster_block_size table) = Ok ((c - 2) * cluster_block_size table) /\
  add_chk two64 (first_cluster_offset table) ((c - 2) * cluster_block_size table) =
    Ok (first_cluster_offset table + (c - 2) * cluster_block_size table).
Proof.
  intros (_ & H1 & H2) Hc.
  assert (B : (c - 2) * cluster_block_size table <= 268435456 * 4294967296).
  { apply N.mul_le_mono; [|unfold two32 in *; lia].
    unfold data_cluster in Hc. destruct (table_format table); lia. }
  unfold mul_chk, add_chk.
  destruct (N.ltb_spec ((c - 2) * cluster_block_size table) two64); [|unfold two63, two64 in *; lia].
  destruct (N.ltb_spec (first_cluster_offset table + (c - 2) * cluster_block_size table) two64); [|unfold two63, two64 in *; lia].
  auto.
Qed.

Lemma add_chk_Ok m a b v : add_chk m a b = Ok v -> v = a + b.
Proof. unfold add_chk. destruct (a + b <? m); congruence. Qed.

Lemma walk_Ok volume table bs : table_ok table -> forall fuel seen c o t t',
  fat_walk fuel volume table bs seen c o t = Ok t' ->
  exists cs, raw_chain volume table c cs /\ NoDup cs /\ (forall x, In x cs -> ~ In x seen) /\
    insert_ranges t (consecutive o (fat_ranges table bs o cs)) = Ok t'.
Proof.
  intros Ht. induction fuel as [|fuel IH]; intros seen c o t t' H; [discriminate|].
  cbn [fat_walk] in H.
  destruct ((2 <=? c) && (c <? largest_cluster_block_number (table_format table))) eqn:Ec.
  - apply in_cluster_range in Ec. destruct (existsb (N.eqb c) seen) eqn:Es; [discriminate|].
    destruct (physical_ok table c Ht Ec) as [E1 E2]. rewrite E1 in H. cbn [bind] in H. rewrite E2 in H.
    cbn [bind] in H.
    destruct (bt_insert t o bs _) as [t1 [[]| |]] eqn:Ei; try discriminate.
    destruct (add_chk two64 o bs) as [o'| |] eqn:Eo; try discriminate. apply add_chk_Ok in Eo. subst o'.
    cbn [bind] in H. destruct (read_entry volume table c) as [c'| |] eqn:Er; try discriminate.
    cbn [bind] in H. apply IH in H as (cs & H1 & H2 & H3 & H4).
    exists (c :: cs). split; [econstructor; eassumption|]. split.
    { constructor; [|assumption]. intros Hin. apply (H3 c Hin). now left. }
    split.
    { intros x [<-|Hx] Hin; [|apply (H3 x Hx); now right].
      apply existsb_In in Hin. congruence. }
    cbn [fat_ranges consecutive insert_ranges]. unfold fat_range_of at 1. rewrite Ei. exact H4.
  - injection H as <-. exists []. split; [|split; [constructor|split; [intros x []|reflexivity]]].
    constructor. rewrite <- in_cluster_range. congruence.
Qed.

Lemma raw_below volume table c cs : raw_chain volume table c cs ->
  forall x, In x cs -> x < number_of_entries table.
Proof.
  induction 1 as [|c c' cs H1 H2 H3 IH]; intros x Hx; [destruct Hx|].
  destruct Hx as [<-|Hx]; [|auto]. unfold read_entry in H2.
  destruct (N.ltb_spec c (number_of_entries table)); [assumption|discriminate].
Qed.

Lemma walk_complete volume table bs : table_ok table -> forall c cs, raw_chain volume table c cs ->
  forall fuel seen o t t', NoDup cs -> (forall x, In x cs -> ~ In x seen) ->
  insert_ranges t (consecutive o (fat_ranges table bs o cs)) = Ok t' ->
  o + N.of_nat (length cs) * bs < two64 -> (length cs < fuel)%nat ->
  fat_walk fuel volume table bs seen c o t = Ok t'.
Proof.
  intros Ht. induction 1 as [c Hc|c c' cs Hc Hr _ IH]; intros fuel seen o t t' Hnd Hs Hi Ho Hf;
    (destruct fuel as [|fuel]; [cbn [length] in Hf; lia|]); cbn [fat_walk].
  - destruct ((2 <=? c) && (c <? largest_cluster_block_number (table_format table))) eqn:Ec.
    + apply in_cluster_range in Ec. contradiction.
    + exact Hi.
  - destruct ((2 <=? c) && (c <? largest_cluster_block_number (table_format table))) eqn:Ec.
    2: { apply in_cluster_range in Hc. congruence. }
    destruct (existsb (N.eqb c) seen) eqn:Es.
    { apply existsb_In in Es. exfalso. apply (Hs c); [now left|assumption]. }
    destruct (physical_ok table c Ht Hc) as [E1 E2]. rewrite E1. cbn [bind]. rewrite E2. cbn [bind].
    cbn [fat_ranges consecutive insert_ranges] in Hi. unfold fat_range_of at 1 in Hi.
    destruct (bt_insert t o bs _) as [t1 [[]| |]]; try discriminate.
    cbn [length] in Ho, Hf. unfold add_chk. destruct (N.ltb_spec (o + bs) two64); [|lia]. cbn [bind].
    rewrite Hr. cbn [bind]. inversion Hnd as [|? ? Hn1 Hn2]. subst. apply IH; auto; [|lia|lia].
    intros x Hx [<-|Hin]; [contradiction|]. apply (Hs x); [now right|assumption].
Qed.

(** ** No panic *)
Definition flat_tree {V} (d bs : N) (t : block_tree V) : Prop :=
  exists h, flat_geometry d 0 bs h /\ t = fst (bt_inserts (bt_new d 0 bs) h).

Lemma bt_inserts_snoc {V} h : forall (t : block_tree V) o s v,
  bt_inserts t (h ++ [(o, s, v)]) =
  (fst (bt_insert (fst (bt_inserts t h)) o s v),
   snd (bt_inserts t h) ++ [snd (bt_insert (fst (bt_inserts t h)) o s v)]).
Proof.
  induction h as [|[[o0 s0] v0] h IH]; intros t o s v.
  - cbn [app bt_inserts fst snd]. destruct (bt_insert t o s v). reflexivity.
  - cbn [app bt_inserts]. destruct (bt_insert t o0 s0 v0) as [t1 r1]. rewrite IH.
    destruct (bt_inserts t1 h) as [t2 rs]. reflexivity.
Qed.

Lemma flat_tree_new {V} d bs : 0 < bs -> d < two64 -> flat_tree d bs (bt_new (V := V) d 0 bs).
Proof.
  intros H1 H2. exists []. split; [|reflexivity]. unfold flat_geometry.
  split; [assumption|]. split; [assumption|]. split; [unfold two64; lia|]. split; [left; lia|constructor].
Qed.
Lemma flat_tree_insert {V} d bs (t : block_tree V) o s v : flat_tree d bs t -> 0 < s -> o + s < two64 ->
  snd (bt_insert t o s v) <> Panic /\ flat_tree d bs (fst (bt_insert t o s v)).
Proof.
  intros (h & G & ->) Hs Ho.
  assert (G' : flat_geometry d 0 bs (h ++ [(o, s, v)])).
  { destruct G as (G1 & G2 & G3 & G4 & G5). unfold flat_geometry. repeat (split; [assumption|]).
    apply Forall_app. split; [assumption|]. constructor; [auto|constructor]. }
  split.
  - destruct (flat_map_ok _ _ _ _ G') as (t & E & _). rewrite bt_inserts_snoc in E.
    injection E as _ E. intros Hp.
    assert (Q : In (Panic : res unit) (map accepted (snd (spec_inserts d bs nothing (h ++ [(o, s, v)]))))).
    { rewrite <- E. apply in_or_app. right. left. exact Hp. }
    apply in_map_iff in Q as (b & Q & _). destruct b; discriminate.
  - exists (h ++ [(o, s, v)]). split; [assumption|]. now rewrite bt_inserts_snoc.
Qed.

Lemma bt_insert_fields {V} (t : block_tree V) o s v :
  bt_data_size (fst (bt_insert t o s v)) = bt_data_size t.
Proof.
  unfold bt_insert. match goal with |- context [match ?g with Ok _ => _ | _ => _ end] => destruct g end;
    try reflexivity.
  destruct (bt_node_insert _ _ _ _ _ _ _). reflexivity.
Qed.
Lemma bt_insert_inside {V} (t : block_tree V) o s v :
  snd (bt_insert t o s v) = Ok tt -> o + s <= bt_data_size t.
Proof.
  unfold bt_insert. unfold add_chk. destruct (N.ltb_spec (o + s) two64); [|discriminate]. cbn [bind].
  destruct (N.leb_spec (o + s) (bt_data_size t)); [auto|discriminate].
Qed.

Lemma walk_no_panic volume table bs d : table_ok table -> 0 < bs -> bs < two32 -> d + bs < two64 ->
  len volume < two64 -> forall fuel seen c o t,
  flat_tree d bs t -> bt_data_size t = d -> o <= d -> NoDup seen ->
  (forall x, In x seen -> x < number_of_entries table) ->
  (N.to_nat (number_of_entries table) + 1 < fuel + length seen)%nat ->
  fat_walk fuel volume table bs seen c o t <> Panic.
Proof.
  intros Ht Hbs Hbs2 Hd Hv. induction fuel as [|fuel IH]; intros seen c o t Hf Hdt Ho Hnd Hb Hm.
  - exfalso. assert (L : (length seen <= N.to_nat (number_of_entries table))%nat).
    { rewrite <- (seqN_length 0 (N.to_nat (number_of_entries table))).
      apply NoDup_incl_length; [assumption|]. intros x Hx. apply in_seqN. apply Hb in Hx. lia. }
    lia.
  - cbn [fat_walk].
    destruct ((2 <=? c) && (c <? largest_cluster_block_number (table_format table))) eqn:Ec; [|discriminate].
    apply in_cluster_range in Ec. destruct (existsb (N.eqb c) seen) eqn:Es; [discriminate|].
    destruct (physical_ok table c Ht Ec) as [E1 E2]. rewrite E1. cbn [bind]. rewrite E2. cbn [bind].
    set (r := {| logical_offset := o; physical_offset := _; fr_size := bs |}).
    destruct (flat_tree_insert d bs t o bs r Hf Hbs ltac:(lia)) as [P1 P2].
    pose proof (bt_insert_inside t o bs r) as P3. pose proof (bt_insert_fields t o bs r) as P4.
    destruct (bt_insert t o bs r) as [t1 [[]| |]]; cbn [fst snd] in *; try congruence; try discriminate.
    specialize (P3 eq_refl). unfold add_chk. destruct (N.ltb_spec (o + bs) two64); [|lia]. cbn [bind].
    pose proof (read_entry_no_panic volume table c) as Hr. destruct Ht as (T1 & T2 & T3).
    destruct (read_entry volume table c) as [c'| |] eqn:Er; cbn [bind]; try discriminate.
    + apply IH; auto; try congruence.
      * constructor; [|assumption]. intros Hin. apply existsb_In in Hin. congruence.
      * intros x [<-|Hx]; [|auto]. unfold read_entry in Er.
        destruct (N.ltb_spec c (number_of_entries table)); [assumption|discriminate].
      * cbn [length]. lia.
    + exfalso. apply Hr; auto. eapply data_cluster_small; eassumption.
Qed.

(** ** Content *)
Lemma fat_ranges_total table bs cs : forall o, total (fat_ranges table bs o cs) = N.of_nat (length cs) * bs.
Proof.
  induction cs as [|c cs IH]; intros o; [reflexivity|].
  cbn [fat_ranges total fold_right fst length]. fold (total (fat_ranges table bs (o + bs) cs)).
  rewrite IH. lia.
Qed.

Definition cluster_content (volume : list N) (fco cs c : N) : list N :=
  bytes_at volume (fco + (c - 2) * cs) cs.

Lemma len_clusters volume fco bs cs :
  Forall (fun c => fco + (c - 2) * bs + bs <= len volume) cs ->
  len (flat_map (cluster_content volume fco bs) cs) = N.of_nat (length cs) * bs.
Proof.
  induction 1 as [|c cs Hc Hcs IH]; [reflexivity|]. cbn [flat_map length]. rewrite len_app, IH.
  unfold cluster_content. rewrite len_bytes_at. lia.
Qed.

Lemma fat_ranges_at volume table bs cs :
  cluster_block_size table = bs ->
  Forall (fun c => first_cluster_offset table + (c - 2) * bs + bs <= len volume) cs ->
  forall base o s v pre, len pre = base ->
  In (o, s, v) (consecutive base (fat_ranges table bs base cs)) ->
  exists c, In c cs /\ s = bs /\ v = fat_range_of table bs o c /\ o + bs <= base + N.of_nat (length cs) * bs /\
    bytes_at (pre ++ flat_map (cluster_content volume (first_cluster_offset table) bs) cs) o bs =
      cluster_content volume (first_cluster_offset table) bs c.
Proof.
  intros Hbs H. induction H as [|c cs Hc Hcs IH]; intros base o s v pre Hp Hin; [destruct Hin|].
  cbn [fat_ranges consecutive] in Hin. destruct Hin as [[= <- <- <-]|Hin].
  - exists c. split; [now left|]. split; [reflexivity|]. split; [reflexivity|].
    cbn [length flat_map]. split; [lia|].
    assert (L : len (cluster_content volume (first_cluster_offset table) bs c) = bs).
    { unfold cluster_content. rewrite len_bytes_at. lia. }
    unfold bytes_at at 1. replace (N.to_nat base) with (length pre) by (unfold len in Hp; lia).
    rewrite skipn_app, skipn_all, Nat.sub_diag. cbn [app skipn].
    replace (N.to_nat bs) with (length (cluster_content volume (first_cluster_offset table) bs c))
      by (unfold len in L; lia).
    rewrite firstn_app, firstn_all, Nat.sub_diag. cbn [firstn]. apply app_nil_r.
  - destruct (IH (base + bs) o s v (pre ++ cluster_content volume (first_cluster_offset table) bs c))
      as (c' & H1 & H2 & H3 & H4 & H5); auto.
    { rewrite len_app. unfold cluster_content. rewrite len_bytes_at. lia. }
    exists c'. split; [now right|]. split; [assumption|]. split; [assumption|]. cbn [length flat_map].
    split; [lia|]. rewrite app_assoc. exact H5.
Qed.

Lemma fat_step_exact volume table bs cs t size :
  0 < bs -> cluster_block_size table = bs ->
  Forall (fun c => first_cluster_offset table + (c - 2) * bs + bs <= len volume) cs ->
  len volume < two64 -> size <= N.of_nat (length cs) * bs ->
  (forall x, x < N.of_nat (length cs) * bs -> exists o s v, bt_get t x = Ok (Some v) /\
      In (o, s, v) (consecutive 0 (fat_ranges table bs 0 cs)) /\ o <= x < o + s) ->
  exact_step (fun _ => True) size (file_content volume (first_cluster_offset table) bs cs size)
    (fat_step volume {| fs_tree := t; fs_size := size |}).
Proof.
  intros Hbs Hcb Hin Hv Hs G u o r _ Ho Hr Hor.
  unfold fat_step. cbn [fs_tree]. destruct (G o ltac:(lia)) as (ro & s & v & E & Hi & Hc). rewrite E.
  cbn [bind of_option].
  destruct (fat_ranges_at volume table bs cs Hcb Hin 0 ro s v [] eq_refl Hi) as (c & C1 & -> & -> & C4 & C5).
  cbn [app] in C5. cbn [fat_range_of logical_offset physical_offset fr_size].
  unfold sub_chk. destruct (N.leb_spec ro o); [|lia]. cbn [bind].
  destruct (N.leb_spec (o - ro) bs); [|lia]. cbn [bind].
  set (k := N.min r (bs - (o - ro))). assert (Hk : 0 < k <= r /\ o - ro + k <= bs) by (unfold k; lia).
  rewrite Forall_forall in Hin. specialize (Hin c C1). rewrite Hcb.
  unfold add_chk. destruct (N.ltb_spec (first_cluster_offset table + (c - 2) * bs + (o - ro)) two64); [|lia].
  cbn [bind]. exists u, k. split; [|split; [exact I|lia]]. do 2 f_equal.
  unfold file_content. rewrite bytes_at_bytes_at by lia. rewrite N.add_0_l.
  unfold read_at. rewrite <- (bytes_at_bytes_at volume _ bs (o - ro) k) by lia.
  fold (cluster_content volume (first_cluster_offset table) bs c). rewrite <- C5.
  rewrite bytes_at_bytes_at by lia.
  change (fun c0 => bytes_at volume (first_cluster_offset table + (c0 - 2) * bs) bs)
    with (cluster_content volume (first_cluster_offset table) bs).
  f_equal. lia.
Qed.

Lemma chain_raw volume table entry c cs :
  chain (table_format table) entry c cs ->
  (forall x, In x cs -> read_entry volume table x = Ok (entry x)) ->
  raw_chain volume table c cs.
Proof.
  induction 1 as [c Hc|c cs Hc Hn IH]; intros H.
  - constructor. unfold end_of_chain, data_cluster in *. destruct (table_format table); lia.
  - econstructor; [assumption|apply H; now left|]. apply IH. intros x Hx. apply H. now right.
Qed.

Lemma raw_chain_steps volume table c cs : raw_chain volume table c cs -> forall entry,
  (forall x, In x cs -> read_entry volume table x = Ok (entry x)) ->
  (forall k, (k < length cs)%nat -> nth_error cs k = Some (steps entry c k)) /\
  ~ data_cluster (table_format table) (steps entry c (length cs)).
Proof.
  assert (S1 : forall entry c k, steps entry c (S k) = steps entry (entry c) k).
  { intros entry c0 k. induction k as [|k IH]; [reflexivity|]. cbn [steps] in *. now rewrite IH. }
  induction 1 as [c Hc|c c' cs Hc Hr Hn IH]; intros entry H.
  - split; [|exact Hc]. cbn [length]. intros k Hk. lia.
  - assert (Ec : c' = entry c) by (rewrite H in Hr by (now left); congruence). subst c'.
    destruct (IH entry) as [I1 I2]; [intros x Hx; apply H; now right|]. split.
    + intros [|k] Hk; [reflexivity|]. cbn [nth_error]. rewrite S1. apply I1. cbn [length] in Hk. lia.
    + cbn [length]. rewrite S1. exact I2.
Qed.
