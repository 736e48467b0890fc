(** * C35: FAT entries, cluster chains and file content *)
From Verif Require Import Base BaseLemmas Streams_model Streams_spec Streams_proofs BlockTree_model
  Blocks_model Blocks_proofs Fat_model Fat_spec Fat_proofs.
Ltac Zify.zify_post_hook ::= idtac.

(** Entry [i] of the table [t], anywhere in the volume. *)
Theorem C35_entry :
  forall volume table t i, wf_bytes volume ->
  table_format table <> Fat32 ->
  t = bytes_at volume (table_offset table) (len t) -> table_offset table + len t < two64 ->
  i < number_of_entries table ->
  match table_format table with Fat12 => i / 2 * 3 + 3 | Fat16 => i * 2 + 2 | Fat32 => i * 4 + 4 end <= len t ->
  read_entry volume table i = Ok (fat_entry (table_format table) t i).
Proof.
  intros volume table t i Hw Hf Ht Ho Hi He. rewrite (read_entry_slot volume table t i) by assumption.
  f_equal. apply reserved_clear_entry, reserved_clear_12_16. assumption.
Qed.
Print Assumptions C35_entry.

(** FAT32. Missing: the four reserved bits are taken as part of the number. *)
Theorem C35_entry_fat32_partial :
  forall volume table t i, wf_bytes volume ->
  table_format table = Fat32 ->
  t = bytes_at volume (table_offset table) (len t) -> table_offset table + len t < two64 ->
  i < number_of_entries table -> i * 4 + 4 <= len t -> reserved_clear Fat32 t i ->
  read_entry volume table i = Ok (fat_entry Fat32 t i).
Proof.
  intros volume table t i Hw Hf Ht Ho Hi He Hr. rewrite (read_entry_slot volume table t i); try assumption.
  - rewrite Hf. f_equal. now apply reserved_clear_entry.
  - rewrite Hf. exact He.
Qed.
Print Assumptions C35_entry_fat32_partial.

(** Two clusters 2 -> 3 of a FAT32 volume; the entry of cluster 2 has a reserved bit set,
    which readers must ignore. The file loses its second cluster. *)
Theorem C35_reserved_bits_refuted :
  let t := [248; 255; 255; 15; 255; 255; 255; 15; 3; 0; 0; 16; 255; 255; 255; 15] in
  let table := {| table_format := Fat32; table_offset := 0; number_of_entries := 4;
                  first_cluster_offset := 16; cluster_block_size := 4 |} in
  let volume := t ++ [1; 2; 3; 4; 5; 6; 7; 8] in
  chain Fat32 (fat_entry Fat32 t) 2 [2; 3] /\
  read_entry volume table 2 = Ok (0x10000003) /\ fat_entry Fat32 t 2 = 3 /\
  (stream <- fat_stream_open volume table 4 8 2 ;;
   Ok (snd (run (fat_stream_step volume stream) (tt, 0) [Read 8]))) = Ok [Data Err].
Proof.
  assert (E2 : fat_entry Fat32 [248; 255; 255; 15; 255; 255; 255; 15; 3; 0; 0; 16; 255; 255; 255; 15] 2 = 3)
    by (vm_compute; reflexivity).
  assert (E3 : fat_entry Fat32 [248; 255; 255; 15; 255; 255; 255; 15; 3; 0; 0; 16; 255; 255; 255; 15] 3 = 0x0fffffff)
    by (vm_compute; reflexivity).
  cbv zeta. split; [|split; [vm_compute; reflexivity|split; [exact E2|vm_compute; reflexivity]]].
  apply chain_next; [unfold data_cluster; lia|]. rewrite E2.
  apply chain_next; [unfold data_cluster; lia|]. rewrite E3. apply chain_end. unfold end_of_chain. lia.
Qed.
Print Assumptions C35_reserved_bits_refuted.

(** A file of [size] bytes whose chain has exactly the clusters the size needs, none of
    them twice, all of them in the table and the volume: opening succeeds and every history
    of reads and seeks answers as a file with the content of the clusters in order. *)
Theorem C35_reads_follow_the_chain :
  forall volume table t start clusters size, wf_bytes volume -> len volume < two64 ->
  let f := table_format table in
  let cluster_size := cluster_block_size table in
  t = bytes_at volume (table_offset table) (len t) ->
  table_offset table + len t < two63 -> first_cluster_offset table < two63 ->
  0 < cluster_size -> cluster_size < two32 -> size < two32 ->
  (start = 0 /\ clusters = []) \/ chain f (fat_entry f t) start clusters ->
  NoDup clusters ->
  Forall (fun c => c < number_of_entries table /\ reserved_clear f t c /\
    match f with Fat12 => c / 2 * 3 + 3 | Fat16 => c * 2 + 2 | Fat32 => c * 4 + 4 end <= len t /\
    first_cluster_offset table + (c - 2) * cluster_size + cluster_size <= len volume) clusters ->
  size <= len clusters * cluster_size < size + cluster_size ->
  exists stream, fat_stream_open volume table cluster_size size start = Ok stream /\
    forall ops, seeks_ok size (file_content volume (first_cluster_offset table) cluster_size clusters size) 0 ops ->
    run (fat_stream_step volume stream) (tt, 0) ops =
      ((tt, fst (run (file_step size (file_content volume (first_cluster_offset table) cluster_size clusters size)) 0 ops)),
       snd (run (file_step size (file_content volume (first_cluster_offset table) cluster_size clusters size)) 0 ops)).
Proof.
  intros volume table t start clusters size Hw Hv f cs Ht Hto Hfc Hcs Hcs2 Hsz Hch Hnd Hall Hlen.
  assert (Htab : table_ok table) by (unfold table_ok; fold cs; repeat split; auto; lia).
  assert (Hraw : raw_chain volume table start clusters).
  { destruct Hch as [[-> ->]|Hch].
    - constructor. unfold data_cluster. lia.
    - eapply chain_raw; [exact Hch|]. intros x Hx. rewrite Forall_forall in Hall.
      destruct (Hall x Hx) as (A1 & A2 & A3 & _).
      rewrite (read_entry_slot volume table t x) by (try assumption; unfold two63, two64 in *; lia).
      f_equal. now apply reserved_clear_entry. }
  assert (Hin : Forall (fun c => first_cluster_offset table + (c - 2) * cs + cs <= len volume) clusters).
  { eapply Forall_impl; [|exact Hall]. intros c H. apply H. }
  unfold len in Hlen. set (n := N.of_nat (length clusters)) in *.
  assert (Hdc : div_ceil size cs = Ok n).
  { unfold div_ceil, div_chk. destruct (N.eqb_spec cs 0); [lia|]. cbn [bind]. f_equal.
    pose proof (N.div_mod size cs ltac:(lia)) as D1. pose proof (N.mod_lt size cs ltac:(lia)) as D2.
    destruct (N.eqb_spec (size mod cs) 0) as [Em|Em].
    - rewrite Em in D1. set (q := size / cs) in *. clearbody q n. clear - D1 Hlen Hcs. nia.
    - set (q := size / cs) in *. set (m := size mod cs) in *. clearbody q m n. clear - D1 D2 Em Hlen Hcs. nia. }
  destruct (consecutive_tree (n * cs) cs (fat_ranges table cs 0 clusters)) as (tr & E & G); auto.
  { unfold two32, two64 in *. lia. }
  { clear - Hcs. generalize 0 at 3. induction clusters as [|c cl IH]; intros o; [constructor|].
    cbn [fat_ranges]. constructor; [|apply IH]. cbn [fst]. split; [assumption|]. apply N.mod_same. lia. }
  { rewrite fat_ranges_total. unfold n. lia. }
  rewrite fat_ranges_total in G. fold n in G.
  exists {| fs_tree := tr; fs_size := size |}. unfold fat_stream_open. rewrite Hdc. cbn [bind].
  unfold mul_chk. destruct (N.ltb_spec (n * cs) two64) as [_|]; [|unfold two32, two64 in *; lia]. cbn [bind].
  rewrite (walk_complete volume table cs Htab start clusters Hraw _ [] 0 _ tr Hnd); auto.
  - cbn [bind]. split; [reflexivity|]. intros ops Hops.
    destruct (run_exact (fun _ => True) size (file_content volume (first_cluster_offset table) cs clusters size)
      (fat_rd volume {| fs_tree := tr; fs_size := size |})) with (ops := ops) (s := tt) (p := 0) as ([] & E' & _); auto.
    + unfold fat_rd. cbn [fs_size]. apply blocks_rd_exact; [|unfold two32, two64 in *; lia].
      apply fat_step_exact; auto. apply Hlen.
    + unfold file_content. rewrite len_bytes_at.
      change (fun c0 => bytes_at volume (first_cluster_offset table + (c0 - 2) * cs) cs)
        with (cluster_content volume (first_cluster_offset table) cs).
      rewrite len_clusters by assumption. fold n. lia.
    + unfold two32, two63 in *. lia.
    + unfold two63. lia.
  - fold n. unfold two32, two64 in *. lia.
  - assert (L : (length clusters <= N.to_nat (number_of_entries table))%nat); [|lia].
    rewrite <- (seqN_length 0 (N.to_nat (number_of_entries table))).
    apply NoDup_incl_length; [assumption|]. intros x Hx. apply in_seqN.
    rewrite Forall_forall in Hall. destruct (Hall x Hx). lia.
Qed.
Print Assumptions C35_reads_follow_the_chain.

(** Every table, start cluster and size: opening ends, without a panic. *)
Theorem C35_terminates :
  forall volume table block_size size start,
  len volume < two64 -> table_offset table < two63 -> first_cluster_offset table < two63 ->
  cluster_block_size table < two32 -> 0 < block_size -> block_size < two32 -> size < two32 ->
  fat_stream_open volume table block_size size start <> Panic.
Proof.
  intros volume table bs size start Hv H1 H2 H3 Hb Hb2 Hs. unfold fat_stream_open.
  assert (Hdc : exists q, div_ceil size bs = Ok q /\ q * bs < size + bs).
  { unfold div_ceil, div_chk. destruct (N.eqb_spec bs 0); [lia|]. cbn [bind]. eexists. split; [reflexivity|].
    pose proof (N.div_mod size bs ltac:(lia)) as D1. set (q := size / bs) in *. set (m := size mod bs) in *.
    clearbody q m. destruct (N.eqb_spec m 0); lia. }
  destruct Hdc as (q & -> & Hq). cbn [bind]. unfold mul_chk.
  destruct (N.ltb_spec (q * bs) two64) as [Hd|]; [|unfold two32, two64 in *; lia]. cbn [bind].
  pose proof (walk_no_panic volume table bs (q * bs)) as W.
  destruct (fat_walk _ _ _ _ _ _ _ _) as [t| |] eqn:E; cbn [bind]; try discriminate.
  exfalso. revert E. apply W; auto.
  - unfold table_ok. auto.
  - unfold two32, two64 in *. lia.
  - now apply flat_tree_new.
  - lia.
  - constructor.
  - intros x [].
  - cbn [length]. lia.
Qed.
Print Assumptions C35_terminates.

(** A chain that meets a cluster twice is rejected, whatever the position and the length
    of the cycle. *)
Theorem C35_cycles_rejected :
  forall volume table t block_size size start i j, wf_bytes volume ->
  let f := table_format table in
  len volume < two64 -> t = bytes_at volume (table_offset table) (len t) ->
  table_offset table + len t < two63 -> first_cluster_offset table < two63 ->
  cluster_block_size table < two32 -> 0 < block_size -> block_size < two32 -> size < two32 ->
  (i < j)%nat -> steps (fat_entry f t) start i = steps (fat_entry f t) start j ->
  (forall k, (k <= j)%nat -> data_cluster f (steps (fat_entry f t) start k)) ->
  (forall c, c < number_of_entries table -> reserved_clear f t c /\
    match f with Fat12 => c / 2 * 3 + 3 | Fat16 => c * 2 + 2 | Fat32 => c * 4 + 4 end <= len t) ->
  fat_stream_open volume table block_size size start = Err.
Proof.
  intros volume table t bs size start i j Hw f Hv Ht Hto Hfc Hcb Hb Hb2 Hs Hij Heq Hdata Hres.
  destruct (fat_stream_open volume table bs size start) as [stream| |] eqn:E; [|reflexivity|].
  - exfalso. unfold fat_stream_open in E. apply bind_Ok_inv in E as (q & _ & E).
    apply bind_Ok_inv in E as (d & _ & E). apply bind_Ok_inv in E as (tr & E & _).
    apply walk_Ok in E as (cs & C1 & C2 & _ & _); [|unfold table_ok; repeat split; auto; lia].
    destruct (raw_chain_steps volume table start cs C1 (fat_entry f t)) as [S1 S2].
    { intros x Hx. pose proof (raw_below _ _ _ _ C1 x Hx) as Hx'. destruct (Hres x Hx') as [R1 R2].
      rewrite (read_entry_slot volume table t x) by (try assumption; unfold two63, two64 in *; lia).
      f_equal. now apply reserved_clear_entry. }
    destruct (le_lt_dec (length cs) j) as [Hl|Hl]; [apply S2, Hdata, Hl|].
    assert (i = j); [|lia]. rewrite NoDup_nth_error in C2. apply C2; [lia|].
    rewrite !S1 by lia. now rewrite Heq.
  - exfalso. revert E. apply C35_terminates; auto. lia.
Qed.
Print Assumptions C35_cycles_rejected.

(** More clusters than the size needs, as left by a program that allocates ahead: the file
    cannot be opened. *)
Theorem C35_longer_chain_rejected :
  let t := [248; 255; 255; 255; 3; 0; 255; 255] in
  let table := {| table_format := Fat16; table_offset := 0; number_of_entries := 4;
                  first_cluster_offset := 8; cluster_block_size := 4 |} in
  chain Fat16 (fat_entry Fat16 t) 2 [2; 3] /\
  fat_stream_open (t ++ [1; 2; 3; 4; 5; 6; 7; 8]) table 4 3 2 = Err.
Proof.
  assert (E2 : fat_entry Fat16 [248; 255; 255; 255; 3; 0; 255; 255] 2 = 3) by (vm_compute; reflexivity).
  assert (E3 : fat_entry Fat16 [248; 255; 255; 255; 3; 0; 255; 255] 3 = 0xffff) by (vm_compute; reflexivity).
  cbv zeta. split; [|vm_compute; reflexivity].
  apply chain_next; [unfold data_cluster; lia|]. rewrite E2.
  apply chain_next; [unfold data_cluster; lia|]. rewrite E3. apply chain_end. unfold end_of_chain. lia.
Qed.
Print Assumptions C35_longer_chain_rejected.

(** A FAT12 volume with clusters of 4 bytes: 2 -> 4 -> 3. *)
Example C35_case :
  let t := [248; 255; 255; 4; 240; 255; 3; 0; 0] in
  let table := {| table_format := Fat12; table_offset := 1; number_of_entries := 6;
                  first_cluster_offset := 10; cluster_block_size := 4 |} in
  let volume := [9] ++ t ++ seqN 50 12 in
  map (fat_entry Fat12 t) [0; 1; 2; 3; 4; 5] = [0xff8; 0xfff; 4; 0xfff; 3; 0] /\
  file_content volume 10 4 [2; 4; 3] 10 = [50; 51; 52; 53; 58; 59; 60; 61; 54; 55] /\
  (stream <- fat_stream_open volume table 4 10 2 ;;
   Ok (snd (run (fat_stream_step volume stream) (tt, 0) [Read 6; Seek (SeekStart 3); Read 99]))) =
  Ok [Data (Ok [50; 51; 52; 53; 58; 59]); Position (Ok 3); Data (Ok [53; 58; 59; 60; 61; 54; 55])].
Proof. vm_compute. auto. Qed.
