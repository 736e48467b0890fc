(** * C50: FAT directories list their files and paths lead to them *)
From Coq Require Import Permutation Sorted.
From Verif Require Import Base BaseLemmas Bytes_model Streams_model Streams_spec Streams_proofs Blocks_model.
From Verif Require Import Strings_model Part_model Part_spec Part_proofs Fat_model Fat_spec Fat_proofs P_C35.
From Verif Require Import Headers_model Headers_spec Headers_proofs Case_model FatDir_model FatDir_spec FatDir_proofs.
Ltac Zify.zify_post_hook ::= idtac.

(** A directory shows the files of its items: their number, each of them by index in the order
    of their names, and each of them by its name in any case; a name of none of them is
    answered with nothing. *)
Definition shows (volume : list N) (table : fat_table) (d : fat_file) (items : list item) : Prop :=
  ff_count case_mapping volume table d = Ok (len (files items)) /\
  (exists order, Permutation order (files items) /\ StronglySorted (before case_mapping) order /\
    forall i, ff_by_index case_mapping volume table d i =
      match nth_error order (N.to_nat i) with Some f => Ok (ff_of (entry_of f)) | None => Err end) /\
  (forall name, ff_by_name case_mapping volume table d (Ucs2Name name) =
    Ok (option_map (fun f => ff_of (entry_of f)) (named case_mapping items name))).

(** Missing: directories that start at cluster 65536 or later; free records that are not all
    zero; long names whose short record is gone; 0x05 for 0xe5 in a short name. *)
Theorem C50_directory_partial :
  forall volume table t f items, volume_ok volume table t -> file_ok f -> is_directory (fl_short f) = true ->
  let start := start_cluster (table_format table) (fl_short f) in
  start < 65536 -> directory case_mapping volume table t start items ->
  shows volume table (ff_of (entry_of f)) items.
Proof.
  intros volume table t f items Hv Hf Hi start Hc Hd.
  destruct (entries_of_directory volume table t f items Hv Hf Hi Hc Hd) as (s & Es & Ls).
  split; [|split].
  - now apply (listed_count volume table _ s items).
  - now apply (listed_order volume table _ s items).
  - intros name. apply (listed_name volume table _ s items); trivial. apply Hd.
Qed.
Print Assumptions C50_directory_partial.

(** The root directory, in its place before the clusters or in clusters. *)
Definition root_directory (volume : list N) (sy : fat_system) (t : list N) (items : list item) : Prop :=
  volume_ok volume (sy_table sy) t /\
  if sy_root_size sy =? 0 then directory case_mapping volume (sy_table sy) t (sy_root_cluster sy) items
  else fixed_directory case_mapping volume (sy_root_offset sy) (sy_root_size sy) items.
Lemma root_read volume sy t items : root_directory volume sy t items ->
  exists s root, fat_root case_mapping volume sy = Ok root /\ ff_entries case_mapping volume (sy_table sy) root = Ok s /\
    listing case_mapping s items /\ distinct_names case_mapping items /\ Forall item_ok items /\ ff_sub root = Some s.
Proof.
  intros (Hv & Hr). assert (R : exists s, read_root case_mapping volume (sy_root_size sy) (sy_root_offset sy) (sy_root_cluster sy) (sy_table sy) = Ok s /\
    listing case_mapping s items /\ distinct_names case_mapping items /\ Forall item_ok items).
  { unfold read_root. destruct (N.eqb_spec (sy_root_size sy) 0) as [->|Hn].
    - cbn [N.ltb]. destruct (read_clusters_ok case_mapping volume (sy_table sy) t (sy_root_cluster sy) items) as (s & E & L); trivial.
      { exact case_mapping_ascii. }
      exists s. split; [exact E|]. split; [exact L|]. destruct Hr as (Hd & cl & _ & Hh). split; [exact Hd|apply Hh].
    - destruct (N.ltb_spec 0 (sy_root_size sy)); [|lia].
      destruct (read_fixed_ok case_mapping volume (sy_root_offset sy) (sy_root_size sy) items) as (s & E & L); trivial.
      { exact case_mapping_ascii. } { apply Hv. } { apply Hv. }
      exists s. split; [exact E|]. split; [exact L|]. destruct Hr as (Hd & _ & _ & _ & Hh). split; [exact Hd|apply Hh]. }
  destruct R as (s & E & L & D & I). exists s. unfold fat_root. rewrite E. cbn [bind]. eexists. split; [reflexivity|].
  unfold ff_entries. cbn [ff_sub]. auto.
Qed.
Theorem C50_root_partial :
  forall volume sy t items, root_directory volume sy t items ->
  exists root, fat_root case_mapping volume sy = Ok root /\ shows volume (sy_table sy) root items /\
    exists s, ff_sub root = Some s /\ ds_label s = label items.
Proof.
  intros volume sy t items H. destruct (root_read volume sy t items H) as (s & root & E & Es & L & D & I & Su).
  exists root. split; [exact E|]. split.
  - split; [|split].
    + now apply (listed_count volume _ _ s items).
    + now apply (listed_order volume _ _ s items).
    + intros name. now apply (listed_name volume _ _ s items).
  - exists s. split; [exact Su|]. apply L.
Qed.
Print Assumptions C50_root_partial.

(** A path leads to the file that the names lead to, and to nothing if one of them is missing. *)
Theorem C50_paths_partial :
  forall volume sy t items, root_directory volume sy t items ->
  fat_by_path case_mapping volume sy [Ucs2Name []] =
    (root <- fat_root case_mapping volume sy ;; Ok (Some root)) /\
  forall path through r, leads case_mapping volume (sy_table sy) t items path through r ->
  Forall (fun d => start_cluster (table_format (sy_table sy)) (fl_short d) < 65536) through ->
  fat_by_path case_mapping volume sy (Ucs2Name [] :: map Ucs2Name path) =
    Ok (option_map (fun f => ff_of (entry_of f)) r).
Proof.
  intros volume sy t items H. split; [reflexivity|]. intros path through r Hl Hth.
  destruct (root_read volume sy t items H) as (s & root & E & Es & L & D & I & Su).
  unfold fat_by_path. cbn [string_len len length N.of_nat N.eqb negb]. rewrite E. cbn [bind].
  apply (descend_ok volume (sy_table sy) t (proj1 H) items path through r Hl Hth root s); assumption.
Qed.
Print Assumptions C50_paths_partial.

(** The content of a file is that of the chain of its first cluster, cut at its size. *)
Theorem C50_content_partial :
  forall volume table t f clusters, volume_ok volume table t -> first_cluster_offset table < two63 ->
  file_ok f -> is_directory (fl_short f) = false ->
  let start := start_cluster (table_format table) (fl_short f) in
  let size := field (snd (fl_short f)) 28 4 in
  let cluster_size := cluster_block_size table in
  start < 65536 -> size < two32 ->
  (start = 0 /\ clusters = []) \/ chain_ok volume table t start clusters ->
  size <= len clusters * cluster_size < size + cluster_size ->
  exists stream, ff_data_stream volume table (ff_of (entry_of f)) = Ok (Some stream) /\
    forall ops, seeks_ok size (file_content volume (first_cluster_offset table) cluster_size clusters size) 0 ops ->
    snd (run (fat_stream_step volume stream) (tt, 0) ops) =
    snd (run (file_step size (file_content volume (first_cluster_offset table) cluster_size clusters size)) 0 ops).
Proof.
  intros volume table t f clusters (W & V & Et & Ht & Hc & Hm) Hf Hok Hi start size cs Hs Hz Hch Hl.
  unfold ff_data_stream. rewrite directory_flag, Hi by assumption. cbn [ff_of ff_entry]. cbv iota beta.
  rewrite (entry_cluster (table_format table)) by assumption.
  change (Headers_model.fs_size (de_short (entry_of f))) with size.
  assert (Hn : NoDup clusters /\ Forall (fun c => c < number_of_entries table /\ reserved_clear (table_format table) t c /\
    match table_format table with Fat12 => c / 2 * 3 + 3 | Fat16 => c * 2 + 2 | Fat32 => c * 4 + 4 end <= len t /\
    first_cluster_offset table + (c - 2) * cluster_block_size table + cluster_block_size table <= len volume) clusters).
  { destruct Hch as [[_ ->]|(_ & N1 & N2)]; [split; constructor|auto]. }
  destruct (C35_reads_follow_the_chain volume table t start clusters size) as (stream & E & R); try tauto.
  - unfold two63, two64 in *. lia.
  - destruct Hch as [?|(Hch & _)]; [now left|now right].
  - exists stream. fold start. rewrite E. split; [reflexivity|]. intros ops Hops. rewrite (R ops Hops). reflexivity.
Qed.
Print Assumptions C50_content_partial.

(** Every directory has an answer, whatever is in the volume. *)
Theorem C50_directories_answer :
  forall volume table cluster, wf_bytes volume -> len volume < two63 -> table_offset table < two63 ->
  first_cluster_offset table < two63 -> cluster_block_size table < two32 ->
  dir_read_clusters case_mapping volume table cluster <> Panic.
Proof.
  intros volume table cluster W V H1 H2 H3. unfold dir_read_clusters. apply dir_walk_no_panic; trivial.
  - constructor.
  - intros x [].
  - cbn [length]. lia.
Qed.
Print Assumptions C50_directories_answer.

(** A file whose records stand in a row inside of one cluster, or of the root directory, is
    given by its identifier, the offset of its short record. A record before it, if it has
    no long name, must not look like a part of one. Missing: names that cross clusters. *)
Theorem C50_by_identifier_partial :
  forall volume sy f, wf_bytes volume -> len volume < two63 -> file_ok f ->
  let id := fst (fl_short f) in
  let n := len (fl_parts f) in
  fl_short f = (id, bytes_at volume id 32) -> fl_parts f = records_at volume (id - 32 * n) (32 * n) ->
  id + 32 <= len volume -> id < 2 ^ 32 -> id <> sy_root_offset sy -> 0 < sy_cluster_size sy ->
  let block := if id - 32 <? sy_first_cluster sy then sy_root_offset sy
               else sy_first_cluster sy + (id - sy_first_cluster sy) / sy_cluster_size sy * sy_cluster_size sy in
  block + 32 * n <= id -> 32 * (n + 1) <= id ->
  (n = 0 -> attributes (id - 32, bytes_at volume (id - 32) 32) <> 15 \/ byte (bytes_at volume (id - 32) 32) 0 = 0xe5) ->
  fat_by_identifier case_mapping volume sy id = Ok (ff_of (entry_of f)).
Proof.
  intros volume sy f W V Hok id n Es Ep Hv Hid Hroot Hcs block Hb Hlo Hprev.
  assert (En : n = len (fl_parts f)) by reflexivity. clearbody n.
  assert (Hs : rec_ok (fl_short f)).
  { rewrite Es. unfold rec_ok. cbn [fst snd]. rewrite len_bytes_at. split; [lia|]. split; [now apply wf_bytes_at|].
    unfold two63, two64 in *. lia. }
  assert (Hp : Forall rec_ok (fl_parts f)) by (rewrite Ep; apply records_ok; trivial; lia).
  unfold fat_by_identifier. destruct (N.eqb_spec id (sy_root_offset sy)); [contradiction|].
  unfold entry_by_identifier, read_exact_at at 1. destruct (N.leb_spec (id + 32) (len volume)); [|lia]. cbn [bind].
  replace (bytes_at volume id 32) with (snd (fl_short f)) by (rewrite Es; reflexivity).
  rewrite short_read by assumption. cbn [bind]. unfold sub_chk at 1. destruct (N.leb_spec 32 id); [|lia]. cbn [bind].
  assert (Eb : (if id - 32 <? sy_first_cluster sy then Ok (sy_root_offset sy)
     else relative <- div_chk (id - sy_first_cluster sy) (sy_cluster_size sy) ;; Ok (sy_first_cluster sy + relative * sy_cluster_size sy)) = Ok block).
  { unfold block. destruct (id - 32 <? sy_first_cluster sy); [reflexivity|]. unfold div_chk.
    destruct (N.eqb_spec (sy_cluster_size sy) 0); [lia|]. reflexivity. }
  rewrite Eb. cbn [bind]. clearbody block.
  assert (Sc : exists pending, long_scan (N.to_nat ((id - 32) / 32) + 2) volume block (id - 32) 0 [] = Ok pending /\
    set_long_name (rev pending) = de_long (entry_of f)).
  { destruct Hok as (S1 & S2 & S3 & S4). destruct (fl_parts f) as [|p ps] eqn:E.
    - assert (Hn0 : n = 0) by (rewrite En; try rewrite E; reflexivity). specialize (Hprev Hn0). exists []. split; [|unfold entry_of; now rewrite E].
      rewrite Nat.add_comm. cbn [Nat.add long_scan]. destruct (N.leb_spec block (id - 32)); [|reflexivity].
      unfold read_exact_at. destruct (N.leb_spec (id - 32 + 32) (len volume)); [|lia]. cbn [bind].
      set (d := bytes_at volume (id - 32) 32) in *.
      assert (Ld : len d = 32) by (unfold d; rewrite len_bytes_at; lia).
      assert (Bd : buffer d). { split; [now apply wf_bytes_at|]. rewrite Ld. reflexivity. }
      assert (T : exists ty, entry_type_read d = Ok ty /\ ty <> LongName).
      { unfold entry_type_read. rewrite (idx_at _ Bd), !slice_at by lia. cbn [bind].
        change (13 - 11) with 2. rewrite (two_bytes d 11) by lia.
        destruct (N.eqb_spec (byte d 0) 0xe5); [eexists; split; [reflexivity|discriminate]|].
        rewrite same_ne.
        - cbn [bind andb]. destruct (same _ _); eexists; (split; [reflexivity|discriminate]).
        - intros X. injection X as X _. destruct Hprev as [Hprev|Hprev]; [|contradiction]. apply Hprev. exact X. }
      destruct T as (ty & -> & Hty). cbn [bind]. destruct ty; try reflexivity. contradiction.
    - rewrite <- E in *. destruct (long_name_read (fl_parts f) (fl_short f) (fl_name f)) as [N1 N2]; trivial.
      destruct S4 as (L1 & L2 & _). exists (map long_pair (rev (fl_parts f))).
      assert (Ln : n <= 20) by (rewrite En; unfold len; lia).
      assert (Hd : down volume (fl_short f) n 1 (id - 32) (rev (fl_parts f))).
      { apply (parts_down volume (fl_short f) n Ln (fl_parts f) (length (fl_parts f)) id); trivial; rewrite <- ?En; trivial; try lia.
        - rewrite En. exact L2. }
      split.
      + rewrite (scan_down volume (fl_short f) n Ln block (rev (fl_parts f)) 1); trivial.
        * rewrite rev_length. unfold len in *. assert (Q : (N.of_nat (length (fl_parts f)) + 1 - 1) <= (id - 32) / 32); [|lia].
          apply N.div_le_lower_bound; lia.
        * intros X. apply (f_equal (@length _)) in X. rewrite rev_length in X. cbn [length] in X. lia.
        * lia.
        * unfold len at 1. rewrite rev_length. unfold len in *. lia.
        * now apply Forall_rev.
        * now apply Forall_rev.
        * unfold len at 1. rewrite rev_length. unfold len in *. lia.
        * now left.
      + rewrite <- map_rev, rev_involutive, N2. unfold entry_of. rewrite E. reflexivity. }
  destruct Sc as (pending & -> & Hset). cbn [bind]. rewrite Hset. unfold ff_of, entry_of. cbn [de_identifier de_long].
  fold id. rewrite N.mod_small by exact Hid. reflexivity.
Qed.
Print Assumptions C50_by_identifier_partial.

(** The root directory is given by the identifier that it has. Missing: root directories
    beyond 4 GiB, whose identifier is cut to 32 bits. *)
Theorem C50_root_identifier_partial : forall volume sy f, sy_root_offset sy < 2 ^ 32 ->
  fat_root case_mapping volume sy = Ok f -> fat_by_identifier case_mapping volume sy (ff_identifier f) = Ok f.
Proof.
  intros volume sy f H E. unfold fat_by_identifier.
  assert (ff_identifier f = sy_root_offset sy) as ->.
  { unfold fat_root in E. apply bind_Ok_inv in E as (s & _ & E). injection E as <-. cbn [ff_identifier]. now apply N.mod_small. }
  rewrite N.eqb_refl. exact E.
Qed.
Print Assumptions C50_root_identifier_partial.

(** ** The volume *)
(** What is kept of the volume is what the boot record says. Missing: numbers of clusters close
    below the limits of the formats, since the root directory is counted as clusters. *)
Theorem C50_geometry_partial :
  forall volume sy, wf_bytes volume ->
  let d := bytes_at volume 0 512 in
  let b := fat_boot_of d in
  (fb_root_entries b * 32) mod fb_bytes_per_sector b = 0 -> data_sector b <= fb_sectors b ->
  (fb_root_cluster b = 0 -> cluster_count b + root_sectors b < 4085 \/ 4085 <= cluster_count b /\ cluster_count b + root_sectors b < 65525) ->
  fat_system_read case_mapping volume = Ok sy ->
  512 <= len volume /\ fat_boot_ok d = true /\
  sy_bytes_per_sector sy = fb_bytes_per_sector b /\ sy_cluster_size sy = fb_bytes_per_sector b * fb_sectors_per_cluster b /\
  sy_first_cluster sy = data_sector b * fb_bytes_per_sector b /\
  sy_root_size sy = fb_root_entries b * 32 /\ sy_root_cluster sy = fb_root_cluster b /\
  (fb_root_cluster b = 0 ->
    sy_root_offset sy = (fb_reserved_sectors b + fb_tables b * fb_table_size b) * fb_bytes_per_sector b) /\
  sy_format sy = format_of b /\
  table_format (sy_table sy) = format_of b /\ table_offset (sy_table sy) = fb_reserved_sectors b * fb_bytes_per_sector b /\
  first_cluster_offset (sy_table sy) = sy_first_cluster sy /\ cluster_block_size (sy_table sy) = sy_cluster_size sy.
Proof.
  intros volume sy W d b Hm Hs Hlim H. unfold fat_system_read, read_exact_at at 1 in H.
  destruct (N.leb_spec (0 + 512) (len volume)); [|discriminate]. cbn [bind] in H. fold d in H.
  assert (Ld : len d = 512) by (unfold d; rewrite len_bytes_at; lia).
  assert (Bd : buffer d). { split; [now apply wf_bytes_at|]. rewrite Ld. reflexivity. }
  rewrite (fat_boot_ok' d Bd Ld) in H. destruct (fat_boot_ok d) eqn:Eok; [|discriminate]. cbn [bind] in H. fold b in H.
  assert (Hspc : 0 < fb_sectors_per_cluster b /\ 0 < fb_bytes_per_sector b).
  { assert (C : fat_common_ok d = true).
    { unfold fat_boot_ok in Eok. destruct (is_fat32 d); [|exact Eok]. unfold fat32_boot_ok in Eok. rewrite !andb_true_iff in Eok. tauto. }
    unfold fat_common_ok in C. rewrite !andb_true_iff in C. destruct C as (((_ & _) & C1) & C2).
    unfold one_of in C1, C2. apply existsb_exists in C1 as (x & X1 & X2). apply existsb_exists in C2 as (y & Y1 & Y2).
    apply N.eqb_eq in X2, Y2.
    assert (fb_sectors_per_cluster b = byte d 13 /\ fb_bytes_per_sector b = field d 11 2) as [-> ->].
    { unfold b, fat_boot_of. destruct (is_fat32 d); split; reflexivity. }
    rewrite X2, Y2. cbn [In] in X1, Y1. lia. }
  assert (Hr0 : fb_root_cluster b <> 0 -> fb_root_entries b = 0).
  { unfold b, fat_boot_of. destruct (is_fat32 d); cbn [fb_root_cluster fb_root_entries fat32_boot_of fat12_boot_of]; [reflexivity|congruence]. }
  clearbody b. clear Eok d Ld Bd. destruct Hspc as [Hspc Hbps].
  assert (Hrs : root_sectors b * fb_bytes_per_sector b = fb_root_entries b * 32).
  { unfold root_sectors. pose proof (N.div_mod (fb_root_entries b * 32) (fb_bytes_per_sector b) ltac:(lia)) as D. rewrite Hm, N.add_0_r in D.
    set (q := fb_root_entries b * 32 / fb_bytes_per_sector b) in *. clearbody q. rewrite D.
    replace (fb_bytes_per_sector b * q + (fb_bytes_per_sector b - 1)) with (fb_bytes_per_sector b - 1 + q * fb_bytes_per_sector b) by lia.
    rewrite N.div_add, N.div_small by lia. lia. }
  unfold data_sector in *. set (tables := fb_tables b * fb_table_size b) in *.
  unfold sub_chk in H. destruct (N.leb_spec (fb_reserved_sectors b) (fb_sectors b)); [|lia]. cbn [bind] in H.
  destruct (N.leb_spec tables (fb_sectors b - fb_reserved_sectors b)); [|lia]. cbn [bind] in H.
  unfold div_chk in H. destruct (N.eqb_spec (fb_sectors_per_cluster b) 0); [lia|]. cbn [bind] in H.
  set (count := (fb_sectors b - fb_reserved_sectors b - tables) / fb_sectors_per_cluster b) in *.
  assert (Hcount : cluster_count b <= count <= cluster_count b + root_sectors b).
  { unfold count, cluster_count, data_sector. fold tables.
    replace (fb_sectors b - fb_reserved_sectors b - tables) with (fb_sectors b - (fb_reserved_sectors b + tables + root_sectors b) + root_sectors b) by lia.
    set (x := fb_sectors b - _). set (r := root_sectors b). set (s := fb_sectors_per_cluster b) in *. clearbody x r s. clear - Hspc.
    split; [apply N.div_le_mono; lia|]. rewrite <- (N.div_add _ _ s) by lia. apply N.div_le_mono; [lia|]. nia. }
  assert (Hfmt : (if negb (fb_root_cluster b =? 0) || (65525 <=? count) then Fat32 else if 4085 <=? count then Fat16 else Fat12) = format_of b).
  { unfold format_of. destruct (N.eqb_spec (fb_root_cluster b) 0) as [E0|]; [|reflexivity]. cbn [negb orb]. specialize (Hlim E0).
    destruct (N.leb_spec 65525 count); [lia|]. destruct (N.leb_spec 4085 count), (N.ltb_spec (cluster_count b) 4085); try reflexivity; lia. }
  rewrite Hfmt in H. clearbody count.
  assert (Hfirst : fb_reserved_sectors b * fb_bytes_per_sector b + fb_tables b * (fb_table_size b * fb_bytes_per_sector b) =
    (fb_reserved_sectors b + tables) * fb_bytes_per_sector b) by (unfold tables; lia).
  rewrite Hfirst in H. clearbody tables.
  destruct (N.eqb_spec (fb_root_cluster b) 0) as [E0|E0].
  - apply bind_Ok_inv in H as (root & _ & H). inversion H; subst sy. cbn. repeat split; trivial; lia.
  - apply bind_Ok_inv in H as (root & _ & H). inversion H; subst sy. cbn. rewrite (Hr0 E0) in *.
    assert (root_sectors b = 0) as -> by (destruct (root_sectors b); [reflexivity|]; lia).
    repeat split; trivial; try lia.
Qed.
Print Assumptions C50_geometry_partial.

(** The label of a volume is that of its root directory, or else that of the boot record. *)
Theorem C50_label_partial :
  forall volume sy t items, wf_bytes volume -> fat_system_read case_mapping volume = Ok sy -> root_directory volume sy t items ->
  fat_volume_label sy =
    match label items with
    | Some l => Some l
    | None => match fb_label (fat_boot_of (bytes_at volume 0 512)) with [] => None | l => Some l end
    end.
Proof.
  intros volume sy t items W H HR. destruct (root_read volume sy t items HR) as (s & root & E & Es & L & _ & _ & Su).
  unfold fat_root in E. apply bind_Ok_inv in E as (s' & E1 & E2). injection E2 as <-. cbn [ff_sub] in Su. injection Su as ->.
  unfold fat_system_read, read_exact_at at 1 in H.
  destruct (N.leb_spec (0 + 512) (len volume)); [|discriminate]. cbn [bind] in H. set (d := bytes_at volume 0 512) in *.
  assert (Ld : len d = 512) by (unfold d; rewrite len_bytes_at; lia).
  assert (Bd : buffer d). { split; [now apply wf_bytes_at|]. rewrite Ld. reflexivity. }
  rewrite (fat_boot_ok' d Bd Ld) in H. destruct (fat_boot_ok d); [|discriminate]. cbn [bind] in H.
  apply bind_Ok_inv in H as (n1 & _ & H). apply bind_Ok_inv in H as (n2 & _ & H). apply bind_Ok_inv in H as (n3 & _ & H). cbv zeta in H.
  assert (L' : ds_label s = label items) by apply L.
  destruct (fb_root_cluster (fat_boot_of d) =? 0); apply bind_Ok_inv in H as (r & R1 & R2); match type of R2 with Ok ?x = Ok _ => assert (sy = x) as -> by congruence end; cbn [sy_root_size sy_root_offset sy_root_cluster sy_table] in E1; rewrite R1 in E1; injection E1 as ->;
    unfold fat_volume_label; cbn [sy_root_label sy_label]; rewrite L'; reflexivity.
Qed.
Print Assumptions C50_label_partial.

(** The name and the size of a file are those of its records. *)
Theorem C50_values :
  forall f, file_ok f -> ff_size (ff_of (entry_of f)) = field (snd (fl_short f)) 28 4 /\
  (fl_parts f <> [] -> ff_name (ff_of (entry_of f)) = Some (Ucs2Name (fl_name f))) /\
  (fl_parts f = [] -> ff_name (ff_of (entry_of f)) = Some (ByteName (fl_name f))).
Proof.
  intros f Hf. split; [reflexivity|]. unfold ff_name, ff_of, entry_of. cbn [ff_entry de_long de_short].
  unfold file_ok in Hf. destruct (fl_parts f).
  - split; [intros X; now contradiction X|]. intros _. destruct Hf as (_ & _ & _ & Hf). unfold fat_short_entry_of. cbn [fs_name]. do 2 f_equal. symmetry. apply Hf.
  - split; [reflexivity|discriminate].
Qed.
Print Assumptions C50_values.

(** A path whose first name is not empty leads to nothing. *)
Theorem C50_relative_paths :
  forall volume sy path, fat_by_path case_mapping volume sy [] = Ok None /\
  forall first, first <> Ucs2Name [] -> first <> ByteName [] -> fat_by_path case_mapping volume sy (first :: path) = Ok None.
Proof.
  intros volume sy path. split; [reflexivity|]. intros [[|a l]|[|a l]] H1 H2; try contradiction;
    unfold fat_by_path, string_len; rewrite len_cons; destruct (N.eqb_spec (len l + 1) 0); (lia || reflexivity).
Qed.
Print Assumptions C50_relative_paths.

(** ** A volume *)
(** Records and a FAT16 volume of clusters of 64 bytes: a table at 0, the root directory at 32,
    cluster 2 at 224. *)
Definition mk_short (name : list N) (attribute cluster size : N) : list N :=
  name ++ [attribute; 0] ++ repeat 0 13 ++ le_bytes 2 cluster ++ le_bytes 4 size.
Definition mk_long (sequence : N) (short : list N) (units : list N) : list N :=
  let b := flat_map (le_bytes 2) units in
  [sequence] ++ firstn 10 b ++ [15; 0; name_checksum (firstn 11 short)] ++ firstn 12 (skipn 10 b) ++ [0; 0] ++ skipn 22 b.
(** README.TXT; DOCS~1 as "Docs dir"; inside of it A~1.C as "a long file name" *)
Definition x_readme := [82; 69; 65; 68; 77; 69; 32; 32; 84; 88; 84].
Definition x_docs := [68; 79; 67; 83; 126; 49; 32; 32; 32; 32; 32].
Definition x_docs_name := [68; 111; 99; 115; 32; 100; 105; 114].
Definition x_a := [65; 126; 49; 32; 32; 32; 32; 32; 67; 32; 32].
Definition x_a_name := [97; 32; 108; 111; 110; 103; 32; 102; 105; 108; 101; 32; 110; 97; 109; 101].
Definition x_label := [68; 73; 83; 75; 32; 32; 32; 32; 32; 32; 32].
Definition x_fill (n : nat) (name : list N) : list N := name ++ firstn (13 * n - length name) (0 :: repeat 0xffff 13).
Definition x_volume : list N := Eval vm_compute in
  flat_map (le_bytes 2) [0xfff8; 0xffff; 4; 0xffff; 3; 6; 0xffff; 0] ++ repeat 0 16 ++
  (mk_short x_label 8 0 0 ++ (0xe5 :: skipn 1 (mk_short x_readme 32 0 0)) ++ mk_short x_readme 32 5 70 ++
   mk_long 0x41 x_docs (x_fill 1 x_docs_name) ++ mk_short x_docs 16 2 0 ++ repeat 0 32) ++
  (* 2 *) (mk_short [46; 32; 32; 32; 32; 32; 32; 32; 32; 32; 32] 16 2 0 ++ mk_short [46; 46; 32; 32; 32; 32; 32; 32; 32; 32; 32] 16 0 0) ++
  (* 3 *) (mk_short x_a 33 0 0 ++ repeat 0 32) ++
  (* 4 *) (mk_long 0x42 x_a (skipn 13 (x_fill 2 x_a_name)) ++ mk_long 1 x_a (firstn 13 x_a_name)) ++
  (* 5, 6 *) seqN 1 64 ++ seqN 65 64.
Definition x_table : fat_table := {| table_format := Fat16; table_offset := 0; number_of_entries := 8;
  first_cluster_offset := 224; cluster_block_size := 64 |}.
Definition x_t : list N := Eval vm_compute in firstn 16 x_volume.
Definition x_system : fat_system := {| sy_bytes_per_sector := 512; sy_cluster_size := 64; sy_first_cluster := 224;
  sy_root_offset := 32; sy_root_size := 192; sy_root_cluster := 0; sy_format := Fat16; sy_table := x_table;
  sy_serial := 0; sy_label := None; sy_root_label := None |}.
Definition x_record (o : N) : record := (o, bytes_at x_volume o 32).
Definition x_readme_file := {| fl_parts := []; fl_short := x_record 96; fl_name := [82; 69; 65; 68; 77; 69; 46; 84; 88; 84] |}.
Definition x_docs_file := {| fl_parts := [x_record 128]; fl_short := x_record 160; fl_name := x_docs_name |}.
Definition x_root : list item :=
  [Label (x_record 32); Deleted (x_record 64); File x_readme_file; File x_docs_file].
Definition x_a_file := {| fl_parts := [x_record 352; x_record 384]; fl_short := x_record 288; fl_name := x_a_name |}.
Definition x_docs_items : list item := [Dot (x_record 224); Dot (x_record 256); File x_a_file].

Ltac no_zero := let X := fresh in intros X; vm_compute in X; repeat (destruct X as [X|X]; [discriminate X|]); exact X.
Ltac short_ok := split; [unfold in_use; repeat split; vm_compute; discriminate|]; split; [reflexivity|vm_compute; discriminate].
Ltac not_dot := let X := fresh in intros [X|X]; vm_compute in X; discriminate X.
Ltac long_ok := split; [vm_compute; lia|]; split; [vm_compute; repeat split|]; split; [no_zero|]; split;
  [split; [vm_compute; reflexivity|vm_compute; discriminate]|vm_compute; reflexivity].
Lemma x_readme_ok : file_ok x_readme_file.
Proof. split; [short_ok|]. split; [reflexivity|]. split; [not_dot|]. split; [reflexivity|]. repeat constructor. Qed.
Lemma x_docs_ok : file_ok x_docs_file.
Proof. split; [short_ok|]. split; [reflexivity|]. split; [not_dot|]. long_ok. Qed.
Lemma x_a_ok : file_ok x_a_file.
Proof. split; [short_ok|]. split; [reflexivity|]. split; [not_dot|]. long_ok. Qed.
Lemma x_volume_ok : volume_ok x_volume x_table x_t.
Proof.
  split; [apply wf_bytesb_iff; vm_compute; reflexivity|]. repeat match goal with |- _ /\ _ => split end; vm_compute; reflexivity.
Qed.
Example C50_root_example : root_directory x_volume x_system x_t x_root.
Proof.
  split; [exact x_volume_ok|]. cbn [x_system sy_root_size N.eqb]. split.
  - repeat constructor; cbn; intuition discriminate.
  - repeat match goal with |- _ /\ _ => split end; try (vm_compute; reflexivity || discriminate).
    split.
    + repeat constructor; try apply x_readme_ok; try apply x_docs_ok; try (vm_compute; reflexivity || discriminate).
    + exists [x_record 192]. split; [vm_compute; reflexivity|repeat constructor].
Qed.
Example C50_sub_example : directory case_mapping x_volume x_table x_t 2 x_docs_items.
Proof.
  split; [repeat constructor; cbn; intuition discriminate|]. exists [2; 4; 3]. split.
  - split; [|split; [repeat constructor; cbn; intuition discriminate|]].
    + repeat (econstructor; try (vm_compute; reflexivity || discriminate)).
    + repeat constructor; vm_compute; reflexivity || discriminate.
  - split.
    + apply Forall_cons; [|apply Forall_cons; [|apply Forall_cons; [exact x_a_ok|constructor]]].
      * split; [short_ok|]. split; [reflexivity|]. left. vm_compute. reflexivity.
      * split; [short_ok|]. split; [reflexivity|]. right. vm_compute. reflexivity.
    + exists [x_record 320]. split; [vm_compute; reflexivity|repeat constructor].
Qed.
(** "/docs DIR/A Long File NAME" *)
Example C50_path_example :
  leads case_mapping x_volume x_table x_t x_root
    [[100; 111; 99; 115; 32; 68; 73; 82]; [65; 32; 76; 111; 110; 103; 32; 70; 105; 108; 101; 32; 78; 65; 77; 69]]
    [x_docs_file] (Some x_a_file).
Proof.
  eapply leads_inside; [vm_compute; reflexivity|vm_compute; reflexivity|exact C50_sub_example|].
  apply leads_last. vm_compute. reflexivity.
Qed.
Example C50_chain_example : chain_ok x_volume x_table x_t (start_cluster Fat16 (fl_short x_readme_file)) [5; 6].
Proof.
  split; [|split; [repeat constructor; cbn; intuition discriminate|]].
  - repeat (econstructor; try (vm_compute; reflexivity || discriminate)).
  - repeat constructor; vm_compute; reflexivity || discriminate.
Qed.
Example C50_root_identifier_example : exists f, fat_root case_mapping x_volume x_system = Ok f /\
  fat_by_identifier case_mapping x_volume x_system (sy_root_offset x_system) = Ok f.
Proof.
  destruct (fat_root case_mapping x_volume x_system) as [f| |] eqn:E; [|vm_compute in E; discriminate..].
  exists f. split; [reflexivity|]. pose proof (C50_root_identifier_partial x_volume x_system f ltac:(reflexivity) E) as H.
  unfold fat_root in E. apply bind_Ok_inv in E as (s & _ & E). injection E as <-. exact H.
Qed.
Example C50_identifier_example : fat_by_identifier case_mapping x_volume x_system 160 = Ok (ff_of (entry_of x_docs_file)).
Proof.
  apply (C50_by_identifier_partial x_volume x_system x_docs_file); try (vm_compute; reflexivity || discriminate).
  - apply x_volume_ok.
  - exact x_docs_ok.
Qed.

(** ** Where it is not so *)
Definition read_records (records : list (list N)) : res dir_state :=
  dir_read case_mapping (concat records) 0 dir_new.
Definition names (records : list (list N)) : res (list (option fat_string)) :=
  s <- read_records records ;; Ok (map (fun e => ff_name (ff_of (snd e))) (ds_entries s)).

(** The start cluster of every file is cut to 16 bits. *)
Theorem C50_high_clusters_refuted :
  forall f, wf_bytes (snd (fl_short f)) -> len (snd (fl_short f)) = 32 ->
  fs_cluster (de_short (entry_of f)) = start_cluster Fat32 (fl_short f) mod 65536.
Proof.
  intros f W L. assert (B : buffer (snd (fl_short f))) by (split; [exact W|rewrite L; reflexivity]).
  unfold start_cluster. rewrite (N.mul_comm 65536), N.mod_add by lia. rewrite N.mod_small; [reflexivity|].
  exact (field_lt _ B 26 2).
Qed.
Print Assumptions C50_high_clusters_refuted.

(** The last two clusters of a FAT32 volume can not be walked: a directory there is an error. *)
Theorem C50_last_clusters_refuted :
  forall volume sy cluster, wf_bytes volume ->
  let b := fat_boot_of (bytes_at volume 0 512) in
  fat_system_read case_mapping volume = Ok sy -> fb_root_cluster b <> 0 -> cluster_count b + 2 <= 2 ^ 28 - 16 ->
  cluster_count b <= cluster < cluster_count b + 2 -> 2 <= cluster ->
  forall s, dir_read_clusters case_mapping volume (sy_table sy) cluster <> Ok s.
Proof.
  intros volume sy cluster W b H Hr Hc Hl H2 s X.
  assert (Et : number_of_entries (sy_table sy) = cluster_count b /\ table_format (sy_table sy) = Fat32).
  { unfold fat_system_read, read_exact_at at 1 in H.
    destruct (N.leb_spec (0 + 512) (len volume)); [|discriminate]. cbn [bind] in H. set (d := bytes_at volume 0 512) in *.
    assert (Ld : len d = 512) by (unfold d; rewrite len_bytes_at; lia).
    assert (Bd : buffer d). { split; [now apply wf_bytes_at|]. rewrite Ld. reflexivity. }
    rewrite (fat_boot_ok' d Bd Ld) in H. destruct (fat_boot_ok d); [|discriminate]. cbn [bind] in H. fold b in H.
    assert (Hroot : fb_root_entries b = 0 /\ (fb_bytes_per_sector b = 0 \/ 0 < fb_bytes_per_sector b)).
    { split; [|lia]. revert Hr. unfold b, fat_boot_of. destruct (is_fat32 d); cbn [fb_root_cluster fb_root_entries fat32_boot_of fat12_boot_of]; congruence. }
    destruct Hroot as [Hroot Hbps]. clearbody b d.
    assert (Hrs : root_sectors b = 0).
    { unfold root_sectors. rewrite Hroot. destruct Hbps as [->|Hbps]; [reflexivity|]. apply N.div_small. lia. }
    unfold cluster_count, data_sector in *. rewrite Hrs in *. rewrite N.add_0_r in *.
    unfold sub_chk in H. destruct (N.leb_spec (fb_reserved_sectors b) (fb_sectors b)); [|discriminate]. cbn [bind] in H.
    destruct (N.leb_spec (fb_tables b * fb_table_size b) (fb_sectors b - fb_reserved_sectors b)); [|discriminate]. cbn [bind] in H.
    unfold div_chk in H. destruct (N.eqb_spec (fb_sectors_per_cluster b) 0); [discriminate|]. cbn [bind] in H.
    rewrite N.sub_add_distr in *. destruct (N.eqb_spec (fb_root_cluster b) 0) as [E0|E0]; [contradiction|]. cbn [negb orb] in H.
    apply bind_Ok_inv in H as (root & _ & H). injection H as <-. cbn [sy_table number_of_entries table_format].
    split; [|reflexivity]. apply N.mod_small. unfold two32. change (2 ^ 28) with 268435456 in Hc. lia. }
  destruct Et as [En Ef]. unfold dir_read_clusters in X. rewrite Nat.add_comm in X. cbn [Nat.add dir_walk] in X.
  rewrite Ef in X. cbn [largest_cluster_block_number] in X. change (2 ^ 28) with 268435456 in Hc.
  destruct (N.leb_spec 2 cluster); [|lia]. cbn [andb existsb] in X.
  clearbody b.
  match type of X with (if ?c then _ else _) = _ => assert (Ec : c = true) by (apply N.ltb_lt; lia); rewrite Ec in X end.
  apply bind_Ok_inv in X as (r & _ & X). apply bind_Ok_inv in X as (o & _ & X). apply bind_Ok_inv in X as (data & _ & X).
  apply bind_Ok_inv in X as (s1 & _ & X). apply bind_Ok_inv in X as (next & E & _).
  unfold read_entry in E. rewrite En in E. destruct (N.leb_spec (cluster_count b) cluster); [|lia].
  replace (cluster <? cluster_count b) with false in E by (symmetry; apply N.ltb_ge; lia). cbn in E. discriminate.
Qed.
Print Assumptions C50_last_clusters_refuted.

(** A part of a long name that is not the last one, where no name is begun, makes the whole
    directory an error, whatever else is in it. *)
Theorem C50_orphan_part_refuted :
  forall r short n k rest offset, wf_bytes (snd r) -> len (snd r) = 32 -> long_part n k short r -> 0 < k < n -> n <= 20 ->
  fat_padding (fat_units (snd r)) = true ->
  dir_read case_mapping (snd r ++ rest) offset dir_new = Err.
Proof.
  intros r short n k rest offset W L (P0 & P1 & P2 & P3 & P4) Hk Hk2 Hpad.
  assert (B : buffer (snd r)). { split; [exact W|]. rewrite L. reflexivity. }
  unfold dir_read. cbn [dir_read_data]. rewrite len_app. destruct (N.eqb_spec (len (snd r) + len rest) 0); [lia|].
  unfold check. destruct (N.leb_spec 32 (len (snd r) + len rest)); [|lia]. cbn [bind].
  assert (E32 : firstn 32 (snd r ++ rest) = snd r).
  { rewrite firstn_app. unfold len in L. replace (32 - length (snd r))%nat with 0%nat by lia.
    rewrite firstn_O, app_nil_r. apply firstn_all2. lia. }
  rewrite E32. unfold dir_record. destruct (N.eqb_spec k n) as [|_]; [lia|]. rewrite N.add_0_r in P0.
  rewrite (type_long _ B); [|assumption..|].
  2: { rewrite P0. lia. }
  cbn [bind]. assert (L13 : fat_long_entry_read (snd r) = Ok (fat_long_entry_of (snd r))).
  { rewrite (fat_long_entry_ok' (snd r) B Hpad), L. reflexivity. }
  rewrite L13. cbn [bind]. unfold fat_long_entry_of. cbv iota beta. rewrite P0.
  assert (A : N.land k 0x40 = 0 /\ N.land k 0x1f + 1 <> 0).
  { split; [|lia]. assert (Hin : In k (seqN 0 21)) by (apply in_seqN; cbn; lia). clear - Hin. revert k Hin. apply Forall_forall. repeat constructor. }
  destruct A as [-> A]. cbn [N.eqb negb ds_last dir_new]. destruct (N.eqb_spec (N.land k 31 + 1) 0); [contradiction|reflexivity].
Qed.
Print Assumptions C50_orphan_part_refuted.

(** The long name of a file that is gone goes to the next file, whose own name is not found. *)
Theorem C50_orphan_name_refuted :
  exists records, names records = Ok [Some (Ucs2Name x_docs_name)] /\
    (exists r, records = [r; mk_short x_readme 32 5 70] /\ byte r 13 <> name_checksum x_readme).
Proof.
  exists [mk_long 0x41 x_docs (x_fill 1 x_docs_name); mk_short x_readme 32 5 70].
  split; [vm_compute; reflexivity|]. eexists. split; [reflexivity|]. vm_compute. discriminate.
Qed.
Print Assumptions C50_orphan_name_refuted.

(** A record whose first byte is 0 is the one after the last, but is shown as a file, and so
    are those behind it, when the rest of it is not all 0. *)
Theorem C50_end_mark_refuted :
  exists r, hd 0 r = 0 /\ len r = 32 /\ names [r; mk_short x_readme 32 5 70] =
    Ok [Some (ByteName [0; 69; 65; 68; 77; 69; 46; 84; 88; 84]); Some (ByteName [82; 69; 65; 68; 77; 69; 46; 84; 88; 84])].
Proof. exists (0 :: skipn 1 (mk_short x_readme 32 5 70)). repeat split; vm_compute; reflexivity. Qed.
Print Assumptions C50_end_mark_refuted.

(** A file whose name begins with 0x05 is shown with that character, not with 0xe5. *)
Theorem C50_kanji_mark_refuted : names [mk_short (5 :: skipn 1 x_readme) 32 5 70] = Ok [Some (ByteName [5; 69; 65; 68; 77; 69; 46; 84; 88; 84])].
Proof. vm_compute. reflexivity. Qed.
Print Assumptions C50_kanji_mark_refuted.

(** The name a file in lower case is shown with does not find it. *)
Theorem C50_lower_case_refuted :
  exists r name s, read_records [r] = Ok s /\ names [r] = Ok [Some name] /\ dir_by_name case_mapping s name = Ok None.
Proof.
  exists (x_readme ++ [32; 0x18] ++ repeat 0 19), (ByteName [114; 101; 97; 100; 109; 101; 46; 116; 120; 116]).
  eexists. split; [vm_compute; reflexivity|]. split; vm_compute; reflexivity.
Qed.
Print Assumptions C50_lower_case_refuted.

(** Two files of the same name: only one is shown. *)
Theorem C50_same_names_refuted :
  exists s, read_records [mk_short x_readme 32 5 70; mk_short x_readme 32 6 80] = Ok s /\ dir_count s = 1.
Proof. eexists. split; vm_compute; reflexivity. Qed.
Print Assumptions C50_same_names_refuted.

(** A file with a long name is not found by its short name. *)
Theorem C50_short_name_refuted :
  fat_by_path case_mapping x_volume x_system [Ucs2Name []; Ucs2Name [68; 79; 67; 83; 126; 49]] = Ok None.
Proof. vm_compute. reflexivity. Qed.
Print Assumptions C50_short_name_refuted.

(** A file whose records are in two clusters loses its long name when it is asked for by its
    identifier; an identifier below 32 panics. *)
Theorem C50_identifier_refuted :
  (exists f, fat_by_identifier case_mapping x_volume x_system (de_identifier (entry_of x_a_file)) = Ok f /\
    ff_name f = Some (ByteName [65; 126; 49; 46; 67]) /\ ff_name (ff_of (entry_of x_a_file)) = Some (Ucs2Name x_a_name)) /\
  (forall volume sy id, wf_bytes volume -> id < 32 -> id + 32 <= len volume -> id <> sy_root_offset sy ->
    fat_by_identifier case_mapping volume sy id = Panic).
Proof.
  split.
  - eexists. split; [vm_compute; reflexivity|]. split; vm_compute; reflexivity.
  - intros volume sy id W H1 H2 H3. unfold fat_by_identifier. destruct (N.eqb_spec id (sy_root_offset sy)); [contradiction|].
    unfold entry_by_identifier, read_exact_at at 1. destruct (N.leb_spec (id + 32) (len volume)); [|lia]. cbn [bind].
    change (bytes_at volume id 32) with (snd (id, bytes_at volume id 32)). rewrite short_read.
    + cbn [bind]. unfold sub_chk at 1. destruct (N.leb_spec 32 id); [lia|reflexivity].
    + split; cbn [snd]; [rewrite len_bytes_at; lia|]. split; [now apply wf_bytes_at|]. unfold two63, two64 in *. cbn [fst]. lia.
Qed.
Print Assumptions C50_identifier_refuted.

(** Records in the clusters after the one that has the end of a directory are shown. *)
Theorem C50_behind_end_refuted :
  exists volume s, dir_read_clusters case_mapping volume x_table 2 = Ok s /\
    dir_count s = 1 /\ bytes_at volume 224 64 = repeat 0 64.
Proof.
  exists (flat_map (le_bytes 2) [0xfff8; 0xffff; 3; 0xffff] ++ repeat 0 216 ++ repeat 0 64 ++ mk_short x_readme 32 5 70 ++ repeat 0 32).
  eexists. split; [vm_compute; reflexivity|]. split; vm_compute; reflexivity.
Qed.
Print Assumptions C50_behind_end_refuted.

(** Boot records: 4084 clusters are FAT12, but taken for FAT16; sectors fewer than those of
    the tables panic. *)
Definition mk_boot (spc reserved tables entries sectors table_size : N) : list N :=
  repeat 0 11 ++ le_bytes 2 512 ++ [spc] ++ le_bytes 2 reserved ++ [tables] ++ le_bytes 2 entries ++ le_bytes 2 sectors ++
  [0xf8] ++ le_bytes 2 table_size ++ repeat 0 486 ++ [0x55; 0xaa].
Theorem C50_format_refuted :
  exists volume sy, fat_system_read case_mapping volume = Ok sy /\
    cluster_count (fat_boot_of (bytes_at volume 0 512)) = 4084 /\
    format_of (fat_boot_of (bytes_at volume 0 512)) = Fat12 /\ sy_format sy = Fat16.
Proof.
  exists (mk_boot 1 1 1 16 4098 12 ++ concat (repeat (repeat 0 512) 13)). eexists.
  split; [vm_compute; reflexivity|]. repeat split; vm_compute; reflexivity.
Qed.
Print Assumptions C50_format_refuted.
Theorem C50_sectors_refuted :
  exists volume, wf_bytes volume /\ fat_boot_ok (bytes_at volume 0 512) = true /\ fat_system_read case_mapping volume = Panic.
Proof.
  exists (mk_boot 1 1 2 16 10 12). split; [apply wf_bytesb_iff; vm_compute; reflexivity|]. split; vm_compute; reflexivity.
Qed.
Print Assumptions C50_sectors_refuted.

(** A boot record and root directory that meet the hypotheses of the theorem on the geometry. *)
Example C50_geometry_example :
  exists sy, fat_system_read case_mapping (mk_boot 1 1 2 16 100 1 ++ repeat 0 1024 ++ mk_short x_label 8 0 0 ++ repeat 0 480) = Ok sy /\
    sy_first_cluster sy = 2048 /\ sy_format sy = Fat12 /\ fat_volume_label sy = Some [68; 73; 83; 75].
Proof.
  eexists. split; [vm_compute; reflexivity|]. repeat split; vm_compute; reflexivity.
Qed.
