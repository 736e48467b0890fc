(** * C37: the partitions of a Master Boot Record *)
From Verif Require Import Base BaseLemmas Streams_spec Blocks_model Part_model Part_spec Part_proofs.
Ltac Zify.zify_post_hook ::= idtac.

(** Every disk with a boot record and at most one extended partition, whose chain of at most
    255 extended boot records is complete, read with its sector size: the partitions given
    out, by index and in order, are those of the boot record, with the offsets of the
    format, followed by those of each extended boot record, with offsets relative to the
    first extended boot record. Missing: the format has them relative to the record with
    the entry; see [C37_second_logical_refuted]. *)
Theorem C37_partitions_partial :
  forall volume sector_size first ebrs,
  wf_bytes volume -> 0 < sector_size <= 65536 -> boot_record volume 0 ->
  extended_at volume sector_size first ebrs -> (length ebrs <= 255)%nat ->
  exists system parts, mbr_read volume sector_size = Ok system /\ gives (mbr_partition_at system) parts /\
    map as_partition parts = map (partition_of sector_size 0) (primary_entries volume) ++
      flat_map (fun o => map (partition_of sector_size first) (logical_entries volume o)) ebrs.
Proof. intros. now apply mbr_read_ok. Qed.
Print Assumptions C37_partitions_partial.

(** With one extended boot record, or none, they are the partitions of the format. *)
Theorem C37_partitions :
  forall volume sector_size first ebrs,
  wf_bytes volume -> 0 < sector_size <= 65536 -> boot_record volume 0 ->
  extended_at volume sector_size first ebrs -> (length ebrs <= 1)%nat ->
  exists system parts, mbr_read volume sector_size = Ok system /\ gives (mbr_partition_at system) parts /\
    map as_partition parts = mbr_partitions volume sector_size ebrs.
Proof.
  intros volume b first ebrs Hw Hb Hr Hx Hn.
  destruct (mbr_read_ok volume b first ebrs) as (system & parts & E & G & M); auto; [lia|].
  exists system, parts. split; [assumption|]. split; [assumption|]. rewrite M. unfold mbr_partitions. f_equal.
  unfold extended_at in Hx. destruct ebrs as [|o [|? ?]]; [reflexivity| |cbn in Hn; lia].
  destruct (filter _ _) as [|e [|? ?]]; [destruct Hx; discriminate| |contradiction].
  destruct Hx as (_ & _ & Hc). inversion Hc; subst; reflexivity.
Qed.
Print Assumptions C37_partitions.

(** Reading a boot record ends without panic, for every disk and sector size. *)
Theorem C37_terminates :
  forall volume sector_size, wf_bytes volume -> sector_size <= 65536 -> mbr_read volume sector_size <> Panic.
Proof. intros. now apply mbr_read_panic. Qed.
Print Assumptions C37_terminates.

(** A chain with 255 extended boot records that each link to a next, such as a cyclic
    chain, is rejected. *)
Theorem C37_cyclic_rejected :
  forall volume sector_size e,
  wf_bytes volume -> 0 < sector_size <= 65536 -> boot_record volume 0 ->
  filter extended (table_entries volume 0) = [e] -> te_start e <> 0 ->
  ebr_path volume sector_size (te_start e * sector_size) (te_start e * sector_size) 255 ->
  mbr_read volume sector_size = Err.
Proof.
  intros volume b e Hw Hb Hr He Hs Hp. unfold mbr_read.
  destruct (boot_record_shape volume 0) as [[_ (id & Eb)]|[Hn' _]]; [|contradiction]. rewrite Eb. cbn [bind].
  assert (Hb0 : (b =? 0) = false) by (apply N.eqb_neq; lia). rewrite Hb0.
  pose proof (mbr_primary_ok b ltac:(lia) (table_entries volume 0) 0 0 (table_entries_ok volume 0 Hw)) as P.
  pose proof (table_entries_ok volume 0 Hw) as Hte.
  assert (Hte' : te_ok e).
  { assert (In e (filter extended (table_entries volume 0))) as Hin by (rewrite He; left; reflexivity).
    apply filter_In in Hin as [Hin _]. rewrite Forall_forall in Hte. apply Hte, Hin. }
  rewrite He in P. destruct (P eq_refl) as (kept & E & _ & _). rewrite E. cbn [bind].
  destruct (N.eqb_spec (te_start e * b) 0); [nia|].
  rewrite (mbr_extended_path volume b (te_start e * b) Hw ltac:(lia) ltac:(destruct Hte'; unfold two32, two63 in *; nia)
    ltac:(lia) (te_start e * b) 255 Hp 256 4) by lia. reflexivity.
Qed.
Print Assumptions C37_cyclic_rejected.

(** Without a sector size set, that of a disk with an extended partition is the first of 512,
    1024, 2048 and 4096 with which there is a boot record signature at its start. *)
Theorem C37_sector_size :
  forall volume e more pre sector_size post,
  filter extended (table_entries volume 0) = e :: more ->
  [512; 1024; 2048; 4096] = pre ++ sector_size :: post ->
  bytes_at volume (te_start e * sector_size + 510) 2 = [0x55; 0xaa] ->
  (forall other, In other pre -> bytes_at volume (te_start e * other + 510) 2 <> [0x55; 0xaa]) ->
  mbr_read volume 0 = mbr_read volume sector_size.
Proof.
  intros volume e more pre b post He Hsz Hsig Hpre. unfold mbr_read.
  destruct (boot_record_shape volume 0) as [[_ (id & Eb)]|[_ Eb]]; rewrite Eb; cbn [bind]; [|reflexivity].
  change (0 =? 0) with true. cbv iota. rewrite find_filter, filter_raw, He. cbn [map].
  assert (Hin : In b [512; 1024; 2048; 4096]) by (rewrite Hsz; apply in_or_app; right; left; reflexivity).
  assert (Hb0 : (b =? 0) = false) by (apply N.eqb_neq; cbn in Hin; lia). rewrite Hb0.
  change (me_start (raw_entry e)) with (te_start e).
  assert (D : mbr_detect volume (te_start e) mbr_sector_sizes [0; 0] = b).
  { unfold mbr_sector_sizes. rewrite Hsz. apply mbr_detect_found; [reflexivity| |assumption].
    intros b' Hb'. split; [|apply Hpre, Hb']. clear - Hsz Hb'.
    destruct pre as [|x1 [|x2 [|x3 [|x4 pre]]]]; cbn [app] in Hsz; injection Hsz; intros; subst; cbn in Hb';
      try lia; try discriminate. destruct pre; discriminate. }
  rewrite D, Hb0. reflexivity.
Qed.
Print Assumptions C37_sector_size.

(** ** Cases *)
Definition pad n (l : list N) : list N := l ++ repeat 0 (n - length l).
Definition entry_bytes (flags type start sectors : N) : list N :=
  [flags; 0; 0; 0; type; 0; 0; 0] ++ le_bytes 4 start ++ le_bytes 4 sectors.
Definition record_bytes (entries : list N) : list N := repeat 0 446 ++ pad 64 entries ++ [0x55; 0xaa].
(** A primary partition and two logical partitions, of 2 sectors each. *)
Definition disk : list N :=
  record_bytes (entry_bytes 0x80 0x83 9 2 ++ entry_bytes 0 5 1 8) ++
  record_bytes (entry_bytes 0 0x83 1 2 ++ entry_bytes 0 5 3 4) ++ repeat 0 1024 ++
  record_bytes (entry_bytes 0 0x83 1 2).
Example C37_case :
  wf_bytesb disk = true /\ boot_record disk 0 /\ extended_at disk 512 512 [512; 2048] /\
  map (partition_of 512 0) (primary_entries disk) =
    [{| p_offset := 4608; p_size := 1024; p_type := 0x83; p_flags := 0x80 |}] /\
  mbr_read disk 0 = mbr_read disk 512.
Proof.
  split; [vm_compute; reflexivity|]. split; [split; [vm_compute; discriminate|vm_compute; reflexivity]|].
  split; [|split; vm_compute; reflexivity].
  unfold extended_at. replace (filter extended (table_entries disk 0)) with
    [{| te_flags := 0; te_type := 5; te_start := 1; te_sectors := 8 |}] by (vm_compute; reflexivity).
  split; [discriminate|]. split; [reflexivity|].
  eapply chain_link; [split; [vm_compute; discriminate|vm_compute; reflexivity]|vm_compute; reflexivity|].
  apply chain_last; [split; [vm_compute; discriminate|vm_compute; reflexivity]|vm_compute; reflexivity].
Qed.

(** The second logical partition, at sector 5, is reported at sector 2, within the first. *)
Theorem C37_second_logical_refuted :
  exists volume ebrs system parts, boot_record volume 0 /\ extended_at volume 512 512 ebrs /\
    mbr_read volume 512 = Ok system /\ gives (mbr_partition_at system) parts /\
    map p_offset (mbr_partitions volume 512 ebrs) = [4608; 1024; 2560] /\
    map mp_offset parts = [4608; 1024; 1024].
Proof.
  destruct C37_case as (W & B & X & _ & _).
  destruct (C37_partitions_partial disk 512 512 [512; 2048] (proj1 (wf_bytesb_iff _) W) ltac:(lia) B X ltac:(cbn; lia))
    as (system & parts & E & G & M).
  exists disk, [512; 2048], system, parts. split; [assumption|]. split; [assumption|]. split; [assumption|].
  split; [assumption|]. split; [vm_compute; reflexivity|].
  apply (f_equal (map p_offset)) in M. rewrite map_map in M. etransitivity; [exact M|]. vm_compute. reflexivity.
Qed.
Print Assumptions C37_second_logical_refuted.

(** A chain whose second record links to itself. *)
Definition looping : list N :=
  record_bytes (entry_bytes 0 5 1 8) ++ record_bytes (entry_bytes 0 5 1 4) ++ record_bytes (entry_bytes 0 5 1 2).
Example C37_case_cyclic : forall n, ebr_path looping 512 512 512 n /\ ebr_path looping 512 512 1024 n.
Proof.
  induction n as [|n [IH1 IH2]]; [split; constructor|].
  split; (eapply path_link; [split; [vm_compute; discriminate|vm_compute; reflexivity]|vm_compute; reflexivity|exact IH2]).
Qed.
Example C37_case_cyclic_rejected : mbr_read looping 512 = Err.
Proof.
  apply (C37_cyclic_rejected looping 512 {| te_flags := 0; te_type := 5; te_start := 1; te_sectors := 8 |}).
  - apply wf_bytesb_iff. vm_compute. reflexivity.
  - lia.
  - split; [vm_compute; discriminate|vm_compute; reflexivity].
  - vm_compute. reflexivity.
  - discriminate.
  - apply (C37_case_cyclic 255).
Qed.

(** Without an extended partition the sector size is guessed: the largest with which the
    last partition is inside the disk. On a disk of 2048 bytes, the partition of the second
    sector of 512 bytes is given out at 1024. *)
Theorem C37_sector_size_refuted :
  let volume := record_bytes (entry_bytes 0 0x83 1 1) ++ repeat 0 1536 in
  exists system, mbr_read volume 0 = Ok system /\ ms_bytes_per_sector system = 1024 /\
    mbr_partition_at system 0 =
      Ok {| mp_index := 0; mp_offset := 1024; mp_size := 1024; mp_type := 0x83; mp_flags := 0 |}.
Proof. eexists. split; [vm_compute; reflexivity|]. split; vm_compute; reflexivity. Qed.
Print Assumptions C37_sector_size_refuted.
