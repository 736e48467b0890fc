(** * C33: reading the content of a non-resident attribute of an NTFS file *)
From Verif Require Import Base BaseLemmas Streams_model Streams_spec Streams_proofs Blocks_model Blocks_proofs
  BlockTree_model Ntfs_model Ntfs_spec Ntfs_proofs.

(** An attribute whose runs, in any groups, lie in the volume: opening it succeeds, and
    every history of reads and seeks answers as a file with the content of the clusters,
    zeros in holes and from the valid data size on. *)
Theorem C33_reads_are_the_content :
  forall volume cluster_size runs groups allocated size valid unit_size,
  0 < cluster_size -> grouped 0 runs groups ->
  Forall (fun r => 0 < run_count r /\
    match r with
    | Allocated count cluster => (cluster + count) * cluster_size <= len volume
    | Hole _ => True
    end) runs ->
  clusters runs * cluster_size <= allocated -> allocated + cluster_size <= two64 ->
  valid <= clusters runs * cluster_size -> valid <= size -> size < two63 -> len volume < two64 ->
  exists stream,
    ntfs_block_stream_open cluster_size
      {| allocated_data_size := allocated; data_size := size; valid_data_size := valid;
         is_compressed := false; compression_unit_size := unit_size; data_cluster_groups := groups |} = Ok stream /\
    forall ops, seeks_ok size (attribute_content volume cluster_size runs size valid) 0 ops ->
    Streams_model.run (ntfs_block_stream_step volume stream) (tt, 0) ops =
      ((tt, fst (Streams_model.run (file_step size (attribute_content volume cluster_size runs size valid)) 0 ops)),
       snd (Streams_model.run (file_step size (attribute_content volume cluster_size runs size valid)) 0 ops)).
Proof.
  intros volume cs runs groups alloc size valid us Hcs Hg Hin Ha Hb Hv Hvs Hs Hvol.
  assert (Hpos : Forall (fun r => 0 < run_count r) runs).
  { eapply Forall_impl; [|exact Hin]. intros r Hr. apply Hr. }
  destruct (open_ranges cs runs groups alloc Hcs Hpos Hg Ha Hb) as (q & t & E1 & E2 & E3 & G).
  unfold ntfs_block_stream_open.
  cbn [allocated_data_size data_size valid_data_size is_compressed data_cluster_groups].
  rewrite E1. cbn [bind]. rewrite E2. cbn [bind]. rewrite E3. cbn [bind].
  eexists. split; [reflexivity|]. intros ops Hops.
  destruct (run_exact (fun _ => True) size (attribute_content volume cs runs size valid)
    (ntfs_block_rd volume {| ns_cluster_block_size := cs; ns_tree := t; ns_size := size; ns_valid_data_size := valid |}))
    with (ops := ops) (s := tt) (p := 0) as ([] & E & _); auto.
  - unfold ntfs_block_rd. cbn [ns_size]. apply blocks_rd_exact; [|unfold two63, two64 in *; lia].
    apply block_step_exact; auto; unfold two64 in *; lia.
  - unfold attribute_content. rewrite len_padded. lia.
  - unfold two63. lia.
Qed.
Print Assumptions C33_reads_are_the_content.

(** From the encoded runs to the content. *)
Theorem C33_from_the_encoded_runs :
  forall volume cluster_size runs bytes last allocated size valid unit_size,
  encoded 0 runs bytes -> last = two64 - 1 \/ last + 1 = clusters runs ->
  0 < cluster_size ->
  Forall (fun r => 0 < run_count r /\
    match r with
    | Allocated count cluster => (cluster + count) * cluster_size <= len volume
    | Hole _ => True
    end) runs ->
  clusters runs * cluster_size <= allocated -> allocated + cluster_size <= two64 ->
  valid <= clusters runs * cluster_size -> valid <= size -> size < two63 -> len volume < two64 ->
  exists decoded used stream,
    read_data_runs (bytes ++ [0]) 0 = Ok (decoded, used) /\
    ntfs_block_stream_open cluster_size
      {| allocated_data_size := allocated; data_size := size; valid_data_size := valid;
         is_compressed := false; compression_unit_size := unit_size;
         data_cluster_groups := [{| first_vcn := 0; last_vcn := last; data_runs := decoded |}] |} = Ok stream /\
    forall ops, seeks_ok size (attribute_content volume cluster_size runs size valid) 0 ops ->
    Streams_model.run (ntfs_block_stream_step volume stream) (tt, 0) ops =
      ((tt, fst (Streams_model.run (file_step size (attribute_content volume cluster_size runs size valid)) 0 ops)),
       snd (Streams_model.run (file_step size (attribute_content volume cluster_size runs size valid)) 0 ops)).
Proof.
  intros volume cs runs bytes last alloc size valid us He Hl Hcs Hin Ha Hb Hv Hvs Hs Hvol.
  assert (Hg : grouped 0 runs [{| first_vcn := 0; last_vcn := last; data_runs := map as_data_run runs |}]).
  { rewrite <- (app_nil_r runs) at 1. apply grouped_cons; [now rewrite N.add_0_l|constructor]. }
  destruct (C33_reads_are_the_content volume cs runs _ alloc size valid us Hcs Hg Hin Ha Hb Hv Hvs Hs Hvol)
    as (stream & E & H).
  exists (map as_data_run runs), (len bytes + 1), stream. split; [|auto].
  unfold read_data_runs. pose proof (encoded_length _ _ _ He).
  pose proof (loop_encoded runs 0 bytes [] [0] [] (S (length (bytes ++ [0]))) He) as El.
  cbn [app] in El. change (len (@nil N)) with 0 in El. rewrite El.
  - cbn [bind]. unfold sub_chk. destruct (N.leb_spec 0 (0 + len bytes + 1)); [|lia]. cbn [bind].
    do 2 f_equal. lia.
  - unfold two63. lia.
  - rewrite app_length. lia.
  - now right.
Qed.
Print Assumptions C33_from_the_encoded_runs.

(** A run of no clusters, which two bytes can encode, makes opening the file panic. *)
Theorem C33_empty_run_panics :
  read_data_runs [0x01; 0; 0] 0 = Ok ([{| block_number := 0; number_of_blocks := 0; run_kind := Sparse |}], 3) /\
  ntfs_block_stream_open 4096
    {| allocated_data_size := 4096; data_size := 10; valid_data_size := 10; is_compressed := false;
       compression_unit_size := 0;
       data_cluster_groups := [{| first_vcn := 0; last_vcn := two64 - 1;
         data_runs := [{| block_number := 0; number_of_blocks := 0; run_kind := Sparse |}] |}] |} = Panic.
Proof. vm_compute. auto. Qed.
Print Assumptions C33_empty_run_panics.

(** Clusters of 4 bytes: two allocated, a hole, one allocated; 14 bytes of which 13 are
    valid. *)
Example C33_case :
  let volume := seqN 100 40 in
  let runs := [Allocated 2 5; Hole 1; Allocated 1 1] in
  let groups := [{| first_vcn := 0; last_vcn := 2; data_runs := map as_data_run [Allocated 2 5; Hole 1] |};
                 {| first_vcn := 3; last_vcn := 3; data_runs := map as_data_run [Allocated 1 1] |}] in
  grouped 0 runs groups /\
  attribute_content volume 4 runs 14 13 =
    [120; 121; 122; 123; 124; 125; 126; 127; 0; 0; 0; 0; 104; 0] /\
  (stream <- ntfs_block_stream_open 4
     {| allocated_data_size := 16; data_size := 14; valid_data_size := 13; is_compressed := false;
        compression_unit_size := 0; data_cluster_groups := groups |} ;;
   Ok (snd (Streams_model.run (ntfs_block_stream_step volume stream) (tt, 0) [Read 5; Seek (SeekCurrent 2); Read 20]))) =
  Ok [Data (Ok [120; 121; 122; 123; 124]); Position (Ok 7); Data (Ok [127; 0; 0; 0; 0; 104; 0])].
Proof.
  split; [|vm_compute; auto].
  apply (grouped_cons 0 [Allocated 2 5; Hole 1] [Allocated 1 1] 2); [now right|].
  apply (grouped_cons 3 [Allocated 1 1] [] 3); [now right|constructor].
Qed.
