(** * C34: reading the content of a compressed attribute of an NTFS file *)
From Verif Require Import Base BaseLemmas Streams_model Streams_spec Blocks_model BlockTree_model Lru_model Lz_model Ntfs_model Ntfs_spec Ntfs_proofs
  Udif_proofs NtfsCompressed_model NtfsCompressed_spec NtfsCompressed_proofs.

(** A compressed attribute whose runs, in any groups, lie in the volume and make whole
    units, in each of which the allocated clusters come first, and whose compressed units
    can be decompressed: opening it succeeds, and every history of seeks and of reads that
    are aligned, stay in a unit, or start in a unit that is allocated completely, answers
    as a file with the decompressed content, up to the valid data size. Missing: other
    reads, and attributes whose valid data size is less than their size. *)
Theorem C34_reads_are_the_content_partial :
  forall volume cluster_size runs groups u size valid,
  0 < cluster_size -> 0 < u -> 2 <= u * cluster_size -> grouped 0 runs groups ->
  Forall (fun r => 0 < run_count r /\
    match r with
    | Allocated count cluster => (cluster + count) * cluster_size <= len volume
    | Hole _ => True
    end) runs ->
  units_ok runs u -> clusters runs mod u = 0 -> units_decompress volume cluster_size runs u ->
  clusters runs * cluster_size + u * cluster_size <= two64 -> len volume < two64 ->
  valid <= clusters runs * cluster_size -> valid < two63 ->
  exists v,
    ntfs_compressed_open cluster_size
      {| allocated_data_size := clusters runs * cluster_size; data_size := size; valid_data_size := valid;
         is_compressed := true; compression_unit_size := u; data_cluster_groups := groups |} = Ok v /\
    len (compressed_content volume cluster_size runs u valid) = valid /\
    forall ops, seeks_ok valid (compressed_content volume cluster_size runs u valid) 0 ops ->
    reads_ok (read_ok cluster_size runs u) valid (compressed_content volume cluster_size runs u valid) 0 ops ->
    snd (Streams_model.run (nc_stream_step volume v) nc_start ops) =
    snd (Streams_model.run (file_step valid (compressed_content volume cluster_size runs u valid)) 0 ops).
Proof.
  intros volume cs runs groups u size valid Hcs Hu HU Hg Hin Hok Hm Hd Hb Hvol Hv Hv63.
  destruct (compressed_open_ok volume cs u runs groups (clusters runs * cs) size valid Hcs Hu Hin Hg Hok eq_refl Hm Hb Hvol)
    as (v & E & E1 & E2 & E3 & E4 & E5).
  exists v. split; [exact E|].
  assert (Hl : len (compressed_content volume cs runs u valid) = valid) by (apply len_compressed_content with v; assumption).
  split; [exact Hl|]. intros ops Hs Hr.
  destruct (run_exact_on (read_ok cs runs u) (cache_ok (unit_cached volume cs u runs) 8) valid (compressed_content volume cs runs u valid) (nc_step volume v)) with
    (ops := ops) (s := lru_new (V := list N) 8) (p := 0) as (s' & Er & _); auto.
  - apply nc_step_exact; assumption.
  - apply cache_ok_new.
  - unfold two63. lia.
  - unfold nc_stream_step, nc_rd, nc_start. rewrite E2, Er. reflexivity.
Qed.
Print Assumptions C34_reads_are_the_content_partial.

(** Units of two clusters of 8 bytes. The first unit is one cluster of compressed data for
    16 times 97, the second is stored in clusters 2 and 3, the third is a hole, 42 bytes. *)
Definition volume : list N :=
  repeat 255 8 ++ [0x03; 0xb0; 0x02; 97; 0x0c; 0x00; 0; 0] ++ seqN 200 16.
Definition runs : list run := [Allocated 1 1; Hole 1; Allocated 2 2; Hole 2].
Definition attribute (size valid : N) : ntfs_attribute :=
  {| allocated_data_size := 48; data_size := size; valid_data_size := valid; is_compressed := true; compression_unit_size := 2;
     data_cluster_groups := [{| first_vcn := 0; last_vcn := 5; data_runs := map as_data_run runs |}] |}.
Definition read_history (size valid : N) (ops : list stream_op) : res (list stream_out) :=
  v <- ntfs_compressed_open 8 (attribute size valid) ;; Ok (snd (Streams_model.run (nc_stream_step volume v) nc_start ops)).

Example C34_case :
  compressed_content volume 8 runs 2 42 = repeat 97 16 ++ seqN 200 16 ++ repeat 0 10 /\
  read_history 42 42 [Read 20; Seek (SeekStart 5); Read 3; Read 3; Seek (SeekStart 17); Read 100] =
  Ok [Data (Ok (repeat 97 16 ++ [200; 201; 202; 203])); Position (Ok 5); Data (Ok [97; 97; 97]); Data (Ok [97; 97; 97]);
      Position (Ok 17); Data (Ok (seqN 201 15 ++ repeat 0 10))].
Proof. vm_compute. auto. Qed.
(** The theorem's hypotheses hold for this attribute, and for its histories. *)
Example C34_case_hypotheses :
  grouped 0 runs (data_cluster_groups (attribute 42 42)) /\ clusters runs = 6 /\ units_ok runs 2 /\ units_decompress volume 8 runs 2 /\
  reads_ok (read_ok 8 runs 2) 42 (compressed_content volume 8 runs 2 42) 0
    [Read 20; Seek (SeekStart 5); Read 3; Read 3; Seek (SeekStart 17); Read 100].
Proof.
  split; [|split; [reflexivity|split; [|split]]].
  - apply (grouped_cons 0 runs [] 5); [now right|constructor].
  - intros i Hi Ha.
    assert (Hlt : i < 5).
    { destruct (N.ltb_spec i 5); [assumption|exfalso]. cbn [runs allocated run_count] in Ha.
      repeat match type of Ha with context [?a <? ?b] => destruct (N.ltb_spec a b); [lia|] end. discriminate. }
    assert (C : forallb (fun i => implb (negb ((i + 1) mod 2 =? 0) && allocated runs (i + 1)) (allocated runs i)) (seqN 0 5) = true) by (vm_compute; reflexivity).
    rewrite forallb_forall in C. specialize (C i ltac:(apply in_seqN; lia)). rewrite Ha in C. apply N.eqb_neq in Hi. rewrite Hi in C. exact C.
  - intros j Hj Hc. exists (unit_content volume 8 runs 2 j). change (clusters runs / 2) with 3 in Hj.
    assert (E : j = 0) by (destruct (N.eq_dec j 0) as [|]; [assumption|]; assert (j = 1 \/ j = 2) as [-> | ->] by lia; discriminate Hc).
    subst j. exists 16. vm_compute. reflexivity.
  - cbn [reads_ok]. unfold read_ok. vm_compute. repeat split; intros _; first [left; reflexivity|right; left; discriminate|right; right; reflexivity].
Qed.

(** A read that starts within a compressed unit and ends after it panics. *)
Theorem C34_crossing_read_refuted :
  read_history 42 42 [Seek (SeekStart 5); Read 16] = Ok [Position (Ok 5); Data Panic] /\
  bytes_at (compressed_content volume 8 runs 2 42) 5 16 = repeat 97 11 ++ [200; 201; 202; 203; 204].
Proof. vm_compute. auto. Qed.
Print Assumptions C34_crossing_read_refuted.

(** The content of an attribute ends at its valid data size: the zeros that follow are not
    read. *)
Theorem C34_size_refuted :
  read_history 42 20 [Read 100] = Ok [Data (Ok (repeat 97 16 ++ [200; 201; 202; 203]))].
Proof. vm_compute. reflexivity. Qed.
Print Assumptions C34_size_refuted.

(** Every read of an attribute without compressed units and holes is covered. *)
Theorem C34_allocated_reads : forall cluster_size runs u valid c p ops,
  (forall i, i < clusters runs -> allocated runs i = true) -> clusters runs mod u = 0 -> 0 < u -> 0 < cluster_size -> valid <= clusters runs * cluster_size ->
  reads_ok (read_ok cluster_size runs u) valid c p ops.
Proof.
  intros cs rs u valid c p ops Ha Hm Hu Hcs Hv. revert p. induction ops as [|op ops IH]; intros p; [exact I|]. split; [|apply IH].
  destruct op as [n|]; [|exact I]. intros Hp. right. right. apply Ha.
  assert (0 < u * cs) by (apply N.mul_pos_pos; assumption).
  destruct (multiple (clusters rs) u Hu Hm) as [K EK].
  assert (p / (u * cs) < K). { apply N.div_lt_upper_bound; [lia|]. rewrite EK in Hv. lia. }
  assert ((p / (u * cs) + 1) * u <= K * u) by (apply N.mul_le_mono_r; lia). lia.
Qed.
Print Assumptions C34_allocated_reads.
