(** * C31: NTFS data runs *)
From Verif Require Import Base BaseLemmas Streams_model Ntfs_model Ntfs_spec Ntfs_proofs.

(** The encoding of any list of runs, anywhere in the data, followed by the end marker or
    by nothing: exactly the runs come back, with absolute cluster numbers, and the number
    of bytes used. *)
Theorem C31_decodes_what_was_encoded :
  forall runs bytes, encoded 0 runs bytes -> forall before after,
  read_data_runs (before ++ bytes ++ 0 :: after) (len before) =
    Ok (map as_data_run runs, len bytes + 1) /\
  read_data_runs (before ++ bytes) (len before) = Ok (map as_data_run runs, len bytes).
Proof.
  intros runs bytes He before after. pose proof (encoded_length _ _ _ He) as Hl.
  assert (G : forall rest, rest = [] \/ hd 1 rest = 0 ->
    read_data_runs (before ++ bytes ++ rest) (len before) =
      Ok (map as_data_run runs, len bytes + match rest with [] => 0 | _ => 1 end)).
  { intros rest Hr. unfold read_data_runs.
    rewrite (loop_encoded runs 0 bytes before rest []); auto.
    - cbn [bind app]. unfold sub_chk. set (e := match rest with [] => 0 | _ => 1 end).
      destruct (N.leb_spec (len before) (len before + len bytes + e)); [|lia]. cbn [bind].
      do 2 f_equal. lia.
    - unfold two63. lia.
    - rewrite !app_length. lia. }
  split.
  - apply (G (0 :: after)). now right.
  - specialize (G [] (or_introl eq_refl)). rewrite app_nil_r, N.add_0_r in G. exact G.
Qed.
Print Assumptions C31_decodes_what_was_encoded.

(** Arbitrary bytes. Missing for the full property: the sum of the previous cluster number
    and the relative one is not checked, and panics when it is not a signed 64-bit number.
    Nothing else panics, and a first run never does. *)
Theorem C31_no_panic_partial :
  forall data last, wf_bytes data -> data_run_read data last = Panic ->
  last <> 0 /\ exists relative, (- Z.of_N two63 <= relative < Z.of_N two63)%Z /\
    ~ (- Z.of_N two63 <= relative + as_i64 last < Z.of_N two63)%Z.
Proof.
  intros data last Hw H. destruct (data_run_read_cases data last Hw) as [(r & n & E & _)|[E|(_ & G)]];
    [congruence|congruence|exact G].
Qed.
Print Assumptions C31_no_panic_partial.

Theorem C31_no_panic_list_partial :
  forall data offset, wf_bytes data -> read_data_runs data offset = Panic ->
  exists k last, data_run_read (skipn k data) last = Panic.
Proof.
  intros data offset Hw H. unfold read_data_runs in H.
  destruct (data_runs_loop (S (length data)) data offset 0 []) as [[l e]| |] eqn:E; try discriminate.
  - cbn [bind] in H. apply loop_offset in E. unfold sub_chk in H.
    destruct (N.leb_spec offset e); [discriminate|lia].
  - apply loop_panic in E as (o & last & E); eauto. unfold len. lia.
Qed.
Print Assumptions C31_no_panic_list_partial.

(** Two runs of one cluster, each 2^63 - 1 clusters after the previous. *)
Theorem C31_no_panic_refuted :
  wf_bytes [0x81; 1; 255; 255; 255; 255; 255; 255; 255; 127; 0x81; 1; 255; 255; 255; 255; 255; 255; 255; 127] /\
  read_data_runs
    [0x81; 1; 255; 255; 255; 255; 255; 255; 255; 127; 0x81; 1; 255; 255; 255; 255; 255; 255; 255; 127] 0 = Panic.
Proof. split; [apply wf_bytesb_iff|]; vm_compute; reflexivity. Qed.
Print Assumptions C31_no_panic_refuted.

(** A file of three runs: 0x18 clusters from 0x5634, a hole of 2, 4 clusters 32 before. *)
Example C31_case :
  encoded 0 [Allocated 0x18 0x5634; Hole 2; Allocated 4 0x5614]
    [0x21; 0x18; 0x34; 0x56; 0x01; 2; 0x11; 4; 0xe0] /\
  read_data_runs [9; 0x21; 0x18; 0x34; 0x56; 0x01; 2; 0x11; 4; 0xe0; 0; 7] 1 =
    Ok ([{| block_number := 0x5634; number_of_blocks := 0x18; run_kind := InFile |};
         {| block_number := 0; number_of_blocks := 2; run_kind := Sparse |};
         {| block_number := 0x5614; number_of_blocks := 4; run_kind := InFile |}], 10).
Proof.
  split; [|vm_compute; reflexivity].
  apply (encoded_allocated 0 0x18 0x5634 1 2 [Hole 2; Allocated 4 0x5614] [0x01; 2; 0x11; 4; 0xe0]);
    [lia..| | | |]; [vm_compute; reflexivity|vm_compute; reflexivity|vm_compute; split; congruence|].
  apply (encoded_hole 0x5634 2 1 [Allocated 4 0x5614] [0x11; 4; 0xe0]); [lia|vm_compute; reflexivity|].
  apply (encoded_allocated 0x5634 4 0x5614 1 1 [] []); [lia..| | | |constructor];
    [vm_compute; reflexivity|vm_compute; reflexivity|vm_compute; split; congruence].
Qed.
