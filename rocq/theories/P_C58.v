(** * C58: files of the Windows overlay filter *)
From Verif Require Import Base BaseLemmas Streams_model Streams_spec Streams_proofs Part_spec Part_model Headers_model Headers_spec Headers_proofs BlockTree_model
  Blocks_model Blocks_proofs Lru_model Udif_proofs Ntfs_model Ntfs_spec Ntfs_proofs NtfsCompressed_model NtfsFs_model NtfsFs_spec NtfsFs_proofs Wof_model Wof_spec Wof_proofs.
From Verif Require P_C33 P_C53 P_C55.
From Coq Require Import Permutation.
Ltac Zify.zify_post_hook ::= idtac.

(** The attributes [l] of the file have a data stream [name] in the clusters of [runs]: in one
    piece or more, in any order; [q] is the piece with the first cluster, which has the sizes. *)
Definition in_clusters (l : list mft_attribute) (name : option (list N)) (q : mft_attribute) (runs : list run) : Prop :=
  exists p groups, nth_error (pieces name 0x80 l) 0 = Some p /\ flag (ma_non_resident p) 0 = true /\
    In q (pieces name 0x80 l) /\ starts q /\
    Permutation groups (flat_map ma_groups (pieces name 0x80 l)) /\ NoDup (map first_vcn groups) /\ grouped 0 runs groups.

(** A read of a block stream. *)
Lemma block_read_at volume cs runs groups alloc size valid us stream : 0 < cs -> grouped 0 runs groups -> runs_inside volume cs runs ->
  clusters runs * cs <= alloc -> alloc + cs <= two64 -> valid <= clusters runs * cs -> valid <= size -> size < two63 -> len volume < two64 ->
  ntfs_block_stream_open cs {| allocated_data_size := alloc; data_size := size; valid_data_size := valid;
         is_compressed := false; compression_unit_size := us; data_cluster_groups := groups |} = Ok stream ->
  forall o n, o + n <= valid -> nc_read_at volume stream o n = Ok (bytes_at (flat_map (run_content volume cs) runs) o n).
Proof.
  intros Hcs Hg Hin Ha Hb Hv Hvs Hs Hvol Eo o n Hon.
  assert (Hpos : Forall (fun r => 0 < run_count r) runs).
  { eapply Forall_impl; [| exact Hin]. intros r Hr. apply Hr. }
  destruct (open_ranges cs runs groups alloc Hcs Hpos Hg Ha Hb) as (q & t & E1 & E2 & E3 & G).
  unfold ntfs_block_stream_open in Eo.
  cbn [allocated_data_size data_size valid_data_size is_compressed data_cluster_groups] in Eo.
  rewrite E1 in Eo. cbn [bind] in Eo. rewrite E2 in Eo. cbn [bind] in Eo. rewrite E3 in Eo. cbn [bind] in Eo. injection Eo as <-.
  assert (X : exact_rd (fun _ => True) size (attribute_content volume cs runs size valid)
    (ntfs_block_rd volume {| ns_cluster_block_size := cs; ns_tree := t; ns_size := size; ns_valid_data_size := valid |})).
  { unfold ntfs_block_rd. cbn [ns_size]. apply blocks_rd_exact; [| unfold two63, two64 in *; lia].
    apply block_step_exact; auto; unfold two64 in *; lia. }
  unfold nc_read_at, stream_read. cbn [ns_size]. destruct (N.leb_spec size o).
  - assert (n = 0) as -> by lia. unfold bytes_at. cbn. reflexivity.
  - assert (R : (if size - o <? n then size - o else n) = n) by (destruct (N.ltb_spec (size - o) n); lia). rewrite R.
    destruct (X tt o n I ltac:(lia) ltac:(lia)) as (u & Eq & _). rewrite Eq. unfold add_chk.
    assert (len (bytes_at (attribute_content volume cs runs size valid) o n) <= n) by (rewrite len_bytes_at; lia).
    unfold two63, two64 in *. destruct (N.ltb_spec (o + len (bytes_at (attribute_content volume cs runs size valid) o n)) 18446744073709551616); [| lia].
    cbn [snd]. f_equal. unfold attribute_content.
    assert (L : len (flat_map (run_content volume cs) runs) = clusters runs * cs) by (apply len_contents; exact Hin).
    rewrite bytes_at_padded_data by (rewrite ?len_bytes_at; lia). now rewrite bytes_at_bytes_at by lia.
Qed.

(** The file of the Windows overlay filter with the chunks [chunks]: its data has the size of
    the file, the data stream WofCompressedData what is stored of the chunks. Opening it gives a
    stream that under every history of reads and seeks answers as the file. Missing: LZXPRESS
    Huffman, which is a parameter, since its source is not in /repo, and the LZX chunks that
    C55 excludes. *)
Theorem C58_file_reads_back_partial :
  forall xpress volume cluster_size l s method unit_size chunks q runs q' runs' stream reparse,
  shows l s -> content_of_type 0xc0 l = Some reparse -> reparse_value reparse = Overlay method -> wof_method method unit_size ->
  in_clusters l None q runs -> in_clusters l wof_name q' runs' -> Forall (fun a => ma_flags a mod 256 = 0) (pieces wof_name 0x80 l) ->
  0 < cluster_size -> len volume < two64 -> runs_inside volume cluster_size runs' ->
  clusters runs' * cluster_size <= ma_allocated q' -> ma_allocated q' + cluster_size <= two64 ->
  ma_valid q' <= clusters runs' * cluster_size -> ma_valid q' <= ma_data_size q' -> ma_data_size q' < two63 ->
  (chunks <> [] -> wof_cut unit_size chunks) -> Forall (wof_stored (wof_encodes xpress method unit_size)) chunks ->
  wof_bytes chunks stream -> ma_valid q' = len stream ->
  bytes_at (flat_map (run_content volume cluster_size) runs') 0 (len stream) = stream ->
  let file := flat_map fst chunks in
  ma_valid q = len file -> len file < two63 ->
  exists w v, data_stream_by_name s cluster_size None = Ok (Some (WofStream method w (len file))) /\
    wof_open cluster_size method w (len file) = Ok v /\
    forall ops, seeks_ok (len file) file 0 ops ->
    let calls := Streams_model.run (wof_stream_step xpress volume v) wof_start ops in
    snd (fst calls) = fst (Streams_model.run (file_step (len file) file) 0 ops) /\
    snd calls = snd (Streams_model.run (file_step (len file) file) 0 ops).
Proof.
  intros xpress volume cs l s method u chunks q runs q' runs' stream reparse S HR HM HU HQ HQ' HF Hcs Hvol Hin A1 A2 V1 V2 Z Hcut Hst Hb Hv Hsb file Hq Hf.
  destruct HQ as (p & groups & P1 & P2 & P4 & P5 & P6 & P7 & P8).
  destruct HQ' as (p' & groups' & P1' & P2' & P4' & P5' & P6' & P7' & P8').
  destruct (P_C53.whole_attribute l s None _ p q groups runs S eq_refl P1 P4 P5 P6 P7 P8) as (a & Ea & K1 & _ & _ & K4).
  destruct (P_C53.whole_attribute l s wof_name _ p' q' groups' runs' S eq_refl P1' P4' P5' P6' P7' P8') as (w & Ew & W1 & W2 & W3 & W4).
  unfold sizes in K4, W4. injection K4 as _ _ Z3 _ _. injection W4 as W41 W42 W43 W44 W45.
  destruct (P_C33.C33_reads_are_the_content volume cs runs' groups' (ma_allocated q') (ma_data_size q') (ma_valid q') (ma_unit q')) as (st & E1 & _); auto.
  assert (P3' : ma_flags p' mod 256 = 0) by (rewrite Forall_forall in HF; apply HF; eapply nth_error_In; exact P1').
  exists w. eexists. split; [| split].
  - unfold data_stream_by_name. rewrite Ea, (shows_reparse _ _ S), HR. cbn [option_map]. rewrite HM.
    unfold ma_is_resident. rewrite land_one, K1, P2. cbn [negb N.eqb check bind]. rewrite Ew. cbn [of_option bind]. rewrite Z3, Hq. reflexivity.
  - unfold wof_open, ma_is_resident, ma_stream, ma_is_compressed. rewrite land_one, W1, P2', land_low, W2, P3'. cbn [negb N.eqb check bind].
    rewrite W3, W41, W42, W43, W44, E1. cbn [bind].
    assert (UU : wof_unit_size method = Ok u) by (destruct HU as [[-> ->] | [[-> ->] | [[-> ->] | [-> ->]]]]; reflexivity).
    rewrite UU. cbn [bind]. reflexivity.
  - intros ops Hops. cbv zeta. match goal with |- context [wof_stream_step _ _ ?x] => set (v := x) end.
    destruct Hb as (width & Hs & Hw).
    assert (X : exists J, J ([], lru_new 8) /\ exact_rd J (len file) file (wof_rd xpress volume v)).
    { assert (D : chunks = [] \/ chunks <> []) by (destruct chunks; [left; reflexivity | right; discriminate]). destruct D as [D | Hne].
      - exists (fun _ => True). split; [exact I |]. intros s' o n _ Ho. unfold file in Ho. rewrite D in Ho. cbn in Ho. lia.
      - exists (state_ok chunks width). split; [split; [left; reflexivity | apply cache_ok_new] |].
        pose proof (wof_rd_exact xpress volume v chunks stream width HU (Hcut Hne) Hst Hs Hw Hv eq_refl Hf) as X. apply X.
        intros o n Hon. unfold wof_read_exact. change (wf_stream v) with st.
        rewrite (block_read_at volume cs runs' groups' (ma_allocated q') (ma_data_size q') (ma_valid q') (ma_unit q') st) by (auto; lia).
        assert (Eb : bytes_at (flat_map (run_content volume cs) runs') o n = bytes_at stream o n).
        { rewrite <- Hsb at 1. rewrite bytes_at_bytes_at by lia. reflexivity. }
        cbn [bind]. rewrite Eb. rewrite len_bytes_at. replace (N.min n (len stream - o)) with n by lia. rewrite N.eqb_refl. reflexivity. }
    destruct X as (J & J0 & X).
    destruct (run_exact J (len file) file (wof_rd xpress volume v) X ltac:(lia) Hf ops ([], lru_new 8) 0 J0 eq_refl Hops) as (s' & E & _).
    unfold wof_stream_step, wof_start. change (wf_size v) with (len file). rewrite E. auto.
Qed.
Print Assumptions C58_file_reads_back_partial.

(** ** A case *)
(** A file of 4099 bytes: 4096 zeros, stored in one byte by a compressor that knows nothing
    else, and three bytes as they are. The stream is in the clusters 5 and 2, of 4 bytes, of the
    volume; the data is a hole. *)
Definition C58_xpress (data buffer : list N) : res (list N * N) :=
  match data with [0] => Ok (buffer, len buffer) | _ => Err end.
Definition C58_volume : list N := [90; 90; 90; 90; 90; 90; 90; 90; 0; 7; 8; 9; 90; 90; 90; 90; 90; 90; 90; 90; 1; 0; 0; 0].
Definition C58_chunks : list (list N * list N) := [(repeat 0 4096, [0]); ([7; 8; 9], [7; 8; 9])].
Definition C58_stream : list N := [1; 0; 0; 0; 0; 7; 8; 9].
Definition C58_entry : list N :=
  [70; 73; 76; 69; 48; 0; 2; 0; 7; 0; 0; 0; 0; 0; 0; 0; 3; 0; 1; 0; 56; 0; 1; 0; 0; 0; 0; 0; 0; 2; 0; 0; 0;
   0; 0; 0; 0; 0; 0; 0; 0; 0; 0; 0; 0; 0; 0; 0; 17; 34; 0; 0; 0; 0; 0; 0; 128; 0; 0; 0; 72; 0; 0; 0; 1; 0; 64;
   0; 0; 0; 0; 0; 0; 0; 0; 0; 0; 0; 0; 0; 0; 4; 0; 0; 0; 0; 0; 0; 64; 0; 0; 0; 0; 0; 0; 0; 4; 16; 0; 0; 0; 0; 0;
   0; 3; 16; 0; 0; 0; 0; 0; 0; 3; 16; 0; 0; 0; 0; 0; 0; 2; 1; 4; 0; 0; 0; 0; 0; 128; 0; 0; 0; 112; 0; 0; 0; 1;
   17; 64; 0; 0; 0; 0; 0; 0; 0; 0; 0; 0; 0; 0; 0; 1; 0; 0; 0; 0; 0; 0; 0; 104; 0; 0; 0; 0; 0; 0; 0; 8; 0; 0; 0;
   0; 0; 0; 0; 8; 0; 0; 0; 0; 0; 0; 0; 8; 0; 0; 0; 0; 0; 0; 0; 87; 0; 111; 0; 102; 0; 67; 0; 111; 0; 109; 0;
   112; 0; 114; 0; 101; 0; 115; 0; 115; 0; 101; 0; 100; 0; 68; 0; 97; 0; 116; 0; 97; 0; 0; 0; 0; 0; 0; 0; 17; 1;
   5; 17; 1; 253; 0; 0; 192; 0; 0; 0; 48; 0; 0; 0; 0; 0; 0; 0; 0; 0; 0; 0; 24; 0; 0; 0; 24; 0; 0; 0; 23; 0; 0;
   128; 16; 0; 0; 0; 1; 0; 0; 0; 2; 0; 0; 0; 1; 0; 0; 0; 0; 0; 0; 0; 255; 255; 255; 255; 0; 0; 0; 0; 0; 0; 0; 0;
   0; 0; 0; 0; 0; 0; 0; 0; 0; 0; 0; 0; 0; 0; 0; 0; 0; 0; 0; 0; 0; 0; 0; 0; 0; 0; 0; 0; 0; 0; 0; 0; 0; 0; 0; 0;
   0; 0; 0; 0; 0; 0; 0; 0; 0; 0; 0; 0; 0; 0; 0; 0; 0; 0; 0; 0; 0; 0; 0; 0; 0; 0; 0; 0; 0; 0; 0; 0; 0; 0; 0; 0;
   0; 0; 0; 0; 0; 0; 0; 0; 0; 0; 0; 0; 0; 0; 0; 0; 0; 0; 0; 0; 0; 0; 0; 0; 0; 0; 0; 0; 0; 0; 0; 0; 0; 0; 0; 0;
   0; 0; 0; 0; 0; 0; 0; 0; 0; 0; 0; 0; 0; 0; 0; 0; 0; 0; 0; 0; 0; 0; 0; 0; 0; 0; 0; 0; 0; 0; 0; 0; 0; 0; 0; 0;
   0; 0; 0; 0; 0; 0; 0; 0; 0; 0; 0; 0; 0; 0; 0; 0; 0; 0; 0; 0; 0; 0; 0; 0; 0; 0; 0; 0; 0; 0; 0; 0; 0; 0; 0; 0;
   0; 0; 0; 0; 0; 0; 0; 0; 0; 0; 0; 0; 0; 0; 0; 0; 0; 0; 0; 0; 0; 0; 0; 0; 0; 0; 0; 0; 0; 0; 17; 34].
Definition C58_attributes : list mft_attribute := Eval vm_compute in
  [non_resident_of (skipn 56 (entry_record C58_entry)) (map as_data_run [Hole 1025]);
   non_resident_of (skipn 128 (entry_record C58_entry)) (map as_data_run [Allocated 1 5; Allocated 1 2]);
   resident_of (skipn 240 (entry_record C58_entry))].
Lemma C58_sound : buffer C58_entry /\ entry_ok C58_entry.
Proof.
  split; [split; [apply wf_bytesb_iff; vm_compute; reflexivity | vm_compute; reflexivity] |].
  unfold entry_ok, record_ok. repeat match goal with |- _ /\ _ => split end; try (vm_compute; (reflexivity || discriminate)).
  change (sectors C58_entry) with 1. intros k Hk. assert (k = 0) as -> by lia. split; vm_compute; reflexivity.
Qed.
Ltac next_resident := eapply attributes_more; [vm_compute; discriminate | vm_compute; discriminate | apply attribute_resident; vm_compute; reflexivity |].
Ltac next_runs runs bytes := eapply attributes_more; [vm_compute; discriminate | vm_compute; discriminate |
  apply (attribute_non_resident _ runs bytes); [vm_compute; reflexivity | vm_compute; reflexivity | | vm_compute; reflexivity] |].
Lemma C58_has : attributes_from (entry_record C58_entry) (field C58_entry 20 2) C58_attributes /\ sound C58_attributes.
Proof.
  assert (E1 : encoded 0 [Hole 1025] [0x02; 1; 4]).
  { apply (encoded_hole 0 1025 2 [] []); [lia | reflexivity | constructor]. }
  assert (E2 : encoded 0 [Allocated 1 5; Allocated 1 2] [0x11; 1; 5; 0x11; 1; 0xfd]).
  { apply (encoded_allocated 0 1 5 1 1 [Allocated 1 2] [0x11; 1; 0xfd]); [lia | lia | reflexivity | unfold two63; lia | cbn; lia |].
    apply (encoded_allocated 5 1 2 1 1 [] []); [lia | lia | reflexivity | unfold two63; lia | cbn; lia | constructor]. }
  split.
  - assert (H : exists l, attributes_from (entry_record C58_entry) (field C58_entry 20 2) l /\ l = C58_attributes).
    { eexists. split.
      - next_runs [Hole 1025] [0x02; 1; 4]; [exact E1 |]. next_runs [Allocated 1 5; Allocated 1 2] [0x11; 1; 5; 0x11; 1; 0xfd]; [exact E2 |].
        next_resident. apply attributes_end; vm_compute; (reflexivity || discriminate).
      - vm_compute. reflexivity. }
    destruct H as (l & H & <-). exact H.
  - split.
    + unfold C58_attributes. repeat (apply FOP_cons; [repeat apply Forall_cons; try apply Forall_nil |]); try apply FOP_nil;
        unfold compatible; cbn [ma_type ma_name ma_non_resident]; intros H1 H2 H3; try discriminate; try congruence.
    + unfold C58_attributes, resident. repeat apply Forall_cons; try apply Forall_nil;
        cbn [ma_type ma_name ma_non_resident ma_resident_data]; (split; [| split]); intros E; try discriminate.
      split; [reflexivity | split; reflexivity].
Qed.
Example C58_case : exists s q q' reparse,
  shows C58_attributes s /\ content_of_type 0xc0 C58_attributes = Some reparse /\ reparse_value reparse = Overlay 0 /\
  in_clusters C58_attributes None q [Hole 1025] /\ in_clusters C58_attributes wof_name q' [Allocated 1 5; Allocated 1 2] /\
  Forall (fun a => ma_flags a mod 256 = 0) (pieces wof_name 0x80 C58_attributes) /\
  runs_inside C58_volume 4 [Allocated 1 5; Allocated 1 2] /\ ma_allocated q' = 8 /\ ma_data_size q' = 8 /\ ma_valid q' = 8 /\ ma_valid q = 4099 /\
  wof_cut 4096 C58_chunks /\ Forall (wof_stored (wof_encodes C58_xpress 0 4096)) C58_chunks /\ wof_bytes C58_chunks C58_stream /\
  bytes_at (flat_map (run_content C58_volume 4) [Allocated 1 5; Allocated 1 2]) 0 8 = C58_stream.
Proof.
  destruct C58_has as [H1 H2]. destruct C58_sound as [B1 B2].
  destruct (P_C53.C53_attributes C58_entry C58_attributes B1 B2 H1 H2) as (e & s & _ & _ & S).
  set (q := nth 0 C58_attributes (resident_of [])). set (q' := nth 1 C58_attributes (resident_of [])).
  exists s, q, q', (ma_resident_data (nth 2 C58_attributes (resident_of []))).
  split; [exact S |]. clear. split; [vm_compute; reflexivity |]. split; [vm_compute; reflexivity |].
  assert (P1 : pieces None 0x80 C58_attributes = [q]) by (vm_compute; reflexivity).
  assert (P2 : pieces wof_name 0x80 C58_attributes = [q']) by (vm_compute; reflexivity).
  unfold in_clusters. rewrite P1, P2.
  split. { exists q, (ma_groups q). split; [reflexivity |]. split; [reflexivity |]. split; [left; reflexivity |].
    split; [eexists; split; [reflexivity | reflexivity] |]. cbn [flat_map]. rewrite app_nil_r. split; [reflexivity |].
    split; [vm_compute; constructor; [intros [] | constructor] |].
    apply (grouped_cons 0 [Hole 1025] [] 1024 []); [right; reflexivity | constructor]. }
  split. { exists q', (ma_groups q'). split; [reflexivity |]. split; [reflexivity |]. split; [left; reflexivity |].
    split; [eexists; split; [reflexivity | reflexivity] |]. cbn [flat_map]. rewrite app_nil_r. split; [reflexivity |].
    split; [vm_compute; constructor; [intros [] | constructor] |].
    apply (grouped_cons 0 [Allocated 1 5; Allocated 1 2] [] 1 []); [right; reflexivity | constructor]. }
  split; [constructor; [reflexivity | constructor] |].
  split; [repeat constructor; vm_compute; congruence |]. do 4 (split; [reflexivity |]).
  split; [cbn [wof_cut C58_chunks]; split; [vm_compute; reflexivity | vm_compute; split; [reflexivity | discriminate]] |].
  split. { constructor; [| constructor; [left; reflexivity | constructor]]. right. split; [vm_compute; split; reflexivity |].
    right. split; [left; reflexivity |]. exists [], 4096. vm_compute. reflexivity. }
  split; [| vm_compute; reflexivity]. exists 4%nat. split; [vm_compute; reflexivity |]. left. split; reflexivity.
Qed.

(** A chunk of 161 bytes that LZX makes smaller. *)
Definition C58_block : Lzx_spec.lzx_block_of := Lzx_spec.Coded P_C55.codes1
  ([Lzx_spec.XLiteral 97; Lzx_spec.XLiteral 98; Lzx_spec.XMatch 4 0 10; Lzx_spec.XLiteral 232; Lzx_spec.XLiteral 98; Lzx_spec.XLiteral 0;
    Lzx_spec.XLiteral 0; Lzx_spec.XLiteral 0; Lzx_spec.XRecent 0 3] ++ repeat (Lzx_spec.XMatch 4 0 10) 14 ++ [Lzx_spec.XLiteral 97]).
Definition C58_bits : list bool := Eval vm_compute in Lzx_spec.block_bits false Lzx_spec.first_context C58_block.
Definition C58_padding : list bool := Eval vm_compute in repeat false (16 - length C58_bits mod 16).
Definition C58_data : list N := Eval vm_compute in let b := C58_bits ++ C58_padding in P_C55.pack (length b) b.
Definition C58_text : list N := Eval vm_compute in
  match Lzx_model.lzx_decompress C58_data (repeat 0 400) with Ok (b, n) => firstn (N.to_nat n) b | _ => [] end.
Lemma C58_block_valid : Lzx_spec.block_valid 0 false Lzx_spec.first_context C58_block.
Proof.
  unfold Lzx_spec.block_valid, C58_block. P_C55.splits; try P_C55.easy_goal.
  - destruct P_C55.block1_valid as (_ & _ & V & _). exact V.
  - cbn [repeat app]. P_C55.token_goal.
Qed.
Example C58_lzx_case : forall xpress, wof_stored (wof_encodes xpress 1 32768) (C58_text, C58_data) /\ len C58_text = 161.
Proof.
  intros xpress. split; [| vm_compute; reflexivity]. right. split; [vm_compute; split; reflexivity |]. left. split; [reflexivity |].
  exists [(false, C58_block)], C58_padding. split.
  { unfold P_C55.lzx_encodes. split; [apply P_C55.wf_forallb; vm_compute; reflexivity |]. split; [vm_compute; reflexivity |].
    split; [split; [exact C58_block_valid | exact I] |]. vm_compute. reflexivity. }
  split. { cbn [Lzx_spec.blocks_taken]. split; [| split; exact I]. exists 1. split; vm_compute; reflexivity. }
  split; [apply P_C55.wf_forallb; vm_compute; reflexivity |]. split; [vm_compute; discriminate |]. right.
  split; [vm_compute; repeat constructor |]. split; [vm_compute; reflexivity |].
  intros before short padding q l E. destruct before as [| b [| b' before]]; discriminate E.
Qed.

(** ** Where the property does not hold *)
Definition C58_attribute (size : N) : mft_attribute :=
  {| ma_type := 0x80; ma_size := 112; ma_name := wof_name; ma_allocated := size; ma_data_size := size; ma_valid := size; ma_unit := 0;
     ma_compressed := 0; ma_resident_data := []; ma_non_resident := 1; ma_flags := 0;
     ma_groups := [{| first_vcn := 0; last_vcn := 0; data_runs := [as_data_run (Allocated 1 0)] |}] |}.

(** A table with an offset outside of the stream: the first read is an error, but the offsets
    before it are kept, and the next read answers with data, or panics when its chunk is not one
    of these. The answers depend on the history. *)
Definition C58_outside : list N := [255; 255; 255; 255; 255; 255; 255; 255] ++ repeat 7 4096.
Theorem C58_history_refuted : exists v, wof_open 4104 0 (C58_attribute 4104) 8193 = Ok v /\
  forall xpress, let answers ops := snd (Streams_model.run (wof_stream_step xpress C58_outside v) wof_start ops) in
  answers [Read 1; Read 1] = [Data Err; Data (Ok [7])] /\
  answers [Read 1; Seek (SeekStart 4096); Read 1] = [Data Err; Position (Ok 4096); Data Panic].
Proof. eexists. split; [vm_compute; reflexivity |]. intros xpress answers. split; vm_compute; reflexivity. Qed.
Print Assumptions C58_history_refuted.

(** Offsets that go down make a read panic. *)
Definition C58_descending : list N := [5; 0; 0; 0; 3; 0; 0; 0; 0; 0; 0; 0; 0; 0; 0; 0].
Theorem C58_no_panic_refuted : exists v, wof_open 16 0 (C58_attribute 16) 8193 = Ok v /\
  forall xpress, snd (Streams_model.run (wof_stream_step xpress C58_descending v) wof_start [Seek (SeekStart 4096); Read 1]) =
    [Position (Ok 4096); Data Panic].
Proof. eexists. split; [vm_compute; reflexivity |]. intros xpress. vm_compute. reflexivity. Qed.
Print Assumptions C58_no_panic_refuted.
