(** * C36: ext block maps, extents and file content *)
From Verif Require Import Base BaseLemmas Streams_model Streams_spec Streams_proofs BlockTree_model
  Blocks_model Blocks_proofs Ext_model Ext_spec Ext_proofs.
Ltac Zify.zify_post_hook ::= idtac.

(** Every volume, block size that is a multiple of 4, number of blocks and inode data: the
    block map is read as the ranges that follow each other from block 0 and describe the
    [total] blocks of the map, unless a block with block numbers is outside the volume. *)
Theorem C36_block_map :
  forall volume block_size total data_reference,
  wf_bytes volume -> len volume < two64 -> wf_bytes data_reference -> len data_reference = 60 ->
  4 <= block_size <= 65536 -> block_size mod 4 = 0 -> total < two63 ->
  (exists ranges, block_numbers_read volume block_size total data_reference = Ok ranges /\
     contiguous 0 ranges /\ described ranges = mapped_blocks volume block_size total data_reference /\
     len (described ranges) = total) \/
  (block_numbers_read volume block_size total data_reference = Err /\
   ~ (tree_inside volume block_size 1 (nth 12 (words data_reference) 0) /\
      tree_inside volume block_size 2 (nth 13 (words data_reference) 0) /\
      tree_inside volume block_size 3 (nth 14 (words data_reference) 0))).
Proof.
  intros volume bs total ref Hw Hv Hwr Hlr Hbs Hm Ht.
  destruct (block_numbers_ok volume bs total ref) as [(ranges & E & H1 & H2 & _)|H]; auto.
  { unfold geometry. lia. }
  left. exists ranges. split; [assumption|]. split; [assumption|]. split; [assumption|].
  rewrite H2. unfold mapped_blocks, len. cbv zeta. rewrite firstn_length, !app_length, repeat_length. lia.
Qed.
Print Assumptions C36_block_map.

(** A file with such a map and its blocks in the volume: every history of reads and seeks
    answers as a file with the content of its blocks in order, zeros for holes. *)
Theorem C36_block_map_reads :
  forall volume block_size total data_reference size,
  wf_bytes volume -> len volume < two64 -> wf_bytes data_reference -> len data_reference = 60 ->
  4 <= block_size <= 65536 -> block_size mod 4 = 0 -> total * block_size < two63 ->
  size <= total * block_size ->
  tree_inside volume block_size 1 (nth 12 (words data_reference) 0) ->
  tree_inside volume block_size 2 (nth 13 (words data_reference) 0) ->
  tree_inside volume block_size 3 (nth 14 (words data_reference) 0) ->
  let blocks := mapped_blocks volume block_size total data_reference in
  Forall (fun b => b = 0 \/ b * block_size + block_size <= len volume) blocks ->
  exists ranges stream, block_numbers_read volume block_size total data_reference = Ok ranges /\
    ext_stream_open block_size size total ranges = Ok stream /\
    forall ops, seeks_ok size (blocks_content volume block_size blocks size) 0 ops ->
    run (ext_stream_step volume stream) (tt, 0) ops =
      ((tt, fst (run (file_step size (blocks_content volume block_size blocks size)) 0 ops)),
       snd (run (file_step size (blocks_content volume block_size blocks size)) 0 ops)).
Proof.
  intros volume bs total ref size Hw Hv Hwr Hlr Hbs Hm Ht Hs T1 T2 T3 blocks Hin.
  assert (Ht63 : total < two63) by nia.
  destruct (block_numbers_ok volume bs total ref) as [(ranges & E & H1 & H2 & H3)|[_ H]]; auto.
  { unfold geometry. lia. }
  2: { exfalso. auto. }
  assert (Hl : len blocks = total).
  { unfold blocks, mapped_blocks, len. cbv zeta. rewrite firstn_length, !app_length, repeat_length. lia. }
  destruct (ext_reads volume bs ranges size) as (stream & E' & R); auto; rewrite ?H2; fold blocks; rewrite ?Hl; auto;
    try (unfold two63, two64 in *; lia).
  exists ranges, stream. split; [assumption|]. rewrite H2 in E', R. fold blocks in E', R. rewrite Hl in E'. auto.
Qed.
Print Assumptions C36_block_map_reads.

(** Every tree of at most five levels whose extents, in the order of the tree, are sorted
    and do not overlap: the ranges follow each other from block 0, describe the blocks of
    the extents with the holes between them, and holes up to [total]. *)
Theorem C36_extents :
  forall volume block_size total data_reference depth extents,
  len volume < two64 -> len data_reference < two64 ->
  extents_node volume block_size depth data_reference extents ->
  sorted_extents 0 extents -> len (extent_blocks 0 extents) <= total ->
  exists ranges, extents_read volume block_size total data_reference = Ok ranges /\
    contiguous 0 ranges /\
    described ranges =
      extent_blocks 0 extents ++ repeat 0 (N.to_nat (total - len (extent_blocks 0 extents))).
Proof.
  intros volume bs total ref depth extents Hv Hr Hn Hs Ht.
  destruct (extents_read_ok volume bs total ref depth extents) as (ranges & E & H1 & H2 & _); auto.
  { eapply extents_node_extents_ok; eassumption. }
  exists ranges. auto.
Qed.
Print Assumptions C36_extents.

Theorem C36_extents_reads :
  forall volume block_size total data_reference depth extents size,
  len volume < two64 -> len data_reference < two64 -> 0 < block_size -> total * block_size < two63 ->
  size <= total * block_size ->
  extents_node volume block_size depth data_reference extents ->
  sorted_extents 0 extents -> len (extent_blocks 0 extents) <= total ->
  let blocks := extent_blocks 0 extents ++ repeat 0 (N.to_nat (total - len (extent_blocks 0 extents))) in
  Forall (fun b => b = 0 \/ b * block_size + block_size <= len volume) blocks ->
  exists ranges stream, extents_read volume block_size total data_reference = Ok ranges /\
    ext_stream_open block_size size total ranges = Ok stream /\
    forall ops, seeks_ok size (blocks_content volume block_size blocks size) 0 ops ->
    run (ext_stream_step volume stream) (tt, 0) ops =
      ((tt, fst (run (file_step size (blocks_content volume block_size blocks size)) 0 ops)),
       snd (run (file_step size (blocks_content volume block_size blocks size)) 0 ops)).
Proof.
  intros volume bs total ref depth extents size Hv Hr Hbs Ht Hsz Hn Hs Hl blocks Hin.
  destruct (extents_read_ok volume bs total ref depth extents) as (ranges & E & H1 & H2 & H3); auto.
  { eapply extents_node_extents_ok; eassumption. }
  fold blocks in H2.
  assert (Hlen : len blocks = total).
  { unfold blocks. rewrite len_app. unfold len at 2. rewrite repeat_length. lia. }
  destruct (ext_reads volume bs ranges size) as (stream & E' & R); auto; rewrite ?H2, ?Hlen; auto;
    try (unfold two63, two64 in *; lia).
  exists ranges, stream. rewrite H2 in E', R. rewrite Hlen in E'. auto.
Qed.
Print Assumptions C36_extents_reads.

(** Whatever the bytes, reading the extents ends; it panics only if a node claims more
    entries than it has room for. *)
Theorem C36_extents_panic_only_if_overfull_partial :
  forall volume block_size total data_reference,
  wf_bytes volume -> len volume < two64 -> wf_bytes data_reference -> len data_reference < two64 ->
  block_size <= 65536 ->
  extents_read volume block_size total data_reference = Panic ->
  exists node, (node = data_reference \/
                exists b, b * block_size + block_size <= len volume /\ node = block_at volume block_size b) /\
    len node < 12 + 12 * le_value (bytes_at node 2 2).
Proof.
  intros volume bs total ref Hw Hv Hwr Hlr Hbs E. unfold extents_read in E.
  destruct (extents_node_read 6 volume bs ref 6 ([], 0)) as [[r l]| |] eqn:E0; cbn [bind] in E; try discriminate.
  destruct (extents_node_panic volume bs Hw Hv Hbs 6%nat ref 6 ([], 0)) as [H|(b & Hb & H)]; auto; try lia.
  - exists ref. auto.
  - exists (block_at volume bs b). split; [|assumption]. right. exists b. auto.
Qed.
Print Assumptions C36_extents_panic_only_if_overfull_partial.

(** An inode holds four extents; one that claims five makes reading panic. *)
Theorem C36_no_panic_refuted :
  let inode := encode_header 5 4 0 [0; 0; 0; 0] ++ repeat 0 48 in
  len inode = 60 /\ extents_read [] 4096 1 inode = Panic.
Proof. vm_compute. auto. Qed.
Print Assumptions C36_no_panic_refuted.

(** An extent of no blocks, and extents that are not sorted: neither is rejected when the
    extents are read. The ranges of the first make opening the file panic; those of the
    second are neither contiguous nor as many blocks as the file has. *)
Theorem C36_malformed_extents_refuted :
  let empty := encode_header 1 4 0 [0; 0; 0; 0] ++
    encode_extent {| x_logical := 0; x_count := 0; x_physical := 7; x_written := true |} ++ repeat 0 36 in
  let unsorted := encode_header 2 4 0 [0; 0; 0; 0] ++
    encode_extent {| x_logical := 2; x_count := 1; x_physical := 7; x_written := true |} ++
    encode_extent {| x_logical := 0; x_count := 3; x_physical := 5; x_written := true |} ++ repeat 0 24 in
  (ranges <- extents_read [] 16 1 empty ;; ext_stream_open 16 16 1 ranges) = Panic /\
  (ranges <- extents_read [] 16 3 unsorted ;; Ok (described ranges)) = Ok [0; 0; 7; 5; 6; 7].
Proof. vm_compute. auto. Qed.
Print Assumptions C36_malformed_extents_refuted.

(** ** Cases *)
(** Blocks of 8 bytes: twelve direct block numbers, 3, 4, 5, then holes; one level of
    indirection through block 2, which has the numbers 6 and 0. *)
Example C36_block_map_case :
  let volume := seqN 0 16 ++ le_bytes 4 6 ++ le_bytes 4 0 ++ seqN 24 40 in
  let reference := flat_map (le_bytes 4) ([3; 4; 5] ++ repeat 0 9 ++ [2; 0; 0]) in
  mapped_blocks volume 8 15 reference = [3; 4; 5] ++ repeat 0 9 ++ [6; 0; 0] /\
  block_numbers_read volume 8 15 reference =
    Ok [ {| er_logical := 0; er_physical := 3; er_count := 3; er_sparse := false |};
         {| er_logical := 3; er_physical := 0; er_count := 9; er_sparse := true |};
         {| er_logical := 12; er_physical := 6; er_count := 1; er_sparse := false |};
         {| er_logical := 13; er_physical := 0; er_count := 2; er_sparse := true |} ] /\
  tree_inside volume 8 1 (nth 12 (words reference) 0) /\
  Forall (fun b => b = 0 \/ b * 8 + 8 <= len volume) (mapped_blocks volume 8 15 reference).
Proof.
  cbv zeta. split; [vm_compute; reflexivity|]. split; [vm_compute; reflexivity|].
  split; [right; split; [vm_compute; discriminate|]; repeat apply Forall_cons; try exact I; apply Forall_nil|].
  match goal with |- Forall _ ?l => let l' := eval vm_compute in l in change l with l' end.
  repeat first [apply Forall_nil | apply Forall_cons; [first [left; reflexivity | right; vm_compute; discriminate]|]].
Qed.

(** Blocks of 48 bytes: an index in the inode, a leaf in block 1 with an extent at logical
    block 1 and one that is not written. *)
Example C36_extents_case :
  let extents := [ {| x_logical := 1; x_count := 1; x_physical := 3; x_written := true |};
                   {| x_logical := 2; x_count := 1; x_physical := 3; x_written := false |} ] in
  let leaf := encode_header 2 3 0 [1; 2; 3; 4] ++ flat_map encode_extent extents ++ repeat 9 12 in
  let volume := repeat 0 48 ++ leaf ++ repeat 0 48 ++ seqN 100 48 in
  let inode := encode_header 1 4 1 [0; 0; 0; 0] ++ encode_index 0 1 0 0 ++ repeat 0 36 in
  extents_node volume 48 1 inode extents /\ sorted_extents 0 extents /\
  extent_blocks 0 extents = [0; 3; 0] /\
  extents_read volume 48 4 inode =
    Ok [ {| er_logical := 0; er_physical := 0; er_count := 1; er_sparse := true |};
         {| er_logical := 1; er_physical := 3; er_count := 1; er_sparse := false |};
         {| er_logical := 2; er_physical := 3; er_count := 1; er_sparse := true |};
         {| er_logical := 3; er_physical := 0; er_count := 1; er_sparse := true |} ].
Proof.
  cbv zeta. split; [|split; [cbn; lia|split; vm_compute; reflexivity]].
  apply (index_node _ _ 1 [encode_index 0 1 0 0] _ 4 [0; 0; 0; 0] (repeat 0 36)); try reflexivity; [lia|].
  match goal with |- indexed _ _ _ _ ?l => rewrite <- (app_nil_r l) end.
  apply (some_index _ _ 1 0 1 0 0 0); try reflexivity; [| |constructor].
  - vm_compute. discriminate.
  - match goal with |- extents_node _ _ _ ?d _ => let d' := eval vm_compute in d in change d with d' end.
    apply (leaf_node _ _ [ {| x_logical := 1; x_count := 1; x_physical := 3; x_written := true |};
                   {| x_logical := 2; x_count := 1; x_physical := 3; x_written := false |} ] 3 [1; 2; 3; 4] (repeat 9 12));
      try reflexivity.
    repeat apply Forall_cons; [| |apply Forall_nil]; unfold extent_ok; cbn;
      (split; [reflexivity|]; split; [reflexivity|]; split; [lia|]; intros; lia).
Qed.
