(** * C28: VHDX images *)
From Verif Require Import Base BaseLemmas Streams_model Streams_spec Streams_proofs BlockTree_model Blocks_model Lazy_model Lazy_proofs
  Image_spec Image_proofs Part_spec Vhdx_model Vhdx_spec Vhdx_proofs.
Ltac Zify.zify_post_hook ::= idtac.

(** Every set of parameters: a file is opened exactly if block size, sector size and table
    are in their limits, with the size of the disk, and never panics. *)
Theorem C28_open :
  forall p, xp_table_size p < two32 ->
  (vhdx_parameters_ok p /\ exists v, vhdx_open p = Ok v /\ xf_media_size v = xp_media_size p) \/
  (~ vhdx_parameters_ok p /\ vhdx_open p = Err).
Proof.
  intros p Ht. destruct (vhdx_open_shape p Ht) as [[H (v & E & Hv)]|H]; [left|right; exact H].
  split; [assumption|]. exists v. destruct Hv as (_ & _ & _ & _ & _ & H6 & _). auto.
Qed.
Print Assumptions C28_open.

(** Every image of any number of files: all histories of reads and seeks answer as the disk
    with, at each offset, the byte that the newest file stores for the sector, or the byte
    of its parent, or zero; the entry of a block is found past the bitmap entries of the
    chunks before it. Missing, see the refutations below: blocks of which only some sectors
    are stored, bitmaps that are not there, blocks that hide the parent's with zeros, and
    images of more than one chunk without flags. *)
Theorem C28_reads_are_the_disk_partial :
  forall files, Forall (fun f => vhdx_good (fst f) (snd f)) files -> vhdx_chain files ->
  let size := vhdx_size files in
  let content := disk_content (vhdx_disk files) size in
  exists fs, vhdx_open_files files = Ok fs /\
    forall ops, seeks_ok size content 0 ops ->
    let calls := run (chain_step (vhdx_layers fs)) (chain_start (vhdx_start fs)) ops in
    snd (fst calls) = fst (run (file_step size content) 0 ops) /\
    snd calls = snd (run (file_step size content) 0 ops).
Proof.
  intros files Hg Hc size content. destruct (vhdx_layers_ok files Hg Hc) as (fs & E & Hl & Hs & H63). exists fs. split; [exact E|].
  intros ops Hops. pose proof (chain_run (vhdx_layers fs) (vhdx_start fs) (vhdx_disk files) Hl) as R. rewrite Hs in R.
  apply R; [|exact H63|exact Hops]. destruct fs as [|[f v] fs]; reflexivity.
Qed.
Print Assumptions C28_reads_are_the_disk_partial.

(** Every sector bitmap is split into ranges that stand for its bits, from the lowest of
    each byte on, in the order of the sectors. *)
Theorem C28_bitmap :
  forall data sector_size, wf_bytes data -> 0 < len data -> 0 < sector_size ->
  exists ranges, bitmap_ranges false data sector_size = Ok ranges /\
    flat_map (fun r => repeat (snd r) (N.to_nat (fst r / sector_size))) ranges =
    flat_map (fun b => map (N.testbit b) [0; 1; 2; 3; 4; 5; 6; 7]) data.
Proof.
  intros data ss Hw Hl Hss. unfold bitmap_ranges. rewrite (idx_ok _ _ 0) by assumption. cbn [bind]. eexists. split; [reflexivity|].
  assert (Hbit : forall b i, N.land (N.shiftr b i) 1 = N.b2n (N.testbit b i)).
  { intros b i. change 1 with (N.ones 1). rewrite N.land_ones, N.pow_1_r, <- N.bit0_mod, N.shiftr_spec by lia. reflexivity. }
  rewrite (bitmap_loop_bits ss) with (n := 0%nat); [| lia | |cbn; lia].
  - cbn [repeat app]. clear. induction data as [|b data IH]; [reflexivity|]. cbn [flat_map]. rewrite map_app, IH. f_equal.
    unfold byte_bits. rewrite map_map. apply map_ext. intros i.
    change 1 with (N.ones 1). rewrite N.land_ones, N.pow_1_r, <- N.bit0_mod, N.shiftr_spec by lia. cbn [N.add]. destruct (N.testbit b i); reflexivity.
  - constructor.
    + cbn [N.land]. pose proof (N.land_ones (nth (N.to_nat 0) data 0) 1) as Hlo. change (N.ones 1) with 1 in Hlo. change (2 ^ 1) with 2 in Hlo.
      pose proof (N.mod_lt (nth (N.to_nat 0) data 0) 2 ltac:(lia)). rewrite <- Hlo in H. set (q := N.land _ 1) in *. clearbody q. clear - H. lia.
    + apply Forall_forall. intros y Hy. apply in_flat_map in Hy as (b & _ & Hy). unfold byte_bits in Hy.
      apply in_map_iff in Hy as (i & <- & _). rewrite Hbit. destruct (N.testbit b i); cbn; auto.
Qed.
Print Assumptions C28_bitmap.

(** ** Cases *)
Definition entries (l : list N) : list N := flat_map (le_bytes 8) l.
Definition params (flags size offset entries : N) : vhdx_parameters :=
  {| xp_flags := flags; xp_block_size := 0x1000000; xp_media_size := size; xp_sector_size := 512;
     xp_table_offset := offset; xp_table_size := 8 * entries |}.
Definition answers (files : list (list N * vhdx_parameters)) (ops : list stream_op) : res (list stream_out) :=
  fs <- vhdx_open_files files ;;
  Ok (snd (run (chain_step (vhdx_layers fs)) (chain_start (vhdx_start fs)) ops)).

(** Blocks of 16 MiB, so that a chunk has 256 blocks and a block a bitmap of 4096 bytes. To
    have small files, bitmaps and data are at offset zero. The newest file has a block
    that is not present and its bitmap, the file below it has one that is partially present
    with all of its sectors, and the file below both the whole block. *)
Definition newest : list N * vhdx_parameters :=
  (repeat 0 4096 ++ entries [0] ++ entries (repeat 0 256), params 2 16 4096 257).
Definition middle : list N * vhdx_parameters :=
  (repeat 255 4096 ++ entries [7] ++ entries (repeat 0 256), params 2 16 4096 257).
Definition oldest : list N * vhdx_parameters := (seqN 1 16 ++ entries [6; 0], params 1 16 16 2).
Lemma block_zero n p : n * xp_block_size p < xp_media_size p -> xp_media_size p <= xp_block_size p -> n = 0.
Proof. intros H1 H2. destruct (N.eq_dec n 0); [assumption|]. nia. Qed.
Example C28_case :
  Forall (fun f => vhdx_good (fst f) (snd f)) [newest; middle; oldest] /\ vhdx_chain [newest; middle; oldest] /\
  Forall (fun f => vhdx_good (fst f) (snd f)) [newest; oldest] /\ vhdx_chain [newest; oldest] /\
  map (vhdx_disk [newest; middle; oldest]) [0; 15] = [255; 255] /\ map (vhdx_disk [newest; oldest]) [0; 15] = [1; 16].
Proof.
  assert (Hw : forall l, wf_bytesb l = true -> wf_bytes l) by (intros l; apply wf_bytesb_iff).
  assert (G1 : vhdx_good (fst newest) (snd newest)).
  { constructor; [apply Hw; vm_compute; reflexivity|vm_compute; reflexivity|reflexivity| | | |].
    - repeat split; try (vm_compute; discriminate). left. reflexivity.
    - exists 24. reflexivity.
    - intros n Hn. apply block_zero in Hn; [|vm_compute; discriminate]. subst n. split; [split; [reflexivity|vm_compute; discriminate]|].
      intros H. exfalso. revert H. vm_compute. intros H. apply H. reflexivity.
    - left. split; [reflexivity|]. cbv zeta. intros n Hn. apply block_zero in Hn; [|vm_compute; discriminate]. subst n. right. exists 0.
      split; [left; split; vm_compute; reflexivity|].
      split; [vm_compute; reflexivity|]. split; [reflexivity|]. split; [vm_compute; discriminate|]. split; [vm_compute; discriminate|].
      vm_compute. reflexivity. }
  assert (G2 : vhdx_good (fst middle) (snd middle)).
  { constructor; [apply Hw; vm_compute; reflexivity|vm_compute; reflexivity|reflexivity| | | |].
    - repeat split; try (vm_compute; discriminate). left. reflexivity.
    - exists 24. reflexivity.
    - intros n Hn. apply block_zero in Hn; [|vm_compute; discriminate]. subst n. split; [split; [reflexivity|vm_compute; discriminate]|].
      intros _. vm_compute. discriminate.
    - left. split; [reflexivity|]. cbv zeta. intros n Hn. apply block_zero in Hn; [|vm_compute; discriminate]. subst n. right. exists 255.
      split; [right; split; [vm_compute; reflexivity|right; reflexivity]|].
      split; [vm_compute; reflexivity|]. split; [reflexivity|]. split; [vm_compute; discriminate|]. split; [vm_compute; discriminate|].
      vm_compute. reflexivity. }
  assert (G3 : vhdx_good (fst oldest) (snd oldest)).
  { constructor; [apply Hw; vm_compute; reflexivity|vm_compute; reflexivity|reflexivity| | | |].
    - repeat split; try (vm_compute; discriminate). left. reflexivity.
    - exists 24. reflexivity.
    - intros n Hn. apply block_zero in Hn; [|vm_compute; discriminate]. subst n. split; [split; [reflexivity|vm_compute; discriminate]|].
      intros _. vm_compute. discriminate.
    - right. split; [|left; reflexivity]. split; [reflexivity|]. intros n Hn. apply block_zero in Hn; [|vm_compute; discriminate]. subst n.
      vm_compute. discriminate. }
  split; [repeat (apply Forall_cons; [assumption|]); apply Forall_nil|].
  split; [right; split; [right; split; [left; reflexivity|vm_compute; discriminate]|vm_compute; discriminate]|].
  split; [repeat (apply Forall_cons; [assumption|]); apply Forall_nil|].
  split; [right; split; [left; reflexivity|vm_compute; discriminate]|].
  split; vm_compute; reflexivity.
Qed.
Example C28_case_reads :
  answers [newest; middle; oldest] [Seek (SeekStart 10); Read 4] = Ok [Position (Ok 10); Data (Ok [255; 255; 255; 255])] /\
  answers [newest; oldest] [Seek (SeekStart 10); Read 4; Read 10] = Ok [Position (Ok 10); Data (Ok [11; 12; 13; 14]); Data (Ok [15; 16])].
Proof. split; vm_compute; reflexivity. Qed.

(** ** What does not hold *)

(** Without flags the bitmap entries of the chunks are not passed over. *)
Definition chunks : list N * vhdx_parameters :=
  ([7; 7; 7; 7; 7; 7; 7; 7] ++ entries (repeat 0 17 ++ [6]), 
   {| xp_flags := 0; xp_block_size := 0x10000000; xp_media_size := 0x100000008; xp_sector_size := 512;
     xp_table_offset := 8; xp_table_size := 8 * 18 |}).
Theorem C28_chunks_refuted :
  map (vhdx_disk [chunks]) [0x100000000; 0x100000007] = [7; 7] /\
  answers [chunks] [Seek (SeekStart 0x100000000); Read 2] = Ok [Position (Ok 0x100000000); Data (Ok [0; 0])].
Proof. split; vm_compute; reflexivity. Qed.
Print Assumptions C28_chunks_refuted.

(** A block that is not present, in a chunk that has no bitmap: what is at offset zero of
    the file, its signature, is taken as the bitmap, and sectors of the file as stored. *)
Definition small_params (size offset : N) : vhdx_parameters :=
  {| xp_flags := 2; xp_block_size := 0x100000; xp_media_size := size; xp_sector_size := 512;
     xp_table_offset := offset; xp_table_size := 8 * 4097 |}.
Definition no_bitmap : list N * vhdx_parameters :=
  ([0x76; 0x68; 0x64; 0x78; 0x66; 0x69; 0x6c; 0x65] ++ repeat 0 2040 ++ repeat 0 (8 * 4097), small_params 1024 2048).
Definition below : list N * vhdx_parameters := (repeat 5 1024 ++ entries [6; 0], params 1 1024 1024 2).
Theorem C28_no_bitmap_refuted :
  map (vhdx_disk [no_bitmap; below]) [511; 512; 1023] = [5; 5; 5] /\
  answers [no_bitmap; below] [Seek (SeekStart 510); Read 4] = Ok [Position (Ok 510); Data (Ok [5; 5; 0; 0])].
Proof. split; vm_compute; reflexivity. Qed.
Print Assumptions C28_no_bitmap_refuted.

(** A block of zeros on top of a parent: the content of the parent is read. *)
Definition zero_block : list N * vhdx_parameters :=
  (repeat 0 4096 ++ entries (2 :: repeat 0 256), params 2 1024 4096 257).
Theorem C28_zero_block_refuted :
  map (vhdx_disk [zero_block; below]) [0; 1023] = [0; 0] /\
  answers [zero_block; below] [Read 2] = Ok [Data (Ok [5; 5])].
Proof. split; vm_compute; reflexivity. Qed.
Print Assumptions C28_zero_block_refuted.

(** A file with a parent and blocks that stay allocated, flags 3: the parent is not read. *)
Theorem C28_flags_refuted :
  let newest := (fst newest, params 3 16 4096 257) in
  map (vhdx_disk [newest; oldest]) [0; 15] = [1; 16] /\ answers [newest; oldest] [Read 2] = Ok [Data (Ok [0; 0])].
Proof. split; vm_compute; reflexivity. Qed.
Print Assumptions C28_flags_refuted.

(** What can be read depends on what was read before: once a whole block has been looked
    up, a block of which some sectors are stored cannot be. *)
Definition history : list N * vhdx_parameters :=
  (repeat 1 1024 ++ entries [6; 7] ++ repeat 0 (8 * 4095), small_params 0x100400 1024).
Theorem C28_history_refuted :
  map (vhdx_disk [history]) [0x100000; 0x100001] = [1; 1] /\
  answers [history] [Seek (SeekStart 0x100000); Read 2] = Ok [Position (Ok 0x100000); Data (Ok [1; 1])] /\
  answers [history] [Read 2; Seek (SeekStart 0x100000); Read 2] = Ok [Data (Ok [1; 1]); Position (Ok 0x100000); Data Err].
Proof. split; [|split]; vm_compute; reflexivity. Qed.
Print Assumptions C28_history_refuted.
