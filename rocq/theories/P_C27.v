(** * C27: VHD images *)
From Verif Require Import Base BaseLemmas Streams_model Streams_spec Streams_proofs BlockTree_model Blocks_model Lazy_model Lazy_proofs
  Image_spec Image_proofs Part_spec Vhd_model Vhd_spec Vhd_proofs.
Ltac Zify.zify_post_hook ::= idtac.

(** Every file: it is opened exactly if its footer and header are well-formed, with the
    type and size they have, and never panics. *)
Theorem C27_open :
  forall file, wf_bytes file -> len file < two64 ->
  (vhd_header_ok file /\ exists v, vhd_open file = Ok v /\
     vf_disk_type v = vhd_type file /\ vf_media_size v = vhd_media_size file /\ vf_identifier v = vhd_identifier file) \/
  (~ vhd_header_ok file /\ vhd_open file = Err).
Proof.
  intros file Hw Hl. destruct (vhd_open_shape file Hw Hl) as [[H (v & E & Hv)]|H]; [left|right; exact H].
  split; [assumption|]. exists v. destruct Hv as (H1 & H2 & H3 & _). auto.
Qed.
Print Assumptions C27_open.

(** Every image: opening it succeeds, with a loop long enough, exactly if the file and the
    parents that it names, one after the other, are there, well-formed, and have the
    identifiers that are asked for. *)
Theorem C27_open_image :
  forall resolver name, (forall name file, resolver name = Some file -> wf_bytes file /\ len file < two64) ->
  forall files, vhd_chain resolver name files <->
    exists fuel fs, vhd_image_open fuel resolver name = Ok fs /\ map fst fs = files.
Proof.
  intros resolver name Hr files. split.
  - intros H. exists (length files). destruct (vhd_image_complete resolver Hr name files H (length files) (Nat.le_refl _)) as (fs & H'). exists fs. exact H'.
  - intros (fuel & fs & E & <-). apply (vhd_image_sound resolver Hr fuel name fs E).
Qed.
Print Assumptions C27_open_image.

(** Every image of any number of files: all histories of reads and seeks answer as the disk
    with, at each offset, the byte that the newest file stores for the sector, or the byte
    of its parent, or zero. Missing, see the refutations below: blocks of which only some
    sectors are stored, and blocks whose size is not a multiple of 2 MiB. *)
Theorem C27_reads_are_the_disk_partial :
  forall resolver name files, (forall name file, resolver name = Some file -> wf_bytes file /\ len file < two64) ->
  vhd_chain resolver name files -> vhd_sizes files -> Forall vhd_complete files -> Forall vhd_uniform files ->
  let size := vhd_media_size (hd [] files) in
  let content := disk_content (vhd_disk files) size in
  size < two63 ->
  forall fuel, (length files <= fuel)%nat ->
  exists fs, vhd_image_open fuel resolver name = Ok fs /\
    forall ops, seeks_ok size content 0 ops ->
    let calls := run (vhd_step fs) (chain_start (vhd_start fs)) ops in
    snd (fst calls) = fst (run (file_step size content) 0 ops) /\
    snd calls = snd (run (file_step size content) 0 ops).
Proof.
  intros resolver name files Hr Hch Hs Hc Hu size content Hsz fuel Hf.
  destruct (vhd_image_complete resolver Hr name files Hch fuel Hf) as (fs & Eo & Em). exists fs. split; [assumption|].
  destruct (vhd_image_sound resolver Hr fuel name fs Eo) as [_ Hof].
  assert (Hwf : Forall (fun f => wf_bytes f /\ len f < two64 /\ vhd_header_ok f) files).
  { clear - Hr Hch. induction Hch as [? ? En|? ? ? ? ? En]; (constructor; [|assumption || constructor]); destruct (Hr _ _ En); auto. }
  assert (Hg : Forall (fun f => vhd_good (fst f) (snd f)) fs).
  { subst files. rewrite Forall_map in Hc, Hu, Hwf. rewrite Forall_forall in *. intros f Hin.
    destruct (Hwf f Hin) as (W1 & W2 & W3). constructor; auto. }
  rewrite <- Em in Hs. destruct (vhd_files_exact fs Hg Hs) as (IS & HIS & Hst & H0). rewrite Em in HIS.
  intros ops Hops. unfold vhd_step, chain_step.
  assert (Hne : exists f v fs', fs = (f, v) :: fs' /\ vf_media_size v = size).
  { destruct fs as [|[f v] fs']; [contradiction|]. exists f, v, fs'. split; [reflexivity|].
    subst files. unfold size. cbn [map hd fst]. rewrite Forall_forall in Hof. destruct (Hof (f, v) (or_introl eq_refl)) as (_ & _ & E & _). exact E. }
  destruct Hne as (f & v & fs' & Efs & Ev).
  destruct (run_exact IS size content (chain_rd (vhd_layers fs)) HIS) with (ops := ops) (s := fst (chain_start (vhd_start fs))) (p := 0)
    as (s' & E & _); auto.
  { unfold content. rewrite len_disk. lia. } { unfold two63. lia. }
  rewrite (surjective_pairing (chain_start (vhd_start fs))), H0.
  rewrite Efs in E |- *. cbn [vhd_layers map fst snd] in E |- *. cbn [vhd_layer ly_media_size] in *. rewrite Ev.
  fold (vhd_layer f v) in *. rewrite E. auto.
Qed.
Print Assumptions C27_reads_are_the_disk_partial.

(** Every sector bitmap is split into ranges that stand for its bits. Missing: the order,
    the bits of a byte are taken from the lowest on; see [C27_bit_order_refuted]. *)
Theorem C27_bitmap_partial :
  forall data, wf_bytes data -> 0 < len data ->
  exists ranges, bitmap_ranges true data 512 = Ok ranges /\
    flat_map (fun r => repeat (snd r) (N.to_nat (fst r / 512))) ranges =
    flat_map (fun b => map (N.testbit b) [0; 1; 2; 3; 4; 5; 6; 7]) data.
Proof.
  intros data Hw Hl. unfold bitmap_ranges. rewrite (idx_ok _ _ 0) by assumption. cbn [bind]. eexists. split; [reflexivity|].
  assert (Hb : byte_ok (nth (N.to_nat 0) data 0)).
  { unfold wf_bytes in Hw. rewrite Forall_forall in Hw. apply Hw, nth_In. unfold len in Hl. lia. }
  assert (Hbit : forall b i, N.land (N.shiftr b i) 1 = N.b2n (N.testbit b i)).
  { intros b i. change 1 with (N.ones 1). rewrite N.land_ones, N.pow_1_r, <- N.bit0_mod, N.shiftr_spec by lia. reflexivity. }
  rewrite (bitmap_loop_bits 512) with (n := 0%nat); [| lia | |reflexivity].
  - cbn [repeat app]. clear. induction data as [|b data IH]; [reflexivity|]. cbn [flat_map]. rewrite map_app, IH. f_equal.
    unfold byte_bits. rewrite map_map. apply map_ext. intros i.
    change 1 with (N.ones 1). rewrite N.land_ones, N.pow_1_r, <- N.bit0_mod, N.shiftr_spec by lia. cbn [N.add]. destruct (N.testbit b i); reflexivity.
  - constructor.
    + assert (N.shiftr (nth (N.to_nat 0) data 0) 7 < 2).
      { rewrite N.shiftr_div_pow2. apply N.div_lt_upper_bound; [lia|]. unfold byte_ok in Hb. change (2 ^ 7 * 2) with 256. exact Hb. }
      lia.
    + apply Forall_forall. intros y Hy. apply in_flat_map in Hy as (b & _ & Hy). unfold byte_bits in Hy.
      apply in_map_iff in Hy as (i & <- & _). rewrite Hbit. destruct (N.testbit b i); cbn; auto.
Qed.
Print Assumptions C27_bitmap_partial.

(** ** Cases *)
Definition pad n (l : list N) : list N := l ++ repeat 0 (n - length l).
Definition id (k : N) : list N := repeat k 16.
Definition footer (next size type : N) (identifier : list N) : list N :=
  pad 512 (pad 68 (pad 60 (pad 40 ([0x63; 0x6f; 0x6e; 0x65; 0x63; 0x74; 0x69; 0x78; 0; 0; 0; 0; 0; 1; 0; 0] ++ be_bytes 8 next) ++
    be_bytes 8 size) ++ be_bytes 4 type) ++ identifier).
Definition header (table blocks block_size : N) (parent name : list N) : list N :=
  pad 1024 (pad 64 ([0x63; 0x78; 0x73; 0x70; 0x61; 0x72; 0x73; 0x65] ++ be_bytes 8 0xffffffffffffffff ++ be_bytes 8 table ++
    [0; 1; 0; 0] ++ be_bytes 4 blocks ++ be_bytes 4 block_size ++ repeat 0 4 ++ parent) ++ flat_map (be_bytes 2) name).
(** An empty sector, the header, the table in a sector, the bitmaps and data from sector 4
    on, the footer. *)
Definition dynamic (size type block_size : N) (identifier parent name table data : list N) : list N :=
  repeat 0 512 ++ header 1536 (len table) block_size parent name ++ pad 512 (flat_map (be_bytes 4) table) ++ data ++
  footer 512 size type identifier.
Definition fixed (data identifier : list N) : list N := data ++ footer 0xffffffffffffffff (len data) 2 identifier.
Definition none : N := 0xffffffff.
Definition answers (files : list (list N)) (ops : list (nat * stream_op)) : res (list stream_out) :=
  vs <- fold_right (fun f r => v <- vhd_open f ;; vs <- r ;; Ok ((f, v) :: vs)) (Ok []) files ;;
  vhd_set_parents vs ;;;
  Ok (snd (layers_run (vhd_layers vs) (vhd_start vs) ops)).

(** A disk of 1024 bytes in blocks of 2 MiB. The newest file, of which the first block is stored
    with none of its sectors, the one below it, of which the first is not stored at all, and
    a fixed disk below both. *)
Definition newest : list N := dynamic 1024 4 0x200000 (id 3) (id 2) [0x5c; 0x62] [4; none] (repeat 0 512 ++ repeat 7 1024).
Definition middle : list N := dynamic 1024 4 0x200000 (id 2) (id 1) [0x43; 0x3a; 0x5c; 0x61] [none] [].
Definition oldest : list N := fixed (repeat 5 512 ++ repeat 6 512) (id 1).
Definition by_name (name : list N) : option (list N) :=
  if same_bytes name [0x63] then Some newest else if same_bytes name [0x62] then Some middle
  else if same_bytes name [0x61] then Some oldest else None.
Example C27_case :
  vhd_chain by_name [0x63] [newest; middle; oldest] /\ vhd_sizes [newest; middle; oldest] /\
  Forall vhd_complete [newest; middle; oldest] /\ Forall vhd_uniform [newest; middle; oldest] /\
  map (vhd_disk [newest; middle; oldest]) [0; 511; 512; 1023] = [5; 5; 6; 6].
Proof.
  assert (Hr : forall name file, by_name name = Some file -> wf_bytes file /\ len file < two64).
  { intros name file. unfold by_name. destruct (same_bytes _ _); [|destruct (same_bytes _ _); [|destruct (same_bytes _ _); [|discriminate]]];
      intros [= <-]; (split; [apply wf_bytesb_iff; vm_compute; reflexivity|vm_compute; reflexivity]). }
  split; [apply (C27_open_image by_name [0x63] Hr); exists 3%nat; vm_compute; eexists; split; reflexivity|].
  split; [split; [vm_compute; discriminate|split; [vm_compute; discriminate|vm_compute; discriminate]]|].
  assert (M1 : vhd_media_size newest = 1024) by (vm_compute; reflexivity).
  assert (M2 : vhd_media_size middle = 1024) by (vm_compute; reflexivity).
  assert (B1 : vhd_block_size newest = 0x200000) by (vm_compute; reflexivity).
  assert (B2 : vhd_block_size middle = 0x200000) by (vm_compute; reflexivity).
  split; [|split; [|vm_compute; reflexivity]].
  - constructor; [|constructor; [|constructor; [|constructor]]].
    + unfold vhd_complete. replace (vhd_type newest) with 4 by (vm_compute; reflexivity). change (4 =? 2) with false. cbv iota.
      rewrite M1, B1. intros n Hn. assert (n = 0) as -> by lia. split; [vm_compute; discriminate|]. intros _. vm_compute. discriminate.
    + unfold vhd_complete. replace (vhd_type middle) with 4 by (vm_compute; reflexivity). change (4 =? 2) with false. cbv iota.
      rewrite M2, B2. intros n Hn. assert (n = 0) as -> by lia. split; [vm_compute; discriminate|]. intros H. exfalso. apply H. vm_compute. reflexivity.
    + vm_compute. discriminate.
  - constructor; [|constructor; [|constructor; [|constructor]]].
    + right. rewrite M1, B1. split; [reflexivity|]. intros n Hn _. assert (n = 0) as -> by lia. exists 0. split; [auto|]. vm_compute. reflexivity.
    + right. rewrite M2, B2. split; [reflexivity|]. intros n Hn H. assert (n = 0) as -> by lia. exfalso. apply H. vm_compute. reflexivity.
    + left. vm_compute. reflexivity.
Qed.
Example C27_case_reads :
  answers [newest; middle; oldest] [(0, Seek (SeekStart 510)); (0, Read 4); (0, Read 2000)]%nat =
    Ok [Position (Ok 510); Data (Ok [5; 5; 6; 6]); Data (Ok (repeat 6 510))].
Proof. vm_compute. reflexivity. Qed.

(** ** What does not hold *)

(** The sectors of a block are taken from the lowest bit of a byte on. A bitmap that starts
    with 0x83 says that the sectors 0, 6 and 7 are stored: the second sector of the disk is
    zeros, a read returns the bytes that are in its place. *)
Definition bits_file : list N := dynamic 1024 3 0x200000 (id 1) (id 0) [] [4] (0x83 :: repeat 0 511 ++ repeat 7 512 ++ repeat 8 512).
Theorem C27_bit_order_refuted :
  map (vhd_disk [bits_file]) [0; 511; 512; 1023] = [7; 7; 0; 0] /\
  answers [bits_file] [(0, Seek (SeekStart 510)); (0, Read 4)]%nat = Ok [Position (Ok 510); Data (Ok [7; 7; 8; 8])].
Proof. split; vm_compute; reflexivity. Qed.
Print Assumptions C27_bit_order_refuted.

(** What can be read depends on what was read before: once a whole block has been looked
    up, a block of which only some of the sectors are stored can not be read. Here the first
    block is not stored, and the second has one sector. *)
Definition history_file : list N :=
  dynamic 0x400000 3 0x200000 (id 1) (id 0) [] [none; 4] (0x81 :: repeat 0 511 ++ repeat 7 512).
Theorem C27_history_refuted :
  map (vhd_disk [history_file]) [0x200000; 0x200001] = [7; 7] /\
  answers [history_file] [(0, Read 2); (0, Seek (SeekStart 0x200000)); (0, Read 2)]%nat =
    Ok [Data (Ok [0; 0]); Position (Ok 0x200000); Data Err].
Proof. split; vm_compute; reflexivity. Qed.
Print Assumptions C27_history_refuted.

(** Blocks of less than 2 MiB: the padding of the bitmap is taken for sectors as well. Here
    the first read of a block of 4096 bytes fails; the same read after it does not. *)
Definition small_file : list N := dynamic 4096 3 4096 (id 1) (id 0) [] [4] (0xff :: repeat 0 511 ++ repeat 7 4096).
Theorem C27_small_blocks_refuted :
  map (vhd_disk [small_file]) [0; 4095] = [7; 7] /\
  answers [small_file] [(0, Read 2); (0, Read 2)]%nat = Ok [Data Err; Data (Ok [7; 7])].
Proof. split; vm_compute; reflexivity. Qed.
Print Assumptions C27_small_blocks_refuted.
(** Blocks of less than eight sectors: a panic. *)
Theorem C27_tiny_blocks_refuted :
  answers [dynamic 512 3 512 (id 1) (id 0) [] [4] (0x80 :: repeat 0 511 ++ repeat 7 512)] [(0%nat, Read 2)] = Ok [Data Panic].
Proof. vm_compute. reflexivity. Qed.
Print Assumptions C27_tiny_blocks_refuted.

(** A parent that is smaller than the disk on top of it: the read is short, and the rest of
    the disk is out of reach. *)
Theorem C27_small_parent_refuted :
  let child := dynamic 1024 4 0x200000 (id 2) (id 1) [] [none] [] in
  answers [child; fixed (repeat 5 512) (id 1)] [(0, Read 1024); (0, Read 512); (0, Seek (SeekStart 1000)); (0, Read 2)]%nat =
    Ok [Data (Ok (repeat 5 512)); Data (Ok []); Position (Ok 1000); Data (Ok [])].
Proof. vm_compute. reflexivity. Qed.
Print Assumptions C27_small_parent_refuted.

(** The layers of an image share their positions: a read of the newest moves the position
    of the layer below it. *)
Theorem C27_layers_refuted :
  let child := dynamic 1024 4 0x200000 (id 2) (id 1) [] [none] [] in
  let parent := fixed (repeat 5 512 ++ repeat 6 512) (id 1) in
  answers [child; parent] [(1, Seek (SeekStart 0)); (1, Read 2)]%nat = Ok [Position (Ok 0); Data (Ok [5; 5])] /\
  answers [child; parent] [(1, Seek (SeekStart 0)); (0, Seek (SeekStart 600)); (0, Read 2); (1, Read 2)]%nat =
    Ok [Position (Ok 0); Position (Ok 600); Data (Ok [6; 6]); Data (Ok [6; 6])].
Proof. split; vm_compute; reflexivity. Qed.
Print Assumptions C27_layers_refuted.

(** A file that names itself as its parent: opening it does not end. *)
Theorem C27_cycle_refuted :
  let own := dynamic 1024 4 0x200000 (id 1) (id 1) [0x61] [none] [] in
  forall fuel, vhd_image_open fuel (fun _ => Some own) [0x61] = Panic.
Proof.
  cbv zeta. set (own := dynamic _ _ _ _ _ _ _ _). intros fuel. unfold vhd_image_open.
  assert (E : exists v n, vhd_open own = Ok v /\ vf_parent v = Some n) by (vm_compute; do 2 eexists; split; reflexivity).
  destruct E as (v & [i n] & Ev & En).
  assert (F : forall fuel name, vhd_open_files fuel (fun _ => Some own) name = Panic).
  { clear fuel. induction fuel as [|fuel IH]; intros name; [reflexivity|]. cbn [vhd_open_files of_option bind]. rewrite Ev. cbn [bind].
    rewrite En, IH. reflexivity. }
  rewrite F. reflexivity.
Qed.
Print Assumptions C27_cycle_refuted.
