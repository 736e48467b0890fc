(** * C29: QCOW images *)
From Verif Require Import Base BaseLemmas Streams_model Streams_spec Streams_proofs BlockTree_model Blocks_model Lazy_model Lazy_proofs
  Image_spec Image_proofs Part_spec Vhd_spec Qcow_model Qcow_spec Qcow_proofs.
Ltac Zify.zify_post_hook ::= idtac.

(** Every file: it is opened exactly if its header is well-formed, with the size and the
    backing file it has. Opening panics for some files with a size of clusters of 2^63 bytes
    or a size that does not fit 64 bits when rounded to clusters, and for no others. *)
Theorem C29_open :
  forall file,
  (qcow_header_ok file /\ exists v, qcow_open file = Ok v /\ qf_media_size v = qcow_media_size file /\
     qf_backing v = if qcow_has_backing file then Some (qcow_name file) else None) \/
  (~ qcow_header_ok file /\
     (qcow_open file = Err \/
      qcow_open file = Panic /\
        (qcow_version file <> 1 /\ qcow_cluster_bits file = 63 \/ two64 <= qcow_clusters file * qcow_cluster_size file))).
Proof.
  intros file. destruct (qcow_open_shape file) as [[H (v & E & Hv)]|H]; [left|right; exact H].
  split; [assumption|]. exists v. destruct Hv as (_ & _ & _ & _ & _ & _ & H1 & H2 & _). auto.
Qed.
Print Assumptions C29_open.

(** Every image: opening it succeeds, with a loop long enough, exactly if the file and the
    backing files that are named, one after the other, are there and well-formed. *)
Theorem C29_open_image :
  forall resolver name files,
  qcow_chain resolver name files <-> exists fuel fs, qcow_image_open fuel resolver name = Ok fs /\ map fst fs = files.
Proof.
  intros resolver name files. split.
  - intros H. exists (length files). destruct (qcow_image_complete resolver name files H (length files) (Nat.le_refl _)) as (fs & H'). exists fs. exact H'.
  - intros (fuel & fs & E & <-). apply (qcow_image_sound resolver fuel name fs E).
Qed.
Print Assumptions C29_open_image.

(** Every image of any number of files, without compressed clusters: all histories of reads
    and seeks answer as the disk with, at each offset, the byte of the cluster of the newest
    file, or the byte of its backing file, or zero. Missing, see the refutations below:
    level 2 tables that are not there, clusters that read as zeros by their flag, backing
    files that are shorter. *)
Theorem C29_reads_are_the_disk_partial :
  forall resolver name files, Forall (fun f => wf_bytes f /\ len f < two64) files ->
  qcow_chain resolver name files -> qcow_sizes files -> Forall qcow_complete files -> Forall qcow_l2_tables files ->
  let size := qcow_media_size (hd [] files) in
  let content := disk_content (qcow_disk files) size in
  size < two63 ->
  forall fuel, (length files <= fuel)%nat ->
  exists fs, qcow_image_open fuel resolver name = Ok fs /\
    forall ops, seeks_ok size content 0 ops ->
    let calls := run (qcow_step fs) (chain_start (qcow_start fs)) ops in
    snd (fst calls) = fst (run (file_step size content) 0 ops) /\
    snd calls = snd (run (file_step size content) 0 ops).
Proof.
  intros resolver name files Hwf Hch Hs Hc Ht size content Hsz fuel Hf.
  destruct (qcow_image_complete resolver name files Hch fuel Hf) as (fs & Eo & Em). exists fs. split; [assumption|].
  destruct (qcow_image_sound resolver fuel name fs Eo) as [_ Hof].
  destruct (qcow_layers_ok resolver name files Hch Hwf Hc Ht Hs fs Em Hof) as [Hl Hsize].
  intros ops Hops. pose proof (chain_run (qcow_layers fs) (qcow_start fs) (qcow_disk files) Hl) as R. rewrite Hsize in R.
  apply R; [|exact Hsz|exact Hops]. destruct fs as [|[f v] fs]; reflexivity.
Qed.
Print Assumptions C29_reads_are_the_disk_partial.

(** ** Cases *)
Definition entries (l : list N) : list N := flat_map (be_bytes 8) l.
(** Version 1: clusters of 16 bytes and level 2 tables of two entries, so that a level 2
    table stands for 32 bytes; the level 1 table follows the header. *)
Definition header1 (name_offset name_size size : N) : list N :=
  [0x51; 0x46; 0x49; 0xfb; 0; 0; 0; 1] ++ be_bytes 8 name_offset ++ be_bytes 4 name_size ++ [0; 0; 0; 0] ++ be_bytes 8 size ++
  [4; 1; 0; 0; 0; 0; 0; 0] ++ be_bytes 8 112 ++ repeat 0 64.
Definition newest : list N := header1 176 2 40 ++ entries [128; 144] ++ entries [160; 0] ++ entries [0; 0] ++ repeat 9 16 ++ [98; 0].
Definition oldest : list N := header1 0 0 64 ++ entries [128; 144] ++ entries [0; 160] ++ entries [176; 0] ++ seqN 1 32.
Definition files (l : list (N * list N)) (name : list N) : option (list N) :=
  match name with
  | [c] => option_map snd (find (fun f => fst f =? c) l)
  | _ => None
  end.
Definition answers (l : list (N * list N)) (name : list N) (ops : list stream_op) : res (list stream_out) :=
  fs <- qcow_image_open 4 (files l) name ;;
  Ok (snd (run (qcow_step fs) (chain_start (qcow_start fs)) ops)).

Definition plainb (file : list N) (e : N) : bool :=
  if qcow_version file =? 1 then e <? 2 ^ 63 else (e mod 2 ^ 63 <? 2 ^ 56) && (e mod 512 =? 0).
Definition completeb (file : list N) : bool :=
  (qcow_l2_bits file <? 32) &&
  forallb (fun x =>
    (x / qcow_l1_range file <? qcow_l1_entries file) &&
    (qcow_l1_offset file + 8 * (x / qcow_l1_range file) + 8 <=? len file) &&
    plainb file (qcow_l1_entry file x) &&
    negb (qcow_offset file (qcow_l1_entry file x) =? 0) &&
    (qcow_offset file (qcow_l1_entry file x) + 8 * (x mod qcow_l1_range file / qcow_cluster_size file) + 8 <=? len file) &&
    plainb file (qcow_l2_entry file x) &&
    (if qcow_offset file (qcow_l2_entry file x) =? 0 then true
     else qcow_offset file (qcow_l2_entry file x) + x mod qcow_cluster_size file <? len file))
    (seqN 0 (N.to_nat (qcow_media_size file))).
Lemma plainb_ok file e : plainb file e = true -> qcow_entry_plain file e.
Proof.
  unfold plainb, qcow_entry_plain. destruct (_ =? 1); [apply N.ltb_lt|]. intros H. apply andb_true_iff in H as [H1 H2].
  apply N.ltb_lt in H1. apply N.eqb_eq in H2. auto.
Qed.
Lemma completeb_ok file : completeb file = true -> qcow_complete file /\ qcow_l2_tables file.
Proof.
  intros H. apply andb_true_iff in H as [H0 H]. rewrite forallb_forall in H. apply N.ltb_lt in H0.
  assert (Hx : forall x, x < qcow_media_size file -> In x (seqN 0 (N.to_nat (qcow_media_size file)))) by (intros x Hx; apply in_seqN; lia).
  split; [split; [assumption|]|]; intros x L; specialize (H x (Hx x L)); rewrite !andb_true_iff in H; destruct H as ((((((H1 & H2) & H3) & H4) & H5) & H6) & H7);
    apply negb_true_iff, N.eqb_neq in H4; [|assumption].
  apply N.ltb_lt in H1. apply N.leb_le in H2, H5. apply plainb_ok in H3, H6.
  split; [assumption|]. split; [assumption|]. split; [assumption|]. intros _. split; [assumption|]. split; [assumption|].
  intros E. apply N.eqb_neq in E. rewrite E in H7. apply N.ltb_lt in H7. assumption.
Qed.
Ltac header := split; [vm_compute; discriminate|]; split; [vm_compute; reflexivity|]; split; [left; split; vm_compute; reflexivity|];
  split; [vm_compute; discriminate|]; split; [vm_compute; reflexivity|]; split; [|vm_compute; reflexivity];
  first [intros H; vm_compute in H; discriminate | intros _; repeat split; vm_compute; discriminate].

(** An image of two files: the newest has one cluster of its own and the others of the file
    below it, which has one that is not there either. *)
Example C29_case :
  let resolver := files [(97, newest); (98, oldest)] in
  Forall (fun f => wf_bytes f /\ len f < two64) [newest; oldest] /\
  qcow_chain resolver [97] [newest; oldest] /\ qcow_sizes [newest; oldest] /\
  Forall qcow_complete [newest; oldest] /\ Forall qcow_l2_tables [newest; oldest] /\
  qcow_media_size newest < two63 /\
  map (qcow_disk [newest; oldest]) [0; 15; 16; 31; 32; 39] = [9; 9; 1; 16; 17; 24] /\
  map (qcow_disk [oldest]) [0; 15; 16; 31; 32; 47; 48; 63] = [0; 0; 1; 16; 17; 32; 0; 0].
Proof.
  assert (H1 : completeb newest = true) by (vm_compute; reflexivity). apply completeb_ok in H1 as [H1 H1'].
  assert (H2 : completeb oldest = true) by (vm_compute; reflexivity). apply completeb_ok in H2 as [H2 H2'].
  cbv zeta. split.
  { repeat (apply Forall_cons; [split; [apply wf_bytesb_iff|]; vm_compute; reflexivity|]). apply Forall_nil. }
  split.
  { apply qcow_more; [reflexivity|header|vm_compute; reflexivity|]. replace (qcow_name newest) with [98] by (vm_compute; reflexivity).
    apply qcow_last; [reflexivity|header|vm_compute; reflexivity]. }
  split; [split; [vm_compute; discriminate|exact I]|].
  split; [auto|]. split; [auto|]. split; [vm_compute; reflexivity|]. split; vm_compute; reflexivity.
Qed.
Example C29_case_reads :
  answers [(97, newest); (98, oldest)] [97] [Seek (SeekStart 30); Read 4; Seek (SeekStart 14); Read 4; Seek (SeekStart 38); Read 4] =
    Ok [Position (Ok 30); Data (Ok [15; 16; 17; 18]); Position (Ok 14); Data (Ok [9; 9; 1; 2]); Position (Ok 38); Data (Ok [23; 24])] /\
  answers [(97, newest)] [97] [] = Err.
Proof. split; vm_compute; reflexivity. Qed.

(** ** What does not hold *)

(** A level 2 table that is not there, in an image with a backing file: its bytes are taken
    as zeros, not as those of the backing file. *)
Definition no_table : list N := header1 128 2 64 ++ entries [0; 0] ++ [98; 0].
Theorem C29_no_table_refuted :
  map (qcow_disk [no_table; oldest]) [16; 31; 32] = [1; 16; 17] /\
  answers [(97, no_table); (98, oldest)] [97] [Seek (SeekStart 16); Read 4] = Ok [Position (Ok 16); Data (Ok [0; 0; 0; 0])].
Proof. split; vm_compute; reflexivity. Qed.
Print Assumptions C29_no_table_refuted.

(** The same in a disk that ends before the range of the table: reading fails. *)
Definition no_last_table : list N := header1 0 0 48 ++ entries [0; 0].
Theorem C29_no_last_table_refuted :
  map (qcow_disk [no_last_table]) [31; 32; 47] = [0; 0; 0] /\
  answers [(97, no_last_table)] [97] [Read 32; Read 16] = Ok [Data (Ok (repeat 0 32)); Data Err].
Proof. split; vm_compute; reflexivity. Qed.
Print Assumptions C29_no_last_table_refuted.

(** Bit 0 of an entry of version 3: the cluster reads as zeros, but is read one byte further. *)
Definition header23 (version bits size entries : N) : list N :=
  [0x51; 0x46; 0x49; 0xfb; 0; 0; 0; version] ++ repeat 0 12 ++ be_bytes 4 bits ++ be_bytes 8 size ++
  [0; 0; 0; 0] ++ be_bytes 4 entries ++ be_bytes 8 112 ++ repeat 0 52 ++ be_bytes 4 112 ++ repeat 0 8.
Definition zero_cluster : list N :=
  header23 3 9 8 1 ++ entries [512] ++ repeat 0 392 ++ entries [1025] ++ repeat 0 504 ++ seqN 1 16.
Theorem C29_zero_flag_refuted :
  map (qcow_disk [zero_cluster]) [0; 7] = [0; 0] /\
  answers [(97, zero_cluster)] [97] [Read 8] = Ok [Data (Ok [2; 3; 4; 5; 6; 7; 8; 9])].
Proof. split; vm_compute; reflexivity. Qed.
Print Assumptions C29_zero_flag_refuted.

(** A backing file that is shorter than the disk: what is past its end reads as zeros, but
    the read ends there. *)
Definition long : list N := header1 176 2 96 ++ entries [144; 144; 144; 0] ++ entries [0; 0; 0; 0] ++ [98; 0].
Theorem C29_short_backing_refuted :
  map (qcow_disk [long; oldest]) [63; 64; 95] = [0; 0; 0] /\
  answers [(97, long); (98, oldest)] [97] [Seek (SeekStart 60); Read 16] = Ok [Position (Ok 60); Data (Ok [0; 0; 0; 0])].
Proof. split; vm_compute; reflexivity. Qed.
Print Assumptions C29_short_backing_refuted.

(** A compressed cluster panics. *)
Definition compressed : list N := header1 0 0 16 ++ entries [120] ++ entries [0x8000000000000080; 0].
Theorem C29_compressed_refuted : answers [(97, compressed)] [97] [Read 1] = Ok [Data Panic].
Proof. vm_compute. reflexivity. Qed.
Print Assumptions C29_compressed_refuted.

(** Opening panics. *)
Theorem C29_open_refuted :
  qcow_open (header23 2 63 0 0) = Panic /\ qcow_open (header1 0 0 0xffffffffffffffff) = Err /\
  qcow_open (header23 2 9 0xffffffffffffffff 0) = Panic.
Proof. repeat split; vm_compute; reflexivity. Qed.
Print Assumptions C29_open_refuted.

(** An image that has its own file as backing file is opened forever. *)
Definition own : list N := header1 112 1 0 ++ [97].
Theorem C29_own_backing_refuted : forall fuel, qcow_image_open fuel (files [(97, own)]) [97] = Panic.
Proof.
  induction fuel as [|fuel IH]; [reflexivity|]. cbn [qcow_image_open].
  assert (E : exists v, qcow_open own = Ok v /\ qf_backing v = Some [97]) by (eexists; split; vm_compute; reflexivity).
  destruct E as (v & E & Eb). change (files [(97, own)] [97]) with (Some own). cbn [of_option bind]. rewrite E. cbn [bind]. rewrite Eb, IH. reflexivity.
Qed.
Print Assumptions C29_own_backing_refuted.

(** A level 2 table that is not there before one that is: the same read fails or not, by what
    was read before it. *)
Definition first_table : list N := header1 0 0 64 ++ entries [0; 128] ++ entries [144; 144] ++ seqN 1 16.
Theorem C29_history_refuted :
  map (qcow_disk [first_table]) [0; 31; 32; 47; 48; 63] = [0; 0; 1; 16; 1; 16] /\
  answers [(97, first_table)] [97] [Seek (SeekStart 32); Read 2; Seek (SeekStart 0); Read 2; Seek (SeekStart 32); Read 2] =
    Ok [Position (Ok 32); Data (Ok [1; 2]); Position (Ok 0); Data (Ok [0; 0]); Position (Ok 32); Data (Ok [1; 2])] /\
  answers [(97, first_table)] [97] [Seek (SeekStart 0); Read 2; Seek (SeekStart 32); Read 2] =
    Ok [Position (Ok 0); Data (Ok [0; 0]); Position (Ok 32); Data Err].
Proof. repeat split; vm_compute; reflexivity. Qed.
Print Assumptions C29_history_refuted.
