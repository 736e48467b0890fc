(** * C25: sparse images *)
From Verif Require Import Base BaseLemmas Streams_model Streams_spec BlockTree_model Blocks_model Sparse_model Image_spec Sparse_proofs.
Ltac Zify.zify_post_hook ::= idtac.

(** Every file: it is opened exactly if it has a well-formed header block, and never panics. *)
Theorem C25_open :
  forall file, wf_bytes file -> len file < two64 ->
  (sparse_header_ok file /\ exists f, sparse_open file = Ok f /\
     si_block_size f = sparse_sectors_per_band file * 512 /\ si_media_size f = sparse_sectors file * 512) \/
  (~ sparse_header_ok file /\ sparse_open file = Err).
Proof.
  intros file Hw Hl. destruct (sparse_open_ok file Hw Hl) as [[H (f & E & H1 & H2 & _)]|H]; [left|right; exact H].
  split; [assumption|]. exists f. auto.
Qed.
Print Assumptions C25_open.

(** Every such file with its bands in it: all histories of reads and seeks answer as the
    disk with, at each offset, the byte of the band that maps it, or zero. *)
Theorem C25_reads_are_the_disk :
  forall file, wf_bytes file -> len file < two64 -> sparse_header_ok file -> sparse_complete file ->
  let size := sparse_sectors file * 512 in
  let content := disk_content (sparse_byte file) size in
  exists f, sparse_open file = Ok f /\
    forall ops, seeks_ok size content 0 ops ->
    run (sparse_step file f) (tt, 0) ops =
      ((tt, fst (run (file_step size content) 0 ops)), snd (run (file_step size content) 0 ops)).
Proof.
  intros file Hw Hl Hh Hc size content.
  destruct (sparse_open_ok file Hw Hl) as [[_ (f & E & H1 & H2 & H3)]|[H _]]; [|contradiction].
  exists f. split; [assumption|]. intros ops Hops. unfold sparse_step.
  assert (Es : size = si_media_size f) by (rewrite H2; reflexivity). unfold content in *. rewrite Es in *.
  apply bands_run; auto.
  - rewrite H1. destruct Hh as (_ & _ & H & _). lia.
  - rewrite H2. destruct Hh as (_ & _ & H & Hn & _). unfold sparse_number_of_bands in Hn.
    pose proof (ceil_bound (sparse_sectors file) (sparse_sectors_per_band file) ltac:(lia)).
    change (4294967295 / 512) with 8388607 in H. unfold two63. nia.
  - apply sparse_reads; auto.
Qed.
Print Assumptions C25_reads_are_the_disk.

(** ** Cases *)
Definition pad n (l : list N) : list N := l ++ repeat 0 (n - length l).
Definition header_block (sectors_per_band sectors : N) (bands : list N) : list N :=
  pad 4096 (pad 64 ([0x73; 0x70; 0x72; 0x73] ++ be_bytes 4 3 ++ be_bytes 4 sectors_per_band ++ be_bytes 4 1 ++
    be_bytes 4 sectors) ++ flat_map (be_bytes 4) bands).
(** Three bands of one sector; the first block of data is band 3, the second band 1. *)
Definition image : list N := header_block 1 3 [3; 1; 0] ++ repeat 7 512 ++ repeat 9 512.
Example C25_case :
  wf_bytes image /\ sparse_header_ok image /\ sparse_complete image /\
  map (sparse_byte image) [0; 511; 512; 1023; 1024; 1535] = [9; 9; 0; 0; 7; 7].
Proof.
  split; [apply wf_bytesb_iff; vm_compute; reflexivity|]. split; [|split; [|vm_compute; reflexivity]].
  - split; [vm_compute; discriminate|]. split; [vm_compute; reflexivity|]. split; [vm_compute; split; [reflexivity|discriminate]|].
    split; [vm_compute; discriminate|].
    replace (sparse_bands image) with [3; 1; 0] by (vm_compute; reflexivity).
    replace (sparse_number_of_bands image) with 3 by (vm_compute; reflexivity). split.
    + apply Forall_cons; [lia|]. apply Forall_cons; [lia|]. apply Forall_cons; [lia|]. apply Forall_nil.
    + cbn. apply NoDup_cons; [cbn; lia|]. apply NoDup_cons; [cbn; lia|]. apply NoDup_nil.
  - unfold sparse_complete. replace (sparse_bands image) with [3; 1; 0] by (vm_compute; reflexivity).
    replace (sparse_sectors_per_band image) with 1 by (vm_compute; reflexivity).
    replace (len image) with 5120 by (vm_compute; reflexivity). intros n i H. cbn [index_of option_map] in H.
    destruct (N.eqb_spec 3 (n + 1)); [injection H as <-; lia|]. destruct (N.eqb_spec 1 (n + 1)); [injection H as <-; lia|].
    destruct (N.eqb_spec 0 (n + 1)); [lia|discriminate].
Qed.

(** The premise that the bands are in the file is needed: with a truncated file, a read
    across the end of the file returns bytes of the start of the band again. Here 256 bytes
    of the only band are there, and a read of 300 bytes repeats the first 44. *)
Theorem C25_truncated_refuted :
  let file := header_block 1 1 [1] ++ repeat 7 128 ++ repeat 8 128 in
  exists f, sparse_open file = Ok f /\
    snd (run (sparse_step file f) (tt, 0) [Read 300]) = [Data (Ok (repeat 7 128 ++ repeat 8 128 ++ repeat 7 44))].
Proof. eexists. split; [vm_compute; reflexivity|]. vm_compute. reflexivity. Qed.
Print Assumptions C25_truncated_refuted.
