(** * C26: sparse bundles *)
From Verif Require Import Base BaseLemmas Streams_model Streams_spec Blocks_model Sparse_model Image_spec Sparse_proofs.
Ltac Zify.zify_post_hook ::= idtac.

(** The sizes of the property list are accepted exactly if they are positive and the band
    size fits in 32 bits. *)
Theorem C26_open :
  forall band_size size : Z,
  bundle_open band_size size =
    if ((0 <? band_size) && (band_size <? 2 ^ 32) && (0 <? size))%Z then Ok (Z.to_N band_size, Z.to_N size) else Err.
Proof.
  intros b s. unfold bundle_open. change (2 ^ 32)%Z with 4294967296%Z.
  destruct (Z.ltb_spec 0 b), (Z.leb_spec b 0); try lia; cbn [andb orb negb check bind]; [|reflexivity].
  destruct (Z.ltb_spec b 4294967296), (Z.ltb_spec 4294967295 b); try lia; cbn [andb orb negb check bind]; [|reflexivity].
  destruct (Z.ltb_spec 0 s), (Z.leb_spec s 0); try lia; reflexivity.
Qed.
Print Assumptions C26_open.

(** Every bundle with all of its bands: all histories of reads and seeks answer as the disk
    with, at each offset, the byte of its band. Missing: bands that are missing or shorter,
    which stand for zeros; see [C26_missing_band_refuted] and [C26_short_band_refuted]. *)
Theorem C26_reads_are_the_disk_partial :
  forall bands band_size size, 0 < band_size -> size < two63 -> bundle_complete bands band_size size ->
  let content := disk_content (bundle_byte bands band_size) size in
  forall ops, seeks_ok size content 0 ops ->
  run (bundle_step bands band_size size) (tt, 0) ops =
    ((tt, fst (run (file_step size content) 0 ops)), snd (run (file_step size content) 0 ops)).
Proof. intros. apply bands_run; auto. apply bundle_reads; auto. Qed.
Print Assumptions C26_reads_are_the_disk_partial.

Definition two_bands (n : N) : option (list N) :=
  if n =? 0 then Some [1; 2; 3; 4] else if n =? 1 then Some [5; 6] else None.
Example C26_case : bundle_complete two_bands 4 6 /\ disk_content (bundle_byte two_bands 4) 6 = [1; 2; 3; 4; 5; 6].
Proof.
  split; [|vm_compute; reflexivity]. intros n Hn. unfold two_bands.
  destruct (N.eqb_spec n 0) as [->|]; [eexists; split; [reflexivity|vm_compute; discriminate]|].
  destruct (N.eqb_spec n 1) as [->|]; [eexists; split; [reflexivity|vm_compute; discriminate]|lia].
Qed.

(** A missing band is an error, not zeros. *)
Theorem C26_missing_band_refuted :
  let bands n := if n =? 0 then Some [1; 2; 3; 4] else None in
  disk_content (bundle_byte bands 4) 8 = [1; 2; 3; 4; 0; 0; 0; 0] /\
  snd (run (bundle_step bands 4 8) (tt, 0) [Read 8; Read 4; Read 4]) = [Data Err; Data (Ok [1; 2; 3; 4]); Data Err].
Proof. vm_compute. auto. Qed.
Print Assumptions C26_missing_band_refuted.

(** A short band, which is what a bundle has where only the start of a band was written,
    moves the data of the next band forward; what is read depends on how it is read. *)
Theorem C26_short_band_refuted :
  let bands n := if n =? 0 then Some [1; 2] else Some [5; 6; 7; 8] in
  disk_content (bundle_byte bands 4) 8 = [1; 2; 0; 0; 5; 6; 7; 8] /\
  snd (run (bundle_step bands 4 8) (tt, 0) [Read 8]) = [Data (Ok [1; 2; 5; 6; 7; 8; 5; 6])] /\
  snd (run (bundle_step bands 4 8) (tt, 0) [Read 4; Read 4]) = [Data (Ok [1; 2; 5; 6]); Data (Ok [5; 6; 7; 8])].
Proof. vm_compute. auto. Qed.
Print Assumptions C26_short_band_refuted.
