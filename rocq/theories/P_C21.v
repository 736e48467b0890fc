(** * C21: the fake data stream presents its data followed by zeros *)
From Verif Require Import Base BaseLemmas Streams_model Streams_spec Streams_proofs.

(** The property: every history answers as on a file holding the data, padded with
    zeros or cut to the size. *)
Definition fake_stream_correct (data : list N) (size : N) : Prop :=
  forall ops, seeks_ok size (padded data size) 0 ops ->
  snd (run (fake_step data size) (tt, 0) ops) =
  snd (run (file_step size (padded data size)) 0 ops).

(** It holds whenever the size does not exceed the data. Missing: sizes beyond the
    data, for which it is false (below). *)
Theorem C21_size_within_data_partial :
  forall data size, size <= len data -> size < two63 -> fake_stream_correct data size.
Proof.
  intros data size H1 H2 ops Hok.
  destruct (run_exact (fun _ => True) size (padded data size) (fake_rd data))
    with (ops := ops) (s := tt) (p := 0) as (s' & E & _); auto.
  - now apply fake_exact_short.
  - rewrite len_padded. lia.
  - unfold two63. lia.
  - unfold fake_step. now rewrite E.
Qed.
Print Assumptions C21_size_within_data_partial.

(** In particular for the streams made by [open_fake_data_stream]. *)
Theorem C21_open_fake_data_stream :
  forall data ops, len data < two63 -> seeks_ok (len data) data 0 ops ->
  snd (run (open_fake_step data) (tt, 0) ops) =
  snd (run (file_step (len data) data) 0 ops).
Proof.
  intros data ops H Hok.
  destruct (run_exact (fun _ => True) (len data) data (fake_rd data))
    with (ops := ops) (s := tt) (p := 0) as (s' & E & _); auto.
  - apply fake_exact_open.
  - lia.
  - unfold two63. lia.
  - unfold open_fake_step, fake_step. now rewrite E.
Qed.
Print Assumptions C21_open_fake_data_stream.

(** For any size: a read that lies within the data, or wholly behind it, is right. *)
Theorem C21_reads_on_one_side_partial :
  forall data size p n, size < two63 -> p < size ->
  p + N.min n (size - p) <= len data \/ len data <= p ->
  fake_step data size (tt, p) (Read n) =
    ((tt, fst (file_step size (padded data size) p (Read n))),
     snd (file_step size (padded data size) p (Read n))).
Proof.
  intros data size p n Hs Hp H.
  unfold fake_step, stream_step, stream_read.
  destruct (N.leb_spec size p); [lia |].
  assert (E : (if size - p <? n then size - p else n) = N.min (size - p) n)
    by (destruct (N.ltb_spec (size - p) n); lia).
  rewrite E, fake_rd_straight by lia. cbn [file_step fst snd].
  rewrite <- (bytes_at_clamp _ p n (size - p)) by (rewrite len_padded; lia).
  assert (E2 : (if p <? len data then bytes_at data p (N.min (size - p) n)
     else repeat 0 (N.to_nat (N.min (size - p) n))) =
     bytes_at (padded data size) p (N.min (size - p) n)).
  { destruct (N.ltb_spec p (len data)).
    - now rewrite bytes_at_padded_data by lia.
    - now rewrite bytes_at_padded_zero by lia. }
  rewrite E2. pose proof (len_bytes_at (padded data size) p (N.min (size - p) n)) as Hl.
  rewrite len_padded in Hl. unfold add_chk.
  destruct (N.ltb_spec (p + len (bytes_at (padded data size) p (N.min (size - p) n))) two64);
    [reflexivity |]. unfold two63, two64 in *. lia.
Qed.
Print Assumptions C21_reads_on_one_side_partial.

(** Every read across the end of the data repeats the data instead of giving zeros:
    it never panics, but the first byte behind the data is the byte the read began
    with. *)
Theorem C21_crossing_read_repeats_data :
  forall data p n, p < len data -> len data < p + n ->
  exists d, fake_rd data tt p n = (tt, Ok d) /\ len d = n /\
    bytes_at d 0 (len data - p) = bytes_at data p (len data - p) /\
    nth_error d (N.to_nat (len data - p)) = nth_error data (N.to_nat p).
Proof. exact fake_crossing. Qed.
Print Assumptions C21_crossing_read_repeats_data.

(** So the property is false in general. *)
Theorem C21_padding_refuted :
  exists data size, size < two63 /\ ~ fake_stream_correct data size.
Proof.
  exists [1; 2; 3], 5. split; [vm_compute; reflexivity |]. intros H.
  specialize (H [Read 5] (conj I I)). vm_compute in H. discriminate.
Qed.
Print Assumptions C21_padding_refuted.

Example C21_refutation_witness :
  snd (run (fake_step [1; 2; 3] 5) (tt, 0) [Read 5]) = [Data (Ok [1; 2; 3; 1; 2])] /\
  padded [1; 2; 3] 5 = [1; 2; 3; 0; 0] /\
  snd (run (fake_step [1; 2; 3] 5) (tt, 0) [Read 3; Read 2]) =
    [Data (Ok [1; 2; 3]); Data (Ok [0; 0])].
Proof. vm_compute. auto. Qed.
