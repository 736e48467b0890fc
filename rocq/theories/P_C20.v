(** * C20: a window stream presents exactly its window *)
From Verif Require Import Base BaseLemmas Streams_model Streams_spec Streams_proofs.

(** For every source, every window (it may reach past the end of the source) and
    every history of reads and seeks to positions that exist, the calls on the window
    answer what they would on a file that holds just the bytes of the window. *)
Theorem C20_window_is_a_file :
  forall bytes offset size position ops,
  offset + size <= two64 -> size < two63 ->
  seeks_ok size (window_content bytes offset size) 0 ops ->
  snd (run (window_step bytes offset size) (position, 0) ops) =
  snd (run (file_step size (window_content bytes offset size)) 0 ops).
Proof.
  intros. destruct (window_run bytes offset size ops position) as (p & ->); auto.
Qed.
Print Assumptions C20_window_is_a_file.

(** A read at position [p] of the window returns the bytes of the source at
    [offset + p], as many as were asked for and lie in the window and in the source. *)
Theorem C20_read_is_slice_of_source :
  forall bytes offset size position p n,
  offset + size <= two64 -> size < two63 -> p < size ->
  exists position',
  window_step bytes offset size (position, p) (Read n) =
    let k := N.min n (N.min (size - p) (len bytes - (offset + p))) in
    ((position', p + k), Data (Ok (bytes_at bytes (offset + p) k))).
Proof.
  intros bytes offset size position p n H1 H2 H3.
  destruct (stream_step_exact (fun _ => True) size (window_content bytes offset size)
    (window_rd bytes offset)) with (s := position) (p := p) (op := Read n)
    as (s' & E & _); auto.
  - now apply window_exact.
  - unfold window_content. rewrite len_bytes_at. lia.
  - lia.
  - exists s'. unfold window_step. rewrite E. cbn [file_step fst snd]. cbv zeta.
    set (k := N.min n (N.min (size - p) (len bytes - (offset + p)))).
    assert (Ek : bytes_at (window_content bytes offset size) p n = bytes_at bytes (offset + p) k).
    { unfold window_content.
      rewrite <- (bytes_at_clamp _ p n (size - p)) by (rewrite len_bytes_at; lia).
      rewrite bytes_at_bytes_at by lia.
      rewrite <- (bytes_at_clamp bytes (offset + p) (N.min (size - p) n)
                    (len bytes - (offset + p))) by lia.
      f_equal. lia. }
    rewrite Ek, len_bytes_at. repeat f_equal. lia.
Qed.
Print Assumptions C20_read_is_slice_of_source.

(** Reading on with buffers of any sizes gives the window from its start. *)
Theorem C20_sequential_reads_concatenate :
  forall bytes offset size position ns,
  offset + size <= two64 -> size < two63 ->
  concat (map (fun o => match o with Data (Ok d) => d | _ => [] end)
    (snd (run (window_step bytes offset size) (position, 0) (map Read ns)))) =
  bytes_at bytes offset (N.min (fold_right N.add 0 ns) size).
Proof.
  intros. rewrite C20_window_is_a_file by (auto using seeks_ok_reads).
  rewrite file_reads. unfold window_content.
  rewrite <- (bytes_at_clamp _ 0 _ size) by (rewrite len_bytes_at; lia).
  rewrite bytes_at_bytes_at by lia. rewrite N.add_0_r. f_equal. lia.
Qed.
Print Assumptions C20_sequential_reads_concatenate.

(** A range stream opened at [offset] is the window from there to the end of the file. *)
Theorem C20_range_stream_is_the_tail :
  forall bytes offset,
  range_open bytes offset = (if offset <? len bytes then Ok (len bytes - offset) else Err) /\
  (offset < len bytes ->
   window_content bytes offset (len bytes - offset) = skipn (N.to_nat offset) bytes).
Proof.
  intros. unfold range_open. split.
  - destruct (N.leb_spec (len bytes) offset), (N.ltb_spec offset (len bytes)); auto; lia.
  - intros H. unfold window_content, bytes_at. apply firstn_all2.
    rewrite skipn_length. unfold len. lia.
Qed.
Print Assumptions C20_range_stream_is_the_tail.

(** Windows over one shared source do not disturb each other: however the calls on
    them are interleaved, each window answers as if its own calls had been the only
    ones. *)
Theorem C20_interleaving_invisible :
  forall bytes ws i position offsets ops,
  (i < length ws)%nat -> length offsets = length ws ->
  calls_of i (snd (windows_run bytes ws (position, offsets) ops)) =
  let w := nth i ws {| w_offset := 0; w_size := 0 |} in
  snd (run (window_step bytes (w_offset w) (w_size w)) (position, nth i offsets 0)
         (calls_of i ops)).
Proof. intros. now apply windows_independent. Qed.
Print Assumptions C20_interleaving_invisible.

(** A window of five bytes at offset 2: the hypotheses hold and the history is not
    trivial. *)
Example C20_example :
  let bytes := [10; 11; 12; 13; 14; 15; 16; 17] in
  let ops := [Read 3; Read 9; Read 1; Seek (SeekEnd (-2)); Read 1; Seek (SeekCurrent (-4)); Read 2] in
  2 + 5 <= two64 /\ seeks_ok 5 (window_content bytes 2 5) 0 ops /\
  snd (run (window_step bytes 2 5) (7, 0) ops) =
  [Data (Ok [12; 13; 14]); Data (Ok [15; 16]); Data (Ok []); Position (Ok 3);
   Data (Ok [15]); Position (Ok 0); Data (Ok [12; 13])].
Proof. vm_compute. intuition congruence. Qed.

(** Two windows, calls interleaved. *)
Example C20_interleaving_example :
  let bytes := [10; 11; 12; 13; 14; 15; 16; 17] in
  let ws := [{| w_offset := 0; w_size := 4 |}; {| w_offset := 4; w_size := 4 |}] in
  snd (windows_run bytes ws (0, [0; 0]) [(0%nat, Read 2); (1%nat, Read 2); (0%nat, Read 2); (1%nat, Read 2)]) =
  [(0%nat, Data (Ok [10; 11])); (1%nat, Data (Ok [14; 15])); (0%nat, Data (Ok [12; 13])); (1%nat, Data (Ok [16; 17]))].
Proof. vm_compute. reflexivity. Qed.
