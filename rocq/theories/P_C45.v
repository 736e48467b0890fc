(** * C45: the position of a stream reflects its seeks and reads *)
From Verif Require Import Base BaseLemmas Streams_model Streams_spec Streams_proofs.

(** Every stream type shares the code of seek and of the bounds checks of read. If
    its read proper returns the right bytes then, for every history of reads and
    seeks to positions from 0 on, all answers and the final position are those of a
    file. The theorems of the stream types discharge the premise. Missing: seeks to
    negative positions, which are not rejected (below). *)
Theorem C45_history_is_a_file_partial :
  forall (S : Type) (I : S -> Prop) size c (rd : S -> N -> N -> S * res (list N)),
  (forall s o n, I s -> o < size -> o + n <= size ->
     exists s', rd s o n = (s', Ok (bytes_at c o n)) /\ I s') ->
  len c <= size -> size < two63 ->
  forall ops s, I s -> seeks_ok size c 0 ops ->
  exists s', run (stream_step size rd) (s, 0) ops =
    ((s', fst (run (file_step size c) 0 ops)), snd (run (file_step size c) 0 ops)).
Proof.
  intros S I size c rd Hrd Hc Hs ops s HI Hok.
  destruct (run_exact I size c rd Hrd Hc Hs ops s 0) as (s' & E & _); auto.
  - unfold two63. lia.
  - exists s'. exact E.
Qed.
Print Assumptions C45_history_is_a_file_partial.

(** Reading at or past the end returns no bytes and does not move, whatever the read
    proper does. *)
Theorem C45_read_past_end :
  forall (S : Type) size (rd : S -> N -> N -> S * res (list N)) s p n,
  size <= p -> stream_step size rd (s, p) (Read n) = ((s, p), Data (Ok [])).
Proof.
  intros S size rd s p n H. unfold stream_step, stream_read.
  destruct (N.leb_spec size p); [reflexivity | lia].
Qed.
Print Assumptions C45_read_past_end.

(** A read never returns more than was asked for, nor moves beyond the size, provided
    the read proper returns at most what it was asked. *)
Theorem C45_read_bounded :
  forall (S : Type) size (rd : S -> N -> N -> S * res (list N)) s p n s' p' d,
  (forall s o k s' x, rd s o k = (s', Ok x) -> len x <= k) ->
  p < size ->
  stream_step size rd (s, p) (Read n) = ((s', p'), Data (Ok d)) ->
  len d <= n /\ p' = p + len d /\ p' <= size.
Proof.
  intros S size rd s p n s' p' d Hrd Hp. unfold stream_step, stream_read.
  destruct (N.leb_spec size p); [lia |].
  destruct (rd s p _) as [s1 [x | |]] eqn:E; try discriminate.
  apply Hrd in E. unfold add_chk. destruct (p + len x <? two64); [| discriminate].
  intros H1. injection H1 as <- <- <-.
  destruct (N.ltb_spec (size - p) n); lia.
Qed.
Print Assumptions C45_read_bounded.

(** Every seek to a negative position is accepted, and puts the stream at a position
    of at least 2^63. *)
Theorem C45_negative_seek_accepted :
  forall (S : Type) size (rd : S -> N -> N -> S * res (list N)) s p pos,
  size < two63 -> p < two63 -> (- Z.of_N two63 <= seek_target size p pos < 0)%Z ->
  exists o, two63 <= o /\ Z.of_N o = (Z.of_N two64 + seek_target size p pos)%Z /\
  stream_step size rd (s, p) (Seek pos) = ((s, o), Position (Ok o)).
Proof.
  intros S size rd s p pos H1 H2 H3.
  exists (Z.to_N (Z.of_N two64 + seek_target size p pos)).
  cbn [stream_step snd fst]. rewrite seek_negative by assumption.
  unfold two63, two64 in *. repeat split; lia.
Qed.
Print Assumptions C45_negative_seek_accepted.

Theorem C45_negative_seek_rejected_refuted :
  ~ (forall bytes offset size position p pos,
     offset + size <= two64 -> size < two63 -> p < two63 ->
     (seek_target size p pos < 0)%Z ->
     snd (window_step bytes offset size (position, p) (Seek pos)) = Position Err).
Proof.
  intros H. specialize (H [1; 2] 0 2 0 1 (SeekCurrent (-2))).
  vm_compute in H. assert (Position (Ok 18446744073709551615) = Position Err) by (apply H; congruence).
  discriminate.
Qed.
Print Assumptions C45_negative_seek_rejected_refuted.

(** The instances: windows and fake streams. *)
Theorem C45_window_position :
  forall bytes offset size position ops,
  offset + size <= two64 -> size < two63 ->
  seeks_ok size (window_content bytes offset size) 0 ops ->
  snd (fst (run (window_step bytes offset size) (position, 0) ops)) =
  fst (run (file_step size (window_content bytes offset size)) 0 ops).
Proof.
  intros. destruct (window_run bytes offset size ops position) as (p & ->); auto.
Qed.
Print Assumptions C45_window_position.

Example C45_example :
  let ops := [Seek (SeekStart 1); Read 1; Seek (SeekCurrent 5); Read 1; Seek (SeekEnd (-1)); Read 4] in
  seeks_ok 3 [7; 8; 9] 0 ops /\
  run (open_fake_step [7; 8; 9]) (tt, 0) ops =
  ((tt, 3), [Position (Ok 1); Data (Ok [8]); Position (Ok 7); Data (Ok []);
             Position (Ok 2); Data (Ok [9])]).
Proof. vm_compute. intuition congruence. Qed.
