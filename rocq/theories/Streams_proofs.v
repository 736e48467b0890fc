From Verif Require Import Base BaseLemmas Streams_model Streams_spec.

Lemma len_bytes_at c p n : len (bytes_at c p n) = N.min n (len c - p).
Proof. unfold bytes_at, len. rewrite firstn_length, skipn_length. lia. Qed.

Lemma bytes_at_clamp c p n m : len c <= p + m -> bytes_at c p (N.min m n) = bytes_at c p n.
Proof.
  intros H. unfold bytes_at.
  destruct (N.leb_spec n m); [now rewrite N.min_r |].
  rewrite N.min_l by lia.
  rewrite !firstn_all2; [reflexivity | |]; rewrite skipn_length; unfold len in H; lia.
Qed.

Lemma bytes_at_past c p n : len c <= p -> bytes_at c p n = [].
Proof.
  intros H. unfold bytes_at. rewrite skipn_all2 by (unfold len in H; lia). apply firstn_nil.
Qed.

Lemma bytes_at_bytes_at c o s p n : p + n <= s ->
  bytes_at (bytes_at c o s) p n = bytes_at c (o + p) n.
Proof.
  intros H. unfold bytes_at. rewrite skipn_firstn_comm, firstn_firstn, skipn_skipn.
  f_equal; [lia | f_equal; lia].
Qed.

Lemma bytes_at_split c p n m : bytes_at c p (n + m) = bytes_at c p n ++ bytes_at c (p + n) m.
Proof.
  unfold bytes_at. rewrite !N2Nat.inj_add.
  replace (N.to_nat p + N.to_nat n)%nat with (N.to_nat n + N.to_nat p)%nat by lia.
  rewrite <- skipn_skipn.
  generalize (skipn (N.to_nat p) c) as l. generalize (N.to_nat n) as a.
  induction a; intros l; [reflexivity |].
  destruct l; cbn [firstn skipn Nat.add app]; [now rewrite firstn_nil | now rewrite IHa].
Qed.

(** The read proper of a stream is exact. *)
Definition exact_rd {S} (I : S -> Prop) (size : N) (c : list N)
    (rd : S -> N -> N -> S * res (list N)) : Prop :=
  forall s o n, I s -> o < size -> o + n <= size ->
  exists s', rd s o n = (s', Ok (bytes_at c o n)) /\ I s'.

Lemma stream_seek_ok size p pos :
  size < two63 -> p < two63 ->
  (0 <= seek_target size p pos < Z.of_N two63)%Z ->
  stream_seek size p pos = Ok (Z.to_N (seek_target size p pos)).
Proof.
  intros Hs Hp H. unfold two63 in *.
  destruct pos as [o | d | d]; cbn [seek_target stream_seek] in *.
  - now rewrite N2Z.id.
  - unfold as_i64, add_i64, two63. destruct (N.ltb_spec p 9223372036854775808); [| lia].
    rewrite (proj2 (andb_true_iff _ _)) by lia. cbn [bind]. unfold as_u64, two64.
    now rewrite Z.mod_small by lia.
  - unfold as_i64, add_i64, two63. destruct (N.ltb_spec size 9223372036854775808); [| lia].
    rewrite (proj2 (andb_true_iff _ _)) by lia. cbn [bind]. unfold as_u64, two64.
    now rewrite Z.mod_small by lia.
Qed.

Lemma stream_step_exact {S} (I : S -> Prop) size c rd :
  exact_rd I size c rd -> len c <= size -> size < two63 ->
  forall s p op, I s -> p < two63 ->
  (match op with Read _ => True
   | Seek pos => (0 <= seek_target size p pos < Z.of_N two63)%Z end) ->
  exists s', stream_step size rd (s, p) op =
      ((s', fst (file_step size c p op)), snd (file_step size c p op)) /\
    I s' /\ fst (file_step size c p op) < two63.
Proof.
  intros Hrd Hc Hs s p op HI Hp Hop. destruct op as [n | pos].
  - cbn [stream_step file_step fst snd]. unfold stream_read.
    destruct (N.leb_spec size p).
    + exists s. rewrite bytes_at_past by lia.
      change (len (@nil N)) with 0. rewrite N.add_0_r. auto.
    + assert (E : (if size - p <? n then size - p else n) = N.min (size - p) n)
        by (destruct (N.ltb_spec (size - p) n); lia).
      rewrite E.
      destruct (Hrd s p (N.min (size - p) n) HI) as (s' & Hr & HI'); [lia .. |].
      rewrite Hr, bytes_at_clamp by lia.
      pose proof (len_bytes_at c p n) as Hl. unfold two63 in *.
      unfold add_chk, two64.
      destruct (N.ltb_spec (p + len (bytes_at c p n)) 18446744073709551616); [| lia].
      exists s'. repeat split; auto. lia.
  - cbn [stream_step snd fst]. rewrite stream_seek_ok by assumption.
    cbn [file_step]. destruct (Z.ltb_spec (seek_target size p pos) 0); [lia |].
    exists s. cbn [fst snd]. repeat split; auto. lia.
Qed.

Lemma run_exact {S} (I : S -> Prop) size c rd :
  exact_rd I size c rd -> len c <= size -> size < two63 ->
  forall ops s p, I s -> p < two63 -> seeks_ok size c p ops ->
  exists s', run (stream_step size rd) (s, p) ops =
      ((s', fst (run (file_step size c) p ops)), snd (run (file_step size c) p ops)) /\
    I s' /\ fst (run (file_step size c) p ops) < two63.
Proof.
  intros Hrd Hc Hs. induction ops as [| op t IH]; intros s p HI Hp Hok.
  - exists s. auto.
  - destruct Hok as [Hop Hok].
    destruct (stream_step_exact I size c rd Hrd Hc Hs s p op HI Hp Hop) as (s1 & E1 & HI1 & Hp1).
    destruct (IH s1 _ HI1 Hp1 Hok) as (s2 & E2 & HI2 & Hp2).
    exists s2. cbn [run]. rewrite E1, E2.
    destruct (file_step size c p op) as [p1 o1]. cbn [fst snd] in *.
    destruct (run (file_step size c) p1 t) as [p2 os]. cbn [fst snd] in *. auto.
Qed.

(** ** Windows *)
Lemma window_exact bytes offset size :
  offset + size <= two64 ->
  exact_rd (fun _ => True) size (window_content bytes offset size) (window_rd bytes offset).
Proof.
  intros H s o n _ Ho Hn. unfold window_rd, add_chk.
  destruct (N.ltb_spec (offset + o) two64); [| lia].
  unfold source_read_at, source_seek, source_read. eexists. split; [| exact I].
  unfold window_content. rewrite bytes_at_bytes_at by lia. reflexivity.
Qed.

Lemma window_run bytes offset size ops position :
  offset + size <= two64 -> size < two63 ->
  seeks_ok size (window_content bytes offset size) 0 ops ->
  exists position',
  run (window_step bytes offset size) (position, 0) ops =
    ((position', fst (run (file_step size (window_content bytes offset size)) 0 ops)),
     snd (run (file_step size (window_content bytes offset size)) 0 ops)).
Proof.
  intros H1 H2 H3.
  destruct (run_exact (fun _ => True) size (window_content bytes offset size)
              (window_rd bytes offset)) with (ops := ops) (s := position) (p := 0)
    as (s' & E & _); auto.
  - now apply window_exact.
  - unfold window_content. rewrite len_bytes_at. lia.
  - unfold two63. lia.
  - exists s'. exact E.
Qed.

(** ** Sequential reads *)
Lemma file_reads size c : forall ns p,
  concat (map (fun o => match o with Data (Ok d) => d | _ => [] end)
    (snd (run (file_step size c) p (map Read ns)))) =
  bytes_at c p (fold_right N.add 0 ns).
Proof.
  induction ns as [| n t IH]; intros p.
  - cbn. unfold bytes_at. reflexivity.
  - cbn [map run file_step fold_right].
    specialize (IH (p + len (bytes_at c p n))).
    destruct (run (file_step size c) (p + len (bytes_at c p n)) (map Read t)) as [p2 os].
    cbn [snd map concat] in *. rewrite IH, bytes_at_split. f_equal.
    rewrite len_bytes_at. destruct (N.leb_spec n (len c - p)).
    + f_equal. lia.
    + rewrite N.min_r by lia. rewrite !bytes_at_past by lia. reflexivity.
Qed.

Lemma seeks_ok_reads size c ns : forall p, seeks_ok size c p (map Read ns).
Proof. induction ns as [| n t IH]; intros p; cbn [map seeks_ok]; auto. Qed.

(** ** Interleaving *)
Lemma nth_set_nth_eq {A} (l : list A) i v d : (i < length l)%nat -> nth i (set_nth l i v) d = v.
Proof.
  revert i. induction l as [| h t IH]; intros [| i] H; cbn [set_nth nth length] in *; try lia; auto.
  apply IH. lia.
Qed.
Lemma nth_set_nth_neq {A} (l : list A) i j v d : i <> j -> nth j (set_nth l i v) d = nth j l d.
Proof.
  revert i j. induction l as [| h t IH]; intros [| i] [| j] H; cbn [set_nth nth]; auto; try congruence.
  all: apply IH; congruence.
Qed.

(** The source's position does not influence what a window answers. *)
Lemma window_step_position bytes offset size p1 p2 o op :
  snd (fst (window_step bytes offset size (p1, o) op)) =
  snd (fst (window_step bytes offset size (p2, o) op)) /\
  snd (window_step bytes offset size (p1, o) op) =
  snd (window_step bytes offset size (p2, o) op).
Proof.
  unfold window_step, stream_step. destruct op as [n | pos].
  - unfold stream_read. destruct (size <=? o); [now cbn |].
    unfold window_rd. destruct (add_chk two64 offset o); [| now cbn ..].
    unfold source_read_at, source_seek.
    destruct (source_read bytes a _) as [q d].
    destruct (add_chk two64 o (len d)); now cbn.
  - cbn [snd fst]. destruct (stream_seek size o pos); now cbn.
Qed.

Lemma run_window_position bytes offset size ops : forall p1 p2 o,
  snd (run (window_step bytes offset size) (p1, o) ops) =
  snd (run (window_step bytes offset size) (p2, o) ops).
Proof.
  induction ops as [| op t IH]; intros p1 p2 o; [reflexivity |].
  cbn [run]. pose proof (window_step_position bytes offset size p1 p2 o op) as [E1 E2].
  destruct (window_step bytes offset size (p1, o) op) as [[q1 o1] r1].
  destruct (window_step bytes offset size (p2, o) op) as [[q2 o2] r2].
  cbn [fst snd] in *. subst.
  specialize (IH q1 q2 o2).
  destruct (run _ (q1, o2) t), (run _ (q2, o2) t). cbn [snd] in *. now rewrite IH.
Qed.

Lemma windows_independent bytes ws i : (i < length ws)%nat -> forall ops position offsets,
  length offsets = length ws ->
  calls_of i (snd (windows_run bytes ws (position, offsets) ops)) =
  let w := nth i ws {| w_offset := 0; w_size := 0 |} in
  snd (run (window_step bytes (w_offset w) (w_size w)) (position, nth i offsets 0)
         (calls_of i ops)).
Proof.
  intros Hi. cbv zeta.
  induction ops as [| [j op] t IH]; intros position offsets Hlen; [reflexivity |].
  cbn [windows_run]. unfold windows_step. cbn [fst snd].
  set (w := nth j ws _).
  destruct (window_step bytes (w_offset w) (w_size w) (position, nth j offsets 0) op)
    as [[p o] out] eqn:E.
  specialize (IH p (set_nth offsets j o)). rewrite set_nth_length in IH. specialize (IH Hlen).
  destruct (windows_run bytes ws (p, set_nth offsets j o) t) as [st os]. cbn [snd] in *.
  unfold calls_of in *. cbn [filter fst].
  destruct (Nat.eqb_spec j i) as [-> | Hne].
  - cbn [map snd run]. fold w. unfold w in *. rewrite E, IH.
    rewrite nth_set_nth_eq by congruence.
    destruct (run _ (p, o) _). reflexivity.
  - rewrite IH, nth_set_nth_neq by assumption. apply run_window_position.
Qed.

(** ** The fake stream *)
Lemma bytes_at_padded_data data size o n : o + n <= len data -> o + n <= size ->
  bytes_at (padded data size) o n = bytes_at data o n.
Proof.
  intros H1 H2. unfold padded, bytes_at.
  rewrite skipn_firstn_comm, firstn_firstn, skipn_app, firstn_app.
  unfold len in *. rewrite skipn_length.
  replace (Nat.min (N.to_nat n) (N.to_nat size - N.to_nat o)) with (N.to_nat n) by lia.
  replace (N.to_nat n - (length data - N.to_nat o))%nat with 0%nat by lia.
  cbn [firstn]. now rewrite app_nil_r.
Qed.

Lemma skipn_repeat {A} (x : A) a b : skipn a (repeat x b) = repeat x (b - a).
Proof. revert b. induction a; intros [| b]; cbn; auto. Qed.
Lemma firstn_repeat {A} (x : A) a b : firstn a (repeat x b) = repeat x (Nat.min a b).
Proof. revert b. induction a; intros [| b]; cbn; auto. now rewrite IHa. Qed.

Lemma bytes_at_padded_zero data size o n : len data <= o -> o + n <= size ->
  bytes_at (padded data size) o n = repeat 0 (N.to_nat n).
Proof.
  intros H1 H2. unfold padded, bytes_at.
  rewrite skipn_firstn_comm, firstn_firstn, skipn_app. unfold len in *.
  rewrite skipn_all2 by lia. cbn [app].
  rewrite skipn_repeat, firstn_repeat. f_equal. lia.
Qed.

Lemma fake_loop_done fuel data o r out : len out = r -> (0 < fuel)%nat ->
  fake_read_loop fuel data o r out = Ok out.
Proof.
  intros H Hf. destruct fuel; [lia |]. cbn [fake_read_loop].
  destruct (N.ltb_spec (len out) r); [lia | reflexivity].
Qed.

Lemma fake_rd_straight data o n u :
  o + n <= len data \/ len data <= o ->
  fake_rd data u o n =
    (u, Ok (if o <? len data then bytes_at data o n else repeat 0 (N.to_nat n))).
Proof.
  intros H. unfold fake_rd. f_equal.
  destruct (N.eqb_spec n 0) as [-> | Hn].
  { cbn. destruct (o <? len data); [unfold bytes_at |]; reflexivity. }
  cbn [fake_read_loop]. change (len (@nil N)) with 0.
  destruct (N.ltb_spec 0 n); [| lia]. rewrite N.sub_0_r.
  destruct (N.ltb_spec o (len data)).
  - assert (o + n <= len data) by lia. rewrite N.min_l by lia.
    rewrite slice_ok by lia. cbn [bind app].
    replace (o + n - o) with n by lia. fold (bytes_at data o n).
    apply fake_loop_done; [| lia]. rewrite len_bytes_at. lia.
  - cbn [app]. apply fake_loop_done; [| lia].
    unfold len. rewrite repeat_length. lia.
Qed.

Lemma fake_exact_open data :
  exact_rd (fun _ => True) (len data) data (fake_rd data).
Proof.
  intros s o n _ Ho Hn. exists s. split; [| exact I].
  rewrite fake_rd_straight by lia. destruct (N.ltb_spec o (len data)); [reflexivity | lia].
Qed.

Lemma fake_exact_short data size : size <= len data ->
  exact_rd (fun _ => True) size (padded data size) (fake_rd data).
Proof.
  intros H s o n _ Ho Hn. exists s. split; [| exact I].
  rewrite fake_rd_straight by lia. destruct (N.ltb_spec o (len data)); [| lia].
  now rewrite bytes_at_padded_data by lia.
Qed.

Lemma len_padded data size : len (padded data size) = size.
Proof. unfold padded, len. rewrite firstn_length, app_length, repeat_length. lia. Qed.

(** A read across the end of the data: the first byte after the data is the byte the
    read started with. *)
Lemma nth_error_firstn_lt' {A} (l : list A) n i : (i < n)%nat ->
  nth_error (firstn n l) i = nth_error l i.
Proof.
  revert n i. induction l; intros [| n] [| i] H; cbn; auto; try lia. apply IHl. lia.
Qed.

Lemma fake_loop_prefix data o r : forall fuel out d,
  fake_read_loop fuel data o r out = Ok d -> exists t, d = out ++ t.
Proof.
  induction fuel; intros out d H; [discriminate |].
  cbn [fake_read_loop] in H.
  destruct (len out <? r).
  - destruct (o <? len data).
    + apply bind_Ok_inv in H as (x & _ & H). apply IHfuel in H as [t ->].
      exists (x ++ t). now rewrite app_assoc.
    + apply IHfuel in H as [t ->]. eexists. now rewrite <- app_assoc.
  - injection H as <-. exists []. now rewrite app_nil_r.
Qed.

Lemma fake_loop_total data o r : forall fuel out,
  (N.to_nat (r - len out) < fuel)%nat -> len out <= r ->
  exists d, fake_read_loop fuel data o r out = Ok d /\ len d = r.
Proof.
  induction fuel; intros out Hf Hr; [lia |]. cbn [fake_read_loop].
  destruct (N.ltb_spec (len out) r).
  - destruct (N.ltb_spec o (len data)).
    + set (k := N.min (r - len out) (len data - o)).
      rewrite slice_ok by lia. cbn [bind].
      assert (Hl : len (firstn (N.to_nat (o + k - o)) (skipn (N.to_nat o) data)) = k).
      { fold (bytes_at data o (o + k - o)). rewrite len_bytes_at. lia. }
      apply IHfuel; rewrite len_app, Hl; lia.
    + assert (Hl : len (repeat 0 (N.to_nat (r - len out))) = r - len out)
        by (unfold len at 1; rewrite repeat_length; lia).
      apply IHfuel; rewrite len_app, Hl; lia.
  - exists out. split; [reflexivity | lia].
Qed.

Lemma nth_error_skipn_0 {A} a : forall l : list A, nth_error (skipn a l) 0 = nth_error l a.
Proof.
  induction a; intros [| h l]; try reflexivity. cbn [skipn]. rewrite IHa. reflexivity.
Qed.

Lemma fake_crossing data o n : o < len data -> len data < o + n ->
  exists d, fake_rd data tt o n = (tt, Ok d) /\ len d = n /\
    bytes_at d 0 (len data - o) = bytes_at data o (len data - o) /\
    nth_error d (N.to_nat (len data - o)) = nth_error data (N.to_nat o).
Proof.
  intros Ho Hn. unfold fake_rd.
  destruct (fake_loop_total data o n (S (N.to_nat n)) []) as (d & E & Hd);
    [change (len (@nil N)) with 0; lia .. |].
  exists d. rewrite E. split; [reflexivity |]. split; [exact Hd |].
  cbn [fake_read_loop] in E. change (len (@nil N)) with 0 in E.
  destruct (N.ltb_spec 0 n); [| lia]. rewrite N.sub_0_r in E.
  destruct (N.ltb_spec o (len data)); [| lia].
  rewrite N.min_r in E by lia. rewrite slice_ok in E by lia. cbn [bind app] in E.
  fold (bytes_at data o (o + (len data - o) - o)) in E.
  replace (o + (len data - o) - o) with (len data - o) in E by lia.
  set (x := bytes_at data o (len data - o)) in *.
  assert (Hx : len x = len data - o) by (unfold x; rewrite len_bytes_at; lia).
  destruct (N.to_nat n) as [| k] eqn:Ek; [lia |]. cbn [fake_read_loop] in E.
  destruct (N.ltb_spec (len x) n); [| lia].
  destruct (N.ltb_spec o (len data)); [| lia].
  set (k' := N.min (n - len x) (len data - o)) in E.
  rewrite slice_ok in E by lia. cbn [bind] in E.
  apply fake_loop_prefix in E as [t ->]. split.
  - unfold bytes_at at 1. cbn [N.to_nat skipn]. rewrite <- app_assoc, firstn_app.
    rewrite firstn_all2 by (unfold len in *; lia).
    replace (N.to_nat (len data - o) - length x)%nat with 0%nat by (unfold len in *; lia).
    cbn [firstn]. now rewrite app_nil_r.
  - rewrite <- app_assoc, nth_error_app2 by (unfold len in *; lia).
    replace (N.to_nat (len data - o) - length x)%nat with 0%nat by (unfold len in *; lia).
    rewrite nth_error_app1.
    + rewrite nth_error_firstn_lt' by lia.
      apply nth_error_skipn_0.
    + rewrite firstn_length, skipn_length. unfold len in *. lia.
Qed.

(** ** Seeks out of range *)
Lemma seek_negative size p pos :
  size < two63 -> p < two63 -> (- Z.of_N two63 <= seek_target size p pos < 0)%Z ->
  stream_seek size p pos = Ok (Z.to_N (Z.of_N two64 + seek_target size p pos)).
Proof.
  intros Hs Hp H. unfold two63, two64 in *.
  assert (E : forall z, (- 9223372036854775808 <= z < 0)%Z ->
    as_u64 z = Z.to_N (18446744073709551616 + z)).
  { intros z Hz. unfold as_u64, two64. f_equal. symmetry.
    change (Z.of_N 18446744073709551616) with 18446744073709551616%Z.
    apply Z.mod_unique with (-1)%Z; lia. }
  destruct pos as [o | d | d]; cbn [seek_target stream_seek] in *; [lia | |].
  - unfold as_i64, add_i64, two63. destruct (N.ltb_spec p 9223372036854775808); [| lia].
    rewrite (proj2 (andb_true_iff _ _)) by lia. cbn [bind]. now rewrite E by lia.
  - unfold as_i64, add_i64, two63. destruct (N.ltb_spec size 9223372036854775808); [| lia].
    rewrite (proj2 (andb_true_iff _ _)) by lia. cbn [bind]. now rewrite E by lia.
Qed.

Lemma seek_no_panic_start size p o : stream_seek size p (SeekStart o) = Ok o.
Proof. reflexivity. Qed.
