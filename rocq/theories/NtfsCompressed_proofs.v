From Verif Require Import Base BaseLemmas Streams_model Streams_spec Streams_proofs BlockTree_model BlockTree_spec BlockTree_proofs
  Blocks_model Blocks_proofs Lru_model Lru_proofs Image_spec Image_proofs Sparse_proofs Lz_model Lz_proofs Lznt1_proofs
  Ntfs_model Ntfs_spec Ntfs_proofs Udif_proofs NtfsCompressed_model NtfsCompressed_spec.
Ltac Zify.zify_post_hook ::= idtac.

(** ** Reads that meet a condition *)
Definition exact_step_on {St} (P : N -> N -> Prop) (I : St -> Prop) (size : N) (c : list N) (step : St -> N -> N -> St * res (list N)) : Prop :=
  forall s o r, I s -> P o r -> o < size -> 0 < r -> o + r <= size ->
  exists s' k, step s o r = (s', Ok (bytes_at c o k)) /\ I s' /\ 0 < k <= r /\ P (o + k) (r - k).
Lemma read_blocks_on {St} P (I : St -> Prop) size c step : exact_step_on P I size c step -> len c = size -> size < two64 ->
  forall fuel s o n out, I s -> len out <= n -> o + (n - len out) <= size -> P o (n - len out) -> (N.to_nat (n - len out) < fuel)%nat ->
  exists s', read_blocks fuel size step s o n out = (s', Ok (out ++ bytes_at c o (n - len out))) /\ I s'.
Proof.
  intros Hstep Hc Hsize. induction fuel as [|fuel IH]; intros s o n out HI Ho Hn HP Hf; [lia|].
  cbn [read_blocks]. destruct (N.ltb_spec (len out) n) as [H|H].
  - destruct (N.leb_spec size o); [lia|].
    destruct (Hstep s o (n - len out) HI HP) as (s1 & k & E & HI1 & Hk & HP1); try lia.
    rewrite E. assert (Lk : len (bytes_at c o k) = k) by (rewrite len_bytes_at; lia).
    destruct (bytes_at c o k) as [|b d] eqn:Ed; [change (len (@nil N)) with 0 in Lk; lia|]. rewrite <- Ed in *.
    unfold add_chk. rewrite Lk. destruct (N.ltb_spec (o + k) two64); [|lia].
    assert (Ln : len (out ++ bytes_at c o k) = len out + k) by (rewrite len_app; lia).
    destruct (IH s1 (o + k) n (out ++ bytes_at c o k) HI1) as (s2 & E2 & HI2); try (rewrite Ln; lia).
    { rewrite Ln. replace (n - (len out + k)) with (n - len out - k) by lia. assumption. }
    exists s2. rewrite E2. split; [|assumption]. rewrite Ln, <- app_assoc. do 3 f_equal.
    replace (n - len out) with (k + (n - (len out + k))) by lia. rewrite bytes_at_split. reflexivity.
  - exists s. replace (n - len out) with 0 by lia. unfold bytes_at. cbn [N.to_nat firstn]. rewrite app_nil_r. auto.
Qed.
Lemma run_exact_on {St} P (I : St -> Prop) size c step : exact_step_on P I size c step -> len c = size -> size < two63 ->
  forall ops s p, I s -> p < two63 -> seeks_ok size c p ops -> reads_ok P size c p ops ->
  exists s', Streams_model.run (stream_step size (blocks_rd size step)) (s, p) ops =
      ((s', fst (Streams_model.run (file_step size c) p ops)), snd (Streams_model.run (file_step size c) p ops)) /\ I s'.
Proof.
  intros Hstep Hc Hs. induction ops as [|op t IH]; intros s p HI Hp Hok Hrd; [exists s; auto|].
  destruct Hok as [Hop Hok]. destruct Hrd as [Hr Hrd].
  assert (S1 : exists s', stream_step size (blocks_rd size step) (s, p) op = ((s', fst (file_step size c p op)), snd (file_step size c p op)) /\ I s' /\
    fst (file_step size c p op) < two63).
  { destruct op as [n|pos].
    - cbn [stream_step file_step fst snd]. unfold stream_read. destruct (N.leb_spec size p) as [H|H].
      + exists s. rewrite bytes_at_past by lia. change (len (@nil N)) with 0. rewrite N.add_0_r. auto.
      + assert (E : (if size - p <? n then size - p else n) = N.min n (size - p)) by (destruct (N.ltb_spec (size - p) n); lia). rewrite E.
        unfold blocks_rd. specialize (Hr H). destruct (read_blocks_on P I size c step Hstep Hc ltac:(unfold two63, two64 in *; lia) (Datatypes.S (N.to_nat (N.min n (size - p)))) s p (N.min n (size - p)) [] HI)
          as (s' & Er & HI'); change (len (@nil N)) with 0; rewrite ?N.sub_0_r; try lia; [assumption|].
        rewrite Er. change (len (@nil N)) with 0. rewrite N.sub_0_r. cbn [app]. rewrite (N.min_comm n). rewrite bytes_at_clamp by lia.
        pose proof (len_bytes_at c p n) as Hl. unfold add_chk. unfold two63, two64 in *.
        destruct (N.ltb_spec (p + len (bytes_at c p n)) 18446744073709551616); [|lia]. exists s'. repeat split; auto. lia.
    - cbn [stream_step snd fst]. rewrite stream_seek_ok by assumption. cbn [file_step].
      destruct (Z.ltb_spec (seek_target size p pos) 0); [lia|]. exists s. cbn [fst snd]. repeat split; auto. lia. }
  destruct S1 as (s1 & E1 & HI1 & Hp1). destruct (IH s1 _ HI1 Hp1 Hok Hrd) as (s2 & E2 & HI2).
  exists s2. cbn [Streams_model.run]. rewrite E1, E2. destruct (file_step size c p op) as [p1 o1]. cbn [fst snd] in *.
  destruct (Streams_model.run (file_step size c) p1 t) as [p2 os]. auto.
Qed.

(** ** The ranges that are inserted *)
Definition kind (r : run) : run_type := match r with Allocated _ _ => InFile | Hole _ => Sparse end.
Definition rest_pieces (u k : N) (ty : bool) : list (N * bool) * N * bool :=
  if k <? u then ([], k, ty)
  else if ty then
    if k - u <? u then ([(u, true)], k - u, false) else ([(u, true); ((k - u) / u * u, false)], (k - u) mod u, false)
  else ([(k / u * u, false)], k mod u, false).
Definition starts (last : run_type) (r : run) : bool := match last, kind r with InFile, Sparse => true | _, _ => false end.
Fixpoint pieces (u : N) (runs : list run) (k : N) (ty : bool) (last : run_type) : list (N * bool) * N * bool * run_type :=
  match runs with
  | [] => ([], k, ty, last)
  | r :: runs =>
      let '(ps, k, ty) := rest_pieces u (k + run_count r) (ty || starts last r) in
      let '(ps', k, ty, last) := pieces u runs k ty (kind r) in (ps ++ ps', k, ty, last)
  end.
Fixpoint cranges (cs o : N) (ps : list (N * bool)) : list (N * compression_range) :=
  match ps with
  | [] => []
  | (n, ty) :: ps => (n * cs, {| cr_offset := o; cr_size := n * cs; cr_compressed := ty |}) :: cranges cs (o + n * cs) ps
  end.
Definition sum (ps : list (N * bool)) : N := fold_right (fun p a => fst p + a) 0 ps.
Lemma cranges_app cs a : forall b o, cranges cs o (a ++ b) = cranges cs o a ++ cranges cs (o + sum a * cs) b.
Proof.
  induction a as [|[n ty] a IH]; intros b o; cbn [app cranges sum fold_right fst].
  - rewrite N.mul_0_l, N.add_0_r. reflexivity.
  - fold (sum a). rewrite IH. do 3 f_equal. rewrite N.mul_add_distr_r. lia.
Qed.
Lemma sum_app a b : sum (a ++ b) = sum a + sum b.
Proof. induction a as [|[n ty] a IH]; [reflexivity|]. cbn [app sum fold_right fst]. fold (sum a) (sum (a ++ b)). lia. Qed.
Lemma total_cranges cs ps : forall o, total (cranges cs o ps) = sum ps * cs.
Proof.
  induction ps as [|[n ty] ps IH]; intros o; [reflexivity|]. cbn [cranges total fold_right fst sum]. fold (sum ps). fold (total (cranges cs (o + n * cs) ps)).
  rewrite IH, N.mul_add_distr_r. lia.
Qed.

Definition cstate (t : block_tree compression_range) (o : N) (last : run_type) (cs k : N) (ty : bool) : compression_state :=
  {| cs_tree := t; cs_offset := o; cs_last := last; cs_range := {| cr_offset := o; cr_size := k * cs; cr_compressed := ty |} |}.
Lemma div_scale a b c : 0 < c -> 0 < b -> a * c / (b * c) = a / b.
Proof. intros. apply N.div_mul_cancel_r; lia. Qed.
Lemma emit_ok cs u t o last k (ty : bool) : 0 < cs -> 0 < u -> u <= k -> o + k * cs < two64 ->
  let n := if ty then u else k / u * u in
  compression_emit (u * cs) (cstate t o last cs k ty) =
    (t <- insert_ranges t (consecutive o (cranges cs o [(n, ty)])) ;; Ok (cstate t (o + n * cs) last cs (k - n) false)).
Proof.
  intros Hcs Hu Hk Ho n. unfold compression_emit, cstate. cbn [cs_range cr_size cr_compressed cs_tree cs_offset cs_last cr_offset].
  assert (Hk' : u * cs <= k * cs) by (apply N.mul_le_mono_r; assumption).
  destruct (N.leb_spec (u * cs) (k * cs)); [|lia].
  assert (Hn : n <= k). { unfold n. destruct ty; [assumption|]. rewrite N.mul_comm. apply N.mul_div_le. lia. }
  assert (Hn' : n * cs <= k * cs) by (apply N.mul_le_mono_r; assumption).
  assert (E : (if ty then Ok (u * cs) else n <- div_chk (k * cs) (u * cs) ;; mul_chk two64 n (u * cs)) = Ok (n * cs)).
  { unfold n in *. destruct ty; [reflexivity|]. unfold div_chk. assert (0 < u * cs) by (apply N.mul_pos_pos; assumption).
    destruct (N.eqb_spec (u * cs) 0); [lia|]. cbn [bind]. rewrite div_scale by assumption. unfold mul_chk.
    rewrite N.mul_assoc. destruct (N.ltb_spec (k / u * u * cs) two64); [reflexivity|lia]. }
  rewrite E. cbn [bind]. unfold sub_chk. destruct (N.leb_spec (n * cs) (k * cs)); [|lia]. cbn [bind].
  cbn [cranges consecutive insert_ranges].
  destruct (bt_insert t o (n * cs) _) as [t' [x| |]]; cbn [bind]; try reflexivity.
  unfold add_chk. destruct (N.ltb_spec (o + n * cs) two64); [|lia]. cbn [bind]. rewrite <- N.mul_sub_distr_r. reflexivity.
Qed.
Lemma rest_ok cs u t o last k ty : 0 < cs -> 0 < u -> o + k * cs < two64 ->
  let '(ps, k', ty') := rest_pieces u k ty in
  compression_rest 3 (u * cs) (cstate t o last cs k ty) =
    (t <- insert_ranges t (consecutive o (cranges cs o ps)) ;; Ok (cstate t (o + sum ps * cs) last cs k' ty')) /\ k = sum ps + k' /\ k' < u.
Proof.
  intros Hcs Hu Ho. unfold rest_pieces. cbn [compression_rest].
  assert (Lt : forall t o last k0 (ty : bool), cr_size (cs_range (cstate t o last cs k0 ty)) <? u * cs = (k0 <? u)).
  { intros. cbn [cstate cs_range cr_size]. destruct (N.ltb_spec k0 u) as [H|H].
    - apply N.ltb_lt. apply N.mul_lt_mono_pos_r; assumption.
    - apply N.ltb_ge. apply N.mul_le_mono_r; assumption. }
  rewrite Lt. destruct (N.ltb_spec k u) as [H|H].
  { cbn [consecutive cranges insert_ranges bind sum fold_right]. rewrite N.mul_0_l, N.add_0_r, N.add_0_l. auto. }
  rewrite emit_ok by assumption. destruct ty.
  - destruct (N.ltb_spec (k - u) u) as [H1|H1].
    + split; [|cbn [sum fold_right fst]; lia]. destruct (insert_ranges t _) as [t1| |]; cbn [bind]; try reflexivity. rewrite Lt.
      destruct (N.ltb_spec (k - u) u); [|lia]. cbn [sum fold_right fst]. rewrite N.add_0_r. reflexivity.
    + pose proof (N.div_mod (k - u) u ltac:(lia)) as Hd. pose proof (N.mod_lt (k - u) u ltac:(lia)) as Hm.
      split; [|cbn [sum fold_right fst]; rewrite (N.mul_comm u) in Hd; lia].
      change [(u, true); ((k - u) / u * u, false)] with ([(u, true)] ++ [((k - u) / u * u, false)]).
      rewrite cranges_app, consecutive_app, insert_ranges_app. rewrite total_cranges.
      destruct (insert_ranges t (consecutive o (cranges cs o [(u, true)]))) as [t1| |]; cbn [bind]; try reflexivity. rewrite Lt.
      destruct (N.ltb_spec (k - u) u); [lia|].
      assert (Hle : (k - u) * cs + u * cs = k * cs) by (rewrite <- N.mul_add_distr_r; f_equal; lia).
      rewrite emit_ok by (assumption || lia). cbn [sum fold_right fst app]. rewrite !N.add_0_r.
      destruct (insert_ranges t1 _) as [t2| |]; cbn [bind]; try reflexivity. rewrite Lt.
      assert (Er : k - u - (k - u) / u * u = (k - u) mod u) by (rewrite (N.mul_comm u) in Hd; lia). rewrite Er.
      destruct (N.ltb_spec ((k - u) mod u) u); [|lia]. rewrite N.mul_add_distr_r, N.add_assoc. reflexivity.
  - pose proof (N.div_mod k u ltac:(lia)) as Hd. pose proof (N.mod_lt k u ltac:(lia)) as Hm. rewrite (N.mul_comm u) in Hd.
    split; [|cbn [sum fold_right fst]; lia]. destruct (insert_ranges t _) as [t1| |]; cbn [bind]; try reflexivity. rewrite Lt.
    assert (Er : k - k / u * u = k mod u) by lia. rewrite Er. destruct (N.ltb_spec (k mod u) u); [|lia].
    cbn [sum fold_right fst]. rewrite N.add_0_r. reflexivity.
Qed.
Lemma runs_ok cs u : 0 < cs -> 0 < u -> forall runs t o last k ty, k < u -> o + (k + clusters runs) * cs < two64 ->
  let '(ps, k', ty', last') := pieces u runs k ty last in
  compression_runs cs (u * cs) (map as_data_run runs) (cstate t o last cs k ty) =
    (t <- insert_ranges t (consecutive o (cranges cs o ps)) ;; Ok (cstate t (o + sum ps * cs) last' cs k' ty')) /\ k + clusters runs = sum ps + k' /\ k' < u.
Proof.
  intros Hcs Hu. induction runs as [|r runs IHruns]; intros t o last k ty Hk Ho; cbn [pieces map compression_runs].
  - cbn [consecutive cranges insert_ranges bind sum fold_right clusters]. rewrite N.mul_0_l, !N.add_0_r, N.add_0_l. auto.
  - cbn [clusters fold_right] in Ho |- *. fold (clusters runs) in *.
    assert (Em : compression_emit (u * cs) (cstate t o last cs k ty) = Ok (cstate t o last cs k ty)).
    { unfold compression_emit. cbn [cstate cs_range cr_size]. assert (k * cs < u * cs) by (apply N.mul_lt_mono_pos_r; assumption).
      destruct (N.leb_spec (u * cs) (k * cs)); [lia|reflexivity]. }
    rewrite Em. cbn [bind]. rewrite !N.mul_add_distr_r in Ho.
    assert (En : number_of_blocks (as_data_run r) = run_count r) by (destruct r; reflexivity).
    assert (Ek : run_kind (as_data_run r) = kind r) by (destruct r; reflexivity).
    assert (Ea : compression_add cs (as_data_run r) (cstate t o last cs k ty) = Ok (cstate t o (kind r) cs (k + run_count r) (ty || starts last r))).
    { unfold compression_add. rewrite En, Ek. unfold mul_chk. destruct (N.ltb_spec (run_count r * cs) two64); [|lia]. cbn [bind].
      cbn [cstate cs_range cr_size cs_tree cs_offset cs_last cr_offset cr_compressed]. unfold add_chk.
      destruct (N.ltb_spec (k * cs + run_count r * cs) two64); [|lia]. cbn [bind]. unfold cstate, starts. rewrite N.mul_add_distr_r.
      destruct (kind r), last; reflexivity. }
    rewrite Ea. cbn [bind].
    pose proof (rest_ok cs u t o (kind r) (k + run_count r) (ty || starts last r) Hcs Hu) as R. rewrite N.mul_add_distr_r in R. specialize (R ltac:(lia)).
    destruct (rest_pieces u (k + run_count r) (ty || starts last r)) as [[ps k1] ty1]. destruct R as (R1 & R2 & R3). rewrite R1.
    assert (Ho' : o + sum ps * cs + (k1 + clusters runs) * cs < two64).
    { assert (Hs : (sum ps + k1) * cs = (k + run_count r) * cs) by (f_equal; lia). rewrite !N.mul_add_distr_r in Hs. rewrite N.mul_add_distr_r. lia. }
    assert (IH' : forall t, let '(ps', k', ty', last') := pieces u runs k1 ty1 (kind r) in
      compression_runs cs (u * cs) (map as_data_run runs) (cstate t (o + sum ps * cs) (kind r) cs k1 ty1) =
      (t <- insert_ranges t (consecutive (o + sum ps * cs) (cranges cs (o + sum ps * cs) ps')) ;; Ok (cstate t (o + sum ps * cs + sum ps' * cs) last' cs k' ty')) /\
      k1 + clusters runs = sum ps' + k' /\ k' < u).
    { intros t'. revert Ho'. clear - R3 Hcs Hu IHruns. apply IHruns. exact R3. }
    destruct (pieces u runs k1 ty1 (kind r)) as [[[ps' k'] ty'] last'].
    rewrite cranges_app, consecutive_app, insert_ranges_app, total_cranges, sum_app.
    destruct (IH' t) as (_ & I2 & I3). split; [|split; [lia|assumption]].
    destruct (insert_ranges t (consecutive o (cranges cs o ps))) as [t1| |]; cbn [bind]; try reflexivity.
    destruct (IH' t1) as (I1 & _). rewrite I1. rewrite N.mul_add_distr_r, N.add_assoc. reflexivity.
Qed.

Lemma compression_runs_app cs unit a : forall b s,
  compression_runs cs unit (a ++ b) s = (s <- compression_runs cs unit a s ;; compression_runs cs unit b s).
Proof.
  induction a as [|r a IH]; intros b s; [reflexivity|]. cbn [app compression_runs].
  destruct (compression_emit unit s) as [s1| |]; cbn [bind]; try reflexivity.
  destruct (compression_add cs r s1) as [s2| |]; cbn [bind]; try reflexivity.
  destruct (compression_rest 3 unit s2) as [s3| |]; cbn [bind]; try reflexivity. apply IH.
Qed.
Lemma compression_groups_runs cs unit : forall vcn runs groups, grouped vcn runs groups -> forall s,
  compression_groups cs unit groups s = compression_runs cs unit (map as_data_run runs) s.
Proof.
  induction 1 as [vcn|vcn runs runs' last groups _ _ IH]; intros s; [reflexivity|]. cbn [compression_groups data_runs].
  rewrite map_app, compression_runs_app. destruct (compression_runs cs unit (map as_data_run runs) s) as [s1| |]; cbn [bind]; try reflexivity. apply IH.
Qed.

(** ** Which ranges are compressed *)
Lemma allocated_app a : forall b i, allocated (a ++ b) i = if i <? clusters a then allocated a i else allocated b (i - clusters a).
Proof.
  induction a as [|r a IH]; intros b i.
  - cbn [app clusters fold_right]. rewrite N.sub_0_r. destruct (N.ltb_spec i 0); [lia|reflexivity].
  - cbn [app allocated clusters fold_right]. fold (clusters a). rewrite IH.
    destruct (N.ltb_spec i (run_count r)), (N.ltb_spec i (run_count r + clusters a)), (N.ltb_spec (i - run_count r) (clusters a));
      try lia; try reflexivity. f_equal. lia.
Qed.
Lemma holes_follow runs u i k : 0 < u -> units_ok runs u -> i mod u + k < u -> allocated runs i = false -> allocated runs (i + k) = false.
Proof.
  intros Hu Hok. induction k as [|k IH] using N.peano_ind; intros Hk Hi; [rewrite N.add_0_r; assumption|].
  destruct (allocated runs (i + N.succ k)) eqn:E; [|reflexivity].
  rewrite <- (IH ltac:(lia) Hi). symmetry. apply Hok.
  - pose proof (N.div_mod i u ltac:(lia)) as Hd. intros H0.
    assert (Hm : (i + k + 1) mod u = i mod u + k + 1).
    { symmetry. apply N.mod_unique with (i / u); [lia|]. lia. }
    lia.
  - replace (i + k + 1) with (i + N.succ k) by lia. assumption.
Qed.

Definition piece_ok (all : list run) (u c n : N) (ty : bool) : Prop :=
  c mod u = 0 /\ n mod u = 0 /\ 0 < n /\
  if ty then n = u /\ allocated all (c + u - 1) = false
  else forall j, c <= j * u < c + n -> unit_compressed all u j = false.
Fixpoint good (all : list run) (u c : N) (ps : list (N * bool)) : Prop :=
  match ps with [] => True | (n, ty) :: ps => piece_ok all u c n ty /\ good all u (c + n) ps end.
Lemma good_app all u a : forall c b, good all u c a -> good all u (c + sum a) b -> good all u c (a ++ b).
Proof.
  induction a as [|[n ty] a IH]; intros c b Ha Hb; cbn [app good sum fold_right fst] in *; [rewrite N.add_0_r in Hb; assumption|].
  destruct Ha as [H1 H2]. split; [assumption|]. apply IH; [assumption|]. fold (sum a) in Hb. rewrite <- N.add_assoc. assumption.
Qed.
(** What is known of the clusters from [base], the start of a unit, to [c], that are not
    yet in a range. *)
Definition pending (all : list run) (u base c : N) (ty : bool) : Prop :=
  if ty then exists i, base <= i < c /\ i < base + u /\ allocated all i = false
  else (forall i, base <= i < c -> i < base + u -> allocated all i = true) \/ allocated all base = false.

Lemma mul_step a b u : 0 < u -> a * u < b * u -> a * u + u <= b * u.
Proof. intros Hu H. apply N.mul_lt_mono_pos_r in H; [|assumption]. replace (a * u + u) with ((a + 1) * u) by lia. apply N.mul_le_mono_r. lia. Qed.
Lemma multiple a u : 0 < u -> a mod u = 0 -> exists q, a = q * u.
Proof. intros Hu H. exists (a / u). pose proof (N.div_mod a u ltac:(lia)). lia. Qed.

(** The units of a range that is not compressed. *)
Lemma plain_ok all u base c b n : 0 < u -> base mod u = 0 -> n mod u = 0 -> 0 < n -> base + n <= c ->
  pending all u base c false -> (forall i, base + u <= i < c -> allocated all i = b) -> piece_ok all u base n false.
Proof.
  intros Hu Hb Hn Hp Hc Hpe Hun. repeat split; auto. intros j Hj.
  destruct (multiple base u Hu Hb) as [q ->]. destruct (multiple n u Hu Hn) as [m ->].
  assert (Hj2 : j * u + u <= q * u + m * u).
  { rewrite <- N.mul_add_distr_r. apply mul_step; [assumption|]. rewrite N.mul_add_distr_r. lia. }
  unfold unit_compressed. destruct (N.eq_dec (j * u) (q * u)) as [E|E].
  - rewrite E in *. destruct Hpe as [H|H].
    + rewrite (H (q * u + u - 1)) by lia. apply andb_false_r.
    + rewrite H. reflexivity.
  - assert (q * u + u <= j * u) by (apply mul_step; [assumption|lia]). rewrite !Hun by lia. destruct b; reflexivity.
Qed.
Lemma pending_uniform all u base c b : 0 < u -> (forall i, base <= i < c -> allocated all i = b) -> pending all u base c false.
Proof.
  intros Hu H. destruct (N.ltb_spec base c) as [Hlt|Hge]; [|left; intros; lia].
  destruct b; [left|right]; intros; apply H; lia.
Qed.
Lemma rest_pieces_good all u base c k ty b : 0 < u -> units_ok all u -> base mod u = 0 -> base + k = c ->
  pending all u base c ty -> (forall i, base + u <= i < c -> allocated all i = b) ->
  let '(ps, k', ty') := rest_pieces u k ty in
  good all u base ps /\ pending all u (base + sum ps) c ty' /\ (base + sum ps) mod u = 0 /\ k = sum ps + k' /\ k' < u.
Proof.
  intros Hu Hok Hb Hc Hpe Hun. unfold rest_pieces. destruct (N.ltb_spec k u) as [H|H].
  { cbn [good sum fold_right]. rewrite N.add_0_r. repeat split; auto. }
  assert (Hbu : forall q, (base + q * u) mod u = 0) by (intros q; rewrite N.mod_add by lia; assumption).
  assert (Hqu : forall q, (q * u) mod u = 0) by (intros q; apply N.mod_mul; lia).
  assert (Hqp : forall x, u <= x -> 0 < x / u * u).
  { intros x Hx. assert (1 <= x / u) by (apply N.div_le_lower_bound; lia). assert (1 * u <= x / u * u) by (apply N.mul_le_mono_r; assumption). lia. }
  destruct ty.
  - assert (P1 : piece_ok all u base u true).
    { repeat split; auto; [apply N.mod_same; lia|]. destruct Hpe as (i & Hi & Hi2 & Hi3).
      destruct (multiple base u Hu Hb) as [q ->].
      replace (q * u + u - 1) with (i + (q * u + u - 1 - i)) by lia. apply holes_follow with u; auto.
      assert (Em : i mod u = i - q * u). { symmetry. apply N.mod_unique with q; lia. } lia. }
    assert (Hb1 : (base + u) mod u = 0) by (specialize (Hbu 1); rewrite N.mul_1_l in Hbu; assumption).
    assert (P2 : pending all u (base + u) c false) by (apply pending_uniform with b; [assumption|exact Hun]).
    destruct (N.ltb_spec (k - u) u) as [H1|H1]; cbn [good sum fold_right fst]; rewrite ?N.add_0_r.
    + split; [split; [exact P1|exact I]|]. split; [assumption|]. split; [assumption|]. lia.
    + pose proof (N.div_mod (k - u) u ltac:(lia)) as Hd. pose proof (N.mod_lt (k - u) u ltac:(lia)) as Hm. rewrite (N.mul_comm u) in Hd.
      specialize (Hqp (k - u) H1).
      assert (Pl : piece_ok all u (base + u) ((k - u) / u * u) false).
      { apply plain_ok with c b; auto; [lia|]. intros i Hi. apply Hun. lia. }
      split; [split; [exact P1|split; [exact Pl|exact I]]|]. split; [|split; [|lia]].
      * apply pending_uniform with b; [assumption|]. intros i Hi. apply Hun. lia.
      * rewrite N.add_assoc. rewrite N.mod_add by lia. assumption.
  - pose proof (N.div_mod k u ltac:(lia)) as Hd. pose proof (N.mod_lt k u ltac:(lia)) as Hm. rewrite (N.mul_comm u) in Hd.
    specialize (Hqp k H).
    assert (Pl : piece_ok all u base (k / u * u) false) by (apply plain_ok with c b; auto; lia).
    assert (Hge : u <= k / u * u). { assert (1 <= k / u) by (apply N.div_le_lower_bound; lia). assert (1 * u <= k / u * u) by (apply N.mul_le_mono_r; assumption). lia. }
    cbn [good sum fold_right fst]. rewrite N.add_0_r. split; [split; [exact Pl|exact I]|]. split; [|split; [auto|lia]].
    apply pending_uniform with b; [assumption|]. intros i Hi. apply Hun. lia.
Qed.
Lemma pieces_good all u : 0 < u -> units_ok all u -> forall rest done base k ty last,
  all = done ++ rest -> Forall (fun r => 0 < run_count r) rest -> base + k = clusters done -> base mod u = 0 -> k < u ->
  pending all u base (clusters done) ty -> (last <> InFile -> clusters done = 0 \/ allocated all (clusters done - 1) = false) ->
  let '(ps, _, _, _) := pieces u rest k ty last in good all u base ps.
Proof.
  intros Hu Hok. induction rest as [|r rest IH]; intros done base k ty last Ha Hp Hb Hbu Hk Hpe Hl; [exact I|].
  apply Forall_cons_iff in Hp as [Hr Hp]. cbn [pieces].
  set (b := match r with Allocated _ _ => true | Hole _ => false end).
  assert (Hin : forall i, clusters done <= i < clusters done + run_count r -> allocated all i = b).
  { intros i Hi. rewrite Ha, allocated_app. destruct (N.ltb_spec i (clusters done)); [lia|]. cbn [allocated].
    destruct (N.ltb_spec (i - clusters done) (run_count r)); [reflexivity|lia]. }
  assert (Hpe' : pending all u base (clusters done + run_count r) (ty || starts last r)).
  { destruct ty; cbn [orb].
    - destruct Hpe as (i & H1 & H2 & H3). exists i. repeat split; auto; lia.
    - destruct (starts last r) eqn:Es.
      + exists (clusters done). assert (b = false) by (unfold starts, b in *; destruct last, r; cbn [kind] in Es; congruence).
        repeat split; try lia. rewrite Hin by lia. assumption.
      + destruct Hpe as [H|H]; [|right; assumption]. destruct b eqn:Eb.
        * left. intros i H1 H2. destruct (N.ltb_spec i (clusters done)); [apply H; lia|apply Hin; lia].
        * right. assert (Hn : last <> InFile).
          { intros ->. subst b. destruct r; [discriminate Eb|discriminate Es]. }
          assert (Ek : k = 0).
          { destruct (N.eq_dec k 0) as [|Hne]; [assumption|exfalso]. destruct (Hl Hn) as [H0|H0]; [lia|]. rewrite H in H0 by lia. discriminate. }
          apply Hin. lia. }
  pose proof (rest_pieces_good all u base (clusters done + run_count r) (k + run_count r) (ty || starts last r) b Hu Hok Hbu ltac:(lia) Hpe'
    ltac:(intros i Hi; apply Hin; lia)) as R.
  destruct (rest_pieces u (k + run_count r) (ty || starts last r)) as [[ps k1] ty1]. destruct R as (R1 & R2 & R3 & R4 & R5).
  assert (Ec : clusters (done ++ [r]) = clusters done + run_count r) by (rewrite clusters_app; cbn [clusters fold_right]; lia).
  specialize (IH (done ++ [r]) (base + sum ps) k1 ty1 (kind r)). rewrite Ec in IH.
  specialize (IH ltac:(rewrite <- app_assoc; assumption) Hp ltac:(lia) R3 R5 R2).
  assert (Hl' : kind r <> InFile -> clusters done + run_count r = 0 \/ allocated all (clusters done + run_count r - 1) = false).
  { intros Hn. right. rewrite Hin by lia. unfold b. destruct r; [exfalso; apply Hn; reflexivity|reflexivity]. }
  specialize (IH Hl'). destruct (pieces u rest k1 ty1 (kind r)) as [[[ps' k'] ty'] last']. apply good_app; assumption.
Qed.

Lemma in_cranges cs all u ps : forall c o s v, good all u c ps -> In (o, s, v) (consecutive (c * cs) (cranges cs (c * cs) ps)) ->
  exists c' n ty, o = c' * cs /\ s = n * cs /\ v = {| cr_offset := c' * cs; cr_size := n * cs; cr_compressed := ty |} /\ piece_ok all u c' n ty /\ c <= c' /\ c' + n <= c + sum ps.
Proof.
  induction ps as [|[n ty] ps IH]; intros c o s v Hg Hi; [destruct Hi|]. cbn [cranges consecutive] in Hi. destruct Hg as [H1 H2].
  destruct Hi as [[= <- <- <-]|Hi].
  - exists c, n, ty. repeat split; try apply H1; cbn [sum fold_right fst]; lia.
  - rewrite <- N.mul_add_distr_r in Hi. destruct (IH _ _ _ _ H2 Hi) as (c' & n' & ty' & E1 & E2 & E3 & E4 & E5 & E6).
    exists c', n', ty'. repeat split; auto; try apply E4; cbn [sum fold_right fst]; fold (sum ps); lia.
Qed.
Lemma good_sizes cs all u ps : 0 < cs -> 0 < u -> forall c o, good all u c ps -> Forall (fun e => 0 < fst e /\ fst e mod (u * cs) = 0) (cranges cs o ps).
Proof.
  intros Hcs Hu. induction ps as [|[n ty] ps IH]; intros c o Hg; [constructor|]. destruct Hg as [(_ & H1 & H2 & _) H3]. constructor.
  - cbn [fst]. split; [apply N.mul_pos_pos; assumption|]. rewrite N.mul_mod_distr_r by lia. rewrite H1. reflexivity.
  - eapply IH; eassumption.
Qed.

Lemma compressed_open_ok volume cs u runs groups alloc size valid :
  0 < cs -> 0 < u -> Forall (run_inside volume cs) runs -> grouped 0 runs groups -> units_ok runs u ->
  alloc = clusters runs * cs -> clusters runs mod u = 0 -> alloc + u * cs <= two64 -> len volume < two64 ->
  exists v, ntfs_compressed_open cs {| allocated_data_size := alloc; data_size := size; valid_data_size := valid; is_compressed := true;
      compression_unit_size := u; data_cluster_groups := groups |} = Ok v /\
    nc_unit v = u * cs /\ nc_size v = valid /\ ns_size (nc_stream v) = alloc /\
    exact_step (fun _ => True) alloc (attribute_content volume cs runs alloc alloc) (ntfs_block_step volume (nc_stream v)) /\
    forall x, x < alloc -> exists c n ty, bt_get (nc_tree v) x = Ok (Some {| cr_offset := c * cs; cr_size := n * cs; cr_compressed := ty |}) /\
      piece_ok runs u c n ty /\ c * cs <= x < (c + n) * cs /\ c + n <= clusters runs.
Proof.
  intros Hcs Hu Hin Hg Hok Ha Hm Hb Hvol.
  assert (Hpos : Forall (fun r => 0 < run_count r) runs) by (eapply Forall_impl; [|exact Hin]; intros r Hr; apply Hr).
  assert (Hucs : cs <= u * cs). { assert (1 * cs <= u * cs) by (apply N.mul_le_mono_r; lia). lia. }
  assert (Hup : 0 < u * cs) by lia.
  destruct (open_ranges cs runs groups alloc Hcs Hpos Hg ltac:(lia) ltac:(lia)) as (q & t & E1 & E2 & E3 & G).
  unfold ntfs_compressed_open, ntfs_block_stream_open.
  cbn [allocated_data_size data_size valid_data_size is_compressed data_cluster_groups compression_unit_size].
  cbn [check bind]. destruct (N.eqb_spec u 0); [lia|]. cbn [negb check bind].
  rewrite E1. cbn [bind]. rewrite E2. cbn [bind]. rewrite E3. cbn [bind]. clear E1 E2 E3 q.
  assert (Ham : alloc mod (u * cs) = 0) by (rewrite Ha, N.mul_mod_distr_r by lia; rewrite Hm; reflexivity).
  unfold mod_chk. destruct (N.eqb_spec (u * cs) 0); [lia|]. cbn [bind]. rewrite Ham, N.eqb_refl. cbn [check bind].
  destruct (Ntfs_proofs.div_ceil_ok alloc (u * cs) Hup) as (q & Eq & _ & Hq). specialize (Hq Ham). rewrite Eq. cbn [bind].
  unfold mul_chk at 1. rewrite Hq. destruct (N.ltb_spec alloc two64); [|lia]. cbn [bind].
  pose proof (pieces_good runs u Hu Hok runs [] 0 0 false EndOfList eq_refl Hpos eq_refl (N.mod_0_l u ltac:(lia)) ltac:(lia)) as Pg.
  specialize (Pg ltac:(left; intros i Hi; change (clusters []) with 0 in Hi; lia) ltac:(intros _; left; reflexivity)).
  rewrite (compression_groups_runs cs (u * cs) 0 runs groups Hg).
  pose proof (runs_ok cs u Hcs Hu runs (bt_new alloc 0 (u * cs)) 0 EndOfList 0 false ltac:(lia)) as R.
  rewrite !N.add_0_l in R. specialize (R ltac:(lia)).
  destruct (pieces u runs 0 false EndOfList) as [[[ps k'] ty'] last']. destruct R as (R1 & R2 & R3).
  assert (Hk : k' = 0).
  { clear - R2 R3 Hm Hu Pg. assert (Hs : forall c, good runs u c ps -> sum ps mod u = 0).
    { clear - Hu. induction ps as [|[n ty] ps IH]; intros c Hg; cbn [sum fold_right fst]; [apply N.mod_0_l; lia|]. fold (sum ps).
      destruct Hg as [(_ & H1 & _) H2]. rewrite N.add_mod by lia. rewrite H1, (IH _ H2), N.add_0_l. apply N.mod_0_l. lia. }
    specialize (Hs 0 Pg). rewrite R2 in Hm. rewrite N.add_mod in Hm by lia. rewrite Hs, N.add_0_l, N.mod_mod in Hm by lia. rewrite N.mod_small in Hm by lia. assumption. }
  subst k'. rewrite N.add_0_r in R2.
  assert (Ht : total (cranges cs 0 ps) = alloc) by (rewrite total_cranges; lia).
  destruct (consecutive_tree alloc (u * cs) (cranges cs 0 ps) Hup ltac:(lia) (good_sizes cs runs u ps Hcs Hu 0 0 Pg) ltac:(lia)) as (t2 & Et2 & Gt2).
  rewrite Et2 in R1. cbn [bind] in R1. rewrite Ht in Gt2.
  assert (Eo : (if 0 <? alloc then
          s <- compression_runs cs (u * cs) (map as_data_run runs)
                 {| cs_tree := bt_new alloc 0 (u * cs); cs_offset := 0; cs_last := EndOfList; cs_range := {| cr_offset := 0; cr_size := 0; cr_compressed := false |} |} ;;
          if 0 <? cr_size (cs_range s) then
            match bt_insert (cs_tree s) (cr_offset (cs_range s)) (cr_size (cs_range s)) (cs_range s) with
            | (t, Ok _) => Ok t
            | (_, Err) => Err
            | (_, Panic) => Panic
            end
          else Ok (cs_tree s)
        else Ok (bt_new alloc 0 (u * cs))) = Ok t2).
  { destruct (N.ltb_spec 0 alloc) as [H0|H0].
    - unfold cstate in R1 at 1. rewrite N.mul_0_l in R1. rewrite R1. cbn [bind cstate cs_range cr_size cs_tree]. rewrite N.mul_0_l. reflexivity.
    - assert (ps = []). { destruct ps as [|[m ty] ps]; [reflexivity|exfalso]. destruct Pg as [(_ & _ & Hp & _) _]. cbn [sum fold_right fst] in R2.
        assert (0 < clusters runs * cs) by (apply N.mul_pos_pos; lia). lia. }
      subst ps. cbn in Et2. exact Et2. }
  rewrite Eo. cbn [bind]. eexists. split; [reflexivity|]. cbn [nc_unit nc_size nc_stream nc_tree ns_size].
  repeat split.
  - apply block_step_exact; auto; lia.
  - intros x Hx. destruct (Gt2 x Hx) as (o & s & v & Ev & Hv & Ho).
    change 0 with (0 * cs) in Hv. destruct (in_cranges cs runs u ps 0 o s v Pg Hv) as (c & n' & ty & -> & -> & -> & H1 & H2 & H3).
    exists c, n', ty. repeat split; auto; try apply H1; rewrite ?N.mul_add_distr_r; lia.
Qed.

(** ** The content of a unit *)
Lemma write_at_len buf o d b : write_at buf o d = Ok b -> len b = len buf.
Proof.
  unfold write_at. destruct (N.leb_spec (o + len d) (len buf)) as [H|H]; [|discriminate]. intros [= <-].
  rewrite !len_app. unfold len in *. rewrite firstn_length, skipn_length. lia.
Qed.
Lemma lznt1_loop_len c : forall fuel co buf uo b n, lznt1_loop fuel c co buf uo = Ok (b, n) -> len b = len buf.
Proof.
  induction fuel as [|fuel IH]; intros co buf uo b n H; [discriminate|]. cbn [lznt1_loop] in H.
  destruct (co <? len c); [|injection H as <- _; reflexivity]. destruct (len buf <=? uo); [injection H as <- _; reflexivity|].
  apply bind_Ok_inv in H as ([] & _ & H). apply bind_Ok_inv in H as (h & _ & H). destruct (h =? 0); [injection H as <- _; reflexivity|].
  cbv zeta in H. destruct (negb _).
  - apply bind_Ok_inv in H as (tail & _ & H). apply bind_Ok_inv in H as ([t w] & _ & H). apply bind_Ok_inv in H as (b' & E & H).
    apply write_at_len in E. apply IH in H. lia.
  - apply bind_Ok_inv in H as ([] & _ & H). apply bind_Ok_inv in H as ([] & _ & H). apply bind_Ok_inv in H as (l & _ & H). apply bind_Ok_inv in H as (b' & E & H).
    apply write_at_len in E. apply IH in H. lia.
Qed.
Lemma lznt1_zeros n : 2 <= n -> lznt1_decompress (repeat 0 (N.to_nat n)) (repeat 0 (N.to_nat n)) = Ok (repeat 0 (N.to_nat n), 0).
Proof.
  intros H. rewrite lznt1_decompress_pure, repeat_length. replace (N.to_nat n) with (S (S (N.to_nat (n - 2)))) by lia.
  cbn [repeat lznt1_pure]. rewrite !len_cons. change (len (@nil N)) with 0. destruct (N.leb_spec (len (repeat 0 (N.to_nat (n - 2))) + 1 + 1) 0); [lia|].
  reflexivity.
Qed.
Lemma nth_firstn_less {A} (d : A) : forall n l i, (i < n)%nat -> nth i (firstn n l) d = nth i l d.
Proof. induction n as [|n IH]; intros [|x l] [|i] H; try reflexivity; try lia. cbn. apply IH. lia. Qed.
Lemma file_byte_bytes_at l a n r : r < n -> file_byte (bytes_at l a n) r = file_byte l (a + r).
Proof.
  intros H. unfold file_byte, bytes_at. rewrite nth_firstn_less by lia. rewrite nth_skipn_N. f_equal. lia.
Qed.
Lemma hole_byte volume cs runs : 0 < cs -> Forall (run_inside volume cs) runs -> forall x, allocated runs (x / cs) = false ->
  file_byte (flat_map (run_content volume cs) runs) x = 0.
Proof.
  intros Hcs. induction 1 as [|r runs Hr _ IH]; intros x Hx.
  - unfold file_byte. cbn [flat_map]. destruct (N.to_nat x); reflexivity.
  - cbn [allocated flat_map] in *. pose proof (run_content_len volume cs r Hr) as Hl. unfold file_byte.
    destruct (N.ltb_spec (x / cs) (run_count r)) as [H|H].
    + destruct r as [|count]; [discriminate|]. cbn [run_content run_count] in *.
      assert (Hlt : x < count * cs). { pose proof (N.mul_succ_div_gt x cs ltac:(lia)) as Hg. rewrite N.mul_comm in Hg. assert (N.succ (x / cs) * cs <= count * cs) by (apply N.mul_le_mono_r; lia). lia. }
      rewrite app_nth1 by (rewrite repeat_length; lia). apply nth_repeat.
    + assert (Hge : run_count r * cs <= x). { pose proof (N.mul_div_le x cs ltac:(lia)) as Hg. rewrite N.mul_comm in Hg. assert (run_count r * cs <= x / cs * cs) by (apply N.mul_le_mono_r; lia). lia. }
      rewrite app_nth2 by (unfold len in Hl; lia). replace (N.to_nat x - length (run_content volume cs r))%nat with (N.to_nat (x - run_count r * cs)) by (unfold len in Hl; lia).
      apply IH. rewrite <- Hx. f_equal. apply N.add_cancel_r with (run_count r). rewrite <- N.div_add by lia. rewrite N.sub_add by assumption.
      rewrite N.sub_add by assumption. reflexivity.
Qed.
Lemma flat_uniform (f : N -> list N) U : forall n s j, (forall j, s <= j < s + N.of_nat n -> len (f j) = U) -> s <= j < s + N.of_nat n ->
  bytes_at (flat_map f (seqN s n)) ((j - s) * U) U = f j.
Proof.
  induction n as [|n IH]; intros s j Hf Hj; [lia|]. cbn [seqN flat_map]. pose proof (Hf s ltac:(lia)) as Hs.
  destruct (N.eq_dec j s) as [->|Hne].
  - rewrite N.sub_diag, N.mul_0_l. unfold bytes_at. cbn [N.to_nat skipn]. replace (N.to_nat U) with (length (f s)) by (unfold len in Hs; lia).
    rewrite firstn_app, firstn_all, Nat.sub_diag. cbn [firstn]. apply app_nil_r.
  - rewrite <- (IH (s + 1) j) by (try lia; intros; apply Hf; lia). unfold bytes_at. f_equal.
    replace ((j - s) * U) with (U + (j - (s + 1)) * U).
    2:{ replace (j - s) with (1 + (j - (s + 1))) by lia. rewrite N.mul_add_distr_r. lia. }
    rewrite N2Nat.inj_add. rewrite skipn_app. replace (N.to_nat U) with (length (f s)) by (unfold len in Hs; lia).
    set (z := N.to_nat ((j - (s + 1)) * U)). clearbody z. rewrite skipn_all2 by lia. cbn [app]. f_equal. lia.
Qed.
Lemma len_flat_uniform (f : N -> list N) U : forall n s, (forall j, s <= j < s + N.of_nat n -> len (f j) = U) -> len (flat_map f (seqN s n)) = N.of_nat n * U.
Proof.
  induction n as [|n IH]; intros s Hf; [reflexivity|]. cbn [seqN flat_map]. rewrite len_app, (Hf s) by lia. rewrite IH by (intros; apply Hf; lia). lia.
Qed.

Section Step.
Context (volume : list N) (cs u : N) (runs : list run) (valid : N) (v : ntfs_compressed_stream).
Context (Hcs : 0 < cs) (Hu : 0 < u) (HU : 2 <= u * cs) (Hin : Forall (run_inside volume cs) runs) (Hok : units_ok runs u) (Hm : clusters runs mod u = 0)
  (Hb : clusters runs * cs + u * cs <= two64) (Hd : units_decompress volume cs runs u) (Hv : valid <= clusters runs * cs)
  (Ev1 : nc_unit v = u * cs) (Ev2 : nc_size v = valid) (Ev3 : ns_size (nc_stream v) = clusters runs * cs)
  (Ev4 : exact_step (fun _ => True) (clusters runs * cs) (attribute_content volume cs runs (clusters runs * cs) (clusters runs * cs)) (ntfs_block_step volume (nc_stream v)))
  (Ev5 : forall x, x < clusters runs * cs -> exists c n ty, bt_get (nc_tree v) x = Ok (Some {| cr_offset := c * cs; cr_size := n * cs; cr_compressed := ty |}) /\
      piece_ok runs u c n ty /\ c * cs <= x < (c + n) * cs /\ c + n <= clusters runs).
Let X := flat_map (run_content volume cs) runs.
Let K := clusters runs / u.
Let U := u * cs.
Let Full := flat_map (unit_content volume cs runs u) (seqN 0 (N.to_nat K)).

Lemma len_X : len X = clusters runs * cs.
Proof. apply len_contents. assumption. Qed.
Lemma K_units : K * U = clusters runs * cs /\ K * u = clusters runs.
Proof.
  pose proof (N.div_mod (clusters runs) u ltac:(lia)) as E. rewrite Hm, N.add_0_r in E. unfold K, U. split; [|lia].
  rewrite N.mul_assoc. f_equal. lia.
Qed.
Lemma unit_within j : j < K -> j * U + U <= clusters runs * cs.
Proof. intros H. destruct K_units as [<- _]. replace (j * U + U) with ((j + 1) * U) by (rewrite N.mul_add_distr_r; lia). apply N.mul_le_mono_r. lia. Qed.
Lemma len_unit_data j : j < K -> len (unit_data volume cs runs u j) = U.
Proof. intros H. pose proof (unit_within j H). unfold unit_data. fold U X. rewrite len_bytes_at, len_X. lia. Qed.
Lemma len_unit_content j : j < K -> len (unit_content volume cs runs u j) = U.
Proof.
  intros H. unfold unit_content. destruct (unit_compressed runs u j) eqn:E; [|apply len_unit_data; assumption].
  destruct (Hd j H E) as (content & n & Ec). rewrite Ec. unfold lznt1_decompress in Ec. apply lznt1_loop_len in Ec. rewrite Ec, len_repeat. fold U. lia.
Qed.
Lemma len_Full : len Full = clusters runs * cs.
Proof.
  unfold Full. rewrite (len_flat_uniform _ U) by (intros; apply len_unit_content; lia). destruct K_units as [<- _]. f_equal. lia.
Qed.
Lemma Full_unit j r n : j < K -> r + n <= U -> bytes_at Full (j * U + r) n = bytes_at (unit_content volume cs runs u j) r n.
Proof.
  intros Hj Hr. rewrite <- (flat_uniform (unit_content volume cs runs u) U (N.to_nat K) 0 j) by (try lia; intros; apply len_unit_content; lia).
  rewrite N.sub_0_r. fold Full. rewrite bytes_at_bytes_at by assumption. reflexivity.
Qed.
(** In units that are not compressed the content is the data. *)
Lemma Full_plain o n : (forall x, o <= x < o + n -> unit_compressed runs u (x / U) = false) -> o + n <= clusters runs * cs ->
  bytes_at X o n = bytes_at Full o n.
Proof.
  intros Hp Hn. rewrite !bytes_at_file by (rewrite ?len_X, ?len_Full; lia). apply map_ext_in. intros x Hx. apply in_seqN in Hx.
  assert (HUp : 0 < U) by (unfold U; lia). pose proof (N.div_mod x U ltac:(lia)) as Ex. pose proof (N.mod_lt x U ltac:(lia)) as Lx.
  assert (Hj : x / U < K).
  { apply N.div_lt_upper_bound; [lia|]. rewrite N.mul_comm. destruct K_units as [-> _]. lia. }
  specialize (Hp x ltac:(lia)). rewrite (N.mul_comm U) in Ex.
  rewrite Ex at 2. rewrite <- (file_byte_bytes_at Full (x / U * U) U) by assumption.
  pose proof (Full_unit (x / U) 0 U Hj ltac:(lia)) as E. rewrite N.add_0_r in E. rewrite E. unfold unit_content. rewrite Hp.
  rewrite file_byte_bytes_at by assumption. rewrite N.add_0_l. unfold unit_data. fold U X. rewrite file_byte_bytes_at by assumption. rewrite <- Ex. reflexivity.
Qed.
(** A unit that was taken for compressed. *)
Lemma marked_unit j : j < K -> allocated runs (j * u + u - 1) = false ->
  exists n, lznt1_decompress (unit_data volume cs runs u j) (repeat 0 (N.to_nat U)) = Ok (unit_content volume cs runs u j, n).
Proof.
  intros Hj Ha. destruct (unit_compressed runs u j) eqn:E.
  - destruct (Hd j Hj E) as (content & n & Ec). exists n. unfold unit_content. rewrite E. fold U in Ec |- *. rewrite Ec. reflexivity.
  - exists 0. unfold unit_content. rewrite E. unfold unit_compressed in E. rewrite Ha in E. cbn [negb] in E. rewrite andb_true_r in E.
    assert (Ez : unit_data volume cs runs u j = repeat 0 (N.to_nat U)).
    { unfold unit_data. fold U X. pose proof (unit_within j Hj). rewrite bytes_at_file by (rewrite len_X; assumption).
      assert (G : forall l, (forall x, In x l -> file_byte X x = 0) -> map (file_byte X) l = repeat 0 (length l)).
      { induction l as [|x l IH]; intros Hl; [reflexivity|]. cbn [map length repeat]. f_equal; [apply Hl; now left|]. apply IH. intros y Hy. apply Hl. now right. }
      rewrite G; [rewrite seqN_length; reflexivity|]. intros x Hx. apply in_seqN in Hx. apply hole_byte; [assumption..|].
      replace (x / cs) with (j * u + (x / cs - j * u)).
      2:{ assert (j * u <= x / cs). { apply N.div_le_lower_bound; [lia|]. unfold U in Hx. lia. } lia. }
      apply holes_follow with u; try assumption. rewrite N.mod_mul by lia.
      assert (x / cs < j * u + u). { apply N.div_lt_upper_bound; [lia|]. unfold U in Hx. lia. } lia. }
    rewrite Ez. apply lznt1_zeros. unfold U. assumption.
Qed.
Lemma read_at_ok o n : o < clusters runs * cs -> o + n <= clusters runs * cs -> nc_read_at volume (nc_stream v) o n = Ok (bytes_at X o n).
Proof.
  intros Ho Hn. unfold nc_read_at, stream_read. rewrite Ev3. destruct (N.leb_spec (clusters runs * cs) o); [lia|].
  destruct (N.ltb_spec (clusters runs * cs - o) n); [lia|].
  assert (Ea : attribute_content volume cs runs (clusters runs * cs) (clusters runs * cs) = X).
  { unfold attribute_content, padded. fold X. rewrite <- len_X. unfold bytes_at. cbn [N.to_nat skipn].
    rewrite (firstn_all2 (n := N.to_nat (len X)) X) by (unfold len; lia). replace (N.to_nat (len X)) with (length X) by (unfold len; lia).
    rewrite firstn_app, firstn_all, Nat.sub_diag. cbn [firstn]. apply app_nil_r. }
  rewrite Ea in Ev4. unfold ntfs_block_rd. rewrite Ev3.
  destruct (blocks_rd_exact (fun _ => True) (clusters runs * cs) X _ Ev4 ltac:(unfold two64 in *; lia) tt o n I Ho Hn) as ([] & E & _). rewrite E.
  unfold add_chk. assert (len (bytes_at X o n) <= n) by (rewrite len_bytes_at; lia).
  destruct (N.ltb_spec (o + len (bytes_at X o n)) two64); [reflexivity|]. unfold two64 in *. lia.
Qed.
Definition unit_cached (k : N) (data : list N) : Prop := exists j, j < K /\ k = j * U /\ data = unit_content volume cs runs u j.
Lemma cached_ok c j : cache_ok unit_cached 8 c -> j < K -> allocated runs (j * u + u - 1) = false ->
  exists c', nc_cached volume v c {| cr_offset := j * U; cr_size := U; cr_compressed := true |} = (c', Ok (unit_content volume cs runs u j)) /\ cache_ok unit_cached 8 c'.
Proof.
  intros Hc Hj Ha. unfold nc_cached. cbn [cr_offset cr_size]. assert (HUp : 0 < U) by (unfold U; lia).
  destruct (lru_contains c (j * U)) eqn:Ec.
  - exists c. split; [|assumption]. destruct Hc as (Hi & Hs & Hp). unfold lru_contains in Ec. unfold lru_get in *.
    destruct (hm_get (lru_values c) (j * U)) as [d|] eqn:Ed; [|discriminate]. destruct (Hp _ _ Ed) as (j' & Hj' & E1 & ->).
    apply N.mul_cancel_r in E1; [|lia]. subst j'. reflexivity.
  - pose proof (unit_within j Hj) as Hw. rewrite read_at_ok by lia. cbn [bind]. change (bytes_at X (j * U) U) with (unit_data volume cs runs u j).
    rewrite len_unit_data by assumption. rewrite N.eqb_refl. cbn [check bind]. rewrite Ev1. fold U. destruct (marked_unit j Hj Ha) as (n & En). rewrite En. cbn [bind].
    destruct (cache_ok_insert unit_cached 8 c (j * U) (unit_content volume cs runs u j) ltac:(lia) Hc) as (c' & E1 & E2 & E3).
    { exists j. auto. }
    rewrite E1. exists c'. rewrite E3. split; [reflexivity|assumption].
Qed.

Lemma nc_step_exact : exact_step_on (read_ok cs runs u) (cache_ok unit_cached 8) valid (bytes_at Full 0 valid) (nc_step volume v).
Proof.
  intros c o r Hc Hr Ho Hr0 Hor. assert (HUp : 0 < U) by (unfold U; lia).
  assert (Hzero : forall x, read_ok cs runs u x 0).
  { intros x. right. left. fold U. pose proof (N.mod_lt x U ltac:(lia)). lia. }
  assert (Halign : forall j y, read_ok cs runs u (j * U) y) by (intros j y; left; fold U; apply N.mod_mul; lia).
  destruct (Ev5 o ltac:(lia)) as (c0 & n & ty & Eg & (Hp1 & Hp2 & Hp3 & Hp4) & Hx & Hn).
  destruct (multiple c0 u Hu Hp1) as [j Ej]. destruct (multiple n u Hu Hp2) as [m Em].
  assert (Ec0 : c0 * cs = j * U) by (subst c0; unfold U; lia). assert (Enm : n * cs = m * U) by (subst n; unfold U; lia).
  assert (Hend : (c0 + n) * cs <= clusters runs * cs) by (apply N.mul_le_mono_r; assumption).
  rewrite N.mul_add_distr_r in *. rewrite Ec0, Enm in *.
  unfold nc_step. rewrite Eg. cbn [bind of_option cr_offset cr_size cr_compressed].
  unfold sub_chk at 1. destruct (N.leb_spec (j * U) o); [|lia]. cbn [bind].
  unfold add_chk at 1. destruct (N.ltb_spec (j * U + m * U) two64); [|unfold two64 in *; lia]. cbn [bind]. rewrite Ev2.
  unfold sub_chk at 1. destruct (N.leb_spec (j * U) (N.min (j * U + m * U) valid)); [|lia]. cbn [bind].
  unfold sub_chk. destruct (N.leb_spec (o - j * U) (N.min (j * U + m * U) valid - j * U)); [|lia]. cbn [bind].
  assert (Hby : forall k, k <= r -> bytes_at (bytes_at Full 0 valid) o k = bytes_at Full o k).
  { intros k Hk. rewrite bytes_at_bytes_at by lia. rewrite N.add_0_l. reflexivity. }
  destruct ty.
  - destruct Hp4 as [-> Hp4]. rewrite Ej in Hp4.
    assert (Em1 : m * U = U). { rewrite <- Enm. reflexivity. } rewrite Em1 in *.
    assert (Hj : j < K). { apply N.mul_lt_mono_pos_r with U; [assumption|]. destruct K_units as [-> _]. lia. }
    assert (Ed : o / U = j) by (symmetry; apply N.div_unique with (o - j * U); lia).
    assert (Emo : o mod U = o - j * U) by (symmetry; apply N.mod_unique with j; lia).
    destruct (cached_ok c j Hc Hj Hp4) as (c' & Ec & Hc'). rewrite Ec. cbn [bind].
    exists c', (N.min r U). rewrite Ev1. fold U.
    assert (Hfit : o - j * U + N.min r U <= U /\ (N.min r U = r \/ o + N.min r U = (j + 1) * U)).
    { unfold read_ok in Hr. fold U in Hr. rewrite Ed, Emo in Hr. destruct Hr as [Hr|[Hr|Hr]].
      - destruct (N.leb_spec r U); [rewrite N.min_l by assumption; lia|]. rewrite N.min_r by lia. rewrite N.mul_add_distr_r. lia.
      - rewrite N.min_l by lia. lia.
      - rewrite Hr in Hp4. discriminate. }
    destruct Hfit as [Hf1 Hf2]. split; [|split; [assumption|split; [lia|]]].
    + rewrite Part_proofs.slice_bytes_at by (rewrite ?len_unit_content by assumption; lia). do 2 f_equal.
      rewrite Hby by lia. pose proof (Full_unit j (o - j * U) (N.min r U) Hj Hf1) as EF.
      replace (j * U + (o - j * U)) with o in EF by lia. rewrite EF. rewrite (N.add_comm (o - j * U)), N.add_sub. reflexivity.
    + destruct Hf2 as [E|E]; [rewrite E, N.sub_diag; apply Hzero|rewrite E; apply Halign].
  - exists c. set (k := N.min r (N.min (j * U + m * U) valid - j * U - (o - j * U))).
    assert (Hk : k = N.min r (N.min (j * U + m * U) valid - o)) by (unfold k; lia).
    exists k. assert (Ero : j * U + (o - j * U) = o) by lia.
    cbn [cr_compressed cr_offset]. unfold add_chk. rewrite Ero. destruct (N.ltb_spec o two64); [|unfold two64 in *; lia]. cbn [bind].
    split; [|split; [assumption|split; [lia|]]].
    + assert (Hkr : k <= r) by (rewrite Hk; apply N.le_min_l). assert (Hkc : o + k <= clusters runs * cs) by (clear - Hkr Hor Hv; lia).
      assert (Hke : o + k <= (j + m) * U) by (rewrite N.mul_add_distr_r; clear - Hk Hx; lia).
      assert (Hjo : j * U <= o) by (apply Hx).
      rewrite read_at_ok by (clear - Hkc Ho Hv; lia). do 2 f_equal. rewrite Hby by exact Hkr. apply Full_plain; [|exact Hkc].
      intros x Hxx. apply Hp4. rewrite Ej, Em.
      assert (Hq1 : j <= x / U) by (apply N.div_le_lower_bound; [clear - HUp; lia|rewrite N.mul_comm; clear - Hjo Hxx; lia]).
      assert (Hq2 : x / U < j + m) by (apply N.div_lt_upper_bound; [clear - HUp; lia|rewrite N.mul_comm; clear - Hke Hxx; lia]).
      split; [apply N.mul_le_mono_r; assumption|]. rewrite <- N.mul_add_distr_r. apply N.mul_lt_mono_pos_r; assumption.
    + destruct (N.eq_dec k r) as [->|Hne]; [rewrite N.sub_diag; apply Hzero|].
      replace (o + k) with ((j + m) * U); [apply Halign|]. rewrite N.mul_add_distr_r. clear - Hne Hk Hor Hx. lia.
Qed.
Lemma len_compressed_content : len (bytes_at Full 0 valid) = valid.
Proof. rewrite len_bytes_at, len_Full. lia. Qed.
End Step.
