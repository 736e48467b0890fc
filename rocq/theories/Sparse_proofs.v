From Verif Require Import Base BaseLemmas Bytes_model Streams_model Streams_spec Streams_proofs BlockTree_model
  BlockTree_spec BlockTree_proofs Blocks_model Blocks_proofs Sparse_model Image_spec Image_proofs Part_spec Part_proofs Fat_proofs.
Ltac Zify.zify_post_hook ::= idtac.

(** ** The loop *)
Definition band_reads (media_size bs : N) (band : N -> N -> N -> N -> res (list N)) (f : N -> N) : Prop :=
  forall o count, o < media_size -> 0 < count -> o + count <= media_size -> count <= bs - o mod bs ->
    band o (o / bs) (o mod bs) count = Ok (map f (seqN o (N.to_nat count))).

Lemma mod_split o bs : 0 < bs -> o mod bs < bs /\ o = bs * (o / bs) + o mod bs.
Proof. intros H. split; [apply N.mod_lt; lia|apply N.div_mod; lia]. Qed.
Lemma next_block o bs : 0 < bs -> let o' := o + (bs - o mod bs) in o' / bs = o / bs + 1 /\ o' mod bs = 0.
Proof.
  intros H o'. destruct (mod_split o bs H) as [H1 H2]. set (q := o / bs) in *. set (r := o mod bs) in *.
  assert (E : o' = (q + 1) * bs) by (unfold o'; lia). rewrite E. split; [apply N.div_mul; lia|apply N.mod_mul; lia].
Qed.

Lemma read_bands_ok media_size bs band f : 0 < bs -> media_size < two64 -> band_reads media_size bs band f ->
  forall fuel o n out, len out <= n -> o + (n - len out) <= media_size -> (N.to_nat (n - len out) < fuel)%nat ->
  read_bands fuel media_size bs band o (o / bs) (o mod bs) (bs - o mod bs) n out =
    Ok (out ++ map f (seqN o (N.to_nat (n - len out)))).
Proof.
  intros Hbs Hms Hband. induction fuel as [|fuel IH]; intros o n out Ho Hn Hf; [lia|].
  cbn [read_bands]. destruct (N.ltb_spec (len out) n) as [Hlt|Hge].
  2:{ replace (n - len out) with 0 by lia. cbn [N.to_nat seqN map]. now rewrite app_nil_r. }
  destruct (N.leb_spec media_size o); [lia|].
  destruct (mod_split o bs Hbs) as [Hr Ho']. set (r := n - len out) in *.
  set (k := if bs - o mod bs <? r then bs - o mod bs else r).
  assert (Hk : 0 < k <= r /\ k <= bs - o mod bs /\ (k < r -> k = bs - o mod bs)).
  { unfold k. destruct (N.ltb_spec (bs - o mod bs) r); lia. }
  rewrite (Hband o k) by lia. cbn [bind].
  assert (Hl : len (map f (seqN o (N.to_nat k))) = k) by (rewrite len_map_seqN; lia).
  destruct (map f (seqN o (N.to_nat k))) as [|b l] eqn:Ed. { change (len (@nil N)) with 0 in Hl. lia. }
  rewrite <- Ed in *. clear Ed b l. rewrite Hl.
  assert (A : add_chk two64 o k = Ok (o + k)) by (unfold add_chk; destruct (N.ltb_spec (o + k) two64); [reflexivity|lia]).
  rewrite A. cbn [bind].
  assert (Efin : seqN o (N.to_nat r) = seqN o (N.to_nat k) ++ seqN (o + k) (N.to_nat (r - k))).
  { replace (N.to_nat r) with (N.to_nat k + N.to_nat (r - k))%nat by lia. rewrite seqN_split. do 2 f_equal. lia. }
  rewrite Efin, map_app, app_assoc.
  destruct (N.eq_dec k r) as [Ekr|].
  - replace (N.to_nat (r - k)) with 0%nat by lia. cbn [seqN map]. rewrite app_nil_r.
    destruct fuel as [|fuel]; [lia|]. cbn [read_bands]. rewrite len_app, Hl.
    destruct (N.ltb_spec (len out + k) n); [lia|reflexivity].
  - assert (Ek : k = bs - o mod bs) by lia.
    destruct (next_block o bs Hbs) as [N1 N2]. cbv zeta in N1, N2. rewrite <- Ek in N1, N2.
    specialize (IH (o + k) n (out ++ map f (seqN o (N.to_nat k)))).
    rewrite N1, N2, N.sub_0_r, len_app, Hl in IH. rewrite IH by lia. f_equal. f_equal. f_equal. f_equal. lia.
Qed.

Lemma bands_rd_exact media_size bs band f : 0 < bs -> media_size < two64 -> band_reads media_size bs band f ->
  exact_rd (fun _ : unit => True) media_size (disk_content f media_size) (bands_rd media_size bs band).
Proof.
  intros Hbs Hms Hb [] o n _ Ho Hn. exists tt. split; [|exact I]. unfold bands_rd. f_equal.
  unfold div_chk. destruct (N.eqb_spec bs 0); [lia|]. cbn [bind].
  destruct (mod_split o bs Hbs) as [Hr Ho']. cbv zeta.
  replace (o - o / bs * bs) with (o mod bs) by lia.
  rewrite (read_bands_ok media_size bs band f) by (try change (len (@nil N)) with 0; lia || assumption).
  change (len (@nil N)) with 0. rewrite N.sub_0_r, bytes_at_disk by assumption. reflexivity.
Qed.

Lemma bands_run media_size bs band f : 0 < bs -> media_size < two63 -> band_reads media_size bs band f ->
  forall ops, seeks_ok media_size (disk_content f media_size) 0 ops ->
  run (stream_step media_size (bands_rd media_size bs band)) (tt, 0) ops =
    ((tt, fst (run (file_step media_size (disk_content f media_size)) 0 ops)),
     snd (run (file_step media_size (disk_content f media_size)) 0 ops)).
Proof.
  intros Hbs Hms Hb ops Hops.
  destruct (run_exact (fun _ : unit => True) media_size (disk_content f media_size) (bands_rd media_size bs band))
    with (ops := ops) (s := tt) (p := 0) as ([] & E & _); auto.
  - apply bands_rd_exact; auto. unfold two63, two64 in *. lia.
  - rewrite len_disk. lia.
  - unfold two63. lia.
Qed.

(** ** Opening a sparse image *)
Fixpoint band_history (bs i : N) (bands : list N) : list (N * N) :=
  match bands with
  | [] => []
  | b :: bands => (if b =? 0 then [] else [(b - 1, 4096 + i * bs)]) ++ band_history bs (i + 1) bands
  end.

Lemma insert_ranges_app {V} (t : block_tree V) a b :
  insert_ranges t (a ++ b) = (t <- insert_ranges t a ;; insert_ranges t b).
Proof.
  revert t. induction a as [|[[o s] v] a IH]; intros t; [reflexivity|]. cbn [app insert_ranges].
  destruct (bt_insert t o s v) as [t' [u| |]]; auto.
Qed.
Lemma insert_ranges_rejected {V} h : forall (t : block_tree V) bs,
  snd (bt_inserts t h) = map accepted bs -> forallb (fun b => b) bs = false -> insert_ranges t h = Err.
Proof.
  induction h as [|[[o s] v] h IH]; intros t bs E F; cbn [bt_inserts insert_ranges] in *.
  - destruct bs; [discriminate|discriminate].
  - destruct (bt_insert t o s v) as [t1 r]. specialize (IH t1). destruct (bt_inserts t1 h) as [t2 rs]. cbn [snd] in *.
    destruct bs as [|[|] bs]; [discriminate| |].
    + injection E as -> ->. cbn [accepted]. apply (IH bs eq_refl). exact F.
    + injection E as -> _. reflexivity.
Qed.
Lemma insert_ranges_accepted {V} h : forall (t : block_tree V) bs,
  snd (bt_inserts t h) = map accepted bs -> forallb (fun b => b) bs = true -> insert_ranges t h = Ok (fst (bt_inserts t h)).
Proof.
  intros t bs E F. apply insert_ranges_inserts. rewrite E. apply Forall_map. rewrite forallb_forall in F.
  apply Forall_forall. intros b Hb. rewrite (F b Hb). reflexivity.
Qed.

Lemma block_results_all {V} k (h : list (N * V)) : forall before,
  forallb (fun b => b) (block_results k before h) = true <->
  Forall (fun e => fst e < k) h /\ NoDup (map fst h) /\ (forall x, In x (map fst h) -> ~ In x (map fst before)).
Proof.
  induction h as [|[i v] h IH]; intros before; cbn [block_results forallb map fst].
  - split; [intros _; split; [constructor|split; [constructor|intros x []]]|reflexivity].
  - rewrite andb_true_iff, IH, andb_true_iff, N.ltb_lt, negb_true_iff.
    assert (Ex : existsb (fun e => fst e =? i) before = false <-> ~ In i (map fst before)).
    { rewrite <- not_true_iff_false, existsb_exists. rewrite in_map_iff. split; intros H H'; apply H; destruct H' as (e & H1 & H2).
      - exists e. split; [assumption|]. apply N.eqb_eq. assumption.
      - exists e. split; [apply N.eqb_eq; assumption|assumption]. }
    rewrite Ex, Forall_cons_iff, NoDup_cons_iff. cbn [fst].
    rewrite map_app. cbn [map fst]. setoid_rewrite in_app_iff. cbn [In].
    split.
    + intros ((H1 & H2) & H3 & H4 & H5). repeat split; auto.
      * intros Hin. apply (H5 i Hin). right. left. reflexivity.
      * intros x [<-|Hx]; [assumption|]. intros Hx'. apply (H5 x Hx). left. assumption.
    + intros ((H1 & H3) & (H4 & H5) & H6). split; [split; [assumption|apply H6; left; reflexivity]|]. split; [assumption|].
      split; [assumption|]. intros x Hx [Hx'|[<-|[]]]; [|contradiction]. apply (H6 x); [right; assumption|assumption].
Qed.

Lemma history_blocks bs bands : forall i,
  Forall (fun e => fst e + 1 <> 0) (band_history bs i bands) /\
  map fst (band_history bs i bands) = map (fun b => b - 1) (filter (fun n => negb (n =? 0)) bands).
Proof.
  induction bands as [|b bands IH]; intros i; [split; [constructor|reflexivity]|]. cbn [band_history filter].
  destruct (IH (i + 1)) as [H1 H2]. destruct (b =? 0); cbn [app negb map]; [auto|].
  split; [constructor; [cbn; lia|assumption]|]. cbn [fst]. f_equal. assumption.
Qed.
Lemma history_find bs n bands : forall i,
  find (fun e => fst e =? n) (band_history bs i bands) =
  option_map (fun j => (n, 4096 + (i + j) * bs)) (index_of (n + 1) bands).
Proof.
  induction bands as [|b bands IH]; intros i; [reflexivity|]. cbn [band_history index_of].
  destruct (N.eqb_spec b 0) as [->|Hb]; cbn [app find fst].
  - destruct (N.eqb_spec 0 (n + 1)); [lia|]. rewrite IH. destruct (index_of (n + 1) bands); [|reflexivity].
    cbn [option_map]. do 3 f_equal. lia.
  - destruct (N.eqb_spec (b - 1) n) as [E|E]; destruct (N.eqb_spec b (n + 1)) as [E'|E']; try lia.
    + cbn [option_map]. rewrite E, N.add_0_r. reflexivity.
    + rewrite IH. destruct (index_of (n + 1) bands); [|reflexivity]. cbn [option_map]. do 3 f_equal. lia.
Qed.

Lemma sparse_insert_ranges data bs : len data < two64 -> forall n i t,
  64 + 4 * (i + N.of_nat n) <= len data ->
  sparse_insert n data bs i (64 + 4 * i) t =
  insert_ranges t (block_inserts bs (band_history bs i (map (fun i => field_be data (64 + 4 * i) 4) (seqN i n)))).
Proof.
  intros Hl. induction n as [|n IH]; intros i t H; [reflexivity|]. cbn [sparse_insert seqN map band_history].
  unfold u32_be. rewrite be_field by lia. cbn [bind].
  assert (A : add_chk two64 (64 + 4 * i) 4 = Ok (64 + 4 * (i + 1))).
  { unfold add_chk. destruct (N.ltb_spec (64 + 4 * i + 4) two64); [f_equal; lia|lia]. }
  rewrite A. cbn [bind]. unfold block_inserts. rewrite map_app. fold (@block_inserts N bs).
  destruct (field_be data (64 + 4 * i) 4 =? 0).
  - cbn [map app]. apply IH. lia.
  - cbn [map app fst snd insert_ranges]. destruct (bt_insert _ _ _ _) as [t' [u| |]]; auto. apply IH. lia.
Qed.

Lemma div_ceil_ok a b : 0 < b -> div_ceil a b = Ok ((a + b - 1) / b).
Proof.
  intros H. unfold div_ceil, div_chk. destruct (N.eqb_spec b 0); [lia|]. cbn [bind]. f_equal.
  destruct (mod_split a b H) as [H1 H2]. set (q := a / b) in *. set (r := a mod b) in *. clearbody q r.
  destruct (N.eqb_spec r 0) as [->|Hr].
  - apply N.div_unique with (b - 1); lia.
  - apply N.div_unique with (r - 1); lia.
Qed.
Lemma ceil_bound a b : 0 < b -> a <= (a + b - 1) / b * b.
Proof.
  intros H. destruct (mod_split (a + b - 1) b H) as [H1 H2]. lia.
Qed.

Lemma nodup_pred l : NoDup (map (fun b => b - 1) (filter (fun n => negb (n =? 0)) l)) <->
  NoDup (filter (fun n => negb (n =? 0)) l).
Proof.
  split; [apply NoDup_map_inv|]. intros H. assert (Hp : Forall (fun n => n <> 0) (filter (fun n => negb (n =? 0)) l)).
  { apply Forall_forall. intros x Hx. apply filter_In in Hx as [_ Hx]. apply negb_true_iff, N.eqb_neq in Hx. assumption. }
  induction H as [|x m Hx H IH]; [constructor|]. apply Forall_cons_iff in Hp as [Hx0 Hp]. cbn [map]. constructor; [|auto].
  rewrite in_map_iff. intros (y & Hy & Hin). rewrite Forall_forall in Hp. specialize (Hp y Hin).
  replace y with x in Hin by lia. contradiction.
Qed.

Lemma sparse_open_ok file : wf_bytes file -> len file < two64 ->
  (sparse_header_ok file /\ exists f, sparse_open file = Ok f /\
     si_block_size f = sparse_sectors_per_band file * 512 /\ si_media_size f = sparse_sectors file * 512 /\
     forall x, x < si_media_size f ->
       bt_get (si_tree f) x = Ok (option_map (fun i => 4096 + i * si_block_size f)
         (index_of (x / si_block_size f + 1) (sparse_bands file)))) \/
  (~ sparse_header_ok file /\ sparse_open file = Err).
Proof.
  intros Hw Hl. unfold sparse_open, sparse_header_ok.
  destruct (read_exact_shape file 0 4096) as [[-> H1]|[-> H1]]; cbn [bind].
  2:{ right. split; [intros [H _]; lia|reflexivity]. }
  set (data := bytes_at file 0 4096). assert (Ld : len data = 4096) by (unfold data; rewrite len_bytes_at; lia).
  assert (Fd : forall e, e + 4 <= 4096 -> field_be data e 4 = be32 file e).
  { intros e He. unfold data. rewrite field_be_inner by lia. reflexivity. }
  rewrite slice_bytes_at by lia. cbn [bind]. unfold sparse_header_read.
  assert (Lh : len (bytes_at data 0 (64 - 0)) = 64) by (rewrite len_bytes_at; lia). rewrite Lh.
  change (64 =? 64) with true. cbn [check bind]. rewrite slice_bytes_at by lia. cbn [bind]. unfold u32_be.
  assert (Esig : bytes_at (bytes_at data 0 (64 - 0)) 0 (4 - 0) = bytes_at file 0 4).
  { unfold data. rewrite bytes_at_bytes_at by lia. change (0 + 0) with 0. change (4 - 0) with 4.
    rewrite bytes_at_bytes_at by lia. reflexivity. }
  rewrite Esig. clear Esig.
  destruct (list_eq_dec N.eq_dec (bytes_at file 0 4) [0x73; 0x70; 0x72; 0x73]) as [Es|Es]; cbn [check bind].
  2:{ right. split; [intros (_ & H & _); contradiction|reflexivity]. }
  rewrite !be_field by (unfold two64; lia). cbn [bind].
  rewrite !field_be_inner by lia. rewrite !N.add_0_l, !Fd by lia.
  fold (sparse_sectors_per_band file) (sparse_sectors file).
  assert (Bs : sparse_sectors file < two32 /\ sparse_sectors_per_band file < two32).
  { unfold sparse_sectors, sparse_sectors_per_band. rewrite <- !Fd by lia.
    split; (eapply N.lt_le_trans; [apply field_be_bound, wf_bytes_at, Hw|vm_compute; discriminate]). }
  set (spb := sparse_sectors_per_band file) in *. set (ns := sparse_sectors file) in *.
  destruct (N.eqb_spec spb 0) as [E0|E0]; cbn [negb check bind].
  { right. split; [intros (_ & _ & H & _); lia|reflexivity]. }
  rewrite div_ceil_ok by lia. cbn [bind].
  change ((ns + spb - 1) / spb) with (sparse_number_of_bands file).
  set (nb := sparse_number_of_bands file) in *. change ((4096 - 64) / 4) with 1008.
  destruct (N.ltb_spec 1008 nb) as [Hnb|Hnb]; cbn [negb check bind].
  { right. split; [intros (_ & _ & _ & H & _); lia|reflexivity]. }
  change (0xffffffff / 512) with 8388607.
  destruct (N.ltb_spec 8388607 spb) as [Hsp|Hsp]; cbn [negb check bind].
  { right. split; [intros (_ & _ & H & _); lia|reflexivity]. }
  assert (M1 : mul_chk two32 spb 512 = Ok (spb * 512)).
  { unfold mul_chk. destruct (N.ltb_spec (spb * 512) two32); [reflexivity|unfold two32 in *; lia]. }
  assert (M2 : mul_chk two64 ns 512 = Ok (ns * 512)).
  { unfold mul_chk. destruct (N.ltb_spec (ns * 512) two64); [reflexivity|unfold two32, two64 in *; lia]. }
  assert (M3 : mul_chk two64 nb (spb * 512) = Ok (nb * (spb * 512))).
  { unfold mul_chk. destruct (N.ltb_spec (nb * (spb * 512)) two64); [reflexivity|unfold two64 in *; nia]. }
  rewrite M1. cbn [bind]. rewrite M2. cbn [bind]. rewrite M3. cbn [bind].
  pose proof (sparse_insert_ranges data (spb * 512) ltac:(unfold two64; lia) (N.to_nat nb) 0
    (bt_new (nb * (spb * 512)) spb 512) ltac:(lia)) as Ins.
  change (64 + 4 * 0) with 64 in Ins. rewrite Ins. clear Ins.
  assert (Eb : map (fun i => field_be data (64 + 4 * i) 4) (seqN 0 (N.to_nat nb)) = sparse_bands file).
  { unfold sparse_bands. fold nb. apply map_ext_in. intros i Hi. apply in_seqN in Hi. apply Fd. lia. }
  rewrite Eb. set (bands := sparse_bands file) in *. set (h := band_history (spb * 512) 0 bands).
  assert (Hbn : Forall (fun b => b < two32) bands).
  { rewrite <- Eb. apply Forall_map. apply Forall_forall. intros i Hi.
    eapply N.lt_le_trans; [apply field_be_bound, wf_bytes_at, Hw|vm_compute; discriminate]. }
  destruct (history_blocks (spb * 512) bands 0) as [_ Hh2]. fold h in Hh2.
  destruct (blocks_ok (V := N) spb 512 1 nb h) as (t & Et & Gt); try (unfold two64 in *; lia).
  { rewrite N.pow_1_r. unfold two64. nia. }
  { rewrite N.pow_1_r. rewrite <- (Forall_map fst (fun b => b * (512 * spb) + 512 * spb < two64)), Hh2, Forall_map.
    apply Forall_forall. intros b Hin. apply filter_In in Hin as [Hin Hb0]. apply negb_true_iff, N.eqb_neq in Hb0.
    rewrite Forall_forall in Hbn. specialize (Hbn b Hin). unfold two32, two64 in *. nia. }
  rewrite N.pow_1_r, (N.mul_comm 512 spb) in Et, Gt.
  pose proof (block_results_all nb h []) as Q.
  assert (Q' : Forall (fun e => fst e < nb) h /\ NoDup (map fst h) <->
    Forall (fun n => n <= nb) bands /\ NoDup (filter (fun n => negb (n =? 0)) bands)).
  { rewrite Hh2, nodup_pred. rewrite <- (Forall_map fst (fun b => b < nb)), Hh2, Forall_map.
    assert (Forall (fun x => x - 1 < nb) (filter (fun n => negb (n =? 0)) bands) <-> Forall (fun n => n <= nb) bands) as ->; [|tauto].
    rewrite !Forall_forall. setoid_rewrite filter_In. split; intros H x Hx.
    - destruct (N.eq_dec x 0); [lia|]. specialize (H x). rewrite negb_true_iff, N.eqb_neq in H. specialize (H ltac:(auto)). lia.
    - destruct Hx as [Hx Hx0]. apply negb_true_iff, N.eqb_neq in Hx0. specialize (H x Hx). lia. }
  destruct (forallb (fun b => b) (block_results nb [] h)) eqn:Ea.
  - rewrite (insert_ranges_accepted _ _ (block_results nb [] h)) by (rewrite ?Et; auto). rewrite Et. cbn [bind fst].
    apply proj1 in Q. specialize (Q eq_refl). destruct Q as (Q1 & Q2 & _). left. split.
    { split; [assumption|]. split; [assumption|]. split; [lia|]. split; [assumption|]. apply Q'. auto. }
    eexists. split; [reflexivity|]. cbn [si_block_size si_media_size si_tree]. split; [reflexivity|]. split; [reflexivity|].
    intros x Hx. pose proof (ceil_bound ns spb ltac:(lia)) as Hc. fold nb in Hc.
    assert (Hx' : x < nb * (spb * 512)).
    { change ((ns + spb - 1) / spb) with nb in Hc. nia. }
    rewrite Gt by assumption. f_equal. unfold offered.
    destruct (N.ltb_spec (x / (spb * 512)) nb) as [|Hge].
    2:{ exfalso. assert (x / (spb * 512) < nb) by (apply N.div_lt_upper_bound; lia). lia. }
    unfold h. rewrite history_find. destruct (index_of _ _); reflexivity.
  - rewrite (insert_ranges_rejected _ _ (block_results nb [] h)) by (rewrite ?Et; auto). cbn [bind]. right.
    split; [|reflexivity]. intros (_ & _ & _ & _ & H). apply Q' in H. destruct H as [H H'].
    apply diff_false_true. apply Q. split; [assumption|]. split; [assumption|]. intros x _ [].
Qed.

Lemma sparse_reads file f : wf_bytes file -> len file < two64 -> sparse_complete file ->
  sparse_header_ok file -> si_block_size f = sparse_sectors_per_band file * 512 ->
  si_media_size f = sparse_sectors file * 512 ->
  (forall x, x < si_media_size f ->
       bt_get (si_tree f) x = Ok (option_map (fun i => 4096 + i * si_block_size f)
         (index_of (x / si_block_size f + 1) (sparse_bands file)))) ->
  band_reads (si_media_size f) (si_block_size f) (sparse_band file f) (sparse_byte file).
Proof.
  intros Hw Hl Hc Hh Eb Em Ht o count Ho Hc0 Hoc Hcb. unfold sparse_band. rewrite Ht by assumption. cbn [bind].
  unfold sparse_complete in Hc. cbv zeta in Hc. rewrite <- Eb, <- Em in Hc.
  set (bs := si_block_size f) in *. set (ms := si_media_size f) in *.
  assert (Hbs : 0 < bs) by (rewrite Eb; destruct Hh as (_ & _ & H & _); lia).
  destruct (mod_split o bs Hbs) as [Hr Ho']. 
  assert (S : forall x, In x (seqN o (N.to_nat count)) -> x / bs = o / bs /\ x mod bs = o mod bs + (x - o) /\ o <= x < o + count).
  { intros x Hx. apply in_seqN in Hx. split.
    - symmetry. apply N.div_unique with (o mod bs + (x - o)); lia.
    - split; [|lia]. symmetry. apply N.mod_unique with (o / bs); lia. }
  destruct (index_of (o / bs + 1) (sparse_bands file)) as [i|] eqn:Ei; cbn [option_map].
  - specialize (Hc (o / bs) i Ei). assert (Hend : 4096 + i * bs + o mod bs + count <= len file) by lia.
    assert (A : add_chk two64 (4096 + i * bs) (o mod bs) = Ok (4096 + i * bs + o mod bs)).
    { unfold add_chk. destruct (N.ltb_spec (4096 + i * bs + o mod bs) two64); [reflexivity|lia]. }
    rewrite A. cbn [bind]. f_equal. unfold read_at. rewrite bytes_at_file by lia.
    set (b := 4096 + i * bs + o mod bs) in *.
    transitivity (map (fun x => file_byte file (b + (x - o))) (seqN o (N.to_nat count))).
    { replace (seqN b (N.to_nat count)) with (seqN (b + 0) (N.to_nat count)) by (f_equal; lia). rewrite map_seqN_shift.
      replace (seqN o (N.to_nat count)) with (seqN (o + 0) (N.to_nat count)) by (f_equal; lia). rewrite map_seqN_shift.
      apply map_ext. intros x. f_equal. lia. }
    apply map_ext_in. intros x Hx. destruct (S x Hx) as (S1 & S2 & S3). unfold sparse_byte. rewrite <- Eb. fold bs.
    rewrite S1, Ei, S2. f_equal. unfold b. lia.
  - f_equal. transitivity (map (fun _ => 0) (seqN o (N.to_nat count))).
    { clear. generalize (N.to_nat count) as n. intros n. revert o. induction n as [|n IH]; intros o; [reflexivity|].
      cbn [repeat seqN map]. f_equal. apply IH. }
    apply map_ext_in. intros x Hx. destruct (S x Hx) as (S1 & S2 & S3). unfold sparse_byte. rewrite <- Eb. fold bs.
    rewrite S1, Ei. reflexivity.
Qed.

Lemma bundle_reads bands bs size : 0 < bs -> bundle_complete bands bs size ->
  band_reads size bs (bundle_band bands) (bundle_byte bands bs).
Proof.
  intros Hbs Hc o count Ho Hc0 Hoc Hcb. unfold bundle_band.
  destruct (mod_split o bs Hbs) as [Hr Ho'].
  destruct (Hc (o / bs)) as (file & Ef & Hf); [lia|]. rewrite Ef. cbn [of_option bind]. f_equal. unfold read_at.
  rewrite bytes_at_file by lia.
  transitivity (map (fun x => file_byte file (o mod bs + (x - o))) (seqN o (N.to_nat count))).
  { replace (seqN (o mod bs) (N.to_nat count)) with (seqN (o mod bs + 0) (N.to_nat count)) by (f_equal; lia). rewrite map_seqN_shift.
    replace (seqN o (N.to_nat count)) with (seqN (o + 0) (N.to_nat count)) by (f_equal; lia). rewrite map_seqN_shift.
    apply map_ext. intros x. f_equal. lia. }
  apply map_ext_in. intros x Hx. apply in_seqN in Hx. unfold bundle_byte.
  replace (x / bs) with (o / bs) by (apply N.div_unique with (o mod bs + (x - o)); lia).
  replace (x mod bs) with (o mod bs + (x - o)) by (apply N.mod_unique with (o / bs); lia).
  rewrite Ef. reflexivity.
Qed.
