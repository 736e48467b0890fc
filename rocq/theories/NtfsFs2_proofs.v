(** * Proofs for C54: the MFT, files, directories and volumes of NTFS *)
From Coq Require Import Permutation Sorted.
From Verif Require Import Base BaseLemmas Streams_model Streams_spec Streams_proofs BlockTree_model Blocks_model Blocks_proofs
  Strings_model Strings_spec Strings_proofs Part_spec Part_model Headers_model Headers_spec Headers_proofs
  Ntfs_model Ntfs_spec Ntfs_proofs NtfsCompressed_model NtfsFs_model NtfsFs_spec NtfsFs_proofs.
Ltac Zify.zify_post_hook ::= idtac.

(** ** Runs in a tree *)
Lemma read_inside volume o n : o + n <= len volume -> read_exact_at volume o n = Ok (bytes_at volume o n).
Proof.
  intros H. unfold read_exact_at. destruct (N.ltb_spec (len volume - o) n); [lia|].
  destruct (N.leb_spec (o + n) (len volume)); [|lia]. reflexivity.
Qed.
Lemma in_split_runs cs runs : forall base o s v, In (o, s, v) (consecutive base (ranges_of cs base runs)) ->
  exists before r after, runs = before ++ r :: after /\ o = base + clusters before * cs /\ s = run_count r * cs /\
    v = range_of o r.
Proof.
  induction runs as [|r runs IH]; intros base o s v H; [destruct H|].
  cbn [ranges_of consecutive] in H. destruct H as [[= <- <- <-]|H].
  - exists [], r, runs. repeat split. cbn. lia.
  - apply IH in H as (before & r' & after & -> & -> & -> & ->). exists (r :: before), r', after.
    cbn [clusters fold_right app]. fold (clusters before). repeat split; try lia; f_equal; lia.
Qed.
Lemma split_unique cs x : 0 < cs -> forall b1 r1 a1 b2 r2 a2, b1 ++ r1 :: a1 = b2 ++ r2 :: a2 ->
  clusters b1 * cs <= x < (clusters b1 + run_count r1) * cs ->
  clusters b2 * cs <= x < (clusters b2 + run_count r2) * cs -> b1 = b2 /\ r1 = r2.
Proof.
  intros Hcs b1. revert x. induction b1 as [|c b1 IH]; intros x r1 a1 [|d b2] r2 a2 E H1 H2.
  - cbn [app] in E. injection E as -> _. auto.
  - cbn [app] in E. injection E as -> ->. cbn [clusters fold_right] in *. fold (clusters b2) in *. exfalso.
    rewrite ?N.mul_add_distr_r in *. lia.
  - cbn [app] in E. injection E as -> <-. cbn [clusters fold_right] in *. fold (clusters b1) in *. exfalso.
    rewrite ?N.mul_add_distr_r in *. lia.
  - cbn [app] in E. injection E as -> E. cbn [clusters fold_right] in *. fold (clusters b1) in *. fold (clusters b2) in *.
    destruct (IH (x - run_count d * cs) r1 a1 b2 r2 a2 E) as [-> ->]; [rewrite ?N.mul_add_distr_r in *; lia..|]. auto.
Qed.
Lemma content_split volume cs before r after o n : Forall (run_inside volume cs) (before ++ r :: after) ->
  clusters before * cs <= o -> o + n <= (clusters before + run_count r) * cs ->
  bytes_at (flat_map (run_content volume cs) (before ++ r :: after)) o n =
  bytes_at (run_content volume cs r) (o - clusters before * cs) n.
Proof.
  intros H Ho Hn. apply Forall_app in H as [H1 H2]. apply Forall_cons_iff in H2 as [H2 H3].
  assert (L := len_contents volume cs before H1). assert (L2 := run_content_len volume cs r H2).
  rewrite flat_map_app. cbn [flat_map]. rewrite N.mul_add_distr_r in Hn. unfold bytes_at.
  rewrite skipn_app. rewrite (skipn_all2 (flat_map _ before)) by (unfold len in L; lia). cbn [app].
  replace (N.to_nat o - length (flat_map (run_content volume cs) before))%nat with (N.to_nat (o - clusters before * cs)) by (unfold len in L; lia).
  rewrite skipn_app, firstn_app.
  replace (N.to_nat n - length (skipn (N.to_nat (o - clusters before * cs)) (run_content volume cs r)))%nat with O.
  - cbn [firstn]. apply app_nil_r.
  - rewrite skipn_length. unfold len in L2. lia.
Qed.
(** What a tree of the ranges of runs says of a position in one run. *)
Definition holds (t : block_tree block_range) (cs : N) (runs : list run) : Prop :=
  forall x, x < clusters runs * cs -> exists o s v, bt_get t x = Ok (Some v) /\
    In (o, s, v) (consecutive 0 (ranges_of cs 0 runs)) /\ o <= x < o + s.
Lemma located volume t cs runs before r after x n : 0 < cs -> holds t cs runs -> Forall (run_inside volume cs) runs ->
  all_allocated runs -> runs = before ++ r :: after -> 0 < n ->
  clusters before * cs <= x -> x + n <= (clusters before + run_count r) * cs ->
  exists cluster, r = Allocated (run_count r) cluster /\
    bt_get t x = Ok (Some {| virtual_cluster_offset := clusters before * cs; cluster_block_number := cluster;
                             range_blocks := run_count r; range_sparse := false |}) /\
    cluster * cs + (x - clusters before * cs) + n <= len volume /\
    bytes_at (flat_map (run_content volume cs) runs) x n = bytes_at volume (cluster * cs + (x - clusters before * cs)) n.
Proof.
  intros Hcs Ht Hin Ha E Hn Hx Hxn.
  assert (Hr : run_inside volume cs r) by (rewrite Forall_forall in Hin; apply Hin; rewrite E; apply in_elt).
  assert (Har : match r with Allocated _ _ => True | Hole _ => False end).
  { unfold all_allocated in Ha. rewrite Forall_forall in Ha. apply (Ha r). rewrite E. apply in_elt. }
  destruct (Ht x) as (o & s & v & G & I & C).
  { rewrite E, clusters_app. cbn [clusters fold_right]. fold (clusters after). rewrite ?N.mul_add_distr_r in *. lia. }
  apply in_split_runs in I as (b' & r' & a' & E' & Eo & Es & Ev). rewrite N.add_0_l in Eo. subst o s v.
  destruct (split_unique cs x Hcs b' r' a' before r after) as [-> ->].
  - congruence.
  - rewrite N.mul_add_distr_r. exact C.
  - lia.
  - destruct r as [count cluster|count]; [|destruct Har]. exists cluster. cbn [run_count] in *. split; [reflexivity|].
    split; [exact G|]. destruct Hr as [_ Hr]. rewrite N.mul_add_distr_r in *. split; [lia|]. rewrite E. rewrite content_split.
    + cbn [run_content]. rewrite bytes_at_bytes_at by lia. reflexivity.
    + rewrite <- E. exact Hin.
    + exact Hx.
    + cbn [run_count]. rewrite N.mul_add_distr_r. lia.
Qed.

(** ** The MFT *)
Lemma add_runs_ranges runs : forall t vcn o tree,
  Forall (fun r => run_count r * mt_cluster t mod mt_entry_size t = 0) runs -> all_allocated runs ->
  0 < mt_cluster t -> 0 < mt_entry_size t -> vcn + clusters runs < two64 -> o + clusters runs * mt_cluster t < two64 ->
  mt_entries t + clusters runs * mt_cluster t / mt_entry_size t < two64 ->
  insert_ranges (mt_tree t) (consecutive o (ranges_of (mt_cluster t) o runs)) = Ok tree ->
  add_runs (map as_data_run runs) t vcn o =
    Ok ({| mt_cluster := mt_cluster t; mt_entry_size := mt_entry_size t;
           mt_entries := mt_entries t + clusters runs * mt_cluster t / mt_entry_size t; mt_tree := tree |},
        vcn + clusters runs).
Proof.
  induction runs as [|r runs IH]; intros t vcn o tree Hm Ha Hcs Hes Hv Ho He H.
  - injection H as <-. cbn [map add_runs clusters fold_right]. rewrite N.mul_0_l, N.div_0_l, !N.add_0_r by lia. destruct t; reflexivity.
  - apply Forall_cons_iff in Hm as [Hm1 Hm]. unfold all_allocated in Ha. apply Forall_cons_iff in Ha as [Ha1 Ha].
    destruct r as [count cluster|]; [|destruct Ha1]. cbn [run_count] in Hm1.
    cbn [clusters fold_right run_count] in *. fold (clusters runs) in *.
    rewrite N.mul_add_distr_r in *.
    assert (Ed : (count * mt_cluster t + clusters runs * mt_cluster t) / mt_entry_size t =
      count * mt_cluster t / mt_entry_size t + clusters runs * mt_cluster t / mt_entry_size t).
    { apply N.mod_divides in Hm1 as [q Eq]; [|lia]. rewrite Eq, (N.mul_comm _ q), N.div_mul by lia. 
      now rewrite N.div_add_l by lia. }
    cbn [ranges_of consecutive insert_ranges run_count] in H. cbn [map add_runs as_data_run number_of_blocks run_kind block_number].
    unfold mul_chk at 1. destruct (N.ltb_spec (count * mt_cluster t) two64); [|lia]. cbn [bind].
    unfold mod_chk. destruct (N.eqb_spec (mt_entry_size t) 0); [lia|]. cbn [bind]. rewrite Hm1. cbn [N.eqb check bind].
    unfold div_chk. destruct (N.eqb_spec (mt_entry_size t) 0); [lia|]. cbn [bind]. unfold add_chk at 1.
    rewrite Ed in He. rewrite Ed. clear Ed.
    assert (He1 : mt_entries t + count * mt_cluster t / mt_entry_size t < two64).
    { eapply N.le_lt_trans; [|exact He]. rewrite N.add_assoc. apply N.le_add_r. }
    destruct (N.ltb_spec (mt_entries t + count * mt_cluster t / mt_entry_size t) two64); [|contradict He1; now apply N.le_ngt]. cbn [bind].
    change {| virtual_cluster_offset := o; cluster_block_number := cluster; range_blocks := count; range_sparse := false |}
      with (range_of o (Allocated count cluster)).
    destruct (bt_insert (mt_tree t) o (count * mt_cluster t) (range_of o (Allocated count cluster))) as [t1 [[]| |]]; try discriminate.
    unfold add_chk. destruct (N.ltb_spec (vcn + count) two64); [|lia]. cbn [bind].
    destruct (N.ltb_spec (o + count * mt_cluster t) two64); [|lia]. cbn [bind].
    rewrite (IH _ _ _ tree); cbn [mt_cluster mt_entry_size mt_entries mt_tree]; auto; try lia; try (rewrite <- ?N.add_assoc; exact He). rewrite !N.add_assoc. reflexivity.
Qed.

(** The MFT as it is read. *)
Record mft_ready (volume : list N) (cs es : N) (runs : list run) (t : mft) : Prop := {
  r_cluster : mt_cluster t = cs;
  r_size : mt_entry_size t = es;
  r_entries : mt_entries t = clusters runs * cs / es;
  r_tree : holds (mt_tree t) cs runs;
  r_cs : 0 < cs;
  r_es : 42 <= es <= 65535;
  r_allocated : all_allocated runs;
  r_inside : Forall (run_inside volume cs) runs;
  r_multiple : Forall (fun r => run_count r * cs mod es = 0) runs;
  r_limit : clusters runs * cs < two64;
  r_volume : buffer volume }.

Lemma ranges_sizes cs es runs : forall o, 0 < cs -> Forall (fun r => 0 < run_count r) runs ->
  Forall (fun r => run_count r * cs mod es = 0) runs ->
  Forall (fun e => 0 < fst e /\ fst e mod es = 0) (ranges_of cs o runs).
Proof.
  intros o Hcs. revert o. induction runs as [|r runs IH]; intros o Hp Hm; [constructor|].
  apply Forall_cons_iff in Hp as [H1 Hp]. apply Forall_cons_iff in Hm as [H2 Hm]. cbn [ranges_of]. constructor; [|now apply IH].
  cbn [fst]. split; [apply N.mul_pos_pos; assumption|exact H2].
Qed.
Lemma inside_positive volume cs runs : Forall (run_inside volume cs) runs -> Forall (fun r => 0 < run_count r) runs.
Proof. apply Forall_impl. intros r [H _]. exact H. Qed.
Lemma clusters_le cs runs : 0 < cs -> clusters runs <= clusters runs * cs.
Proof. intros H. rewrite <- (N.mul_1_r (clusters runs)) at 1. apply N.mul_le_mono_l. lia. Qed.
Lemma div_le a b : 0 < b -> a / b <= a.
Proof. intros H. apply N.div_le_upper_bound; [lia|]. rewrite <- (N.mul_1_l a) at 1. apply N.mul_le_mono_r. lia. Qed.

Lemma mft_group_ready volume cs es runs last size : 0 < cs -> 42 <= es <= 65535 -> all_allocated runs ->
  Forall (run_inside volume cs) runs -> Forall (fun r => run_count r * cs mod es = 0) runs -> buffer volume ->
  clusters runs * cs <= size -> size < two64 -> last = two64 - 1 \/ last + 1 = clusters runs ->
  exists t, add_cluster_group {| mt_cluster := cs; mt_entry_size := es; mt_entries := 0; mt_tree := bt_new size 0 es |}
      {| first_vcn := 0; last_vcn := last; data_runs := map as_data_run runs |} = Ok t /\
    mft_ready volume cs es runs t.
Proof.
  intros Hcs Hes Ha Hin Hm Hb Hl Hs Hlast.
  pose proof (inside_positive _ _ _ Hin) as Hp. pose proof (clusters_le cs runs Hcs) as Hc.
  pose proof (div_le (clusters runs * cs) es ltac:(lia)) as Hd.
  destruct (consecutive_tree size es (ranges_of cs 0 runs)) as (t & E & G); [lia|exact Hs|now apply ranges_sizes|now rewrite total_ranges|].
  rewrite total_ranges in G. eexists. split.
  - unfold add_cluster_group. cbn [first_vcn last_vcn data_runs mt_cluster]. unfold mul_chk. rewrite N.mul_0_l.
    destruct (N.ltb_spec 0 two64) as [_|?]; [|unfold two64 in *; lia]. cbn [bind].
    rewrite (add_runs_ranges runs) with (tree := t); cbn [mt_cluster mt_entry_size mt_entries mt_tree]; auto; try lia.
    cbn [bind]. rewrite !N.add_0_l.
    assert (El : (if last =? two64 - 1 then Ok tt
      else last0 <- add_chk two64 last 1 ;; check (last0 =? clusters runs)) = Ok tt).
    { destruct (N.eqb_spec last (two64 - 1)); [reflexivity|]. destruct Hlast as [|Hlast]; [contradiction|].
      unfold add_chk. destruct (N.ltb_spec (last + 1) two64); [|lia]. cbn [bind]. rewrite Hlast, N.eqb_refl. reflexivity. }
    rewrite El. cbn [bind]. reflexivity.
  - split; cbn [mt_cluster mt_entry_size mt_entries mt_tree]; auto; lia.
Qed.

(** An entry of the MFT lies in one run. *)
Lemma entry_run cs es n : 0 < cs -> 0 < es -> forall runs,
  Forall (fun r => 0 < run_count r) runs -> Forall (fun r => run_count r * cs mod es = 0) runs ->
  (n + 1) * es <= clusters runs * cs ->
  exists before r after, runs = before ++ r :: after /\ clusters before * cs <= n * es /\
    n * es + es <= (clusters before + run_count r) * cs.
Proof.
  intros Hcs Hes runs. revert n. induction runs as [|r runs IH]; intros n Hp Hm Hn.
  - cbn [clusters fold_right] in Hn. rewrite N.mul_add_distr_r in Hn. lia.
  - apply Forall_cons_iff in Hp as [H1 Hp]. apply Forall_cons_iff in Hm as [H2 Hm].
    cbn [clusters fold_right] in Hn. fold (clusters runs) in Hn.
    apply N.mod_divides in H2 as [q Eq]; [|lia]. rewrite (N.mul_comm es q) in Eq. destruct (N.lt_ge_cases n q) as [C|C].
    + exists [], r, runs. split; [reflexivity|]. cbn [clusters fold_right]. rewrite N.mul_0_l, N.add_0_l, Eq.
      assert ((n + 1) * es <= q * es) by (apply N.mul_le_mono_r; lia). rewrite N.mul_add_distr_r in *. lia.
    + destruct (IH (n - q)) as (before & r' & after & -> & B1 & B2); auto.
      * rewrite (N.mul_add_distr_r (run_count r)) in Hn. rewrite Eq in Hn. replace (n + 1) with (q + (n - q + 1)) in Hn by lia.
        rewrite (N.mul_add_distr_r q) in Hn. lia.
      * exists (r :: before), r', after. split; [reflexivity|]. cbn [clusters fold_right]. fold (clusters before).
        assert (Hnq : n * es = q * es + (n - q) * es) by (rewrite <- N.mul_add_distr_r; f_equal; lia).
        rewrite <- !N.add_assoc, !N.mul_add_distr_r in *. lia.
Qed.
Lemma buffer_bytes data o n : buffer data -> buffer (bytes_at data o n).
Proof. apply buffer_part. Qed.
Lemma get_entry_bytes volume cs es runs t n : mft_ready volume cs es runs t -> (n + 1) * es <= clusters runs * cs ->
  get_entry volume t n = mft_entry_read (mft_bytes volume cs es runs n) /\ buffer (mft_bytes volume cs es runs n).
Proof.
  intros R Hn. pose proof (r_es _ _ _ _ _ R) as He. pose proof (r_cs _ _ _ _ _ R) as Hcs.
  destruct (entry_run cs es n Hcs ltac:(lia) runs) as (before & r & after & E & B1 & B2).
  { eapply inside_positive, R. } { apply R. } { exact Hn. }
  destruct (located volume (mt_tree t) cs runs before r after (n * es) es) as (cluster & Er & G & I & C); auto; try apply R; try lia.
  unfold mft_bytes. rewrite C. split; [|apply buffer_bytes, R].
  unfold get_entry. rewrite (r_size _ _ _ _ _ R), (r_cluster _ _ _ _ _ R).
  pose proof (r_limit _ _ _ _ _ R) as Hl. pose proof (r_volume _ _ _ _ _ R) as [_ Hv]. change (2 ^ 64) with two64 in Hv.
  unfold mul_chk at 1. rewrite N.mul_add_distr_r in Hn. destruct (N.ltb_spec (n * es) two64); [|lia]. cbn [bind].
  rewrite G. cbn [bind of_option virtual_cluster_offset cluster_block_number]. unfold sub_chk.
  destruct (N.leb_spec (clusters before * cs) (n * es)); [|lia]. cbn [bind]. unfold mul_chk, add_chk.
  destruct (N.ltb_spec (cluster * cs) two64); [|lia]. cbn [bind].
  destruct (N.ltb_spec (cluster * cs + (n * es - clusters before * cs)) two64); [|lia]. cbn [bind].
  unfold mft_entry_read_at. destruct (N.ltb_spec es 42); [lia|]. destruct (N.ltb_spec 65535 es); [lia|]. cbn [orb negb check bind].
  rewrite read_inside by lia. reflexivity.
Qed.
Lemma get_entry_ok volume cs es runs t n l : mft_ready volume cs es runs t -> entry_has volume cs es runs n l ->
  get_entry volume t n = Ok (entry_value (mft_bytes volume cs es runs n)) /\ buffer (entry_record (mft_bytes volume cs es runs n)).
Proof.
  intros R (H1 & H2 & _). destruct (get_entry_bytes volume cs es runs t n R H1) as [E B]. rewrite E.
  split; [now apply mft_entry_ok|now apply buffer_record].
Qed.
Lemma entry_attributes volume cs es runs t n l pre s : mft_ready volume cs es runs t -> entry_has volume cs es runs n l ->
  collected pre s -> sound (pre ++ l) -> Forall usable l /\
  exists s', ends (fun m => read_attributes m (entry_value (mft_bytes volume cs es runs n)) s) (Ok s') /\ collected (pre ++ l) s'.
Proof.
  intros R H C S. destruct (get_entry_ok volume cs es runs t n l R H) as [_ B]. destruct H as (_ & _ & H).
  apply (attributes_loop _ B _ _ H pre s C S).
Qed.

(** ** Files *)
Lemma list_loop data : buffer data -> forall d entries, attribute_list d entries -> forall o,
  d = skipn (N.to_nat o) data -> ends (fun m => attribute_list_loop m data o) (Ok entries).
Proof.
  intros Hb. induction 1 as [|d entries H1 H2 H3 IH]; intros o E.
  - exists O. intros m _. assert (len data <= o).
    { assert (L := f_equal (@length N) E). rewrite skipn_length in L. cbn [length] in L. unfold len. lia. }
    destruct m; cbn [attribute_list_loop]; (destruct (N.ltb_spec o (len data)); [lia|reflexivity]).
  - assert (Hd : buffer d) by (rewrite E; now apply buffer_skip).
    assert (Hl : len d = len data - o) by (rewrite E; unfold len; rewrite skipn_length; lia).
    destruct (IH (o + al_size (attribute_list_entry_of d))) as [n Hn].
    { rewrite E at 2. rewrite skipn_skipn. f_equal. cbn [al_size attribute_list_entry_of]. lia. }
    exists (S n). intros [|m] Hm; [lia|]. cbn [attribute_list_loop]. destruct (N.ltb_spec o (len data)); [|lia].
    rewrite slice_rest by lia. cbn [bind]. rewrite <- E. rewrite (attribute_list_entry_ok' d Hd I).
    destruct (N.leb_spec 26 (len d)); [|lia]. rewrite Hn by lia. reflexivity.
Qed.
Lemma insert_number_in n l k : In k (insert_number n l) <-> k = n \/ In k l.
Proof.
  induction l as [|m l IH]; cbn [insert_number]; [cbn; intuition congruence|].
  destruct (N.eqb_spec n m) as [->|]; [cbn; intuition congruence|]. destruct (n <? m); cbn [In]; [intuition congruence|].
  rewrite IH. intuition congruence.
Qed.
Lemma insert_number_sorted n l : StronglySorted N.lt l -> StronglySorted N.lt (insert_number n l).
Proof.
  induction 1 as [|m l H IH F]; cbn [insert_number]; [repeat constructor|].
  destruct (N.eqb_spec n m) as [->|]; [now constructor|]. destruct (N.ltb_spec n m).
  - constructor; [now constructor|]. constructor; [assumption|]. eapply Forall_impl; [|exact F]. intros. lia.
  - constructor; [exact IH|]. apply Forall_forall. intros k Hk. apply insert_number_in in Hk as [->|Hk]; [lia|].
    rewrite Forall_forall in F. now apply F.
Qed.
Lemma land_48 x : N.land x 0xffffffffffff = x mod 2 ^ 48.
Proof. change 0xffffffffffff with (N.ones 48). apply N.land_ones. Qed.
Lemma other_entries_in own entries k :
  In k (other_entries own entries) <-> k <> own /\ exists e, In e entries /\ k = al_file_reference e mod 2 ^ 48.
Proof.
  unfold other_entries. induction entries as [|e entries IH]; cbn [fold_right].
  - cbn [In]. split; [tauto|]. intros (_ & e & [] & _).
  - rewrite land_48. destruct (N.eqb_spec (al_file_reference e mod 2 ^ 48) own) as [E|E].
    + rewrite IH. split; intros [H1 (e' & H2 & H3)]; (split; [exact H1|]).
      * exists e'. split; [now right|exact H3].
      * destruct H2 as [<-|H2]; [congruence|]. now exists e'.
    + rewrite insert_number_in, IH. split.
      * intros [->|[H1 (e' & H2 & H3)]]; [split; [exact E|exists e; split; [now left|reflexivity]]|].
        split; [exact H1|]. exists e'. split; [now right|exact H3].
      * intros [H1 (e' & [<-|H2] & H3)]; [now left|]. right. split; [exact H1|]. now exists e'.
Qed.
Lemma other_entries_sorted own entries : StronglySorted N.lt (other_entries own entries).
Proof.
  unfold other_entries. induction entries as [|e entries IH]; cbn [fold_right]; [constructor|].
  destruct (_ =? _); [exact IH|]. now apply insert_number_sorted.
Qed.
Lemma sorted_numbers a : forall b, StronglySorted N.lt a -> StronglySorted N.lt b -> (forall k, In k a <-> In k b) -> a = b.
Proof.
  induction a as [|x a IH]; intros [|y b] Ha Hb H.
  - reflexivity.
  - exfalso. apply (H y). now left.
  - exfalso. apply (H x). now left.
  - apply StronglySorted_inv in Ha as [Ha Fa]. apply StronglySorted_inv in Hb as [Hb Fb]. rewrite Forall_forall in Fa, Fb.
    assert (x = y).
    { destruct (proj1 (H x) (or_introl eq_refl)) as [->|H1]; [reflexivity|].
      destruct (proj2 (H y) (or_introl eq_refl)) as [->|H2]; [reflexivity|]. specialize (Fa _ H2). specialize (Fb _ H1). lia. }
    subst y. f_equal. apply IH; auto. intros k. split; intros Hk.
    + destruct (proj1 (H k) (or_intror Hk)) as [<-|]; [|assumption]. specialize (Fa _ Hk). lia.
    + destruct (proj2 (H k) (or_intror Hk)) as [<-|]; [|assumption]. specialize (Fb _ Hk). lia.
Qed.
Lemma read_others volume cs es runs t : mft_ready volume cs es runs t -> forall numbers others,
  Forall2 (entry_has volume cs es runs) numbers others -> forall pre s, collected pre s -> sound (pre ++ concat others) ->
  Forall usable (concat others) /\
  exists s', ends (fun m => read_other_entries m volume t numbers s) (Ok s') /\ collected (pre ++ concat others) s'.
Proof.
  intros R. induction 1 as [|n l numbers others H _ IH]; intros pre s C S.
  - cbn [concat]. split; [constructor|]. exists s. rewrite app_nil_r. split; [apply ends_now|exact C].
  - cbn [concat] in *. rewrite app_assoc in S.
    destruct (get_entry_ok volume cs es runs t n l R H) as [E _].
    destruct (entry_attributes volume cs es runs t n l pre s R H C (sound_app _ _ S)) as (U & s1 & E1 & C1).
    destruct (IH (pre ++ l) s1 C1 S) as (U' & s' & E' & C'). split; [now apply Forall_app|]. exists s'.
    rewrite app_assoc. split; [|exact C']. cbn [read_other_entries]. rewrite E. cbn [now obind].
    apply (ends_bind _ (fun m s => read_other_entries m volume t numbers s) s1); assumption.
Qed.
Lemma file_entry_ok volume cs es runs t n l de : mft_ready volume cs es runs t -> file volume cs es runs n l ->
  exists s, ends (fun m => file_entry_of m volume t n (entry_value (mft_bytes volume cs es runs n)) de)
      (Ok {| fe_number := n; fe_entry := entry_value (mft_bytes volume cs es runs n); fe_attributes := s;
             fe_directory_entry := de; fe_is_directory := existsb (fun a => equal_names i30 (ma_name a)) l |}) /\
    shows l s /\ get_entry volume t n = Ok (entry_value (mft_bytes volume cs es runs n)) /\ Forall usable l.
Proof.
  intros R F. destruct F as [l H S H20|l a entries numbers others H E Ha Hf Hl Hs Hn Ho S].
  - destruct (entry_attributes volume cs es runs t n l [] no_attributes R H collected_none S) as (U & s & E1 & C).
    destruct (get_entry_ok volume cs es runs t n l R H) as [Eg _].
    exists s. cbn [app] in C. split; [|split; [now apply collected_shows|now split]].
    assert (El : as_list s = None).
    { rewrite (c_list _ _ C). pose proof (c_index _ _ C None 0x20 ltac:(discriminate)) as Hi. destruct index_of as [i|]; [|reflexivity].
      destruct Hi as (a & _ & Hi). exfalso. assert (Ep : pieces None 0x20 l = []).
      { destruct (pieces None 0x20 l) as [|p q] eqn:Ep; [reflexivity|]. exfalso.
        assert (Ip : In p (pieces None 0x20 l)) by (rewrite Ep; now left). apply in_pieces in Ip as (I1 & _ & I2).
        rewrite Forall_forall in H20. now apply (H20 p). }
      rewrite Ep in Hi. destruct Hi. }
    unfold file_entry_of. refine (ends_bind _ (fun m s => _) s _ E1 _). cbn beta. rewrite El. cbn [now obind].
    rewrite <- (c_groups _ _ C). apply ends_now.
  - pose proof (sound_app _ _ S) as Sl.
    destruct (entry_attributes volume cs es runs t n l [] no_attributes R H collected_none Sl) as (U & s & E1 & C).
    destruct (get_entry_ok volume cs es runs t n l R H) as [Eg _].
    cbn [app] in C. destruct (read_others volume cs es runs t R numbers others Ho l s C S) as (U' & s' & E' & C').
    assert (Ul : Forall usable (l ++ concat others)) by now apply Forall_app.
    exists s'. split; [|split; [now apply collected_shows|now split]].
    assert (El : exists i, as_list s = Some i /\ nth_error (as_attributes s) i = Some a).
    { rewrite (c_list _ _ C). pose proof (c_index _ _ C None 0x20 ltac:(discriminate)) as Hi. rewrite E in Hi.
      destruct index_of as [i|]; [|discriminate]. destruct Hi as (a' & Hi & Ea). cbn [assembled] in Ea. subst a'. eauto. }
    destruct El as (i & El1 & El2).
    assert (Ia : In a (pieces None 0x20 l)) by (rewrite E; now left). apply in_pieces in Ia as (Ia & _ & It).
    assert (Ua : usable a) by (rewrite Forall_forall in U; now apply U).
    unfold file_entry_of. refine (ends_bind _ (fun m s => _) s _ E1 _). cbn beta. rewrite El1. 
    refine (ends_bind (fun m => _) (fun m s => _) s' _ _ _); [|rewrite <- (c_groups _ _ C'); apply ends_now].
    rewrite El2. cbn [of_option now obind]. unfold attribute_list_read. rewrite It. cbn [N.eqb Pos.eqb negb].
    unfold ma_is_compressed. change 0xff with (N.ones 8). rewrite N.land_ones. change (2 ^ 8) with 256. rewrite Hf. cbn [N.eqb negb].
    unfold ma_is_resident. rewrite land_one. unfold resident in Ha. rewrite Ha. cbn [negb].
    refine (ends_bind _ (fun m entries => _) entries _ (list_loop _ (proj1 Ua) _ _ Hl 0 eq_refl) _).
    replace (other_entries n entries) with numbers; [exact E'|]. apply sorted_numbers; [exact Hs|apply other_entries_sorted|].
    intros k. now rewrite other_entries_in, Hn.
Qed.

(** ** Indexes *)
Lemma index_runs_ranges cs runs : forall t vcn o t',
  0 < cs -> all_allocated runs -> vcn + clusters runs < two64 -> o + clusters runs * cs < two64 ->
  insert_ranges t (consecutive o (ranges_of cs o runs)) = Ok t' ->
  index_runs cs (map as_data_run runs) t vcn o = Ok (t', vcn + clusters runs, o + clusters runs * cs).
Proof.
  induction runs as [|r runs IH]; intros t vcn o t' Hcs Ha Hv Ho H.
  - injection H as <-. cbn. now rewrite !N.add_0_r.
  - unfold all_allocated in Ha. apply Forall_cons_iff in Ha as [Ha1 Ha]. destruct r as [count cluster|]; [|destruct Ha1].
    cbn [clusters fold_right run_count] in *. fold (clusters runs) in *. rewrite N.mul_add_distr_r in *.
    cbn [ranges_of consecutive insert_ranges run_count] in H. cbn [map index_runs as_data_run number_of_blocks run_kind block_number].
    unfold mul_chk at 1. destruct (N.ltb_spec (count * cs) two64); [|lia]. cbn [bind].
    change {| virtual_cluster_offset := o; cluster_block_number := cluster; range_blocks := count; range_sparse := false |}
      with (range_of o (Allocated count cluster)).
    destruct (bt_insert t o (count * cs) (range_of o (Allocated count cluster))) as [t1 [[]| |]]; try discriminate.
    unfold add_chk. destruct (N.ltb_spec (vcn + count) two64); [|lia]. cbn [bind].
    destruct (N.ltb_spec (o + count * cs) two64); [|lia]. cbn [bind].
    rewrite (IH t1 (vcn + count) (o + count * cs) t'); auto; try lia.
    rewrite !N.add_assoc. reflexivity.
Qed.
Lemma index_groups_ranges cs : forall vcn runs groups,
  grouped vcn runs groups -> forall t t',
  0 < cs -> all_allocated runs -> vcn + clusters runs < two64 -> (vcn + clusters runs) * cs < two64 ->
  insert_ranges t (consecutive (vcn * cs) (ranges_of cs (vcn * cs) runs)) = Ok t' ->
  index_groups cs groups t vcn (vcn * cs) = Ok t'.
Proof.
  induction 1 as [vcn|vcn runs runs' last groups Hl _ IH]; intros t t' Hcs Ha Hv Ho H.
  - exact H.
  - cbn [index_groups first_vcn last_vcn data_runs]. rewrite N.eqb_refl. cbn [check bind].
    unfold all_allocated in Ha. apply Forall_app in Ha as [Ha1 Ha2].
    rewrite clusters_app in *. rewrite ranges_of_app, consecutive_app, insert_ranges_app, total_ranges in H.
    apply bind_Ok_inv in H as (t1 & H1 & H2).
    rewrite (index_runs_ranges cs runs t vcn (vcn * cs) t1); auto; [|lia..]. cbn [bind].
    replace (vcn * cs + clusters runs * cs) with ((vcn + clusters runs) * cs) in * by lia.
    assert (E : (if last =? two64 - 1 then Ok tt
      else last0 <- add_chk two64 last 1 ;; check (last0 =? vcn + clusters runs)) = Ok tt).
    { destruct (N.eqb_spec last (two64 - 1)); [reflexivity|]. destruct Hl as [|Hl]; [contradiction|].
      unfold add_chk. destruct (N.ltb_spec (last + 1) two64); [|lia]. cbn [bind]. rewrite Hl, N.eqb_refl. reflexivity. }
    rewrite E. cbn [bind]. apply IH; auto; [lia|]. rewrite <- N.add_assoc. exact Ho.
Qed.
(** The index of a directory as it is read. *)
Record index_ready (volume : list N) (cs bs : N) (irs : list run) (d : directory_index) : Prop := {
  x_cluster : di_cluster d = cs;
  x_size : irs = [] \/ di_entry_size d = bs;
  x_tree : irs = [] \/ holds (di_tree d) cs irs;
  x_cs : 0 < cs;
  x_allocated : all_allocated irs;
  x_inside : Forall (run_inside volume cs) irs;
  x_limit : clusters irs * cs < two64;
  x_volume : buffer volume }.
Lemma index_initialize_ok volume cs irs a : 0 < cs -> all_allocated irs -> Forall (run_inside volume cs) irs ->
  grouped 0 irs (ma_groups a) -> flag (ma_non_resident a) 0 = true -> ma_flags a mod 256 = 0 ->
  clusters irs * cs <= ma_allocated a -> ma_allocated a < two64 ->
  exists t, index_initialize cs a = Ok t /\ holds t cs irs.
Proof.
  intros Hcs Ha Hin Hg Hn Hf Hl Hs.
  pose proof (inside_positive _ _ _ Hin) as Hp. pose proof (clusters_le cs irs Hcs) as Hc.
  pose proof (N.div_mod (ma_allocated a) cs ltac:(lia)) as Hd. pose proof (N.mod_lt (ma_allocated a) cs ltac:(lia)) as Hm.
  assert (Hq : clusters irs * cs <= ma_allocated a / cs * cs).
  { apply N.mul_le_mono_r. apply N.div_le_lower_bound; [lia|]. now rewrite N.mul_comm. }
  assert (Hq2 : ma_allocated a / cs * cs <= ma_allocated a) by (rewrite N.mul_comm; apply N.mul_div_le; lia).
  destruct (consecutive_tree (ma_allocated a / cs * cs) cs (ranges_of cs 0 irs)) as (t & E & G).
  { lia. } { eapply N.le_lt_trans; eassumption. }
  { apply ranges_sizes; auto. eapply Forall_impl; [|exact Hp]. intros r _. apply N.mod_mul. lia. }
  { rewrite total_ranges. exact Hq. }
  rewrite total_ranges in G. exists t. split; [|exact G].
  unfold index_initialize, ma_is_resident, ma_is_compressed. rewrite land_one, Hn. cbn [negb check bind].
  change 0xff with (N.ones 8). rewrite N.land_ones. change (2 ^ 8) with 256. rewrite Hf. cbn [N.eqb negb check bind].
  unfold div_chk. destruct (N.eqb_spec cs 0); [lia|]. cbn [bind]. unfold mul_chk.
  destruct (N.ltb_spec (ma_allocated a / cs * cs) two64) as [_|Hx]; [|exfalso; apply N.lt_nge in Hs; apply Hs; eapply N.le_trans; eassumption].
  cbn [bind]. replace 0 with (0 * cs) at 3 by lia. apply index_groups_ranges with irs; auto; rewrite ?N.add_0_l; lia.
Qed.
Lemma index_entry_ok volume cs bs irs d vcn block : index_ready volume cs bs irs d -> irs = [] \/ 42 <= bs <= 65535 ->
  index_block volume cs bs irs vcn block -> index_entry_at volume d vcn = Ok block /\ buffer block.
Proof.
  intros R Hbs (before & r & after & E & B1 & B2 & B3).
  set (data := bytes_at (flat_map (run_content volume cs) irs) (vcn * cs) bs) in *. cbn zeta in B3. destruct B3 as (H1 & H2 & H3 & ->).
  assert (Hne : irs <> []) by (rewrite E; destruct before; discriminate).
  destruct Hbs as [|Hbs]; [contradiction|]. destruct (x_size _ _ _ _ _ R) as [|Es]; [contradiction|]. destruct (x_tree _ _ _ _ _ R) as [|Ht]; [contradiction|].
  pose proof (x_cs _ _ _ _ _ R) as Hcs. pose proof (x_limit _ _ _ _ _ R) as Hlim.
  pose proof (x_volume _ _ _ _ _ R) as Hb. pose proof (proj2 Hb) as Hv. change (2 ^ 64) with two64 in Hv.
  assert (B1' : clusters before * cs <= vcn * cs) by (apply N.mul_le_mono_r; exact B1).
  destruct (located volume (di_tree d) cs irs before r after (vcn * cs) bs) as (cluster & Er & G & I & C); auto; try apply R; try lia.
  assert (Bd : buffer data) by (unfold data; rewrite C; now apply buffer_bytes).
  split; [|now apply buffer_record].
  pose proof H3 as (L1 & L2 & L3 & L4 & _).
  assert (Hle : (clusters before + run_count r) * cs <= clusters irs * cs).
  { rewrite E, clusters_app. cbn [clusters fold_right]. apply N.mul_le_mono_r. lia. }
  unfold index_entry_at. rewrite (x_cluster _ _ _ _ _ R), Es. unfold mul_chk at 1.
  destruct (N.ltb_spec (vcn * cs) two64); [|lia]. cbn [bind]. rewrite G.
  cbn [bind of_option virtual_cluster_offset cluster_block_number range_blocks]. unfold sub_chk at 1.
  destruct (N.leb_spec (clusters before * cs) (vcn * cs)); [|lia]. cbn [bind]. unfold mul_chk, add_chk.
  destruct (N.ltb_spec (cluster * cs) two64); [|lia]. cbn [bind].
  destruct (N.ltb_spec (cluster * cs + (vcn * cs - clusters before * cs)) two64); [|lia]. cbn [bind].
  rewrite N.mul_add_distr_r in *.
  destruct (N.ltb_spec (run_count r * cs) two64); [|lia]. cbn [bind]. unfold sub_chk.
  destruct (N.leb_spec (vcn * cs - clusters before * cs) (run_count r * cs)); [|lia]. cbn [bind].
  destruct (N.leb_spec bs (run_count r * cs - (vcn * cs - clusters before * cs))); [|lia]. cbn [check bind].
  unfold index_entry_read_at. destruct (N.ltb_spec bs 42); [lia|]. destruct (N.ltb_spec 65535 bs); [lia|]. cbn [orb negb check bind].
  rewrite read_inside by lia. rewrite <- C. fold data. cbn [bind].
  assert (Hl : 512 <= len data).
  { pose proof (N.div_mod (len data) 512 ltac:(lia)). assert (len data / 512 <> 0) by (intros Ez; rewrite Ez in *; lia). lia. }
  rewrite (index_entry_header_ok' data Bd Logic.I). unfold index_entry_header_ok. rewrite H1.
  destruct (N.leb_spec 24 (len data)); [|lia]. cbn [andb bind]. unfold index_entry_header_of.
  destruct (N.ltb_spec (field data 4 2) 32); [lia|]. destruct (N.ltb_spec (len data) (field data 4 2)); [lia|]. cbn [orb negb check bind].
  rewrite (fixup_record _ _ _ H3). reflexivity.
Qed.

(** ** Nodes *)
Scheme sub_ind := Minimality for sub_items Sort Prop
  with values_ind := Minimality for values_items Sort Prop
  with node_ind := Minimality for node_items Sort Prop.
Combined Scheme items_ind from sub_ind, values_ind, node_ind.

Lemma node_header_ok data o : buffer data -> o + 16 <= len data -> 16 <= field data o 4 -> field data o 4 < field data (o + 4) 4 ->
  field data (o + 4) 4 <= len data -> node_header_read data o = Ok (field data (o + 4) 4, field data o 4).
Proof.
  intros Hb H1 H2 H3 H4. unfold node_header_read. rewrite slice_rest by lia. cbn [bind].
  rewrite (index_node_header_ok' _ (buffer_skip _ _ Hb) I). rewrite len_skip, N2Nat.id. destruct (N.leb_spec 16 (len data - o)); [|lia]. cbn [bind].
  unfold index_node_header_of. rewrite !field_skip. rewrite N.add_0_r.
  destruct (N.leb_spec (field data (o + 4) 4) (len data)); [|lia]. cbn [check bind].
  destruct (N.ltb_spec (field data o 4) 16); [lia|]. destruct (N.leb_spec (field data (o + 4) 4) (field data o 4)); [lia|]. reflexivity.
Qed.
Lemma node_value_ok data o e : buffer data -> value_ok data o e ->
  node_value data o e = Ok (index_value_of (skipn (N.to_nat o) data), o + 16, o + 16 + field data (o + 10) 2,
    field data (o + 8) 2 - 16 - field data (o + 10) 2).
Proof.
  intros Hb (H1 & H2 & H3 & H4 & H5). unfold node_value, node_value_read.
  destruct (N.leb_spec (o + 16) e); [|lia]. cbn [check bind]. rewrite slice_rest by lia. cbn [bind].
  rewrite (index_value_ok' _ (buffer_skip _ _ Hb) I). rewrite len_skip, N2Nat.id. destruct (N.leb_spec 16 (len data - o)); [|lia]. cbn [bind].
  unfold sub_chk at 1. destruct (N.leb_spec o (len data)); [|lia]. cbn [bind].
  unfold index_value_of. cbn [iv_size iv_key_size]. rewrite !field_skip.
  destruct (N.leb_spec (field data (o + 8) 2) (len data - o)); [|lia]. cbn [check bind].
  assert (E : (if 0 <? field data (o + 10) 2 then check (o + 16 + field data (o + 10) 2 <=? e) ;;; Ok (o + 16 + field data (o + 10) 2) else Ok (o + 16))
    = Ok (o + 16 + field data (o + 10) 2)).
  { destruct (N.ltb_spec 0 (field data (o + 10) 2)).
    - destruct (N.leb_spec (o + 16 + field data (o + 10) 2) e); [reflexivity|lia].
    - f_equal. lia. }
  cbn zeta. cbn [iv_size iv_key_size]. rewrite ?field_skip. rewrite E. cbn [bind]. unfold sub_chk. destruct (N.leb_spec 16 (field data (o + 8) 2)); [|lia]. cbn [bind].
  destruct (N.leb_spec (field data (o + 10) 2) (field data (o + 8) 2 - 16)); [|lia]. cbn [bind]. reflexivity.
Qed.
Lemma is_branch_ok data o : is_branch (index_value_of (skipn (N.to_nat o) data)) = has_sub data o.
Proof.
  unfold is_branch, has_sub, index_value_of. cbn [iv_flags]. rewrite field_skip. rewrite land_one, negb_involutive. reflexivity.
Qed.
Lemma is_last_ok data o : is_last (index_value_of (skipn (N.to_nat o) data)) = last_value data o.
Proof.
  unfold is_last, last_value, index_value_of. cbn [iv_flags]. rewrite field_skip.
  change 2 with (2 ^ 1). rewrite land_flag, negb_involutive. reflexivity.
Qed.
Ltac Zify.zify_post_hook ::= Z.div_mod_to_equations.
Lemma next_value_ok after size next x : after + size = x -> next mod 8 = 0 -> x <= next < x + 8 -> next_value after size = next.
Proof.
  intros E Hm Hn. unfold next_value. rewrite E. clear E. destruct (N.ltb_spec 0 (x mod 8)); lia.
Qed.
Ltac Zify.zify_post_hook ::= idtac.
Lemma node_key_ok data o k : buffer data -> o + k <= len data -> file_name_ok (bytes_at data o k) = true ->
  node_key_read data o k = Ok (file_name_of (bytes_at data o k)).
Proof.
  intros Hb H1 H2. unfold node_key_read. rewrite slice_at by lia. replace (o + k - o) with k by lia. cbn [bind].
  rewrite (file_name_ok' _ (buffer_bytes _ _ _ Hb) I). now rewrite H2.
Qed.
Lemma node_branch_ok data o : buffer data -> 24 + field data (o + 10) 2 <= field data (o + 8) 2 -> o + field data (o + 8) 2 <= len data ->
  node_branch_read data (o + 16 + field data (o + 10) 2) (field data (o + 8) 2 - 16 - field data (o + 10) 2) =
  Ok (field data (o + field data (o + 8) 2 - 8) 8).
Proof.
  intros Hb H1 H2. unfold node_branch_read. destruct (N.leb_spec 8 (field data (o + 8) 2 - 16 - field data (o + 10) 2)); [|lia].
  cbn [check bind]. rewrite (u64_at _ Hb) by lia. do 2 f_equal. lia.
Qed.

(** ** Listing *)
Definition item_entry (i : N * file_name) : directory_entry :=
  {| de_reference := fst i; de_name := snd i; de_short := None |}.
Definition name_there (i : N * file_name) : Prop := fn_name_size (snd i) = 1 -> exists c, fn_name (snd i) = [c].
Definition shorts (items : list (N * file_name)) : list (N * file_name) :=
  filter (fun i => negb (is_dot (snd i)) && (fn_name_space (snd i) =? 2)) items.
Definition extended (s : directory_entries) (items : list (N * file_name)) : directory_entries :=
  {| ds_entries := ds_entries s ++ map item_entry (listed items); ds_short := rev (shorts items) ++ ds_short s |}.
Definition unused (s : directory_entries) (items : list (N * file_name)) : Prop :=
  NoDup (map fst (shorts items)) /\ forall k, In k (map fst (shorts items)) -> ~ In k (map fst (ds_short s)).
Lemma extended_app s a b : extended s (a ++ b) = extended (extended s a) b.
Proof.
  unfold extended, listed, shorts. cbn [ds_entries ds_short]. rewrite !filter_app, map_app, rev_app_distr, !app_assoc. reflexivity.
Qed.
Lemma nodup_app {A} (a b : list A) : NoDup (a ++ b) -> NoDup a /\ NoDup b.
Proof.
  induction a as [|x a IH]; cbn [app]; intros H; [split; [constructor|exact H]|].
  apply NoDup_cons_iff in H as [H1 H]. destruct (IH H) as [Ha Hb]. split; [|exact Hb]. constructor; [|exact Ha].
  intros I. apply H1, in_or_app. now left.
Qed.
Lemma unused_app s a b : unused s (a ++ b) -> unused s a /\ unused (extended s a) b.
Proof.
  unfold unused, extended, shorts. cbn [ds_short]. rewrite filter_app, !map_app. intros [H1 H2]. split; split.
  - exact (proj1 (nodup_app _ _ H1)).
  - intros k Hk. apply H2. apply in_or_app. now left.
  - exact (proj2 (nodup_app _ _ H1)).
  - intros k Hk I. rewrite in_app_iff in I. destruct I as [I|I]; [|eapply H2; [|exact I]; apply in_or_app; now right].
    rewrite map_rev in I. apply in_rev in I. clear - H1 Hk I. revert H1 I. generalize (map fst (filter (fun i : N * file_name => negb (is_dot (snd i)) && (fn_name_space (snd i) =? 2)) a)).
    intros l. induction l as [|x l IH]; intros H1 I; [destruct I|]. cbn [app] in H1. apply NoDup_cons_iff in H1 as [H1 H2].
    destruct I as [->|I]; [apply H1, in_or_app; now right|now apply IH].
Qed.
Lemma add_entry_ok s i : name_there i -> unused s [i] -> add_directory_entry s (fst i) (snd i) = Ok (extended s [i]).
Proof.
  destruct i as [ref f]. unfold name_there. cbn [fst snd]. intros Hn [_ Hu]. unfold add_directory_entry.
  assert (Ed : (if fn_name_size f =? 1 then e <- idx (fn_name f) 0 ;; Ok (e =? 0x2e) else Ok false) = Ok (is_dot f)).
  { unfold is_dot. destruct (N.eqb_spec (fn_name_size f) 1) as [E|]; [|reflexivity]. destruct (Hn E) as [c ->].
    change (idx [c] 0) with (Ok c). cbn [bind andb equal_names]. f_equal. destruct (N.eqb_spec c 46) as [->|H]; [now destruct list_eq_dec|].
    destruct list_eq_dec as [E2|_]; [congruence|reflexivity]. }
  rewrite Ed. cbn [bind]. unfold extended, listed, shorts in *. cbn [filter snd] in *. destruct (is_dot f); cbn [negb andb] in *.
  - cbn [map rev app]. rewrite app_nil_r. destruct s; reflexivity.
  - destruct (N.eqb_spec (fn_name_space f) 2); cbn [negb map rev app filter] in *; [|reflexivity].
    rewrite app_nil_r. assert (E : short_of s ref = None).
    { unfold short_of. destruct find as [x|] eqn:F; [|reflexivity]. exfalso. apply find_some in F as [F1 F2]. apply N.eqb_eq in F2.
      apply (Hu ref); [now left|]. apply in_map_iff. now exists x. }
    rewrite E. reflexivity.
Qed.

Section items.
  Context (volume : list N) (cs bs : N) (irs : list run) (d : directory_index).
  Hypothesis R : index_ready volume cs bs irs d.
  Hypothesis Hbs : irs = [] \/ 42 <= bs <= 65535.

  Definition list_sub (m : nat) (data : list N) (o : N) (s : directory_entries) : out directory_entries :=
    if has_sub data o then
      vcn <~ now (node_branch_read data (o + 16 + field data (o + 10) 2) (field data (o + 8) 2 - 16 - field data (o + 10) 2)) ;;
      entry <~ now (index_entry_at volume d vcn) ;;
      '(size, values_offset) <~ now (node_header_read entry 24) ;;
      if size =? 0 then now (Ok s) else list_values m volume d entry (24 + values_offset) (24 + size) s
    else now (Ok s).
  Definition listable (items : list (N * file_name)) (f : nat -> directory_entries -> out directory_entries) : Prop :=
    Forall name_there items -> forall s, unused s items -> ends (fun m => f m s) (Ok (extended s items)).
  Lemma extended_nil s : extended s [] = s.
  Proof. unfold extended. cbn. rewrite app_nil_r. destruct s; reflexivity. Qed.
  Lemma list_step data o e m s : buffer data -> o < e -> value_ok data o e ->
    list_values (S m) volume d data o e s =
    (s <~ list_sub m data o s ;;
     if last_value data o then now (Ok s)
     else f <~ now (node_key_read data (o + 16) (field data (o + 10) 2)) ;;
          s <~ now (add_directory_entry s (field data o 8) f) ;;
          list_values m volume d data (next_value (o + 16 + field data (o + 10) 2) (field data (o + 8) 2 - 16 - field data (o + 10) 2)) e s).
  Proof.
    intros Hb Ho Hv. cbn [list_values]. destruct (N.ltb_spec o e); [|lia]. rewrite (node_value_ok data o e Hb Hv).
    cbn [now obind]. rewrite is_branch_ok, is_last_ok. unfold index_value_of. cbn [iv_key_size iv_file_reference].
    rewrite !field_skip, N.add_0_r. reflexivity.
  Qed.
  Lemma listing :
    (forall data o items, sub_items volume cs bs irs data o items -> buffer data -> o + field data (o + 8) 2 <= len data ->
       listable items (fun m s => list_sub m data o s)) /\
    (forall data e o items, values_items volume cs bs irs data e o items -> buffer data ->
       listable items (fun m s => list_values m volume d data o e s)) /\
    (forall data o items, node_items volume cs bs irs data o items -> buffer data ->
       listable items (fun m s => '(size, values_offset) <~ now (node_header_read data o) ;;
         if size =? 0 then now (Ok s) else list_values m volume d data (o + values_offset) (o + size) s)).
  Proof.
    apply items_ind.
    - intros data o H Hb _ _ s _. unfold list_sub. rewrite H, extended_nil. apply ends_now.
    - intros data o block items H1 H2 H3 _ IH Hb Hl Hn s Hu. unfold list_sub. rewrite H1. rewrite node_branch_ok by assumption.
      destruct (index_entry_ok volume cs bs irs d _ block R Hbs H3) as [E B]. cbn [now obind]. rewrite E. cbn [now obind].
      apply (IH B Hn s Hu).
    - intros data e o items H1 H2 H3 _ IH Hb Hn s Hu.
      eapply ends_S; [intros m; now apply list_step|].
      refine (ends_bind _ (fun m s => _) (extended s items) _ _ _); [apply (IH Hb); [apply H2|exact Hn|exact Hu]|].
      rewrite H3. apply ends_now.
    - intros data e o below next items H1 H2 H3 _ IH1 H4 H5 H6 H7 _ IH2 Hb Hn s Hu.
      apply Forall_app in Hn as [Hn1 Hn]. apply Forall_cons_iff in Hn as [Hn2 Hn3].
      apply unused_app in Hu as [Hu1 Hu]. apply (unused_app _ [_] items) in Hu as [Hu2 Hu3].
      eapply ends_S; [intros m; now apply list_step|].
      refine (ends_bind _ (fun m s => _) (extended s below) _ _ _); [apply (IH1 Hb); [apply H2|exact Hn1|exact Hu1]|].
      rewrite H3. destruct H2 as (V1 & V2 & V3 & V4 & V5). rewrite node_key_ok; [|assumption|lia|assumption]. cbn [now obind].
      set (i := (field data o 8, file_name_of (key_bytes data o))) in *.
      change (field data o 8) with (fst i). change (file_name_of (bytes_at data (o + 16) (field data (o + 10) 2))) with (snd i).
      rewrite add_entry_ok by assumption. cbn [obind].
      rewrite (next_value_ok _ _ next (o + field data (o + 8) 2)) by (assumption || lia).
      replace (extended s (below ++ i :: items)) with (extended (extended (extended s below) [i]) items); [now apply IH2|].
      now rewrite <- !extended_app.
    - intros data o items H1 H2 H3 H4 _ IH Hb Hn s Hu. rewrite node_header_ok by assumption. cbn [now obind].
      destruct (N.eqb_spec (field data (o + 4) 4) 0); [lia|]. now apply IH.
  Qed.

  (** ** Search *)
  Definition go_on (m : nat) (fold : list N -> list N) (data name : list N) (f : directory_entry + bool * N * N)
    : out (option directory_entry) :=
    match f with
    | inl e => now (Ok (Some e))
    | inr (branch, offset, value_size) =>
        if branch then
          vcn <~ now (node_branch_read data offset value_size) ;;
          entry <~ now (index_entry_at volume d vcn) ;;
          search_node m fold volume d entry 24 name
        else now (Ok None)
    end.
  Definition matching (fold : list N -> list N) (name : list N) (items : list (N * file_name)) : option (N * file_name) :=
    find (fun i => equal_names (Some (fold (fn_name (snd i)))) (Some name)) items.
  Lemma matching_none fold name items :
    Forall (fun i => lex_lt (fold (fn_name (snd i))) name \/ lex_lt name (fold (fn_name (snd i)))) items ->
    matching fold name items = None.
  Proof.
    induction 1 as [|i items H _ IH]; [reflexivity|]. unfold matching. cbn [find].
    destruct (equal_names_spec (Some (fold (fn_name (snd i)))) (Some name)) as [E|E]; [|exact IH].
    injection E as E. rewrite E in H. exfalso. destruct H as [H|H]; exact (lex_irrefl _ H).
  Qed.
  Lemma matching_app fold name a b : matching fold name (a ++ b) =
    match matching fold name a with Some i => Some i | None => matching fold name b end.
  Proof.
    unfold matching. induction a as [|i a IH]; [reflexivity|]. cbn [app find]. destruct equal_names; [reflexivity|exact IH].
  Qed.
  Lemma ordered_split fold below i items : ordered fold (below ++ i :: items) ->
    ordered fold below /\ ordered fold items /\
    Forall (fun j => lex_lt (fold (fn_name (snd j))) (fold (fn_name (snd i)))) below /\
    Forall (fun j => lex_lt (fold (fn_name (snd i))) (fold (fn_name (snd j)))) items.
  Proof.
    unfold ordered. induction below as [|j below IH]; intros H; cbn [app] in H.
    - apply StronglySorted_inv in H as [H1 H2]. repeat split; auto. constructor.
    - apply StronglySorted_inv in H as [H1 H2]. destruct (IH H1) as (B1 & B2 & B3 & B4). apply Forall_app in H2 as [H2 H3].
      apply Forall_cons_iff in H3 as [H3 _]. repeat split; auto; constructor; auto.
  Qed.
  Lemma search_step fold data name o e m branch size : buffer data -> o < e -> value_ok data o e ->
    search_values (S m) fold data name o e branch size =
    (let at_ := (has_sub data o, o + 16 + field data (o + 10) 2, field data (o + 8) 2 - 16 - field data (o + 10) 2) in
     if last_value data o then now (Ok (inr at_))
     else if field data (o + 10) 2 =? 0 then now Err
     else f <~ now (node_key_read data (o + 16) (field data (o + 10) 2)) ;;
          let next := next_value (o + 16 + field data (o + 10) 2) (field data (o + 8) 2 - 16 - field data (o + 10) 2) in
          match ucs2_compare (fold (fn_name f)) name with
          | Eq => now (Ok (inl {| de_reference := field data o 8; de_name := f; de_short := None |}))
          | Gt => if has_sub data o then now (Ok (inr at_))
                  else search_values m fold data name next e (has_sub data o) (field data (o + 8) 2 - 16 - field data (o + 10) 2)
          | Lt => search_values m fold data name next e (has_sub data o) (field data (o + 8) 2 - 16 - field data (o + 10) 2)
          end).
  Proof.
    intros Hb Ho Hv. cbn [search_values]. destruct (N.ltb_spec o e); [|lia]. rewrite (node_value_ok data o e Hb Hv).
    cbn [now obind]. rewrite is_branch_ok, is_last_ok. unfold index_value_of. cbn [iv_key_size iv_file_reference].
    rewrite !field_skip, N.add_0_r. reflexivity.
  Qed.
  Lemma searching fold name :
    (forall data o items, sub_items volume cs bs irs data o items -> buffer data -> o + field data (o + 8) 2 <= len data ->
       ordered fold items ->
       ends (fun m => go_on m fold data name
         (inr (has_sub data o, o + 16 + field data (o + 10) 2, field data (o + 8) 2 - 16 - field data (o + 10) 2)))
         (Ok (option_map item_entry (matching fold name items)))) /\
    (forall data e o items, values_items volume cs bs irs data e o items -> buffer data -> ordered fold items ->
       forall branch size, exists f, ends (fun m => search_values m fold data name o e branch size) (Ok f) /\
         ends (fun m => go_on m fold data name f) (Ok (option_map item_entry (matching fold name items)))) /\
    (forall data o items, node_items volume cs bs irs data o items -> buffer data -> ordered fold items ->
       ends (fun m => search_node m fold volume d data o name) (Ok (option_map item_entry (matching fold name items)))).
  Proof.
    apply items_ind.
    - intros data o H Hb _ _. unfold go_on. rewrite H. apply ends_now.
    - intros data o block items H1 H2 H3 _ IH Hb Hl Hs. unfold go_on. rewrite H1. rewrite node_branch_ok by assumption.
      destruct (index_entry_ok volume cs bs irs d _ block R Hbs H3) as [E B]. cbn [now obind]. rewrite E. cbn [now obind].
      apply (IH B Hs).
    - intros data e o items H1 H2 H3 _ IH Hb Hs branch size.
      eexists. split; [|apply (IH Hb); [apply H2|exact Hs]].
      eapply ends_S; [intros m; now apply search_step|]. rewrite H3. apply ends_now.
    - intros data e o below next items H1 H2 H3 Hsub IH1 H4 H5 H6 H7 _ IH2 Hb Hs branch size.
      set (i := (field data o 8, file_name_of (key_bytes data o))) in *.
      destruct (ordered_split fold below i items Hs) as (O1 & O2 & O3 & O4).
      pose proof H2 as (V1 & V2 & V3 & V4 & V5).
      assert (St : forall m, search_values (S m) fold data name o e branch size =
        match ucs2_compare (fold (fn_name (snd i))) name with
        | Eq => now (Ok (inl (item_entry i)))
        | Gt => if has_sub data o then now (Ok (inr (has_sub data o, o + 16 + field data (o + 10) 2, field data (o + 8) 2 - 16 - field data (o + 10) 2)))
                else search_values m fold data name next e (has_sub data o) (field data (o + 8) 2 - 16 - field data (o + 10) 2)
        | Lt => search_values m fold data name next e (has_sub data o) (field data (o + 8) 2 - 16 - field data (o + 10) 2)
        end).
      { intros m. rewrite search_step by assumption. cbn zeta. rewrite H3. destruct (N.eqb_spec (field data (o + 10) 2) 0); [lia|].
        rewrite node_key_ok; [|assumption|lia|assumption]. cbn [now obind].
        rewrite (next_value_ok _ _ next (o + field data (o + 8) 2)) by (assumption || lia). reflexivity. }
      assert (Em : forall w, matching fold name [i] = w -> matching fold name (below ++ i :: items) =
        match matching fold name below with Some j => Some j | None => match w with Some j => Some j | None => matching fold name items end end).
      { intros w <-. rewrite matching_app. destruct (matching fold name below); [reflexivity|]. apply (matching_app fold name [i] items). }
      destruct (ucs2_compare (fold (fn_name (snd i))) name) eqn:C.
      + apply compare_eq in C. exists (inl (item_entry i)). split; [eapply ends_S; [exact St|apply ends_now]|].
        unfold go_on. rewrite (Em (Some i)).
        * rewrite matching_none; [apply ends_now|]. eapply Forall_impl; [|exact O3]. intros j Hj. left. now rewrite <- C.
        * unfold matching. cbn [find]. rewrite C. destruct (equal_names_spec (Some name) (Some name)); congruence.
      + apply compare_lt in C.
        destruct (IH2 Hb O2 (has_sub data o) (field data (o + 8) 2 - 16 - field data (o + 10) 2)) as (f & E1 & E2).
        exists f. split; [eapply ends_S; [exact St|exact E1]|]. rewrite (Em None), (matching_none fold name below); [exact E2| |].
        * eapply Forall_impl; [|exact O3]. intros j Hj. left. exact (lex_trans _ _ _ Hj C).
        * apply matching_none. constructor; [now left|constructor].
      + apply compare_gt in C. destruct (has_sub data o) eqn:Hsb.
        * eexists. split; [eapply ends_S; [exact St|apply ends_now]|].
          replace (matching fold name (below ++ i :: items)) with (matching fold name below); [now apply IH1|].
          rewrite (Em None).
          -- destruct (matching fold name below); [reflexivity|]. rewrite matching_none; [reflexivity|].
             eapply Forall_impl; [|exact O4]. intros j Hj. right. exact (lex_trans _ _ _ C Hj).
          -- apply matching_none. constructor; [now right|constructor].
        * assert (below = []) as -> by (clear - Hsub Hsb; inversion Hsub as [? ? X Y Z|? ? ? ? X]; [reflexivity|rewrite X in Hsb; discriminate]).
          destruct (IH2 Hb O2 false (field data (o + 8) 2 - 16 - field data (o + 10) 2)) as (f & E1 & E2).
          exists f. split; [eapply ends_S; [exact St|exact E1]|]. rewrite (Em None); [exact E2|].
          apply matching_none. constructor; [now right|constructor].
    - intros data o items H1 H2 H3 H4 _ IH Hb Hs. destruct (IH Hb Hs false 0) as (f & E1 & E2).
      eapply ends_S; [|exact (ends_bind _ (fun m f => go_on m fold data name f) f _ E1 E2)].
      intros m. cbn [search_node]. rewrite node_header_ok by assumption. cbn [now obind].
      destruct (N.eqb_spec (field data (o + 4) 4) 0); [lia|]. reflexivity.
  Qed.
End items.
