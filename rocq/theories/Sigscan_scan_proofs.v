(** * Proofs about whole scans *)
From Coq Require Import Lia.
From Verif Require Import Base BaseLemmas Lru_model Lru_proofs Sigscan_model Sigscan_spec Sigscan_proofs.
Open Scope N_scope.
Ltac Zify.zify_post_hook ::= idtac.

Lemma agree_part before b after : agree (before ++ b ++ after) (len before) b.
Proof.
  intros a n H1 H2. rewrite skipn_app, (skipn_all2 before) by (unfold len; lia). cbn [app].
  replace (N.to_nat (len before + a) - length before)%nat with (N.to_nat a) by (unfold len; lia).
  rewrite skipn_app, firstn_app. unfold len in *.
  replace (N.to_nat n - length (skipn (N.to_nat a) b))%nat with 0%nat by (rewrite skipn_length; lia). cbn [firstn]. rewrite app_nil_r. reflexivity.
Qed.
Lemma agree_padded data b z : firstn (length b) data = b -> agree data 0 (b ++ z) \/ (length b < length data)%nat.
Proof.
  intros E. destruct (Nat.lt_ge_cases (length b) (length data)) as [H|H]; [right; exact H|left].
  assert (Eb : b = data) by (rewrite <- E; apply firstn_all2; exact H). subst b. intros a n H1 H2. rewrite N.add_0_l in *. rewrite skipn_app, firstn_app.
  unfold len in *. replace (N.to_nat n - length (skipn (N.to_nat a) data))%nat with 0%nat by (rewrite skipn_length; lia). cbn [firstn]. apply app_nil_r.
Qed.

(** ** Data scanned buffer by buffer *)
Definition start_of (l : list (list N)) : N := len (concat l).
Definition in_buffer (buffers : list (list N)) (data : list N) (o : N) (s : signature) : Prop :=
  exists before b after o', buffers = before ++ b :: after /\ o = start_of before /\ o <= o' /\ o' + len (pattern s) <= o + len b /\ occurs (pattern s) data o'.
Lemma scan_buffers_inv l data all : forall done buffers rest c c', scanner_ok l (sc_scanner c) -> data_size c = len data ->
  all = done ++ buffers -> data = concat all ++ rest -> data_offset c = start_of done ->
  scan_buffers c buffers = Ok c' ->
  reported l data (in_buffer all data) (results c) -> reported l data (in_buffer all data) (results c').
Proof.
  intros done buffers. revert done. induction buffers as [|b buffers IH]; intros done rest c c' S Es Ea Ed Eo E R; cbn [scan_buffers] in E; [injection E as <-; exact R|].
  apply bind_Ok_inv in E. destruct E as (c1 & E1 & E). pose proof (scan_buffer_inv _ _ _ E1) as (I1 & I2 & I3 & _).
  assert (Ed' : data = concat done ++ b ++ (concat buffers ++ rest)) by (rewrite Ed, Ea, concat_app; cbn [concat]; rewrite !app_assoc; reflexivity).
  apply (IH (done ++ [b]) rest c1 c').
  - rewrite I1. exact S.
  - rewrite I2. exact Es.
  - rewrite Ea, <- app_assoc. reflexivity.
  - exact Ed.
  - rewrite I3, Eo. unfold start_of. rewrite concat_app, len_app. cbn [concat]. rewrite app_nil_r. reflexivity.
  - exact E.
  - apply (buffer_report l data _ c b c1 S Es); [|  |exact E1|exact R].
    + rewrite Eo. split; [rewrite Ed'; apply agree_part|right; rewrite Ed', !len_app; unfold start_of; lia].
    + intros s bo Hs Ho Hb. exists done, b, buffers, (data_offset c + bo). split; [exact Ea|]. split; [exact Eo|]. split; [lia|]. split; [unfold size_of in Hb; lia|exact Ho].
Qed.
Lemma scan_buffers_keeps buffers : forall c c' k, scan_buffers c buffers = Ok c' -> hm_get (results c) k <> None -> hm_get (results c') k <> None.
Proof.
  induction buffers as [|b buffers IH]; intros c c' k E H; cbn [scan_buffers] in E; [injection E as <-; exact H|].
  apply bind_Ok_inv in E. destruct E as (c1 & E1 & E). apply (IH _ _ _ E). apply (buffer_keeps _ _ _ _ E1 H).
Qed.
Lemma scan_buffers_app a : forall c c' b, scan_buffers c (a ++ b) = Ok c' -> exists c1, scan_buffers c a = Ok c1 /\ scan_buffers c1 b = Ok c'
  /\ sc_scanner c1 = sc_scanner c /\ data_size c1 = data_size c /\ data_offset c1 = data_offset c + start_of a.
Proof.
  induction a as [|x a IH]; intros c c' b E; cbn [app scan_buffers] in E.
  - exists c. split; [reflexivity|]. split; [exact E|]. split; [reflexivity|]. split; [reflexivity|]. unfold start_of. cbn [concat]. rewrite len_nil. lia.
  - apply bind_Ok_inv in E. destruct E as (c1 & E1 & E). destruct (IH _ _ _ E) as (c2 & A1 & A2 & A3 & A4 & A5). pose proof (scan_buffer_inv _ _ _ E1) as (I1 & I2 & I3 & _).
    exists c2. cbn [scan_buffers]. rewrite E1. cbn [bind]. split; [exact A1|]. split; [exact A2|]. split; [congruence|]. split; [congruence|].
    rewrite A5, I3. unfold start_of. cbn [concat]. rewrite len_app. lia.
Qed.
Lemma scan_buffers_total l data : forall buffers done rest c, scanner_ok l (sc_scanner c) -> sizes_ok l -> data_size c = len data ->
  data = done ++ concat buffers ++ rest -> data_offset c = len done -> len data < two64 -> 2 <= len data ->
  Forall (fun b => len b <> 1) buffers -> (forall s, In s l -> s_type s = BoundToEnd -> s_offset s <= len data) -> exists c', scan_buffers c buffers = Ok c'.
Proof.
  induction buffers as [|b buffers IH]; intros done rest c S Z Es Ed Eo Hov Hd HF F; cbn [scan_buffers]; [eexists; reflexivity|].
  apply Forall_cons_iff in HF. destruct HF as [Hb HF]. cbn [concat] in Ed. rewrite <- app_assoc in Ed.
  assert (Hle : data_offset c + len b <= len data) by (rewrite Ed, Eo, !len_app; lia).
  destruct (buffer_total l data c b S Z Es) as (c1 & E1); [lia|right; exact Hle|exact Hd|exact Hb|exact F|]. rewrite E1. cbn [bind].
  pose proof (scan_buffer_inv _ _ _ E1) as (I1 & I2 & I3 & _).
  apply (IH (done ++ b) rest c1); [rewrite I1; exact S|exact Z|rewrite I2; exact Es|rewrite <- app_assoc; exact Ed|rewrite I3, Eo, len_app; reflexivity|exact Hov|exact Hd|exact HF|exact F].
Qed.
(** the buffers show a signature *)
Definition seen (l : list signature) (data : list N) (buffers : list (list N)) (s : signature) (o : N) : Prop :=
  match s_type s with
  | BoundToStart => exists b after, buffers = b :: after /\ o + len (pattern s) <= len b
  | BoundToEnd => exists before b after, buffers = before ++ b :: after /\ room l (len (concat before)) (len data) /\ o + len (pattern s) <= len (concat before) + len b
  | Unbound => False
  end.
Lemma seen_found l data buffers rest sc c s o : scanner_ok l sc -> data = concat buffers ++ rest ->
  (covers (range_end (header_tree sc)) s (root_of (header_tree sc)) = true \/ s_type s <> BoundToStart) ->
  (covers (range_end (footer_tree sc)) s (root_of (footer_tree sc)) = true \/ s_type s <> BoundToEnd) ->
  scan_buffers (context_new sc (len data)) buffers = Ok c -> In s l -> pattern s <> [] -> present data s o -> seen l data buffers s o ->
  exists s' o', In s' l /\ s_type s' = s_type s /\ present data s' o' /\ hm_get (results c) o' <> None.
Proof.
  intros S Ed C1 C2 E Hs Hne P HS. unfold seen in HS. destruct (s_type s) eqn:Hty.
  - destruct HS as (before & b & after & Eb & Hr & Hsee). destruct C2 as [C2|C2]; [|congruence].
    rewrite Eb in E. apply scan_buffers_app in E. destruct E as (c1 & _ & E & A3 & A4 & A5). cbn [context_new sc_scanner data_size data_offset] in A3, A4, A5. cbn [scan_buffers] in E.
    apply bind_Ok_inv in E. destruct E as (c2 & E1 & E).
    assert (Eo : data_offset c1 = len (concat before)) by (rewrite A5; unfold start_of; lia).
    assert (Ed' : data = concat before ++ b ++ (concat after ++ rest)) by (rewrite Ed, Eb, concat_app; cbn [concat]; rewrite !app_assoc; reflexivity).
    assert (A : agree data (data_offset c1) b) by (rewrite Eo, Ed'; apply agree_part).
    assert (W : window data (data_offset c1) b) by (split; [exact A|right; rewrite Eo, Ed', !len_app; lia]).
    rewrite <- A3 in *. rewrite <- Eo in Hr, Hsee.
    destruct (footer_found l data c1 b c2 s o) as (s' & X1 & X2 & X3 & X4); try assumption.
    { rewrite Eo, Ed', !len_app. lia. }
    pose proof (signature_scan_sound _ _ _ _ _ W X3) as (_ & _ & Y). assert (Bs : bound s') by (unfold bound; congruence). specialize (Y Bs).
    exists s', (place s' (data_offset c1) (len data)). split; [exact X1|]. split; [exact X2|]. split; [exact Y|].
    apply (scan_buffers_keeps _ _ _ _ E). unfold place. rewrite X2. exact X4.
  - destruct HS as (b & after & Eb & Hsee). destruct C1 as [C1|C1]; [|congruence]. rewrite Eb in E. cbn [scan_buffers] in E. apply bind_Ok_inv in E. destruct E as (c2 & E1 & E).
    assert (Ed' : data = [] ++ b ++ (concat after ++ rest)) by (rewrite Ed, Eb; cbn [concat app]; rewrite !app_assoc; reflexivity).
    assert (A : agree data 0 b) by (rewrite Ed'; apply (agree_part [])).
    assert (W : window data 0 b) by (split; [exact A|left; reflexivity]).
    destruct (header_found l data (context_new sc (len data)) b c2 s o) as (s' & X1 & X2 & X3 & X4); try assumption; try reflexivity.
    pose proof (signature_scan_sound _ _ _ _ _ W X3) as (_ & _ & Y). assert (Bs : bound s') by (unfold bound; congruence). specialize (Y Bs).
    exists s', (place s' 0 (len data)). split; [exact X1|]. split; [exact X2|]. split; [exact Y|].
    apply (scan_buffers_keeps _ _ _ _ E). unfold place. rewrite X2. exact X4.
  - destruct HS.
Qed.

(** ** A single signature that may stand anywhere *)
Definition singles (s : signature) (g : list (N * byte_groups)) : Prop := forall o x, In (o, x) g -> exists b, x = [(b, [s])].
Lemma offset_insert_last g o b s : (forall o' x, In (o', x) g -> o' < o) -> offset_insert g o b s = g ++ [(o, [(b, [s])])].
Proof.
  induction g as [|[o' x] g IH]; intros H; cbn [offset_insert app]; [reflexivity|]. pose proof (H o' x (or_introl eq_refl)).
  destruct (N.eqb_spec o o'); [lia|]. destruct (N.ltb_spec o o'); [lia|]. rewrite IH; [reflexivity|]. intros o2 x2 H2. apply (H o2 x2). right. exact H2.
Qed.
Lemma table_bytes_single s bytes : forall o t, singles s (t_groups t) -> (forall o' x, In (o', x) (t_groups t) -> o' < o) ->
  singles s (t_groups (table_bytes [] o bytes s t)) /\ t_signatures (table_bytes [] o bytes s t) = t_signatures t.
Proof.
  induction bytes as [|b bytes IH]; intros o t S H; cbn [table_bytes existsb]; [auto|].
  destruct (IH (o + 1) (table_insert t o b s)) as (I1 & I2).
  - cbn [table_insert t_groups]. rewrite offset_insert_last by exact H. intros o' x Hx. apply in_app_iff in Hx. destruct Hx as [Hx|[[= <- <-]|[]]]; [apply (S _ _ Hx)|exists b; reflexivity].
  - cbn [table_insert t_groups]. rewrite offset_insert_last by exact H. intros o' x Hx. apply in_app_iff in Hx. destruct Hx as [Hx|[[= <- <-]|[]]]; [specialize (H _ _ Hx); lia|lia].
  - split; [exact I1|]. rewrite I2. reflexivity.
Qed.
Lemma single_objects fuel s ignore largest t p objects : singles s (t_groups t) -> t_signatures t = [s] -> node_build fuel t ignore largest = Ok (p, objects) ->
  forall k o, In (k, o) objects -> o = OSignature s.
Proof.
  intros S Es E k x Hx. destruct fuel as [|fuel]; [discriminate|]. cbn [node_build] in E. apply bind_Ok_inv in E. destruct E as (o & _ & E).
  apply bind_Ok_inv in E. destruct E as (objs & E1 & E). apply bind_Ok_inv in E. destruct E as (rest & E2 & E). injection E as <- <-.
  apply in_app_iff in Hx. destruct Hx as [Hx|Hx].
  - assert (G : groups_at t o = [] \/ exists b, groups_at t o = [(b, [s])]).
    { unfold groups_at. clear - S. induction (t_groups t) as [|[o' g] r IH]; cbn [offset_get]; [left; reflexivity|].
      destruct (o =? o'); [right; apply (S o' g); left; reflexivity|]. apply IH. intros o2 x2 H2. apply (S o2 x2). right. exact H2. }
    destruct G as [G|(b & G)]; rewrite G in E1; cbn in E1; injection E1 as <-; [destruct Hx|]. destruct Hx as [[= <- <-]|[]]. reflexivity.
  - rewrite Es in E2. cbn [filter] in E2. destruct (negb (contains (signatures_at t o) s)); injection E2 as <-; [|destruct Hx]. destruct Hx as [[= <- <-]|[]]. reflexivity.
Qed.
Lemma skip_fold bytes : forall k (values : list (N * N)) least, (forall b x, hm_get values b = Some x -> k <= x) -> (length bytes <= N.to_nat k)%nat ->
  let '(_, values', least') := fold_left skip_step bytes (k, values, least) in
  (forall b x, hm_get values' b = Some x -> x < k \/ hm_get values b = Some x)
  /\ (forall b x, hm_get values b = Some x -> exists y, hm_get values' b = Some y /\ y <= x)
  /\ (forall j b, nth_error bytes j = Some b -> exists y, hm_get values' b = Some y /\ y <= k - 1 - N.of_nat j)
  /\ least' <= least /\ (2 <= k -> (N.to_nat k - 1 <= length bytes)%nat -> least' <= 1).
Proof.
  induction bytes as [|b bytes IH]; intros k values least HV HL; cbn [fold_left].
  - split; [auto|]. split; [intros b x H; exists x; split; [exact H|lia]|]. split; [intros [|j] b; discriminate|]. split; [lia|]. cbn [length]. lia.
  - cbn [length] in HL.
    assert (Hins : match hm_get values b with Some v => k - 1 <? v | None => true end = true).
    { destruct (hm_get values b) as [v|] eqn:Ev; [|reflexivity]. specialize (HV _ _ Ev). apply N.ltb_lt. lia. }
    unfold skip_step at 2. cbv zeta. rewrite Hins. cbn [andb].
    set (least2 := if 0 <? k - 1 then N.min (k - 1) least else least).
    assert (HV2 : forall b' x, hm_get (hm_insert values b (k - 1)) b' = Some x -> k - 1 <= x).
    { intros b' x. rewrite hm_get_insert. destruct (b' =? b); [intros [= <-]; lia|intros H; specialize (HV _ _ H); lia]. }
    specialize (IH (k - 1) (hm_insert values b (k - 1)) least2 HV2 ltac:(lia)).
    unfold hmap in *. match type of IH with context [fold_left ?f bytes ?z] => destruct (fold_left f bytes z) as [[k' values'] least'] end. destruct IH as (I1 & I2 & I3 & I4 & I5).
    assert (HB : exists y, hm_get values' b = Some y /\ y <= k - 1) by (apply I2; rewrite hm_get_insert, N.eqb_refl; reflexivity).
    split; [|split; [|split; [|split]]].
    + intros b' x H. destruct (I1 _ _ H) as [Hlt|H2]; [left; lia|]. rewrite hm_get_insert in H2. destruct (b' =? b); [injection H2 as <-; left; lia|right; exact H2].
    + intros b' x H. destruct (N.eq_dec b' b) as [->|Hn].
      * destruct HB as (y & Hy & Hyle). exists y. split; [exact Hy|]. specialize (HV _ _ H). lia.
      * apply I2. rewrite hm_get_insert. destruct (N.eqb_spec b' b); [contradiction|exact H].
    + intros [|j] b' Hj; cbn [nth_error] in Hj.
      * injection Hj as <-. destruct HB as (y & Hy & Hyle). exists y. split; [exact Hy|lia].
      * destruct (I3 _ _ Hj) as (y & Hy & Hyle). exists y. split; [exact Hy|lia].
    + assert (least2 <= least) by (unfold least2; destruct (0 <? k - 1); lia). lia.
    + intros Hk Hlen. cbn [length] in Hlen. destruct (N.le_gt_cases 2 (k - 1)) as [H|H]; [apply I5; lia|].
      assert (least2 <= 1) by (unfold least2; destruct (N.ltb_spec 0 (k - 1)); lia). lia.
Qed.
Lemma skip_single s : 2 <= size_of s -> exists t, skip_of [s] = Ok t /\ smallest_pattern_size t = size_of s /\ smallest_skip_value t = 1
  /\ (forall b, skip_value t b < size_of s)
  /\ (forall j b, nth_error (pattern s) j = Some b -> skip_value t b <= size_of s - 1 - N.of_nat j).
Proof.
  intros H. unfold skip_of. change (smallest_size [s]) with (size_of s). cbn [skip_fill]. rewrite slice_ok by (unfold size_of; lia). cbn [bind]. rewrite N.sub_0_r. cbn [N.to_nat skipn].
  rewrite firstn_all2 by (unfold size_of, len; lia).
  assert (P : 0 < snd (skip_bytes (size_of s) (pattern s) [] (size_of s))) by (apply skip_bytes_least; lia).
  unfold skip_bytes in *. pose proof (skip_fold (pattern s) (size_of s) (@nil (N * N)) (size_of s) ltac:(intros b x; discriminate) ltac:(unfold size_of, len; lia)) as X.
  destruct (fold_left skip_step (pattern s) (size_of s, [], size_of s)) as [[k v] least]. destruct X as (X1 & _ & X3 & _ & X5). cbn [snd] in P. eexists. split; [reflexivity|]. cbn [smallest_pattern_size smallest_skip_value].
  split; [reflexivity|]. split; [specialize (X5 H ltac:(unfold size_of, len; lia)); lia|]. unfold skip_value. cbn [skip_values]. split.
  - intros b. destruct (hm_get v b) as [x|] eqn:Ex; [|lia]. destruct (X1 _ _ Ex) as [Hx|Hx]; [exact Hx|discriminate].
  - intros j b Hj. destruct (X3 _ _ Hj) as (y & -> & Hy). exact Hy.
Qed.
Lemma skip_loop_value t b bo o fuel v : st_type t = Unbound -> 0 < smallest_skip_value (skips t) -> skip_loop fuel t b bo o = Ok v ->
  exists x, nth_error b (N.to_nat o) = Some x /\ v = if skip_value (skips t) x =? 0 then smallest_skip_value (skips t) else skip_value (skips t) x.
Proof.
  intros Ht Hs E. destruct fuel as [|fuel]; [discriminate|]. cbn [skip_loop] in E. apply bind_Ok_inv in E. destruct E as (x & Ex & E). unfold idx in Ex.
  destruct (nth_error b (N.to_nat o)) as [y|]; [|discriminate]. injection Ex as ->. rewrite Ht in E. apply bind_Ok_inv in E. destruct E as (o2 & _ & E). exists x. split; [reflexivity|].
  set (w := if skip_value (skips t) x =? 0 then smallest_skip_value (skips t) else skip_value (skips t) x) in *.
  assert (Hw : w <> 0) by (unfold w; destruct (N.eqb_spec (skip_value (skips t) x) 0); lia).
  destruct (N.eqb_spec w 0); [contradiction|]. cbn [negb] in E. rewrite Bool.orb_true_r in E. injection E as <-. reflexivity.
Qed.
Lemma node_scan_only s n o size b bo : (forall k x, In (k, x) (snd n) -> x = OSignature s) -> forall r, node_scan n o size b bo (len b) = Ok r -> r = RNone \/ r = RSignature s.
Proof.
  intros H r E. apply node_scan_cases in E. destruct r as [|n'|s']; [left; reflexivity| |].
  - destruct E as (k & E). specialize (H _ _ E). discriminate.
  - destruct E as (k & E & _). specialize (H _ _ E). injection H as ->. right. reflexivity.
Qed.
Lemma tree_scan_single s L t o size b fuel : s_type s = Unbound -> st_type t = Unbound -> 2 <= size_of s ->
  (forall k x, In (k, x) (snd (root t)) -> x = OSignature s) -> covers L s (root_of t) = true -> skip_of [s] = Ok (skips t) -> o + len b <= size ->
  forall bo r r' i, tree_scan fuel t o size b (root t) bo r = Ok r' -> bo <= i -> occurs (pattern s) b i -> hm_get r' o <> None.
Proof.
  intros Hty Ht Hsz HO HC HK Hsize. destruct (skip_single s Hsz) as (k & K0 & K1 & K2 & K3 & K4). rewrite HK in K0. injection K0 as <-.
  assert (HM : forall i, occurs (pattern s) b i -> signature_scan s o size b i (len b) = Ok true).
  { intros i Hi. destruct (occurs_inv _ _ _ Hi) as (O1 & O2). unfold signature_scan. rewrite Hty. cbn [bind]. rewrite N.ltb_irrefl.
    fold (size_of s) in O1. destruct (N.ltb_spec (len b) (i + size_of s)); [lia|]. destruct (N.ltb_spec size (i + size_of s)); [lia|]. cbn [orb].
    rewrite slice_ok by lia. cbn [bind]. replace (i + size_of s - i) with (size_of s) by lia. replace (N.to_nat (size_of s)) with (length (pattern s)) by (unfold size_of, len; lia).
    rewrite O2. rewrite (proj2 (bytes_eq_iff _ _) eq_refl). reflexivity. }
  induction fuel as [|fuel IH]; intros bo r r' i E Hi Ho; [discriminate|]. cbn [tree_scan] in E.
  destruct (occurs_inv _ _ _ Ho) as (O1 & O2). fold (size_of s) in O1.
  destruct (N.ltb_spec bo (len b)) as [Hbo|Hbo]; [|lia]. apply bind_Ok_inv in E. destruct E as (x & Ex & E).
  pose proof (node_scan_only s (root t) o size b bo HO x Ex) as [-> | ->].
  - assert (Hne : bo <> i).
    { intros ->. assert (X : match RNone with RNone => False | RNode n => covers L s (node_object n) = true | RSignature _ => True end); [|exact X].
      apply (node_scan_covers L s (root t) o size b i RNone HC (HM i Ho)); [lia| |exact Ex].
      intros p y Hy. unfold byte_of, base_of in Hy. rewrite Hty in Hy. cbn in Hy. replace (p <? 0) with false in Hy by (symmetry; apply N.ltb_ge; lia). rewrite N.sub_0_r in Hy.
      assert (Hp : p < size_of s) by (assert (Y : nth_error (pattern s) (N.to_nat p) <> None) by congruence; apply nth_error_Some in Y; unfold size_of, len; lia).
      split; [|lia]. rewrite <- O2 in Hy.
      assert (Z : forall (l : list N) n j y, nth_error (firstn n l) j = Some y -> nth_error l j = Some y).
      { clear. induction l as [|a l IH]; intros [|n] [|j] y; cbn; try discriminate; auto. apply IH. }
      apply Z in Hy. rewrite nth_error_skipn_at in Hy. rewrite <- Hy. f_equal. lia. }
    apply bind_Ok_inv in E. destruct E as (y & Ey & E). rewrite K1 in Ey. unfold sub_chk in Ey. rewrite N.min_r in Ey by lia. destruct (N.leb_spec 1 (bo + size_of s)); [|lia]. injection Ey as <-.
    apply bind_Ok_inv in E. destruct E as (v & Ev & E). rewrite Ht in E.
    apply skip_loop_value in Ev; [|exact Ht|lia]. destruct Ev as (z & Ez & Hv). rewrite N.min_l in Ez by lia.
    apply (IH _ _ _ i E); [|exact Ho].
    destruct (N.le_gt_cases (bo + v) i) as [Hle|Hgt]; [exact Hle|exfalso].
    rewrite K2 in Hv. pose proof (K3 z) as Hk3. destruct (N.eqb_spec (skip_value (skips t) z) 0) as [Hz|Hz]; [lia|].
    set (j := N.to_nat (bo + size_of s - 1 - i)).
    assert (Hj : nth_error (pattern s) j = Some z).
    { rewrite <- O2. assert (Z : forall (l : list N) n j, (j < n)%nat -> nth_error (firstn n l) j = nth_error l j).
      { clear. induction l as [|a l IH]; intros [|n] [|j] H; cbn; try reflexivity; try lia. apply IH. lia. }
      rewrite Z by (unfold j, size_of, len; unfold size_of, len in *; lia). rewrite nth_error_skipn_at. rewrite <- Ez. f_equal. unfold j. lia. }
    specialize (K4 j z Hj). unfold j in K4. lia.
  - rewrite Hty in E. cbn [bind] in E. rewrite Ht in E. apply (tree_scan_keeps _ _ _ _ _ _ _ _ _ _ E). rewrite hm_get_insert, N.eqb_refl. discriminate.
Qed.
Lemma single_found fuel s sc c b c' i : s_type s = Unbound -> 2 <= len (pattern s) -> scanner_build fuel [s] = Ok sc -> sc_scanner c = sc ->
  data_offset c + len b <= data_size c -> scan_buffer c b = Ok c' -> occurs (pattern s) b i -> hm_get (results c') (data_offset c) <> None.
Proof.
  intros Hty Hsz B Ec Hd E Ho. pose proof (scanner_build_ok _ _ _ B) as (_ & _ & T). unfold scanner_build in B.
  apply bind_Ok_inv in B. destruct B as (h & _ & B). apply bind_Ok_inv in B. destruct B as (f & _ & B). apply bind_Ok_inv in B. destruct B as (u & B & B2). injection B2 as <-.
  cbn [unbound_tree] in T. apply scan_buffer_inv in E. rewrite Ec in E. cbn [unbound_tree] in E.
  destruct (occurs_inv _ _ _ Ho) as (O1 & _).
  destruct E as (_ & _ & _ & [[-> _]|(_ & r1 & r2 & _ & _ & E)]); [rewrite len_nil in O1; lia|].
  pose proof (tr_range _ _ _ T s (or_introl eq_refl) Hty) as HR. unfold size_of in HR. destruct (N.ltb_spec 0 (range_end u)) in E; [|lia].
  unfold scan_with_tree in E. refine (tree_scan_single s (range_end u) u _ _ b _ Hty (tr_type _ _ _ T) Hsz _ _ _ Hd _ _ _ i E _ Ho); [| | |lia].
  - unfold tree_build in B. apply bind_Ok_inv in B. destruct B as ([e n] & E1 & B). destruct (N.ltb_spec 0 n) as [Hn|Hn].
    + apply bind_Ok_inv in B. destruct B as (tb & X1 & B). apply bind_Ok_inv in B. destruct B as ([p objects] & X2 & B). apply bind_Ok_inv in B. destruct B as (k & X3 & B). injection B as <-. cbn [root snd].
      cbn [table_fill] in X1. rewrite Hty in X1. cbn [table_new t_type type_eq negb table_offset bind] in X1. injection X1 as X1.
      apply (single_objects fuel s [] e tb p objects); [| |exact X2].
      * rewrite <- X1. apply table_bytes_single; [intros o x []|intros o x []].
      * rewrite <- X1. match goal with |- t_signatures (table_bytes _ ?o ?p _ ?t) = _ => destruct (table_bytes_single s p o t) as (_ & ->); [intros ? ? []|intros ? ? []|reflexivity] end.
    + injection B as <-. cbn [root snd]. intros k x [].
  - apply (tr_covers _ _ _ T); [|left; reflexivity|exact Hty]. intros a b' [<-|[]] [<-|[]] _ _. reflexivity.
  - apply (tr_skips _ _ _ T). exists s. split; [left; reflexivity|exact Hty].
Qed.

(** ** The format scanner *)
Lemma len_vec_read n content o : len (vec_read n 0 content o) = n.
Proof.
  unfold vec_read. cbn [N.to_nat repeat app]. rewrite N.sub_0_r. rewrite len_app. unfold len. rewrite repeat_length, firstn_length, skipn_length. lia.
Qed.
Lemma vec_read_agree n content o : o = 0 \/ o + n <= len content -> agree content o (vec_read n 0 content o).
Proof.
  intros H. unfold vec_read. cbn [N.to_nat repeat app]. rewrite N.sub_0_r. set (d := firstn (N.to_nat n) (skipn (N.to_nat o) content)).
  destruct (N.le_gt_cases (o + n) (len content)) as [Hle|Hgt].
  - assert (Hd : len d = n) by (unfold d, len in *; rewrite firstn_length, skipn_length; lia). rewrite Hd, N.sub_diag. cbn [N.to_nat repeat]. rewrite app_nil_r.
    assert (Ec : content = firstn (N.to_nat o) content ++ d ++ skipn (N.to_nat n) (skipn (N.to_nat o) content)) by (unfold d; rewrite firstn_skipn, firstn_skipn; reflexivity).
    assert (Eo : o = len (firstn (N.to_nat o) content)) by (unfold len in *; rewrite firstn_length; lia).
    pose proof (agree_part (firstn (N.to_nat o) content) d (skipn (N.to_nat n) (skipn (N.to_nat o) content))) as X. rewrite <- Ec, <- Eo in X. exact X.
  - destruct H as [->|H]; [|lia]. cbn [N.to_nat skipn] in d. destruct (agree_padded content d (repeat 0 (N.to_nat (n - len d)))) as [X|X].
    + unfold d. rewrite firstn_length. rewrite Nat.min_r by (unfold len in *; lia). rewrite firstn_all, firstn_all2 by (unfold len in *; lia). reflexivity.
    + exact X.
    + unfold d in X. rewrite firstn_length in X. unfold len in *. lia.
Qed.
Lemma range_not_one l ty t : tree_ok ty l t -> sizes_ok l -> range_end t = 0 \/ 2 <= range_end t.
Proof.
  intros T Z. destruct (type_dec ty l) as [(s & Hs & Hty)|X]; [right; pose proof (tr_range _ _ _ T s Hs Hty); specialize (Z s Hs); unfold size_of in *; lia|left; apply (tr_empty _ _ _ T X)].
Qed.
Definition no_place (_ : N) (_ : signature) : Prop := False.
Lemma stream_scan l sc content : scanner_ok l sc -> sizes_ok l -> Forall bound l -> header_range_size sc < two64 -> footer_range_size sc < len content -> 2 <= len content -> len content < two64 ->
  exists r, scan_data_stream sc content = Ok r /\ reported l content no_place r
  /\ forall s o, In s l -> present content s o ->
       (match s_type s with BoundToEnd => covers (footer_range_size sc) s (root_of (footer_tree sc)) | _ => covers (header_range_size sc) s (root_of (header_tree sc)) end = true) ->
       exists s' o', In s' l /\ s_type s' = s_type s /\ present content s' o' /\ hm_get r o' <> None.
Proof.
  intros S Z B HH Hf H2 Hov. pose proof S as (T1 & T2 & T3). unfold scan_data_stream.
  assert (F : forall s, In s l -> s_type s = BoundToEnd -> s_offset s <= len content).
  { intros s Hs Hty. pose proof (tr_range _ _ _ T2 s Hs Hty). unfold footer_range_size in Hf. lia. }
  set (b1 := vec_read (header_range_size sc) 0 content 0). assert (L1 : len b1 = header_range_size sc) by apply len_vec_read.
  assert (W1 : window content 0 b1) by (split; [apply vec_read_agree; left; reflexivity|left; reflexivity]).
  destruct (buffer_total l content (context_new sc (len content)) b1) as (c1 & E1); try assumption; try reflexivity.
  { cbn [context_new data_offset]. lia. } { left. reflexivity. } { rewrite L1. unfold header_range_size. destruct (range_not_one _ _ _ T1 Z); lia. }
  rewrite E1. cbn [bind]. destruct (N.ltb_spec (footer_range_size sc) (len content)) as [Hx|Hx]; [|lia].
  pose proof (scan_buffer_inv _ _ _ E1) as (I1 & I2 & I3 & _). cbn [context_new sc_scanner data_size data_offset] in I1, I2, I3.
  set (o := len content - footer_range_size sc). set (b2 := vec_read (footer_range_size sc) 0 content o).
  assert (L2 : len b2 = footer_range_size sc) by apply len_vec_read.
  set (c := {| sc_scanner := sc; data_offset := o; data_size := len content; results := results c1 |}).
  assert (W2 : window content o b2) by (split; [apply vec_read_agree; right; unfold o; lia|right; rewrite L2; unfold o; lia]).
  destruct (buffer_total l content c b2) as (c2 & E2); try assumption; try reflexivity.
  { cbn [c data_offset]. rewrite L2. unfold o. lia. } { right. cbn [c data_offset]. rewrite L2. unfold o. lia. } { rewrite L2. unfold footer_range_size. destruct (range_not_one _ _ _ T2 Z); lia. }
  rewrite E2. cbn [bind]. exists (results c2). split; [reflexivity|].
  (* all the signatures in the trees are bound *)
  assert (RB : forall c b c' (W : window content (data_offset c) b), sc_scanner c = sc -> data_size c = len content -> scan_buffer c b = Ok c' -> reported l content no_place (results c) -> reported l content no_place (results c')).
  { intros c0 b c0' W Ec Es E R k s Hk.
    assert (X : reported l content (fun _ _ => True) (results c0')).
    { apply (buffer_report l content (fun _ _ => True) c0 b c0'); [rewrite Ec; exact S|exact Es|exact W|intros; exact I|exact E|]. intros k' s' H'. destruct (R k' s' H') as (A1 & A2). split; [exact A1|]. destruct (s_type s'); [exact A2|exact A2|exact I]. }
    destruct (X k s Hk) as (A1 & A2). split; [exact A1|]. rewrite Forall_forall in B. specialize (B s A1). unfold bound in B. destruct (s_type s); [exact A2|exact A2|congruence]. }
  assert (R1 : reported l content no_place (results c1)) by (apply (RB (context_new sc (len content)) b1 c1); [exact W1|reflexivity|reflexivity|exact E1|intros k s []]).
  split; [apply (RB c b2 c2); [exact W2|reflexivity|reflexivity|exact E2|exact R1]|].
  intros s k Hs P HC. rewrite Forall_forall in B. pose proof (B s Hs) as Bs. specialize (Z s Hs). assert (Hne : pattern s <> []) by (destruct (pattern s); [rewrite len_nil in Z; lia|discriminate]).
  pose proof P as [P1 P2]. destruct (occurs_inv _ _ _ P2) as (O1 & _). destruct (s_type s) eqn:Hty; [| |unfold bound in Bs; congruence].
  - pose proof (tr_range _ _ _ T2 s Hs Hty) as HR. fold (footer_range_size sc) in HR.
    assert (Hroom : room l o (len content)).
    { intros x Hx' Hxt. pose proof (tr_range _ _ _ T2 x Hx' Hxt) as HX. fold (footer_range_size sc) in HX. unfold size_of in HX. unfold o. lia. }
    destruct (footer_found l content c b2 c2 s k S HC eq_refl (proj1 W2) Hroom ltac:(cbn [c data_offset]; unfold o; lia) Hs Hty Hne P ltac:(cbn [c data_offset]; rewrite L2; unfold o, size_of; lia) E2) as (s' & X1 & X2 & X3 & X4).
    pose proof (signature_scan_sound _ _ _ _ _ W2 X3) as (_ & _ & Y). assert (Bs' : bound s') by (unfold bound; congruence). specialize (Y Bs').
    exists s', (place s' o (len content)). split; [exact X1|]. split; [exact X2|]. split; [exact Y|]. unfold place. rewrite X2. exact X4.
  - pose proof (tr_range _ _ _ T1 s Hs Hty) as HR. fold (header_range_size sc) in HR.
    destruct (header_found l content (context_new sc (len content)) b1 c1 s k S HC eq_refl eq_refl (proj1 W1) Hs Hty Hne P ltac:(rewrite L1, P1; exact HR) E1) as (s' & X1 & X2 & X3 & X4).
    pose proof (signature_scan_sound _ _ _ _ _ W1 X3) as (_ & _ & Y). assert (Bs' : bound s') by (unfold bound; congruence). specialize (Y Bs').
    exists s', (place s' 0 (len content)). split; [exact X1|]. split; [exact X2|]. split; [exact Y|]. unfold place. rewrite X2. apply (buffer_keeps _ _ _ _ E2). exact X4.
Qed.
(** what is checked of the scanners that are shipped *)
Definition late (s : signature) : bool := existsb (fun p => bytes_eq (pattern s) (snd p) && negb (s_offset s =? fst p)) 
  [(512, [0x45; 0x46; 0x49; 0x20; 0x50; 0x41; 0x52; 0x54]); (510, [0x55; 0xaa])].
Definition shipped_check (l : list signature) : bool :=
  match scanner_build 100 l with
  | Ok sc => (header_range_size sc <? two64) && (footer_range_size sc <=? 520)
             && forallb (fun s => (2 <=? len (pattern s)) && negb (type_eq (s_type s) Unbound) &&
                  (late s || match s_type s with BoundToEnd => covers (footer_range_size sc) s (root_of (footer_tree sc)) | _ => covers (header_range_size sc) s (root_of (header_tree sc)) end)) l
  | _ => false
  end.
Lemma shipped_checked : forallb shipped_check shipped = true.
Proof. vm_compute. reflexivity. Qed.
