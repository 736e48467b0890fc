(** * Reading files of the Windows overlay filter *)
From Verif Require Import Base BaseLemmas Streams_model Streams_spec Streams_proofs BlockTree_model Blocks_model Blocks_proofs
  Lru_model Udif_proofs NtfsCompressed_model Lzx_spec Lzx_model Wof_model Wof_spec.
From Verif Require P_C55 Ntfs_proofs.
Ltac Zify.zify_post_hook ::= idtac.

Definition total_chunks (l : list (list N * list N)) : N := len (flat_map fst l).
Definition total_stored (l : list (list N * list N)) : N := len (flat_map snd l).
Lemma bytes_at_mid (a b c : list N) o n : o + n <= len b -> bytes_at (a ++ b ++ c) (len a + o) n = bytes_at b o n.
Proof.
  intros H. unfold bytes_at, len in *.
  rewrite skipn_app, skipn_all2 by lia. cbn [app].
  replace (N.to_nat (N.of_nat (length a) + o) - length a)%nat with (N.to_nat o) by lia.
  rewrite skipn_app, firstn_app. rewrite skipn_length.
  replace (N.to_nat n - (length b - N.to_nat o))%nat with 0%nat by lia. cbn [firstn]. now rewrite app_nil_r.
Qed.
Lemma bytes_at_all (b : list N) : bytes_at b 0 (len b) = b.
Proof. unfold bytes_at, len. cbn [N.to_nat skipn]. rewrite Nat2N.id. apply firstn_all. Qed.

Lemma removelast_length' {A} (l : list A) : length (removelast l) = (length l - 1)%nat.
Proof.
  induction l as [| a l IH]; [reflexivity |]. destruct l as [| b l]; [reflexivity |].
  change (removelast (a :: b :: l)) with (a :: removelast (b :: l)). cbn [length] in *. rewrite IH. lia.
Qed.
Lemma in_removelast {A} (l : list A) x : In x (removelast l) -> In x l.
Proof.
  induction l as [| a l IH]; [auto |]. destruct l as [| b l]; [intros [] |].
  change (removelast (a :: b :: l)) with (a :: removelast (b :: l)). intros [-> | H]; [left; reflexivity | right; auto].
Qed.
Lemma nth_removelast {A} (l : list A) i d : (S i < length l)%nat -> nth i (removelast l) d = nth i l d.
Proof.
  revert i. induction l as [| a l IH]; intros i H; [cbn in H; lia |]. destruct l as [| b l]; [cbn in H; lia |].
  change (removelast (a :: b :: l)) with (a :: removelast (b :: l)). destruct i; [reflexivity |]. cbn [nth]. apply IH. cbn [length] in *. lia.
Qed.
Lemma div_ceil_cut a b q : 0 < b -> b * (q - 1) < a <= b * q -> div_ceil a b = Ok q.
Proof. intros Hb H. destruct (Ntfs_proofs.div_ceil_ok a b Hb) as (q' & E & H1 & _). rewrite E. f_equal. nia. Qed.

Lemma cut_total u l : wof_cut u l -> 0 < u -> u * (len l - 1) < total_chunks l <= u * len l.
Proof.
  intros H Hu. induction l as [| (c, d) l IH]; [destruct H |]. destruct l as [| e l].
  - cbn [wof_cut] in H. unfold total_chunks. cbn [flat_map fst]. rewrite app_nil_r. change (len [(c, d)]) with 1. lia.
  - change (len c = u /\ wof_cut u (e :: l)) in H. destruct H as [H1 H2]. specialize (IH H2).
    unfold total_chunks in *. change (flat_map fst ((c, d) :: e :: l)) with (c ++ flat_map fst (e :: l)).
    rewrite len_app, H1. rewrite !(len_cons _ (e :: l)), !(len_cons _ l) in *. nia.
Qed.
Lemma cut_locate u l o : wof_cut u l -> 0 < u -> o < total_chunks l ->
  exists l1 c d l2, l = l1 ++ (c, d) :: l2 /\ len l1 = o / u /\ total_chunks l1 = u * (o / u) /\
    u * (o / u) <= o < u * (o / u) + len c /\ len c = N.min u (total_chunks l - u * (o / u)).
Proof.
  intros H Hu. revert o. induction l as [| (c, d) l IH]; [destruct H |]. intros o Ho. destruct l as [| e l].
  - cbn [wof_cut] in H. unfold total_chunks in Ho |- *. cbn [flat_map fst] in Ho |- *. rewrite app_nil_r in *.
    exists [], c, d, []. assert (E : o / u = 0) by (apply N.div_small; lia). rewrite E. cbn [flat_map]. change (len (@nil N)) with 0. rewrite N.mul_0_r, N.sub_0_r.
    repeat split; try reflexivity; lia.
  - change (len c = u /\ wof_cut u (e :: l)) in H. destruct H as [H1 H2].
    assert (T : total_chunks ((c, d) :: e :: l) = u + total_chunks (e :: l)).
    { unfold total_chunks. change (flat_map fst ((c, d) :: e :: l)) with (c ++ flat_map fst (e :: l)). rewrite len_app. lia. }
    destruct (N.ltb_spec o u).
    + exists [], c, d, (e :: l). assert (E : o / u = 0) by (apply N.div_small; lia). rewrite E, N.mul_0_r, N.sub_0_r, T.
      repeat split; try reflexivity; lia.
    + destruct (IH H2 (o - u) ltac:(lia)) as (l1 & c' & d' & l2 & E1 & E2 & E3 & E4 & E5).
      assert (E : o / u = (o - u) / u + 1).
      { replace o with ((o - u) + 1 * u) at 1 by lia. rewrite N.div_add by lia. reflexivity. }
      exists ((c, d) :: l1), c', d', l2. rewrite E. rewrite E1 at 1. split; [reflexivity |]. split; [rewrite len_cons; lia |].
      split; [unfold total_chunks in *; cbn [flat_map fst]; rewrite len_app; lia |]. rewrite T. split; lia.
Qed.

Lemma ends_app o l1 l2 : wof_ends o (l1 ++ l2) = wof_ends o l1 ++ wof_ends (o + total_stored l1) l2.
Proof.
  revert o. induction l1 as [| (c, d) l1 IH]; intros o; [unfold total_stored; cbn [app flat_map]; change (len (@nil N)) with 0; now rewrite N.add_0_r |].
  cbn [app wof_ends]. rewrite IH. unfold total_stored. cbn [flat_map snd]. rewrite len_app, N.add_assoc. reflexivity.
Qed.
Lemma ends_length o l : length (wof_ends o l) = length l.
Proof. revert o. induction l as [| (c, d) l IH]; intros o; [reflexivity |]. cbn [wof_ends length]. now rewrite IH. Qed.
Lemma ends_bound o l : Forall (fun e => e <= o + total_stored l) (wof_ends o l).
Proof.
  revert o. induction l as [| (c, d) l IH]; intros o; [constructor |]. unfold total_stored in *. cbn [wof_ends flat_map snd]. rewrite len_app.
  constructor; [lia |]. eapply Forall_impl; [| apply IH]. cbv beta. intros. lia.
Qed.
Lemma last_ends d0 : forall l o, l <> [] -> last (wof_ends o l) d0 = o + total_stored l.
Proof.
  induction l as [| (c, d) l IH]; intros o H; [congruence |]. destruct l as [| e l].
  - cbn [wof_ends last]. unfold total_stored. cbn [flat_map snd]. now rewrite app_nil_r.
  - assert (E : total_stored ((c, d) :: e :: l) = len d + total_stored (e :: l)).
    { unfold total_stored. change (flat_map snd ((c, d) :: e :: l)) with (d ++ flat_map snd (e :: l)). now rewrite len_app. }
    rewrite E, N.add_assoc, <- IH by discriminate. destruct e. reflexivity.
Qed.

(** ** The table *)
Lemma entries_ok compressed width T : forall es pre acc, (width <= 8)%nat ->
  Forall (fun e => e < 256 ^ N.of_nat width /\ T + e < two64 /\ T + e <= compressed) es ->
  wof_entries compressed (N.of_nat width) T (length es) (pre ++ flat_map (le_bytes width) es) (len pre) acc = (acc ++ map (N.add T) es, Ok tt).
Proof.
  induction es as [| e es IH]; intros pre acc Hw H; [cbn; now rewrite app_nil_r |].
  apply Forall_cons_iff in H as [(H1 & H2 & H3) H]. cbn [length wof_entries flat_map map].
  assert (L : len (le_bytes width e) = N.of_nat width) by (unfold len; now rewrite le_bytes_length).
  rewrite slice_ok by (rewrite ?len_app; lia).
  replace (firstn _ (skipn _ (pre ++ le_bytes width e ++ flat_map (le_bytes width) es))) with (le_bytes width e).
  2: { rewrite <- (bytes_at_all (le_bytes width e)) at 1. rewrite <- (bytes_at_mid pre (le_bytes width e) (flat_map (le_bytes width) es) 0 (len (le_bytes width e))) by lia.
       unfold bytes_at. f_equal; [lia |]. f_equal. lia. }
  cbn [bind]. rewrite le_value_le_bytes, N.mod_small by assumption. unfold add_chk.
  destruct (N.ltb_spec (e + T) two64); [| lia]. destruct (N.ltb_spec compressed (e + T)); [lia |].
  rewrite app_assoc. replace (len pre + N.of_nat width) with (len (pre ++ le_bytes width e)) by (rewrite len_app; lia).
  rewrite IH by assumption. rewrite <- app_assoc. cbn [app]. now rewrite (N.add_comm e T).
Qed.

Section stream.
  Context (xpress : list N -> list N -> res (list N * N)) (volume : list N) (v : wof_stream).
  Context (l : list (list N * list N)) (stream : list N) (width : nat).
  Context (Hm : wof_method (wf_method v) (wf_unit v)) (Hcut : wof_cut (wf_unit v) l).
  Context (Hst : Forall (wof_stored (wof_encodes xpress (wf_method v) (wf_unit v))) l).
  Context (Hs : stream = wof_table width l ++ flat_map snd l).
  Context (Hw : width = 4%nat /\ len stream < 2 ^ 32 \/ width = 8%nat /\ 2 ^ 32 <= len stream < 2 ^ 63).
  Context (Hc : wf_compressed v = len stream) (Hsize : wf_size v = total_chunks l) (Hsz : wf_size v < two63).
  Context (Hrd : forall o n, o + n <= len stream -> wof_read_exact volume v o n = Ok (bytes_at stream o n)).

  Let T := len (wof_table width l).
  Let u := wf_unit v.
  Lemma u_pos : 0 < u /\ u <= 32768.
  Proof. unfold u. destruct Hm as [[_ ->] | [[_ ->] | [[_ ->] | [_ ->]]]]; lia. Qed.
  Lemma l_pos : 0 < len l.
  Proof. destruct l; [destruct Hcut |]. rewrite len_cons. lia. Qed.
  Lemma stream_len : len stream = T + total_stored l.
  Proof. rewrite Hs at 1. rewrite len_app. reflexivity. Qed.
  Lemma stream_bound : len stream < 2 ^ 63 /\ len stream < 256 ^ N.of_nat width.
  Proof. destruct Hw as [[-> H] | [-> H]]; split; try lia; cbn; lia. Qed.
  Lemma T_value : T = (len l - 1) * N.of_nat width.
  Proof.
    unfold T, wof_table.
    assert (E : forall es, len (flat_map (le_bytes width) es) = len es * N.of_nat width).
    { induction es as [| e es IH]; [reflexivity |]. cbn [flat_map]. rewrite len_app, IH, len_cons.
      replace (len (le_bytes width e)) with (N.of_nat width) by (unfold len; now rewrite le_bytes_length). lia. }
    rewrite E. f_equal. unfold len. rewrite removelast_length', ends_length. lia.
  Qed.
  Definition offsets : list N := T :: map (N.add T) (removelast (wof_ends 0 l)).

  Lemma read_offsets_ok : wof_read_offsets volume v [] = (offsets, Ok tt).
  Proof.
    pose proof u_pos as [Hu1 Hu2]. pose proof l_pos as Hl. pose proof stream_len as SL. pose proof stream_bound as [SB1 SB2]. pose proof T_value as TV.
    pose proof (cut_total u l Hcut Hu1) as CT. unfold wof_read_offsets. fold u.
    assert (W : (if two32 - 1 <? wf_compressed v then 8 else 4) = N.of_nat width).
    { rewrite Hc. destruct (N.ltb_spec (two32 - 1) (len stream)); change two32 with (2 ^ 32) in *; destruct Hw as [[-> H'] | [-> H']]; lia. }
    rewrite W.
    assert (D : div_ceil (wf_size v) u = Ok (len l)) by (apply div_ceil_cut; lia).
    rewrite D. cbn [bind]. unfold sub_chk at 1. destruct (N.leb_spec 1 (len l)); [| lia]. cbn [bind].
    unfold mul_chk. rewrite <- TV. change two64 with (2 ^ 64). destruct (N.ltb_spec T (2 ^ 64)); [| lia]. cbn [bind].
    rewrite Hrd by lia. cbn [bind].
    replace (bytes_at stream 0 T) with ([] ++ wof_table width l).
    2: { cbn [app]. rewrite Hs. rewrite <- (bytes_at_all (wof_table width l)) at 1.
         pose proof (bytes_at_mid [] (wof_table width l) (flat_map snd l) 0 T ltac:(unfold T; lia)) as E. cbn [app] in E. symmetry. exact E. }
    replace (N.to_nat (len l - 1)) with (length (removelast (wof_ends 0 l))) by (rewrite removelast_length', ends_length; unfold len; lia).
    change ([] ++ [T]) with [T]. change 0 with (len (@nil N)) at 2. unfold wof_table. rewrite entries_ok; [reflexivity | destruct Hw as [[-> _] | [-> _]]; lia |].
    pose proof (ends_bound 0 l) as B. apply Forall_forall. intros e He. rewrite Forall_forall in B.
    assert (In e (wof_ends 0 l)) as He' by (apply in_removelast; exact He). specialize (B e He'). change two64 with (2 ^ 64). lia.
  Qed.

  (** ** The blocks *)
  Lemma offset_at l1 c d l2 : l = l1 ++ (c, d) :: l2 -> idx offsets (len l1) = Ok (T + total_stored l1).
  Proof.
    intros E. unfold offsets.
    assert (L : len l1 < len (T :: map (N.add T) (removelast (wof_ends 0 l)))).
    { rewrite len_cons. unfold len. rewrite map_length, removelast_length', ends_length, E, app_length. cbn [length]. lia. }
    rewrite (idx_ok _ _ 0 L). f_equal. destruct l1 as [| (c1, d1) l1 _] using rev_ind.
    - cbn. unfold total_stored. cbn [flat_map]. change (len (@nil N)) with 0. lia.
    - unfold len. rewrite Nat2N.id, app_length. cbn [length]. rewrite Nat.add_1_r. cbn [nth].
      rewrite (nth_indep _ 0 (T + 0)) by (rewrite map_length, removelast_length', ends_length, E, !app_length; cbn [length]; lia).
      rewrite map_nth, nth_removelast by (rewrite ends_length, E, !app_length; cbn [length]; lia). f_equal.
      rewrite E, ends_app, app_nth1 by (rewrite ends_length, app_length; cbn [length]; lia).
      rewrite ends_app, app_nth2 by (rewrite ends_length; lia). rewrite ends_length, Nat.sub_diag. cbn [wof_ends nth].
      unfold total_stored. rewrite flat_map_app, len_app. cbn [flat_map snd]. rewrite app_nil_r. lia.
  Qed.
  Lemma next_offset_at l1 c d l2 : l = l1 ++ (c, d) :: l2 ->
    (if len l1 + 1 <? len offsets then idx offsets (len l1 + 1) else Ok (wf_compressed v)) = Ok (T + total_stored l1 + len d).
  Proof.
    intros E. assert (L : len offsets = len l).
    { unfold offsets. rewrite len_cons. unfold len. rewrite map_length, removelast_length', ends_length, E, app_length. cbn [length]. lia. }
    assert (P : total_stored (l1 ++ [(c, d)]) = total_stored l1 + len d).
    { unfold total_stored. rewrite flat_map_app, len_app. cbn [flat_map snd]. rewrite app_nil_r. reflexivity. }
    rewrite L. destruct l2 as [| (c2, d2) l2].
    - assert (len l = len l1 + 1) by (rewrite E, len_app; reflexivity).
      destruct (N.ltb_spec (len l1 + 1) (len l)); [lia |]. rewrite Hc, stream_len, E, P. f_equal. lia.
    - assert (len l = len l1 + 2 + len l2) by (rewrite E, len_app, !len_cons; lia).
      destruct (N.ltb_spec (len l1 + 1) (len l)); [| lia].
      assert (E' : l = (l1 ++ [(c, d)]) ++ (c2, d2) :: l2) by (rewrite E, <- app_assoc; reflexivity).
      replace (len l1 + 1) with (len (l1 ++ [(c, d)])) by (rewrite len_app; reflexivity).
      rewrite (offset_at _ _ _ _ E'), P. f_equal. lia.
  Qed.
  Lemma stored_positive c d : In (c, d) l -> 0 < len c -> 0 < len d.
  Proof. intros H Hcp. rewrite Forall_forall in Hst. destruct (Hst _ H) as [-> | [H1 _]]; lia. Qed.
  Lemma chunk_positive c d : In (c, d) l -> 0 < len c <= u.
  Proof.
    pose proof u_pos as [Hu _]. clear - Hcut Hu. fold u in Hcut. revert Hcut. induction l as [| (c', d') m IH]; [intros [] |].
    destruct m as [| e m]; intros H; [intros [[= -> ->] | []]; exact H |].
    change (len c' = u /\ wof_cut u (e :: m)) in H. destruct H as [H1 H2]. intros [[= -> ->] | H]; [lia | auto].
  Qed.
  Lemma same_chunk l1 c d l2 l1' c' d' l2' : l = l1 ++ (c, d) :: l2 -> l = l1' ++ (c', d') :: l2' ->
    total_stored l1 = total_stored l1' -> c = c' /\ d = d'.
  Proof.
    assert (P : forall e, In e l -> 0 < len (snd e)).
    { intros (a, b) H. cbn [snd]. eapply stored_positive; [exact H | apply (chunk_positive a b H)]. }
    revert P. generalize l as m. intros m P E. revert l1' m P E. induction l1 as [| e l1 IH]; intros l1' m P E E' Q.
    - destruct l1' as [| e' l1']; cbn [app] in *; [split; congruence |].
      assert (0 < len (snd e')) by (apply P; rewrite E'; left; reflexivity).
      unfold total_stored in Q. cbn [flat_map] in Q. rewrite len_app in Q. change (len (@nil N)) with 0 in Q. lia.
    - destruct l1' as [| e' l1']; cbn [app] in *.
      + assert (0 < len (snd e)) by (apply P; rewrite E; left; reflexivity).
        unfold total_stored in Q. cbn [flat_map] in Q. rewrite len_app in Q. change (len (@nil N)) with 0 in Q. lia.
      + rewrite E in E'. injection E' as <- E'. apply (IH l1' (l1 ++ (c, d) :: l2)); auto.
        * intros x Hx. apply P. rewrite E. right. exact Hx.
        * unfold total_stored in *. cbn [flat_map] in Q. rewrite !len_app in Q. lia.
  Qed.
  Lemma stored_at l1 c d l2 o n : l = l1 ++ (c, d) :: l2 -> o + n <= len d ->
    wof_read_exact volume v (T + total_stored l1 + o) n = Ok (bytes_at d o n).
  Proof.
    intros E Hn. assert (S : stream = (wof_table width l ++ flat_map snd l1) ++ d ++ flat_map snd l2).
    { rewrite Hs at 1. rewrite E at 2. rewrite flat_map_app. cbn [flat_map snd]. now rewrite app_assoc. }
    assert (L : len (wof_table width l ++ flat_map snd l1) = T + total_stored l1) by (rewrite len_app; reflexivity).
    rewrite Hrd.
    - rewrite S, <- L. f_equal. apply bytes_at_mid. exact Hn.
    - rewrite S at 1. rewrite len_app, L, len_app. lia.
  Qed.
  Lemma block_ok l1 c d l2 : l = l1 ++ (c, d) :: l2 -> d <> c ->
    exists rest, wof_block xpress volume v (T + total_stored l1) (len d) = Ok (c ++ rest).
  Proof.
    intros E Hne. pose proof u_pos as [Hu1 Hu2].
    assert (I : In (c, d) l) by (rewrite E; apply in_or_app; right; left; reflexivity).
    pose proof (chunk_positive c d I) as Hcp. rewrite Forall_forall in Hst. destruct (Hst _ I) as [-> | [_ HE]]; [congruence |].
    pose proof (stored_at l1 c d l2 0 (len d) E ltac:(lia)) as R. rewrite N.add_0_r, bytes_at_all in R.
    unfold wof_block. rewrite R. cbn [bind]. fold u in HE |- *. destruct HE as [(-> & bs & r & H1 & H2 & H3 & H4 & H5) | (M & rest & n & H)].
    - change (1 =? 1) with true. cbv iota. assert (L : len (repeat 0 (N.to_nat u)) = u) by (unfold len; rewrite repeat_length; lia).
      rewrite (P_C55.C55_content_partial c bs d r _ H3 ltac:(lia) H1 H2).
      + cbn [bind]. eexists. reflexivity.
      + rewrite L. destruct H5 as [H5 | (H5 & H6 & H7)]; [left; lia | right]. split; [lia |]. split; [assumption |]. split; assumption.
    - assert (X : (wf_method v =? 1) = false /\ (wf_method v =? 0) || (wf_method v =? 2) || (wf_method v =? 3) = true)
        by (destruct M as [-> | [-> | ->]]; split; reflexivity).
      destruct X as [-> ->]. rewrite H. cbn [bind]. eexists. reflexivity.
  Qed.

  (** What the cache has. *)
  Definition of_block (k : N) (data : list N) : Prop :=
    exists l1 c d l2 rest, l = l1 ++ (c, d) :: l2 /\ k = T + total_stored l1 /\ data = c ++ rest.
  Lemma cached_block_ok m l1 c d l2 : cache_ok of_block 8 m -> l = l1 ++ (c, d) :: l2 -> d <> c ->
    exists m' rest, wof_cached xpress volume v m (T + total_stored l1) (len d) = (m', Ok (c ++ rest)) /\ cache_ok of_block 8 m'.
  Proof.
    intros Hm' E Hne. pose proof Hm' as Hm2. unfold wof_cached, lru_contains. fold (lru_get m (T + total_stored l1)).
    destruct (lru_get m (T + total_stored l1)) as [data |] eqn:G.
    - destruct Hm2 as (_ & _ & Hg). destruct (Hg _ _ G) as (l1' & c' & d' & l2' & rest & E' & K & ->).
      destruct (same_chunk _ _ _ _ _ _ _ _ E E' ltac:(lia)) as [-> ->].
      exists m, rest. rewrite G. split; [reflexivity | exact Hm'].
    - destruct (block_ok l1 c d l2 E Hne) as (rest & B). rewrite B. cbn [bind].
      destruct (cache_ok_insert of_block 8 m (T + total_stored l1) (c ++ rest) ltac:(lia) Hm') as (m' & I1 & I2 & I3).
      { exists l1, c, d, l2, rest. auto. }
      rewrite I1, I3. exists m', rest. split; [reflexivity | exact I2].
  Qed.

  Lemma wof_step_exact : exact_step (cache_ok of_block 8) (wf_size v) (flat_map fst l) (wof_step xpress volume v offsets).
  Proof.
    intros m o n Hmc Ho Hn Hon. pose proof u_pos as [Hu1 Hu2]. pose proof stream_bound as [SB _].
    destruct (cut_locate u l o Hcut Hu1 ltac:(lia)) as (l1 & c & d & l2 & E & E1 & E2 & E3 & E4).
    assert (C : forall k, o - u * (o / u) + k <= len c -> bytes_at (flat_map fst l) o k = bytes_at c (o - u * (o / u)) k).
    { intros k Hk. rewrite E, flat_map_app. cbn [flat_map fst].
      rewrite <- (bytes_at_mid (flat_map fst l1) c (flat_map fst l2)) by exact Hk. f_equal. fold (total_chunks l1). lia. }
    unfold wof_step. fold u. unfold div_chk. destruct (N.eqb_spec u 0); [lia |]. cbn [bind]. rewrite <- E1.
    rewrite (offset_at _ _ _ _ E). cbn [bind]. rewrite (next_offset_at _ _ _ _ E). cbn [bind].
    unfold sub_chk at 1. destruct (N.leb_spec (T + total_stored l1) (T + total_stored l1 + len d)); [| lia]. cbn [bind].
    replace (T + total_stored l1 + len d - (T + total_stored l1)) with (len d) by lia.
    rewrite E1. unfold mul_chk. rewrite (N.mul_comm (o / u) u). change two63 with (2 ^ 63) in Hsz. change two64 with (2 ^ 64).
    destruct (N.ltb_spec (u * (o / u)) (2 ^ 64)); [| lia]. cbn [bind].
    unfold sub_chk. destruct (N.leb_spec (u * (o / u)) (wf_size v)); [| lia]. cbn [bind].
    destruct (N.leb_spec (u * (o / u)) o); [| lia]. cbn [bind].
    rewrite Hsize, <- E4. destruct (N.leb_spec (o - u * (o / u)) (len c)); [| lia]. cbn [bind].
    set (rel := o - u * (o / u)) in *. set (k := N.min n (len c - rel)).
    assert (I : In (c, d) l) by (rewrite E; apply in_or_app; right; left; reflexivity).
    assert (S : d = c \/ len d < len c).
    { rewrite Forall_forall in Hst. destruct (Hst _ I) as [H' | [H' _]]; [left; exact H' | right; lia]. }
    destruct (N.eqb_spec (len c) (len d)) as [Q | Q].
    - destruct S as [-> | S]; [| lia]. exists m, k. split; [| split; [exact Hmc | unfold k; lia]].
      pose proof stream_len as SL. assert (total_stored l = total_stored l1 + len c + total_stored l2).
      { rewrite E. unfold total_stored. rewrite flat_map_app. cbn [flat_map snd]. rewrite !len_app. lia. }
      unfold add_chk. destruct (N.ltb_spec (T + total_stored l1 + rel) (2 ^ 64)); [| lia]. cbn [bind].
      rewrite (stored_at _ _ _ _ rel k E) by (unfold k; lia). rewrite C by (unfold k; lia). reflexivity.
    - destruct (cached_block_ok m l1 c d l2 Hmc E) as (m' & rest & Ec & Hm'); [intros ->; lia |].
      rewrite Ec. exists m', k. split; [| split; [exact Hm' | unfold k; lia]]. cbn [bind].
      rewrite slice_ok by (rewrite ?len_app; unfold k; lia). rewrite C by (unfold k; lia). do 2 f_equal.
      pose proof (bytes_at_mid [] c rest rel k ltac:(unfold k; lia)) as M. cbn [app] in M. rewrite <- M.
      unfold bytes_at. change (len (@nil N)) with 0. f_equal. lia.
  Qed.
  Definition state_ok (s : list N * lru (list N)) : Prop := (fst s = [] \/ fst s = offsets) /\ cache_ok of_block 8 (snd s).
  Lemma wof_rd_exact : exact_rd state_ok (wf_size v) (flat_map fst l) (wof_rd xpress volume v).
  Proof.
    intros (os, m) o n (Hos & Hmc) Ho Hn. cbn [fst snd] in *. unfold wof_rd.
    assert (O : (if (0 <? wf_size v) && (len os =? 0) then wof_read_offsets volume v os else (os, Ok tt)) = (offsets, Ok tt)).
    { destruct (N.ltb_spec 0 (wf_size v)); [| lia]. destruct Hos as [-> | ->]; [cbn [andb]; change (len (@nil N) =? 0) with true; cbv iota; apply read_offsets_ok |].
      unfold offsets at 1. rewrite len_cons. destruct (N.eqb_spec (len (map (N.add T) (removelast (wof_ends 0 l))) + 1) 0); [lia | reflexivity]. }
    rewrite O. change two63 with (2 ^ 63) in Hsz.
    destruct (blocks_rd_exact _ _ _ _ wof_step_exact ltac:(change two64 with (2 ^ 64); lia) m o n Hmc Ho Hn) as (m' & E & Hm').
    rewrite E. exists (offsets, m'). split; [reflexivity |]. split; [right; reflexivity | exact Hm'].
  Qed.
End stream.
