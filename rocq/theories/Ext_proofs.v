From Verif Require Import Base BaseLemmas Fields Bytes_model Streams_model Streams_spec Streams_proofs
  BlockTree_model BlockTree_spec BlockTree_proofs Blocks_model Blocks_proofs Fat_proofs Lz_proofs
  Ext_model Ext_spec.
Ltac Zify.zify_post_hook ::= idtac.

(** ** Ranges *)
Lemma len_range_blocks r : len (range_blocks r) = er_count r.
Proof. unfold range_blocks, len. destruct (er_sparse r); rewrite ?repeat_length, ?seqN_length; lia. Qed.
Lemma described_app a b : described (a ++ b) = described a ++ described b.
Proof. apply flat_map_app. Qed.
Lemma contiguous_app a : forall first b,
  contiguous first (a ++ b) <-> contiguous first a /\ contiguous (first + len (described a)) b.
Proof.
  induction a as [|r a IH]; intros first b; cbn [app contiguous].
  - change (len (described [])) with 0. rewrite N.add_0_r. tauto.
  - rewrite IH. change (described (r :: a)) with (range_blocks r ++ described a).
    rewrite len_app, len_range_blocks, N.add_assoc. tauto.
Qed.

(** The ranges built so far, newest first, describe the blocks [B]. *)
Definition built (ranges : list ext_range) (lbn : N) (B : list N) : Prop :=
  contiguous 0 (rev ranges) /\ described (rev ranges) = B /\ len B = lbn /\
  Forall (fun r => er_physical r < 2 ^ 48 /\ (er_sparse r = false -> 0 < er_physical r)) ranges.

Lemma built_nil : built [] 0 [].
Proof. repeat split; constructor. Qed.

Lemma built_cons ranges lbn B r : built ranges lbn B ->
  er_logical r = lbn -> 0 < er_count r -> er_physical r < 2 ^ 48 -> (er_sparse r = false -> 0 < er_physical r) ->
  built (r :: ranges) (lbn + er_count r) (B ++ range_blocks r).
Proof.
  intros (H1 & H2 & H3 & H4) Hl Hc Hp Hs. cbn [rev]. split; [|split; [|split]].
  - cbn [rev]. apply contiguous_app. split; [assumption|]. cbn [contiguous]. rewrite H2, H3. auto.
  - cbn [rev]. rewrite described_app, H2. cbn [described flat_map]. now rewrite app_nil_r.
  - now rewrite len_app, len_range_blocks, H3.
  - constructor; auto.
Qed.

Lemma seqN_snoc p c : seqN p (N.to_nat (c + 1)) = seqN p (N.to_nat c) ++ [p + c].
Proof.
  replace (N.to_nat (c + 1)) with (N.to_nat c + 1)%nat by lia. rewrite seqN_app. cbn [seqN].
  do 2 f_equal. lia.
Qed.

(** A block number added to the last range. *)
Lemma built_merge last rest lbn B k added :
  built (last :: rest) lbn B -> 0 < k ->
  range_blocks {| er_logical := er_logical last; er_physical := er_physical last;
                  er_count := er_count last + k; er_sparse := er_sparse last |} = range_blocks last ++ added ->
  built ({| er_logical := er_logical last; er_physical := er_physical last;
            er_count := er_count last + k; er_sparse := er_sparse last |} :: rest) (lbn + k) (B ++ added).
Proof.
  intros (H1 & H2 & H3 & H4) Hk Hr. cbn [rev] in *. apply contiguous_app in H1 as [H1 H1'].
  apply Forall_cons_iff in H4 as [H4 H4'].
  rewrite described_app in H2. cbn [described flat_map] in H2. rewrite app_nil_r in H2.
  assert (E : described (rev rest ++ [{| er_logical := er_logical last; er_physical := er_physical last;
    er_count := er_count last + k; er_sparse := er_sparse last |}]) = B ++ added).
  { rewrite described_app. cbn [described flat_map]. rewrite app_nil_r, Hr, app_assoc. f_equal. exact H2. }
  split; [|split; [exact E|split]].
  - cbn [rev]. apply contiguous_app. split; [assumption|]. cbn [contiguous er_logical er_count] in *.
    destruct H1' as (-> & ? & _). repeat split; auto. lia.
  - rewrite <- E, described_app, len_app. cbn [described flat_map]. rewrite app_nil_r, len_range_blocks.
    cbn [er_count]. rewrite <- H2, len_app, len_range_blocks in H3. unfold described in *. lia.
  - constructor; auto.
Qed.

(** ** Block numbers *)
Lemma bn_power_ok per depth : forall n, n * per ^ N.of_nat depth < two64 -> 0 < per ->
  bn_power depth per n = Ok (n * per ^ N.of_nat depth).
Proof.
  induction depth as [|depth IH]; intros n Hn Hp.
  - cbn [bn_power N.of_nat]. now rewrite N.pow_0_r, N.mul_1_r.
  - cbn [bn_power]. rewrite Nat2N.inj_succ, N.pow_succ_r' in *.
    assert (Hp1 : 0 < per ^ N.of_nat depth) by (apply N.neq_0_lt_0, N.pow_nonzero; lia).
    assert (Hle : n * per <= n * (per * per ^ N.of_nat depth)).
    { apply N.mul_le_mono_l. rewrite <- (N.mul_1_r per) at 1. apply N.mul_le_mono_l. lia. }
    unfold mul_chk. destruct (N.ltb_spec (n * per) two64); [|lia]. cbn [bind].
    rewrite IH by (try assumption; rewrite <- N.mul_assoc; assumption). now rewrite N.mul_assoc.
Qed.

Lemma bn_add_ok per total depth block ranges lbn B :
  built ranges lbn B -> lbn < total -> total < two63 -> block < two32 -> 0 < per ->
  per ^ N.of_nat depth < two64 ->
  let added := if block =? 0 then repeat 0 (N.to_nat (N.min (per ^ N.of_nat depth) (total - lbn))) else [block] in
  exists ranges', bn_add per total depth block (ranges, lbn) = Ok (ranges', lbn + len added) /\
    built ranges' (lbn + len added) (B ++ added).
Proof.
  intros Hb Hl Ht Hblock Hper Hpow added.
  assert (Hp1 : 0 < per ^ N.of_nat depth) by (apply N.neq_0_lt_0, N.pow_nonzero; lia).
  unfold bn_add.
  assert (Ec : (if block =? 0 then n <- bn_power depth per 1 ;; remaining <- sub_chk total lbn ;; Ok (N.min n remaining)
                else Ok 1) = Ok (len added)).
  { unfold added. destruct (block =? 0); [|reflexivity].
    rewrite bn_power_ok by (try assumption; lia). cbn [bind]. rewrite N.mul_1_l.
    unfold sub_chk. destruct (N.leb_spec lbn total); [|lia]. cbn [bind]. f_equal.
    unfold len. rewrite repeat_length. lia. }
  rewrite Ec. cbn [bind]. clear Ec. set (k := len added).
  assert (Hk : 0 < k /\ lbn + k <= total).
  { unfold k, added, len. destruct (block =? 0); [rewrite repeat_length|cbn [length]]; lia. }
  assert (Hfresh : built ({| er_logical := lbn; er_physical := block; er_count := k; er_sparse := block =? 0 |} :: ranges)
    (lbn + k) (B ++ added)).
  { replace added with (range_blocks {| er_logical := lbn; er_physical := block; er_count := k; er_sparse := block =? 0 |}).
    - apply built_cons; auto; cbn [er_physical er_sparse er_count er_logical].
      + apply Hk.
      + eapply N.lt_le_trans; [exact Hblock|]. unfold two32. vm_compute. congruence.
      + intros Hz. apply N.eqb_neq in Hz. lia.
    - unfold range_blocks, k, added. cbn [er_sparse er_count er_physical].
      destruct (N.eqb_spec block 0) as [->|Hz].
      + unfold len. rewrite repeat_length. f_equal. lia.
      + reflexivity. }
  assert (Hadd : add_chk two64 lbn k = Ok (lbn + k)).
  { unfold add_chk. destruct (N.ltb_spec (lbn + k) two64); [reflexivity|]. unfold two63, two64 in *. lia. }
  destruct ranges as [|last rest].
  - cbn [bind]. rewrite Hadd. cbn [bind]. eauto.
  - assert (Hlast : er_count last <= lbn /\ er_physical last < 2 ^ 48 /\ (er_sparse last = false -> 0 < er_physical last)).
    { destruct Hb as (H1 & H2 & H3 & H4). apply Forall_cons_iff in H4 as [H4 _]. split; [|exact H4].
      cbn [rev] in H2. rewrite described_app in H2. rewrite <- H3, <- H2, len_app.
      cbn [described flat_map]. rewrite app_nil_r, len_range_blocks. lia. }
    destruct Hlast as (L1 & L2 & L3).
    assert (Hb48 : 2 ^ 48 < two63) by (unfold two63; vm_compute; reflexivity).
    assert (Hcount : add_chk two64 (er_count last) k = Ok (er_count last + k)).
    { unfold add_chk. destruct (N.ltb_spec (er_count last + k) two64); [reflexivity|]. unfold two63, two64 in *. lia. }
    destruct (er_sparse last) eqn:Es.
    + cbn [bind]. destruct (N.eqb_spec block 0) as [Hz|Hz].
      * rewrite Hcount. cbn [bind]. rewrite Hadd. cbn [bind]. eexists. split; [reflexivity|].
        rewrite <- Es. apply built_merge; [assumption|apply Hk|].
        unfold range_blocks. cbn [er_sparse er_count er_physical]. rewrite Es.
        unfold added. destruct (N.eqb_spec block 0); [|contradiction].
        unfold k, added, len. destruct (N.eqb_spec block 0); [|contradiction]. rewrite repeat_length, <- repeat_app. f_equal. lia.
      * cbn [bind]. rewrite Hadd. cbn [bind]. eauto.
    + unfold add_chk at 1. destruct (N.ltb_spec (er_physical last + er_count last) two64);
        [|unfold two63, two64 in *; lia]. cbn [bind].
      destruct (N.eqb_spec block (er_physical last + er_count last)) as [He|He].
      * assert (Hz : block <> 0) by (specialize (L3 eq_refl); lia).
        assert (Ea : added = [block]) by (unfold added; destruct (N.eqb_spec block 0); [contradiction|reflexivity]).
        rewrite Hcount. cbn [bind]. rewrite Hadd. cbn [bind]. eexists. split; [reflexivity|].
        rewrite <- Es. apply built_merge; [assumption|apply Hk|].
        unfold range_blocks. cbn [er_sparse er_count er_physical]. rewrite Es.
        assert (k = 1) as -> by (unfold k; rewrite Ea; reflexivity).
        rewrite seqN_snoc, Ea. congruence.
      * cbn [bind]. rewrite Hadd. cbn [bind]. eauto.
Qed.

(** The blocks of a list of entries, cut at the total. *)
Definition outcome (total lbn : N) (B blocks : list N) (inside : Prop) (r : res (list ext_range * N)) : Prop :=
  (exists ranges', r = Ok (ranges', lbn + len (firstn (N.to_nat (total - lbn)) blocks)) /\
     built ranges' (lbn + len (firstn (N.to_nat (total - lbn)) blocks)) (B ++ firstn (N.to_nat (total - lbn)) blocks)) \/
  (r = Err /\ ~ inside).

Lemma words_seq data m : forall j rest, len data = 4 * (N.of_nat j + N.of_nat m) ->
  rest = skipn (4 * j) data ->
  words rest = map (fun k => le_value (bytes_at data (4 * k) 4)) (seqN (N.of_nat j) m).
Proof.
  induction m as [|m IH]; intros j rest Hl Hr.
  - assert (rest = []) as -> by (subst rest; apply skipn_all2; unfold len in Hl; lia). reflexivity.
  - cbn [seqN map]. assert (E : exists a b c d rest', rest = a :: b :: c :: d :: rest').
    { assert (L : (4 <= length rest)%nat) by (subst rest; rewrite skipn_length; unfold len in Hl; lia).
      destruct rest as [|a [|b [|c [|d rest']]]]; cbn [length] in L; try lia. eauto 6. }
    destruct E as (a & b & c & d & rest' & ->). cbn [words]. f_equal.
    + f_equal. unfold bytes_at. replace (N.to_nat (4 * N.of_nat j)) with (4 * j)%nat by lia.
      rewrite <- Hr. reflexivity.
    + rewrite (IH (S j) rest').
      * do 2 f_equal. lia.
      * lia.
      * replace (4 * S j)%nat with (4 + 4 * j)%nat by lia. rewrite <- skipn_skipn, <- Hr. reflexivity.
Qed.
Lemma words_by_four data : len data mod 4 = 0 ->
  words data = map (fun o => le_value (bytes_at data o 4)) (by_four (len data)) /\
  Forall (fun o => o + 4 <= len data) (by_four (len data)).
Proof.
  intros Hm. apply N.mod_divides in Hm as [q Hq]; [|lia]. unfold by_four.
  assert (E : (len data + 3) / 4 = q) by (symmetry; apply N.div_unique with 3; lia). rewrite E. split.
  - rewrite (words_seq data (N.to_nat q) 0 data); [|lia|reflexivity].
    rewrite map_map. reflexivity.
  - apply Forall_map, Forall_forall. intros k Hk. apply in_seqN in Hk. lia.
Qed.

Lemma bn_entries_ok step total f (inside : N -> Prop) data :
  wf_bytes data -> len data < two64 ->
  (forall b ranges lbn B, b < two32 -> built ranges lbn B -> lbn < total ->
     outcome total lbn B (f b) (inside b) (step b (ranges, lbn))) ->
  forall offsets, Forall (fun o => o + 4 <= len data) offsets -> forall ranges lbn B, built ranges lbn B ->
  outcome total lbn B (flat_map f (map (fun o => le_value (bytes_at data o 4)) offsets))
    (Forall inside (map (fun o => le_value (bytes_at data o 4)) offsets))
    (bn_entries step total data offsets (ranges, lbn)).
Proof.
  intros Hw Hl Hstep. induction 1 as [|o offsets Ho Hos IH]; intros ranges lbn B Hb; cbn [bn_entries map flat_map].
  - left. exists ranges. rewrite firstn_nil, app_nil_r. change (len (@nil N)) with 0. rewrite N.add_0_r. auto.
  - cbn [snd]. destruct (N.leb_spec total lbn).
    + left. exists ranges. replace (total - lbn) with 0 by lia. cbn [N.to_nat firstn]. rewrite app_nil_r.
      change (len (@nil N)) with 0. rewrite N.add_0_r. auto.
    + assert (Eu : u32_le data o = Ok (le_value (bytes_at data o 4))).
      { unfold u32_le, bytes_to_uint_le, add_chk. destruct (N.ltb_spec (o + 4) two64); [|lia]. cbn [bind].
        rewrite slice_ok by lia. cbn [bind]. unfold bytes_at. do 4 f_equal. lia. }
      rewrite Eu. cbn [bind]. set (b := le_value (bytes_at data o 4)).
      assert (Hb32 : b < two32).
      { unfold b. eapply N.lt_le_trans; [apply le_value_bound, wf_bytes_at, Hw|]. rewrite len_bytes_at.
        change two32 with (256 ^ 4). apply N.pow_le_mono_r; lia. }
      destruct (Hstep b ranges lbn B Hb32 Hb ltac:(lia)) as [(ranges' & E & Hb')|[E Hn]].
      2: { rewrite E. right. split; [reflexivity|]. intros HF. apply Forall_cons_iff in HF. tauto. }
      rewrite E. cbn [bind]. set (A := firstn (N.to_nat (total - lbn)) (f b)) in *.
      specialize (IH _ _ _ Hb'). set (rest := flat_map f _) in *.
      assert (Ef : firstn (N.to_nat (total - lbn)) (f b ++ rest) = A ++ firstn (N.to_nat (total - (lbn + len A))) rest).
      { rewrite firstn_app. fold A. f_equal. unfold A, len. rewrite firstn_length.
        destruct (Nat.le_ge_cases (N.to_nat (total - lbn)) (length (f b))).
        - replace (N.to_nat (total - lbn) - length (f b))%nat with 0%nat by lia.
          replace (N.to_nat _) with 0%nat at 1 by lia. reflexivity.
        - f_equal. lia. }
      destruct IH as [(ranges'' & E' & Hb'')|[E' Hn]].
      * left. exists ranges''. rewrite Ef, len_app, N.add_assoc, app_assoc. auto.
      * right. split; [assumption|]. intros HF. apply Forall_cons_iff in HF. tauto.
Qed.

Lemma firstn_repeat_min {A} (x : A) n m : firstn n (repeat x m) = repeat x (Nat.min m n).
Proof.
  revert m. induction n as [|n IH]; intros m.
  - cbn [firstn]. rewrite Nat.min_0_r. reflexivity.
  - destruct m as [|m]; [reflexivity|]. cbn [repeat firstn Nat.min]. now rewrite IH.
Qed.

Definition geometry (block_size total : N) : Prop :=
  4 <= block_size /\ block_size mod 4 = 0 /\ block_size <= 65536 /\ total < two63.

Lemma per_block_ok bs depth : 4 <= bs -> bs mod 4 = 0 -> bs <= 65536 -> (depth <= 3)%nat ->
  0 < bs / 4 /\ (bs / 4) ^ N.of_nat depth < two64.
Proof.
  intros H1 H2 H3 Hd.
  assert (L : 1 <= bs / 4) by (apply N.div_le_lower_bound; lia).
  assert (U : bs / 4 <= 16384) by (apply N.div_le_upper_bound; lia).
  split; [lia|]. eapply N.le_lt_trans; [apply N.pow_le_mono_l, U|].
  eapply N.le_lt_trans; [apply (N.pow_le_mono_r 16384 (N.of_nat depth) 3); lia|].
  unfold two64. vm_compute. reflexivity.
Qed.

Lemma bn_read_ok volume bs total : wf_bytes volume -> len volume < two64 -> geometry bs total ->
  forall depth data ranges lbn B, (depth <= 3)%nat -> wf_bytes data -> len data < two64 -> len data mod 4 = 0 ->
  built ranges lbn B ->
  outcome total lbn B (flat_map (tree_blocks volume bs depth) (words data))
    (Forall (tree_inside volume bs depth) (words data))
    (bn_read depth volume bs total data (ranges, lbn)).
Proof.
  intros Hw Hv (G1 & G2 & G3 & G4). induction depth as [|depth IH]; intros data ranges lbn B Hd Hwd Hld Hm Hb.
  all: destruct (words_by_four data Hm) as [Ew Ho]; rewrite Ew.
  - cbn [bn_read]. apply bn_entries_ok; auto.
    intros b ranges' lbn' B' Hb32 Hb' Hl. left.
    destruct (per_block_ok bs 0 G1 G2 G3 ltac:(lia)) as [P1 P2].
    destruct (bn_add_ok (bs / 4) total 0 b ranges' lbn' B' Hb' Hl G4 Hb32 P1 P2) as (r & E & Hr).
    set (added := if b =? 0 then _ else _) in *.
    assert (Ea : firstn (N.to_nat (total - lbn')) (tree_blocks volume bs 0 b) = added).
    { cbn [tree_blocks]. replace (N.to_nat (total - lbn')) with (S (N.to_nat (total - lbn' - 1))) by lia.
      cbn [firstn]. rewrite firstn_nil. unfold added. destruct (N.eqb_spec b 0) as [->|]; [|reflexivity].
      cbn [N.of_nat]. rewrite N.pow_0_r, N.min_l by lia. reflexivity. }
    rewrite Ea. eauto.
  - cbn [bn_read]. apply bn_entries_ok; auto.
    intros b ranges' lbn' B' Hb32 Hb' Hl.
    destruct (per_block_ok bs (S depth) G1 G2 G3 Hd) as [P1 P2].
    destruct (N.eqb_spec b 0) as [->|Hz].
    + left. destruct (bn_add_ok (bs / 4) total (S depth) 0 ranges' lbn' B' Hb' Hl G4 Hb32 P1 P2) as (r & E & Hr).
      rewrite N.eqb_refl in *. set (added := repeat 0 _) in *.
      assert (Ea : firstn (N.to_nat (total - lbn')) (tree_blocks volume bs (S depth) 0) = added).
      { cbn [tree_blocks]. rewrite N.eqb_refl, firstn_repeat_min. unfold added. f_equal. lia. }
      rewrite Ea. eauto.
    + unfold mul_chk. assert (Hbb : b * bs < two64).
      { eapply N.le_lt_trans; [apply N.mul_le_mono_l, G3|]. unfold two32, two64 in *. lia. }
      destruct (N.ltb_spec (b * bs) two64); [|lia]. cbn [bind].
      unfold read_exact_at. destruct (N.leb_spec (b * bs + bs) (len volume)).
      * cbn [bind]. fold (block_at volume bs b).
        assert (Lb : len (block_at volume bs b) = bs) by (unfold block_at; rewrite len_bytes_at; lia).
        specialize (IH (block_at volume bs b) ranges' lbn' B' ltac:(lia)).
        cbn [tree_blocks tree_inside]. destruct (N.eqb_spec b 0); [contradiction|].
        destruct IH as [IH|[IH Hn]]; auto.
        { apply wf_bytes_at, Hw. } { lia. } { now rewrite Lb. }
        { left. exact IH. }
        { right. split; [exact IH|]. intros [?|[_ HF]]; [contradiction|]. apply Hn, HF. }
      * right. split; [reflexivity|]. cbn [tree_inside]. intros [?|[? _]]; [contradiction|lia].
Qed.

Lemma built_range_count ranges lbn B : built ranges lbn B -> len (described (rev ranges)) = lbn.
Proof. intros (_ & -> & H & _). exact H. Qed.

Lemma built_final ranges lbn B total : built ranges lbn B -> lbn <= total ->
  let ranges' := if lbn <? total then
      {| er_logical := lbn; er_physical := 0; er_count := total - lbn; er_sparse := true |} :: ranges
    else ranges in
  built ranges' total (B ++ repeat 0 (N.to_nat (total - lbn))).
Proof.
  intros Hb Hl. cbv zeta. destruct (N.ltb_spec lbn total).
  - pose proof (built_cons ranges lbn B
      {| er_logical := lbn; er_physical := 0; er_count := total - lbn; er_sparse := true |} Hb) as H'.
    cbn [er_logical er_count er_physical er_sparse range_blocks] in H'. unfold range_blocks in H'.
    cbn [er_sparse er_count] in H'. replace (lbn + (total - lbn)) with total in H' by lia.
    apply H'; auto; try lia.
  - replace (total - lbn) with 0 by lia. cbn [N.to_nat repeat]. rewrite app_nil_r.
    replace total with lbn by lia. exact Hb.
Qed.

Lemma words_reference ref : len ref = 60 -> words (firstn 48 ref) = firstn 12 (words ref) /\
  words (firstn 4 (skipn 48 ref)) = [nth 12 (words ref) 0] /\
  words (firstn 4 (skipn 52 ref)) = [nth 13 (words ref) 0] /\
  words (firstn 4 (skipn 56 ref)) = [nth 14 (words ref) 0].
Proof.
  intros H. unfold len in H. do 60 (destruct ref as [|? ref]; [cbn [length] in H; lia|]).
  destruct ref; [|cbn [length] in H; lia]. repeat split.
Qed.

Lemma wf_firstn n l : wf_bytes l -> wf_bytes (firstn n l).
Proof. intros H. pose proof (wf_bytes_at l 0 (N.of_nat n) H) as Q. unfold bytes_at in Q. now rewrite Nat2N.id in Q. Qed.
Lemma wf_skipn n l : wf_bytes l -> wf_bytes (skipn n l).
Proof.
  intros H. unfold wf_bytes in *. rewrite <- (firstn_skipn n l), Forall_app in H. apply H.
Qed.

Lemma firstn_grow {A} (X Y : list A) n :
  firstn n X ++ firstn (n - length (firstn n X)) Y = firstn n (X ++ Y).
Proof.
  rewrite firstn_app. f_equal. rewrite firstn_length.
  destruct (Nat.le_ge_cases n (length X)).
  - replace (n - length X)%nat with 0%nat by lia. replace (n - _)%nat with 0%nat by lia. reflexivity.
  - f_equal. lia.
Qed.

Lemma flat_map_blocks volume bs l : flat_map (tree_blocks volume bs 0) l = l.
Proof. induction l as [|x l IH]; [reflexivity|]. change (flat_map (tree_blocks volume bs 0) (x :: l)) with (x :: flat_map (tree_blocks volume bs 0) l). now rewrite IH. Qed.

Lemma block_numbers_ok volume bs total ref : wf_bytes volume -> len volume < two64 -> geometry bs total ->
  wf_bytes ref -> len ref = 60 ->
  (exists ranges, block_numbers_read volume bs total ref = Ok ranges /\ contiguous 0 ranges /\
     described ranges = mapped_blocks volume bs total ref /\
     Forall (fun r => er_physical r < 2 ^ 48 /\ (er_sparse r = false -> 0 < er_physical r)) ranges) \/
  (block_numbers_read volume bs total ref = Err /\
   ~ (tree_inside volume bs 1 (nth 12 (words ref) 0) /\ tree_inside volume bs 2 (nth 13 (words ref) 0) /\
      tree_inside volume bs 3 (nth 14 (words ref) 0))).
Proof.
  intros Hw Hv Hg Hwr Hlr. destruct (words_reference ref Hlr) as (W0 & W1 & W2 & W3).
  unfold block_numbers_read. rewrite (slice_ok ref 0 48), (slice_ok ref 48 52), (slice_ok ref 52 56), (slice_ok ref 56 60) by lia.
  change (N.to_nat (48 - 0)) with 48%nat. change (N.to_nat (52 - 48)) with 4%nat.
  change (N.to_nat (56 - 52)) with 4%nat. change (N.to_nat (60 - 56)) with 4%nat.
  change (N.to_nat 0) with 0%nat. change (N.to_nat 48) with 48%nat. change (N.to_nat 52) with 52%nat.
  change (N.to_nat 56) with 56%nat. change (skipn 0 ref) with ref.
  assert (L0 : len (firstn 48 ref) = 48) by (unfold len in *; rewrite firstn_length; lia).
  assert (L1 : len (firstn 4 (skipn 48 ref)) = 4) by (unfold len in *; rewrite firstn_length, skipn_length; lia).
  assert (L2 : len (firstn 4 (skipn 52 ref)) = 4) by (unfold len in *; rewrite firstn_length, skipn_length; lia).
  assert (L3 : len (firstn 4 (skipn 56 ref)) = 4) by (unfold len in *; rewrite firstn_length, skipn_length; lia).
  cbn [bind].
  (* the direct block numbers *)
  destruct (bn_read_ok volume bs total Hw Hv Hg 0 (firstn 48 ref) [] 0 [] ltac:(lia)) as [(r0 & E0 & B0)|[_ Hn]].
  { now apply wf_firstn. } { rewrite L0. unfold two64. lia. } { rewrite L0. reflexivity. } { apply built_nil. }
  2: { exfalso. apply Hn. apply Forall_forall. intros x _. exact I. }
  rewrite E0. cbn [bind]. rewrite W0 in B0, E0. rewrite N.sub_0_r, N.add_0_l in *. cbn [app] in B0.
  assert (Id : flat_map (tree_blocks volume bs 0) (firstn 12 (words ref)) = firstn 12 (words ref)).
  { apply flat_map_blocks. }
  rewrite Id in B0. set (D := firstn 12 (words ref)) in *.
  set (T1 := tree_blocks volume bs 1 (nth 12 (words ref) 0)).
  set (T2 := tree_blocks volume bs 2 (nth 13 (words ref) 0)).
  set (T3 := tree_blocks volume bs 3 (nth 14 (words ref) 0)).
  rewrite W0, Id. fold D. set (Q0 := firstn (N.to_nat total) D) in *.
  destruct (bn_read_ok volume bs total Hw Hv Hg 1 (firstn 4 (skipn 48 ref)) r0 (len Q0) Q0 ltac:(lia)) as [(r1 & E1 & B1)|[E1 Hn]].
  { now apply wf_firstn, wf_skipn. } { rewrite L1. unfold two64. lia. } { rewrite L1. reflexivity. } { exact B0. }
  2: { right. rewrite E1. split; [reflexivity|]. rewrite W1 in Hn. intros (H1 & _). apply Hn. apply Forall_cons; [exact H1|apply Forall_nil]. }
  rewrite E1. cbn [bind]. rewrite W1 in *. cbn [flat_map] in *. rewrite app_nil_r in *. fold T1 in E1, B1 |- *.
  set (Q1 := Q0 ++ firstn (N.to_nat (total - len Q0)) T1) in *.
  assert (N1 : len Q0 + len (firstn (N.to_nat (total - len Q0)) T1) = len Q1) by (unfold Q1; now rewrite len_app).
  rewrite N1 in *.
  destruct (bn_read_ok volume bs total Hw Hv Hg 2 (firstn 4 (skipn 52 ref)) r1 (len Q1) Q1 ltac:(lia)) as [(r2 & E2 & B2)|[E2 Hn]].
  { now apply wf_firstn, wf_skipn. } { rewrite L2. unfold two64. lia. } { rewrite L2. reflexivity. } { exact B1. }
  2: { right. rewrite E2. split; [reflexivity|]. rewrite W2 in Hn. intros (_ & H1 & _). apply Hn. apply Forall_cons; [exact H1|apply Forall_nil]. }
  rewrite E2. cbn [bind]. rewrite W2 in *. cbn [flat_map] in *. rewrite app_nil_r in *. fold T2 in E2, B2 |- *.
  set (Q2 := Q1 ++ firstn (N.to_nat (total - len Q1)) T2) in *.
  assert (N2 : len Q1 + len (firstn (N.to_nat (total - len Q1)) T2) = len Q2) by (unfold Q2; now rewrite len_app).
  rewrite N2 in *.
  destruct (bn_read_ok volume bs total Hw Hv Hg 3 (firstn 4 (skipn 56 ref)) r2 (len Q2) Q2 ltac:(lia)) as [(r3 & E3 & B3)|[E3 Hn]].
  { now apply wf_firstn, wf_skipn. } { rewrite L3. unfold two64. lia. } { rewrite L3. reflexivity. } { exact B2. }
  2: { right. rewrite E3. split; [reflexivity|]. rewrite W3 in Hn. intros (_ & _ & H1). apply Hn. apply Forall_cons; [exact H1|apply Forall_nil]. }
  rewrite E3. cbn [bind]. rewrite W3 in *. cbn [flat_map] in *. rewrite app_nil_r in *. fold T3 in E3, B3 |- *.
  set (Q3 := Q2 ++ firstn (N.to_nat (total - len Q2)) T3) in *.
  assert (N3 : len Q2 + len (firstn (N.to_nat (total - len Q2)) T3) = len Q3) by (unfold Q3; now rewrite len_app).
  rewrite N3 in *.
  assert (U0 : len Q0 <= total) by (unfold Q0, len; rewrite firstn_length; lia).
  assert (U1 : len Q1 <= total) by (rewrite <- N1; unfold len at 2; rewrite firstn_length; lia).
  assert (U2 : len Q2 <= total) by (rewrite <- N2; unfold len at 2; rewrite firstn_length; lia).
  assert (U3 : len Q3 <= total) by (rewrite <- N3; unfold len at 2; rewrite firstn_length; lia).
  pose proof (built_final r3 (len Q3) Q3 total B3 U3) as BF. cbv zeta in BF.
  left. eexists. split; [reflexivity|]. destruct BF as (F1 & F2 & _ & F4).
  split; [exact F1|]. split; [|now apply Forall_rev].
  rewrite F2. unfold mapped_blocks. fold D T1 T2 T3.
  assert (Hd : forall (l : list N), N.to_nat (total - len l) = (N.to_nat total - length l)%nat) by (intros; unfold len; lia).
  assert (K1 : Q1 = firstn (N.to_nat total) (D ++ T1)).
  { unfold Q1. rewrite Hd. unfold Q0. apply firstn_grow. }
  assert (K2 : Q2 = firstn (N.to_nat total) ((D ++ T1) ++ T2)).
  { unfold Q2. rewrite Hd, K1. apply firstn_grow. }
  assert (K3 : Q3 = firstn (N.to_nat total) (((D ++ T1) ++ T2) ++ T3)).
  { unfold Q3. rewrite Hd, K2. apply firstn_grow. }
  rewrite (app_assoc D), (app_assoc (D ++ T1)), (app_assoc ((D ++ T1) ++ T2)), <- firstn_grow, <- K3. f_equal.
  rewrite firstn_repeat_min. f_equal. unfold len. lia.
Qed.

(** ** Extents *)
Lemma lor_disjoint a b n : b < 2 ^ n -> N.lor (N.shiftl a n) b = a * 2 ^ n + b.
Proof.
  intros H. rewrite N.shiftl_mul_pow2. rewrite <- N.lxor_lor, N.add_nocarry_lxor; [reflexivity| |].
  all: apply N.bits_inj; intros i; rewrite N.land_spec, N.bits_0;
    destruct (N.ltb_spec i n) as [Hi|Hi];
    [rewrite N.mul_pow2_bits_low by assumption; reflexivity|];
    rewrite <- (N.mod_small b (2 ^ n) H), N.mod_pow2_bits_high by assumption; apply andb_false_r.
Qed.

Definition raw_extent (x : extent) : N * N * N :=
  (x_logical x, if x_written x then x_count x else x_count x + 32768, x_physical x).

Lemma physical_halves p : p < 2 ^ 48 ->
  (p / two32) mod 256 ^ N.of_nat 2 = p / two32 /\ (p mod two32) mod 256 ^ N.of_nat 4 = p mod two32 /\
  N.lor (N.shiftl (p / two32) 32) (p mod two32) = p.
Proof.
  intros H. assert (Hm : p mod two32 < two32) by (apply N.mod_lt; unfold two32; lia).
  split; [|split].
  - apply N.mod_small. apply N.div_lt_upper_bound; [unfold two32; lia|exact H].
  - apply N.mod_small, Hm.
  - rewrite lor_disjoint by exact Hm. change (2 ^ 32) with two32.
    rewrite N.mul_comm. symmetry. apply N.div_mod. unfold two32. lia.
Qed.

Lemma len_encode_extent x : len (encode_extent x) = 12.
Proof. unfold encode_extent. rewrite !len_app. unfold len. rewrite !le_bytes_length. reflexivity. Qed.

Lemma field_le n data pre v rest e :
  data = pre ++ le_bytes n v ++ rest -> e = len pre -> len pre + N.of_nat n < two64 -> v < 256 ^ N.of_nat n ->
  bytes_to_uint_le (N.of_nat n) data e = Ok v.
Proof. intros -> He H1 H2. now apply read_le. Qed.

Lemma extent_decode x : extent_ok x -> extent_descriptor_read (encode_extent x) = Ok (raw_extent x).
Proof.
  intros (H1 & H2 & H3 & H4). unfold extent_descriptor_read. rewrite len_encode_extent.
  change (12 =? 12) with true. cbn [check bind].
  destruct (physical_halves (x_physical x) H2) as (P1 & P2 & P3).
  set (c := if x_written x then x_count x else x_count x + 32768) in *.
  assert (Hc : c < 65536) by (unfold c; destruct (x_written x); lia).
  assert (Q1 : x_physical x / two32 < 65536) by (rewrite <- P1; apply N.mod_lt; cbn; lia).
  assert (Q2 : x_physical x mod two32 < two32) by (apply N.mod_lt; unfold two32; lia).
  assert (F1 : u32_le (encode_extent x) 0 = Ok (x_logical x)).
  { apply (field_le 4 _ [] _ (le_bytes 2 c ++ le_bytes 2 (x_physical x / two32) ++ le_bytes 4 (x_physical x mod two32)));
      [reflexivity|reflexivity|reflexivity|exact H1]. }
  assert (F2 : u16_le (encode_extent x) 4 = Ok c).
  { apply (field_le 2 _ (le_bytes 4 (x_logical x)) _ (le_bytes 2 (x_physical x / two32) ++ le_bytes 4 (x_physical x mod two32)));
      [reflexivity|reflexivity|reflexivity|exact Hc]. }
  assert (F3 : u16_le (encode_extent x) 6 = Ok (x_physical x / two32)).
  { apply (field_le 2 _ (le_bytes 4 (x_logical x) ++ le_bytes 2 c) _ (le_bytes 4 (x_physical x mod two32)));
      [unfold encode_extent; fold c; now rewrite <- !app_assoc|reflexivity|reflexivity|exact Q1]. }
  assert (F4 : u32_le (encode_extent x) 8 = Ok (x_physical x mod two32)).
  { apply (field_le 4 _ (le_bytes 4 (x_logical x) ++ le_bytes 2 c ++ le_bytes 2 (x_physical x / two32)) _ []);
      [unfold encode_extent; fold c; now rewrite <- !app_assoc, app_nil_r|reflexivity|reflexivity|exact Q2]. }
  rewrite F1, F2, F3, F4. cbn [bind]. rewrite P3. reflexivity.
Qed.

Lemma len_encode_index l p u0 u1 : len (encode_index l p u0 u1) = 12.
Proof. reflexivity. Qed.
Lemma index_decode l p u0 u1 : p < 2 ^ 48 -> extent_index_read (encode_index l p u0 u1) = Ok p.
Proof.
  intros H2. unfold extent_index_read. rewrite len_encode_index.
  change (12 =? 12) with true. cbn [check bind].
  destruct (physical_halves p H2) as (P1 & P2 & P3).
  assert (Q1 : p / two32 < 65536) by (rewrite <- P1; apply N.mod_lt; cbn; lia).
  assert (Q2 : p mod two32 < two32) by (apply N.mod_lt; unfold two32; lia).
  assert (F1 : exists v, u32_le (encode_index l p u0 u1) 0 = Ok v).
  { exists (l mod two32). apply (field_le 4 _ [] _ (le_bytes 4 (p mod two32) ++ le_bytes 2 (p / two32) ++ [u0; u1]));
      [|reflexivity|reflexivity|apply N.mod_lt; unfold two32; lia].
    unfold encode_index. rewrite (le_bytes_mod 4 l). reflexivity. }
  assert (F2 : u32_le (encode_index l p u0 u1) 4 = Ok (p mod two32)).
  { apply (field_le 4 _ (le_bytes 4 l) _ (le_bytes 2 (p / two32) ++ [u0; u1]));
      [reflexivity|reflexivity|reflexivity|exact Q2]. }
  assert (F3 : u16_le (encode_index l p u0 u1) 8 = Ok (p / two32)).
  { apply (field_le 2 _ (le_bytes 4 l ++ le_bytes 4 (p mod two32)) _ [u0; u1]);
      [unfold encode_index; now rewrite <- !app_assoc|reflexivity|reflexivity|exact Q1]. }
  destruct F1 as (v & ->). rewrite F2, F3. cbn [bind]. now rewrite P3.
Qed.

Lemma len_encode_header n m d g : len g = 4 -> len (encode_header n m d g) = 12.
Proof. intros H. unfold encode_header. rewrite !len_app, H. reflexivity. Qed.
Lemma header_decode n m d g : len g = 4 -> n < two16 -> d <= 5 ->
  extents_header_read (encode_header n m d g) = Ok (n, d).
Proof.
  intros Hg Hn Hd. unfold extents_header_read. rewrite len_encode_header by assumption.
  change (12 =? 12) with true. cbn [check bind].
  assert (Es : slice (encode_header n m d g) 0 2 = Ok [0x0a; 0xf3]).
  { apply (slice_app [] [0x0a; 0xf3]); reflexivity. }
  rewrite Es. cbn [bind]. destruct (list_eq_dec _ _ _) as [_|Hne]; [|congruence]. cbn [check bind].
  assert (F2 : u16_le (encode_header n m d g) 2 = Ok n).
  { apply (field_le 2 _ [0x0a; 0xf3] _ (le_bytes 2 m ++ le_bytes 2 d ++ g));
      [reflexivity|reflexivity|reflexivity|exact Hn]. }
  assert (F3 : u16_le (encode_header n m d g) 6 = Ok d).
  { apply (field_le 2 _ ([0x0a; 0xf3] ++ le_bytes 2 n ++ le_bytes 2 m) _ g);
      [unfold encode_header; now rewrite <- !app_assoc|reflexivity|reflexivity|cbn; lia]. }
  rewrite F2, F3. cbn [bind]. destruct (N.leb_spec d 5); [reflexivity|lia].
Qed.

Lemma slice_prefix {A} (a rest : list A) n : len a = n -> slice (a ++ rest) 0 n = Ok a.
Proof. intros <-. apply (slice_app [] a rest); reflexivity. Qed.

(** The loop over entries that are all decoded. *)
Lemma entries_run {E} (enc : E -> list N) (step : list N -> list ext_range * N -> res (list ext_range * N))
    (effect : E -> list ext_range * N -> list ext_range * N) :
  forall es pre rest st, Forall (fun e => len (enc e) = 12 /\ forall st, step (enc e) st = Ok (effect e st)) es ->
  extent_entries step (length es) (pre ++ flat_map enc es ++ rest) (len pre) st =
    Ok (fold_left (fun st e => effect e st) es st, len pre + 12 * len es).
Proof.
  induction es as [|e es IH]; intros pre rest st H.
  - cbn [length extent_entries fold_left]. do 2 f_equal. change (len (@nil E)) with 0. lia.
  - apply Forall_cons_iff in H as [[H1 H2] H]. cbn [length extent_entries flat_map fold_left].
    rewrite <- app_assoc. rewrite (slice_app pre (enc e)) by (rewrite ?H1; lia). cbn [bind].
    rewrite H2. cbn [bind]. rewrite app_assoc.
    replace (len pre + 12) with (len (pre ++ enc e)) by (rewrite len_app; lia).
    rewrite IH by assumption. do 2 f_equal. rewrite len_app, H1, len_cons. lia.
Qed.

Scheme extents_node_mut := Induction for extents_node Sort Prop
  with indexed_mut := Induction for indexed Sort Prop.

Definition add_extents (extents : list extent) (st : list ext_range * N) : list ext_range * N :=
  fold_left (fun st x => extent_add (raw_extent x) st) extents st.

Lemma footer_ok data o : o <= len data -> len data < two64 ->
  (remaining <- sub_chk (len data) o ;;
   (if 4 <=? remaining then footer <- slice data o (o + 4) ;; _ <- u32_le footer 0 ;; Ok tt else Ok tt)) = Ok tt.
Proof.
  intros Ho Hl. unfold sub_chk. destruct (N.leb_spec o (len data)); [|lia]. cbn [bind].
  destruct (N.leb_spec 4 (len data - o)); [|reflexivity].
  rewrite slice_ok by lia. cbn [bind]. fold (bytes_at data o (o + 4 - o)).
  unfold u32_le. rewrite u_le_bytes_at by (unfold two64; lia). reflexivity.
Qed.

Lemma extents_node_ok volume bs : len volume < two64 -> forall depth data extents,
  extents_node volume bs depth data extents ->
  forall fuel parent st, len data < two64 -> depth < parent -> (N.to_nat depth < fuel)%nat ->
  extents_node_read fuel volume bs data parent st = Ok (add_extents extents st).
Proof.
  intros Hv. apply (extents_node_mut volume bs
    (fun depth data extents _ => forall fuel parent st, len data < two64 -> depth < parent ->
       (N.to_nat depth < fuel)%nat ->
       extents_node_read fuel volume bs data parent st = Ok (add_extents extents st))
    (fun depth indexes extents _ => forall fuel, (N.to_nat depth <= fuel)%nat -> forall pre rest st,
       extent_entries (fun entry st =>
               physical_block_number <- extent_index_read entry ;;
               sub_node_offset <- mul_chk two64 physical_block_number bs ;;
               data <- read_exact_at volume sub_node_offset bs ;;
               extents_node_read fuel volume bs data depth st) (length indexes)
         (pre ++ concat indexes ++ rest) (len pre) st = Ok (add_extents extents st, len pre + 12 * len indexes) /\
       len (concat indexes) = 12 * len indexes)).
  - intros extents m g rest Hok Hn Hg fuel parent st Hl Hp Hf.
    destruct fuel as [|fuel]; [lia|]. cbn [extents_node_read].
    rewrite (slice_prefix (encode_header (len extents) m 0 g)) by (now apply len_encode_header). cbn [bind].
    rewrite header_decode by (try assumption; lia). cbn [bind].
    destruct (N.ltb_spec 0 parent); [|lia]. cbn [check bind]. change (0 <? 0) with false. cbv iota.
    assert (Lh : 12 = len (encode_header (len extents) m 0 g)) by (symmetry; now apply len_encode_header).
    rewrite Lh at 1. replace (N.to_nat (len extents)) with (length extents) by (unfold len; lia).
    rewrite (entries_run encode_extent _ (fun x st => extent_add (raw_extent x) st)).
    2: { eapply Forall_impl; [|exact Hok]. intros x Hx. split; [apply len_encode_extent|].
         intros st'. rewrite extent_decode by assumption. reflexivity. }
    cbn [bind]. fold (add_extents extents st). rewrite <- Lh.
    assert (Lf : len (flat_map encode_extent extents) = 12 * len extents).
    { clear. induction extents as [|x xs IH]; [reflexivity|]. cbn [flat_map]. rewrite len_app, IH, len_encode_extent, len_cons. lia. }
    pose proof (footer_ok (encode_header (len extents) m 0 g ++ flat_map encode_extent extents ++ rest)
      (12 + 12 * len extents)) as F.
    rewrite !len_app in *. rewrite <- Lh, Lf in *.
    destruct (sub_chk _ _) as [rem| |]; cbn [bind] in F |- *; [|specialize (F ltac:(lia) Hl); discriminate..].
    rewrite F by (try assumption; lia). reflexivity.
  - intros depth indexes extents m g rest Hd _ IH Hn Hg fuel parent st Hl Hp Hf.
    destruct fuel as [|fuel]; [lia|]. cbn [extents_node_read].
    rewrite (slice_prefix (encode_header (len indexes) m depth g)) by (now apply len_encode_header). cbn [bind].
    rewrite header_decode by (try assumption; lia). cbn [bind].
    destruct (N.ltb_spec depth parent); [|lia]. cbn [check bind].
    destruct (N.ltb_spec 0 depth); [|lia].
    assert (Lh : 12 = len (encode_header (len indexes) m depth g)) by (symmetry; now apply len_encode_header).
    rewrite Lh at 1. replace (N.to_nat (len indexes)) with (length indexes) by (unfold len; lia).
    destruct (IH fuel ltac:(lia) (encode_header (len indexes) m depth g) rest st) as [E Lf].
    rewrite E. cbn [bind]. rewrite <- Lh.
    pose proof (footer_ok (encode_header (len indexes) m depth g ++ concat indexes ++ rest)
      (12 + 12 * len indexes)) as F.
    rewrite !len_app in *. rewrite <- Lh, Lf in *.
    destruct (sub_chk _ _) as [rem| |]; cbn [bind] in F |- *; [|specialize (F ltac:(lia) Hl); discriminate..].
    rewrite F by (try assumption; lia). reflexivity.
  - intros depth fuel Hf pre rest st. cbn [length concat extent_entries]. split; [|reflexivity].
    unfold add_extents. cbn [fold_left]. do 2 f_equal. change (len (@nil (list N))) with 0. lia.
  - intros depth logical physical u0 u1 sub extents indexes extents' Hsub Hphys Hin Hnode IHn Hidx IHi fuel Hf pre rest st.
    cbn [length concat extent_entries]. rewrite <- app_assoc.
    rewrite (slice_app pre (encode_index logical physical u0 u1)) by (rewrite ?len_encode_index; lia). cbn [bind].
    rewrite index_decode by assumption. cbn [bind].
    assert (M : mul_chk two64 physical bs = Ok (physical * bs)).
    { unfold mul_chk. destruct (N.ltb_spec (physical * bs) two64); [reflexivity|lia]. }
    assert (R : read_exact_at volume (physical * bs) bs = Ok (block_at volume bs physical)).
    { unfold read_exact_at. destruct (N.leb_spec (physical * bs + bs) (len volume)); [reflexivity|lia]. }
    rewrite M. cbn [bind]. rewrite R. cbn [bind].
    assert (Lb : len (block_at volume bs physical) = bs) by (unfold block_at; rewrite len_bytes_at; lia).
    rewrite IHn by (try assumption; lia). cbn [bind]. rewrite (app_assoc pre (encode_index logical physical u0 u1)).
    replace (len pre + 12) with (len (pre ++ encode_index logical physical u0 u1))
      by (rewrite len_app, len_encode_index; lia).
    destruct (IHi fuel Hf (pre ++ encode_index logical physical u0 u1) rest (add_extents extents st)) as [E L].
    rewrite E, !len_app, L, len_encode_index, len_cons. split; [|lia].
    unfold add_extents. rewrite fold_left_app. do 2 f_equal. lia.
Qed.

(** The ranges of sorted extents. *)
Lemma add_extents_ok : forall extents ranges lbn B, built ranges lbn B -> Forall extent_ok extents ->
  sorted_extents lbn extents ->
  exists ranges', add_extents extents (ranges, lbn) = (ranges', lbn + len (extent_blocks lbn extents)) /\
    built ranges' (lbn + len (extent_blocks lbn extents)) (B ++ extent_blocks lbn extents).
Proof.
  induction extents as [|x extents IH]; intros ranges lbn B Hb Hok Hs.
  - exists ranges. cbn [extent_blocks]. rewrite app_nil_r. change (len (@nil N)) with 0. rewrite N.add_0_r.
    split; [reflexivity|assumption].
  - apply Forall_cons_iff in Hok as [(X1 & X2 & X3 & X4) Hok]. destruct Hs as [Hs1 Hs2].
    cbn [extent_blocks]. unfold add_extents. cbn [fold_left]. fold (add_extents extents).
    set (zeros := repeat 0 (N.to_nat (x_logical x - lbn))).
    set (own := if x_written x then seqN (x_physical x) (N.to_nat (x_count x)) else repeat 0 (N.to_nat (x_count x))).
    assert (Lz : len zeros = x_logical x - lbn) by (unfold zeros, len; rewrite repeat_length; lia).
    assert (Lo : len own = x_count x).
    { unfold own, len. destruct (x_written x); rewrite ?seqN_length, ?repeat_length; lia. }
    assert (G : exists r1, built r1 (x_logical x) (B ++ zeros) /\
      (if lbn <? x_logical x
       then ({| er_logical := lbn; er_physical := 0; er_count := x_logical x - lbn; er_sparse := true |} :: ranges, x_logical x)
       else (ranges, lbn)) = (r1, x_logical x)).
    { destruct (N.ltb_spec lbn (x_logical x)) as [Hlt|Hge].
      - eexists. split; [|reflexivity].
        pose proof (built_cons ranges lbn B
          {| er_logical := lbn; er_physical := 0; er_count := x_logical x - lbn; er_sparse := true |} Hb) as Q.
        cbn [er_logical er_count er_physical er_sparse] in Q. replace (lbn + (x_logical x - lbn)) with (x_logical x) in Q by lia.
        apply Q; auto; lia.
      - assert (lbn = x_logical x) as El by lia. exists ranges. unfold zeros. rewrite El, N.sub_diag. cbn [N.to_nat repeat].
        rewrite app_nil_r. rewrite <- El. split; [assumption|reflexivity]. }
    destruct G as (r1 & Hb1 & Er1).
    set (fresh := {| er_logical := x_logical x; er_physical := x_physical x; er_count := x_count x;
                     er_sparse := negb (x_written x) |}).
    assert (Ea : extent_add (raw_extent x) (ranges, lbn) = (fresh :: r1, x_logical x + x_count x)).
    { unfold extent_add, raw_extent. rewrite Er1. unfold fresh.
      destruct (x_written x) eqn:Ew; cbn [negb].
      - destruct (N.ltb_spec 32768 (x_count x)); [lia|]. specialize (X4 eq_refl).
        destruct (N.eqb_spec (x_physical x) 0); [lia|]. reflexivity.
      - destruct (N.ltb_spec 32768 (x_count x + 32768)); [|lia].
        replace (x_count x + 32768 - 32768) with (x_count x) by lia. reflexivity. }
    assert (Hb2 : built (fresh :: r1) (x_logical x + x_count x) ((B ++ zeros) ++ own)).
    { replace own with (range_blocks fresh).
      - apply (built_cons r1 (x_logical x) (B ++ zeros) fresh Hb1); auto; cbn [fresh er_count er_physical er_sparse].
        + destruct (x_written x); lia.
        + intros Hf. apply X4. destruct (x_written x); [reflexivity|discriminate].
      - unfold range_blocks, own, fresh. cbn [er_sparse er_count er_physical]. destruct (x_written x); reflexivity. }
    destruct (IH (fresh :: r1) (x_logical x + x_count x) ((B ++ zeros) ++ own) Hb2 Hok Hs2) as (r2 & E2 & Hb3).
    exists r2. change (fold_left _ extents _) with (add_extents extents (extent_add (raw_extent x) (ranges, lbn))).
    rewrite Ea, E2, !len_app, Lz, Lo. rewrite <- !app_assoc in Hb3.
    replace (lbn + (x_logical x - lbn + (x_count x + len (extent_blocks (x_logical x + x_count x) extents))))
      with (x_logical x + x_count x + len (extent_blocks (x_logical x + x_count x) extents)) by lia.
    split; [reflexivity|exact Hb3].
Qed.

Lemma extents_read_ok volume bs total ref depth extents : len volume < two64 -> len ref < two64 ->
  extents_node volume bs depth ref extents -> Forall extent_ok extents -> sorted_extents 0 extents ->
  len (extent_blocks 0 extents) <= total ->
  exists ranges, extents_read volume bs total ref = Ok ranges /\ contiguous 0 ranges /\
    described ranges = extent_blocks 0 extents ++ repeat 0 (N.to_nat (total - len (extent_blocks 0 extents))) /\
    Forall (fun r => er_physical r < 2 ^ 48 /\ (er_sparse r = false -> 0 < er_physical r)) ranges.
Proof.
  intros Hv Hr Hn Hok Hs Ht. unfold extents_read.
  assert (Hd : depth <= 5) by (destruct Hn; lia).
  rewrite (extents_node_ok volume bs Hv depth ref extents Hn 6%nat 6 ([], 0)) by (try assumption; lia).
  cbn [bind]. destruct (add_extents_ok extents [] 0 [] built_nil Hok Hs) as (r & E & B).
  rewrite E. rewrite N.add_0_l in *. cbn [app] in B.
  pose proof (built_final r (len (extent_blocks 0 extents)) (extent_blocks 0 extents) total B Ht) as (F1 & F2 & _ & F4).
  eexists. split; [reflexivity|]. split; [exact F1|]. split; [exact F2|]. now apply Forall_rev.
Qed.

Lemma extents_node_extents_ok volume bs depth data extents :
  extents_node volume bs depth data extents -> Forall extent_ok extents.
Proof.
  apply (extents_node_mut volume bs (fun _ _ extents _ => Forall extent_ok extents)
    (fun _ _ extents _ => Forall extent_ok extents)); intros; auto.
  apply Forall_app. auto.
Qed.

(** ** Panics *)
Definition overfull (node : list N) : Prop := len node < 12 + 12 * le_value (bytes_at node 2 2).

Lemma u_le_fits n data e : e + n <= len data -> len data < two64 ->
  bytes_to_uint_le n data e = Ok (le_value (bytes_at data e n)).
Proof.
  intros H1 H2. unfold bytes_to_uint_le, add_chk. destruct (N.ltb_spec (e + n) two64); [|lia].
  cbn [bind]. rewrite slice_ok by lia. cbn [bind]. unfold bytes_at. do 3 f_equal. lia.
Qed.
Lemma le_bits_bound b : wf_bytes b -> le_value b < 2 ^ (8 * len b).
Proof. intros H. pose proof (le_value_bound b H). now rewrite pow2_8. Qed.

Lemma extents_header_shape h : len h = 12 ->
  extents_header_read h = Err \/
  exists d, d <= 5 /\ extents_header_read h = Ok (le_value (bytes_at h 2 2), d).
Proof.
  intros Hl. unfold extents_header_read. rewrite Hl. change (12 =? 12) with true. cbn [check bind].
  rewrite slice_ok by lia. cbn [bind]. destruct (list_eq_dec _ _ _); [|left; reflexivity]. cbn [check bind].
  unfold u16_le. rewrite (u_le_fits 2 h 2), (u_le_fits 2 h 6) by (rewrite ?Hl; unfold two64; lia). cbn [bind].
  destruct (N.leb_spec (le_value (bytes_at h 6 2)) 5); [|left; reflexivity].
  right. eexists. split; [|reflexivity]. assumption.
Qed.

Lemma extent_index_shape e : wf_bytes e -> len e = 12 -> exists p, p < 2 ^ 48 /\ extent_index_read e = Ok p.
Proof.
  intros Hw Hl. unfold extent_index_read. rewrite Hl. change (12 =? 12) with true. cbn [check bind].
  unfold u16_le, u32_le. rewrite (u_le_fits 4 e 0), (u_le_fits 4 e 4), (u_le_fits 2 e 8) by (rewrite ?Hl; unfold two64; lia).
  cbn [bind]. eexists. split; [|reflexivity].
  pose proof (le_bits_bound (bytes_at e 4 4) (wf_bytes_at _ _ _ Hw)) as B1.
  pose proof (le_bits_bound (bytes_at e 8 2) (wf_bytes_at _ _ _ Hw)) as B2.
  rewrite len_bytes_at in B1, B2. rewrite Hl in B1, B2. cbn in B1, B2.
  rewrite lor_disjoint by exact B1. cbn. lia.
Qed.
Lemma extent_descriptor_shape e : len e = 12 -> exists d, extent_descriptor_read e = Ok d.
Proof.
  intros Hl. unfold extent_descriptor_read. rewrite Hl. change (12 =? 12) with true. cbn [check bind].
  unfold u16_le, u32_le. rewrite (u_le_fits 4 e 0), (u_le_fits 2 e 4), (u_le_fits 2 e 6), (u_le_fits 4 e 8)
    by (rewrite ?Hl; unfold two64; lia).
  cbn [bind]. eexists. reflexivity.
Qed.

(** The loop panics only if an entry is outside the data or the step panics. *)
Lemma extent_entries_panic step data : wf_bytes data -> forall n o st,
  o + 12 * N.of_nat n <= len data ->
  match extent_entries step n data o st with
  | Ok (_, o') => o' = o + 12 * N.of_nat n
  | Err => True
  | Panic => exists e st', wf_bytes e /\ len e = 12 /\ step e st' = Panic
  end.
Proof.
  intros Hw. induction n as [|n IH]; intros o st Ho.
  - cbn [extent_entries]. lia.
  - cbn [extent_entries]. rewrite slice_ok by lia. cbn [bind]. fold (bytes_at data o (o + 12 - o)).
    replace (o + 12 - o) with 12 by lia.
    destruct (step (bytes_at data o 12) st) as [st'| |] eqn:E; cbn [bind]; [|exact I|].
    + specialize (IH (o + 12) st' ltac:(lia)).
      destruct (extent_entries step n data (o + 12) st') as [[st'' o']| |]; [lia|exact I|assumption].
    + exists (bytes_at data o 12), st. split; [now apply wf_bytes_at|]. rewrite len_bytes_at. split; [lia|assumption].
Qed.

Lemma extents_node_panic volume bs : wf_bytes volume -> len volume < two64 -> bs <= 65536 -> forall fuel data parent st,
  wf_bytes data -> len data < two64 -> 0 < parent -> (N.to_nat parent <= fuel)%nat ->
  extents_node_read fuel volume bs data parent st = Panic ->
  overfull data \/ exists b, b * bs + bs <= len volume /\ overfull (block_at volume bs b).
Proof.
  intros Hwv Hv Hbs. induction fuel as [|fuel IH]; intros data parent st Hw Hl Hp Hf E; [lia|].
  destruct (N.ltb_spec (len data) (12 + 12 * le_value (bytes_at data 2 2))) as [?|Hfit]; [now left|].
  right. cbn [extents_node_read] in E. rewrite slice_ok in E by lia. cbn [bind] in E.
  fold (bytes_at data 0 (12 - 0)) in E. change (12 - 0) with 12 in E.
  assert (Lh : len (bytes_at data 0 12) = 12) by (rewrite len_bytes_at; lia).
  assert (En : bytes_at (bytes_at data 0 12) 2 2 = bytes_at data 2 2) by (rewrite bytes_at_bytes_at by lia; reflexivity).
  destruct (extents_header_shape _ Lh) as [E0|(d & Hd & E0)]; rewrite E0 in E; cbn [bind] in E; [discriminate|].
  rewrite En in E. destruct (N.ltb_spec d parent) as [Hdp|]; cbn [check bind] in E; [|discriminate].
  set (n := le_value (bytes_at data 2 2)) in *.
  match type of E with context [extent_entries ?s _ _ _ _] => set (step := s) in * end.
  pose proof (extent_entries_panic step data Hw (N.to_nat n) 12 st ltac:(lia)) as Q.
  destruct (extent_entries step (N.to_nat n) data 12 st) as [[st' o']| |] eqn:Ee; cbn [bind] in E; [|discriminate|].
  - exfalso. pose proof (footer_ok data o' ltac:(lia) Hl) as F.
    destruct (sub_chk (len data) o') as [rem| |]; cbn [bind] in F, E; [|discriminate..].
    rewrite F in E. discriminate.
  - destruct Q as (e & st' & We & Le & Es). unfold step in Es.
    destruct (N.ltb_spec 0 d) as [Hd0|].
    + destruct (extent_index_shape e We Le) as (p & Hp48 & Ei). rewrite Ei in Es. cbn [bind] in Es.
      assert (M : mul_chk two64 p bs = Ok (p * bs)).
      { unfold mul_chk. destruct (N.ltb_spec (p * bs) two64) as [|Hge]; [reflexivity|].
        exfalso. change (2 ^ 48) with 281474976710656 in Hp48. unfold two64 in Hge. nia. }
      rewrite M in Es. cbn [bind] in Es. unfold read_exact_at in Es.
      destruct (N.leb_spec (p * bs + bs) (len volume)) as [Hin|]; cbn [bind] in Es; [|discriminate].
      fold (block_at volume bs p) in Es.
      destruct (IH (block_at volume bs p) d st') as [Ho|Ho]; auto.
      * now apply wf_bytes_at.
      * unfold block_at. rewrite len_bytes_at. unfold two64. lia.
      * lia.
      * exists p. auto.
    + destruct (extent_descriptor_shape e Le) as (x & Ex). rewrite Ex in Es. discriminate.
Qed.

(** ** The stream *)
Definition sized (bs : N) (ranges : list ext_range) : list (N * ext_range) :=
  map (fun r => (er_count r * bs, r)) ranges.
Lemma total_sized bs ranges : total (sized bs ranges) = len (described ranges) * bs.
Proof.
  induction ranges as [|r ranges IH]; [reflexivity|].
  change (described (r :: ranges)) with (range_blocks r ++ described ranges).
  change (total (sized bs (r :: ranges))) with (er_count r * bs + total (sized bs ranges)).
  rewrite IH, len_app, len_range_blocks. lia.
Qed.

Lemma ext_insert_ok bs : forall ranges first t, contiguous first ranges ->
  (first + len (described ranges)) * bs < two64 ->
  ext_insert bs ranges t = insert_ranges t (consecutive (first * bs) (sized bs ranges)).
Proof.
  induction ranges as [|r ranges IH]; intros first t Hc Hb; [reflexivity|].
  destruct Hc as (H1 & H2 & H3). change (described (r :: ranges)) with (range_blocks r ++ described ranges) in Hb.
  rewrite len_app, len_range_blocks in Hb. cbn [ext_insert sized map consecutive insert_ranges]. fold (sized bs ranges).
  unfold mul_chk. rewrite H1. destruct (N.ltb_spec (first * bs) two64); [|nia]. cbn [bind].
  destruct (N.ltb_spec (er_count r * bs) two64); [|nia]. cbn [bind].
  destruct (bt_insert t (first * bs) (er_count r * bs) r) as [t1 [[]| |]]; try reflexivity.
  rewrite (IH (first + er_count r)) by (try assumption; lia). now rewrite N.mul_add_distr_r.
Qed.

(** The content of ranges. *)
Definition range_content (volume : list N) (bs : N) (e : N * ext_range) : list N :=
  flat_map (block_content volume bs) (range_blocks (snd e)).
Definition inside (volume : list N) (bs b : N) : Prop := b = 0 \/ b * bs + bs <= len volume.

Lemma len_block_content volume bs b : inside volume bs b -> len (block_content volume bs b) = bs.
Proof.
  intros [->|H]; unfold block_content.
  - change (0 =? 0) with true. cbv iota. unfold len. rewrite repeat_length. lia.
  - destruct (b =? 0); [unfold len; rewrite repeat_length; lia|]. unfold block_at. rewrite len_bytes_at. lia.
Qed.
Lemma len_blocks_content volume bs blocks : Forall (inside volume bs) blocks ->
  len (flat_map (block_content volume bs) blocks) = len blocks * bs.
Proof.
  induction 1 as [|b blocks H _ IH]; [reflexivity|]. cbn [flat_map]. rewrite len_app, IH, len_block_content, len_cons by assumption. lia.
Qed.
Lemma described_content volume bs ranges :
  flat_map (block_content volume bs) (described ranges) = flat_map (range_content volume bs) (sized bs ranges).
Proof.
  induction ranges as [|r ranges IH]; [reflexivity|].
  change (described (r :: ranges)) with (range_blocks r ++ described ranges).
  rewrite flat_map_app, IH. reflexivity.
Qed.
Lemma content_zeros volume bs n : flat_map (block_content volume bs) (repeat 0 n) = repeat 0 (n * N.to_nat bs).
Proof.
  induction n as [|n IH]; [reflexivity|]. cbn [repeat flat_map]. rewrite IH. unfold block_content.
  change (0 =? 0) with true. cbv iota. rewrite <- repeat_app. reflexivity.
Qed.
Lemma content_seq volume bs : forall n p, 0 < p ->
  flat_map (block_content volume bs) (seqN p n) = bytes_at volume (p * bs) (N.of_nat n * bs).
Proof.
  induction n as [|n IH]; intros p Hp; [reflexivity|]. cbn [seqN flat_map]. rewrite IH by lia.
  unfold block_content. destruct (N.eqb_spec p 0); [lia|]. unfold block_at.
  replace (N.of_nat (S n) * bs) with (bs + N.of_nat n * bs) by lia.
  rewrite (bytes_at_split volume (p * bs) bs). f_equal. f_equal. lia.
Qed.

Lemma ext_step_exact volume bs ranges t size :
  0 < bs -> contiguous 0 ranges -> Forall (inside volume bs) (described ranges) ->
  Forall (fun r => er_sparse r = false -> 0 < er_physical r) ranges ->
  len (described ranges) * bs < two64 -> len volume < two64 -> size <= len (described ranges) * bs ->
  (forall x, x < len (described ranges) * bs -> exists o s v, bt_get t x = Ok (Some v) /\
      In (o, s, v) (consecutive 0 (sized bs ranges)) /\ o <= x < o + s) ->
  exact_step (fun _ => True) size (blocks_content volume bs (described ranges) size)
    (ext_step volume {| xs_block_size := bs; xs_tree := t; xs_size := size |}).
Proof.
  intros Hbs Hc Hin Hpos Htot Hvol Hsz G u o r _ Ho Hr Hor.
  unfold ext_step. cbn [xs_block_size xs_tree].
  destruct (G o ltac:(lia)) as (ro & s & v & E & Hi & Hcv). rewrite E. cbn [bind of_option].
  assert (Hv : In v ranges /\ s = er_count v * bs /\ ro = er_logical v * bs /\ ro + s <= len (described ranges) * bs).
  { assert (Q : forall first, contiguous first ranges -> In (ro, s, v) (consecutive (first * bs) (sized bs ranges)) ->
      In v ranges /\ s = er_count v * bs /\ ro = er_logical v * bs /\ ro + s <= (first + len (described ranges)) * bs).
    { clear. induction ranges as [|r0 ranges IH]; intros first Hc Hi; [destruct Hi|].
      destruct Hc as (H1 & H2 & H3). cbn [sized map consecutive] in Hi. fold (sized bs ranges) in Hi.
      change (described (r0 :: ranges)) with (range_blocks r0 ++ described ranges).
      rewrite len_app, len_range_blocks.
      destruct Hi as [[= <- <- <-]|Hi]; [split; [now left|]; split; [reflexivity|]; split; [now rewrite H1|lia]|].
      rewrite <- N.mul_add_distr_r in Hi. destruct (IH _ H3 Hi) as (A & B & C & D).
      split; [now right|]. split; [assumption|]. split; [assumption|]. lia. }
    destruct (Q 0 Hc Hi) as (A & B & C & D). rewrite N.add_0_l in D. auto. }
  destruct Hv as (Hv & -> & -> & Hend).
  unfold mul_chk at 1 2. destruct (N.ltb_spec (er_logical v * bs) two64); [|lia]. cbn [bind].
  destruct (N.ltb_spec (er_count v * bs) two64); [|lia]. cbn [bind].
  unfold sub_chk. destruct (N.leb_spec (er_logical v * bs) o); [|lia]. cbn [bind].
  set (ro := er_logical v * bs) in *. destruct (N.leb_spec (o - ro) (er_count v * bs)); [|lia]. cbn [bind].
  set (k := N.min r (er_count v * bs - (o - ro))).
  assert (Hk : 0 < k <= r /\ o + k <= ro + er_count v * bs) by (unfold k; lia).
  exists u, k. split; [|split; [exact I|lia]]. f_equal.
  assert (Hiv : Forall (inside volume bs) (range_blocks v)).
  { rewrite Forall_forall in Hin |- *. intros x Hx. apply Hin. apply in_flat_map. exists v. auto. }
  assert (EX : bytes_at (blocks_content volume bs (described ranges) size) o k =
               bytes_at (range_content volume bs (er_count v * bs, v)) (o - ro) k).
  { unfold blocks_content. rewrite bytes_at_bytes_at by lia. rewrite N.add_0_l, described_content.
    rewrite <- (bytes_at_concat (range_content volume bs) (sized bs ranges)) with (o := 0) (o' := ro) (pre := []).
    - cbn [app]. rewrite bytes_at_bytes_at by lia. f_equal. lia.
    - apply Forall_map. rewrite Forall_forall in Hin |- *. intros x Hx. unfold range_content. cbn [snd fst].
      rewrite len_blocks_content, len_range_blocks; [reflexivity|].
      apply Forall_forall. intros b Hb. apply Hin. apply in_flat_map. exists x. auto.
    - reflexivity.
    - exact Hi. }
  rewrite EX. unfold range_content. cbn [snd].
  rewrite Forall_forall in Hpos. specialize (Hpos v Hv).
  pose proof (len_blocks_content volume bs _ Hiv) as Lv. rewrite len_range_blocks in Lv.
  unfold range_blocks in *. destruct (er_sparse v).
  - rewrite content_zeros. f_equal. unfold bytes_at. rewrite skipn_repeat, firstn_repeat. f_equal. lia.
  - specialize (Hpos eq_refl). rewrite content_seq in * by assumption. rewrite N2Nat.id in *.
    assert (Hp : er_physical v * bs + er_count v * bs <= len volume).
    { rewrite len_bytes_at in Lv. lia. }
    unfold mul_chk. destruct (N.ltb_spec (er_physical v * bs) two64); [|lia]. cbn [bind].
    unfold add_chk. destruct (N.ltb_spec (er_physical v * bs + (o - ro)) two64); [|lia]. cbn [bind].
    unfold read_at. rewrite bytes_at_bytes_at by lia. reflexivity.
Qed.

Lemma ext_reads volume bs ranges size : 0 < bs -> contiguous 0 ranges ->
  Forall (inside volume bs) (described ranges) ->
  Forall (fun r => er_physical r < 2 ^ 48 /\ (er_sparse r = false -> 0 < er_physical r)) ranges ->
  len (described ranges) * bs < two64 -> len volume < two64 ->
  size <= len (described ranges) * bs -> size < two63 ->
  exists stream, ext_stream_open bs size (len (described ranges)) ranges = Ok stream /\
    forall ops, seeks_ok size (blocks_content volume bs (described ranges) size) 0 ops ->
    run (ext_stream_step volume stream) (tt, 0) ops =
      ((tt, fst (run (file_step size (blocks_content volume bs (described ranges) size)) 0 ops)),
       snd (run (file_step size (blocks_content volume bs (described ranges) size)) 0 ops)).
Proof.
  intros Hbs Hc Hin Hpos Htot Hvol Hsz Hs63.
  destruct (consecutive_tree (len (described ranges) * bs) bs (sized bs ranges)) as (tr & E & G); auto.
  { clear - Hbs Hc. revert Hc. generalize 0 at 1. induction ranges as [|r ranges IH]; intros first Hc; [constructor|].
    destruct Hc as (H1 & H2 & H3). cbn [sized map]. constructor; [|eapply IH; eassumption]. cbn [fst]. split; [nia|].
    apply N.mod_mul. lia. }
  { rewrite total_sized. lia. }
  rewrite total_sized in G.
  exists {| xs_block_size := bs; xs_tree := tr; xs_size := size |}. unfold ext_stream_open.
  unfold mul_chk. destruct (N.ltb_spec (len (described ranges) * bs) two64); [|lia]. cbn [bind].
  rewrite (ext_insert_ok bs ranges 0) by assumption. rewrite N.mul_0_l, E. cbn [bind]. split; [reflexivity|].
  intros ops Hops.
  destruct (run_exact (fun _ => True) size (blocks_content volume bs (described ranges) size)
    (ext_rd volume {| xs_block_size := bs; xs_tree := tr; xs_size := size |})) with (ops := ops) (s := tt) (p := 0)
    as ([] & E' & _); auto.
  - unfold ext_rd. cbn [xs_size]. apply blocks_rd_exact; [|unfold two63, two64 in *; lia].
    apply ext_step_exact; auto. eapply Forall_impl; [|exact Hpos]. intros r H'. apply H'.
  - unfold blocks_content. rewrite len_bytes_at. lia.
  - unfold two63. lia.
Qed.
