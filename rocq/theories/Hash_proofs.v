From Verif Require Import Base BaseLemmas Hash_tables Hash_model Hash_spec.

(** ** The context machinery, for any block transform *)
Section Machine.
  Variable a : hash_alg.
  Let bs := ha_block_size a.
  Variable field : N.
  Variable length_field : N -> list N.
  Hypothesis bs_pos : 0 < bs.
  Hypothesis field_ok : 8 <= field.
  Hypothesis bs_16 : 16 < bs.
  Hypothesis limit_ok : ha_limit a = bs - field.
  Hypothesis bs_field : field < bs.
  Hypothesis bs_small : bs < 1000.
  Hypothesis len8 : forall v, length (ha_length_bytes a v) = 8%nat.
  Hypothesis field_bytes : forall v, v < two64 ->
    length_field v = repeat 0 (N.to_nat (field - 8)) ++ ha_length_bytes a v.
  Hypothesis pad_count : forall q off, off <= bs ->
    zero_bytes bs field (bs * q + off) =
    (bs * (if ha_limit a <=? off then 2 else 1)) - field - off - 1.

  Lemma firstn_set_nth {A} (l : list A) i v : (i < length l)%nat ->
    firstn (S i) (set_nth l i v) = firstn i l ++ [v].
  Proof.
    revert i; induction l as [|x l IH]; intros i Hi; cbn [length] in Hi; [lia|].
    destruct i; cbn [set_nth firstn app]; [reflexivity|]. f_equal. apply IH; lia.
  Qed.

  Lemma hash_fill_ok data : forall block off p,
    off <= bs -> length block = N.to_nat (2 * bs) -> firstn (N.to_nat off) block = p ->
    exists block' d1 rest, hash_fill a block off data = Ok (block', off + len d1, rest) /\
      data = d1 ++ rest /\ off + len d1 <= bs /\ length block' = N.to_nat (2 * bs) /\
      firstn (N.to_nat (off + len d1)) block' = p ++ d1 /\
      (rest = [] \/ off + len d1 = bs).
  Proof.
    induction data as [|b data IH]; intros block off p Ho Hl Hp.
    - exists block, [], []. cbn [hash_fill]. rewrite len_nil, N.add_0_r, ?app_nil_r.
      repeat split; auto.
    - cbn [hash_fill]. fold bs. destruct (off <? bs) eqn:E.
      + unfold upd, len at 1. rewrite Hl. replace (off <? N.of_nat (N.to_nat (2 * bs))) with true by lia.
        cbn [bind].
        destruct (IH (set_nth block (N.to_nat off) b) (off + 1) (p ++ [b]))
          as (block' & d1 & rest & H1 & H2 & H3 & H4 & H5 & H6).
        { lia. } { rewrite set_nth_length; auto. }
        { replace (N.to_nat (off + 1)) with (S (N.to_nat off)) by lia.
          rewrite firstn_set_nth by lia. rewrite Hp. reflexivity. }
        exists block', (b :: d1), rest.
        replace (off + len (b :: d1)) with (off + 1 + len d1) by (rewrite len_cons; lia).

        split; [exact H1|]. split; [rewrite H2; reflexivity|].
        rewrite <- app_assoc in H5. auto.
      + exists block, [], (b :: data). rewrite len_nil, N.add_0_r, ?app_nil_r.
        repeat split; auto. right; lia.
  Qed.

  Lemma hash_store_ok data : forall block off p,
    off + len data <= 2 * bs -> length block = N.to_nat (2 * bs) ->
    firstn (N.to_nat off) block = p ->
    exists block', hash_store block off data = Ok (block', off + len data) /\
      length block' = N.to_nat (2 * bs) /\
      firstn (N.to_nat (off + len data)) block' = p ++ data.
  Proof.
    induction data as [|b data IH]; intros block off p Ho Hl Hp.
    - exists block. cbn [hash_store]. rewrite len_nil, N.add_0_r, ?app_nil_r. auto.
    - cbn [hash_store]. rewrite len_cons in *. unfold upd, len at 1. rewrite Hl.
      replace (off <? N.of_nat (N.to_nat (2 * bs))) with true by lia. cbn [bind].
      destruct (IH (set_nth block (N.to_nat off) b) (off + 1) (p ++ [b])) as (block' & H1 & H2 & H3).
      { lia. } { rewrite set_nth_length; auto. }
      { replace (N.to_nat (off + 1)) with (S (N.to_nat off)) by lia.
        rewrite firstn_set_nth by lia. rewrite Hp. reflexivity. }
      exists block'. replace (off + (len data + 1)) with (off + 1 + len data) by lia.
      rewrite <- app_assoc in H3. auto.
  Qed.

  Definition full (b : list N) : Prop := length b = N.to_nat bs.

  Lemma transform_at_0 values data : bs <= len data ->
    transform_at a values data 0 = Ok (ha_transform a values (firstn (N.to_nat bs) data)).
  Proof.
    intros H. unfold transform_at, slice. fold bs.
    replace ((0 <=? 0 + bs) && (0 + bs <=? len data)) with true by lia.
    cbn [bind]. rewrite N.sub_0_r, N.add_0_l. reflexivity.
  Qed.

  Lemma hash_blocks_ok fuel : forall values count data,
    (length data <= fuel)%nat -> count + len data < two64 ->
    exists bl rest, hash_blocks a fuel values count data =
        Ok (fold_left (ha_transform a) bl values, count + bs * len bl, rest) /\
      data = concat bl ++ rest /\ Forall full bl /\ len rest <= bs.
  Proof.
    induction fuel as [|fuel IH]; intros values count data Hf Hc.
    - exists [], data. cbn [hash_blocks fold_left concat app]. rewrite len_nil, N.mul_0_r, N.add_0_r.
      repeat split; auto. unfold len. lia.
    - cbn [hash_blocks]. fold bs. destruct (bs <? len data) eqn:E.
      + rewrite transform_at_0 by lia. cbn [bind]. unfold add_chk.
        replace (count + bs <? two64) with true by lia. cbn [bind].
        assert (Hfn : full (firstn (N.to_nat bs) data)).
        { unfold full. rewrite firstn_length_le; auto. unfold len in E. lia. }
        destruct (IH (ha_transform a values (firstn (N.to_nat bs) data)) (count + bs) (skipn (N.to_nat bs) data))
          as (bl & rest & H1 & H2 & H3 & H4).
        { rewrite skipn_length. lia. }
        { unfold len in *. rewrite skipn_length. lia. }
        exists (firstn (N.to_nat bs) data :: bl), rest.
        split; [rewrite H1; cbn [fold_left]; rewrite len_cons; do 3 f_equal; lia|].
        split; [cbn [concat]; rewrite <- app_assoc, <- H2, firstn_skipn; reflexivity|].
        split; auto.
      + exists [], data. cbn [fold_left concat app]. rewrite len_nil, N.mul_0_r, N.add_0_r.
        repeat split; auto. lia.
  Qed.

  (** State of a context that has absorbed the message [m]. *)
  Definition absorbed (m : list N) (c : hash_ctx) : Prop :=
    exists bl pend,
      m = concat bl ++ pend /\ Forall full bl /\
      hc_values c = fold_left (ha_transform a) bl (ha_initial a) /\
      hc_bytes_hashed c = bs * len bl /\
      hc_block_offset c = len pend /\ len pend <= bs /\
      length (hc_block c) = N.to_nat (2 * bs) /\
      firstn (N.to_nat (len pend)) (hc_block c) = pend.

  Lemma concat_full_len bl : Forall full bl -> len (concat bl) = bs * len bl.
  Proof.
    induction 1 as [|b bl Hb Hbl IH]; [unfold len; cbn [concat length]; lia|].
    cbn [concat]. rewrite len_app, len_cons, IH. unfold full in Hb. unfold len at 1. lia.
  Qed.

  Lemma absorbed_new : absorbed [] (hash_new a).
  Proof.
    exists [], []. cbn. fold bs. rewrite repeat_length, N.mul_0_r. repeat split; auto. lia.
  Qed.

  Lemma update_ok m c data :
    absorbed m c -> len m + len data < two64 ->
    exists c', hash_update a c data = Ok c' /\ absorbed (m ++ data) c'.
  Proof.
    intros (bl & pend & Hm & Hbl & Hv & Hn & Ho & Hp & Hlb & Hfb) Hlen.
    assert (Hlm : len m = bs * len bl + len pend)
      by (rewrite Hm, len_app, concat_full_len by auto; reflexivity).
    unfold hash_update.
    assert (Hstage : exists bl1 pend1 block1 data1,
      (if 0 <? hc_block_offset c then
         '(block, offset, data) <- hash_fill a (hc_block c) (hc_block_offset c) data ;;
         if offset =? ha_block_size a then
           values <- transform_at a (hc_values c) block 0 ;;
           count <- add_chk two64 (hc_bytes_hashed c) (ha_block_size a) ;;
           Ok (values, count, block, 0, data)
         else Ok (hc_values c, hc_bytes_hashed c, block, offset, data)
       else Ok (hc_values c, hc_bytes_hashed c, hc_block c, hc_block_offset c, data))
      = Ok (fold_left (ha_transform a) bl1 (ha_initial a), bs * len bl1, block1, len pend1, data1) /\
      m ++ data = concat bl1 ++ pend1 ++ data1 /\ Forall full bl1 /\
      length block1 = N.to_nat (2 * bs) /\ firstn (N.to_nat (len pend1)) block1 = pend1 /\
      (pend1 = [] \/ (data1 = [] /\ len pend1 <= bs))).
    { destruct (0 <? hc_block_offset c) eqn:E0.
      - rewrite Ho.
        destruct (hash_fill_ok data (hc_block c) (len pend) pend)
          as (block' & d1 & rest & H1 & H2 & H3 & H4 & H5 & H6); auto.
        rewrite H1. cbn [bind]. fold bs. destruct (len pend + len d1 =? bs) eqn:E1.
        + rewrite transform_at_0 by (unfold len at 1; lia). cbn [bind]. unfold add_chk. rewrite Hn.
          replace (bs * len bl + bs <? two64) with true
            by (rewrite H2, len_app in Hlen; lia).
          cbn [bind].
          assert (Hfull : firstn (N.to_nat bs) block' = pend ++ d1).
          { rewrite <- H5. f_equal. lia. }
          exists (bl ++ [pend ++ d1]), [], block', rest.
          rewrite fold_left_app. cbn [fold_left]. rewrite <- Hv, Hfull.
          replace (bs * len (bl ++ [pend ++ d1])) with (bs * len bl + bs)
            by (rewrite len_app; unfold len at 3; cbn [length]; lia).
          split; [reflexivity|].
          split; [rewrite Hm, H2, concat_app; cbn [concat app]; rewrite app_nil_r, <- !app_assoc; reflexivity|].
          split; [apply Forall_app; split; auto; constructor; auto; unfold full; rewrite app_length; unfold len in *; lia|].
          split; [auto|]. split; [reflexivity|]. auto.
        + destruct H6 as [->|]; [|lia]. rewrite app_nil_r in H2. subst d1.
          exists bl, (pend ++ data), block', [].
          rewrite len_app. split; [rewrite Hv, Hn; reflexivity|].
          split; [rewrite Hm, app_nil_r, <- app_assoc; reflexivity|].
          split; [auto|]. split; [auto|]. split; [exact H5|]. right; split; auto.
      - assert (pend = []) as -> by (destruct pend; auto; rewrite len_cons in Ho; lia).
        exists bl, [], (hc_block c), data. rewrite app_nil_r in Hm.
        split; [rewrite Hv, Hn, Ho; reflexivity|]. split; [rewrite Hm; reflexivity|].
        split; [auto|]. split; [auto|]. split; [reflexivity|]. auto. }
    destruct Hstage as (bl1 & pend1 & block1 & data1 & Hst & Hsplit & Hf1 & Hl1 & Hfp & Hcase).
    rewrite Hst. cbn [bind]. clear Hst.
    assert (Htot : bs * len bl1 + len pend1 + len data1 = len m + len data).
    { rewrite <- len_app, Hsplit, !len_app, concat_full_len by auto. lia. }
    destruct (hash_blocks_ok (length data1) (fold_left (ha_transform a) bl1 (ha_initial a)) (bs * len bl1) data1)
      as (bl2 & rest & H1 & H2 & H3 & H4); [lia|lia|].
    rewrite H1. cbn [bind].
    assert (Hpr : len pend1 + len rest <= bs).
    { destruct Hcase as [->|[-> Hle]]; [rewrite len_nil; lia|].
      destruct bl2 as [|x bl2].
      - cbn [concat app] in H2. subst rest. rewrite len_nil. lia.
      - exfalso. cbn [concat] in H2. apply (f_equal (@length N)) in H2. rewrite !app_length in H2.
        inversion H3 as [|? ? Hx ?]; subst. unfold full in Hx. rewrite Hx in H2. cbn [length] in H2. lia. }
    destruct (hash_store_ok rest block1 (len pend1) pend1) as (block2 & G1 & G2 & G3); auto; [lia|].
    rewrite G1. cbn [bind]. eexists; split; [reflexivity|].
    exists (bl1 ++ bl2), (pend1 ++ rest). cbn [hc_values hc_bytes_hashed hc_block_offset hc_block].
    assert (Hpb : pend1 = [] \/ bl2 = []).
    { destruct Hcase as [->|[-> Hle]]; auto. right.
      destruct bl2 as [|x bl2]; auto. exfalso. cbn [concat] in H2.
      apply (f_equal (@length N)) in H2. rewrite !app_length in H2.
      inversion H3 as [|? ? Hx ?]; subst. unfold full in Hx. rewrite Hx in H2. cbn [length] in H2. lia. }
    rewrite !len_app.
    split.
    { rewrite Hsplit, H2, concat_app. destruct Hpb as [->| ->]; cbn [concat app];
        rewrite ?app_nil_r, <- ?app_assoc; reflexivity. }
    split; [apply Forall_app; auto|].
    split; [rewrite fold_left_app; reflexivity|].
    split; [lia|].
    auto.
  Qed.

  Lemma updates_ok chunks : forall m c,
    absorbed m c -> len m + len (concat chunks) < two64 ->
    exists c', hash_updates a c chunks = Ok c' /\ absorbed (m ++ concat chunks) c'.
  Proof.
    induction chunks as [|d chunks IH]; intros m c Ha Hl.
    - exists c. cbn [hash_updates concat]. rewrite app_nil_r. auto.
    - cbn [hash_updates concat] in *. rewrite len_app in Hl.
      destruct (update_ok m c d) as (c1 & H1 & H2); auto; [lia|].
      rewrite H1. cbn [bind]. rewrite app_assoc. apply IH; auto. rewrite len_app; lia.
  Qed.

  Lemma chunks_app_full b n l : length b = N.to_nat bs ->
    chunks (N.to_nat bs) (S n) (b ++ l) = b :: chunks (N.to_nat bs) n l.
  Proof.
    intros H. cbn [chunks]. rewrite <- H, firstn_app, Nat.sub_diag, firstn_all, firstn_O, app_nil_r.
    rewrite skipn_app, Nat.sub_diag, skipn_all, skipn_O. reflexivity.
  Qed.

  Lemma chunks_concat bl n l : Forall full bl ->
    chunks (N.to_nat bs) (length bl + n) (concat bl ++ l) = bl ++ chunks (N.to_nat bs) n l.
  Proof.
    induction 1 as [|b bl Hb Hbl IH]; [reflexivity|].
    cbn [length Nat.add concat app]. rewrite <- app_assoc, chunks_app_full by auto.
    rewrite IH. reflexivity.
  Qed.

  Lemma final_blocks_ok n : forall values block off,
    off + bs * N.of_nat n <= len block ->
    hash_final_blocks a n off values block =
    Ok (fold_left (ha_transform a) (chunks (N.to_nat bs) n (skipn (N.to_nat off) block)) values).
  Proof.
    induction n as [|n IH]; intros values block off H; [reflexivity|].
    cbn [hash_final_blocks chunks fold_left]. unfold transform_at, slice. fold bs.
    replace ((off <=? off + bs) && (off + bs <=? len block)) with true by lia.
    cbn [bind]. rewrite IH by lia. f_equal. f_equal.
    - f_equal. rewrite skipn_skipn. f_equal. lia.
    - f_equal. f_equal. f_equal. lia.
  Qed.

  Lemma chunks_firstn n l m : (n * N.to_nat bs <= m)%nat ->
    chunks (N.to_nat bs) n (firstn m l) = chunks (N.to_nat bs) n l.
  Proof.
    revert l m; induction n as [|n IH]; intros l m H; [reflexivity|].
    cbn [chunks Nat.mul] in *. rewrite firstn_firstn, Nat.min_l by lia. f_equal.
    rewrite skipn_firstn_comm. apply IH. lia.
  Qed.

  Lemma copy_into_ok dest from to src :
    from <= to -> to <= len dest -> len src = to - from ->
    copy_into dest from to src =
    Ok (firstn (N.to_nat from) dest ++ src ++ skipn (N.to_nat to) dest).
  Proof.
    intros H1 H2 H3. unfold copy_into.
    replace ((from <=? to) && (to <=? len dest) && (len src =? to - from)) with true by lia.
    reflexivity.
  Qed.

  Lemma finalize_ok m c :
    absorbed m c -> len m < 2 ^ 61 ->
    hash_finalize a c =
    Ok (ha_output a (fold_left (ha_transform a) (blocks_of bs (pad bs field length_field m)) (ha_initial a)),
        hash_new a).
  Proof.
    intros (bl & pend & Hm & Hbl & Hv & Hn & Ho & Hp & Hlb & Hfb) Hlen.
    assert (Hlm : len m = bs * len bl + len pend)
      by (rewrite Hm, len_app, concat_full_len by auto; reflexivity).
    change (2 ^ 61) with 2305843009213693952 in Hlen.
    unfold hash_finalize. rewrite Hn, Ho. unfold add_chk, mul_chk.
    replace (bs * len bl + len pend <? two64) with true by (unfold two64; lia). cbn [bind].
    replace ((bs * len bl + len pend) * 8 <? two64) with true by (unfold two64; lia). cbn [bind].
    rewrite <- Hlm. fold bs. set (nb := if ha_limit a <=? len pend then 2 else 1).
    assert (Hnb : (nb = 1 /\ len pend < bs - field) \/ (nb = 2 /\ bs - field <= len pend)).
    { subst nb. rewrite limit_ok. destruct (bs - field <=? len pend) eqn:E; lia. }
    rewrite upd_ok by (unfold len at 2; rewrite Hlb; lia). cbn [bind].
    set (b1 := set_nth (hc_block c) (N.to_nat (len pend)) 128).
    assert (Hb1 : length b1 = N.to_nat (2 * bs)) by (subst b1; rewrite set_nth_length; auto).
    assert (Hfb1 : firstn (N.to_nat (len pend + 1)) b1 = pend ++ [128]).
    { subst b1. replace (N.to_nat (len pend + 1)) with (S (N.to_nat (len pend))) by lia.
      rewrite firstn_set_nth by lia. rewrite Hfb. reflexivity. }
    clearbody b1.
    rewrite copy_into_ok; [|destruct Hnb as [[-> ?]|[-> ?]]; lia
      |unfold len at 1; rewrite Hb1; destruct Hnb as [[-> ?]|[-> ?]]; lia
      |unfold len at 1; rewrite repeat_length; destruct Hnb as [[-> ?]|[-> ?]]; lia].
    cbn [bind]. rewrite Hfb1.
    set (z := repeat 0 (N.to_nat (bs * nb - 8 - (len pend + 1)))).
    set (t1 := skipn _ b1).
    set (b2 := (pend ++ [128]) ++ z ++ t1).
    assert (Hb2 : length b2 = N.to_nat (2 * bs)).
    { subst b2 z t1. rewrite !app_length, repeat_length, skipn_length, Hb1. cbn [length].
      unfold len in *. destruct Hnb as [[-> ?]|[-> ?]]; lia. }
    assert (Hfb2 : firstn (N.to_nat (bs * nb - 8)) b2 = (pend ++ [128]) ++ z).
    { subst b2. rewrite app_assoc. rewrite firstn_app.
      assert (Hz : length ((pend ++ [128]) ++ z) = N.to_nat (bs * nb - 8)).
      { subst z. rewrite !app_length, repeat_length. cbn [length]. unfold len in *.
        destruct Hnb as [[-> ?]|[-> ?]]; lia. }
      rewrite <- Hz, firstn_all, Nat.sub_diag, firstn_O, app_nil_r. reflexivity. }
    clearbody b2.
    rewrite copy_into_ok by (unfold len; rewrite ?Hb2, ?len8;
      destruct Hnb as [[-> ?]|[-> ?]]; lia).
    cbn [bind]. rewrite Hfb2.
    set (lb := ha_length_bytes a (len m * 8)).
    set (t2 := skipn _ b2).
    set (b3 := ((pend ++ [128]) ++ z) ++ lb ++ t2).
    assert (Hpz : length (((pend ++ [128]) ++ z) ++ lb) = N.to_nat (bs * nb)).
    { subst z lb. rewrite !app_length, repeat_length, len8. cbn [length]. unfold len in *.
      destruct Hnb as [[-> ?]|[-> ?]]; lia. }
    assert (Hb3 : length b3 = N.to_nat (2 * bs)).
    { subst b3. rewrite app_assoc, app_length, Hpz. subst t2. rewrite skipn_length, Hb2.
      destruct Hnb as [[-> ?]|[-> ?]]; lia. }
    rewrite final_blocks_ok by (unfold len; rewrite Hb3; destruct Hnb as [[-> ?]|[-> ?]]; lia).
    cbn [bind].
    change (N.to_nat 0) with 0%nat. rewrite skipn_O.
    rewrite Hb3. unfold hash_new. fold bs. f_equal. f_equal. f_equal.
    assert (Hpadeq : pad bs field length_field m = concat bl ++ (((pend ++ [128]) ++ z) ++ lb)).
    { unfold pad. rewrite field_bytes by (unfold two64; lia).
      rewrite Hlm at 1. rewrite pad_count by auto. fold nb.
      rewrite Hm at 1. rewrite <- !app_assoc. do 3 f_equal.
      replace (8 * len m) with (len m * 8) by lia. fold lb.
      rewrite app_assoc, <- repeat_app. f_equal. subst z. f_equal.
      destruct Hnb as [[-> ?]|[-> ?]]; lia. }
    rewrite Hpadeq. unfold blocks_of.
    assert (Hlt : len (concat bl ++ (((pend ++ [128]) ++ z) ++ lb)) = bs * (len bl + nb)).
    { rewrite len_app, concat_full_len by auto. unfold len at 2. rewrite Hpz. lia. }
    rewrite Hlt, N.mul_comm, N.div_mul by lia.
    replace (N.to_nat (len bl + nb)) with (length bl + N.to_nat nb)%nat by (unfold len; lia).
    rewrite chunks_concat by auto. rewrite fold_left_app, <- Hv. f_equal.
    subst b3. rewrite app_assoc.
    rewrite <- (chunks_firstn (N.to_nat nb) _ (N.to_nat (bs * nb))) by lia.
    rewrite firstn_app, <- Hpz, Nat.sub_diag, firstn_O, app_nil_r, firstn_all. reflexivity.
  Qed.

  Lemma run_ok chunks : len (concat chunks) < 2 ^ 61 ->
    hash_run a (hash_new a) chunks =
    Ok (ha_output a (fold_left (ha_transform a)
          (blocks_of bs (pad bs field length_field (concat chunks))) (ha_initial a)),
        hash_new a).
  Proof.
    intros Hl. unfold hash_run.
    destruct (updates_ok chunks [] (hash_new a) absorbed_new) as (c & H1 & H2).
    { rewrite len_nil. change (2 ^ 61) with 2305843009213693952 in Hl. unfold two64. lia. }
    rewrite H1. cbn [bind]. apply finalize_ok; auto.
  Qed.
End Machine.
