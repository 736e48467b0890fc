From Verif Require Import Base BaseLemmas Uuid_proofs Strings_model Strings_spec Utf8_model Utf8_spec.

Lemma land6 x : N.land x 0x3f = x mod 64. Proof. change 0x3f with (N.ones 6). apply N.land_ones. Qed.
Lemma land5 x : N.land x 0x1f = x mod 32. Proof. change 0x1f with (N.ones 5). apply N.land_ones. Qed.
Lemma land4 x : N.land x 0x0f = x mod 16. Proof. change 0x0f with (N.ones 4). apply N.land_ones. Qed.
Lemma land3 x : N.land x 0x07 = x mod 8. Proof. change 0x07 with (N.ones 3). apply N.land_ones. Qed.
Lemma lor2 a b : N.lor (N.shiftl (a mod 32) 6) (b mod 64) = a mod 32 * 64 + b mod 64.
Proof. rewrite lor_shift_add by (change (2 ^ 6) with 64; lia). reflexivity. Qed.
Lemma lor3 a b c : N.lor (N.lor (N.shiftl (a mod 16) 12) (N.shiftl (b mod 64) 6)) (c mod 64) =
  a mod 16 * 4096 + b mod 64 * 64 + c mod 64.
Proof.
  rewrite <- N.lor_assoc, (lor_shift_add (b mod 64)) by (change (2 ^ 6) with 64; lia).
  change (2 ^ 6) with 64. rewrite lor_shift_add by (change (2 ^ 12) with 4096; lia). change (2 ^ 12) with 4096. lia.
Qed.
Lemma lor4 a b c d : N.lor (N.lor (N.lor (N.shiftl (a mod 8) 18) (N.shiftl (b mod 64) 12)) (N.shiftl (c mod 64) 6)) (d mod 64) =
  a mod 8 * 262144 + b mod 64 * 4096 + c mod 64 * 64 + d mod 64.
Proof.
  rewrite <- !N.lor_assoc, (lor_shift_add (c mod 64)) by (change (2 ^ 6) with 64; lia).
  change (2 ^ 6) with 64. rewrite (lor_shift_add (b mod 64)) by (change (2 ^ 12) with 4096; lia). change (2 ^ 12) with 4096.
  rewrite lor_shift_add by (change (2 ^ 18) with 262144; lia). change (2 ^ 18) with 262144. lia.
Qed.

Ltac kill_if := match goal with |- context [if ?b then _ else _] =>
  first [replace b with true by (unfold outside; lia) | replace b with false by (unfold outside; lia)] end.

Lemma next_encoded c rest : scalar c -> utf8_next (utf8 c ++ rest) = Some (Ok c, rest).
Proof.
  intros Hs. unfold scalar in Hs. unfold utf8.
  destruct (N.ltb_spec c 0x80) as [H1|H1]; [|destruct (N.ltb_spec c 0x800) as [H2|H2]; [|destruct (N.ltb_spec c 0x10000) as [H3|H3]]];
    cbn [app utf8_next]; unfold utf8_decode_one.
  - replace (((0x80 <=? c) && (c <? 0xc0)) || (0xf4 <? c)) with false by lia. cbn [negb check bind].
    do 4 (kill_if; cbn [bind]). reflexivity.
  - set (b1 := 0xc0 + c / 64). set (b2 := 0x80 + c mod 64).
    assert (0xc2 <= b1 < 0xe0) by lia. assert (0x80 <= b2 < 0xc0) by lia.
    replace (((0x80 <=? b1) && (b1 <? 0xc0)) || (0xf4 <? b1)) with false by lia. cbn [negb check bind].
    replace (0xc0 <=? b1) with true by lia.
    replace (b1 =? 0xe0) with false by lia. replace (b1 =? 0xed) with false by lia. replace (b1 =? 0xf0) with false by lia.
    replace (outside b2 0x80 0xbf) with false by (unfold outside; lia). cbn [negb check bind].
    do 4 (kill_if; cbn [bind]). rewrite land5, land6, lor2. do 3 f_equal. subst b1 b2. lia.
  - set (b1 := 0xe0 + c / 4096). set (b2 := 0x80 + c / 64 mod 64). set (b3 := 0x80 + c mod 64).
    assert (0xe0 <= b1 < 0xf0) by lia. assert (0x80 <= b2 < 0xc0) by lia. assert (0x80 <= b3 < 0xc0) by lia.
    replace (((0x80 <=? b1) && (b1 <? 0xc0)) || (0xf4 <? b1)) with false by lia. cbn [negb check bind].
    replace (0xc0 <=? b1) with true by lia.
    replace (if b1 =? 0xe0 then outside b2 0xa0 0xbf else if b1 =? 0xed then outside b2 0x80 0x9f
      else if b1 =? 0xf0 then outside b2 0x90 0xbf else outside b2 0x80 0xbf) with false.
    2:{ destruct (N.eqb_spec b1 0xe0); [unfold outside; lia|]. destruct (N.eqb_spec b1 0xed); [unfold outside; lia|].
        destruct (N.eqb_spec b1 0xf0); unfold outside; lia. }
    cbn [negb check bind]. replace (0xe0 <=? b1) with true by lia.
    replace (b2 =? 0xe0) with false by lia. replace (b2 =? 0xed) with false by lia.
    replace (outside b3 0x80 0xbf) with false by (unfold outside; lia). cbn [negb check bind].
    do 4 (kill_if; cbn [bind]). rewrite land4, !land6, lor3. do 3 f_equal. subst b1 b2 b3. lia.
  - set (b1 := 0xf0 + c / 262144). set (b2 := 0x80 + c / 4096 mod 64). set (b3 := 0x80 + c / 64 mod 64). set (b4 := 0x80 + c mod 64).
    assert (0xf0 <= b1 < 0xf5) by lia. assert (0x80 <= b2 < 0xc0) by lia. assert (0x80 <= b3 < 0xc0) by lia. assert (0x80 <= b4 < 0xc0) by lia.
    replace (((0x80 <=? b1) && (b1 <? 0xc0)) || (0xf4 <? b1)) with false by lia. cbn [negb check bind].
    replace (0xc0 <=? b1) with true by lia.
    replace (if b1 =? 0xe0 then outside b2 0xa0 0xbf else if b1 =? 0xed then outside b2 0x80 0x9f
      else if b1 =? 0xf0 then outside b2 0x90 0xbf else outside b2 0x80 0xbf) with false.
    2:{ destruct (N.eqb_spec b1 0xe0); [unfold outside; lia|]. destruct (N.eqb_spec b1 0xed); [unfold outside; lia|].
        destruct (N.eqb_spec b1 0xf0); unfold outside; lia. }
    cbn [negb check bind]. replace (0xe0 <=? b1) with true by lia.
    replace (b2 =? 0xe0) with false by lia. replace (b2 =? 0xed) with false by lia.
    replace (outside b3 0x80 0xbf) with false by (unfold outside; lia). cbn [negb check bind].
    replace (0xf0 <=? b1) with true by lia.
    replace (outside b4 0x80 0xbf) with false by (unfold outside; lia). cbn [negb check bind].
    do 3 (kill_if; cbn [bind]). rewrite land3, !land6, lor4. do 3 f_equal. subst b1 b2 b3 b4. lia.
Qed.

Lemma utf8_nonempty c : (1 <= length (utf8 c))%nat.
Proof. unfold utf8. repeat (match goal with |- context [if ?b then _ else _] => destruct b end); cbn; lia. Qed.

Lemma decode_encoded s : forall fuel, Forall scalar s -> (length (flat_map utf8 s) <= fuel)%nat ->
  utf8_decode_fuel fuel (flat_map utf8 s) = Ok s.
Proof.
  induction s as [|c s IH]; intros fuel Hs Hf; cbn [flat_map] in *.
  - destruct fuel; reflexivity.
  - inversion Hs; subst. rewrite app_length in Hf. pose proof (utf8_nonempty c). destruct fuel as [|fuel]; [lia|].
    cbn [utf8_decode_fuel]. rewrite next_encoded by auto. rewrite IH by (auto; lia). reflexivity.
Qed.

(** What one step accepts. *)
Lemma next_ok rest c rest' : utf8_next rest = Some (Ok c, rest') ->
  exists chunk, rest = chunk ++ rest' /\ chunk <> [] /\
   ((chunk = utf8 c /\ scalar c) \/
    (exists b1 t, chunk = b1 :: t /\ (b1 = 0xc0 \/ b1 = 0xc1)) \/
    (exists b2 t, chunk = 0xf4 :: b2 :: t /\ 0x90 <= b2)).
Proof.
  destruct rest as [|b1 r]; cbn [utf8_next]; [discriminate|]. unfold utf8_decode_one.
  destruct (((0x80 <=? b1) && (b1 <? 0xc0)) || (0xf4 <? b1)) eqn:E1; cbn [negb check bind]; [discriminate|].
  destruct (N.leb_spec 0xc0 b1) as [Hc0|Hc0].
  2:{ cbn [bind]. replace (0xe0 <=? b1) with false by lia. cbn [bind]. replace (0xf0 <=? b1) with false by lia. cbn [bind].
      replace (b1 <? 0x80) with true by lia. intros H; inversion H; subst. exists [c]. split; auto. split; [discriminate|]. left.
      unfold utf8, scalar. replace (c <? 0x80) with true by lia. split; auto. lia. }
  destruct r as [|b2 r]; cbn [bind]; [discriminate|].
  destruct (if b1 =? 0xe0 then _ else _) eqn:E2; cbn [negb check bind]; [discriminate|].
  assert (Hb2 : 0x80 <= b2 <= 0xbf /\ (b1 = 0xe0 -> 0xa0 <= b2) /\ (b1 = 0xed -> b2 <= 0x9f) /\ (b1 = 0xf0 -> 0x90 <= b2)).
  { destruct (N.eqb_spec b1 0xe0); [unfold outside in E2; lia|]. destruct (N.eqb_spec b1 0xed); [unfold outside in E2; lia|].
    destruct (N.eqb_spec b1 0xf0); unfold outside in E2; lia. }
  clear E2. destruct Hb2 as (Hb2 & He0 & Hed & Hf0).
  destruct (N.leb_spec 0xe0 b1) as [He|He].
  2:{ cbn [bind]. replace (0xf0 <=? b1) with false by lia. cbn [bind].
      replace (b1 <? 0x80) with false by lia. replace (b1 <? 0xe0) with true by lia.
      rewrite land5, land6, lor2. intros H; inversion H; subst; clear H. exists [b1; b2]. split; auto. split; [discriminate|].
      destruct (N.lt_ge_cases b1 0xc2) as [Hl|Hl]; [right; left; exists b1, [b2]; split; auto; lia|]. left.
      set (c := b1 mod 32 * 64 + b2 mod 64). assert (Hc : c = (b1 - 0xc0) * 64 + (b2 - 0x80)) by (subst c; lia). clearbody c.
      unfold utf8, scalar. replace (c <? 0x80) with false by lia. replace (c <? 0x800) with true by lia.
      split; [|lia]. f_equal; [lia|]. f_equal. lia. }
  destruct r as [|b3 r]; cbn [bind]; [discriminate|].
  replace (b2 =? 0xe0) with false by lia. replace (b2 =? 0xed) with false by lia.
  destruct (outside b3 0x80 0xbf) eqn:E3; cbn [negb check bind]; [discriminate|]. unfold outside in E3.
  destruct (N.leb_spec 0xf0 b1) as [Hf|Hf].
  2:{ cbn [bind]. replace (b1 <? 0x80) with false by lia. replace (b1 <? 0xe0) with false by lia. replace (b1 <? 0xf0) with true by lia.
      rewrite land4, !land6, lor3. intros H; inversion H; subst; clear H. exists [b1; b2; b3]. split; auto. split; [discriminate|]. left.
      set (c := b1 mod 16 * 4096 + b2 mod 64 * 64 + b3 mod 64).
      assert (Hc : c = (b1 - 0xe0) * 4096 + (b2 - 0x80) * 64 + (b3 - 0x80)) by (subst c; lia). clearbody c.
      assert (0x800 <= c < 0x10000) by lia.
      unfold utf8, scalar. replace (c <? 0x80) with false by lia. replace (c <? 0x800) with false by lia. replace (c <? 0x10000) with true by lia.
      split; [|lia]. f_equal; [lia|]. f_equal; [lia|]. f_equal. lia. }
  destruct r as [|b4 r]; cbn [bind]; [discriminate|].
  destruct (outside b4 0x80 0xbf) eqn:E4; cbn [negb check bind]; [discriminate|]. unfold outside in E4.
  replace (b1 <? 0x80) with false by lia. replace (b1 <? 0xe0) with false by lia. replace (b1 <? 0xf0) with false by lia.
  rewrite land3, !land6, lor4. intros H; inversion H; subst; clear H. exists [b1; b2; b3; b4]. split; auto. split; [discriminate|].
  destruct (N.eq_dec b1 0xf4) as [->|Hn4].
  - destruct (N.lt_ge_cases b2 0x90) as [Hl|Hl]; [left|right; right; eauto].
    set (c := 0xf4 mod 8 * 262144 + b2 mod 64 * 4096 + b3 mod 64 * 64 + b4 mod 64).
    assert (Hc : c = 4 * 262144 + (b2 - 0x80) * 4096 + (b3 - 0x80) * 64 + (b4 - 0x80)) by (subst c; lia). clearbody c.
    unfold utf8, scalar. replace (c <? 0x80) with false by lia. replace (c <? 0x800) with false by lia. replace (c <? 0x10000) with false by lia.
    split; [|lia]. f_equal; [lia|]. f_equal; [lia|]. f_equal; [lia|]. f_equal. lia.
  - left.
    set (c := b1 mod 8 * 262144 + b2 mod 64 * 4096 + b3 mod 64 * 64 + b4 mod 64).
    assert (Hc : c = (b1 - 0xf0) * 262144 + (b2 - 0x80) * 4096 + (b3 - 0x80) * 64 + (b4 - 0x80)) by (subst c; lia). clearbody c.
    unfold utf8, scalar. replace (c <? 0x80) with false by lia. replace (c <? 0x800) with false by lia. replace (c <? 0x10000) with false by lia.
    split; [|lia]. f_equal; [lia|]. f_equal; [lia|]. f_equal; [lia|]. f_equal. lia.
Qed.

Lemma no_excluded_app a b : no_excluded (a ++ b) -> no_excluded b.
Proof.
  intros H i x Hi. specialize (H (length a + i)%nat x).
  rewrite nth_error_app2, Nat.add_comm, Nat.add_sub in H by lia. specialize (H Hi).
  destruct H as (H1 & H2 & H3). repeat split; auto. intros E b2 Hb. apply H3; auto.
  rewrite nth_error_app2 by lia. replace (S (i + length a) - length a)%nat with (S i) by lia. auto.
Qed.
Lemma decode_sound : forall fuel bytes s, utf8_decode_fuel fuel bytes = Ok s -> no_excluded bytes -> is_utf8_of bytes s.
Proof.
  unfold is_utf8_of.
  induction fuel as [|fuel IH]; intros bytes s H Hx; cbn [utf8_decode_fuel] in H.
  - destruct bytes; cbn [utf8_next] in H.
    + inversion H; subst. split; [auto|constructor].
    + destruct (utf8_decode_one _ _) as [[? ?]| |]; discriminate.
  - destruct (utf8_next bytes) as [[[c| |] rest]|] eqn:E; try discriminate.
    + destruct (utf8_decode_fuel fuel rest) as [l| |] eqn:El; cbn [bind] in H; try discriminate. inversion H; subst; clear H.
      apply next_ok in E. destruct E as (chunk & -> & _ & Hchunk).
      destruct (IH rest l El (no_excluded_app _ _ Hx)) as [-> Hl].
      destruct Hchunk as [[-> Hs]|[(b1 & t & -> & Hb)|(b2 & t & -> & Hb)]].
      * cbn [flat_map]. split; auto.
      * exfalso. destruct (Hx 0%nat b1 eq_refl) as (H1 & H2 & _). destruct Hb; auto.
      * exfalso. destruct (Hx 0%nat 0xf4 eq_refl) as (_ & _ & H3). specialize (H3 eq_refl b2 eq_refl). lia.
    + inversion H; subst. destruct bytes; [split; [auto|constructor]|]. cbn [utf8_next] in E.
      destruct (utf8_decode_one _ _) as [[? ?]| |]; discriminate.
Qed.
Lemma some_eq {A} (a b : A) : Some a = Some b -> a = b.
Proof. congruence. Qed.
Lemma utf8_bytes c i b : scalar c -> nth_error (utf8 c) i = Some b ->
  b <> 0xc0 /\ b <> 0xc1 /\ (b = 0xf4 -> exists b2, nth_error (utf8 c) (S i) = Some b2 /\ b2 < 0x90).
Proof.
  unfold scalar, utf8. intros Hs.
  destruct (N.ltb_spec c 0x80); [|destruct (N.ltb_spec c 0x800); [|destruct (N.ltb_spec c 0x10000)]];
    (destruct i as [|[|[|[|i]]]]; cbn [nth_error]; intros H9; try (destruct i); try discriminate; apply some_eq in H9;
     (split; [lia|]; split; [lia|]; intros; first [exfalso; lia | eexists; split; [reflexivity|lia]])).
Qed.
Lemma encoded_no_excluded s : Forall scalar s -> no_excluded (flat_map utf8 s).
Proof.
  intros H. induction H as [|c s Hc Hs IH]; cbn [flat_map].
  - intros [|i] b Hb; discriminate.
  - intros i b Hi. destruct (Nat.lt_ge_cases i (length (utf8 c))) as [Hl|Hl].
    + rewrite nth_error_app1 in Hi by auto. destruct (utf8_bytes c i b Hc Hi) as (H1 & H2 & H3). repeat split; auto.
      intros E b2 Hb2. destruct (H3 E) as (b3 & H4 & H5).
      assert (S i < length (utf8 c))%nat by (apply nth_error_Some; congruence).
      rewrite nth_error_app1 in Hb2 by auto. congruence.
    + rewrite nth_error_app2 in Hi by auto. destruct (IH _ _ Hi) as (H1 & H2 & H3). repeat split; auto.
      intros E b2 Hb2. apply H3; auto. rewrite nth_error_app2 in Hb2 by lia.
      replace (S (i - length (utf8 c))) with (S i - length (utf8 c))%nat by lia. auto.
Qed.
Lemma decode_no_panic : forall fuel bytes, (length bytes <= fuel)%nat -> utf8_decode_fuel fuel bytes <> Panic.
Proof.
  induction fuel as [|fuel IH]; intros bytes Hl.
  - destruct bytes; [discriminate|cbn in Hl; lia].
  - cbn [utf8_decode_fuel]. destruct (utf8_next bytes) as [[[c| |] rest]|] eqn:E; try discriminate.
    apply next_ok in E. destruct E as (chunk & -> & Hne & _). rewrite app_length in Hl.
    destruct chunk; [congruence|]. cbn [length] in Hl. specialize (IH rest ltac:(lia)).
    destruct (utf8_decode_fuel fuel rest); cbn [bind]; congruence.
Qed.
