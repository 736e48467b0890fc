From Coq Require Import String.
From Verif Require Import Base BaseLemmas Bytes_model Bytes_spec Bytes_proofs Uuid_model Uuid_spec.
Open Scope list_scope.


(** ** Digits *)
Lemma case16 (P : N -> Prop) : Forall P (seqN 0 16) -> forall d, d < 16 -> P d.
Proof. intros H d Hd. rewrite Forall_forall in H. apply H. apply in_seqN. lia. Qed.

Lemma digit_char_lower d : d < 16 -> digit_char false d = lower_hex d.
Proof. revert d. apply case16. repeat constructor. Qed.
Lemma hex_digit_char up d : d < 16 -> hex_digit (digit_char up d) = Some d.
Proof. revert d. apply case16. destruct up; repeat constructor. Qed.
Lemma hex_digit_inv c d : hex_digit c = Some d -> is_digit_of c d.
Proof.
  unfold hex_digit. intros H.
  assert (Hc : forall c, c < 128 -> match hex_digit c with Some d => is_digit_of c d | None => True end).
  { intros x Hx. assert (Hin : In x (seqN 0 128)) by (apply in_seqN; cbn; lia).
    assert (Hall : Forall (fun c => match hex_digit c with
      Some d => (d <? 16) && ((c =? digit_char false d) || (c =? digit_char true d)) | None => true end = true) (seqN 0 128)).
    { apply Forall_forall. apply forallb_forall. vm_compute. reflexivity. }
    rewrite Forall_forall in Hall. specialize (Hall x Hin). destruct (hex_digit x); auto.
    unfold is_digit_of. rewrite andb_true_iff, orb_true_iff, !N.eqb_eq, N.ltb_lt in Hall. tauto. }
  assert (c < 128).
  { destruct ((0x30 <=? c) && (c <=? 0x39)) eqn:E1; [lia|].
    destruct ((0x61 <=? c) && (c <=? 0x66)) eqn:E2; [lia|].
    destruct ((0x41 <=? c) && (c <=? 0x46)) eqn:E3; [lia|discriminate]. }
  specialize (Hc c H0). unfold hex_digit in Hc. rewrite H in Hc. auto.
Qed.
Lemma is_digit_hex c d : is_digit_of c d -> hex_digit c = Some d.
Proof. intros [Hd [-> | ->]]; apply hex_digit_char; auto. Qed.

Lemma digits_length up n v : length (digits up n v) = n.
Proof. induction n; cbn; auto. Qed.

Fixpoint le_hex (n : nat) (v : N) : list N :=
  match n with O => [] | S m => lower_hex (v mod 16) :: le_hex m (v / 16) end.

Ltac Zify.zify_post_hook ::= idtac.

Lemma pow16_pos n : 0 < 16 ^ n.
Proof. apply N.neq_0_lt_0, N.pow_nonzero. lia. Qed.

Lemma digits_snoc up n v : digits up (S n) v = digits up n (v / 16) ++ [digit_char up (v mod 16)].
Proof.
  revert v. induction n as [|n IH]; intros v.
  - cbn [digits app N.of_nat]. rewrite N.pow_0_r, N.div_1_r. auto.
  - cbn [digits app] in *. rewrite IH. f_equal. f_equal.
    rewrite Nat2N.inj_succ, N.pow_succ_r', N.div_div; auto; [lia|]. apply N.neq_0_lt_0, pow16_pos.
Qed.

Lemma le_hex_digits n : forall v, rev (le_hex n v) = digits false n v.
Proof.
  induction n as [|n IH]; intros v; auto.
  cbn [le_hex rev]. rewrite IH, digits_snoc. rewrite digit_char_lower; auto. apply N.mod_lt. lia.
Qed.

Lemma le_hex_zero n : le_hex n 0 = repeat 0x30 n.
Proof. induction n; cbn [le_hex repeat]; auto. change (0 / 16) with 0. rewrite IHn. auto. Qed.

Lemma hex_rev_pad n : forall fuel v, v < 16 ^ N.of_nat n -> (n <= fuel)%nat ->
  (length (hex_digits_rev fuel v) <= n)%nat /\
  hex_digits_rev fuel v ++ repeat 0x30 (n - length (hex_digits_rev fuel v)) = le_hex n v.
Proof.
  induction n as [|n IH]; intros fuel v Hv Hf.
  - change (16 ^ N.of_nat 0) with 1 in Hv. assert (v = 0) by lia. subst. destruct fuel; auto.
  - destruct fuel as [|fuel]; [lia|]. cbn [hex_digits_rev]. destruct (v =? 0) eqn:E.
    + apply N.eqb_eq in E. subst. cbn [length app]. split; [lia|]. rewrite Nat.sub_0_r, le_hex_zero. auto.
    + rewrite Nat2N.inj_succ, N.pow_succ_r' in Hv.
      destruct (IH fuel (v / 16)) as [H1 H2]; [apply N.div_lt_upper_bound; lia|lia|].
      cbn [length app le_hex]. split; [lia|]. f_equal. rewrite <- H2. f_equal.
Qed.

Lemma rev_repeat {A} (a : A) n : rev (repeat a n) = repeat a n.
Proof.
  induction n; auto. cbn [repeat rev]. rewrite IHn. clear.
  induction n; auto. cbn [repeat app]. f_equal. auto.
Qed.

Lemma format_hex_digits n v : (0 < n <= 32)%nat -> v < 16 ^ N.of_nat n ->
  format_hex n v = digits false n v.
Proof.
  intros Hn Hv. unfold format_hex.
  destruct (hex_rev_pad n 32 v Hv ltac:(lia)) as [H1 H2].
  rewrite <- le_hex_digits, <- H2, rev_app_distr, rev_repeat.
  destruct (rev (hex_digits_rev 32 v)) as [|c d] eqn:E.
  - apply (f_equal (@length N)) in E. rewrite rev_length in E. cbn [length] in E. rewrite E.
    cbn [length]. replace (n - 0)%nat with (n - 1 + 1)%nat by lia. rewrite repeat_app, app_nil_r. auto.
  - rewrite <- E, rev_length. auto.
Qed.

(** ** Parsing digits *)
Lemma radix_loop_app m s : forall t acc,
  radix_loop m acc (s ++ t) = match radix_loop m acc s with Some v => radix_loop m v t | None => None end.
Proof.
  induction s as [|c s IH]; intros t acc; auto. cbn [app radix_loop].
  destruct (hex_digit c); auto. destruct (acc * 16 + n <? m); auto.
Qed.

Lemma radix_loop_digits up m n : forall v, v < 16 ^ N.of_nat n -> 16 ^ N.of_nat n <= m ->
  radix_loop m 0 (digits up n v) = Some v.
Proof.
  induction n as [|n IH]; intros v Hv Hm.
  - change (16 ^ N.of_nat 0) with 1 in Hv. cbn. f_equal. lia.
  - rewrite Nat2N.inj_succ, N.pow_succ_r' in *. rewrite digits_snoc, radix_loop_app.
    rewrite IH; [|apply N.div_lt_upper_bound; lia|lia]. cbn [radix_loop].
    rewrite hex_digit_char by (apply N.mod_lt; lia).
    replace (v / 16 * 16 + v mod 16) with v by (pose proof (N.div_mod v 16); lia).
    replace (v <? m) with true by lia. auto.
Qed.

Lemma radix_loop_spells m s v : 0 < m -> (radix_loop m 0 s = Some v <-> spells s v /\ v < m).
Proof.
  intros Hm. revert v. induction s as [|c s IH] using rev_ind; intros v.
  - cbn [radix_loop]. split.
    + intros E. injection E as <-. split; [constructor|auto].
    + intros [H _]. inversion H; auto. destruct s; discriminate.
  - rewrite radix_loop_app. split.
    + destruct (radix_loop m 0 s) as [w|] eqn:E; [|discriminate].
      destruct (proj1 (IH w) eq_refl) as [Hs Hw]. cbn [radix_loop].
      destruct (hex_digit c) as [d|] eqn:Hd; [|discriminate].
      destruct (w * 16 + d <? m) eqn:El; [|discriminate]. intros Ev. injection Ev as <-.
      split; [|apply N.ltb_lt; auto]. rewrite (N.mul_comm w). constructor; auto. apply hex_digit_inv; auto.
    + intros [H Hv]. inversion H as [|s' w c' d Hs Hd E1 E2].
      * destruct s; discriminate.
      * apply app_inj_tail in E1. destruct E1 as [-> ->].
        assert (Hw : w < m) by lia.
        rewrite (proj2 (IH w) (conj Hs Hw)). cbn [radix_loop].
        rewrite (is_digit_hex _ _ Hd). rewrite (N.mul_comm w).
        replace (16 * w + d <? m) with true by lia. auto.
Qed.

Lemma plus_not_digit : hex_digit 0x2b = None.
Proof. reflexivity. Qed.

Lemma radix16_spells m s v : 16 <= m -> no_plus s -> s <> [] ->
  (from_str_radix16 m s = Some v <-> spells s v /\ v < m).
Proof.
  intros Hm Hp Hne. rewrite <- radix_loop_spells by lia.
  destruct s as [|c [|c' s]]; [congruence| |].
  - cbn [from_str_radix16 radix_loop]. destruct (hex_digit c) as [d|] eqn:E; [|tauto].
    apply hex_digit_inv in E. destruct E as [E _]. rewrite N.mul_0_l, N.add_0_l.
    replace (d <? m) with true by lia. tauto.
  - cbn [from_str_radix16]. replace (c =? 0x2b) with false; [tauto|].
    symmetry. apply N.eqb_neq. apply (Forall_inv Hp).
Qed.

Lemma digit_not_plus up d : d < 16 -> digit_char up d <> 0x2b.
Proof.
  intros Hd E. pose proof (hex_digit_char up d Hd) as H. rewrite E in H. discriminate.
Qed.
Lemma digits_no_plus up n v : no_plus (digits up n v).
Proof. induction n; cbn [digits]; constructor; auto. apply digit_not_plus, N.mod_lt. lia. Qed.

Lemma radix16_digits up m n v : (0 < n)%nat -> v < 16 ^ N.of_nat n -> 16 ^ N.of_nat n <= m -> 16 <= m ->
  from_str_radix16 m (digits up n v) = Some v.
Proof.
  intros Hn Hv Hm H16. apply radix16_spells; auto.
  - apply digits_no_plus.
  - intros E. apply (f_equal (@length N)) in E. rewrite digits_length in E. cbn in E. lia.
  - apply radix_loop_spells; [lia|]. apply radix_loop_digits; auto.
Qed.

(** ** Slices of ASCII strings *)
Lemma ascii_boundary s i : ascii_only s -> i <= len s -> is_boundary s i = true.
Proof.
  intros Ha Hi. unfold is_boundary. destruct (N.eq_dec i (len s)) as [->|Hne]; [rewrite N.eqb_refl; auto|].
  replace (i =? len s) with false by lia. cbn [orb].
  destruct (nth_error s (N.to_nat i)) as [b|] eqn:E.
  - apply nth_error_In in E. unfold ascii_only in Ha. rewrite Forall_forall in Ha. specialize (Ha b E).
    replace (0x80 <=? b) with false by lia. auto.
  - apply nth_error_None in E. unfold len in *. lia.
Qed.


Lemma ascii_slice s a b : ascii_only s -> a <= b -> b <= len s -> str_slice s a b = Ok (part_of s a b).
Proof.
  intros Ha Hab Hb. unfold str_slice. rewrite !ascii_boundary by (auto; lia). cbn [andb]. apply slice_ok; auto.
Qed.

Lemma part_of_len s a b : a <= b -> b <= len s -> len (part_of s a b) = b - a.
Proof. intros. unfold part_of, len in *. rewrite firstn_length, skipn_length. lia. Qed.

Definition is_dash (s : list N) (a : N) : bool :=
  match part_of s a (a + 1) with [b] => b =? 0x2d | _ => false end.

Definition body (u : uuid) (s : list N) : uuid * res unit :=
  if is_dash s 8 && is_dash s 13 && is_dash s 18 && is_dash s 23 then
    match from_str_radix16 two32 (part_of s 0 8) with None => (u, Err) | Some p1 =>
    match from_str_radix16 two16 (part_of s 9 13) with None => (set1 u p1, Err) | Some p2 =>
    match from_str_radix16 two16 (part_of s 14 18) with None => (set2 (set1 u p1) p2, Err) | Some p3 =>
    match from_str_radix16 two16 (part_of s 19 23) with None => (set3 (set2 (set1 u p1) p2) p3, Err) | Some p4 =>
    match from_str_radix16 two64 (part_of s 24 36) with None => (set4 (set3 (set2 (set1 u p1) p2) p3) p4, Err)
    | Some p5 => ({| part1 := p1; part2 := p2; part3 := p3; part4 := p4; part5 := p5 |}, Ok tt)
    end end end end end
  else (u, Err).

Lemma not_dash_ascii s a : ascii_only s -> a + 1 <= len s -> not_dash s a = Ok (negb (is_dash s a)).
Proof. intros Ha Hl. unfold not_dash. rewrite ascii_slice by (auto; lia). reflexivity. Qed.

Lemma parse_part_ascii s a b d m u set k : ascii_only s -> a <= b -> b <= len s -> a <= d -> d <= len s ->
  parse_part s a b d m u set k =
    match from_str_radix16 m (part_of s a b) with Some v => k (set u v) | None => (u, Err) end.
Proof.
  intros. unfold parse_part. rewrite (ascii_slice s a b), (ascii_slice s a d) by (auto; lia). reflexivity.
Qed.

Definition strip (s : list N) : list N :=
  if starts_with_c s 0x7b && ends_with_c s 0x7d then part_of s 1 (len s - 1) else s.

Lemma strip_ok s : ascii_only s -> ascii_only (strip s) /\
  (if starts_with_c s 0x7b && ends_with_c s 0x7d then str_slice s 1 (len s - 1) else Ok s) = Ok (strip s).
Proof.
  intros Ha. unfold strip. destruct (starts_with_c s 0x7b && ends_with_c s 0x7d) eqn:E; auto.
  assert (Hl : 2 <= len s).
  { rewrite andb_true_iff in E. destruct E as [E1 E2]. unfold ends_with_c in E2.
    destruct s as [|a [|b s]]; [discriminate| |rewrite !len_cons; lia].
    cbn [starts_with_c rev app] in *. lia. }
  split.
  - unfold ascii_only, part_of in *. apply Forall_forall. intros x Hx. rewrite Forall_forall in Ha. apply Ha.
    eapply In_nth_error in Hx. destruct Hx as [i Hi].
    assert (Hi2 : (i < N.to_nat (len s - 1 - 1))%nat).
    { assert (Hs : nth_error (firstn (N.to_nat (len s - 1 - 1)) (skipn (N.to_nat 1) s)) i <> None) by congruence.
      apply nth_error_Some in Hs. rewrite firstn_length in Hs. lia. }
    rewrite nth_error_firstn_lt, nth_error_skipn_add in Hi by auto. eapply nth_error_In; eauto.
  - apply ascii_slice; auto; lia.
Qed.

Lemma from_string_ascii u s : ascii_only s ->
  uuid_from_string u s = if len (strip s) =? 36 then body u (strip s) else (u, Err).
Proof.
  intros Ha. unfold uuid_from_string. destruct (strip_ok s Ha) as [Hs ->].
  destruct (len (strip s) =? 36) eqn:E; cbn [negb]; auto. apply N.eqb_eq in E.
  set (t := strip s) in *. unfold dashes_bad, body.
  rewrite !not_dash_ascii by (auto; lia). cbn [bind].
  rewrite !parse_part_ascii by (auto; lia).
  destruct (is_dash t 8); cbn [negb andb]; auto.
  destruct (is_dash t 13); cbn [negb andb]; auto.
  destruct (is_dash t 18); cbn [negb andb]; auto.
  destruct (is_dash t 23); cbn [negb andb]; auto.
  destruct (from_str_radix16 two32 (part_of t 0 8)) as [p1|]; auto.
  rewrite !parse_part_ascii by (auto; lia).
  destruct (from_str_radix16 two16 (part_of t 9 13)) as [p2|]; auto.
  rewrite !parse_part_ascii by (auto; lia).
  destruct (from_str_radix16 two16 (part_of t 14 18)) as [p3|]; auto.
  rewrite !parse_part_ascii by (auto; lia).
  destruct (from_str_radix16 two16 (part_of t 19 23)) as [p4|]; auto.
  rewrite !parse_part_ascii by (auto; lia).
  destruct (from_str_radix16 two64 (part_of t 24 36)) as [p5|]; auto.
Qed.

Lemma no_panic_ascii u s : ascii_only s -> snd (uuid_from_string u s) <> Panic.
Proof.
  intros Ha. rewrite from_string_ascii by auto. destruct (len (strip s) =? 36); [|discriminate].
  unfold body. repeat (match goal with |- context[if ?b then _ else _] => destruct b
    | |- context[match ?b with Some _ => _ | None => _ end] => destruct b end; cbn [snd]; try discriminate).
Qed.

(** ** The five groups *)

Lemma part_of_app s a b p q : len p = a -> s = p ++ q -> a <= b -> part_of s a b = firstn (N.to_nat (b - a)) q.
Proof.
  intros Hp -> Hab. unfold part_of. rewrite skipn_app, skipn_all2 by (unfold len in Hp; lia).
  replace (N.to_nat a - length p)%nat with 0%nat by (unfold len in Hp; lia). auto.
Qed.
Lemma part_of_mid p g q a b : len p = a -> len g = b - a -> a <= b -> part_of (p ++ g ++ q) a b = g.
Proof.
  intros Hp Hg Hab. rewrite (part_of_app _ _ _ p (g ++ q)) by auto.
  rewrite firstn_app. replace (N.to_nat (b - a) - length g)%nat with 0%nat by (unfold len in Hg; lia).
  rewrite firstn_all2 by (unfold len in Hg; lia). cbn. rewrite app_nil_r. auto.
Qed.

Lemma form_parts g1 g2 g3 g4 g5 : len g1 = 8 -> len g2 = 4 -> len g3 = 4 -> len g4 = 4 -> len g5 = 12 ->
  let s := form g1 g2 g3 g4 g5 in
  len s = 36 /\ part_of s 0 8 = g1 /\ part_of s 9 13 = g2 /\ part_of s 14 18 = g3 /\ part_of s 19 23 = g4 /\
  part_of s 24 36 = g5 /\ is_dash s 8 = true /\ is_dash s 13 = true /\ is_dash s 18 = true /\ is_dash s 23 = true.
Proof.
  intros H1 H2 H3 H4 H5. cbv zeta. assert (Hd : len dash = 1) by reflexivity.
  assert (E1 : form g1 g2 g3 g4 g5 = [] ++ g1 ++ (dash ++ g2 ++ dash ++ g3 ++ dash ++ g4 ++ dash ++ g5)) by reflexivity.
  assert (D1 : form g1 g2 g3 g4 g5 = g1 ++ dash ++ (g2 ++ dash ++ g3 ++ dash ++ g4 ++ dash ++ g5)) by reflexivity.
  assert (E2 : form g1 g2 g3 g4 g5 = (g1 ++ dash) ++ g2 ++ (dash ++ g3 ++ dash ++ g4 ++ dash ++ g5)) by (unfold form; rewrite <- !app_assoc; auto).
  assert (D2 : form g1 g2 g3 g4 g5 = (g1 ++ dash ++ g2) ++ dash ++ (g3 ++ dash ++ g4 ++ dash ++ g5)) by (unfold form; rewrite <- !app_assoc; auto).
  assert (E3 : form g1 g2 g3 g4 g5 = (g1 ++ dash ++ g2 ++ dash) ++ g3 ++ (dash ++ g4 ++ dash ++ g5)) by (unfold form; rewrite <- !app_assoc; auto).
  assert (D3 : form g1 g2 g3 g4 g5 = (g1 ++ dash ++ g2 ++ dash ++ g3) ++ dash ++ (g4 ++ dash ++ g5)) by (unfold form; rewrite <- !app_assoc; auto).
  assert (E4 : form g1 g2 g3 g4 g5 = (g1 ++ dash ++ g2 ++ dash ++ g3 ++ dash) ++ g4 ++ (dash ++ g5)) by (unfold form; rewrite <- !app_assoc; auto).
  assert (D4 : form g1 g2 g3 g4 g5 = (g1 ++ dash ++ g2 ++ dash ++ g3 ++ dash ++ g4) ++ dash ++ g5) by (unfold form; rewrite <- !app_assoc; auto).
  assert (E5 : form g1 g2 g3 g4 g5 = (g1 ++ dash ++ g2 ++ dash ++ g3 ++ dash ++ g4 ++ dash) ++ g5 ++ []) by (unfold form; rewrite app_nil_r, <- !app_assoc; auto).
  unfold is_dash.
  repeat split.
  - unfold form. rewrite !len_app, Hd. lia.
  - rewrite E1. apply part_of_mid; auto; lia.
  - rewrite E2. apply part_of_mid; rewrite ?len_app; lia.
  - rewrite E3. apply part_of_mid; rewrite ?len_app; lia.
  - rewrite E4. apply part_of_mid; rewrite ?len_app; lia.
  - rewrite E5. apply part_of_mid; rewrite ?len_app; lia.
  - rewrite D1, part_of_mid; auto; rewrite ?len_app; lia.
  - rewrite D2, part_of_mid; auto; rewrite ?len_app; lia.
  - rewrite D3, part_of_mid; auto; rewrite ?len_app; lia.
  - rewrite D4, part_of_mid; auto; rewrite ?len_app; lia.
Qed.

Lemma part_of_split s a b c : a <= b -> b <= c -> part_of s a c = part_of s a b ++ part_of s b c.
Proof.
  intros. unfold part_of.
  replace (N.to_nat (c - a)) with (N.to_nat (b - a) + N.to_nat (c - b))%nat by lia.
  rewrite <- (firstn_skipn (N.to_nat (b - a)) (skipn (N.to_nat a) s)) at 1.
  rewrite skipn_skipn. replace (N.to_nat (b - a) + N.to_nat a)%nat with (N.to_nat b) by lia.
  set (x := firstn (N.to_nat (b - a)) (skipn (N.to_nat a) s)).
  assert (Hx : (length x <= N.to_nat (b - a))%nat) by apply firstn_le_length.
  destruct (Nat.eq_dec (length x) (N.to_nat (b - a))) as [E|E].
  - rewrite firstn_app, firstn_all2 by lia. f_equal. f_equal. lia.
  - assert (Hy : skipn (N.to_nat b) s = []).
    { apply skipn_all2. subst x. rewrite firstn_length, skipn_length in E. lia. }
    rewrite Hy, app_nil_r, firstn_nil, app_nil_r. rewrite firstn_all2; auto. lia.
Qed.

Lemma is_dash_true s a : is_dash s a = true -> part_of s a (a + 1) = dash.
Proof.
  unfold is_dash. destruct (part_of s a (a + 1)) as [|b [|]]; try discriminate.
  intros E. apply N.eqb_eq in E. subst. reflexivity.
Qed.

Lemma split_form s : len s = 36 -> is_dash s 8 && is_dash s 13 && is_dash s 18 && is_dash s 23 = true ->
  s = form (part_of s 0 8) (part_of s 9 13) (part_of s 14 18) (part_of s 19 23) (part_of s 24 36).
Proof.
  intros Hl Hd. rewrite !andb_true_iff in Hd. destruct Hd as [[[D1 D2] D3] D4].
  apply is_dash_true in D1, D2, D3, D4. unfold form.
  rewrite <- D1 at 1. rewrite <- D2 at 1. rewrite <- D3 at 1. rewrite <- D4 at 1.
  change (8 + 1) with 9. change (13 + 1) with 14. change (18 + 1) with 19. change (23 + 1) with 24.
  rewrite <- (part_of_split s 23 24 36), <- (part_of_split s 19 23 36), <- (part_of_split s 18 19 36),
    <- (part_of_split s 14 18 36), <- (part_of_split s 13 14 36), <- (part_of_split s 9 13 36),
    <- (part_of_split s 8 9 36), <- (part_of_split s 0 8 36) by lia.
  unfold part_of. cbn [N.to_nat skipn]. rewrite firstn_all2; auto. unfold len in Hl. lia.
Qed.

(** ** Round trip *)
Lemma pow_16_bits n b : 4 * n = b -> 16 ^ n = 2 ^ b.
Proof. intros <-. rewrite N.pow_mul_r. reflexivity. Qed.

Definition text_of (up : bool) (u : uuid) : list N := uuid_text up (part1 u) (part2 u) (part3 u) (part4 u) (part5 u).

Lemma body_text up u0 u : uuid_ok u -> body u0 (text_of up u) = (u, Ok tt).
Proof.
  intros (H1 & H2 & H3 & H4 & H5). unfold text_of, uuid_text.
  fold (form (digits up 8 (part1 u)) (digits up 4 (part2 u)) (digits up 4 (part3 u)) (digits up 4 (part4 u)) (digits up 12 (part5 u))).
  destruct (form_parts (digits up 8 (part1 u)) (digits up 4 (part2 u)) (digits up 4 (part3 u)) (digits up 4 (part4 u)) (digits up 12 (part5 u)))
    as (L & P1 & P2 & P3 & P4 & P5 & D1 & D2 & D3 & D4); try (unfold len; rewrite digits_length; reflexivity).
  unfold body. rewrite D1, D2, D3, D4, P1, P2, P3, P4, P5. cbn [andb].
  rewrite !radix16_digits; try (auto; reflexivity || lia); try (vm_compute; discriminate); try (unfold two32, two16, two64; lia).
  destruct u; auto.
Qed.

Lemma digit_char_ascii up d : d < 16 -> digit_char up d < 128.
Proof. revert d. apply case16. destruct up; repeat constructor. Qed.
Lemma digits_ascii up n v : ascii_only (digits up n v).
Proof. induction n; cbn [digits]; constructor; auto. apply digit_char_ascii, N.mod_lt. lia. Qed.
Lemma text_ascii up u : ascii_only (text_of up u).
Proof.
  unfold text_of, uuid_text, ascii_only, dash. rewrite !Forall_app.
  repeat split; try apply digits_ascii; repeat constructor.
Qed.
Lemma braced_ascii s : ascii_only s -> ascii_only (braced s).
Proof. intros. unfold braced, ascii_only. rewrite !Forall_app. repeat split; auto; repeat constructor. Qed.

Lemma strip_braced s : strip (braced s) = s.
Proof.
  unfold strip. change (braced s) with ([0x7b] ++ s ++ [0x7d]).
  replace (ends_with_c ([0x7b] ++ s ++ [0x7d]) 0x7d) with true.
  2:{ unfold ends_with_c. cbn [app rev]. rewrite rev_app_distr. reflexivity. }
  change (starts_with_c ([0x7b] ++ s ++ [0x7d]) 0x7b) with true. cbn [andb].
  change (part_of ([0x7b] ++ s ++ [0x7d]) 1 (len ([0x7b] ++ s ++ [0x7d]) - 1) = s).
  apply part_of_mid; rewrite ?len_app; unfold len; cbn [length]; lia.
Qed.

Lemma digit_not_brace up d : d < 16 -> digit_char up d <> 0x7b.
Proof. intros Hd E. pose proof (hex_digit_char up d Hd) as H. rewrite E in H. discriminate. Qed.

Lemma strip_text up u : strip (text_of up u) = text_of up u.
Proof.
  unfold strip. replace (starts_with_c (text_of up u) 0x7b) with false; auto.
  unfold text_of, uuid_text. change (digits up 8 (part1 u)) with
    (digit_char up (part1 u / 16 ^ N.of_nat 7 mod 16) :: digits up 7 (part1 u)).
  cbn [app starts_with_c]. symmetry. apply N.eqb_neq. apply digit_not_brace. apply N.mod_lt. lia.
Qed.

Lemma text_len up u : len (text_of up u) = 36.
Proof.
  unfold text_of, uuid_text, len. rewrite !app_length, !digits_length. reflexivity.
Qed.

Lemma to_string_text u : uuid_ok u -> uuid_to_string u = text_of false u.
Proof.
  intros (H1 & H2 & H3 & H4 & H5). unfold uuid_to_string, text_of, uuid_text.
  rewrite !format_hex_digits; auto; lia.
Qed.

Lemma from_string_text u0 u up : uuid_ok u ->
  uuid_from_string u0 (text_of up u) = (u, Ok tt) /\ uuid_from_string u0 (braced (text_of up u)) = (u, Ok tt).
Proof.
  intros Hu. rewrite !from_string_ascii by (auto using braced_ascii, text_ascii).
  rewrite strip_braced, strip_text, text_len, N.eqb_refl, body_text; auto.
Qed.

(** ** Accepted strings *)
Lemma part_no_plus s a b : no_plus s -> no_plus (part_of s a b).
Proof.
  intros H. unfold part_of, no_plus in *. rewrite Forall_forall in *. intros x Hx. apply H.
  assert (In x (skipn (N.to_nat a) s)).
  { rewrite <- (firstn_skipn (N.to_nat (b - a)) (skipn (N.to_nat a) s)). apply in_or_app. auto. }
  rewrite <- (firstn_skipn (N.to_nat a) s). apply in_or_app. auto.
Qed.


Lemma spells_bound s v : spells s v -> v < 16 ^ len s.
Proof.
  induction 1 as [|s v c d Hs IH [Hd _]].
  - reflexivity.
  - rewrite len_app. unfold len at 2. cbn [length]. rewrite N.pow_add_r. change (16 ^ N.of_nat 1) with 16. lia.
Qed.

Lemma body_iff u0 u s : len s = 36 -> no_plus s -> (body u0 s = (u, Ok tt) <-> uuid_form s u).
Proof.
  intros Hl Hp.
  assert (Hne : forall a b, a < b -> b <= 36 -> part_of s a b <> []).
  { intros a b Hab Hb E. apply (f_equal len) in E. rewrite part_of_len in E by lia. unfold len in E. cbn in E. lia. }
  split.
  - unfold body. destruct (is_dash s 8 && is_dash s 13 && is_dash s 18 && is_dash s 23) eqn:D; [|discriminate].
    destruct (from_str_radix16 two32 (part_of s 0 8)) as [p1|] eqn:E1; [|discriminate].
    destruct (from_str_radix16 two16 (part_of s 9 13)) as [p2|] eqn:E2; [|discriminate].
    destruct (from_str_radix16 two16 (part_of s 14 18)) as [p3|] eqn:E3; [|discriminate].
    destruct (from_str_radix16 two16 (part_of s 19 23)) as [p4|] eqn:E4; [|discriminate].
    destruct (from_str_radix16 two64 (part_of s 24 36)) as [p5|] eqn:E5; [|discriminate].
    intros E. injection E as <-.
    apply radix16_spells in E1, E2, E3, E4, E5; try (apply part_no_plus; auto); try (apply Hne; lia);
      try (unfold two16, two32, two64; lia).
    exists (part_of s 0 8), (part_of s 9 13), (part_of s 14 18), (part_of s 19 23), (part_of s 24 36).
    cbn [part1 part2 part3 part4 part5]. rewrite !part_of_len by lia.
    pose proof (split_form s Hl D). tauto.
  - intros (g1 & g2 & g3 & g4 & g5 & -> & L1 & L2 & L3 & L4 & L5 & S1 & S2 & S3 & S4 & S5).
    destruct (form_parts g1 g2 g3 g4 g5 L1 L2 L3 L4 L5) as (L & P1 & P2 & P3 & P4 & P5 & D1 & D2 & D3 & D4).
    unfold body. rewrite D1, D2, D3, D4. cbn [andb].
    assert (R : forall m g v a b, spells g v -> part_of (form g1 g2 g3 g4 g5) a b = g -> 16 ^ len g <= m -> 16 <= m ->
                a < b -> b <= 36 -> from_str_radix16 m g = Some v).
    { intros m g v a b Hs Hg Hm H16 Hab Hb. apply radix16_spells; auto.
      - rewrite <- Hg. apply part_no_plus; auto.
      - rewrite <- Hg. apply Hne; auto.
      - split; auto. apply spells_bound in Hs. lia. }
    rewrite P1, P2, P3, P4, P5.
    rewrite (R two32 g1 (part1 u) 0 8), (R two16 g2 (part2 u) 9 13), (R two16 g3 (part3 u) 14 18),
      (R two16 g4 (part4 u) 19 23), (R two64 g5 (part5 u) 24 36); auto;
      try (rewrite ?L1, ?L2, ?L3, ?L4, ?L5; vm_compute; discriminate); try lia.
    destruct u; auto.
Qed.

Lemma form_strip s u : uuid_form s u -> strip s = s.
Proof.
  intros (g1 & g2 & g3 & g4 & g5 & -> & L1 & _ & _ & _ & _ & S1 & _).
  unfold strip. replace (starts_with_c (form g1 g2 g3 g4 g5) 0x7b) with false; auto.
  destruct g1 as [|c g1]; [discriminate|]. unfold form. cbn [app starts_with_c].
  symmetry. apply N.eqb_neq. intros ->.
  assert (Hd : forall s v, spells s v -> Forall (fun c => hex_digit c <> None) s).
  { induction 1 as [|s v c d Hs IH Hd]; [constructor|]. apply Forall_app. split; auto.
    constructor; auto. rewrite (is_digit_hex _ _ Hd). discriminate. }
  specialize (Hd _ _ S1). apply Forall_inv in Hd. apply Hd. reflexivity.
Qed.

Lemma strip_cases s : strip s = s \/ s = braced (strip s).
Proof.
  unfold strip. destruct (starts_with_c s 0x7b && ends_with_c s 0x7d) eqn:E; auto. right.
  rewrite andb_true_iff in E. destruct E as [E1 E2].
  destruct s as [|a s]; [discriminate|]. cbn [starts_with_c] in E1. apply N.eqb_eq in E1. subst a.
  unfold ends_with_c in E2. cbn [rev] in E2.
  destruct s as [|b s] using rev_ind; [discriminate|]. rewrite rev_app_distr in E2. cbn in E2.
  apply N.eqb_eq in E2. subst b. unfold braced.
  change (0x7b :: s ++ [0x7d]) with ([0x7b] ++ s ++ [0x7d]).
  rewrite part_of_mid; auto; rewrite ?len_app; unfold len; cbn [length]; lia.
Qed.

Lemma form_len s u : uuid_form s u -> len s = 36.
Proof.
  intros (g1 & g2 & g3 & g4 & g5 & -> & L1 & L2 & L3 & L4 & L5 & _). apply form_parts; auto.
Qed.

Lemma accepts_iff u0 u s : ascii_only s -> no_plus s ->
  (uuid_from_string u0 s = (u, Ok tt) <-> uuid_form s u \/ exists t, s = braced t /\ uuid_form t u).
Proof.
  intros Ha Hp. rewrite from_string_ascii by auto.
  assert (Hps : no_plus (strip s)).
  { unfold strip. destruct (_ && _); auto. apply part_no_plus; auto. }
  split.
  - destruct (len (strip s) =? 36) eqn:E; [|discriminate]. apply N.eqb_eq in E.
    intros H. apply body_iff in H; auto. destruct (strip_cases s) as [C|C]; [rewrite C in H; auto|].
    right. exists (strip s). auto.
  - intros [H|(t & -> & H)].
    + pose proof (form_strip _ _ H) as Es. rewrite Es. rewrite (form_len _ _ H), N.eqb_refl.
      apply body_iff; auto. eapply form_len; eauto.
    + rewrite strip_braced in *. rewrite (form_len _ _ H), N.eqb_refl. apply body_iff; auto. eapply form_len; eauto.
Qed.

(** ** Byte forms *)
Ltac Zify.zify_post_hook ::= Z.div_mod_to_equations.

Lemma digits_app up n m v : digits up (n + m) v = digits up n (v / 16 ^ N.of_nat m) ++ digits up m v.
Proof.
  induction n as [|n IH]; auto. cbn [digits Nat.add app]. rewrite IH. f_equal.
  f_equal. rewrite Nat2N.inj_add, N.pow_add_r, N.mul_comm, N.div_div; auto; apply N.pow_nonzero; lia.
Qed.

Lemma digits_mod up n v w : v mod 16 ^ N.of_nat n = w mod 16 ^ N.of_nat n -> digits up n v = digits up n w.
Proof.
  revert v w. induction n as [|n IH]; intros v w H; auto. rewrite !digits_snoc.
  rewrite Nat2N.inj_succ, N.pow_succ_r' in H.
  assert (H1 : v mod 16 = w mod 16).
  { apply (f_equal (fun x => x mod 16)) in H.
    rewrite !N.mod_mul_r in H by (try apply N.pow_nonzero; lia).
    rewrite !(N.mul_comm 16), !N.mod_add, !N.mod_mod in H by lia. auto. }
  assert (H2 : (v / 16) mod 16 ^ N.of_nat n = (w / 16) mod 16 ^ N.of_nat n).
  { rewrite !N.mod_mul_r in H by (try apply N.pow_nonzero; lia). rewrite H1 in H.
    set (a := (v / 16) mod _) in *. set (b := (w / 16) mod _) in *. clear - H. lia. }
  rewrite (IH _ _ H2), H1. auto.
Qed.

Lemma be_value_app l b : be_value (l ++ [b]) = be_value l * 256 + b.
Proof. unfold be_value. rewrite fold_left_app. reflexivity. Qed.

Lemma bytes_text_value l : wf_bytes l -> bytes_text l = digits false (2 * length l) (be_value l).
Proof.
  induction l as [|b l IH] using rev_ind; intros Hw; auto.
  apply wf_bytes_app in Hw. destruct Hw as [Hw Hb]. apply Forall_inv in Hb. unfold byte_ok in Hb.
  unfold bytes_text in *. rewrite flat_map_app, app_length. cbn [flat_map length]. rewrite app_nil_r, IH by auto.
  replace (2 * (length l + 1))%nat with (2 * length l + 2)%nat by lia.
  rewrite digits_app, be_value_app. f_equal.
  - f_equal. change (16 ^ N.of_nat 2) with 256. lia.
  - unfold byte_text. apply digits_mod. change (16 ^ N.of_nat 2) with 256. lia.
Qed.

Lemma uint_be_part n a e : e + n <= len a -> len a < two64 -> bytes_to_uint_be n a e = Ok (be_value (part_of a e (e + n))).
Proof.
  intros H Ha. unfold bytes_to_uint_be, add_chk. replace (e + n <? two64) with true by lia. cbn [bind].
  rewrite slice_ok by lia. reflexivity.
Qed.
Lemma uint_le_part n a e : e + n <= len a -> len a < two64 -> bytes_to_uint_le n a e = Ok (le_value (part_of a e (e + n))).
Proof.
  intros H Ha. unfold bytes_to_uint_le, add_chk. replace (e + n <? two64) with true by lia. cbn [bind].
  rewrite slice_ok by lia. reflexivity.
Qed.

Lemma part_wf a b c : wf_bytes a -> wf_bytes (part_of a b c).
Proof. intros. unfold part_of. apply wf_bytes_firstn, wf_bytes_skipn. auto. Qed.

Lemma be_value_bound l : wf_bytes l -> be_value l < 256 ^ len l.
Proof. intros. rewrite be_value_rev, <- len_rev. apply le_value_bound. apply Forall_rev. auto. Qed.

Lemma part_digits a e n : e + N.of_nat n <= len a -> wf_bytes a ->
  digits false (2 * n) (be_value (part_of a e (e + N.of_nat n))) = bytes_text (part_of a e (e + N.of_nat n)).
Proof.
  intros H Hw. rewrite bytes_text_value by (apply part_wf; auto). f_equal.
  assert (E : len (part_of a e (e + N.of_nat n)) = N.of_nat n) by (rewrite part_of_len; lia).
  unfold len in E. lia.
Qed.

Lemma be_value_app2 a b : be_value (a ++ b) = be_value a * 256 ^ len b + be_value b.
Proof.
  revert a. induction b as [|x b IH] using rev_ind; intros a.
  - rewrite app_nil_r. unfold len. cbn [length]. change (256 ^ N.of_nat 0) with 1. unfold be_value at 3. cbn. lia.
  - rewrite app_assoc, !be_value_app, IH, len_app. unfold len at 3. cbn [length].
    rewrite N.pow_add_r. change (256 ^ N.of_nat 1) with 256. lia.
Qed.

Definition be_layout (a : list N) : list N :=
  bytes_text (part_of a 0 4) ++ dash ++ bytes_text (part_of a 4 6) ++ dash ++ bytes_text (part_of a 6 8) ++ dash ++
  bytes_text (part_of a 8 10) ++ dash ++ bytes_text (part_of a 10 16).

Lemma lor_shift_add a b k : b < 2 ^ k -> N.lor (N.shiftl a k) b = a * 2 ^ k + b.
Proof.
  intros Hb. rewrite <- N.shiftl_mul_pow2.
  rewrite N.add_nocarry_lxor.
  - apply N.bits_inj. intros i. rewrite N.lor_spec, N.lxor_spec.
    destruct (N.lt_ge_cases i k) as [Hi|Hi].
    + rewrite N.shiftl_spec_low by auto. destruct (N.testbit b i); auto.
    + replace (N.testbit b i) with false. { destruct (N.testbit _ i); auto. }
      symmetry. destruct (N.eq_dec b 0) as [->|Hz]; [apply N.bits_0|].
      apply N.bits_above_log2. apply N.log2_lt_pow2; [lia|].
      eapply N.lt_le_trans; [exact Hb|]. apply N.pow_le_mono_r; lia.
  - apply N.bits_inj. intros i. rewrite N.land_spec, N.bits_0.
    destruct (N.lt_ge_cases i k) as [Hi|Hi].
    + rewrite N.shiftl_spec_low by auto. auto.
    + replace (N.testbit b i) with false. { apply andb_false_r. }
      symmetry. destruct (N.eq_dec b 0) as [->|Hz]; [apply N.bits_0|].
      apply N.bits_above_log2. apply N.log2_lt_pow2; [lia|].
      eapply N.lt_le_trans; [exact Hb|]. apply N.pow_le_mono_r; lia.
Qed.

Lemma uuid_be a : wf_bytes a -> len a < two64 -> 16 <= len a ->
  exists u, uuid_from_be_bytes a = Ok u /\ uuid_ok u /\ uuid_to_string u = be_layout a.
Proof.
  intros Hw Ha H. unfold uuid_from_be_bytes, u16_be, u32_be.
  rewrite !uint_be_part by lia. cbn [bind]. change (10 + 2) with 12; change (12 + 4) with 16; change (0 + 4) with 4; change (4 + 2) with 6; change (6 + 2) with 8; change (8 + 2) with 10.
  assert (B : forall e n, e + n <= len a -> be_value (part_of a e (e + n)) < 256 ^ n).
  { intros e n Hn. replace n with (len (part_of a e (e + n))) at 2 by (rewrite part_of_len; lia).
    apply be_value_bound. apply part_wf; auto. }
  pose proof (B 0 4 ltac:(lia)) as B1. pose proof (B 4 2 ltac:(lia)) as B2. pose proof (B 6 2 ltac:(lia)) as B3.
  pose proof (B 8 2 ltac:(lia)) as B4. pose proof (B 10 2 ltac:(lia)) as B5. pose proof (B 12 4 ltac:(lia)) as B6.
  change (10 + 2) with 12 in *; change (12 + 4) with 16 in *; change (0 + 4) with 4 in *; change (4 + 2) with 6 in *; change (6 + 2) with 8 in *; change (8 + 2) with 10 in *.
  change (256 ^ 4) with (2 ^ 32) in *. change (256 ^ 2) with (2 ^ 16) in *.
  eexists. split; [reflexivity|].
  rewrite lor_shift_add by auto.
  match goal with |- uuid_ok ?u /\ _ => set (v := u) end.
  assert (Hv : uuid_ok v).
  { unfold uuid_ok, v. cbn [part1 part2 part3 part4 part5]. repeat split; auto. lia. }
  split; auto. rewrite to_string_text by auto. unfold text_of, uuid_text, be_layout, v.
  cbn [part1 part2 part3 part4 part5].
  assert (X1 : digits false 8 (be_value (part_of a 0 4)) = bytes_text (part_of a 0 4)) by (apply (part_digits a 0 4); auto; cbn; lia).
  assert (X2 : digits false 4 (be_value (part_of a 4 6)) = bytes_text (part_of a 4 6)) by (apply (part_digits a 4 2); auto; cbn; lia).
  assert (X3 : digits false 4 (be_value (part_of a 6 8)) = bytes_text (part_of a 6 8)) by (apply (part_digits a 6 2); auto; cbn; lia).
  assert (X4 : digits false 4 (be_value (part_of a 8 10)) = bytes_text (part_of a 8 10)) by (apply (part_digits a 8 2); auto; cbn; lia).
  rewrite X1, X2, X3, X4.
  do 8 f_equal.
  rewrite (part_of_split a 10 12 16) by lia.
  replace (be_value (part_of a 10 12) * 2 ^ 32 + be_value (part_of a 12 16))
    with (be_value (part_of a 10 12 ++ part_of a 12 16)).
  2:{ rewrite be_value_app2. rewrite part_of_len by lia. reflexivity. }
  rewrite <- (part_of_split a 10 12 16) by lia. apply (part_digits a 10 6); [cbn; lia|auto].
Qed.

(** The little-endian form has the bytes of the first three fields reversed. *)
Definition swap_fields (a : list N) : list N :=
  rev (part_of a 0 4) ++ rev (part_of a 4 6) ++ rev (part_of a 6 8) ++ part_of a 8 16.

Lemma uuid_le a : wf_bytes a -> len a < two64 -> 16 <= len a ->
  uuid_from_le_bytes a = uuid_from_be_bytes (swap_fields a).
Proof.
  intros Hw Ha H. set (s := swap_fields a).
  assert (Ls : len s = 16).
  { unfold s, swap_fields. rewrite !len_app, !len_rev, !part_of_len by lia. lia. }
  assert (Q1 : part_of s 0 4 = rev (part_of a 0 4)).
  { apply (part_of_mid [] (rev (part_of a 0 4))); auto; try lia. rewrite len_rev, part_of_len; lia. }
  assert (Q2 : part_of s 4 6 = rev (part_of a 4 6)).
  { apply part_of_mid; rewrite ?len_rev, ?part_of_len; lia. }
  assert (Q3 : part_of s 6 8 = rev (part_of a 6 8)).
  { unfold s, swap_fields. rewrite app_assoc. apply part_of_mid; rewrite ?len_app, ?len_rev, ?part_of_len; lia. }
  assert (Q : forall e n, 8 <= e -> e + n <= 16 -> part_of s e (e + n) = part_of a e (e + n)).
  { intros e n He Hn.
    unfold s, swap_fields. rewrite (part_of_split a 8 e 16), (part_of_split a e (e + n) 16) by lia.
    rewrite !app_assoc. rewrite <- app_assoc.
    apply part_of_mid; rewrite ?len_app, ?len_rev, ?part_of_len; lia. }
  unfold uuid_from_le_bytes, uuid_from_be_bytes, u16_be, u32_be, u16_le, u32_le.
  rewrite !uint_be_part, !uint_le_part by (unfold two64 in *; lia). cbn [bind].
  rewrite (Q 10 2), (Q 12 4), (Q 8 2) by lia. change (10 + 2) with 12; change (12 + 4) with 16; change (0 + 4) with 4; change (4 + 2) with 6; change (6 + 2) with 8; change (8 + 2) with 10. rewrite Q1, Q2, Q3, !be_value_rev, !rev_involutive. reflexivity.
Qed.

Lemma uuid_bytes_short a : len a < 16 -> uuid_from_be_bytes a = Panic /\ uuid_from_le_bytes a = Panic.
Proof.
  intros H. unfold uuid_from_be_bytes, uuid_from_le_bytes, u16_be, u32_be, u16_le, u32_le.
  assert (P : bytes_to_uint_be 4 a 12 = Panic) by (apply uint_be_panic; unfold two64; lia).
  rewrite P. destruct (bytes_to_uint_be 2 a 10) eqn:E; auto.
  exfalso. unfold bytes_to_uint_be, add_chk in E. cbn [bind] in E.
  replace (10 + 2 <? two64) with true in E by reflexivity. cbn [bind] in E. unfold slice in E.
  destruct (_ && _) in E; discriminate.
Qed.
