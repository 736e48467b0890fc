From Coq Require Import String.
From Verif Require Import Base BaseLemmas Bytes_model Bytes_spec Bytes_proofs Uuid_model Uuid_spec Uuid_proofs
  Strings_model Strings_spec.
Open Scope list_scope.

(** ** Reading *)
Lemma u16_get (big : bool) a b pre rest : len (pre ++ a :: b :: rest) < two64 ->
  (if big then u16_be else u16_le) (pre ++ a :: b :: rest) (len pre) =
    Ok (if big then 256 * a + b else a + 256 * b).
Proof.
  intros Hl. assert (L : len (pre ++ a :: b :: rest) = len pre + len rest + 2) by (rewrite len_app, !len_cons; lia).
  assert (P : part_of (pre ++ a :: b :: rest) (len pre) (len pre + 2) = [a; b]).
  { change (a :: b :: rest) with ([a; b] ++ rest). apply part_of_mid; [reflexivity|change (len [a; b]) with 2; lia|lia]. }
  unfold u16_be, u16_le. destruct big.
  - rewrite uint_be_part by lia. rewrite P. f_equal. unfold be_value. cbn [fold_left]. lia.
  - rewrite uint_le_part by lia. rewrite P. f_equal. cbn [le_value]. lia.
Qed.

Lemma read_u16s_ok (big : bool) bytes l : u16s big bytes l -> forall pre p, len (pre ++ bytes) < two64 -> before_nul l p ->
  read_u16s (if big then u16_be else u16_le) (pre ++ bytes) (steps2 (len bytes)) (len pre) = Ok p.
Proof.
  induction 1 as [|a b bytes l H IH]; intros pre p Hl [Hp Hc].
  - destruct Hc as [<-|(rest & Hc)]; [reflexivity|]. destruct p; discriminate.
  - replace (steps2 (len (a :: b :: bytes))) with (S (steps2 (len bytes))).
    2:{ unfold steps2. rewrite !len_cons. lia. }
    cbn [read_u16s]. rewrite u16_get by auto. cbn [bind].
    set (v := if big then 256 * a + b else a + 256 * b) in *.
    destruct (v =? 0) eqn:E.
    + destruct p as [|x p]; auto. exfalso. apply Forall_inv in Hp.
      destruct Hc as [Hc|(rest & Hc)]; injection Hc as Hx _; lia.
    + destruct p as [|x p].
      { exfalso. destruct Hc as [Hc|(rest & Hc)]; [discriminate|]. injection Hc as Hx _. lia. }
      assert (Hx : v = x) by (destruct Hc as [Hc|(rest & Hc)]; injection Hc as Hx _; auto).
      specialize (IH (pre ++ [a; b]) p). rewrite <- app_assoc in IH. cbn [app] in IH.
      replace (len (pre ++ [a; b])) with (len pre + 2) in IH by (rewrite len_app; reflexivity).
      rewrite IH; auto.
      * cbn [bind]. congruence.
      * split; [apply (Forall_inv_tail Hp)|].
        destruct Hc as [Hc|(rest & Hc)]; injection Hc as _ Hc; [left; auto|right; eauto].
Qed.

Lemma u16s_exists big bytes : len bytes mod 2 = 0 -> exists l, u16s big bytes l.
Proof.
  assert (H : forall n bytes, (length bytes <= n)%nat -> len bytes mod 2 = 0 -> exists l, u16s big bytes l).
  { induction n as [|n IH]; intros [|a [|b t]] Hn Hm; try (exists []; constructor); try (cbn in Hn; lia);
      try (unfold len in Hm; cbn [length] in Hm; discriminate).
    destruct (IH t) as [l Hl]; [cbn in Hn; lia|rewrite !len_cons in Hm; lia|].
    eexists. constructor. eauto. }
  apply (H (length bytes)). auto.
Qed.

Lemma before_nul_exists l : exists p, before_nul l p.
Proof.
  induction l as [|a l (p & Hp & Hc)].
  - exists []. split; auto.
  - destruct (N.eq_dec a 0) as [->|Ha].
    + exists []. split; auto. right. exists l. auto.
    + exists (a :: p). split; [constructor; auto|].
      destruct Hc as [->|(rest & ->)]; [left; auto|right; exists rest; auto].
Qed.

Lemma read_even big bytes : len bytes < two64 -> len bytes mod 2 = 0 ->
  exists l p, u16s big bytes l /\ before_nul l p /\
    (if big then u16string_from_be_bytes else u16string_from_le_bytes) bytes = Ok p.
Proof.
  intros Hl Hm. destruct (u16s_exists big bytes Hm) as [l H]. destruct (before_nul_exists l) as [p Hp].
  exists l, p. split; auto. split; auto.
  pose proof (read_u16s_ok big bytes l H [] p Hl Hp) as R. destruct big; exact R.
Qed.

(** With an odd number of bytes the read panics unless a zero element comes first. *)
Lemma read_odd big bytes last l : len (bytes ++ [last]) < two64 -> u16s big bytes l -> Forall (fun x => x <> 0) l ->
  (if big then u16string_from_be_bytes else u16string_from_le_bytes) (bytes ++ [last]) = Panic.
Proof.
  intros Hl H Hnz.
  assert (G : forall pre, len (pre ++ bytes ++ [last]) < two64 ->
    read_u16s (if big then u16_be else u16_le) (pre ++ bytes ++ [last]) (steps2 (len (bytes ++ [last]))) (len pre) = Panic).
  { clear Hl. induction H as [|a b bytes l H IH]; intros pre Hl.
    - cbn [app]. change (steps2 (len [last])) with 1%nat. cbn [read_u16s].
      replace ((if big then u16_be else u16_le) (pre ++ [last]) (len pre)) with (@Panic N); auto.
      symmetry. unfold u16_be, u16_le.
      destruct big; [apply uint_be_panic|apply uint_le_panic]; auto; rewrite len_app; unfold len; cbn [length]; lia.
    - replace (steps2 (len ((a :: b :: bytes) ++ [last]))) with (S (steps2 (len (bytes ++ [last])))).
      2:{ unfold steps2. cbn [app]. rewrite !len_cons. lia. }
      cbn [read_u16s app]. rewrite u16_get by auto. cbn [bind].
      pose proof (Forall_inv Hnz) as Hv. cbv beta in Hv.
      set (v := if big then 256 * a + b else a + 256 * b) in *. replace (v =? 0) with false by lia.
      specialize (IH (Forall_inv_tail Hnz) (pre ++ [a; b])). rewrite <- app_assoc in IH. cbn [app] in IH.
      replace (len (pre ++ [a; b])) with (len pre + 2) in IH by (rewrite len_app; reflexivity).
      cbn [app] in Hl. rewrite IH; auto. }
  pose proof (G [] Hl) as R. destruct big; exact R.
Qed.

Lemma read_append elements bytes : len bytes < two64 -> len bytes mod 2 = 0 ->
  exists l p, u16s false bytes l /\ before_nul l p /\ ucs2_read_data_le elements bytes = Ok (elements ++ p).
Proof.
  intros Hl Hm. destruct (read_even false bytes Hl Hm) as (l & p & H1 & H2 & H3). exists l, p.
  split; auto. split; auto. unfold ucs2_read_data_le. unfold u16string_from_le_bytes in H3. rewrite H3. auto.
Qed.

Lemma from_slice_ok l : before_nul l (string_from_slice l).
Proof.
  unfold string_from_slice. induction l as [|a l IH]; [split; [constructor|left; reflexivity]|]. cbn [position0].
  destruct (a =? 0) eqn:E.
  - apply N.eqb_eq in E. subst. cbn [firstn]. split; [constructor|]. right. exists l. reflexivity.
  - apply N.eqb_neq in E. destruct (position0 l) as [i|] eqn:P; destruct IH as [I1 I2]; split; try (constructor; auto; fail).
    + destruct I2 as [I2|(r & I2)]; [|right; exists r; cbn [firstn app]; congruence].
      left. cbn [firstn]. congruence.
Qed.

Lemma before_nul_unique l p q : before_nul l p -> before_nul l q -> p = q.
Proof.
  intros [P1 P2] [Q1 Q2]. revert l q P2 Q1 Q2. induction p as [|x p IH]; intros l q P2 Q1 Q2.
  - destruct q as [|y q]; auto. exfalso. pose proof (Forall_inv Q1) as Hy. cbv beta in Hy.
    destruct P2 as [->|(r & ->)]; destruct Q2 as [Q2|(r' & Q2)]; try discriminate; injection Q2 as Q2 _; congruence.
  - pose proof (Forall_inv P1) as Hx. cbv beta in Hx.
    destruct q as [|y q].
    + exfalso. destruct P2 as [->|(r & ->)]; destruct Q2 as [Q2|(r' & Q2)]; try discriminate; injection Q2 as Q2 _; congruence.
    + assert (Exy : x = y /\ exists l', (l' = p \/ exists r, l' = p ++ 0 :: r) /\ (l' = q \/ exists r, l' = q ++ 0 :: r)).
      { destruct P2 as [->|(r & ->)]; destruct Q2 as [Q2|(r' & Q2)]; injection Q2 as E1 E2; split; auto.
        - exists p. split; auto.
        - exists p. split; [auto|right; eauto].
        - exists (p ++ 0 :: r). split; [right; eauto|auto].
        - exists (p ++ 0 :: r). split; right; eauto. }
      destruct Exy as (-> & l' & A & B). f_equal.
      apply (IH (Forall_inv_tail P1) l'); auto. apply (Forall_inv_tail Q1).
Qed.

(** ** Case folding *)
Lemma case_folding_ok l m : length (ucs2_case_folding l m) = length l /\
  forall i e, nth_error l i = Some e ->
    nth_error (ucs2_case_folding l m) i = Some (match m e with Some v => v | None => e end).
Proof.
  split; [apply map_length|]. intros i e H. unfold ucs2_case_folding. apply map_nth_error with (f := fun e => match m e with Some v => v | None => e end) in H. auto.
Qed.

(** ** Comparison *)
Lemma compare_lt a b : ucs2_compare a b = Lt <-> lex_lt a b.
Proof.
  revert b. induction a as [|x a IH]; intros [|y b]; cbn [ucs2_compare].
  - split; [discriminate|inversion 1].
  - split; auto. constructor.
  - split; [discriminate|inversion 1].
  - destruct (x <? y) eqn:E1; [|destruct (y <? x) eqn:E2].
    + split; auto. intros _. constructor. lia.
    + split; [discriminate|]. inversion 1; subst; lia.
    + assert (x = y) by lia. subst. rewrite IH. split; [intros; apply lex_tail; auto|]. inversion 1; subst; auto. lia.
Qed.
Lemma compare_opp a b : ucs2_compare b a = CompOpp (ucs2_compare a b).
Proof.
  revert b. induction a as [|x a IH]; intros [|y b]; cbn [ucs2_compare]; auto.
  destruct (x <? y) eqn:E1; destruct (y <? x) eqn:E2; auto. lia.
Qed.
Lemma compare_gt a b : ucs2_compare a b = Gt <-> lex_lt b a.
Proof.
  rewrite <- compare_lt, (compare_opp a b). destruct (ucs2_compare a b); cbn; split; congruence.
Qed.
Lemma compare_eq a b : ucs2_compare a b = Eq <-> a = b.
Proof.
  revert b. induction a as [|x a IH]; intros [|y b]; cbn [ucs2_compare]; try (split; congruence).
  destruct (x <? y) eqn:E1; [|destruct (y <? x) eqn:E2].
  - split; [discriminate|]. intros E. injection E as E _. lia.
  - split; [discriminate|]. intros E. injection E as E _. lia.
  - assert (x = y) by lia. subst. rewrite IH. split; congruence.
Qed.
Lemma lex_trans a b c : lex_lt a b -> lex_lt b c -> lex_lt a c.
Proof.
  intros H. revert c. induction H as [y l|x y l m Hxy|x l m Hlm IH]; intros c Hc; inversion Hc; subst;
    first [apply lex_nil | apply lex_head; lia | apply lex_tail; apply IH; auto].
Qed.
Lemma lex_irrefl a : ~ lex_lt a a.
Proof. induction a; inversion 1; subst; [lia|auto]. Qed.

(** ** Printable form *)
Lemma format4 v : v < 65536 -> format_hex 4 v =
  [lower_hex (v / 4096 mod 16); lower_hex (v / 256 mod 16); lower_hex (v / 16 mod 16); lower_hex (v mod 16)].
Proof.
  intros Hv. rewrite format_hex_digits; [|lia|exact Hv]. cbn [digits].
  rewrite !digit_char_lower by (apply N.mod_lt; lia).
  change (16 ^ N.of_nat 3) with 4096. change (16 ^ N.of_nat 2) with 256.
  change (16 ^ N.of_nat 1) with 16. change (16 ^ N.of_nat 0) with 1. rewrite N.div_1_r. reflexivity.
Qed.

Lemma digit_value_lower d : d < 16 -> digit_value (lower_hex d) = d.
Proof. revert d. apply case16. repeat constructor. Qed.

Lemma unescape_other c rest : c <> 0x5c -> unescape (c :: rest) = c :: unescape rest.
Proof.
  intros Hc. destruct c as [|p]; auto.
  do 8 (try (destruct p as [p|p|]; auto; try (exfalso; apply Hc; reflexivity))).
Qed.

Lemma unescape_char e rest : e < 65536 -> unescape (ucs2_char e ++ rest) = e :: unescape rest.
Proof.
  intros He. unfold ucs2_char, char_from_u32.
  destruct ((e <? 0xd800) || ((0xe000 <=? e) && (e <? 0x110000))) eqn:E.
  - destruct (e =? 0x5c) eqn:E2.
    + apply N.eqb_eq in E2. subst. reflexivity.
    + apply N.eqb_neq in E2. cbn [app]. apply unescape_other; auto.
  - rewrite format4 by auto. cbn [app unescape].
    rewrite !digit_value_lower by (apply N.mod_lt; lia). f_equal. lia.
Qed.

Lemma unescape_to_string l : Forall (fun e => e < 65536) l -> unescape (ucs2_to_string l) = l.
Proof.
  induction 1 as [|e l He Hl IH]; auto. unfold ucs2_to_string in *. cbn [flat_map].
  rewrite unescape_char, IH; auto.
Qed.

Lemma to_string_injective a b : Forall (fun e => e < 65536) a -> Forall (fun e => e < 65536) b ->
  ucs2_to_string a = ucs2_to_string b -> a = b.
Proof. intros Ha Hb E. rewrite <- (unescape_to_string a), <- (unescape_to_string b) by auto. congruence. Qed.

Lemma to_string_scalars a : Forall (fun e => e < 65536) a -> Forall scalar (ucs2_to_string a).
Proof.
  induction 1 as [|e l He Hl IH]; [constructor|]. unfold ucs2_to_string in *. cbn [flat_map]. apply Forall_app.
  split; auto. unfold ucs2_char, char_from_u32, scalar.
  destruct ((e <? 0xd800) || ((0xe000 <=? e) && (e <? 0x110000))) eqn:E.
  - destruct (e =? 0x5c); repeat first [apply Forall_nil | apply Forall_cons]; lia.
  - rewrite format4 by auto.
    assert (H : forall d, d < 16 -> lower_hex d < 0xd800) by (apply case16; repeat constructor).
    cbn [app]. repeat first [apply Forall_nil | apply Forall_cons]; left; first [apply H; apply N.mod_lt; lia | lia].
Qed.

(** ** UTF-16 *)
Lemma lor_d800 x : x < 0x400 -> N.lor 0xd800 x = 0xd800 + x.
Proof. intros H. change 0xd800 with (N.shiftl 54 10). rewrite lor_shift_add; [reflexivity|exact H]. Qed.
Lemma lor_dc00 x : x < 0x400 -> N.lor 0xdc00 x = 0xdc00 + x.
Proof. intros H. change 0xdc00 with (N.shiftl 55 10). rewrite lor_shift_add; [reflexivity|exact H]. Qed.

Lemma encode_utf16_ok s : Forall scalar s -> ucs2_from_str s = utf16 s.
Proof.
  induction 1 as [|c s Hc Hs IH]; auto. unfold ucs2_from_str, utf16 in *. cbn [flat_map]. rewrite IH. f_equal.
  unfold encode_utf16_char, utf16_char, scalar in *. destruct (c <? 0x10000) eqn:E; auto.
  rewrite N.shiftr_div_pow2. change 0x3ff with (N.ones 10). rewrite N.land_ones. change (2 ^ 10) with 0x400.
  rewrite lor_d800, lor_dc00 by lia. auto.
Qed.

Lemma cons_eq {A} (a b : A) l m : a :: l = b :: m -> a = b /\ l = m.
Proof. intros E. injection E as -> ->. auto. Qed.

Lemma utf16_decode_spec l : forall s, Forall (fun u => u < 65536) l ->
  (utf16_to_string l = Ok s <-> l = utf16 s /\ Forall scalar s).
Proof.
  assert (H : forall n l, (length l <= n)%nat -> forall s, Forall (fun u => u < 65536) l ->
    (utf16_to_string l = Ok s <-> l = utf16 s /\ Forall scalar s)).
  2:{ intros s. apply (H (length l)). auto. }
  clear l. induction n as [|n IH]; intros l Hn s Hw.
  - destruct l; [|cbn in Hn; lia]. cbn. split.
    + intros E. injection E as <-. auto.
    + intros [E Hs]. destruct s as [|c s]; auto. unfold utf16, utf16_char in E. cbn [flat_map] in E.
      destruct (c <? 0x10000); discriminate.
  - destruct l as [|u rest].
    + cbn. split.
      * intros E. injection E as <-. auto.
      * intros [E Hs]. destruct s as [|c s]; auto. unfold utf16, utf16_char in E. cbn [flat_map] in E.
        destruct (c <? 0x10000); discriminate.
    + pose proof (Forall_inv Hw) as Hu. pose proof (Forall_inv_tail Hw) as Hr. cbv beta in Hu. cbn [length] in Hn.
      cbn [utf16_to_string].
      destruct ((u <? 0xd800) || (0xe000 <=? u)) eqn:E1.
      * split.
        -- intros H. apply bind_Ok_inv in H. destruct H as (t & H1 & H2). injection H2 as <-.
           apply IH in H1; [|lia|auto]. destruct H1 as [-> Ht]. split; [|constructor; auto; unfold scalar; lia].
           unfold utf16. cbn [flat_map]. unfold utf16_char at 2. replace (u <? 0x10000) with true by lia. auto.
        -- intros [E Hs]. destruct s as [|c s]; [discriminate|].
           unfold utf16 in E. cbn [flat_map] in E. unfold utf16_char in E at 1.
           pose proof (Forall_inv Hs) as Hc. unfold scalar in Hc.
           destruct (c <? 0x10000) eqn:E2.
           ++ cbn [app] in E; apply cons_eq in E; destruct E as [<- E]. fold (utf16 s) in E.
              rewrite (proj2 (IH rest ltac:(lia) s Hr)); auto. split; auto. apply (Forall_inv_tail Hs).
           ++ exfalso. cbn [app] in E; apply cons_eq in E; destruct E as [E _]. lia.
      * destruct (0xdc00 <=? u) eqn:E2.
        -- split; [discriminate|]. intros [E Hs]. exfalso. destruct s as [|c s]; [discriminate|].
           unfold utf16 in E. cbn [flat_map] in E. unfold utf16_char in E at 1.
           pose proof (Forall_inv Hs) as Hc. unfold scalar in Hc.
           destruct (c <? 0x10000) eqn:E3; cbn [app] in E; apply cons_eq in E; destruct E as [E _]; lia.
        -- destruct rest as [|u2 rest].
           ++ split; [discriminate|]. intros [E Hs]. exfalso. destruct s as [|c s]; [discriminate|].
              unfold utf16 in E. cbn [flat_map] in E. unfold utf16_char in E at 1.
              pose proof (Forall_inv Hs) as Hc. unfold scalar in Hc.
              destruct (c <? 0x10000) eqn:E3; [cbn [app] in E; apply cons_eq in E; destruct E as [E _]; lia|].
              cbn [app] in E; apply cons_eq in E; destruct E as [_ E]; discriminate.
           ++ pose proof (Forall_inv Hr) as Hu2. pose proof (Forall_inv_tail Hr) as Hr2. cbv beta in Hu2. cbn [length] in Hn.
              destruct ((u2 <? 0xdc00) || (0xe000 <=? u2)) eqn:E3.
              ** split; [discriminate|]. intros [E Hs]. exfalso. destruct s as [|c s]; [discriminate|].
                 unfold utf16 in E. cbn [flat_map] in E. unfold utf16_char in E at 1.
                 pose proof (Forall_inv Hs) as Hc. unfold scalar in Hc.
                 destruct (c <? 0x10000) eqn:E4; [cbn [app] in E; apply cons_eq in E; destruct E as [E _]; lia|].
                 cbn [app] in E; apply cons_eq in E; destruct E as [E E']; apply cons_eq in E'; destruct E' as [E' _]. lia.
              ** assert (HL : N.lor (N.shiftl (N.land u 0x3ff) 10) (N.land u2 0x3ff) = (u - 0xd800) * 0x400 + (u2 - 0xdc00)).
                 { change 0x3ff with (N.ones 10). rewrite !N.land_ones. change (2 ^ 10) with 0x400.
                   rewrite lor_shift_add; [|apply N.mod_lt; lia]. change (2 ^ 10) with 0x400.
                   replace (u mod 0x400) with (u - 0xd800) by lia. replace (u2 mod 0x400) with (u2 - 0xdc00) by lia. auto. }
                 rewrite HL. split.
                 --- intros H. apply bind_Ok_inv in H. destruct H as (t & H1 & H2). injection H2 as <-.
                     apply IH in H1; [|lia|auto]. destruct H1 as [-> Ht].
                     split; [|constructor; auto; unfold scalar; lia].
                     unfold utf16. cbn [flat_map]. unfold utf16_char at 2.
                     replace ((u - 0xd800) * 0x400 + (u2 - 0xdc00) + 0x10000 <? 0x10000) with false by lia.
                     cbn [app]. f_equal; [lia|]. f_equal. lia.
                 --- intros [E Hs]. destruct s as [|c s]; [discriminate|].
                     unfold utf16 in E. cbn [flat_map] in E. unfold utf16_char in E at 1.
                     pose proof (Forall_inv Hs) as Hc. unfold scalar in Hc.
                     destruct (c <? 0x10000) eqn:E4; [cbn [app] in E; apply cons_eq in E; destruct E as [E _]; lia|].
                     cbn [app] in E; apply cons_eq in E; destruct E as [E E']; apply cons_eq in E'; destruct E' as [E' E'']. fold (utf16 s) in E''.
                     rewrite (proj2 (IH rest ltac:(lia) s Hr2)); [|split; auto; apply (Forall_inv_tail Hs)].
                     cbn [bind]. f_equal. f_equal. lia.
Qed.

Lemma bind_not_err {A B} (m : res A) (k : A -> res B) : m <> Err -> (forall a, k a <> Err) -> bind m k <> Err.
Proof. destruct m; cbn; auto; discriminate. Qed.
Lemma utf16_not_err l : utf16_to_string l <> Err.
Proof.
  assert (H : forall n l, (length l <= n)%nat -> utf16_to_string l <> Err).
  { induction n as [|n IH]; intros [|u [|u2 rest]] Hn; cbn [length] in Hn; try lia; cbn [utf16_to_string]; try discriminate.
    - destruct (_ || _); [discriminate|]. destruct (0xdc00 <=? u); discriminate.
    - destruct ((u <? 0xd800) || (0xe000 <=? u)).
      + apply bind_not_err; [apply (IH (u2 :: rest)); cbn; lia|discriminate].
      + destruct (0xdc00 <=? u); [discriminate|]. destruct ((u2 <? 0xdc00) || (0xe000 <=? u2)); [discriminate|].
        apply bind_not_err; [apply (IH rest); lia|discriminate]. }
  apply (H (length l)). auto.
Qed.
