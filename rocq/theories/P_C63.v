(** * C63: shown paths tell the path, modes show the bits, lines have their fields *)
From Coq Require Import Lia String.
From Verif Require Import Base BaseLemmas Uuid_model Uuid_spec Uuid_proofs Formatters_model DisplayPath_model DisplayPath_spec.
Open Scope N_scope.
Open Scope list_scope.
Ltac Zify.zify_post_hook ::= idtac.

(** ** Escapes *)
Lemma digit_char_inj a b : a < 16 -> b < 16 -> digit_char false a = digit_char false b -> a = b.
Proof.
  intros Ha Hb. assert (C : forall x, x < 16 -> In x (map N.of_nat (seq 0 16))).
  { intros x Hx. apply in_map_iff. exists (N.to_nat x). split; [lia|]. apply in_seq. lia. }
  apply C in Ha, Hb. cbn [map seq] in Ha, Hb.
  repeat (destruct Ha as [<-|Ha]); try destruct Ha; repeat (destruct Hb as [<-|Hb]); try destruct Hb; (reflexivity || (intros E; discriminate E)).
Qed.
Lemma digits_inj n : forall v w, digits false n v = digits false n w -> v mod 16 ^ N.of_nat n = w mod 16 ^ N.of_nat n.
Proof.
  induction n as [|n IH]; intros v w E; [now rewrite !N.mod_1_r|].
  cbn [digits] in E. injection E as E1 E2. apply digit_char_inj in E1; [|apply N.mod_lt; lia|apply N.mod_lt; lia].
  rewrite Nat2N.inj_succ, N.pow_succ_r', (N.mul_comm 16). assert (16 ^ N.of_nat n <> 0) by (apply N.pow_nonzero; lia).
  rewrite !N.mod_mul_r by (assumption || lia). rewrite (IH v w E2), E1. reflexivity.
Qed.
Lemma digits_length n v : length (digits false n v) = n.
Proof. induction n; cbn; auto. Qed.
Lemma app_same (a b x y : list N) : length a = length b -> a ++ x = b ++ y -> a = b /\ x = y.
Proof.
  revert b. induction a as [|u a IH]; intros [|v b] L E; try discriminate L; [auto|]. cbn in E. injection E as -> E.
  destruct (IH b ltac:(now injection L) E) as [-> ->]. auto.
Qed.
Lemma hex_inj n v w x y : (0 < n <= 32)%nat -> v < 16 ^ N.of_nat n -> w < 16 ^ N.of_nat n ->
  format_hex n v ++ x = format_hex n w ++ y -> v = w /\ x = y.
Proof.
  intros Hn Hv Hw E. rewrite !format_hex_digits in E by assumption.
  apply app_same in E; [|now rewrite !digits_length]. destruct E as [E ->]. split; [|reflexivity].
  apply digits_inj in E. now rewrite !N.mod_small in E by assumption.
Qed.

(** A code point and what is shown for it *)
Definition token (k : name_kind) (c : N) : list N :=
  if is_char c then translated c
  else match k with Decoded => [92; 85; 123] ++ format_hex 8 c ++ [125] | _ => [92; 85] ++ format_hex 8 c end.
Inductive shown (c : N) : list N -> Prop :=
| shown_self : c <> 92 -> c <> 47 -> ~ control c -> shown c [c]
| shown_pair : c = 47 \/ c = 58 \/ c = 92 -> shown c [92; c]
| shown_short : c < 256 -> shown c ([92; 120] ++ format_hex 2 c)
| shown_long : c < 0x100000000 -> shown c ([92; 85] ++ format_hex 8 c)
| shown_braces : c < 0x100000000 -> shown c ([92; 85; 123] ++ format_hex 8 c ++ [125]).
Lemma among_bound c l b : forallb (fun x => x <? b) l = true -> among c l = true -> c < b.
Proof.
  intros H E. unfold among in E. apply existsb_exists in E. destruct E as (x & I & Ex). apply N.eqb_eq in Ex. subst x.
  rewrite forallb_forall in H. apply H in I. now apply N.ltb_lt in I.
Qed.
Lemma translated_shown c : shown c (translated c).
Proof.
  unfold translated, translation.
  destruct (N.ltb_spec c 0x20). { apply shown_short. lia. }
  destruct (N.eqb_spec c 47) as [->|]. { apply shown_pair. auto. }
  destruct (N.eqb_spec c 58) as [->|]. { apply shown_pair. auto. }
  destruct (N.eqb_spec c 92) as [->|]. { apply shown_pair. auto. }
  destruct (N.leb_spec 0x7f c); destruct (N.ltb_spec c 0xa0); cbn [andb].
  { apply shown_short. lia. }
  all: destruct (among c undefined_characters) eqn:E1; [apply shown_long; apply (among_bound _ undefined_characters); [reflexivity|exact E1]|].
  all: destruct (among c observed_characters) eqn:E2; [apply shown_long; apply (among_bound _ observed_characters); [reflexivity|exact E2]|].
  all: apply shown_self; auto; unfold control; lia.
Qed.
Lemma token_shown k c : c < 0x100000000 -> shown c (token k c).
Proof.
  intros H. unfold token. destruct (is_char c); [apply translated_shown|]. destruct k; [apply shown_long|apply shown_long|apply shown_braces]; exact H.
Qed.
Lemma hex_first n c : (0 < n <= 32)%nat -> c < 16 ^ N.of_nat n -> exists d t, format_hex n c = d :: t /\ d <> 123.
Proof.
  intros Hn Hc. rewrite format_hex_digits by assumption. destruct n as [|n]; [lia|]. cbn [digits]. eexists _, _. split; [reflexivity|].
  set (v := _ mod 16). assert (Hv : v < 16) by (apply N.mod_lt; lia). unfold digit_char. intros E.
  clearbody v. assert (C : In v (map N.of_nat (seq 0 16))). { apply in_map_iff. exists (N.to_nat v). split; [lia|]. apply in_seq. lia. }
  cbn [map seq] in C. repeat (destruct C as [<-|C]); try destruct C; discriminate E.
Qed.
(** What is shown for a code point cannot be taken for anything else. *)
Lemma shown_inj c d s t x y : shown c s -> shown d t -> s ++ x = t ++ y -> c = d /\ x = y.
Proof.
  assert (B8 : forall v, v < 0x100000000 -> v < 16 ^ N.of_nat 8) by (intros v Hv; exact Hv).
  assert (B2 : forall v, v < 256 -> v < 16 ^ N.of_nat 2) by (intros v Hv; exact Hv).
  assert (F : forall v t w, v < 0x100000000 -> format_hex 8 v ++ t = 123 :: w -> False).
  { intros v r w Hv E. destruct (hex_first 8 v ltac:(lia) Hv) as (q & u & Q1 & Q2). rewrite Q1 in E. cbn in E. congruence. }
  intros Hs Ht E. destruct Hs as [H1 H2 H3|H1|H1|H1|H1]; destruct Ht as [K1 K2 K3|K1|K1|K1|K1]; rewrite <- ?app_assoc in E; cbn [app] in E; injection E; clear E; intros.
  all: try (subst; split; congruence).
  all: try (exfalso; lia).
  all: try (exfalso; eapply F; [|eassumption]; assumption).
  all: try (exfalso; eapply F; [|symmetry; eassumption]; assumption).
  - eapply hex_inj; [| | |eassumption]; auto; lia.
  - eapply hex_inj; [| | |eassumption]; auto; lia.
  - match goal with H : format_hex 8 c ++ _ = _ |- _ => apply hex_inj in H; auto; [|lia]; destruct H as [-> H]; cbn in H; injection H as ->; auto end.
Qed.
Definition small (name : list N) : Prop := Forall (fun c => c < 0x100000000) name.
Lemma small_name k name : name_ok k name -> small name.
Proof. intros H. eapply Forall_impl; [|exact H]. intros c. destruct k; cbn; lia. Qed.
Definition shown_name (k : name_kind) (name : list N) : list N := flat_map (token k) name.
Lemma escape_ok k name : name_ok k name -> escape_string (as_name k name) = Ok (shown_name k name).
Proof.
  intros H. destruct k; cbn [as_name escape_string].
  - f_equal. unfold shown_name. induction H as [|c l Hc _ IH]; [reflexivity|]. cbn [flat_map]. rewrite IH. f_equal. unfold token.
    replace (is_char c) with true; [reflexivity|]. symmetry. unfold is_char. destruct (N.ltb_spec c 0xd800), (N.leb_spec 0xe000 c), (N.ltb_spec c 0x110000); cbn; try reflexivity; lia.
  - f_equal.
  - unfold shown_name. induction H as [|c l Hc _ IH]; [reflexivity|]. cbn [map escape_decoded flat_map]. rewrite IH. reflexivity.
Qed.
Definition cut (r : list N) : Prop := r = [] \/ exists u, r = 47 :: u.
Lemma shown_start c t : shown c t -> exists h u, t = h :: u /\ h <> 47.
Proof. intros [H1 H2 H3|H1|H1|H1|H1]; eexists _, _; (split; [reflexivity|]); lia. Qed.
Lemma name_cut k x : forall y r s, small x -> small y -> cut r -> cut s -> shown_name k x ++ r = shown_name k y ++ s -> x = y /\ r = s.
Proof.
  induction x as [|c x IH]; intros [|d y] r s Hx Hy Hr Hs E.
  - auto.
  - exfalso. inversion Hy; subst. destruct (shown_start d (token k d) (token_shown k d ltac:(assumption))) as (h & u & T & Th).
    unfold shown_name in E. cbn [flat_map app] in E. rewrite T in E. destruct Hr as [->|[w ->]]; cbn in E; [discriminate|congruence].
  - exfalso. inversion Hx; subst. destruct (shown_start c (token k c) (token_shown k c ltac:(assumption))) as (h & u & T & Th).
    unfold shown_name in E. cbn [flat_map app] in E. rewrite T in E. destruct Hs as [->|[w ->]]; cbn in E; [discriminate|congruence].
  - inversion Hx; inversion Hy; subst. unfold shown_name in E. cbn [flat_map] in E. rewrite <- !app_assoc in E.
    apply (shown_inj c d) in E; [|apply token_shown; assumption|apply token_shown; assumption]. destruct E as [-> E].
    destruct (IH y r s) as [-> ->]; auto.
Qed.
Lemma joined_cons a l : exists r, cut r /\ joined [47] (a :: l) = a ++ r /\ (l = [] -> r = []) /\ (l <> [] -> r = 47 :: joined [47] l).
Proof.
  destruct l as [|b l].
  - exists []. cbn [joined]. rewrite app_nil_r. split; [left; reflexivity|]. split; [reflexivity|]. split; [auto|congruence].
  - exists (47 :: joined [47] (b :: l)). split; [right; eexists; reflexivity|]. split; [reflexivity|]. split; [discriminate|auto].
Qed.
Lemma joined_inj k l : forall m, l <> [] -> m <> [] -> Forall small l -> Forall small m ->
  joined [47] (map (shown_name k) l) = joined [47] (map (shown_name k) m) -> l = m.
Proof.
  induction l as [|a l IH]; intros [|b m] Nl Nm Hl Hm E; try congruence. inversion Hl; inversion Hm; subst. cbn [map] in E.
  destruct (joined_cons (shown_name k a) (map (shown_name k) l)) as (r & R1 & R2 & R3 & R4).
  destruct (joined_cons (shown_name k b) (map (shown_name k) m)) as (s & S1 & S2 & S3 & S4).
  rewrite R2, S2 in E. apply name_cut in E; auto. destruct E as [-> E]. f_equal.
  destruct l as [|a' l], m as [|b' m]; auto.
  - rewrite (R3 eq_refl), S4 in E by discriminate. discriminate.
  - rewrite (S3 eq_refl), R4 in E by discriminate. discriminate.
  - rewrite R4, S4 in E by discriminate. injection E as E. apply IH; auto; discriminate.
Qed.
Lemma escapes_ok k path : Forall (name_ok k) path -> escape_strings (map (as_name k) path) = Ok (map (shown_name k) path).
Proof. induction 1 as [|n path Hn _ IH]; [reflexivity|]. cbn [map escape_strings]. rewrite (escape_ok k n Hn), IH. reflexivity. Qed.
Lemma join_ok k path : Forall (name_ok k) path ->
  join_path_components (map (as_name k) path) = Ok (match path with [[]] => [47] | _ => joined [47] (map (shown_name k) path) end).
Proof.
  intros H. pose proof (escapes_ok k path H) as E. destruct path as [|a [|b path]]; cbn [map] in E |- *; unfold join_path_components; [reflexivity| |rewrite E; destruct a; reflexivity].
  destruct a as [|c a].
  - destruct k; reflexivity.
  - replace (vfs_string_is_empty (as_name k (c :: a))) with false; [|destruct k; reflexivity]. rewrite E. reflexivity.
Qed.

(** Paths with different names have different texts, for the three kinds of names; the only
    exception is a path of two empty names, which no file entry has. *)
Theorem C63_paths_differ :
  forall k p q, Forall (name_ok k) p -> Forall (name_ok k) q -> p <> [] -> q <> [] -> p <> [[]; []] -> q <> [[]; []] ->
  (exists t, join_path_components (map (as_name k) p) = Ok t) /\
  (join_path_components (map (as_name k) p) = join_path_components (map (as_name k) q) -> p = q).
Proof.
  intros k p q Hp Hq Np Nq Ep Eq. rewrite (join_ok k p Hp), (join_ok k q Hq). split; [eexists; reflexivity|]. intros E. injection E as E.
  assert (Sp : Forall small p) by (eapply Forall_impl; [|exact Hp]; apply small_name).
  assert (Sq : Forall small q) by (eapply Forall_impl; [|exact Hq]; apply small_name).
  assert (Slash : [47] = joined [47] (map (shown_name k) [[]; []])) by reflexivity.
  assert (S2 : Forall small [[]; []]) by repeat constructor.
  assert (K : forall l, l <> [] -> Forall small l -> joined [47] (map (shown_name k) l) = [47] -> l = [[]; []]).
  { intros l Nl Sl El. rewrite Slash in El. apply joined_inj in El; auto. discriminate. }
  destruct (list_eq_dec (list_eq_dec N.eq_dec) p [[]]) as [->|Pp]; destruct (list_eq_dec (list_eq_dec N.eq_dec) q [[]]) as [->|Pq]; auto.
  - exfalso. apply Eq, K; auto. destruct q as [|[|x q] [|y r]]; congruence.
  - exfalso. apply Ep, K; auto. destruct p as [|[|x p] [|y r]]; congruence.
  - apply (joined_inj k); auto. destruct p as [|[|x p] [|y r]], q as [|[|x' q] [|y' r']]; congruence.
Qed.
Print Assumptions C63_paths_differ.

(** No control character is shown. *)
Lemma hex_fine n c : (0 < n <= 32)%nat -> c < 16 ^ N.of_nat n -> Forall (fun d => ~ control d) (format_hex n c).
Proof.
  intros Hn Hc. rewrite format_hex_digits by assumption. clear Hn Hc. induction n as [|n IH]; cbn [digits]; constructor; auto.
  set (v := _ mod 16). assert (Hv : v < 16) by (apply N.mod_lt; lia). clearbody v.
  assert (C : In v (map N.of_nat (seq 0 16))). { apply in_map_iff. exists (N.to_nat v). split; [lia|]. apply in_seq. lia. }
  cbn [map seq] in C. unfold control. repeat (destruct C as [<-|C]); try destruct C; cbv; intros [H|[H1 H2]]; congruence.
Qed.
Lemma shown_fine c t : shown c t -> Forall (fun d => ~ control d) t.
Proof.
  assert (L : Forall (fun d => ~ control d) [92; 120] /\ Forall (fun d => ~ control d) [92; 85] /\ Forall (fun d => ~ control d) [92; 85; 123] /\ Forall (fun d => ~ control d) [125]).
  { repeat split; repeat constructor; unfold control; lia. }
  destruct L as (L1 & L2 & L3 & L4). intros [H1 H2 H3|H1|H1|H1|H1].
  - constructor; [exact H3|constructor].
  - constructor; [unfold control; lia|]. constructor; [unfold control; lia|constructor].
  - apply Forall_app. split; [exact L1|]. apply hex_fine; [lia|exact H1].
  - apply Forall_app. split; [exact L2|]. apply hex_fine; [lia|exact H1].
  - apply Forall_app. split; [exact L3|]. apply Forall_app. split; [|exact L4]. apply hex_fine; [lia|exact H1].
Qed.
Theorem C63_no_control_characters :
  forall k p t, Forall (name_ok k) p -> join_path_components (map (as_name k) p) = Ok t -> Forall (fun c => ~ control c) t.
Proof.
  intros k p t Hp E. rewrite (join_ok k p Hp) in E. injection E as <-.
  assert (S : Forall (fun c => ~ control c) [47]) by (repeat constructor; unfold control; lia).
  assert (K : Forall (fun c => ~ control c) (joined [47] (map (shown_name k) p))).
  { induction Hp as [|n p Hn _ IH]; [constructor|]. cbn [map]. destruct (joined_cons (shown_name k n) (map (shown_name k) p)) as (r & _ & E1 & E2 & E3). rewrite E1. apply Forall_app. split.
    - clear E1 E2 E3. apply small_name in Hn. unfold shown_name. induction Hn as [|c n Hc _ IHn]; [constructor|]. cbn [flat_map]. apply Forall_app. split; [|exact IHn]. apply (shown_fine c), token_shown, Hc.
    - destruct p as [|m p]; [rewrite E2 by reflexivity; constructor|]. rewrite E3 by discriminate. constructor; [inversion S; assumption|exact IH]. }
  destruct p as [|[|x p] [|y r]]; assumption.
Qed.
Print Assumptions C63_no_control_characters.

(** Names of the operating system, and bytes that cannot be decoded, panic. *)
Theorem C63_no_panic_refuted :
  (forall units, escape_string (VOsString units) = Panic) /\ (forall before after, Forall (fun c => exists v, c = Ok v) before -> escape_string (VByte (before ++ Err :: after)) = Panic).
Proof.
  split; [reflexivity|]. intros before after H. cbn [escape_string]. induction H as [|c l [v ->] _ IH]; [reflexivity|]. cbn [app escape_decoded]. rewrite IH. reflexivity.
Qed.
Print Assumptions C63_no_panic_refuted.

(** ** Modes *)
Lemma land_bit mode k : negb (N.land mode (2 ^ k) =? 0) = N.testbit mode k.
Proof.
  destruct (N.testbit mode k) eqn:E.
  - replace (N.land mode (2 ^ k) =? 0) with false; [reflexivity|]. symmetry. apply N.eqb_neq. intros Z.
    assert (T : N.testbit (N.land mode (2 ^ k)) k = true) by (rewrite N.land_spec, E, N.pow2_bits_true; reflexivity). rewrite Z in T. now rewrite N.bits_0 in T.
  - replace (N.land mode (2 ^ k)) with 0; [reflexivity|]. symmetry. apply N.bits_inj. intros i. rewrite N.land_spec, N.bits_0. destruct (N.eq_dec k i) as [->|H]; [now rewrite E|].
    rewrite N.pow2_bits_false by exact H. apply Bool.andb_false_r.
Qed.
Lemma land_type mode : mode < 65536 -> N.land mode 0xf000 = 4096 * (mode / 4096).
Proof.
  intros H. change 0xf000 with (N.shiftl 15 12). change 4096 with (2 ^ 12). rewrite <- N.shiftr_div_pow2, N.mul_comm, <- N.shiftl_mul_pow2.
  apply N.bits_inj. intros i. rewrite N.land_spec. destruct (N.lt_ge_cases i 12) as [L|L].
  - rewrite !N.shiftl_spec_low by exact L. apply Bool.andb_false_r.
  - rewrite !N.shiftl_spec_high' by exact L. rewrite N.shiftr_spec'. replace (i - 12 + 12) with i by lia.
    destruct (N.lt_ge_cases i 16) as [M|M].
    + change 15 with (N.ones 4). rewrite N.ones_spec_low by lia. apply Bool.andb_true_r.
    + replace (N.testbit mode i) with false; [reflexivity|]. symmetry. destruct (N.eq_dec mode 0) as [->|Nz]; [apply N.bits_0|].
      apply N.bits_above_log2. assert (N.log2 mode < 16) by (apply N.log2_lt_pow2; [lia|exact H]). lia.
Qed.
Lemma upd_if (b : bool) (l : list N) i c x : nth_error l (N.to_nat i) = Some x ->
  (if b then upd l i c else Ok l) = Ok (set_nth l (N.to_nat i) (if b then c else x)).
Proof.
  intros H. destruct b.
  - apply upd_ok. unfold len. assert (N.to_nat i < length l)%nat by (apply nth_error_Some; congruence). lia.
  - f_equal. revert H. generalize (N.to_nat i). intros n. revert l. induction n as [|n IH]; intros [|y l] H; try discriminate H; cbn in *; [congruence|]. f_equal. auto.
Qed.
Lemma letter_is mode k c d : text c = [d] -> letter mode k c = [if N.testbit mode k then d else 45].
Proof. intros E. unfold letter. rewrite E. destruct (N.testbit mode k); reflexivity. Qed.
(** The mode string has the letter of the type and a letter for each of the nine bits. *)
Theorem C63_mode : forall mode, mode < 65536 -> get_file_mode_string mode = Ok (mode_text mode).
Proof.
  intros mode H. unfold get_file_mode_string, set_if. cbn [repeat].
  pose proof (land_bit mode 0) as B0; change (2 ^ 0) with 1 in B0. pose proof (land_bit mode 1) as B1; change (2 ^ 1) with 2 in B1. pose proof (land_bit mode 2) as B2; change (2 ^ 2) with 4 in B2. pose proof (land_bit mode 3) as B3; change (2 ^ 3) with 8 in B3. pose proof (land_bit mode 4) as B4; change (2 ^ 4) with 16 in B4. pose proof (land_bit mode 5) as B5; change (2 ^ 5) with 32 in B5. pose proof (land_bit mode 6) as B6; change (2 ^ 6) with 64 in B6. pose proof (land_bit mode 7) as B7; change (2 ^ 7) with 128 in B7. pose proof (land_bit mode 8) as B8; change (2 ^ 8) with 256 in B8.
  rewrite B0, B1, B2, B3, B4, B5, B6, B7, B8, (land_type mode H).
  assert (T : mode / 4096 < 16) by (apply N.div_lt_upper_bound; lia). unfold mode_text.
  rewrite (letter_is mode 8 "r" 114 eq_refl), (letter_is mode 7 "w" 119 eq_refl), (letter_is mode 6 "x" 120 eq_refl), (letter_is mode 5 "r" 114 eq_refl), (letter_is mode 4 "w" 119 eq_refl),
    (letter_is mode 3 "x" 120 eq_refl), (letter_is mode 2 "r" 114 eq_refl), (letter_is mode 1 "w" 119 eq_refl), (letter_is mode 0 "x" 120 eq_refl).
  set (t := mode / 4096) in *. clearbody t.
  do 9 (rewrite (upd_if _ _ _ _ 45) by reflexivity; cbn [bind]; match goal with |- context[set_nth ?l ?n ?y] => let r := eval cbn in (set_nth l n y) in change (set_nth l n y) with r end).
  assert (C : In t (map N.of_nat (seq 0 16))). { apply in_map_iff. exists (N.to_nat t). split; [lia|]. apply in_seq. lia. }
  cbn [map seq] in C. repeat (destruct C as [<-|C]); try destruct C; reflexivity.
Qed.
Print Assumptions C63_mode.

(** The other three bits of a mode, such as set user identifier, are not shown. *)
Theorem C63_mode_bits_refuted : get_file_mode_string 0x89ed = get_file_mode_string 0x81ed.
Proof. reflexivity. Qed.
Print Assumptions C63_mode_bits_refuted.

(** ** Lines *)
Lemma split_plain s t : ~ In s t -> split_at s t = [t].
Proof.
  induction t as [|c t IH]; intros H; [reflexivity|]. cbn [split_at]. destruct (N.eqb_spec c s) as [->|]; [exfalso; apply H; left; reflexivity|].
  rewrite IH; [reflexivity|]. intros I. apply H. right. exact I.
Qed.
Lemma split_cons s t u : ~ In s t -> split_at s (t ++ s :: u) = t :: split_at s u.
Proof.
  induction t as [|c t IH]; intros H; cbn [app split_at]; [now rewrite N.eqb_refl|]. destruct (N.eqb_spec c s) as [->|]; [exfalso; apply H; left; reflexivity|].
  rewrite IH; [reflexivity|]. intros I. apply H. right. exact I.
Qed.
(** When no value has a bar in it, the bars of a line are between its eleven values; the line
    end is at the end only when no value has one. *)
Theorem C63_line_partial :
  forall md5 prefix path target file_identifier mode owner group size atime mtime ctime btime,
  let name := path_prefix prefix ++ path ++ path_suffix target in
  let line := bodyfile_line md5 prefix path target file_identifier mode owner group size atime mtime ctime btime in
  let values := [md5; name; file_identifier; mode; owner; group; size; atime; mtime; ctime; btime] in
  (Forall (fun t => ~ In 124 t) values -> split_at 124 line = [md5; name; file_identifier; mode; owner; group; size; atime; mtime; ctime; btime ++ [10]]) /\
  (Forall (fun t => ~ In 10 t) values -> exists l, split_at 10 line = [l; []]).
Proof.
  intros md5 prefix path target fid mode owner group size a m c b name line values. split; intros H.
  - unfold values in H. repeat match goal with H : Forall _ (_ :: _) |- _ => inversion H; clear H; subst end.
    unfold line, bodyfile_line. replace (path_prefix prefix ++ path ++ path_suffix target ++ [124] ++ fid ++ [124] ++ mode ++ [124] ++ owner ++ [124] ++ group ++ [124] ++ size ++ [124] ++ a ++ [124] ++ m ++ [124] ++ c ++ [124] ++ b ++ [10])
      with (name ++ [124] ++ fid ++ [124] ++ mode ++ [124] ++ owner ++ [124] ++ group ++ [124] ++ size ++ [124] ++ a ++ [124] ++ m ++ [124] ++ c ++ [124] ++ b ++ [10]) by (unfold name; now rewrite <- !app_assoc).
    cbn [app]. rewrite !split_cons by assumption. rewrite split_plain; [reflexivity|]. intros I. apply in_app_iff in I. destruct I as [I|[I|[]]]; [contradiction|discriminate].
  - assert (E : exists l, line = l ++ [10] /\ ~ In 10 l).
    { unfold values in H. repeat match goal with H : Forall _ (_ :: _) |- _ => inversion H; clear H; subst end.
      exists (md5 ++ [124] ++ name ++ [124] ++ fid ++ [124] ++ mode ++ [124] ++ owner ++ [124] ++ group ++ [124] ++ size ++ [124] ++ a ++ [124] ++ m ++ [124] ++ c ++ [124] ++ b).
      split; [unfold line, bodyfile_line, name; rewrite <- !app_assoc; reflexivity|]. rewrite !in_app_iff. cbn [In]. intuition (discriminate || contradiction). }
    destruct E as (l & -> & Hl). exists l. rewrite split_cons by exact Hl. reflexivity.
Qed.
Print Assumptions C63_line_partial.

(** Bars in names are not escaped, and line ends in targets of symbolic links are not: such a
    line has another number of values, such an entry more than one line. *)
Theorem C63_line_refuted :
  exists path target t, join_path_components [VString (text ""); VString (text "a|b")] = Ok path /\ target = text "x" ++ [10] ++ text "0" /\
  t = bodyfile_line (text "0") (text "/") path (Some target) (text "12") (text "lrwxrwxrwx") (text "0") (text "0") (text "3") [] [] [] [] /\
  length (split_at 124 t) = 12%nat /\ length (split_at 10 t) = 3%nat.
Proof. eexists _, _, _. repeat split; reflexivity. Qed.
Print Assumptions C63_line_refuted.

(** ** Cases *)
Example C63_case :
  join_path_components [VString []; VString (text "dir"); VString (text "a/b:c\d" ++ [10])] = Ok (text "/dir/a\/b\:c\\d\x0a") /\
  join_path_components [VUcs2 []; VUcs2 [0x74; 0xd800; 0xfdd0]] = Ok (text "/t\U0000d800\U0000fdd0") /\
  Forall (name_ok Units) [[]; [0x74; 0xd800; 0xfdd0]] /\
  get_file_mode_string 0x41ed = Ok (text "drwxr-xr-x").
Proof. repeat split; repeat constructor; lia. Qed.
