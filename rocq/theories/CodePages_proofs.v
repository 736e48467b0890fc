From Verif Require Import Base BaseLemmas CodePages_model CodePages_tables CodePages_standard CodePages_spec.

(** ** Decision procedures, sound for all bytes and all code points *)
Definition dec_check (p : code_page) (b : N) : bool :=
  match cp_decode_byte p b with
  | Ok c => match cp_encode_code_point p c with Ok b' => b' =? b | _ => false end
  | Err => true
  | Panic => false
  end.
Definition enc_check (p : code_page) (c : N) : bool :=
  match cp_encode_code_point p c with
  | Ok b => (b <? 256) && match cp_decode_byte p b with Ok c' => c' =? c | _ => false end
  | Err => true
  | Panic => false
  end.
Definition over_arms (f : N -> bool) (arms : list arm) : bool :=
  forallb (fun a => let '(lo, hi) := arm_range a in forallb f (seqN lo (N.to_nat (hi - lo)))) arms.

Lemma lookup_no_arm arms c : (forall a, In a arms -> arm_matches a c = false) -> arms_lookup arms c = Err.
Proof.
  induction arms as [|a arms IH]; intros H; cbn [arms_lookup]; auto.
  rewrite (H a (or_introl eq_refl)). apply IH. intros x Hx. apply H. right; auto.
Qed.
Lemma over_arms_sound f arms c : over_arms f arms = true -> f c = true \/ arms_lookup arms c = Err.
Proof.
  intros H. destruct (existsb (fun a => arm_matches a c) arms) eqn:E.
  - left. apply existsb_exists in E. destruct E as (a & Ha & Hm). unfold over_arms in H.
    rewrite forallb_forall in H. specialize (H a Ha). unfold arm_matches in Hm. destruct (arm_range a) as [lo hi].
    rewrite forallb_forall in H. apply H. rewrite in_seqN. lia.
  - right. apply lookup_no_arm. intros a Ha.
    destruct (arm_matches a c) eqn:Em; auto.
    assert (existsb (fun a => arm_matches a c) arms = true) by (apply existsb_exists; eauto). congruence.
Qed.
Lemma dec_sound p : forallb (dec_check p) (seqN 0 256) = true -> decode_then_encode p.
Proof.
  intros H b c Hb Hd. rewrite forallb_forall in H. specialize (H b). rewrite in_seqN in H. specialize (H ltac:(lia)).
  unfold dec_check in H. rewrite Hd in H. destruct (cp_encode_code_point p c) as [b'| |]; try discriminate.
  f_equal. lia.
Qed.
Lemma enc_sound p : over_arms (enc_check p) (cp_encode p) = true -> encode_then_decode p.
Proof.
  intros H c b He. destruct (over_arms_sound _ _ c H) as [H1|H1].
  - unfold enc_check in H1. rewrite He in H1. destruct (cp_decode_byte p b) as [c'| |]; try lia.
    split; [lia|]. f_equal. lia.
  - unfold cp_encode_code_point in He. rewrite H1 in He. discriminate.
Qed.
Definition not_panic {A} (r : res A) : bool := match r with Panic => false | _ => true end.
Lemma total_sound p : forallb (fun b => not_panic (cp_decode_byte p b)) (seqN 0 256) = true ->
  over_arms (fun c => not_panic (cp_encode_code_point p c)) (cp_encode p) = true -> total p.
Proof.
  intros H1 H2. split.
  - intros b Hb. rewrite forallb_forall in H1. specialize (H1 b). rewrite in_seqN in H1. specialize (H1 ltac:(lia)).
    destruct (cp_decode_byte p b); discriminate.
  - intros c. destruct (over_arms_sound _ _ c H2) as [H|H].
    + destruct (cp_encode_code_point p c); discriminate.
    + unfold cp_encode_code_point. rewrite H. discriminate.
Qed.
Definition res_eqb (a b : res N) : bool :=
  match a, b with Ok x, Ok y => x =? y | Err, Err => true | Panic, Panic => true | _, _ => false end.
Lemma res_eqb_eq a b : res_eqb a b = true -> a = b.
Proof. destruct a, b; cbn; try discriminate; auto. intros. f_equal. lia. Qed.
Fixpoint ref_check (p : code_page) (b : N) (l : list (option N)) : bool :=
  match l with
  | [] => true
  | o :: l => res_eqb (cp_decode_byte p b) (match o with Some c => Ok c | None => Err end) && ref_check p (b + 1) l
  end.
Lemma ref_check_sound p : forall l b, ref_check p b l = true -> forall i o, nth_error l i = Some o ->
  cp_decode_byte p (b + N.of_nat i) = match o with Some c => Ok c | None => Err end.
Proof.
  induction l as [|x l IH]; intros b H i o Hi; [destruct i; discriminate|].
  cbn [ref_check] in H. apply andb_true_iff in H. destruct H as [H1 H2]. destruct i as [|i].
  - cbn [nth_error] in Hi. injection Hi as <-. rewrite N.add_0_r. apply res_eqb_eq; auto.
  - cbn [nth_error] in Hi. specialize (IH _ H2 i o Hi). replace (b + N.of_nat (S i)) with (b + 1 + N.of_nat i) by lia. auto.
Qed.
Lemma ref_sound p l : forallb (fun b => res_eqb (cp_decode_byte p b) (Ok b)) (seqN 0 128) = true ->
  length l = 128%nat -> ref_check p 128 l = true -> decodes_as p l.
Proof.
  intros H1 Hl H2. split.
  - intros b Hb. rewrite forallb_forall in H1. specialize (H1 b). rewrite in_seqN in H1. apply res_eqb_eq. apply H1. lia.
  - intros b Hb. destruct (nth_error l (N.to_nat (b - 128))) as [o|] eqn:E.
    + exists o. split; auto. rewrite <- (ref_check_sound p l 128 H2 _ _ E). f_equal. lia.
    + apply nth_error_None in E. lia.
Qed.

(** ** The pages *)
Lemma pages_total : Forall total all_pages.
Proof.
  unfold all_pages. repeat first [apply Forall_nil | apply Forall_cons]; (apply total_sound; vm_compute; reflexivity).
Qed.
Lemma pages_decode_then_encode : Forall decode_then_encode (iso8859_2 :: iso8859_4 :: exact_pages).
Proof. unfold exact_pages. repeat first [apply Forall_nil | apply Forall_cons]; (apply dec_sound; vm_compute; reflexivity). Qed.
Lemma pages_encode_then_decode : Forall encode_then_decode (ascii :: mac_arabic :: mac_farsi :: exact_pages).
Proof. unfold exact_pages. repeat first [apply Forall_nil | apply Forall_cons]; (apply enc_sound; vm_compute; reflexivity). Qed.
Lemma pages_reference : Forall (fun '(p, r) => decodes_as p r) reference_pages.
Proof.
  unfold reference_pages. repeat first [apply Forall_nil | apply Forall_cons]; (apply ref_sound; [vm_compute; reflexivity|reflexivity|vm_compute; reflexivity]).
Qed.
(** [p] with the entries of these code points removed *)
Definition enc_check_except (l : list N) (p : code_page) (c : N) : bool :=
  existsb (N.eqb c) l || enc_check p c.
Lemma enc_except_sound l p : over_arms (enc_check_except l p) (cp_encode p) = true ->
  forall c b, ~ In c l -> cp_encode_code_point p c = Ok b -> b < 256 /\ cp_decode_byte p b = Ok c.
Proof.
  intros H c b Hn He. destruct (over_arms_sound _ _ c H) as [H1|H1].
  - unfold enc_check_except in H1. replace (existsb (N.eqb c) l) with false in H1.
    + cbn [orb] in H1. unfold enc_check in H1. rewrite He in H1. destruct (cp_decode_byte p b) as [c'| |]; try lia.
      split; [lia|]. f_equal. lia.
    + symmetry. destruct (existsb (N.eqb c) l) eqn:E; auto. apply existsb_exists in E. destruct E as (x & Hx & E).
      exfalso. apply Hn. replace c with x by lia. auto.
  - unfold cp_encode_code_point in He. rewrite H1 in He. discriminate.
Qed.
Lemma iso8859_2_except : forall c b, ~ In c [0x2da; 0x2dc; 0x2de] -> cp_encode_code_point iso8859_2 c = Ok b ->
  b < 256 /\ cp_decode_byte iso8859_2 b = Ok c.
Proof. apply enc_except_sound. vm_compute. reflexivity. Qed.
Lemma iso8859_4_except : forall c b, ~ In c [0x17f] -> cp_encode_code_point iso8859_4 c = Ok b ->
  b < 256 /\ cp_decode_byte iso8859_4 b = Ok c.
Proof. apply enc_except_sound. vm_compute. reflexivity. Qed.

(** ** Strings *)
Lemma map_res_inverse (f g : N -> res N) (P : N -> Prop) l : Forall P l ->
  (forall a b, P a -> f a = Ok b -> g b = Ok a) -> forall l', map_res f l = Ok l' -> map_res g l' = Ok l.
Proof.
  intros HP Hinv. induction HP as [|a l Ha Hl IH]; intros l' H; cbn [map_res] in H.
  - injection H as <-. reflexivity.
  - destruct (f a) as [b| |] eqn:E; cbn [bind] in H; try discriminate.
    destruct (map_res f l) as [bs| |]; cbn [bind] in H; try discriminate. injection H as <-.
    cbn [map_res]. rewrite (Hinv a b Ha E). cbn [bind]. rewrite (IH bs eq_refl). reflexivity.
Qed.
Lemma map_res_elements {A B} (f : A -> res B) l : forall l', map_res f l = Ok l' <-> Forall2 (fun a b => f a = Ok b) l l'.
Proof.
  induction l as [|a l IH]; intros l'; cbn [map_res].
  - split; [intros H; injection H as <-; constructor|intros H; inversion H; auto].
  - split.
    + destruct (f a) as [b| |] eqn:E; cbn [bind]; try discriminate.
      destruct (map_res f l) as [bs| |]; cbn [bind]; try discriminate. intros H. injection H as <-.
      constructor; auto. apply IH. auto.
    + intros H. inversion H; subst. rewrite H2. cbn [bind]. apply IH in H4. rewrite H4. reflexivity.
Qed.
