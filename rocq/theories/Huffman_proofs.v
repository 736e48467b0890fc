From Verif Require Import Base BaseLemmas Huffman_model Huffman_spec.

Lemma idx_set_nth_eq {A} (l : list A) i v : i < len l -> idx (set_nth l (N.to_nat i) v) i = Ok v.
Proof. intros H. unfold idx. rewrite nth_error_set_nth_eq by (unfold len in H; lia). reflexivity. Qed.
Lemma idx_set_nth_neq {A} (l : list A) i j v : i <> j -> idx (set_nth l (N.to_nat i) v) j = idx l j.
Proof. intros H. unfold idx. rewrite nth_error_set_nth_neq by lia. reflexivity. Qed.
Lemma len_set_nth {A} (l : list A) i v : len (set_nth l i v) = len l.
Proof. unfold len. now rewrite set_nth_length. Qed.

Lemma count_of_app l a b : count_of l (a ++ b) = count_of l a + count_of l b.
Proof. unfold count_of. now rewrite filter_app, len_app. Qed.
Lemma count_of_cons l x b : count_of l (x :: b) = (if x =? l then 1 else 0) + count_of l b.
Proof. unfold count_of. cbn [filter]. destruct (x =? l); rewrite ?len_cons; lia. Qed.

(** ** Counting *)
Lemma count_sizes_ok largest : forall cs counts,
  len counts = largest + 1 -> Forall (fun x => x <= largest) cs ->
  exists counts', count_sizes largest counts cs = Ok counts' /\ len counts' = largest + 1 /\
    forall l n, idx counts l = Ok n -> idx counts' l = Ok (n + count_of l cs).
Proof.
  induction cs as [| c cs IH]; intros counts Hl Hf.
  - exists counts. repeat split; auto. intros l n H. rewrite H. f_equal. unfold count_of. cbn. lia.
  - inversion Hf as [| ? ? Hc Hf']; subst. cbn [count_sizes].
    destruct (N.leb_spec c largest); [| lia]. cbn [check bind].
    rewrite (idx_ok counts c 0) by lia. cbn [bind]. rewrite upd_ok by lia. cbn [bind].
    destruct (IH (set_nth counts (N.to_nat c) (nth (N.to_nat c) counts 0 + 1))) as (k & E & Lk & Hk);
      [now rewrite len_set_nth | exact Hf' |].
    exists k. repeat split; auto. intros l n Hn. rewrite count_of_cons.
    destruct (N.eqb_spec c l) as [<- | Hne].
    + rewrite (Hk c (nth (N.to_nat c) counts 0 + 1)) by (apply idx_set_nth_eq; lia).
      rewrite (idx_ok counts c 0) in Hn by lia. injection Hn as <-. f_equal. lia.
    + rewrite (Hk l n) by (now rewrite idx_set_nth_neq). f_equal.
Qed.

Lemma count_sizes_inv largest : forall cs counts counts',
  count_sizes largest counts cs = Ok counts' -> Forall (fun x => x <= largest) cs.
Proof.
  induction cs as [| c cs IH]; intros counts counts' H; [constructor |].
  cbn [count_sizes] in H. apply bind_Ok_inv in H as (u & H1 & H). apply check_Ok in H1.
  apply bind_Ok_inv in H as (n & _ & H). apply bind_Ok_inv in H as (k & _ & H).
  constructor; [lia | now apply IH in H].
Qed.

Lemma count_sizes_no_panic largest : forall cs counts, len counts = largest + 1 ->
  count_sizes largest counts cs <> Panic.
Proof.
  induction cs as [| c cs IH]; intros counts Hl; [discriminate |].
  cbn [count_sizes]. destruct (N.leb_spec c largest); [| discriminate]. cbn [check bind].
  rewrite (idx_ok counts c 0) by lia. cbn [bind]. rewrite upd_ok by lia. cbn [bind].
  apply IH. now rewrite len_set_nth.
Qed.

(** The counts a build works with. *)
Definition counts_of (largest : N) (cs counts : list N) : Prop :=
  len counts = largest + 1 /\ forall l, l <= largest -> idx counts l = Ok (count_of l cs).

Lemma count_sizes_counts largest cs : Forall (fun x => x <= largest) cs ->
  exists counts, count_sizes largest (repeat 0 (N.to_nat (largest + 1))) cs = Ok counts /\
    counts_of largest cs counts.
Proof.
  intros H. destruct (count_sizes_ok largest cs (repeat 0 (N.to_nat (largest + 1)))) as (k & E & L & Hk); auto.
  { unfold len. rewrite repeat_length. lia. }
  exists k. split; [exact E |]. split; [exact L |]. intros l Hl.
  rewrite (Hk l 0); [reflexivity |]. unfold idx.
  rewrite nth_error_repeat by lia. reflexivity.
Qed.

(** ** Subscription *)
(** First code of length [l] as the loop has it, with [first_code] at zero length. *)
Definition used (cs : list N) (l : nat) : N :=
  first_code cs l + match l with O => 0 | _ => count_of (N.of_nat l) cs end.

Lemma first_code_S cs l : first_code cs (S l) = 2 * used cs l.
Proof. unfold used. destruct l; cbn [first_code]; lia. Qed.

Lemma check_subscription_run largest cs counts : counts_of largest cs counts ->
  forall n k left, N.of_nat (k + n) <= largest -> left + used cs k = 2 ^ N.of_nat k ->
  (exists left', check_subscription counts (seqN (N.of_nat (S k)) n) left = Ok left' /\
     left' + used cs (k + n) = 2 ^ N.of_nat (k + n) /\
     forall j, (k <= j <= k + n)%nat -> used cs j <= 2 ^ N.of_nat j) \/
  (check_subscription counts (seqN (N.of_nat (S k)) n) left = Err /\
     exists j, (k < j <= k + n)%nat /\ 2 ^ N.of_nat j < used cs j).
Proof.
  intros [Hl Hc]. induction n as [| n IH]; intros k left Hk Hinv.
  - left. exists left. cbn [seqN check_subscription]. rewrite Nat.add_0_r. repeat split; auto.
    intros j Hj. assert (j = k) by lia. subst. lia.
  - cbn [seqN check_subscription].
    rewrite Hc by lia. cbn [bind].
    assert (Hu : used cs (S k) = 2 * used cs k + count_of (N.of_nat (S k)) cs).
    { unfold used at 1. rewrite first_code_S. reflexivity. }
    assert (Hp : 2 ^ N.of_nat (S k) = 2 * 2 ^ N.of_nat k).
    { rewrite Nat2N.inj_succ, N.pow_succ_r'. reflexivity. }
    destruct (N.leb_spec (count_of (N.of_nat (S k)) cs) (2 * left)) as [H | H].
    + cbn [check bind].
      destruct (IH (S k) (2 * left - count_of (N.of_nat (S k)) cs)) as [(l' & E & I1 & I2) | (E & j & Hj & Hu')];
        [lia | lia | |].
      * replace (N.of_nat (S k) + 1) with (N.of_nat (S (S k))) by lia. left. exists l'.
        split; [exact E |]. replace (k + S n)%nat with (S k + n)%nat by lia. split; [exact I1 |].
        intros j Hj. destruct (Nat.eq_dec j k) as [-> | ]; [lia |]. apply I2. lia.
      * replace (N.of_nat (S k) + 1) with (N.of_nat (S (S k))) by lia. right.
        split; [exact E |]. exists j. split; [lia | exact Hu'].
    + right. cbn [check bind]. split; [reflexivity |]. exists (S k). split; [lia |]. lia.
Qed.

(** ** Offsets *)
Fixpoint offset_of (cs : list N) (l : nat) : N :=
  match l with
  | O => 0
  | S m => match m with O => 0 | _ => offset_of cs m + count_of (N.of_nat m) cs end
  end.

Lemma make_offsets_run largest cs counts : counts_of largest cs counts ->
  forall n k offsets, (1 <= k)%nat -> N.of_nat (k + n) <= largest \/ n = O ->
  len offsets = N.of_nat (S k) ->
  (forall j, (j <= k)%nat -> idx offsets (N.of_nat j) = Ok (offset_of cs j)) ->
  exists offsets', make_offsets counts (seqN (N.of_nat k) n) offsets = Ok offsets' /\
    len offsets' = N.of_nat (S (k + n)) /\
    forall j, (j <= k + n)%nat -> idx offsets' (N.of_nat j) = Ok (offset_of cs j).
Proof.
  intros [Hl Hc]. induction n as [| n IH]; intros k offsets H1 Hk Hlo Ho.
  - exists offsets. cbn [seqN make_offsets]. rewrite Nat.add_0_r. auto.
  - cbn [seqN make_offsets]. rewrite Ho by lia. cbn [bind]. rewrite Hc by lia. cbn [bind].
    destruct (IH (S k) (offsets ++ [offset_of cs k + count_of (N.of_nat k) cs])) as (o' & E & L & H).
    + lia.
    + lia.
    + rewrite len_app, Hlo. change (len [offset_of cs k + count_of (N.of_nat k) cs]) with 1. lia.
    + intros j Hj. unfold idx. rewrite Nat2N.id.
      destruct (Nat.eq_dec j (S k)) as [-> | Hne].
      * rewrite nth_error_app2 by (unfold len in Hlo; lia).
        replace (S k - length offsets)%nat with O by (unfold len in Hlo; lia).
        cbn [nth_error offset_of]. destruct k; [lia | reflexivity].
      * rewrite nth_error_app1 by (unfold len in Hlo; lia).
        specialize (Ho j ltac:(lia)). unfold idx in Ho. now rewrite Nat2N.id in Ho.
    + exists o'. replace (N.of_nat k + 1) with (N.of_nat (S k)) by lia.
      replace (k + S n)%nat with (S k + n)%nat by lia. auto.
Qed.

Lemma offset_of_mono cs : forall a b, (1 <= a < b)%nat ->
  offset_of cs a + count_of (N.of_nat a) cs <= offset_of cs b.
Proof.
  intros a b H. induction b as [| b IH]; [lia |].
  cbn [offset_of]. destruct b; [lia |].
  destruct (Nat.eq_dec a (S b)) as [-> | ]; [lia |].
  assert (offset_of cs a + count_of (N.of_nat a) cs <= offset_of cs (S b)) by (apply IH; lia). lia.
Qed.

Definition coded_count (cs : list N) : N := len (filter (fun x => 0 <? x) cs).

Lemma offset_of_total cs : forall b, (1 <= b)%nat ->
  offset_of cs b + count_of (N.of_nat b) cs =
  len (filter (fun x => (0 <? x) && (x <=? N.of_nat b)) cs).
Proof.
  induction b as [| b IH]; [lia |]. intros _. cbn [offset_of]. destruct b.
  - unfold count_of. cbn [N.add]. f_equal. apply filter_ext. intros x. lia.
  - rewrite IH by lia. unfold count_of.
    clear IH. induction cs as [| x cs IHc]; [reflexivity |]. cbn [filter].
    destruct (N.eqb_spec x (N.of_nat (S (S b)))) as [-> | Hne].
    + replace ((0 <? N.of_nat (S (S b))) && (N.of_nat (S (S b)) <=? N.of_nat (S b))) with false by lia.
      replace ((0 <? N.of_nat (S (S b))) && (N.of_nat (S (S b)) <=? N.of_nat (S (S b)))) with true by lia.
      rewrite !len_cons. lia.
    + replace ((0 <? x) && (x <=? N.of_nat (S (S b)))) with ((0 <? x) && (x <=? N.of_nat (S b))) by lia.
      destruct ((0 <? x) && (x <=? N.of_nat (S b))); rewrite ?len_cons; lia.
Qed.

Lemma filter_le {A} (f : A -> bool) l : len (filter f l) <= len l.
Proof. induction l; cbn [filter]; [lia |]. destruct (f a); rewrite ?len_cons; lia. Qed.

Lemma offset_rank_bound cs (l : nat) : (1 <= l)%nat ->
  offset_of cs l + count_of (N.of_nat l) cs <= len cs.
Proof. intros H. rewrite offset_of_total by exact H. apply filter_le. Qed.

(** ** The sorted symbols *)
Definition slot (cs : list N) (s : N) : N :=
  offset_of cs (N.to_nat (length_of cs s)) + count_of (length_of cs s) (firstn (N.to_nat s) cs).

Lemma count_of_firstn_le l n cs : count_of l (firstn n cs) <= count_of l cs.
Proof. rewrite <- (firstn_skipn n cs) at 2. rewrite count_of_app. lia. Qed.

Lemma length_of_split cs s : s < len cs ->
  cs = firstn (N.to_nat s) cs ++ length_of cs s :: skipn (S (N.to_nat s)) cs.
Proof.
  intros H. unfold length_of. rewrite <- (firstn_skipn (N.to_nat s) cs) at 1. f_equal.
  assert (Hs : (N.to_nat s < length cs)%nat) by (unfold len in H; lia).
  revert Hs. generalize (N.to_nat s). clear. induction cs as [| c cs IH]; intros n Hn; [cbn in Hn; lia |].
  destruct n; [reflexivity |]. cbn [skipn nth]. apply IH. cbn in Hn. lia.
Qed.

Lemma rank_lt cs s : s < len cs ->
  count_of (length_of cs s) (firstn (N.to_nat s) cs) < count_of (length_of cs s) cs.
Proof.
  intros H. rewrite (length_of_split cs s H) at 4. rewrite count_of_app, count_of_cons, N.eqb_refl. lia.
Qed.

Lemma rank_mono cs s1 s2 : s1 < s2 -> s2 < len cs -> length_of cs s1 = length_of cs s2 ->
  count_of (length_of cs s1) (firstn (N.to_nat s1) cs) <
  count_of (length_of cs s2) (firstn (N.to_nat s2) cs).
Proof.
  intros H1 H2 H. rewrite <- H.
  assert (H3 : s1 < len (firstn (N.to_nat s2) cs)) by (unfold len in *; rewrite firstn_length; lia).
  pose proof (rank_lt _ s1 H3) as R.
  assert (E : length_of (firstn (N.to_nat s2) cs) s1 = length_of cs s1).
  { unfold length_of. rewrite <- (firstn_skipn (N.to_nat s2) cs) at 2.
    rewrite app_nth1; [reflexivity |]. unfold len in H3. lia. }
  rewrite E, firstn_firstn in R. replace (Nat.min (N.to_nat s1) (N.to_nat s2)) with (N.to_nat s1) in R by lia.
  exact R.
Qed.

Lemma slot_inj cs s1 s2 : coded cs s1 -> coded cs s2 -> slot cs s1 = slot cs s2 -> s1 = s2.
Proof.
  intros [A1 A2] [B1 B2] H. unfold slot in H.
  pose proof (rank_lt cs s1 A1) as R1. pose proof (rank_lt cs s2 B1) as R2.
  destruct (N.lt_trichotomy (length_of cs s1) (length_of cs s2)) as [L | [L | L]].
  - pose proof (offset_of_mono cs (N.to_nat (length_of cs s1)) (N.to_nat (length_of cs s2)) ltac:(lia)) as M.
    rewrite N2Nat.id in M. lia.
  - destruct (N.lt_trichotomy s1 s2) as [S | [S | S]]; [| exact S |].
    + pose proof (rank_mono cs s1 s2 S B1 L). rewrite <- L in *. lia.
    + pose proof (rank_mono cs s2 s1 S A1 (eq_sym L)). rewrite L in *. lia.
  - pose proof (offset_of_mono cs (N.to_nat (length_of cs s2)) (N.to_nat (length_of cs s1)) ltac:(lia)) as M.
    rewrite N2Nat.id in M. lia.
Qed.

Lemma slot_bound cs s : coded cs s -> slot cs s < len cs.
Proof.
  intros [H1 H2]. unfold slot. pose proof (rank_lt cs s H1).
  pose proof (offset_rank_bound cs (N.to_nat (length_of cs s)) ltac:(lia)) as B.
  rewrite N2Nat.id in B. lia.
Qed.

Lemma fill_symbols_run largest cs : Forall (fun x => x <= largest) cs -> 
  forall r p offsets syms, cs = p ++ r ->
  len cs <= len syms ->
  (forall l, 1 <= l <= largest -> idx offsets l = Ok (offset_of cs (N.to_nat l) + count_of l p)) ->
  (forall s, s < len p -> coded cs s -> idx syms (slot cs s) = Ok s) ->
  exists syms', fill_symbols (len cs) (len p) r offsets syms = Ok syms' /\
    len syms' = len syms /\
    forall s, coded cs s -> idx syms' (slot cs s) = Ok s.
Proof.
  intros Hmax. induction r as [| c r IH]; intros p offsets syms Hcs Hls Ho Hs.
  - exists syms. repeat split; auto. intros s Hc. apply Hs; auto.
    rewrite app_nil_r in Hcs. subst p. apply Hc.
  - cbn [fill_symbols].
    assert (Hlen : length_of cs (len p) = c).
    { unfold length_of, len. rewrite Hcs, Nat2N.id, app_nth2, Nat.sub_diag by lia. reflexivity. }
    assert (Hp : len p < len cs) by (rewrite Hcs, len_app, len_cons; lia).
    assert (Hfp : firstn (N.to_nat (len p)) cs = p).
    { unfold len. rewrite Nat2N.id, Hcs, firstn_app, firstn_all, Nat.sub_diag, firstn_O, app_nil_r. reflexivity. }
    assert (Hcm : c <= largest).
    { rewrite Forall_forall in Hmax. apply Hmax. rewrite Hcs. apply in_or_app. right. now left. }
    assert (Hcs' : cs = (p ++ [c]) ++ r) by (rewrite <- app_assoc; exact Hcs).
    assert (Hlp : len (p ++ [c]) = len p + 1) by (rewrite len_app; reflexivity).
    destruct (N.ltb_spec 0 c) as [Hc | Hc].
    + assert (Hcoded : coded cs (len p)) by (split; [exact Hp | rewrite Hlen; exact Hc]).
      assert (Hslot : slot cs (len p) = offset_of cs (N.to_nat c) + count_of c p).
      { unfold slot. now rewrite Hlen, Hfp. }
      pose proof (slot_bound cs _ Hcoded) as Hb. rewrite Hslot in Hb.
      rewrite Ho by lia. cbn [bind].
      destruct (N.leb_spec (offset_of cs (N.to_nat c) + count_of c p) (len cs)); [| lia].
      cbn [check bind].
      assert (Hco : c < len offsets).
      { specialize (Ho c ltac:(lia)). unfold idx in Ho.
        destruct (nth_error offsets (N.to_nat c)) eqn:E; [| discriminate].
        assert (nth_error offsets (N.to_nat c) <> None) by congruence.
        apply nth_error_Some in H0. unfold len. lia. }
      rewrite upd_ok by exact Hco. cbn [bind]. rewrite upd_ok by lia. cbn [bind].
      destruct (IH (p ++ [c])
        (set_nth offsets (N.to_nat c) (offset_of cs (N.to_nat c) + count_of c p + 1))
        (set_nth syms (N.to_nat (offset_of cs (N.to_nat c) + count_of c p)) (len p)))
        as (syms' & E & L & S); auto.
      * now rewrite len_set_nth.
      * intros l Hl. rewrite count_of_app, count_of_cons. destruct (N.eqb_spec c l) as [<- | Hne].
        -- rewrite idx_set_nth_eq by exact Hco. f_equal. unfold count_of at 3. cbn. lia.
        -- rewrite idx_set_nth_neq by exact Hne. rewrite Ho by exact Hl. f_equal.
           unfold count_of at 3. cbn. lia.
      * intros s Hs1 Hs2. rewrite Hlp in Hs1. destruct (N.eq_dec s (len p)) as [-> | Hne].
        -- rewrite Hslot. apply idx_set_nth_eq. lia.
        -- rewrite idx_set_nth_neq; [apply Hs; [lia | exact Hs2] |].
           rewrite <- Hslot. intros E. apply slot_inj in E; auto.
      * rewrite Hlp in E. exists syms'. rewrite len_set_nth in L. auto.
    + cbn [bind]. destruct (IH (p ++ [c]) offsets syms) as (syms' & E & L & S); auto.
      * intros l Hl. rewrite count_of_app, count_of_cons.
        destruct (N.eqb_spec c l); [lia |]. rewrite Ho by exact Hl. f_equal. unfold count_of at 3. cbn. lia.
      * intros s Hs1 Hs2. rewrite Hlp in Hs1. destruct (N.eq_dec s (len p)) as [-> | Hne].
        -- destruct Hs2 as [_ Hs2]. rewrite Hlen in Hs2. lia.
        -- apply Hs; [lia | exact Hs2].
      * rewrite Hlp in E. exists syms'. auto.
Qed.

(** ** A build *)
Definition tree_for (cs : list N) (largest : N) (t : huffman_tree) : Prop :=
  largest_code_size t = largest /\
  Forall (fun x => x <= largest) cs /\
  counts_of largest cs (code_size_counts t) /\
  len cs <= len (symbols t) /\
  (forall s, coded cs s -> idx (symbols t) (slot cs s) = Ok s) /\
  (forall j, (j <= N.to_nat largest)%nat -> used cs j <= 2 ^ N.of_nat j).

Definition fresh (t : huffman_tree) : Prop := len (code_size_counts t) = largest_code_size t + 1.

Lemma build_cases t cs : fresh t -> 1 <= largest_code_size t -> len cs <= len (symbols t) ->
  len cs <= 65535 ->
  let largest := largest_code_size t in
  (exists t', huffman_build t cs = Ok t' /\ tree_for cs largest t' /\ len (symbols t') = len (symbols t) /\
      (exists s, coded cs s)) \/
  (huffman_build t cs = Err /\
    (~ Forall (fun x => x <= largest) cs \/ count_of 0 cs = len cs \/
     exists j, (j <= N.to_nat largest)%nat /\ 2 ^ N.of_nat j < used cs j)).
Proof.
  intros Hfr H1 Hls H16. cbv zeta. set (largest := largest_code_size t) in *.
  unfold huffman_build. fold largest.
  destruct (N.leb_spec (len cs) 65535); [| lia]. cbn [check bind].
  assert (Hz : repeat 0 (length (code_size_counts t)) = repeat 0 (N.to_nat (largest + 1))).
  { f_equal. unfold fresh in Hfr. unfold len in Hfr. fold largest in Hfr. lia. }
  rewrite Hz.
  destruct (count_sizes largest (repeat 0 (N.to_nat (largest + 1))) cs) as [counts | |] eqn:Ec.
  2:{ right. cbn [bind]. split; [reflexivity |]. left. intros Hf.
      destruct (count_sizes_counts largest cs Hf) as (k & E & _). congruence. }
  2:{ exfalso. apply (count_sizes_no_panic largest cs (repeat 0 (N.to_nat (largest + 1)))); auto.
      unfold len. rewrite repeat_length. lia. }
  pose proof (count_sizes_inv _ _ _ _ Ec) as Hf.
  destruct (count_sizes_counts largest cs Hf) as (k & E & Hc). rewrite Ec in E. injection E as <-.
  cbn [bind]. destruct Hc as [Hcl Hci]. pose proof (conj Hcl Hci : counts_of largest cs counts) as Hc.
  rewrite Hci by lia. cbn [bind].
  destruct (N.eqb_spec (count_of 0 cs) (len cs)) as [He | He].
  { right. split; [reflexivity |]. right. now left. }
  cbn [negb check bind].
  destruct (check_subscription_run largest cs counts Hc (N.to_nat largest) 0 1) as
    [(l' & E & I1 & I2) | (E & j & Hj & Hu)]; [lia | cbn; lia | |].
  2:{ change (N.of_nat 1) with 1 in E. rewrite E. cbn [bind]. right. split; [reflexivity |].
      right. right. exists j. split; [lia | exact Hu]. }
  change (N.of_nat 1) with 1 in E. rewrite E. cbn [bind].
  destruct (make_offsets_run largest cs counts Hc (N.to_nat (largest - 1)) 1 [0; 0]) as (offs & Eo & Lo & Ho).
  { lia. } { lia. } { reflexivity. }
  { intros j Hj. destruct j as [| [| j]]; [reflexivity | reflexivity | lia]. }
  change (N.of_nat 1) with 1 in Eo. rewrite Eo. cbn [bind].
  destruct (fill_symbols_run largest cs Hf cs [] offs (symbols t)) as (syms & Es & Ls & Hs); auto.
  { intros l Hl. specialize (Ho (N.to_nat l) ltac:(lia)). rewrite N2Nat.id in Ho. rewrite Ho.
    f_equal. unfold count_of. cbn. lia. }
  { intros s Hs. change (len (@nil N)) with 0 in Hs. lia. }
  change (len (@nil N)) with 0 in Es. rewrite Es. cbn [bind].
  left. eexists. split; [reflexivity |]. split; [| split; [exact Ls |]].
  - unfold tree_for. cbn [largest_code_size symbols code_size_counts].
    split; [reflexivity |]. split; [exact Hf |]. split; [exact Hc |]. split; [lia |].
    split; [exact Hs |]. intros j Hj. apply I2. lia.
  - clear - He. induction cs as [| c cs IH].
    + exfalso. apply He. reflexivity.
    + rewrite count_of_cons, len_cons in He. destruct (N.eqb_spec c 0) as [-> | Hc].
      * destruct IH as (s & H1 & H2); [lia |]. exists (s + 1). unfold coded, length_of in *.
        rewrite len_cons. replace (N.to_nat (s + 1)) with (S (N.to_nat s)) by lia. cbn [nth]. split; [lia | exact H2].
      * exists 0. unfold coded, length_of. rewrite len_cons. cbn [N.to_nat nth]. lia.
Qed.

(** ** Kraft sum *)
Lemma used_mono cs j k : used cs j * 2 ^ N.of_nat k <= used cs (j + k).
Proof.
  induction k as [| k IH].
  - rewrite Nat.add_0_r. cbn. lia.
  - rewrite Nat.add_succ_r. unfold used at 2. rewrite first_code_S.
    rewrite Nat2N.inj_succ, N.pow_succ_r'. lia.
Qed.

Fixpoint kraft_upto (cs : list N) (l : nat) : N :=
  match l with
  | O => 0
  | S m => 2 * kraft_upto cs m + count_of (N.of_nat (S m)) cs
  end.
Lemma used_kraft cs l : used cs l = kraft_upto cs l.
Proof.
  induction l as [| l IH]; [reflexivity |].
  unfold used. rewrite first_code_S, IH. reflexivity.
Qed.
Lemma kraft_upto_cons c cs l : kraft_upto (c :: cs) l =
  (if (0 <? c) && (c <=? N.of_nat l) then 2 ^ (N.of_nat l - c) else 0) + kraft_upto cs l.
Proof.
  induction l as [| l IH].
  - cbn [kraft_upto]. destruct ((0 <? c) && (c <=? N.of_nat 0)) eqn:E; lia.
  - cbn [kraft_upto]. rewrite IH, count_of_cons.
    destruct (N.eqb_spec c (N.of_nat (S l))) as [-> | Hne].
    + replace ((0 <? N.of_nat (S l)) && (N.of_nat (S l) <=? N.of_nat l)) with false by lia.
      replace ((0 <? N.of_nat (S l)) && (N.of_nat (S l) <=? N.of_nat (S l))) with true by lia.
      rewrite N.sub_diag. change (2 ^ 0) with 1. lia.
    + replace ((0 <? c) && (c <=? N.of_nat (S l))) with ((0 <? c) && (c <=? N.of_nat l)) by lia.
      destruct ((0 <? c) && (c <=? N.of_nat l)) eqn:E; [| lia].
      replace (N.of_nat (S l) - c) with (N.succ (N.of_nat l - c)) by lia.
      rewrite N.pow_succ_r'. lia.
Qed.
Lemma used_is_kraft largest cs : Forall (fun x => x <= largest) cs ->
  used cs (N.to_nat largest) = kraft largest cs.
Proof.
  rewrite used_kraft. induction cs as [| c cs IH]; intros H.
  - unfold kraft. cbn [fold_right]. generalize (N.to_nat largest). induction n; [reflexivity |].
    cbn [kraft_upto]. rewrite IHn. reflexivity.
  - inversion H; subst. rewrite kraft_upto_cons, IH by assumption. unfold kraft. cbn [fold_right].
    rewrite N2Nat.id. destruct (N.eqb_spec c 0) as [-> | Hc].
    + reflexivity.
    + replace ((0 <? c) && (c <=? largest)) with true by lia. reflexivity.
Qed.

(** ** Decoding *)
(** [s] yields [bits] and becomes [s']. *)
Inductive yields {S} (get_bit : S -> res (N * S)) : S -> list bool -> S -> Prop :=
| Y_nil s : yields get_bit s [] s
| Y_cons s b s1 bs s2 : get_bit s = Ok (N.b2n b, s1) -> yields get_bit s1 bs s2 ->
    yields get_bit s (b :: bs) s2.

Lemma lor_bit c b : N.lor (N.shiftl c 1) (N.b2n b) = 2 * c + N.b2n b.
Proof.
  rewrite N.shiftl_mul_pow2. change (2 ^ 1) with 2. rewrite (N.mul_comm c 2).
  destruct b; cbn [N.b2n].
  - apply N.bits_inj. intros n. rewrite N.lor_spec.
    destruct (N.eq_dec n 0) as [-> | Hn].
    + rewrite N.testbit_odd_0, N.testbit_even_0. reflexivity.
    + replace n with (N.succ (N.pred n)) by lia.
      rewrite N.testbit_odd_succ, N.testbit_even_succ by lia.
      replace (N.testbit 1 (N.succ (N.pred n))) with false; [apply orb_false_r |].
      symmetry. apply N.bits_above_log2. cbn. lia.
  - rewrite N.lor_0_r. lia.
Qed.

(** State of the loop before bit [k + 1], having read the code [c] of [k] bits. *)
Lemma decode_loop_word {S} (get_bit : S -> res (N * S)) cs largest t sym :
  tree_for cs largest t -> coded cs sym ->
  forall n m s s' c k,
  N.of_nat (k + n) = length_of cs sym ->
  (n + m)%nat = (N.to_nat largest - k)%nat -> (1 <= n)%nat ->
  c = canonical_code cs sym / 2 ^ N.of_nat n ->
  yields get_bit s (bits_msb n (canonical_code cs sym)) s' ->
  decode_loop get_bit t (seqN (N.of_nat (Datatypes.S k)) (n + m)) (first_code cs (Datatypes.S k)) c
    (offset_of cs (Datatypes.S k)) s = Ok (sym, s').
Proof.
  intros (Tl & Hf & (Hcl & Hci) & Hls & Hsym & Hsub) Hcoded.
  pose proof Hcoded as [Hc1 Hc2].
  assert (Hlm : length_of cs sym <= largest).
  { rewrite Forall_forall in Hf. apply Hf. unfold length_of. apply nth_In. unfold len in Hc1. lia. }
  pose proof (rank_lt cs sym Hc1) as Hrank.
  set (L := length_of cs sym) in *. set (V := canonical_code cs sym) in *.
  assert (HV : V = first_code cs (N.to_nat L) + count_of L (firstn (N.to_nat sym) cs)) by reflexivity.
  induction n as [| n IH]; intros m s s' c k Hk Hm Hn Hc Hy; [lia |].
  cbn [bits_msb] in Hy. inversion Hy as [| ? ? s1 ? ? Hb Hy']; subst s bs s2.
  cbn [Nat.add seqN decode_loop]. rewrite Hb. cbn [bind]. rewrite Hci by lia. cbn [bind].
  rewrite lor_bit.
  assert (Hc' : 2 * c + N.b2n (N.testbit V (N.of_nat n)) = V / 2 ^ N.of_nat n).
  { subst c. rewrite Nat2N.inj_succ.
    replace (2 ^ N.succ (N.of_nat n)) with (2 ^ N.of_nat n * 2) by (rewrite N.pow_succ_r'; lia).
    rewrite <- N.div_div by (try apply N.pow_nonzero; lia).
    pose proof (N.testbit_spec' V (N.of_nat n)) as T.
    set (q := V / 2 ^ N.of_nat n) in *. clearbody q. rewrite T. lia. }
  rewrite Hc'.
  assert (Hprod : V < used cs (N.to_nat L)).
  { rewrite HV. unfold used. destruct (N.to_nat L) eqn:E; [lia |]. rewrite <- E, N2Nat.id. lia. }
  destruct n as [| n].
  - (* the last bit *)
    assert (EL : N.of_nat (Datatypes.S k) = L) by lia. rewrite EL.
    replace (Datatypes.S k) with (N.to_nat L) by lia.
    change (2 ^ N.of_nat 0) with 1. rewrite N.div_1_r.
    destruct (N.ltb_spec V (first_code cs (N.to_nat L) + count_of L cs)); [| rewrite HV in *; lia].
    unfold sub_chk. destruct (N.leb_spec (first_code cs (N.to_nat L)) V); [| rewrite HV in *; lia].
    cbn [bind].
    assert (Es : offset_of cs (N.to_nat L) + (V - first_code cs (N.to_nat L)) = slot cs sym).
    { unfold slot. fold L. rewrite HV. lia. }
    rewrite Es, Hsym by exact Hcoded. cbn [bind].
    cbn [bits_msb] in Hy'. inversion Hy'; subst. reflexivity.
  - (* not yet *)
    assert (Hge : first_code cs (Datatypes.S k) + count_of (N.of_nat (Datatypes.S k)) cs <= V / 2 ^ N.of_nat (Datatypes.S n)).
    { apply N.div_le_lower_bound; [apply N.pow_nonzero; lia |].
      assert (EL : N.to_nat L = Datatypes.S (Datatypes.S k + n)) by lia.
      rewrite HV, EL, (first_code_S cs (Datatypes.S k + n)).
      rewrite (Nat2N.inj_succ n), N.pow_succ_r'. set (p := 2 ^ N.of_nat n) in *.
      set (x := first_code cs (Datatypes.S k) + count_of (N.of_nat (Datatypes.S k)) cs) in *.
      assert (M : x * p <= used cs (Datatypes.S k + n)) by exact (used_mono cs (Datatypes.S k) n).
      rewrite <- N.mul_assoc, (N.mul_comm p x). clearbody x p.
      set (u := used cs (Datatypes.S k + n)) in *. clearbody u. clear - M. lia. }
    destruct (N.ltb_spec (V / 2 ^ N.of_nat (Datatypes.S n))
      (first_code cs (Datatypes.S k) + count_of (N.of_nat (Datatypes.S k)) cs)); [lia |].
    replace (N.of_nat (Datatypes.S k) + 1) with (N.of_nat (Datatypes.S (Datatypes.S k))) by lia.
    replace (N.shiftl (first_code cs (Datatypes.S k) + count_of (N.of_nat (Datatypes.S k)) cs) 1)
      with (first_code cs (Datatypes.S (Datatypes.S k)))
      by (rewrite first_code_S, N.shiftl_mul_pow2; unfold used; change (2 ^ 1) with 2; lia).
    replace (offset_of cs (Datatypes.S k) + count_of (N.of_nat (Datatypes.S k)) cs)
      with (offset_of cs (Datatypes.S (Datatypes.S k))) by reflexivity.
    change (Datatypes.S (n + m)) with (Datatypes.S n + m)%nat.
    apply IH; [lia | lia | lia | reflexivity | exact Hy'].
Qed.

Lemma code_fits cs largest t sym : tree_for cs largest t -> coded cs sym ->
  canonical_code cs sym < 2 ^ length_of cs sym.
Proof.
  intros (Tl & Hf & _ & _ & _ & Hsub) [H1 H2].
  assert (Hlm : length_of cs sym <= largest).
  { rewrite Forall_forall in Hf. apply Hf. unfold length_of. apply nth_In. unfold len in H1. lia. }
  pose proof (rank_lt cs sym H1) as R.
  specialize (Hsub (N.to_nat (length_of cs sym)) ltac:(lia)). rewrite N2Nat.id in Hsub.
  unfold canonical_code. unfold used in Hsub.
  destruct (N.to_nat (length_of cs sym)) eqn:E; [lia |]. rewrite <- E, N2Nat.id in Hsub. rewrite <- E. lia.
Qed.

Lemma decode_symbol_word {S} (get_bit : S -> res (N * S)) cs largest t sym s s' :
  tree_for cs largest t -> coded cs sym ->
  yields get_bit s (code_word cs sym) s' -> decode_symbol get_bit t s = Ok (sym, s').
Proof.
  intros Ht Hc Hy. pose proof (code_fits _ _ _ _ Ht Hc) as Hfit.
  pose proof Ht as (Tl & Hf & _). pose proof Hc as [H1 H2].
  assert (Hlm : length_of cs sym <= largest).
  { rewrite Forall_forall in Hf. apply Hf. unfold length_of. apply nth_In. unfold len in H1. lia. }
  unfold decode_symbol. rewrite Tl.
  replace (N.to_nat largest) with (N.to_nat (length_of cs sym) + (N.to_nat largest - N.to_nat (length_of cs sym)))%nat by lia.
  change 1 with (N.of_nat 1). apply (decode_loop_word get_bit cs largest t sym Ht Hc) with (k := O); try lia.
  - rewrite N2Nat.id, N.div_small by exact Hfit. reflexivity.
  - exact Hy.
Qed.

(** ** What decoding returns *)
Lemma rank_exists l : forall cs k, k < count_of l cs ->
  exists s, s < len cs /\ length_of cs s = l /\ count_of l (firstn (N.to_nat s) cs) = k.
Proof.
  induction cs as [| c cs IH]; intros k Hk; [unfold count_of in Hk; cbn in Hk; lia |].
  rewrite count_of_cons in Hk. destruct (N.eqb_spec c l) as [-> | Hne].
  - destruct (N.eq_dec k 0) as [-> | Hk0].
    + exists 0. unfold length_of. rewrite len_cons. cbn [N.to_nat nth firstn]. repeat split; lia.
    + destruct (IH (k - 1)) as (s & S1 & S2 & S3); [lia |].
      exists (s + 1). unfold length_of in *. rewrite len_cons.
      replace (N.to_nat (s + 1)) with (Datatypes.S (N.to_nat s)) by lia. cbn [nth firstn].
      rewrite count_of_cons, N.eqb_refl. repeat split; try lia; exact S2.
  - destruct (IH k) as (s & S1 & S2 & S3); [lia |].
    exists (s + 1). unfold length_of in *. rewrite len_cons.
    replace (N.to_nat (s + 1)) with (Datatypes.S (N.to_nat s)) by lia. cbn [nth firstn].
    rewrite count_of_cons. destruct (N.eqb_spec c l); [lia |]. repeat split; try lia; exact S2.
Qed.

Lemma bits_msb_snoc v b : forall n, bits_msb n v ++ [b] = bits_msb (S n) (2 * v + N.b2n b).
Proof.
  induction n as [| n IH].
  - cbn [bits_msb app]. f_equal. destruct b; cbn [N.b2n].
    + symmetry. apply N.testbit_odd_0.
    + rewrite N.add_0_r. symmetry. apply N.testbit_even_0.
  - cbn [bits_msb app] in *. rewrite IH. cbn [bits_msb]. f_equal.
    rewrite Nat2N.inj_succ. destruct b; cbn [N.b2n].
    + now rewrite N.testbit_odd_succ by lia.
    + rewrite N.add_0_r. now rewrite N.testbit_even_succ by lia.
Qed.

Lemma yields_snoc {S} (get_bit : S -> res (N * S)) s bs s1 b s2 :
  yields get_bit s bs s1 -> get_bit s1 = Ok (N.b2n b, s2) -> yields get_bit s (bs ++ [b]) s2.
Proof. induction 1; intros; cbn [app]; econstructor; eauto. constructor. Qed.

(** A source that always has another bit. *)
Definition endless {S} (get_bit : S -> res (N * S)) (good : S -> Prop) : Prop :=
  forall s, good s -> exists b s', get_bit s = Ok (N.b2n b, s') /\ good s'.

Lemma decode_loop_sound {S} (get_bit : S -> res (N * S)) good cs largest t :
  endless get_bit good -> tree_for cs largest t ->
  forall m k s0 s c, (m + k)%nat = N.to_nat largest -> good s ->
  yields get_bit s0 (bits_msb k c) s -> used cs k <= c ->
  (decode_loop get_bit t (seqN (N.of_nat (Datatypes.S k)) m) (first_code cs (Datatypes.S k)) c
    (offset_of cs (Datatypes.S k)) s = Err) \/
  (exists sym s', decode_loop get_bit t (seqN (N.of_nat (Datatypes.S k)) m) (first_code cs (Datatypes.S k)) c
    (offset_of cs (Datatypes.S k)) s = Ok (sym, s') /\
    coded cs sym /\ yields get_bit s0 (code_word cs sym) s' /\ good s').
Proof.
  intros Hend (Tl & Hf & (Hcl & Hci) & Hls & Hsym & Hsub).
  induction m as [| m IH]; intros k s0 s c Hm Hg Hy Hc; [left; reflexivity |].
  destruct (Hend s Hg) as (b & s1 & Eb & Hg1).
  cbn [seqN decode_loop]. rewrite Eb. cbn [bind]. rewrite Hci by lia. cbn [bind]. rewrite lor_bit.
  pose proof (yields_snoc _ _ _ _ _ _ Hy Eb) as Hy1. rewrite bits_msb_snoc in Hy1.
  set (c1 := 2 * c + N.b2n b) in *.
  assert (Hge : first_code cs (Datatypes.S k) <= c1) by (rewrite first_code_S; unfold c1; lia).
  destruct (N.ltb_spec c1 (first_code cs (Datatypes.S k) + count_of (N.of_nat (Datatypes.S k)) cs)) as [Hlt | Hlt].
  - right. unfold sub_chk. destruct (N.leb_spec (first_code cs (Datatypes.S k)) c1); [| lia]. cbn [bind].
    destruct (rank_exists (N.of_nat (Datatypes.S k)) cs (c1 - first_code cs (Datatypes.S k))) as (sym & S1 & S2 & S3); [lia |].
    assert (Hcoded : coded cs sym) by (split; [exact S1 | rewrite S2; lia]).
    assert (Es : offset_of cs (Datatypes.S k) + (c1 - first_code cs (Datatypes.S k)) = slot cs sym).
    { unfold slot. rewrite S2, S3, Nat2N.id. reflexivity. }
    rewrite Es, Hsym by exact Hcoded. cbn [bind].
    exists sym, s1. split; [reflexivity |]. split; [exact Hcoded |]. split; [| exact Hg1].
    unfold code_word, canonical_code. rewrite S2, S3, Nat2N.id.
    replace (first_code cs (Datatypes.S k) + (c1 - first_code cs (Datatypes.S k))) with c1 by lia. exact Hy1.
  - replace (N.of_nat (Datatypes.S k) + 1) with (N.of_nat (Datatypes.S (Datatypes.S k))) by lia.
    replace (N.shiftl (first_code cs (Datatypes.S k) + count_of (N.of_nat (Datatypes.S k)) cs) 1)
      with (first_code cs (Datatypes.S (Datatypes.S k)))
      by (rewrite first_code_S, N.shiftl_mul_pow2; unfold used; change (2 ^ 1) with 2; lia).
    replace (offset_of cs (Datatypes.S k) + count_of (N.of_nat (Datatypes.S k)) cs)
      with (offset_of cs (Datatypes.S (Datatypes.S k))) by reflexivity.
    apply IH; [lia | exact Hg1 | exact Hy1 | unfold used; lia].
Qed.

Lemma decode_symbol_sound {S} (get_bit : S -> res (N * S)) good cs largest t s :
  endless get_bit good -> tree_for cs largest t -> good s ->
  decode_symbol get_bit t s = Err \/
  exists sym s', decode_symbol get_bit t s = Ok (sym, s') /\ coded cs sym /\
    yields get_bit s (code_word cs sym) s' /\ good s'.
Proof.
  intros He Ht Hg. pose proof Ht as (Tl & _). unfold decode_symbol. rewrite Tl.
  change 1 with (N.of_nat 1).
  apply (decode_loop_sound get_bit good cs largest t He Ht _ 0%nat); [lia | exact Hg | constructor | cbn; lia].
Qed.
