From Verif Require Import Base BaseLemmas Streams_model Streams_spec Streams_proofs BlockTree_model BlockTree_spec
  BlockTree_proofs Blocks_model Blocks_proofs Lazy_model Image_spec Image_proofs Sparse_proofs.
Ltac Zify.zify_post_hook ::= idtac.

(** ** The loop, with a state that follows the offset *)
Definition exact_at {S} (J : N -> S -> Prop) (size : N) (c : list N)
    (step : S -> N -> N -> S * res (list N)) : Prop :=
  forall s o r, J o s -> o < size -> 0 < r -> o + r <= size ->
  exists s' k, step s o r = (s', Ok (bytes_at c o k)) /\ 0 < k <= r /\ (k < r -> J (o + k) s') /\ (exists o', J o' s').

Lemma read_blocks_at {S} (J : N -> S -> Prop) size c (step : S -> N -> N -> S * res (list N)) :
  exact_at J size c step -> size < two64 -> len c = size ->
  forall fuel s o n out, J o s -> len out <= n -> o + (n - len out) <= size ->
  (N.to_nat (n - len out) < fuel)%nat ->
  exists s', read_blocks fuel size step s o n out = (s', Ok (out ++ bytes_at c o (n - len out))) /\ (exists o', J o' s').
Proof.
  intros Hstep Hsize Hc. induction fuel as [|fuel IH]; intros s o n out HI Ho Hn Hf; [lia|].
  cbn [read_blocks]. destruct (N.ltb_spec (len out) n).
  - destruct (N.leb_spec size o); [lia|].
    destruct (Hstep s o (n - len out)) as (s' & k & E & Hk & HI' & HI2); auto; [lia|].
    rewrite E. pose proof (len_bytes_at c o k) as Hl. rewrite N.min_l in Hl by lia.
    destruct (bytes_at c o k) as [|b l] eqn:Eb. { change (len (@nil N)) with 0 in Hl. lia. }
    rewrite <- Eb in *. rewrite Hl. unfold add_chk. destruct (N.ltb_spec (o + k) two64); [|lia].
    destruct (N.eq_dec k (n - len out)) as [Ek|].
    + destruct fuel as [|fuel]; [lia|]. cbn [read_blocks]. rewrite len_app, Hl.
      destruct (N.ltb_spec (len out + k) n); [lia|]. exists s'. rewrite <- Ek. auto.
    + destruct (IH s' (o + k) n (out ++ bytes_at c o k)) as (s'' & E' & HI''); rewrite ?len_app, ?Hl; try lia.
      { apply HI'. lia. }
      exists s''. rewrite E'. split; [|assumption]. do 2 f_equal.
      rewrite <- app_assoc, len_app, Hl. f_equal.
      replace (n - len out) with (k + (n - len out - k)) by lia.
      rewrite (bytes_at_split c o k). f_equal. f_equal; lia.
  - exists s. split; [|eauto]. replace (n - len out) with 0 by lia.
    unfold bytes_at. cbn [N.to_nat firstn]. now rewrite app_nil_r.
Qed.

(** ** A tree with some of the blocks *)
Section Filled.
  Context {V : Type} (slot elements r nb : N) (value : N -> V).
  Let bs := slot * elements ^ r.
  Hypothesis Hslot : 0 < slot.
  Hypothesis Helements : 1 <= elements.
  Hypothesis Hnode : elements * slot < two64.
  Hypothesis Hsize : nb * bs < two64.

  Definition filled (t : block_tree V) : Prop :=
    exists h, t = fst (bt_inserts (bt_new (nb * bs) elements slot) (block_inserts bs (map (fun i => (i, value i)) h))) /\
      Forall (fun i => i < nb) h /\ NoDup h.

  Lemma filled_new : filled (bt_new (nb * bs) elements slot).
  Proof. exists []. split; [reflexivity|]. split; constructor. Qed.

  Lemma bs_pos : 0 < bs.
  Proof. unfold bs. assert (elements ^ r <> 0) by (apply N.pow_nonzero; lia). nia. Qed.

  Lemma small_blocks' h : Forall (fun i => i < nb) h ->
    Forall (fun e : N * V => fst e * (slot * elements ^ r) + slot * elements ^ r < two64)
      (map (fun i => (i, value i)) h).
  Proof.
    intros H. apply Forall_map. eapply Forall_impl; [|exact H]. intros i Hi. cbn [fst]. cbv beta in Hi. fold bs.
    assert ((i + 1) * bs <= nb * bs) by (apply N.mul_le_mono_r; lia).
    rewrite N.mul_add_distr_r, N.mul_1_l in H0. eapply N.le_lt_trans; [exact H0|exact Hsize].
  Qed.

  Lemma filled_get t : filled t -> forall x, x < nb * bs ->
    bt_get t x = Ok None \/ bt_get t x = Ok (Some (value (x / bs))).
  Proof.
    intros (h & -> & Hh & Hd) x Hx.
    destruct (blocks_ok (V := V) elements slot r nb (map (fun i => (i, value i)) h)) as (t & Et & Gt); auto using small_blocks'.
    fold bs in Et, Gt. rewrite Et. cbn [fst]. rewrite Gt by assumption. unfold offered.
    destruct (x / bs <? nb); [|auto]. destruct (find _ _) as [[i v]|] eqn:Ef; [|auto]. right. do 2 f_equal. cbn [snd].
    apply find_some in Ef as [Hin Hi]. apply in_map_iff in Hin as (j & Hj & _). cbn [fst] in Hi. apply N.eqb_eq in Hi.
    injection Hj as -> <-. congruence.
  Qed.

  Lemma inserts_app (t : block_tree V) a b :
    bt_inserts t (a ++ b) =
    (fst (bt_inserts (fst (bt_inserts t a)) b), snd (bt_inserts t a) ++ snd (bt_inserts (fst (bt_inserts t a)) b)).
  Proof.
    revert t. induction a as [|[[o s] v] a IH]; intros t; cbn [app bt_inserts].
    - cbn [fst snd app]. destruct (bt_inserts t b); reflexivity.
    - destruct (bt_insert t o s v) as [t1 r1]. rewrite IH. destruct (bt_inserts t1 a) as [t2 rs]. reflexivity.
  Qed.

  Lemma results_app (k : N) (h h' : list (N * V)) : forall before,
    block_results k before (h ++ h') = block_results k before h ++ block_results k (before ++ h) h'.
  Proof.
    induction h as [|[i v] h IH]; intros before; cbn [app block_results]; [now rewrite app_nil_r|].
    rewrite IH, <- app_assoc. reflexivity.
  Qed.

  Lemma filled_insert t n x : filled t -> n < nb -> x / bs = n -> bt_get t x = Ok None ->
    exists t', bt_insert t (n * bs) bs (value n) = (t', Ok tt) /\ filled t' /\ bt_get t' x = Ok (Some (value n)).
  Proof.
    intros Hf Hn Hx Hg. assert (Hf' := Hf). destruct Hf as (h & E & Hh & Hd).
    pose proof bs_pos as Hb.
    assert (Hx' : x < nb * bs). { destruct (mod_split x bs Hb). rewrite Hx in *. nia. }
    assert (Hnin : ~ In n h).
    { intros Hin. destruct (blocks_ok (V := V) elements slot r nb (map (fun i => (i, value i)) h)) as (t1 & Et & Gt);
        auto using small_blocks'. fold bs in Et, Gt. rewrite Et in E. cbn [fst] in E. subst t1.
      rewrite Gt, Hx in Hg by assumption. unfold offered in Hg. destruct (N.ltb_spec n nb); [|lia].
      destruct (find (fun e => fst e =? n) (map (fun i => (i, value i)) h)) eqn:Ef; [discriminate|].
      assert (In (n, value n) (map (fun i => (i, value i)) h)) as Hin' by (apply in_map_iff; eauto).
      apply (find_none _ _ Ef) in Hin'. cbn [fst] in Hin'. rewrite N.eqb_refl in Hin'. discriminate. }
    assert (Hh2 : Forall (fun i => i < nb) (h ++ [n])) by (apply Forall_app; split; [assumption|constructor; [assumption|constructor]]).
    destruct (blocks_ok (V := V) elements slot r nb (map (fun i => (i, value i)) (h ++ [n]))) as (t2 & Et & Gt);
      auto using small_blocks'. fold bs in Et, Gt.
    assert (Ha : block_inserts bs (map (fun i => (i, value i)) (h ++ [n])) =
      block_inserts bs (map (fun i => (i, value i)) h) ++ [(n * bs, bs, value n)]).
    { unfold block_inserts. rewrite !map_app. reflexivity. }
    pose proof Et as Et'. rewrite Ha, inserts_app, <- E in Et'. cbn [bt_inserts] in Et'.
    destruct (bt_insert t (n * bs) bs (value n)) as [t' rr] eqn:Ei. cbn [fst snd] in Et'.
    rewrite map_app, results_app, map_app in Et'. cbn [map block_results app] in Et'.
    injection Et' as <- Er. apply app_inj_tail in Er as [_ Er].
    exists t'. split; [f_equal|split].
    - rewrite Er. destruct (N.ltb_spec n nb); [|lia]. cbn [andb].
      replace (existsb _ _) with false; [reflexivity|]. symmetry. apply not_true_iff_false. rewrite existsb_exists.
      intros ([i v] & Hin & Hi). apply in_map_iff in Hin as (j & Hj & Hin). injection Hj as -> <-. cbn [fst] in Hi.
      apply N.eqb_eq in Hi. subst. contradiction.
    - exists (h ++ [n]). split; [|split; [assumption|]].
      + rewrite Et. reflexivity.
      + apply NoDup_rev in Hd. rewrite <- (rev_involutive (h ++ [n])). apply NoDup_rev. rewrite rev_app_distr. cbn [rev app].
        constructor; [|assumption]. rewrite <- in_rev. assumption.
    - rewrite Gt, Hx by assumption. unfold offered. destruct (N.ltb_spec n nb); [|lia].
      destruct (find (fun e => fst e =? n) (map (fun i => (i, value i)) (h ++ [n]))) as [[i v]|] eqn:Ef.
      + apply find_some in Ef as [Hin Hi]. apply in_map_iff in Hin as (j & Hj & _). cbn [fst] in Hi. apply N.eqb_eq in Hi.
        injection Hj as -> <-. cbn [snd]. congruence.
      + assert (In (n, value n) (map (fun i => (i, value i)) (h ++ [n]))) as Hin'.
        { apply in_map_iff. exists n. split; [reflexivity|]. apply in_app_iff. right. left. reflexivity. }
        apply (find_none _ _ Ef) in Hin'. cbn [fst] in Hin'. rewrite N.eqb_refl in Hin'. discriminate.
  Qed.
End Filled.

(** ** One layer *)
Definition range_byte (file : list N) (parent : N -> N) (value : N -> block_range) (bs x : N) : N :=
  let v := value (x / bs) in
  match br_type v with
  | InFile => file_byte file (br_data_offset v + x mod bs)
  | InParent => parent x
  | _ => 0
  end.
Record layer_ok (l : layer) (slot elements r nb : N) (value : N -> block_range) : Prop := {
  lo_fixed : ly_fixed l = false;
  lo_slot : 0 < slot;
  lo_elements : 1 <= elements;
  lo_node : elements * slot < two64;
  lo_block_size : ly_block_size l = slot * elements ^ r;
  lo_size : nb * ly_block_size l < two64;
  lo_media : ly_media_size l <= nb * ly_block_size l;
  lo_value : forall n, n * ly_block_size l < ly_media_size l ->
    br_media_offset (value n) = n * ly_block_size l /\ br_size (value n) = ly_block_size l /\
    br_type (value n) <> Compressed /\
    (br_type (value n) = InFile ->
       br_data_offset (value n) + N.min (ly_block_size l) (ly_media_size l - n * ly_block_size l) <= len (ly_file l));
  lo_file : len (ly_file l) < two64;
  lo_load : forall t x n, x < ly_media_size l -> n = x / ly_block_size l ->
    ly_load l t x n = bt_insert t (n * ly_block_size l) (ly_block_size l) (value n)
}.

Lemma map_file_shift file b o count : b + count <= len file ->
  bytes_at file b count = map (fun x => file_byte file (b + (x - o))) (seqN o (N.to_nat count)).
Proof.
  intros H. rewrite bytes_at_file by assumption.
  replace (seqN b (N.to_nat count)) with (seqN (b + 0) (N.to_nat count)) by (f_equal; lia). rewrite map_seqN_shift.
  replace (seqN o (N.to_nat count)) with (seqN (o + 0) (N.to_nat count)) by (f_equal; lia). rewrite map_seqN_shift.
  apply map_ext. intros x. f_equal. lia.
Qed.
Lemma map_zero o n : repeat 0 n = map (fun _ => 0) (seqN o n).
Proof. revert o. induction n as [|n IH]; intros o; [reflexivity|]. cbn [repeat seqN map]. f_equal. apply IH. Qed.

Definition parent_exact {P} (IP : P -> Prop) (media_size : N) (pbyte : N -> N) (parent : P -> N -> N -> P * res (list N)) : Prop :=
  forall p o n, IP p -> o < media_size -> 0 < n -> o + n <= media_size ->
  exists p', parent p o n = (p', Ok (map pbyte (seqN o (N.to_nat n)))) /\ IP p'.

Section Layer.
  Context {P : Type} (l : layer) (parent : P -> N -> N -> P * res (list N)) (IP : P -> Prop) (pbyte : N -> N)
    (slot elements r nb : N) (value : N -> block_range).
  Hypothesis Hl : layer_ok l slot elements r nb value.
  Hypothesis Hp : (exists n, n * ly_block_size l < ly_media_size l /\ br_type (value n) = InParent) ->
    parent_exact IP (ly_media_size l) pbyte parent.
  Let bs := ly_block_size l.
  Let ms := ly_media_size l.
  Let f := range_byte (ly_file l) pbyte value bs.

  Lemma layer_exact :
    exact_rd (fun s => filled slot elements r nb value (fst s) /\ IP (snd s)) ms (disk_content f ms) (lazy_rd l parent).
  Proof.
    destruct Hl as [Hfx Hslot Hel Hnode Hbs Hsize Hmedia Hvalue Hfile Hload]. fold bs ms in Hbs, Hsize, Hmedia, Hvalue, Hload.
    assert (Hb : 0 < bs).
    { rewrite Hbs. assert (elements ^ r <> 0) by (apply N.pow_nonzero; lia). clear - H Hslot. nia. }
    assert (Hms : ms < two64) by lia.
    intros [t p] o n [Ht HIp] Ho Hn. unfold lazy_rd. rewrite Hfx. unfold div_chk. fold bs.
    destruct (N.eqb_spec bs 0); [lia|]. cbn [fst snd].
    pose (J := fun (o : N) (s : N * tree * P) => fst (fst s) = o / bs /\ filled slot elements r nb value (snd (fst s)) /\ IP (snd s)).
    assert (Hstep : exact_at J ms (disk_content f ms) (lazy_step l parent)).
    { clear t p Ht HIp o n Ho Hn. intros [[bn t] p] o c (Ebn & Ht & HIp) Ho Hc Hoc. cbn [fst snd] in *. subst bn.
      destruct (mod_split o bs Hb) as [Hr Ho'].
      assert (Hq : o / bs < nb) by (apply N.div_lt_upper_bound; lia).
      destruct (Hvalue (o / bs)) as (Hv1 & Hv2 & Hv3 & Hv4); [lia|].
      unfold lazy_step.
      assert (Hget : exists t', (match bt_get t o with
        | Ok None => match ly_load l t o (o / bs) with
                     | (t, Ok _) => (t, bt_get t o) | (t, Err) => (t, Err) | (t, Panic) => (t, Panic) end
        | v => (t, v) end) = (t', Ok (Some (value (o / bs)))) /\ filled slot elements r nb value t').
      { rewrite Hbs in Hsize. destruct (filled_get slot elements r nb value Hslot Hel Hnode Hsize t Ht o) as [Eg|Eg]; [rewrite <- Hbs; lia| |].
        - rewrite Eg, Hload by auto.
          destruct (filled_insert slot elements r nb value Hslot Hel Hnode Hsize t (o / bs) o Ht Hq) as (t' & Ei & Ht' & Eg'); rewrite <- ?Hbs in *; auto.
          rewrite Ei, Eg'. exists t'. auto.
        - rewrite Eg, <- Hbs. exists t. auto. }
      destruct Hget as (t' & -> & Ht'). cbn [fst snd].
      unfold sub_chk. rewrite Hv1, Hv2. destruct (N.leb_spec (o / bs * bs) o); [|lia]. cbn [bind].
      replace (o - o / bs * bs) with (o mod bs) by lia. destruct (N.leb_spec (o mod bs) bs); [|lia]. cbn [bind].
      set (k := if bs - o mod bs <? c then bs - o mod bs else c).
      assert (Hk : 0 < k <= c /\ k <= bs - o mod bs /\ (k < c -> k = bs - o mod bs)).
      { unfold k. destruct (N.ltb_spec (bs - o mod bs) c); lia. }
      clearbody k.
      assert (Sx : forall x, In x (seqN o (N.to_nat k)) -> x / bs = o / bs /\ x mod bs = o mod bs + (x - o)).
      { intros x Hx. apply in_seqN in Hx. split.
        - symmetry. apply N.div_unique with (o mod bs + (x - o)); lia.
        - symmetry. apply N.mod_unique with (o / bs); lia. }
      assert (HJ : forall p', IP p' -> (k < c -> J (o + k) (o / bs + 1, t', p')) /\ (exists o', J o' (o / bs + 1, t', p'))).
      { intros p' Hp'. destruct (next_block o bs Hb) as [N1 N2]. cbv zeta in N1. split.
        - intros Hkc. unfold J. cbn [fst snd]. destruct Hk as (_ & _ & Hk). rewrite (Hk Hkc), N1. auto.
        - exists (o + (bs - o mod bs)). unfold J. cbn [fst snd]. rewrite N1. auto. }
      destruct (br_type (value (o / bs))) eqn:Et; [| | |congruence].
      - specialize (Hv4 eq_refl).
        assert (A : add_chk two64 (br_data_offset (value (o / bs))) (o mod bs) = Ok (br_data_offset (value (o / bs)) + o mod bs)).
        { unfold add_chk. destruct (N.ltb_spec (br_data_offset (value (o / bs)) + o mod bs) two64); [reflexivity|lia]. }
        rewrite A. exists (o / bs + 1, t', p), k. split; [|split; [lia|apply HJ, HIp]].
        f_equal. f_equal. unfold read_at. rewrite (map_file_shift _ _ o) by lia. rewrite bytes_at_disk by lia.
        apply map_ext_in. intros x Hx. destruct (Sx x Hx) as (S1 & S2). unfold f, range_byte. rewrite S1, Et, S2. f_equal. lia.
      - destruct (Hp ltac:(exists (o / bs); split; [fold bs ms; lia|assumption]) p o k) as (p' & Ep & Hp'); [assumption|fold ms; lia|lia|fold ms; lia|].
        rewrite Ep. exists (o / bs + 1, t', p'), k. split; [|split; [lia|apply HJ, Hp']].
        f_equal. f_equal. rewrite bytes_at_disk by lia. apply map_ext_in. intros x Hx. destruct (Sx x Hx) as (S1 & S2).
        unfold f, range_byte. rewrite S1, Et. reflexivity.
      - exists (o / bs + 1, t', p), k. split; [|split; [lia|apply HJ, HIp]].
        f_equal. f_equal. rewrite bytes_at_disk by lia. rewrite (map_zero o). apply map_ext_in. intros x Hx.
        destruct (Sx x Hx) as (S1 & S2). unfold f, range_byte. rewrite S1, Et. reflexivity. }
    unfold blocks_rd.
    destruct (read_blocks_at J ms (disk_content f ms) (lazy_step l parent) Hstep Hms (len_disk _ _) (S (N.to_nat n)) (o / bs, t, p) o n [])
      as ([[bn' t'] p'] & E & (o' & HJ)); try (change (len (@nil N)) with 0; lia).
    { unfold J. cbn [fst snd]. auto. }
    fold ms. unfold tree in E |- *. rewrite E. change (len (@nil N)) with 0. rewrite N.sub_0_r. cbn [app]. exists (t', p'). split; [reflexivity|].
    destruct HJ as (_ & H1 & H2). cbn [fst snd] in *. auto.
  Qed.
End Layer.

(** ** Layers on top of each other *)
Definition parents_inv (IS : tree * parents -> Prop) (p : parents) : Prop :=
  match p with (t, _) :: p => IS (t, p) | [] => False end.
Lemma chain_parent l' ls IS pf ms : exact_rd IS (ly_media_size l') (disk_content pf (ly_media_size l')) (chain_rd (l' :: ls)) ->
  ms <= ly_media_size l' -> ly_media_size l' < two64 ->
  parent_exact (parents_inv IS) ms pf (fun (p : parents) media_offset n =>
    match l' :: ls, p with
    | l' :: _, (t, _) :: p =>
        let '((t, p, o), r) := stream_read (ly_media_size l') (chain_rd (l' :: ls)) ((t, p), media_offset) n in
        ((t, o) :: p, r)
    | _, _ => (p, Err)
    end).
Proof.
  intros He Hm H64 p o n Hp Ho Hn Hon. destruct p as [|[t q] p]; [contradiction|]. cbn [parents_inv] in Hp.
  unfold stream_read. destruct (N.leb_spec (ly_media_size l') o); [lia|].
  replace (if ly_media_size l' - o <? n then ly_media_size l' - o else n) with n by (destruct (N.ltb_spec (ly_media_size l' - o) n); lia).
  destruct (He (t, p) o n Hp) as ([t' p'] & E & Hp'); [lia|lia|]. rewrite E.
  rewrite bytes_at_disk by lia. rewrite len_map_seqN, N2Nat.id. unfold add_chk.
  destruct (N.ltb_spec (o + n) two64); [|lia]. eexists. split; [reflexivity|]. exact Hp'.
Qed.
Lemma fixed_exact {P} l (parent : P -> N -> N -> P * res (list N)) : ly_fixed l = true -> ly_media_size l <= len (ly_file l) ->
  exact_rd (fun _ => True) (ly_media_size l) (disk_content (file_byte (ly_file l)) (ly_media_size l)) (lazy_rd l parent).
Proof.
  intros Hf Hl s o n _ Ho Hn. unfold lazy_rd. rewrite Hf. exists s. split; [|exact I]. unfold read_at.
  rewrite bytes_at_disk, bytes_at_file by lia. reflexivity.
Qed.

(** ** Sector bitmaps *)
Lemma bitmap_loop_same bits bpb v : Forall (fun b => b = v) bits -> forall offset range_offset, range_offset <= offset ->
  bitmap_loop bits bpb offset range_offset v = [(offset + bpb * len bits - range_offset, negb (v =? 0))].
Proof.
  induction 1 as [|b bits -> _ IH]; intros offset range_offset H; cbn [bitmap_loop].
  - change (len (@nil N)) with 0. rewrite N.mul_0_r, N.add_0_r. reflexivity.
  - rewrite N.eqb_refl, IH by lia. rewrite len_cons. do 3 f_equal. lia.
Qed.
Lemma bitmap_uniform vhd data bpb b : 0 < len data -> Forall (fun x => x = b) data -> b = 0 \/ b = 255 ->
  bitmap_ranges vhd data bpb = Ok [(bpb * (8 * len data), negb (b =? 0))].
Proof.
  intros Hl Hd Hb. unfold bitmap_ranges. destruct data as [|x data]; [change (len (@nil N)) with 0 in Hl; lia|].
  assert (Hx : x = b) by (apply Forall_cons_iff in Hd; tauto).
  rewrite (idx_ok _ _ 0) by assumption. cbn [bind]. change (nth (N.to_nat 0) (x :: data) 0) with x. rewrite <- Hx in *. clear b Hx. rename x into b. f_equal.
  pose (v := if b =? 0 then 0 else 1).
  assert (Hv : (if vhd then N.shiftr b 7 else N.land b 1) = v) by (unfold v; destruct Hb as [->| ->], vhd; reflexivity).
  rewrite Hv.
  assert (Hbits : Forall (fun y => y = v) (flat_map byte_bits (b :: data)) /\ len (flat_map byte_bits (b :: data)) = 8 * len (b :: data)).
  { clear Hl Hv. induction Hd as [|y l Hy _ [IH1 IH2]]; [split; [constructor|reflexivity]|]. cbn [flat_map]. rewrite len_app, len_cons, IH2.
    split; [|change (len (byte_bits y)) with 8; lia]. apply Forall_app. split; [|assumption]. subst y.
    unfold v. destruct Hb as [->| ->]; cbn; repeat (constructor; [reflexivity|]); constructor. }
  destruct Hbits as [H1 H2]. rewrite bitmap_loop_same by (assumption || lia). rewrite H2, N.sub_0_r, N.add_0_l. do 3 f_equal.
  unfold v. destruct Hb as [->| ->]; reflexivity.
Qed.

(** The ranges are the runs of equal bits. *)
Lemma bitmap_loop_bits bpb : 0 < bpb -> forall bits offset range_offset v n,
  Forall (fun b => b = 0 \/ b = 1) (v :: bits) -> offset = range_offset + bpb * N.of_nat n ->
  flat_map (fun r => repeat (snd r) (N.to_nat (fst r / bpb))) (bitmap_loop bits bpb offset range_offset v) =
  repeat (negb (v =? 0)) n ++ map (fun b => negb (b =? 0)) bits.
Proof.
  intros Hb. induction bits as [|b bits IH]; intros offset range_offset v n Hf Ho; cbn [bitmap_loop].
  - cbn [flat_map fst snd map]. do 2 f_equal. rewrite Ho. replace (range_offset + bpb * N.of_nat n - range_offset) with (N.of_nat n * bpb) by lia.
    rewrite N.div_mul by lia. lia.
  - apply Forall_cons_iff in Hf as [Hv Hf]. pose proof Hf as Hf'. apply Forall_cons_iff in Hf as [Hb0 Hf].
    destruct (N.eqb_spec b v) as [->|Hne].
    + rewrite (IH _ _ _ (S n)); [|constructor; assumption|lia]. cbn [map repeat]. rewrite repeat_cons, <- app_assoc. reflexivity.
    + cbn [flat_map fst snd]. rewrite Ho. replace (range_offset + bpb * N.of_nat n - range_offset) with (N.of_nat n * bpb) by lia.
      rewrite N.div_mul by lia. rewrite Nat2N.id. f_equal. rewrite (IH _ _ _ 1%nat); [reflexivity|assumption|lia].
Qed.

(** ** Chains of layers *)
Definition layers_size (ls : list layer) : N := match ls with l :: _ => ly_media_size l | [] => 0 end.
(** [layers_ok ls start f]: layers in their first state that show the disk [f]. *)
Fixpoint layers_ok (ls : list layer) (start : parents) (f : N -> N) : Prop :=
  match ls, start with
  | l :: ls, (t, _) :: start =>
      (ly_fixed l = true /\ ly_media_size l <= len (ly_file l) /\
       (forall x, x < ly_media_size l -> f x = file_byte (ly_file l) x)) \/
      (exists slot elements r nb value f',
         layer_ok l slot elements r nb value /\ filled slot elements r nb value t /\
         (forall x, x < ly_media_size l -> f x = range_byte (ly_file l) f' value (ly_block_size l) x) /\
         ((forall n, n * ly_block_size l < ly_media_size l -> br_type (value n) <> InParent) \/
          (layers_ok ls start f' /\ ly_media_size l <= layers_size ls < two64)))
  | _, _ => False
  end.
Lemma exact_rd_ext {St} (I : St -> Prop) size f g rd : (forall x, x < size -> f x = g x) ->
  exact_rd I size (disk_content g size) rd -> exact_rd I size (disk_content f size) rd.
Proof. intros H. rewrite (disk_ext f g size H). auto. Qed.
Lemma chain_exact : forall ls start f, layers_ok ls start f ->
  exists IS : tree * parents -> Prop,
    exact_rd IS (layers_size ls) (disk_content f (layers_size ls)) (chain_rd ls) /\ IS (fst (chain_start start)).
Proof.
  induction ls as [|l ls IH]; intros start f H; [contradiction|]. destruct start as [|[t o] start]; [contradiction|].
  cbn [layers_ok layers_size chain_start fst snd] in *. destruct H as [(Hfx & Hl & Hf)|H].
  - exists (fun _ => True). split; [|exact I]. apply (exact_rd_ext _ _ _ _ _ Hf). cbn [chain_rd]. apply fixed_exact; assumption.
  - destruct H as (slot & elements & r & nb & value & f' & Hly & Hfl & Hf & Hp).
    pose proof (fun parent IP pbyte => layer_exact (P := parents) l parent IP pbyte _ _ _ _ _ Hly) as L.
    destruct Hp as [Hp|[Hp [Hs1 Hs2]]].
    + eexists. split; [apply (exact_rd_ext _ _ _ _ _ Hf); cbn [chain_rd]; apply L with (IP := fun _ => True)|].
      * intros (n & Hn & Ht). exfalso. exact (Hp n Hn Ht).
      * cbn [fst snd]. split; [exact Hfl|exact I].
    + destruct (IH start f' Hp) as (IS & HIS & Hst). destruct ls as [|l' ls]; [contradiction|]. cbn [layers_size] in *.
      destruct start as [|[t' o'] start]; [contradiction|].
      eexists. split; [apply (exact_rd_ext _ _ _ _ _ Hf); cbn [chain_rd]; apply L with (IP := parents_inv IS)|].
      * intros _. exact (chain_parent l' ls IS f' (ly_media_size l) HIS Hs1 Hs2).
      * cbn [fst snd parents_inv]. split; [exact Hfl|]. exact Hst.
Qed.
Lemma chain_run ls start f : layers_ok ls start f -> snd (chain_start start) = 0 -> layers_size ls < two63 ->
  forall ops, seeks_ok (layers_size ls) (disk_content f (layers_size ls)) 0 ops ->
  let calls := Streams_model.run (chain_step ls) (chain_start start) ops in
  snd (fst calls) = fst (Streams_model.run (file_step (layers_size ls) (disk_content f (layers_size ls))) 0 ops) /\
  snd calls = snd (Streams_model.run (file_step (layers_size ls) (disk_content f (layers_size ls))) 0 ops).
Proof.
  intros H H0 Hs ops Hops. destruct (chain_exact ls start f H) as (IS & HIS & Hst).
  destruct ls as [|l ls]; [contradiction|]. destruct (chain_start start) as [s o]. cbn [fst snd] in *. subst o.
  destruct (run_exact IS _ _ _ HIS) with (ops := ops) (s := s) (p := 0) as (s' & E & _); auto.
  { rewrite len_disk. lia. } { unfold two63. lia. }
  cbn [chain_step layers_size] in *. rewrite E. auto.
Qed.
