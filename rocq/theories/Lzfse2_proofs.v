From Verif Require Import Base BaseLemmas Lz_model Lz_spec Lz_proofs Lzvn_proofs Bytes_model.
From Verif Require Import Huffman_spec Bzip2_spec Bzip2_proofs.
From Verif Require Import Deflate_spec Lzfse_model Lzfse_spec Lzfse_proofs.
Ltac Zify.zify_post_hook ::= idtac.

(** ** Literals *)
Lemma read_literal_ok data fs y s bits x st r : wf_bytes data -> total fs <= 1024 ->
  fse_step 1024 fs y s bits x -> FAt data st (bits ++ r) ->
  exists st', read_literal data (table_of 10 0 fs) y st = Ok (s, x, st') /\ FAt data st' r.
Proof.
  intros Hwf Ht Hs HA. change 1024 with (2 ^ 10) in Hs, Ht.
  destruct (step_entry 10 fs y s bits x ltac:(lia) Ht Hs) as (k & delta & v & E & Hk & Hke & -> & Hv & Hx & Hy & Hx2 & Hl).
  change (2 ^ 10) with 1024 in *.
  unfold read_literal, check. destruct (N.leb_spec y 1024); [| lia]. cbn [bind]. rewrite E. cbn [of_option bind].
  destruct (FAt_value data k v st r Hwf ltac:(lia) Hv HA) as (st' & Ev & HA'). rewrite Ev. cbn [bind].
  exists st'. split; [| exact HA']. rewrite Hx. rewrite N.mod_small by (unfold two16; lia). reflexivity.
Qed.
Lemma read_group_ok data fs r : wf_bytes data -> total fs <= 1024 -> forall sts done lits w index st,
  literal_run fs (sts ++ done) lits w -> (length sts <= length lits)%nat ->
  index + N.of_nat (length sts) <= maximum_literals -> FAt data st (w ++ r) ->
  exists syms nexts lits' w' st', read_group data (table_of 10 0 fs) sts index st = Ok (syms, nexts, st') /\
    lits = syms ++ lits' /\ length syms = length sts /\ length nexts = length sts /\
    literal_run fs (done ++ nexts) lits' w' /\ FAt data st' (w' ++ r).
Proof.
  intros Hwf Ht. induction sts as [| y sts IH]; intros done lits w index st Hr Hl Hi HA.
  - exists [], [], lits, w, st. cbn [read_group app] in *. rewrite app_nil_r. repeat split; auto.
  - cbn [app] in Hr. inversion Hr as [| y0 sts0 s bits x literals r0 Hs Hrest Hy0 Hy1 Hy2]; subst; [cbn [length] in Hl; lia |].
    cbn [read_group]. rewrite <- app_assoc in HA. cbn [length] in *.
    destruct (read_literal_ok data fs y s bits x st (r0 ++ r) Hwf Ht Hs HA) as (st1 & E1 & HA1). rewrite E1. cbn [bind].
    unfold assert. destruct (N.ltb_spec index maximum_literals); [| lia]. cbn [bind].
    rewrite <- app_assoc in Hrest.
    destruct (IH (done ++ [x]) literals r0 (index + 1) st1 Hrest ltac:(lia) ltac:(lia) HA1)
      as (syms & nexts & lits' & w' & st' & E & -> & L1 & L2 & R' & HA'). rewrite E. cbn [bind].
    exists (s :: syms), (x :: nexts), lits', w', st'. cbn [length app]. rewrite <- app_assoc in R'. cbn [app] in R'. auto 10.
Qed.
Lemma read_groups_ok data fs r : wf_bytes data -> total fs <= 1024 -> forall n sts lits w index st,
  literal_run fs sts lits w -> length sts = 4%nat -> length lits = (4 * n)%nat ->
  index + 4 * N.of_nat n <= maximum_literals -> FAt data st (w ++ r) ->
  read_groups n data (table_of 10 0 fs) sts index st = Ok lits.
Proof.
  intros Hwf Ht. induction n as [| n IH]; intros sts lits w index st Hr H4 Hl Hi HA.
  - destruct lits; [reflexivity | discriminate].
  - cbn [read_groups]. rewrite <- (app_nil_r sts) in Hr.
    destruct (read_group_ok data fs r Hwf Ht sts [] lits w index st Hr ltac:(lia) ltac:(lia) HA)
      as (syms & nexts & lits' & w' & st' & E & -> & L1 & L2 & R' & HA'). rewrite E. cbn [bind].
    cbn [app] in R'. rewrite app_length in Hl.
    rewrite (IH nexts lits' w' (index + 4) st' R') by (auto; lia). reflexivity.
Qed.
Lemma padding_ok p : p <= 7 -> padding_of (Z.of_N (7 - p) - 7) = Ok p.
Proof.
  intros H. unfold padding_of, check. replace ((-32 <=? Z.of_N (7 - p) - 7) && (Z.of_N (7 - p) - 7 <=? 0))%Z with true.
  2:{ symmetry. apply andb_true_intro. split; lia. }
  cbn [bind]. f_equal. lia.
Qed.
Lemma bits_some : forall l : list bool, exists v, v < 2 ^ N.of_nat (length l) /\ l = bits_msb (length l) v.
Proof. intros l. destruct (bits_value_exists l) as (v & H & E). exists v. split; [exact H | symmetry; exact E]. Qed.
Lemma skip_padding data st (padding r : list bool) : wf_bytes data -> (length padding <= 32)%nat -> FAt data st (padding ++ r) ->
  exists v st', fs_value data (N.of_nat (length padding)) st = Ok (v, st') /\ FAt data st' r.
Proof.
  intros Hwf Hl HA. destruct (bits_some padding) as (v & Hv & E). rewrite E in HA.
  destruct (FAt_value data (length padding) v st r Hwf Hl Hv HA) as (st' & Ev & HA'). eauto.
Qed.
Lemma literal_symbols fs sts lits w : literal_run fs sts lits w -> length fs = 256%nat -> wf_bytes lits.
Proof.
  intros H L. induction H as [| y sts s bits x lits r Hs _ IH]; [constructor |]. constructor; [| exact IH].
  destruct Hs as (f & k & Hn & _). assert (N.to_nat s < length fs)%nat by (apply nth_error_Some; congruence).
  unfold byte_ok. lia.
Qed.
Lemma read_literals_ok data fs dec e padding w rest lits : wf_bytes data -> total fs <= 1024 -> e <= len data ->
  backwards (firstn (N.to_nat e) data) = padding ++ w ++ rest -> N.of_nat (length padding) <= 7 ->
  literal_run fs (literal_states dec) lits w -> length (literal_states dec) = 4%nat ->
  number_of_literals dec = len lits -> len lits <= 40000 -> len lits mod 4 = 0 ->
  literal_bits dec = (Z.of_N (7 - N.of_nat (length padding)) - 7)%Z ->
  read_literals data (table_of 10 0 fs) dec e = Ok lits.
Proof.
  intros Hwf Ht He Hb Hp Hr H4 Hn Hl Hm HB. unfold read_literals, check. rewrite Hn, HB, padding_ok by exact Hp.
  destruct (N.leb_spec (len lits) maximum_literals); [| unfold maximum_literals in *; lia]. cbn [bind].
  pose proof (FAt_start data e He) as HA. rewrite Hb in HA.
  destruct (skip_padding data _ padding (w ++ rest) Hwf ltac:(lia) HA) as (v & st & E & HA1). rewrite E. cbn [bind].
  set (q := len lits / 4). pose proof (N.div_mod (len lits) 4 ltac:(lia)) as D. fold q in D. rewrite Hm in D.
  assert (E4 : (len lits + 3) / 4 = q).
  { symmetry. apply N.div_unique with 3; lia. }
  rewrite E4. apply (read_groups_ok data fs rest Hwf Ht (N.to_nat q) _ _ w 0 st); auto; unfold len, maximum_literals in *; lia.
Qed.

(** ** Numbers *)
Definition value_entry (bt vt : list N) (t : N * N * N) : N * N * N * N :=
  let '(s, b, d) := t in (b + nth (N.to_nat s) bt 0, nth (N.to_nat s) bt 0, d, nth (N.to_nat s) vt 0).
Lemma value_entries_ok bt vt : forall t, Forall (fun '(s, _, _) => s < len bt /\ s < len vt) t ->
  value_entries bt vt t = Ok (map (value_entry bt vt) t).
Proof.
  induction 1 as [| [[s b] d] t [H1 H2] _ IH]; [reflexivity |]. cbn [value_entries map value_entry].
  rewrite (idx_ok bt s 0), (idx_ok vt s 0) by assumption. cbn [bind]. rewrite IH. reflexivity.
Qed.
Lemma table_symbols e fs : forall symbol, Forall (fun '(s, _, _) => s < symbol + N.of_nat (length fs)) (table_of e symbol fs).
Proof.
  induction fs as [| f fs IH]; intros symbol; [constructor |].
  unfold table_of. cbn [length seqN List.combine flat_map]. fold (table_of e (symbol + 1) fs). apply Forall_app. split.
  - apply Forall_map, Forall_forall. intros w _. unfold entry_of. lia.
  - eapply Forall_impl; [| apply IH]. intros [[s b] d] H. lia.
Qed.
Lemma build_value_table_ok e fs bt vt : e <= 10 -> total fs <= 2 ^ e -> length fs = length bt -> length fs = length vt ->
  build_value_table (2 ^ e) fs bt vt = Ok (map (value_entry bt vt) (table_of e 0 fs)).
Proof.
  intros He Ht L1 L2. unfold build_value_table. rewrite build_table_ok; [| exact He | lia | rewrite <- (N2Z.inj_pow 2); lia].
  cbn [bind]. apply value_entries_ok. eapply Forall_impl; [| apply table_symbols].
  intros [[s b] d] H. unfold len. lia.
Qed.

Definition tables_agree (extra bt vt : list N) : Prop :=
  forall s e, nth_error extra (N.to_nat s) = Some e -> nth (N.to_nat s) bt 0 = e /\ nth (N.to_nat s) vt 0 = base_value extra s /\ e <= 15.
Lemma agree_check extra bt vt :
  forallb (fun i => (nth i bt 0 =? nth i extra 0) && (nth i vt 0 =? base_value extra (N.of_nat i)) && (nth i extra 0 <=? 15)) (seq 0 (length extra)) = true ->
  tables_agree extra bt vt.
Proof.
  intros H s e Hn. rewrite forallb_forall in H.
  assert (L : (N.to_nat s < length extra)%nat) by (apply nth_error_Some; congruence).
  specialize (H (N.to_nat s) ltac:(apply in_seq; lia)). rewrite (nth_error_nth _ _ 0 Hn), N2Nat.id in H.
  apply andb_prop in H as [H H3]. apply andb_prop in H as [H1 H2].
  apply N.eqb_eq in H1, H2. apply N.leb_le in H3. auto.
Qed.
Lemma agree_l : tables_agree l_extra l_bits_table l_base_table.
Proof. apply agree_check. vm_compute. reflexivity. Qed.
Lemma agree_m : tables_agree m_extra m_bits_table m_base_table.
Proof. apply agree_check. vm_compute. reflexivity. Qed.
Lemma agree_d : tables_agree d_extra d_bits_table d_base_table.
Proof. apply agree_check. vm_compute. reflexivity. Qed.

Lemma read_number_ok data e fs extra bt vt y v bits x st r : wf_bytes data -> e <= 10 -> total fs <= 2 ^ e ->
  tables_agree extra bt vt -> number_step (2 ^ e) fs extra y v bits x -> FAt data st (bits ++ r) ->
  exists st', read_lmd_value data (map (value_entry bt vt) (table_of e 0 fs)) (2 ^ e) y st = Ok (v, x, st') /\ FAt data st' r.
Proof.
  intros Hwf He Ht Ha (s & sb & x0 & n & Hs & Hn & Hlt & -> & ->) HA.
  destruct (step_entry e fs y s sb x He Ht Hs) as (k & delta & q & E & Hk & Hke & -> & Hq & Hx & Hy & Hx2 & Hl).
  destruct (Ha s x0 Hn) as (B1 & B2 & B3).
  unfold read_lmd_value, check. destruct (N.leb_spec y (2 ^ e)); [| lia]. cbn [bind].
  rewrite nth_error_map, E. cbn [option_map of_option value_entry bind]. rewrite B1, B2.
  assert (EB : bits_msb k q ++ bits_msb (N.to_nat x0) n = bits_msb (k + N.to_nat x0) (q * 2 ^ N.of_nat (N.to_nat x0) + n)).
  { symmetry. apply bits_msb_cat. rewrite N2Nat.id. exact Hlt. }
  rewrite N2Nat.id in EB. rewrite EB in HA.
  destruct (FAt_value data (k + N.to_nat x0) (q * 2 ^ x0 + n) st r Hwf ltac:(lia)) as (st' & Ev & HA'); [| exact HA |].
  { rewrite Nat2N.inj_add, N2Nat.id, N.pow_add_r. clear - Hq Hlt. nia. }
  replace (N.of_nat (k + N.to_nat x0)) with (N.of_nat k + x0) in Ev by lia. rewrite Ev. cbn [bind].
  exists st'. split; [| exact HA']. rewrite N.land_ones, N.shiftr_div_pow2.
  pose proof (pow2_pos x0) as P0.
  rewrite N.div_add_l, (N.div_small n) by (try exact Hlt; lia). rewrite N.add_0_r, Hx.
  rewrite (N.add_comm (q * _)), N.mod_add, N.mod_small by (try exact Hlt; lia). reflexivity.
Qed.

(** ** Triples *)
Lemma copy_literals_ok lits : forall n index out rest, (N.to_nat index + n <= length lits)%nat -> len lits <= 40000 -> (n <= length rest)%nat ->
  copy_literals n lits (out ++ rest) index (len out) = Ok ((out ++ firstn n (skipn (N.to_nat index) lits)) ++ skipn n rest).
Proof.
  induction n as [| n IH]; intros index out rest Hi Hl Hr.
  - cbn [copy_literals firstn skipn]. now rewrite app_nil_r.
  - cbn [copy_literals]. unfold literal_at. destruct (N.ltb_spec index maximum_literals); [| unfold maximum_literals, len in *; lia].
    cbn [bind]. destruct rest as [| x rest]; [cbn [length] in Hr; lia |].
    rewrite Lz_proofs.upd_end. cbn [bind]. set (v := nth (N.to_nat index) lits 0).
    replace (out ++ v :: rest) with ((out ++ [v]) ++ rest) by now rewrite <- app_assoc.
    replace (len out + 1) with (len (out ++ [v])) by now rewrite len_app.
    rewrite IH by (cbn [length] in Hr; lia).
    replace (N.to_nat (index + 1)) with (S (N.to_nat index)) by lia.
    assert (ES : skipn (N.to_nat index) lits = v :: skipn (S (N.to_nat index)) lits).
    { unfold v. clear - Hi. revert Hi. generalize (N.to_nat index). intros i Hi.
      assert (H : (i < length lits)%nat) by lia. clear Hi. revert i H.
      induction lits as [| a l IHl]; intros [| i] H; cbn [length] in H; try lia; [reflexivity |].
      cbn [skipn nth]. now rewrite (IHl i) by lia. }
    rewrite ES. cbn [firstn skipn]. do 2 f_equal. now rewrite <- app_assoc.
Qed.
Lemma not_more m remaining : m <= remaining -> remaining < 2 ^ 31 -> more_than_i32 m remaining = false.
Proof.
  intros H1 H2. unfold more_than_i32. change two32 with (2 ^ 32). rewrite N.mod_small.
  2:{ eapply N.lt_trans; [exact H2 | reflexivity]. }
  unfold to_signed. change (2 ^ (8 * 4 - 1)) with (2 ^ 31). destruct (N.ltb_spec remaining (2 ^ 31)); [| lia].
  apply Z.ltb_ge. lia.
Qed.

Lemma triples_grow ts : forall out d lits after, triples_meaning out d lits ts = Some after -> exists w, after = out ++ w.
Proof.
  induction ts as [| [[l m] d0] ts IH]; intros out d lits after H; cbn [triples_meaning] in H.
  - injection H as <-. exists []. now rewrite app_nil_r.
  - match type of H with (if ?c then _ else _) = _ => destruct c; [| discriminate] end.
    apply IH in H as (w & ->).
    assert (G : forall o dd n, exists w, lz_copy o dd n = o ++ w).
    { clear. intros o dd n. revert o. induction n as [| n IHn]; intros o; cbn [lz_copy]; [exists []; now rewrite app_nil_r |].
      destruct (IHn (o ++ [nth (length o - N.to_nat dd) o 0])) as (w & ->). eexists. now rewrite <- app_assoc. }
    destruct (G (out ++ firstn (N.to_nat l) lits) (if d0 =? 0 then d else d0) (N.to_nat m)) as (w' & ->).
    eexists. now rewrite <- !app_assoc.
Qed.

Lemma lmd_loop_ok data fl fm fd r lits : wf_bytes data -> total fl <= 64 -> total fm <= 64 -> total fd <= 256 -> len lits <= 40000 ->
  forall ts yl ym yd w st distance index out rest after,
  triple_run fl fm fd yl ym yd ts w -> FAt data st (w ++ r) -> index <= len lits ->
  triples_meaning out distance (skipn (N.to_nat index) lits) ts = Some after ->
  len after <= len out + len rest -> len out + len rest < 2 ^ 31 ->
  lmd_loop (length ts) data (map (value_entry l_bits_table l_base_table) (table_of 6 0 fl))
    (map (value_entry m_bits_table m_base_table) (table_of 6 0 fm))
    (map (value_entry d_bits_table d_base_table) (table_of 8 0 fd)) lits yl ym yd st distance index (out ++ rest) (len out) =
  Ok (after ++ skipn (length after - length out) rest, len after).
Proof.
  intros Hwf Hl Hm Hd HL. induction ts as [| [[l m] d] ts IH]; intros yl ym yd w st distance index out rest after Hr HA Hi HM Hle Hlt.
  - cbn [triples_meaning] in HM. injection HM as <-. cbn [lmd_loop length]. rewrite Nat.sub_diag. reflexivity.
  - inversion Hr as [| a1 a2 a3 a4 a5 a6 bl bm bd xl xm xd ts0 w0 S1 S2 S3 HR]; subst.
    rewrite <- !app_assoc in HA. cbn [length]. 
    change 64 with (2 ^ 6) in S1, S2, Hl, Hm. change 256 with (2 ^ 8) in S3, Hd.
    destruct (read_number_ok data 6 fl l_extra _ _ _ _ _ _ st _ Hwf ltac:(lia) Hl agree_l S1 HA) as (st1 & E1 & A1).
    destruct (read_number_ok data 6 fm m_extra _ _ _ _ _ _ st1 _ Hwf ltac:(lia) Hm agree_m S2 A1) as (st2 & E2 & A2).
    destruct (read_number_ok data 8 fd d_extra _ _ _ _ _ _ st2 _ Hwf ltac:(lia) Hd agree_d S3 A2) as (st3 & E3 & A3).
    change (2 ^ 6) with 64 in *. change (2 ^ 8) with 256 in *.
    cbn [lmd_loop]. rewrite E1. cbn [bind]. rewrite E2. cbn [bind]. rewrite E3. cbn [bind]. clear E1 E2 E3 A1 A2 HA S1 S2 S3.
    cbn [triples_meaning] in HM. set (dist := if d =? 0 then distance else d) in *.
    set (out1 := out ++ firstn (N.to_nat l) (skipn (N.to_nat index) lits)) in *.
    match type of HM with (if ?c then _ else _) = _ => destruct c eqn:EC; [| discriminate] end.
    apply andb_prop in EC as [EC C3]. apply andb_prop in EC as [C1 C2]. apply N.leb_le in C1, C2.
    rewrite skipn_length in C1.
    destruct (triples_grow _ _ _ _ _ HM) as (w' & EW).
    assert (Lo1 : len out1 = len out + l).
    { unfold out1. rewrite len_app. unfold len at 2. rewrite firstn_length, skipn_length. lia. }
    assert (La : len after = len out + l + m + len w').
    { rewrite EW, len_app, len_lz_copy, Lo1. lia. }
    fold (len out1) in C2. rewrite len_app.
    unfold sub_chk at 1. destruct (N.leb_spec (len out) (len out + len rest)); [| lia]. cbn [bind].
    replace (len out + len rest - len out) with (len rest) by lia.
    assert (K1 : l <= N.min (maximum_literals - 1) (len rest)).
    { unfold maximum_literals, len in *. lia. }
    unfold check at 1. destruct (N.leb_spec l (N.min (maximum_literals - 1) (len rest))) as [_ | ?]; [| lia]. cbn [bind].
    unfold check at 1. destruct (N.leb_spec (index + l) maximum_literals) as [_ | K2]; [| unfold maximum_literals, len in *; lia]. cbn [bind].
    rewrite copy_literals_ok by (unfold len in *; lia). cbn [bind]. fold out1.
    unfold sub_chk at 1. destruct (N.leb_spec l (len rest)) as [_ | ?]; [| lia]. cbn [bind].
    rewrite not_more by lia. cbn [negb check bind]. rewrite <- Lo1.
    unfold check at 1. destruct (N.leb_spec dist (len out1)) as [_ | ?]; [| lia]. cbn [bind].
    unfold sub_chk at 1. destruct (N.leb_spec dist (len out1)) as [_ | ?]; [| lia]. cbn [bind].
    assert (EQ : copy_loop (N.to_nat m) (out1 ++ skipn (N.to_nat l) rest) (len out1) (len out1 - dist) =
      Ok (lz_copy out1 dist (N.to_nat m) ++ skipn (N.to_nat m) (skipn (N.to_nat l) rest))).
    { destruct (N.eq_dec m 0) as [-> |]; [reflexivity |]. apply orb_prop in C3 as [C3 | C3]; [apply N.leb_le in C3 | apply N.eqb_eq in C3; lia].
      apply copy_end; [lia |]. rewrite skipn_length. unfold len in *. lia. }
    rewrite EQ. cbn [bind]. clear EQ.
    replace (len out1 + m) with (len (lz_copy out1 dist (N.to_nat m))) by (rewrite len_lz_copy; lia).
    rewrite skipn_skipn in *.
    replace (N.to_nat l + N.to_nat index)%nat with (N.to_nat (index + l)) in HM by lia.
    assert (LR : len (skipn (N.to_nat m + N.to_nat l) rest) = len rest - l - m) by (rewrite len_skipn; lia).
    rewrite (IH xl xm xd w0 st3 dist (index + l) _ _ after HR A3).
    + do 3 f_equal. rewrite skipn_skipn. f_equal. unfold len in *. rewrite lz_copy_length. lia.
    + unfold len in *. lia.
    + exact HM.
    + rewrite len_lz_copy, Lo1, LR. lia.
    + rewrite len_lz_copy, Lo1, LR. lia.
Qed.
