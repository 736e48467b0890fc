From Verif Require Import Base BaseLemmas Lz_model Lz_spec Lz_proofs Lzvn_proofs.
From Verif Require Import Huffman_model Huffman_spec Huffman_proofs Bzip2_proofs Bytes_model.
From Verif Require Deflate_proofs.
From Verif Require Import P_C09 Lzx_model Lzx_spec Lzx_proofs Lzx2_proofs Lzx3_proofs Lzx4_proofs.
Ltac Zify.zify_post_hook ::= idtac.

(** ** Blocks of any stream *)
(** What a run does that writes behind [out], where [n] bytes are free, whatever is in them. *)
Definition xout (data : list N) (o : N) (z : bool) (out : list N) (n : nat)
    (run : list N -> res (list N * list N * N * lzx_stream)) : Prop :=
  (forall rest, length rest = n -> run rest = Err) \/
  exists w l s', (length w <= n)%nat /\ (wf_bytes out -> wf_bytes w) /\ recents_ok l /\ G data o z O s' /\
    forall rest, length rest = n -> run rest = Ok ((out ++ w) ++ skipn (length w) rest, l, len (out ++ w), s').

Lemma xout_write data o z out n a run run' : (length a <= n)%nat -> (wf_bytes out -> wf_bytes a) ->
  (forall rest, length rest = n -> run' rest = run (skipn (length a) rest)) ->
  xout data o z (out ++ a) (n - length a) run -> xout data o z out n run'.
Proof.
  intros La Wa E [H | (w & l & s' & Lw & Ww & R & Gs & H)].
  - left. intros rest Hr. rewrite E by exact Hr. apply H. rewrite skipn_length. lia.
  - right. exists (a ++ w), l, s'. rewrite app_length. split; [lia |]. split.
    { intros Ho. apply wf_bytes_app. split; [auto |]. apply Ww, wf_bytes_app. auto. }
    split; [exact R |]. split; [exact Gs |]. intros rest Hr. rewrite E by exact Hr.
    rewrite H by (rewrite skipn_length; lia). rewrite skipn_skipn, <- !app_assoc. 
    replace (length w + length a)%nat with (length a + length w)%nat by lia. reflexivity.
Qed.

Lemma huffman_block_any data o z lcs mcs lit mat at_ last : wf_bytes data -> tree_for lcs 16 lit -> len lcs = 496 ->
  tree_for mcs 16 mat -> aligned_any at_ -> forall fuel out n l s, G data o z O s -> recents_ok l -> (n < fuel)%nat ->
  xout data o z out n (fun rest => lzx_huffman_block fuel data lit mat at_ last (out ++ rest) l (len out) s).
Proof.
  intros Hwf Tl Ll Tm Ta. induction fuel as [| fuel IH]; intros out n l s Hs Hr Hn; [lia |].
  cbn [lzx_huffman_block]. destruct (N.ltb_spec (len out) last) as [Hlast | Hlast].
  2:{ right. exists [], l, s. split; [cbn; lia |]. split; [constructor |]. split; [exact Hr |]. split; [exact Hs |].
      intros. rewrite app_nil_r. reflexivity. }
  destruct (G_symbol _ _ _ _ _ _ _ Hwf Tl Hs) as [E | (sym & s1 & E & Hsym & G1)]; rewrite E; cbn [bind]; [now left |].
  destruct (N.ltb_spec sym 256) as [H256 | H256].
  - destruct n as [| n].
    + left. intros [|] Hl; [| discriminate Hl]. rewrite app_nil_r. destruct (N.ltb_spec (len out) (len out)); [lia | reflexivity].
    + apply xout_write with (a := [sym])
        (run := fun rest => lzx_huffman_block fuel data lit mat at_ last ((out ++ [sym]) ++ rest) l (len (out ++ [sym])) s1).
      * cbn; lia.
      * intros _. constructor; [assumption | constructor].
      * intros [| x rest] Hx; [discriminate Hx |]. rewrite len_app, len_cons.
        destruct (N.ltb_spec (len out) (len out + (len rest + 1))); [| lia]. cbn [check bind].
        rewrite Lz_proofs.upd_end. cbn [bind length skipn]. rewrite <- app_assoc, len_app. reflexivity.
      * apply IH; auto. cbn; lia.
  - match goal with |- context [bind ?m _] => assert (Hsize : m = Err \/ exists more s2, m = Ok (more, s2) /\ G data o z O s2) end.
    { destruct (sym mod 8 =? 7); [| right; eauto].
      destruct (G_symbol _ _ _ _ _ _ _ Hwf Tm G1) as [E2 | (more & s2 & E2 & _ & G2)]; rewrite E2; cbn [bind]; [now left | right; eauto]. }
    destruct Hsize as [-> | (more & s2 & -> & G2)]; cbn [bind]; [now left |].
    assert (Hslot : (sym - 256) / 8 < 30) by (apply N.div_lt_upper_bound; lia).
    destruct (distance_any data o z at_ _ l s2 Hwf Ta Hslot Hr G2) as [E3 | (d & l' & s3 & E3 & Hd & Hr' & G3)];
      rewrite E3; cbn [bind]; [now left |].
    destruct (N.leb_spec d (len out)); cbn [check bind]; [| now left].
    set (size := more + 2). assert (Hsz : 2 <= size) by (unfold size; lia). clearbody size.
    destruct (Nat.leb_spec (N.to_nat size) n) as [Hroom | Hroom].
    + destruct (lz_copy_grows d (N.to_nat size) out) as (w & Ew & Lw).
      apply xout_write with (a := w)
        (run := fun rest => lzx_huffman_block fuel data lit mat at_ last ((out ++ w) ++ rest) l' (len (out ++ w)) s3).
      * lia.
      * intros Ho. assert (Hw : wf_bytes (out ++ w)) by (rewrite <- Ew; apply Deflate_proofs.lz_copy_wf, Ho).
        now apply wf_bytes_app in Hw.
      * intros rest Hl. rewrite len_app. unfold sub_chk at 1.
        destruct (N.leb_spec (len out) (len out + len rest)); [| lia]. cbn [bind].
        destruct (N.leb_spec size (len out + len rest - len out)) as [_ | Hx]; [| unfold len in Hx; lia].
        cbn [check bind]. unfold sub_chk. destruct (N.leb_spec d (len out)); [| lia]. cbn [bind].
        rewrite copy_end by lia. cbn [bind]. rewrite Ew, Lw, len_app.
        replace (len w) with size by (unfold len; lia). reflexivity.
      * apply IH; auto. lia.
    + left. intros rest Hl. rewrite len_app. unfold sub_chk at 1.
      destruct (N.leb_spec (len out) (len out + len rest)); [| lia]. cbn [bind].
      destruct (N.leb_spec size (len out + len rest - len out)) as [Hx | _]; [unfold len in Hx; lia | reflexivity].
Qed.

Definition bout (data : list N) (P : lzx_stream -> Prop) (out : list N) (n : nat) (run : list N -> res lzx_state) : Prop :=
  (forall rest, length rest = n -> run rest = Err) \/
  exists w l lits mats s', (length w <= n)%nat /\ (wf_bytes out -> wf_bytes w) /\ recents_ok l /\
    len lits = 496 /\ len mats = 249 /\ inv data s' /\ P s' /\
    forall rest, length rest = n ->
      run rest = Ok (mk_lzx_state ((out ++ w) ++ skipn (length w) rest) (len (out ++ w)) l lits mats s').

Lemma G_here data o z m s : G data o z m s -> G data (x_offset s) z m s.
Proof. intros (A & B & C). split; [exact A |]. split; [lia | exact C]. Qed.

Lemma coded_any data o z m ty size out n l lits mats s0 s : wf_bytes data -> (m <= 24)%nat -> G data o z m s ->
  recents_ok l -> len lits = 496 -> len mats = 249 ->
  bout data (fun s' => z = false /\ x_offset s <= x_offset s' /\ (x_offset s + 2 <= len data -> x_offset s < x_offset s')) out n
    (fun rest => lzx_coded_block data ty size (mk_lzx_state (out ++ rest) (len out) l lits mats s0) s).
Proof.
  intros Hwf Hm Hs Hr Hl1 Hl2. unfold lzx_coded_block. cbn [lx_literals lx_matches lx_buffer lx_offset lx_recent].
  match goal with |- context [bind ?m0 _] => assert (Hal : m0 = Err \/ exists at_ s1 m1, m0 = Ok (at_, s1) /\ aligned_any at_ /\
    G data (x_offset s) z m1 s1 /\ (m1 <= 80)%nat) end.
  { destruct (ty =? 2).
    - destruct (values_G data 3 Hwf ltac:(lia) 8 s _ z m (G_here _ _ _ _ _ Hs)) as (a & s1 & E1 & L1 & G1 & _). rewrite E1. cbn [bind].
      destruct (build_any 256 16 a) as [E | (t & E & T)]; [lia | unfold len; lia | |]; rewrite E; cbn [bind]; [now left |].
      right. exists (Some t), s1, (m - 8 * N.to_nat 3)%nat. split; [reflexivity |].
      split; [exists a; split; [unfold len; lia | exact T] |]. split; [exact G1 | lia].
    - right. exists None, s, m. split; [reflexivity |]. split; [exact I |]. split; [eapply G_here; eassumption | lia]. }
  destruct Hal as [-> | (at_ & s1 & m1 & -> & Ta & G1 & Hm1)]; cbn [bind]; [now left |].
  rewrite !slice_ok by lia. cbn [bind].
  set (l1 := firstn (N.to_nat (256 - 0)) (skipn (N.to_nat 0) lits)). set (l2 := firstn (N.to_nat (496 - 256)) (skipn (N.to_nat 256) lits)).
  assert (Ll1 : len l1 = 256) by (subst l1; unfold len in *; rewrite firstn_length, skipn_length; lia).
  assert (Ll2 : len l2 = 240) by (subst l2; unfold len in *; rewrite firstn_length, skipn_length; lia). clearbody l1 l2.
  destruct (code_sizes_any data _ z m1 l1 256 s1 Hwf Hm1 Ll1 (G_here _ _ _ _ _ G1)) as [E2 | (c1 & s2 & E2 & L2 & G2 & _ & P2)];
    rewrite E2; cbn [bind]; [now left |].
  destruct (code_sizes_any data _ z O l2 240 s2 Hwf ltac:(lia) Ll2 (G_here _ _ _ _ _ G2)) as [E3 | (c2 & s3 & E3 & L3 & G3 & Z3 & _)];
    rewrite E3; cbn [bind]; [now left |].
  assert (Hz : z = false) by (destruct z; [now destruct (Z3 eq_refl) | reflexivity]).
  assert (Lc : len (c1 ++ c2) = 496) by (rewrite len_app; lia).
  destruct (build_any 496 16 (c1 ++ c2)) as [E4 | (tl & E4 & T4)]; [lia | lia | |]; rewrite E4; cbn [bind]; [now left |].
  destruct (code_sizes_any data _ z O mats 249 s3 Hwf ltac:(lia) Hl2 (G_here _ _ _ _ _ G3)) as [E5 | (c3 & s4 & E5 & L5 & G5 & _)];
    rewrite E5; cbn [bind]; [now left |].
  destruct (build_any 249 16 c3) as [E6 | (tm & E6 & T6)]; [lia | lia | |]; rewrite E6; cbn [bind]; [now left |].
  pose proof (huffman_block_any data _ z (c1 ++ c2) c3 tl tm at_ (len out + size) Hwf T4 Lc T6 Ta
    (S (S n)) out n l s4 (G_here _ _ _ _ _ G5) Hr ltac:(lia)) as HB.
  assert (Ef : forall rest, length rest = n -> lzx_fuel (out ++ rest) (len out) = S (S n)).
  { intros rest Hrest. unfold lzx_fuel. rewrite app_length. unfold len. lia. }
  destruct HB as [HB | (w & l' & s5 & Lw & Ww & R5 & G6 & HB)].
  - left. intros rest Hrest. rewrite Ef by exact Hrest. rewrite HB by exact Hrest. reflexivity.
  - right. exists w, l', (c1 ++ c2), c3, s5. split; [exact Lw |]. split; [exact Ww |]. split; [exact R5 |].
    split; [exact Lc |]. split; [exact L5 |]. split; [apply G6 |]. split.
    + destruct G1 as (_ & A1 & _), G2 as (_ & A2 & _), G3 as (_ & A3 & _), G5 as (_ & A5 & _), G6 as (_ & A6 & _).
      split; [exact Hz |]. split; [lia |]. intros Hd.
      destruct (N.lt_ge_cases (x_offset s) (x_offset s1)) as [H1 | H1]; [lia |].
      replace (x_offset s1) with (x_offset s) in P2 by lia. specialize (P2 Hd). lia.
    + intros rest Hrest. rewrite Ef by exact Hrest. rewrite HB by exact Hrest. reflexivity.
Qed.

Lemma uncompressed_any data size out n l lits mats s0 s : wf_bytes data -> inv data s -> len lits = 496 -> len mats = 249 ->
  bout data (fun s' => x_offset s + 2 <= len data /\ x_offset s < x_offset s') out n
    (fun rest => lzx_uncompressed_block data size (mk_lzx_state (out ++ rest) (len out) l lits mats s0) s).
Proof.
  intros Hwf (I1 & I2 & I3) Hl1 Hl2. unfold lzx_uncompressed_block. set (o := x_offset s) in *.
  unfold sub_chk. destruct (N.leb_spec o (len data)); [| lia]. cbn [bind].
  destruct (N.leb_spec 12 (len data - o)); cbn [check bind]; [| now left].
  unfold u32_le_at. rewrite !slice_ok by lia. cbn [bind].
  repeat match goal with |- context [le_value ?v] => let r := fresh "r" in set (r := le_value v) end.
  destruct (N.eqb_spec r 0); cbn [negb check bind]; [now left |].
  destruct (N.eqb_spec r0 0); cbn [negb check bind]; [now left |].
  destruct (N.eqb_spec r1 0); cbn [negb check bind]; [now left |].
  cbn [x_offset]. destruct (N.leb_spec (o + 12) (len data)); [| lia]. cbn [bind].
  set (k := N.min size (len data - (o + 12))). assert (Hk : o + 12 + k <= len data) by (unfold k; lia). clearbody k.
  unfold x_copy_bytes. cbn [x_offset lx_buffer lx_offset lx_literals lx_matches].
  destruct (N.leb_spec (o + 12 + k) (len data)); [| lia]. cbn [check bind].
  destruct (N.leb_spec k (N.of_nat n)) as [Hn | Hn].
  - right. rewrite slice_ok by lia. cbn [bind].
    set (w := firstn (N.to_nat (o + 12 + k - (o + 12))) (skipn (N.to_nat (o + 12)) data)).
    assert (Lw : len w = k) by (subst w; unfold len in *; rewrite firstn_length, skipn_length; lia).
    assert (Ww : wf_bytes w) by (apply wf_bytes_firstn, wf_bytes_skipn, Hwf). clearbody w.
    exists w, [r; r0; r1], lits, mats, (mk_lzx (o + 12 + k) 0 0).
    split; [unfold len in Lw; lia |]. split; [auto |]. split; [exists r, r0, r1; repeat split; lia |].
    split; [exact Hl1 |]. split; [exact Hl2 |]. split; [repeat split; cbn [x_offset x_count x_bits]; lia |].
    split; [cbn [x_offset]; lia |]. intros rest Hrest. rewrite len_app.
    destruct (N.leb_spec (len out + k) (len out + len rest)) as [_ | Hx]; [| unfold len in Hx; lia]. cbn [check bind].
    rewrite write_end by (unfold len in *; lia). cbn [bind]. rewrite len_app, Lw, <- app_assoc. reflexivity.
  - left. intros rest Hrest. rewrite len_app.
    destruct (N.leb_spec (len out + k) (len out + len rest)) as [Hx | _]; [unfold len in Hx; lia |]. reflexivity.
Qed.

Lemma block_any data out n l lits mats s : wf_bytes data -> inv data s -> recents_ok l -> len lits = 496 -> len mats = 249 ->
  bout data (fun s' => x_offset s < x_offset s') out n
    (fun rest => lzx_block data (mk_lzx_state (out ++ rest) (len out) l lits mats s)).
Proof.
  intros Hwf Hi Hr Hl1 Hl2. unfold lzx_block. cbn [lx_stream].
  set (z := len data <? x_offset s + 2).
  assert (Hs : G data (x_offset s) z 15 s).
  { split; [exact Hi |]. split; [lia |]. unfold z. intros Hz. apply N.ltb_lt in Hz. split; [exact Hz |].
    rewrite skipn_all2; [constructor |]. unfold left_bits. rewrite word_bits_short by exact Hz.
    rewrite app_nil_r, bits_msb_length. destruct Hi as (_ & Hc & _). lia. }
  destruct (G_get data _ z 15 3 s Hwf ltac:(lia) Hs) as (ty & s1 & E1 & _ & _ & G1 & _). rewrite E1. cbn [bind].
  destruct (G_get data _ z _ 1 s1 Hwf ltac:(lia) G1) as (flag & s2 & E2 & _ & _ & G2 & _). rewrite E2. cbn [bind].
  assert (H3 : exists size s3 m3, (if flag =? 0 then x_get_value data 16 s2 else Ok (32768, s2)) = Ok (size, s3) /\
    G data (x_offset s) z m3 s3 /\ (m3 <= 24)%nat).
  { destruct (flag =? 0).
    - destruct (G_get data _ z _ 16 s2 Hwf ltac:(lia) G2) as (v & s3 & E3 & _ & _ & G3 & _). eexists _, _, _. split; [exact E3 |]. split; [exact G3 | lia].
    - eexists _, _, _. split; [reflexivity |]. split; [exact G2 | lia]. }
  destruct H3 as (size & s3 & m3 & E3 & G3 & Hm3). rewrite E3. cbn [bind].
  pose proof G3 as (I3 & O3 & _).
  destruct ((ty =? 1) || (ty =? 2)).
  - destruct (coded_any data _ z m3 ty size out n l lits mats s s3 Hwf Hm3 G3 Hr Hl1 Hl2) as [H | (w & l' & li & ma & s' & A1 & A2 & A3 & A4 & A5 & A6 & (Hz & A7 & A8) & A9)]; [now left |].
    right. exists w, l', li, ma, s'. repeat match goal with |- _ /\ _ => split end; auto.
    unfold z in Hz. apply N.ltb_ge in Hz.
    destruct (N.lt_ge_cases (x_offset s) (x_offset s3)); [lia |]. replace (x_offset s3) with (x_offset s) in A8 by lia. specialize (A8 Hz). lia.
  - destruct (ty =? 3); [| now left].
    destruct (uncompressed_any data size out n l lits mats s s3 Hwf I3 Hl1 Hl2) as [H | (w & l' & li & ma & s' & A1 & A2 & A3 & A4 & A5 & A6 & (A7 & A8) & A9)]; [now left |].
    right. exists w, l', li, ma, s'. repeat match goal with |- _ /\ _ => split end; auto. lia.
Qed.

Lemma blocks_any data : wf_bytes data -> forall fuel out n l lits mats s, inv data s -> recents_ok l -> len lits = 496 -> len mats = 249 ->
  (N.to_nat (len data - x_offset s) < fuel)%nat ->
  bout data (fun _ => True) out n (fun rest => lzx_blocks fuel data (mk_lzx_state (out ++ rest) (len out) l lits mats s)).
Proof.
  intros Hwf. induction fuel as [| fuel IH]; intros out n l lits mats s Hi Hr Hl1 Hl2 Hf; [lia |].
  cbn [lzx_blocks lx_stream lx_buffer lx_offset].
  assert (Stop : bout data (fun _ => True) out n (fun rest => Ok (mk_lzx_state (out ++ rest) (len out) l lits mats s))).
  { right. exists [], l, lits, mats, s. split; [cbn; lia |]. split; [constructor |].
    repeat match goal with |- _ /\ _ => split end; auto. intros. rewrite app_nil_r. reflexivity. }
  destruct (N.ltb_spec (x_offset s) (len data)) as [Hd | Hd]; [| exact Stop].
  assert (Full : forall rest, length rest = n -> (len (out ++ rest) <=? len out) = (n =? 0)%nat).
  { intros rest Hrest. rewrite len_app. unfold len. rewrite Hrest. destruct (Nat.eqb_spec n 0), (N.leb_spec (N.of_nat (length out) + N.of_nat n) (N.of_nat (length out))); lia. }
  destruct (n =? 0)%nat eqn:En.
  { destruct Stop as [H | H].
    - left. intros rest Hrest. rewrite Full by exact Hrest. apply H, Hrest.
    - right. destruct H as (w & l' & li & ma & s' & A1 & A2 & A3 & A4 & A5 & A6 & A7 & A9).
      exists w, l', li, ma, s'. repeat match goal with |- _ /\ _ => split end; auto.
      intros rest Hrest. rewrite Full by exact Hrest. apply A9, Hrest. }
  destruct (block_any data out n l lits mats s Hwf Hi Hr Hl1 Hl2) as [H | (w & l' & li & ma & s' & A1 & A2 & A3 & A4 & A5 & A6 & A7 & A9)].
  - left. intros rest Hrest. rewrite Full, H by exact Hrest. reflexivity.
  - destruct (IH (out ++ w) (n - length w)%nat l' li ma s' A6 A3 A4 A5) as [H | (w2 & l2 & li2 & ma2 & s2 & B1 & B2 & B3 & B4 & B5 & B6 & B7 & B9)].
    + destruct Hi as (I1 & _). destruct A6 as (I6 & _). lia.
    + left. intros rest Hrest. rewrite Full, A9 by exact Hrest. cbn [bind]. apply H. rewrite skipn_length. lia.
    + right. exists (w ++ w2), l2, li2, ma2, s2. rewrite app_length. split; [lia |]. split.
      { intros Ho. apply wf_bytes_app. split; [auto |]. apply B2, wf_bytes_app. auto. }
      repeat match goal with |- _ /\ _ => split end; auto.
      intros rest Hrest. rewrite Full, A9 by exact Hrest. cbn [bind].
      rewrite B9 by (rewrite skipn_length; lia). rewrite skipn_skipn, <- !app_assoc.
      replace (length w2 + length w)%nat with (length w + length w2)%nat by lia. reflexivity.
Qed.

(** ** Call instructions of any output *)
Lemma split5 (l : list N) p : p + 5 <= len l ->
  exists pre b f tl, l = pre ++ b :: f ++ tl /\ len pre = p /\ length f = 4%nat.
Proof.
  intros H. exists (firstn (N.to_nat p) l). unfold len in *.
  destruct (skipn (N.to_nat p) l) as [| b r] eqn:E; [apply (f_equal (@length N)) in E; rewrite skipn_length in E; cbn [length] in E; lia |].
  exists b, (firstn 4 r), (skipn 4 r). rewrite firstn_skipn, <- E, firstn_skipn. split; [reflexivity |].
  rewrite !firstn_length. apply (f_equal (@length N)) in E. rewrite skipn_length in E. cbn [length] in E. lia.
Qed.
Lemma adjust_any size : 6 <= size < 2 ^ 31 -> forall fuel l p, len l = size -> (N.to_nat (size - p) < fuel)%nat ->
  exists l', length l' = length l /\ (wf_bytes l -> wf_bytes l') /\
    forall rest, adjust_loop fuel (l ++ rest) size p = Ok (l' ++ rest).
Proof.
  intros Hs. induction fuel as [| fuel IH]; intros l p Hl Hf; [lia |].
  cbn [adjust_loop]. unfold sub_chk. destruct (N.leb_spec 6 size); [| lia]. cbn [bind].
  destruct (N.ltb_spec p (size - 6)) as [Hp | Hp]; [| exists l; auto].
  destruct (split5 l p ltac:(lia)) as (pre & b & f & tl & -> & Lp & Lf).
  assert (Ei : forall rest, idx ((pre ++ b :: f ++ tl) ++ rest) p = Ok b).
  { intros rest. rewrite <- app_assoc, <- Lp. apply idx_app_l. }
  destruct (N.eqb_spec b 232) as [-> | Hb].
  2:{ destruct (IH (pre ++ b :: f ++ tl) (p + 1) Hl ltac:(lia)) as (l' & A & B & C). exists l'. split; [exact A |]. split; [exact B |].
      intros rest. rewrite Ei. cbn [bind]. destruct (N.eqb_spec b 232); [contradiction |]. apply C. }
  set (pre1 := pre ++ [232]). assert (L1 : len pre1 = p + 1) by (subst pre1; rewrite len_app, Lp; reflexivity).
  assert (El : forall g rest, (pre ++ 232 :: g ++ tl) ++ rest = pre1 ++ g ++ tl ++ rest).
  { intros g rest. subst pre1. rewrite <- !app_assoc. cbn [app]. rewrite <- app_assoc. reflexivity. }
  assert (Es : forall rest, u32_le_at (pre1 ++ f ++ tl ++ rest) (p + 1) = Ok (le_value f)).
  { intros rest. unfold u32_le_at. rewrite <- L1.
    destruct (slice_prefix (pre1 ++ f ++ tl ++ rest) (len pre1) f (tl ++ rest)) as (_ & Sl & _).
    { unfold len. rewrite Nat2N.id, skipn_app, skipn_all, Nat.sub_diag. reflexivity. }
    { rewrite len_app. lia. }
    replace (len f) with 4 in Sl by (unfold len; rewrite Lf; reflexivity). rewrite Sl. reflexivity. }
  set (a := to_signed 4 (le_value f)) in *.
  assert (Ep : i32_chk (- Z.of_N p) = Ok (- Z.of_N p)%Z).
  { unfold i32_chk. destruct (Z.leb_spec (-2 ^ 31) (- Z.of_N p)); [| lia]. destruct (Z.ltb_spec (- Z.of_N p) (2 ^ 31)); [reflexivity | lia]. }
  destruct ((- Z.of_N p <=? a) && (a <? 12000000))%Z eqn:Ea.
  - apply andb_true_iff in Ea as [Ea1 Ea2]. apply Z.leb_le in Ea1. apply Z.ltb_lt in Ea2.
    set (rel := (if (0 <=? a)%Z then (a - Z.of_N p)%Z else (a + 12000000)%Z)).
    assert (Er : i32_chk rel = Ok rel).
    { unfold i32_chk, rel. destruct (Z.leb_spec 0 a).
      - destruct (Z.leb_spec (-2 ^ 31) (a - Z.of_N p)); [| lia]. destruct (Z.ltb_spec (a - Z.of_N p) (2 ^ 31)); [reflexivity | lia].
      - destruct (Z.leb_spec (-2 ^ 31) (a + 12000000)); [| lia]. destruct (Z.ltb_spec (a + 12000000) (2 ^ 31)); [reflexivity | lia]. }
    set (g := le_bytes 4 (Z.to_N (rel mod 2 ^ 32))).
    assert (Lg : length g = 4%nat) by apply le_bytes_length.
    assert (Wg : wf_bytes g) by apply le_bytes_wf.
    assert (Hl2 : len (pre ++ 232 :: g ++ tl) = size).
    { rewrite <- Hl. unfold len. rewrite !app_length. cbn [length]. rewrite !app_length, Lg, Lf. reflexivity. }
    destruct (IH (pre ++ 232 :: g ++ tl) (p + 1 + 4) Hl2 ltac:(lia)) as (l' & A & B & C). exists l'. split; [|split].
    + rewrite A. unfold len in Hl, Hl2. lia.
    + intros W. apply B. rewrite wf_bytes_app, wf_bytes_cons, wf_bytes_app in *. tauto.
    + intros rest. rewrite Ei. cbn [bind]. change (232 =? 232) with true. cbn [negb].
      rewrite El, Es. cbn [bind]. fold a. rewrite Ep. cbn [bind].
      destruct (Z.leb_spec (- Z.of_N p) a); [| lia]. destruct (Z.ltb_spec a 12000000); [| lia]. cbn [andb].
      fold rel. rewrite Er. cbn [bind]. fold g. rewrite <- L1 at 1.
      rewrite write_end by (rewrite len_app; unfold len; lia). cbn [bind].
      replace (skipn (length g) (f ++ tl ++ rest)) with (tl ++ rest)
        by (rewrite Lg, <- Lf, skipn_app, skipn_all, Nat.sub_diag; reflexivity).
      rewrite <- El. apply C.
  - destruct (IH (pre ++ 232 :: f ++ tl) (p + 1 + 4) Hl ltac:(lia)) as (l' & A & B & C). exists l'. split; [exact A |]. split; [exact B |].
    intros rest. rewrite Ei. cbn [bind]. change (232 =? 232) with true. cbn [negb].
    rewrite El, Es. cbn [bind]. fold a. rewrite Ep. cbn [bind]. rewrite Ea. cbn [bind]. rewrite <- El. apply C.
Qed.

Lemma decompress_any data n : wf_bytes data ->
  (forall buffer, length buffer = n -> lzx_decompress data buffer = Err) \/
  exists content, (length content <= n)%nat /\ wf_bytes content /\ 6 <= len content < 2 ^ 31 /\
    forall buffer, length buffer = n ->
      lzx_decompress data buffer = Ok (content ++ skipn (length content) buffer, len content).
Proof.
  intros Hwf. unfold lzx_decompress.
  destruct (blocks_any data Hwf (S (8 * length data)) [] n [1; 1; 1] (repeat 0 496) (repeat 0 249) (mk_lzx 0 0 0))
    as [H | (w & l & li & ma & s' & A1 & A2 & _ & _ & _ & _ & _ & A9)]; auto.
  { repeat split; cbn [x_offset x_count x_bits]; lia. }
  { exists 1, 1, 1. repeat split; lia. }
  { cbn [x_offset]. unfold len. lia. }
  - left. intros buffer Hb. specialize (H buffer Hb). cbn [app] in H. change (len (@nil N)) with 0 in H. rewrite H. reflexivity.
  - cbn [app] in A9. specialize (A2 (Forall_nil _)). change (len (@nil N)) with 0 in A9. unfold adjust_calls.
    assert (E : forall buffer, length buffer = n -> lzx_blocks (S (8 * length data)) data
      (mk_lzx_state buffer 0 [1; 1; 1] (repeat 0 496) (repeat 0 249) (mk_lzx 0 0 0)) =
      Ok (mk_lzx_state (w ++ skipn (length w) buffer) (len w) l li ma s')) by exact A9. clear A9.
    destruct (N.ltb_spec (len w) 6) as [H6 | H6].
    + left. intros buffer Hb. rewrite E by exact Hb. cbn [bind lx_buffer lx_offset].
      destruct (N.ltb_spec (len w) 6); [| lia]. reflexivity.
    + destruct (N.ltb_spec (2 ^ 31 - 1) (len w)) as [H31 | H31].
      * left. intros buffer Hb. rewrite E by exact Hb. cbn [bind lx_buffer lx_offset].
        destruct (N.ltb_spec (len w) 6); [lia |]. destruct (N.ltb_spec (2 ^ 31 - 1) (len w)); [| lia]. reflexivity.
      * destruct (adjust_any (len w) ltac:(lia) (S (N.to_nat (len w))) w 0 eq_refl ltac:(lia)) as (c & C1 & C2 & C3).
        right. exists c. split; [lia |]. split; [auto |]. split; [unfold len in *; lia |].
        intros buffer Hb. rewrite E by exact Hb. cbn [bind lx_buffer lx_offset].
        destruct (N.ltb_spec (len w) 6); [lia |]. destruct (N.ltb_spec (2 ^ 31 - 1) (len w)); [lia |]. cbn [orb negb check bind].
        rewrite C3. cbn [bind]. rewrite C1. do 2 f_equal. unfold len. now rewrite C1.
Qed.
