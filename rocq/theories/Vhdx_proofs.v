From Verif Require Import Base BaseLemmas Bytes_model Streams_model Streams_spec Streams_proofs BlockTree_model
  BlockTree_spec BlockTree_proofs Blocks_model Blocks_proofs Lazy_model Lazy_proofs Image_spec Image_proofs Part_spec Part_proofs
  Fat_proofs Sparse_proofs Vhdx_model Vhdx_spec.
Ltac Zify.zify_post_hook ::= idtac.

Lemma vhdx_ratio_bounds p : vhdx_parameters_ok p -> 16 <= vhdx_ratio p <= 32768.
Proof.
  intros ([H1 H2] & H3 & _). unfold vhdx_ratio. split.
  - apply N.div_le_lower_bound; lia.
  - apply N.div_le_upper_bound; [lia|]. destruct H3 as [-> | ->]; nia.
Qed.
Lemma vhdx_open_shape p : xp_table_size p < two32 ->
  (vhdx_parameters_ok p /\ exists v, vhdx_open p = Ok v /\
     xf_type v = match N.land (xp_flags p) 3 with 0 => Fixed | 1 => Dynamic | 2 => Differential | _ => Unknown end /\
     xf_bytes_per_sector v = xp_sector_size p /\ xf_block_size v = xp_block_size p /\
     xf_entries_per_chunk v = vhdx_ratio p /\ xf_sector_bitmap_size v = 1048576 / vhdx_ratio p /\
     xf_media_size v = xp_media_size p /\ xf_table_offset v = xp_table_offset p /\ xf_number_of_entries v = xp_table_size p / 8 /\
     xf_tree v = bt_new (xp_table_size p / 8 * xp_block_size p) (xp_block_size p / xp_sector_size p) (xp_sector_size p)) \/
  (~ vhdx_parameters_ok p /\ vhdx_open p = Err).
Proof.
  intros Ht. remember (vhdx_open p) as o eqn:Eo. unfold vhdx_open in Eo. set (bs := xp_block_size p) in *.
  change (1024 * 1024) with 0x100000 in Eo. change (256 * 1024 * 1024) with 0x10000000 in Eo.
  destruct (N.ltb_spec bs 0x100000) as [H1|H1]; cbn [orb negb check bind] in Eo.
  { right. split; [|assumption]. unfold vhdx_parameters_ok. fold bs. lia. }
  destruct (N.ltb_spec 0x10000000 bs) as [H2|H2]; cbn [orb negb check bind] in Eo.
  { right. split; [|assumption]. unfold vhdx_parameters_ok. fold bs. lia. }
  assert (Hs : (xp_sector_size p =? 512) || (xp_sector_size p =? 4096) = true <-> xp_sector_size p = 512 \/ xp_sector_size p = 4096).
  { rewrite orb_true_iff, !N.eqb_eq. reflexivity. }
  destruct ((xp_sector_size p =? 512) || (xp_sector_size p =? 4096)); cbn [check bind] in Eo.
  2:{ right. split; [|assumption]. intros (_ & H & _). apply Hs in H. discriminate. }
  apply proj1 in Hs. specialize (Hs eq_refl).
  assert (D0 : div_chk (0x800000 * xp_sector_size p) bs = Ok (vhdx_ratio p)).
  { unfold div_chk, vhdx_ratio. fold bs. destruct (N.eqb_spec bs 0); [lia|reflexivity]. }
  rewrite D0 in Eo. cbn [bind] in Eo.
  assert (Hr : 16 <= vhdx_ratio p <= 32768).
  { unfold vhdx_ratio. fold bs. split; [apply N.div_le_lower_bound; lia|]. apply N.div_le_upper_bound; [lia|]. destruct Hs as [-> | ->]; lia. }
  assert (D1 : div_chk 1048576 (vhdx_ratio p mod two32) = Ok (1048576 / vhdx_ratio p)).
  { rewrite N.mod_small by (unfold two32; lia). unfold div_chk. destruct (N.eqb_spec (vhdx_ratio p) 0); [lia|reflexivity]. }
  rewrite D1 in Eo. cbn [bind] in Eo.
  assert (Hn : xp_table_size p / 8 <= 536870912) by (apply N.div_le_upper_bound; [lia|unfold two32 in Ht; lia]).
  set (nb := xp_table_size p / 8) in *.
  assert (M : mul_chk two64 nb bs = Ok (nb * bs)).
  { unfold mul_chk. destruct (N.ltb_spec (nb * bs) two64); [reflexivity|]. unfold two64 in *. nia. }
  rewrite M in Eo. cbn [bind] in Eo.
  assert (D2 : div_chk bs (xp_sector_size p) = Ok (bs / xp_sector_size p)).
  { unfold div_chk. destruct (N.eqb_spec (xp_sector_size p) 0); [lia|reflexivity]. }
  rewrite D2 in Eo. cbn [bind] in Eo.
  destruct (N.ltb_spec (nb * bs) (xp_media_size p)) as [Hm|Hm]; cbn [negb check bind] in Eo.
  { right. split; [|assumption]. intros (_ & _ & H). fold bs nb in H. lia. }
  left. split; [unfold vhdx_parameters_ok; fold bs nb; auto|]. eexists. split; [exact Eo|]. cbn. repeat split; reflexivity.
Qed.

(** ** Layers *)
Lemma entry_decode file v p i : wf_bytes file -> xf_number_of_entries v = xp_table_size p / 8 -> xf_table_offset v = xp_table_offset p ->
  i < xp_table_size p / 8 -> xp_table_size p < two32 -> xp_table_offset p + 8 * i + 8 <= len file -> len file < two64 ->
  vhdx_entry_read file v (i mod two32) = Ok (entry_offset (vhdx_entry file p i), entry_state (vhdx_entry file p i)).
Proof.
  intros Hw E1 E2 Hi Ht Hl H64. unfold vhdx_entry_read.
  assert (xp_table_size p / 8 <= xp_table_size p) by (apply N.div_le_upper_bound; lia).
  rewrite N.mod_small by lia. rewrite E1, E2.
  destruct (N.ltb_spec i (xp_table_size p / 8)); [|lia]. cbn [check bind].
  assert (A : add_chk two64 (xp_table_offset p) (i * 8) = Ok (xp_table_offset p + 8 * i)).
  { unfold add_chk. destruct (N.ltb_spec (xp_table_offset p + i * 8) two64); [f_equal; lia|lia]. }
  rewrite A. cbn [bind]. destruct (read_exact_shape file (xp_table_offset p + 8 * i) 8) as [[-> _]|[_ H']]; [|lia]. cbn [bind].
  unfold u64_le. rewrite le_field by (rewrite len_bytes_at; unfold two64; lia). rewrite field_inner by lia. rewrite N.add_0_r. cbn [bind].
  fold (vhdx_entry file p i). set (e := vhdx_entry file p i).
  assert (He : e < 2 ^ 64) by apply (field_bound file _ 8 Hw).
  f_equal. f_equal.
  - unfold entry_offset. change 0x100000 with (2 ^ 20). rewrite <- N.shiftr_div_pow2, <- N.shiftl_mul_pow2.
    change 0xfffffffffff00000 with (N.shiftl (N.ones 44) 20). apply N.bits_inj. intros k. rewrite N.land_spec.
    destruct (N.lt_ge_cases k 20) as [Hk|Hk].
    + rewrite !N.shiftl_spec_low by assumption. apply andb_false_r.
    + rewrite !N.shiftl_spec_high' by assumption. rewrite N.shiftr_spec'. replace (k - 20 + 20) with k by lia.
      destruct (N.lt_ge_cases k 64) as [Hk'|Hk'].
      * rewrite N.ones_spec_low by lia. apply andb_true_r.
      * rewrite N.ones_spec_high by lia. rewrite andb_false_r. symmetry.
        destruct (N.eq_dec e 0) as [->|He0]; [apply N.bits_0|]. apply N.bits_above_log2. apply N.log2_lt_pow2 in He; lia.
  - unfold entry_state. change 7 with (N.ones 3). rewrite N.land_ones. reflexivity.
Qed.

Lemma vhdx_pow p : vhdx_parameters_ok p -> vhdx_block_size_ok p ->
  let bytes := xp_block_size p / xp_sector_size p / 8 in
  1048576 / vhdx_ratio p = bytes /\ xp_sector_size p * (8 * bytes) = xp_block_size p /\
  xp_block_size p = xp_sector_size p * (xp_block_size p / xp_sector_size p) /\
  xp_block_size p / xp_sector_size p = 8 * bytes.
Proof.
  intros ([H1 H2] & Hs & _) [k Hk]. assert (Hk20 : 20 <= k).
  { destruct (N.le_gt_cases 20 k); [assumption|]. exfalso. assert (2 ^ k < 2 ^ 20) by (apply N.pow_lt_mono_r; lia).
    change (2 ^ 20) with 0x100000 in *. lia. }
  assert (Hk28 : k <= 28).
  { destruct (N.le_gt_cases k 28); [assumption|]. exfalso. assert (2 ^ 28 < 2 ^ k) by (apply N.pow_lt_mono_r; lia).
    change (2 ^ 28) with 0x10000000 in *. lia. }
  unfold vhdx_ratio. rewrite Hk. clear H1 H2 Hk.
  assert (C : k = 20 \/ k = 21 \/ k = 22 \/ k = 23 \/ k = 24 \/ k = 25 \/ k = 26 \/ k = 27 \/ k = 28) by lia. clear Hk20 Hk28.
  destruct Hs as [-> | ->]; destruct C as [->|[->|[->|[->|[->|[->|[->|[->| ->]]]]]]]]; vm_compute; auto.
Qed.

Lemma vhdx_bits_uniform file p n b s :
  let bytes := xp_block_size p / xp_sector_size p / 8 in
  let o := entry_offset (vhdx_bitmap_entry file p n) + n mod vhdx_ratio p * bytes in
  xp_block_size p / xp_sector_size p = 8 * bytes ->
  o + bytes <= len file -> bytes_at file o bytes = repeat b (N.to_nat bytes) -> b = 0 \/ b = 255 -> s < 8 * bytes ->
  vhdx_bit file p n s = negb (b =? 0).
Proof.
  intros bytes o Hb Hl H Hb01 Hs. unfold vhdx_bit. rewrite Hb.
  replace (n mod vhdx_ratio p * (8 * bytes) + s) with (s + n mod vhdx_ratio p * bytes * 8) by lia.
  rewrite N.div_add, N.mod_add by lia. rewrite (N.add_comm (s / 8)), N.add_assoc. fold o.
  assert (E : file_byte file (o + s / 8) = b).
  { assert (Hx : s / 8 < bytes) by (apply N.div_lt_upper_bound; lia).
    assert (E : nth (N.to_nat (s / 8)) (bytes_at file o bytes) 0 = b).
    { rewrite H. apply (repeat_spec (N.to_nat bytes)), nth_In. rewrite repeat_length. lia. }
    rewrite bytes_at_file in E by lia. rewrite (nth_indep _ 0 (file_byte file 0)) in E by (rewrite map_length, seqN_length; lia).
    rewrite map_nth in E. rewrite <- E. f_equal. symmetry. apply nth_error_nth with (d := 0). rewrite nth_error_seqN by lia. f_equal. lia. }
  rewrite E. destruct Hb01 as [->| ->]; [apply N.bits_0|]. change 255 with (N.ones 8). rewrite N.ones_spec_low; [reflexivity|].
  pose proof (N.mod_lt s 8). lia.
Qed.

Definition vhdx_value (file : list N) (p : vhdx_parameters) (n : N) : block_range :=
  let bs := xp_block_size p in
  let e := vhdx_block_entry file p n in
  let stored := {| br_media_offset := n * bs; br_data_offset := entry_offset e; br_size := bs; br_type := InFile |} in
  if entry_state e =? 6 then stored
  else if vhdx_has_parent p
  then if vhdx_bit file p n 0 then stored
       else {| br_media_offset := n * bs; br_data_offset := 0; br_size := bs; br_type := InParent |}
  else {| br_media_offset := n * bs; br_data_offset := 0; br_size := bs; br_type := Sparse |}.

Lemma has_parent_bits p : vhdx_has_parent p = N.testbit (N.land (xp_flags p) 3) 1.
Proof. unfold vhdx_has_parent. rewrite N.land_spec. change (N.testbit 3 1) with true. symmetry. apply andb_true_r. Qed.

Lemma chunk_ok n r : 16 <= r <= 32768 -> n <= 536870912 ->
  div_chk n r = Ok (n / r) /\ mul_chk two64 (n / r) (r + 1) = Ok (n / r * (r + 1)) /\
  add_chk two64 (n / r * (r + 1)) (n mod r) = Ok (n / r * (r + 1) + n mod r) /\
  mul_chk two64 (1 + n / r) (r + 1) = Ok (n / r * (r + 1) + r + 1).
Proof.
  intros Hr Hn. split; [unfold div_chk; destruct (N.eqb_spec r 0); [lia|reflexivity]|]. assert (Hd : n / r <= n).
  { apply N.div_le_upper_bound; [lia|]. rewrite <- (N.mul_1_l n) at 1. apply N.mul_le_mono_r. lia. }
  pose proof (N.mod_lt n r ltac:(lia)) as Hm. set (q := n / r) in *. set (m := n mod r) in *. clearbody q m.
  assert (Dm : (1 + q) * (r + 1) <= 536870913 * 32769) by (apply N.mul_le_mono; lia).
  rewrite N.mul_add_distr_r in Dm. rewrite N.mul_1_l in Dm.
  assert (q * (r + 1) < two64 /\ q * (r + 1) + m < two64 /\ q * (r + 1) + r + 1 < two64) as (B1 & B2 & B3) by (unfold two64; lia).
  unfold mul_chk, add_chk. replace ((1 + q) * (r + 1)) with (q * (r + 1) + r + 1) by (rewrite N.mul_add_distr_r; lia).
  apply N.ltb_lt in B1, B2, B3. rewrite B1, B2, B3. repeat split.
Qed.

Lemma vhdx_layer_ok file p v : vhdx_good file p -> vhdx_open p = Ok v ->
  layer_ok (vhdx_layer file v) (xp_sector_size p) (xp_block_size p / xp_sector_size p) 1 (xp_table_size p / 8) (vhdx_value file p).
Proof.
  intros [Hw Hl Ht Hok Hpow Hc Hsup] Ev.
  destruct (vhdx_open_shape p Ht) as [[_ (v' & Ev' & V1 & V2 & V3 & V4 & V5 & V6 & V7 & V8 & V9)]|[Hn _]]; [|contradiction].
  rewrite Ev in Ev'. injection Ev' as <-.
  destruct (vhdx_pow p Hok Hpow) as (P1 & P2 & P3 & P4). set (bytes := xp_block_size p / xp_sector_size p / 8) in *.
  pose proof (vhdx_ratio_bounds p Hok) as Hr.
  destruct Hok as ([Hb1 Hb2] & Hs & Hm).
  assert (Hnb : xp_table_size p / 8 <= 536870912) by (apply N.div_le_upper_bound; [lia|unfold two32 in Ht; lia]).
  set (bs := xp_block_size p) in *. set (nb := xp_table_size p / 8) in *. set (r := vhdx_ratio p) in *.
  assert (Hsmall : nb * bs < two64) by (unfold two64; nia).
  assert (Hby : 0 < bytes).
  { destruct (N.eq_dec bytes 0) as [E|E]; [|lia]. rewrite E in P2. change (8 * 0) with 0 in P2. rewrite N.mul_0_r in P2. lia. }
  assert (Hn : forall n, n * bs < xp_media_size p -> n < nb).
  { intros n H. apply N.mul_lt_mono_pos_r with bs; [lia|lia]. }
  constructor; cbn [vhdx_layer ly_file ly_media_size ly_block_size ly_fixed ly_load]; rewrite ?V3, ?V6.
  - reflexivity.
  - lia.
  - destruct (N.eq_dec (bs / xp_sector_size p) 0) as [E|E]; [rewrite E in P3|]; lia.
  - rewrite N.mul_comm, <- P3. unfold two64. lia.
  - rewrite N.pow_1_r. exact P3.
  - exact Hsmall.
  - exact Hm.
  - intros n Hnm. destruct (Hc n Hnm) as [_ Hc2]. unfold vhdx_value. fold bs.
    set (e := vhdx_block_entry file p n) in *.
    destruct (N.eqb_spec (entry_state e) 6) as [E|E]; cbn [br_media_offset br_size br_type br_data_offset].
    + split; [reflexivity|]. split; [reflexivity|]. split; [discriminate|]. intros _. apply Hc2. lia.
    + destruct (vhdx_has_parent p) eqn:Ehp; [|cbn [br_media_offset br_size br_type]; repeat split; discriminate].
      destruct (vhdx_bit file p n 0) eqn:Ebit; cbn [br_media_offset br_size br_type br_data_offset]; [|repeat split; discriminate].
      split; [reflexivity|]. split; [reflexivity|]. split; [discriminate|]. intros _. apply Hc2.
      destruct Hsup as [[_ Hu]|[[Hplain _] _]]; [|congruence]. cbv zeta in Hu.
      destruct (Hu n Hnm) as [H6|(b & Hb & _ & _ & _ & Ho & Eb)]; [fold e in H6; lia|fold e in Hb].
      rewrite (vhdx_bits_uniform file p n b 0 P4 Ho Eb ltac:(tauto)) in Ebit.
      2:{ fold bytes. apply N.mul_pos_pos; [reflexivity|exact Hby]. }
      destruct Hb as [[_ ->]|[-> _]]; [discriminate|lia].
  - assumption.
  - intros t x n Hxm ->. set (n := x / bs).
    assert (Hnm : n * bs < xp_media_size p).
    { unfold n. destruct (mod_split x bs ltac:(lia)). lia. }
    pose proof (Hn n Hnm) as Hnn. destruct (Hc n Hnm) as [[Hc1 Hc1'] Hc2]. fold r in Hc1, Hc1'.
    set (i := n / r * (r + 1) + n mod r) in *.
    destruct (chunk_ok n r Hr) as (K1 & K2 & K3 & K4); [clear - Hnn Hnb; lia|]. fold i in K3.
    unfold vhdx_load. rewrite V1, V4. fold r.
    assert (Ei : (match match N.land (xp_flags p) 3 with 0 => Fixed | 1 => Dynamic | 2 => Differential | _ => Unknown end with
      | Fixed => Ok n
      | _ => chunk <- div_chk n r ;; product <- mul_chk two64 chunk (r + 1) ;; add_chk two64 product (n mod r) end) = Ok i).
    { assert (Gen : (chunk <- div_chk n r ;; product <- mul_chk two64 chunk (r + 1) ;; add_chk two64 product (n mod r)) = Ok i).
      { rewrite K1. cbn [bind]. rewrite K2. exact K3. }
      destruct Hsup as [[E _]|[_ [E|[E Hchunk]]]]; rewrite E; cbv iota; try exact Gen.
      f_equal. assert (n < r).
      { fold bs r in Hchunk. apply N.mul_lt_mono_pos_r with bs; [clear - Hb1; lia|]. eapply N.lt_le_trans; [exact Hnm|exact Hchunk]. }
      unfold i. rewrite N.div_small, N.mod_small by assumption. reflexivity. }
    rewrite Ei. cbn [bind]. rewrite (entry_decode file v p i) by assumption.
    change (vhdx_entry file p i) with (vhdx_block_entry file p n). set (e := vhdx_block_entry file p n) in *.
    unfold vhdx_value. fold bs. fold e.
    destruct Hsup as [[E2 Hu]|[[Hhp Hst] H01]].
    + rewrite E2. cbv iota. rewrite has_parent_bits, E2. change (N.testbit 2 1) with true. cbv iota. cbv zeta in Hu.
      destruct (N.eqb_spec (entry_state e) 6) as [E6|E6]; cbn [negb].
      * rewrite E6. change (6 <? 6) with false. cbv iota. rewrite V3. reflexivity.
      * destruct (Hu n Hnm) as [H6|(b & Hb & Hd & Hi1 & Hi2 & Ho & Eb)]; [contradiction|]. fold e in Hb, Hd. fold bs in Hd. fold r in Hi1, Hi2, Ho, Eb. fold bs in Ho, Eb. fold bytes in Ho, Eb. fold nb in Hi1.
        unfold vhdx_read_sector_bitmap. rewrite V4, V5. fold r. rewrite P1, K1. cbn [bind].
        set (j := n / r * (r + 1) + r) in *.
        rewrite K4. fold j. cbn [bind]. unfold sub_chk. rewrite (proj2 (N.leb_le 1 (j + 1)) (N.le_add_l 1 j)), N.add_sub. cbn [bind]. rewrite (entry_decode file v p j) by assumption. cbn [bind].
        change (vhdx_entry file p j) with (vhdx_bitmap_entry file p n). 
        set (o := entry_offset (vhdx_bitmap_entry file p n) + n mod r * bytes) in *.
        assert (Ao : add_chk two64 (entry_offset (vhdx_bitmap_entry file p n)) (n mod r * bytes) = Ok o).
        { unfold add_chk. fold o. destruct (N.ltb_spec o two64) as [|Hov]; [reflexivity|]. clear - Hov Ho Hl Hby; lia. }
        rewrite Ao. cbn [bind]. destruct (read_exact_shape file o bytes) as [[-> _]|[_ H']]; [|clear - H' Ho; lia]. cbn [bind].
        rewrite (bitmap_uniform false _ (xf_bytes_per_sector v) b);
          [|rewrite len_bytes_at; clear - Ho Hby; lia|rewrite Eb; apply Forall_forall; intros y Hy; apply repeat_spec in Hy; exact Hy|tauto].
        rewrite len_bytes_at. rewrite N.min_l by (clear - Ho; lia). rewrite V2, P2. cbn [insert_bitmap]. rewrite V3. fold bs.
        rewrite (vhdx_bits_uniform file p n b 0 P4 Ho Eb ltac:(tauto)) by (fold bytes; apply N.mul_pos_pos; [reflexivity|exact Hby]).
        assert (A1 : add_chk two64 (n * bs) bs = Ok (n * bs + bs)).
        { unfold add_chk. destruct (N.ltb_spec (n * bs + bs) two64) as [|Hov]; [reflexivity|].
          assert (Hmul : (n + 1) * bs <= nb * bs) by (apply N.mul_le_mono_r; clear - Hnn; lia). rewrite N.mul_add_distr_r in Hmul. clear - Hmul Hov Hsmall. lia. }
        assert (Ad : add_chk two64 (entry_offset e) bs = Ok (entry_offset e + bs)).
        { unfold add_chk. destruct (N.ltb_spec (entry_offset e + bs) two64) as [|Hov]; [reflexivity|]. clear - Hov Hd; lia. }
        rewrite A1.
        destruct Hb as [[Es ->]|[Es Hb]]; [|destruct Hb as [->| ->]]; cbn [N.eqb negb]; cbv iota.
        all: rewrite Ad; destruct (bt_insert _ _ _ _) as [t' [[]| |]]; reflexivity.
    + rewrite Hhp. cbv iota. specialize (Hst n Hnm). fold e in Hst.
      replace (match match N.land (xp_flags p) 3 with 0 => Fixed | 1 => Dynamic | 2 => Differential | _ => Unknown end with
        | Differential => negb (entry_state e =? 6) | _ => false end) with false by (destruct H01 as [->|[-> _]]; reflexivity).
      destruct (N.eqb_spec (entry_state e) 6) as [E6|E6]; [rewrite E6; change (6 <? 6) with false; cbv iota; rewrite V3; reflexivity|].
      destruct (N.ltb_spec (entry_state e) 6) as [|Hge]; [|clear - Hge E6 Hst; lia]. rewrite V3. reflexivity.
Qed.

Lemma vhdx_value_byte file p parent x : vhdx_good file p -> x < xp_media_size p ->
  vhdx_byte file p parent x = range_byte file parent (vhdx_value file p) (xp_block_size p) x.
Proof.
  intros [Hw Hl Ht Hok Hpow Hc Hsup] Hx. destruct (vhdx_pow p Hok Hpow) as (P1 & P2 & P3 & P4).
  destruct Hok as ([Hb1 Hb2] & Hs & Hm).
  unfold vhdx_byte, range_byte, vhdx_value. set (bs := xp_block_size p) in *. set (n := x / bs).
  assert (Hnm : n * bs < xp_media_size p).
  { unfold n. destruct (mod_split x bs ltac:(clear - Hb1; lia)) as [Q1 Q2]. clear - Q1 Q2 Hx. lia. }
  set (e := vhdx_block_entry file p n).
  assert (Hxs : x mod bs / xp_sector_size p < bs / xp_sector_size p).
  { apply N.div_lt_upper_bound; [clear - Hs; lia|]. rewrite <- P3. apply N.mod_lt. clear - Hb1. lia. }
  destruct Hsup as [[E2 Hu]|[[Hhp Hst] _]].
  - assert (Hhp : vhdx_has_parent p = true) by (rewrite has_parent_bits, E2; reflexivity). rewrite Hhp. cbv zeta in Hu.
    destruct (Hu n Hnm) as [H6|(b & Hb & Hd & Hi1 & Hi2 & Ho & Eb)].
    + fold e in H6. rewrite H6. reflexivity.
    + fold e in Hb. pose proof (fun s => vhdx_bits_uniform file p n b s P4 Ho Eb ltac:(tauto)) as Hbit. cbv zeta in Hbit. fold bs in Hbit. rewrite <- P4 in Hbit.
      rewrite (Hbit 0) by (eapply N.le_lt_trans; [apply N.le_0_l|exact Hxs]).
      destruct Hb as [[Es ->]|[Es Hb]]; rewrite Es; [reflexivity|]. rewrite (Hbit _ Hxs).
      destruct Hb as [->| ->]; reflexivity.
  - rewrite Hhp. specialize (Hst n Hnm). fold e in Hst.
    assert (C : entry_state e = 0 \/ entry_state e = 1 \/ entry_state e = 2 \/ entry_state e = 3 \/ entry_state e = 4 \/ entry_state e = 5 \/ entry_state e = 6) by (clear - Hst; lia).
    destruct C as [->|[->|[->|[->|[->|[->| ->]]]]]]; reflexivity.
Qed.

Lemma vhdx_media_small p : xp_table_size p < two32 -> vhdx_parameters_ok p -> xp_media_size p < two63.
Proof.
  intros Ht ([_ H2] & _ & H). assert (Hn : xp_table_size p / 8 <= 536870912) by (apply N.div_le_upper_bound; [lia|unfold two32 in Ht; lia]).
  eapply N.le_lt_trans; [exact H|]. eapply N.le_lt_trans; [apply N.mul_le_mono; eassumption|]. reflexivity.
Qed.
Lemma vhdx_layers_ok : forall files, Forall (fun f => vhdx_good (fst f) (snd f)) files -> vhdx_chain files ->
  exists fs, vhdx_open_files files = Ok fs /\ layers_ok (vhdx_layers fs) (vhdx_start fs) (vhdx_disk files) /\
    layers_size (vhdx_layers fs) = vhdx_size files /\ vhdx_size files < two63.
Proof.
  induction files as [|[file p] files IH]; intros Hg Hc; [destruct Hc|].
  apply Forall_cons_iff in Hg as [Hg Hgs]. cbn [fst snd] in Hg.
  assert (Hopen : exists fs, vhdx_open_files files = Ok fs).
  { clear IH Hc Hg. induction Hgs as [|[f q] l H _ (fs & IH)]; [exists []; reflexivity|]. cbn [fst snd] in H. cbn [vhdx_open_files].
    destruct (vhdx_open_shape q (xg_table _ _ H)) as [(_ & v & -> & _)|[H' _]]; [|destruct (H' (xg_ok _ _ H))].
    rewrite IH. eexists. reflexivity. }
  destruct Hopen as (fs & Efs). destruct (vhdx_open_shape p (xg_table _ _ Hg)) as [(_ & v & Ev & V1 & V2 & V3 & V4 & V5 & V6 & V7 & V8 & V9)|[H' _]];
    [|destruct (H' (xg_ok _ _ Hg))].
  exists ((file, v) :: fs). cbn [vhdx_open_files vhdx_size]. rewrite Ev, Efs. cbn [bind]. split; [reflexivity|].
  change (vhdx_layers ((file, v) :: fs)) with (vhdx_layer file v :: vhdx_layers fs).
  change (vhdx_start ((file, v) :: fs)) with ((xf_tree v, 0) :: vhdx_start fs).
  cbn [layers_size]. split; [|split; [exact V6|exact (vhdx_media_small p (xg_table _ _ Hg) (xg_ok _ _ Hg))]].
  cbn [layers_ok]. right.
  exists (xp_sector_size p), (xp_block_size p / xp_sector_size p), 1, (xp_table_size p / 8), (vhdx_value file p), (vhdx_disk files).
  pose proof (vhdx_layer_ok file p v Hg Ev) as Hl. split; [exact Hl|].
  split.
  { rewrite V9. pose proof (filled_new (xp_sector_size p) (xp_block_size p / xp_sector_size p) 1 (xp_table_size p / 8) (vhdx_value file p)) as F.
    rewrite <- (lo_block_size _ _ _ _ _ _ Hl) in F. cbn [vhdx_layer ly_block_size] in F. rewrite V3 in F. exact F. }
  cbn [vhdx_layer ly_media_size ly_block_size ly_file]. rewrite V3, V6.
  split; [intros x Hx; apply vhdx_value_byte; assumption|].
  cbn [vhdx_chain] in Hc. destruct Hc as [Hc|[Hc Hsz]].
  - left. intros n _. unfold vhdx_value. rewrite Hc. destruct (_ =? 6); discriminate.
  - right. destruct (IH Hgs Hc) as (fs' & Efs' & Hls & Hss & Hs63). rewrite Efs in Efs'. injection Efs' as <-.
    split; [exact Hls|]. rewrite Hss. split; [assumption|]. eapply N.lt_trans; [exact Hs63|reflexivity].
Qed.
