From Verif Require Import Base BaseLemmas Bytes_model Strings_model Streams_model Streams_spec Streams_proofs BlockTree_model
  BlockTree_spec BlockTree_proofs Blocks_model Blocks_proofs Lazy_model Lazy_proofs Image_spec Image_proofs Part_spec Part_proofs
  Fat_proofs Sparse_proofs Vhd_model Vhd_spec.
Ltac Zify.zify_post_hook ::= idtac.

(** ** Opening one file *)
Lemma same_bytes_true a b : same_bytes a b = true <-> a = b.
Proof. unfold same_bytes. destruct (list_eq_dec _ _ _); intuition; discriminate. Qed.
Lemma read_name data : len data < two64 -> forall n o, o + 2 * N.of_nat n <= len data ->
  read_u16s u16_be data n o = Ok (before_zero (map (fun i => field_be data (o + 2 * i) 2) (seqN 0 n))).
Proof.
  intros Hl. induction n as [|n IH]; intros o H; [reflexivity|]. cbn [read_u16s seqN map before_zero].
  unfold u16_be at 1. rewrite be_field by lia. cbn [bind]. rewrite N.mul_0_r, N.add_0_r.
  destruct (field_be data o 2 =? 0); [reflexivity|]. rewrite IH by lia. cbn [bind]. do 2 f_equal. f_equal.
  change (0 + 1) with (1 + 0). rewrite map_seqN_shift. apply map_ext. intros i. f_equal. lia.
Qed.

Definition vhd_of (file : list N) (v : vhd_file) : Prop :=
  vf_disk_type v = vhd_type file /\ vf_identifier v = vhd_identifier file /\ vf_media_size v = vhd_media_size file /\
  (vhd_type file = 2 -> vf_parent v = None) /\
  (vhd_type file <> 2 ->
     vf_block_size v = vhd_block_size file /\ vf_sector_bitmap_size v = vhd_bitmap_size file /\
     vf_table_offset v = vhd_table file /\ vf_number_of_blocks v = vhd_blocks file /\
     vf_tree v = bt_new (vhd_blocks file * vhd_block_size file) (vhd_block_size file / 512) 512 /\
     vf_parent v = if is_nil (vhd_parent_identifier file) then None
                   else Some (vhd_parent_identifier file, vhd_parent_path file)).

Lemma vhd_open_shape file : wf_bytes file -> len file < two64 ->
  (vhd_header_ok file /\ exists v, vhd_open file = Ok v /\ vhd_of file v) \/ (~ vhd_header_ok file /\ vhd_open file = Err).
Proof.
  intros Hw Hl. unfold vhd_open, vhd_header_ok.
  destruct (N.leb_spec 512 (len file)) as [H512|H512]; cbn [check bind].
  2:{ right. split; [intros [H _]; lia|reflexivity]. }
  fold (vhd_footer file). set (fo := vhd_footer file) in *.
  assert (Hfo : fo + 512 = len file) by (unfold fo, vhd_footer; lia).
  destruct (read_exact_shape file fo 512) as [[-> _]|[_ H]]; [|lia]. cbn [bind].
  unfold vhd_footer_read. rewrite len_bytes_at. replace (N.min 512 (len file - fo)) with 512 by lia.
  change (512 =? 512) with true. cbn [check bind].
  assert (Ld : len (bytes_at file fo 512) = 512) by (rewrite len_bytes_at; lia).
  rewrite slice_bytes_at by lia. cbn [bind]. rewrite bytes_at_bytes_at by lia. rewrite N.add_0_r. change (8 - 0) with 8.
  destruct (same_bytes (bytes_at file fo 8) vhd_footer_signature) eqn:Es; cbn [check bind].
  2:{ right. split; [|reflexivity]. intros (_ & H & _). apply same_bytes_true in H. unfold vhd_footer_signature in Es. congruence. }
  apply same_bytes_true in Es. unfold u32_be, u64_be. rewrite be_field by (unfold two64; lia). cbn [bind].
  rewrite field_be_inner by lia.
  destruct (N.eqb_spec (field_be file (fo + 12) 4) 0x10000) as [Ev|Ev]; cbn [check bind].
  2:{ right. split; [|reflexivity]. intros (_ & _ & H & _). contradiction. }
  rewrite !be_field by (unfold two64; lia). cbn [bind]. rewrite !field_be_inner by lia.
  rewrite slice_bytes_at by lia. cbn [bind]. rewrite bytes_at_bytes_at by lia. change (84 - 68) with 16.
  change (field_be file (fo + 16) 8) with (vhd_header file). change (field_be file (fo + 40) 8) with (vhd_media_size file).
  change (field_be file (fo + 60) 4) with (vhd_type file). change (bytes_at file (fo + 68) 16) with (vhd_identifier file).
  destruct ((vhd_type file =? 2) || (vhd_type file =? 3) || (vhd_type file =? 4)) eqn:Et; cbn [check bind].
  2:{ right. split; [|reflexivity]. intros (_ & _ & _ & H). apply orb_false_iff in Et as [Et E4].
      apply orb_false_iff in Et as [E2 E3]. apply N.eqb_neq in E2, E3, E4. lia. }
  destruct (N.eqb_spec (vhd_type file) 2) as [E2|E2].
  - destruct (N.eqb_spec (vhd_header file) 0xffffffffffffffff) as [En|En]; cbn [check bind].
    2:{ right. split; [|reflexivity]. intros (_ & _ & _ & [H|H]); lia. }
    destruct (N.eqb_spec (vhd_type file) 2) as [_|]; [|contradiction].
    left. split; [tauto|]. eexists. split; [reflexivity|].
    unfold vhd_of. cbn [vf_disk_type vf_identifier vf_media_size vf_parent]. repeat split; auto; contradiction.
  - assert (E34 : vhd_type file = 3 \/ vhd_type file = 4).
    { apply orb_true_iff in Et as [Et|Et]; [cbn [orb] in Et|]; apply N.eqb_eq in Et; auto. }
    destruct (N.ltb_spec (vhd_header file) 512) as [Hn|Hn]; cbn [negb check bind].
    { right. split; [|reflexivity]. intros (_ & _ & _ & [H|H]); lia. }
    destruct (N.eqb_spec (vhd_type file) 2) as [|_]; [contradiction|].
    set (h := vhd_header file) in *.
    destruct (read_exact_shape file h 1024) as [[-> H1]|[-> H1]]; cbn [bind].
    2:{ right. split; [|reflexivity]. intros (_ & _ & _ & [H|H]); lia. }
    assert (Lh : len (bytes_at file h 1024) = 1024) by (rewrite len_bytes_at; lia).
    unfold vhd_header_read. rewrite Lh. change (1024 =? 1024) with true. cbn [check bind].
    rewrite slice_bytes_at by lia. cbn [bind]. rewrite bytes_at_bytes_at by lia. rewrite N.add_0_r. change (8 - 0) with 8.
    destruct (same_bytes (bytes_at file h 8) vhd_header_signature) eqn:Ehs; cbn [check bind].
    2:{ right. split; [|reflexivity]. intros (_ & _ & _ & [H|H]); [lia|]. destruct H as (_ & _ & _ & H & _).
        apply same_bytes_true in H. unfold vhd_header_signature in Ehs. congruence. }
    apply same_bytes_true in Ehs. unfold u32_be, u64_be. rewrite be_field by (unfold two64; lia). cbn [bind].
    rewrite field_be_inner by lia.
    destruct (N.eqb_spec (field_be file (h + 24) 4) 0x10000) as [Ehv|Ehv]; cbn [check bind].
    2:{ right. split; [|reflexivity]. intros (_ & _ & _ & [H|H]); [lia|]. tauto. }
    rewrite be_field by (unfold two64; lia). cbn [bind]. rewrite field_be_inner by lia.
    destruct (N.eqb_spec (field_be file (h + 8) 8) 0xffffffffffffffff) as [Ehn|Ehn]; cbn [check bind].
    2:{ right. split; [|reflexivity]. intros (_ & _ & _ & [H|H]); [lia|]. tauto. }
    rewrite !be_field by (unfold two64; lia). cbn [bind]. rewrite !field_be_inner by lia.
    rewrite !slice_bytes_at by lia. cbn [bind]. rewrite !bytes_at_bytes_at by lia. change (56 - 40) with 16. change (576 - 64) with 512.
    change (field_be file (h + 16) 8) with (vhd_table file). change (field_be file (h + 28) 4) with (vhd_blocks file).
    change (field_be file (h + 32) 4) with (vhd_block_size file). change (bytes_at file (h + 40) 16) with (vhd_parent_identifier file).
    unfold u16string_from_be_bytes. assert (Ln : len (bytes_at file (h + 64) 512) = 512) by (rewrite len_bytes_at; lia). rewrite Ln.
    change (steps2 512) with 256%nat. rewrite read_name by (rewrite Ln; unfold two64; lia). cbn [bind].
    replace (map (fun i => field_be (bytes_at file (h + 64) 512) (0 + 2 * i) 2) (seqN 0 256))
      with (map (fun i => field_be file (h + 64 + 2 * i) 2) (seqN 0 256)).
    2:{ apply map_ext_in. intros i Hi. apply in_seqN in Hi. rewrite field_be_inner by lia. reflexivity. }
    change (before_zero (map (fun i => field_be file (h + 64 + 2 * i) 2) (seqN 0 256))) with (vhd_parent_path file).
    assert (Bb : vhd_block_size file < two32 /\ vhd_blocks file < two32).
    { split; unfold vhd_block_size, vhd_blocks; (eapply N.lt_le_trans; [apply field_be_bound, Hw|vm_compute; discriminate]). }
    set (bs := vhd_block_size file) in *. set (nb := vhd_blocks file) in *.
    destruct (N.eqb_spec bs 0) as [Eb|Eb]; cbn [negb check bind].
    { right. split; [|reflexivity]. intros (_ & _ & _ & [H|H]); lia. }
    cbn [vh_block_size vh_number_of_blocks vh_table_offset vh_parent_identifier vh_parent_name].
    assert (M1 : mul_chk two64 nb bs = Ok (nb * bs)).
    { unfold mul_chk. destruct (N.ltb_spec (nb * bs) two64); [reflexivity|]. unfold two32, two64 in *. nia. }
    rewrite M1. cbn [bind].
    destruct (N.ltb_spec (nb * bs) (vhd_media_size file)) as [Hm|Hm]; cbn [negb check bind].
    { right. split; [|reflexivity]. intros (_ & _ & _ & [H|H]); lia. }
    rewrite Sparse_proofs.div_ceil_ok by lia. cbn [bind].
    assert (D : bs / 512 / 8 < two32 / 4096).
    { rewrite N.div_div by lia. change (512 * 8) with 4096. apply N.div_lt_upper_bound; [lia|].
      eapply N.lt_le_trans; [apply Bb|]. vm_compute. discriminate. }
    set (q := bs / 512 / 8) in *.
    replace (q + 512 - 1) with (q + 511) by lia.
    assert (M2 : mul_chk two32 ((q + 511) / 512) 512 = Ok ((q + 511) / 512 * 512)).
    { unfold mul_chk. pose proof (N.mul_div_le (q + 511) 512 ltac:(lia)). change (two32 / 4096) with 1048576 in D.
      destruct (N.ltb_spec ((q + 511) / 512 * 512) two32); [reflexivity|]. unfold two32 in *. lia. }
    rewrite M2. cbn [bind].
    left. split.
    { split; [assumption|]. split; [assumption|]. split; [assumption|]. right. repeat split; auto. lia. }
    eexists. split; [reflexivity|]. unfold vhd_of.
    cbn [vf_disk_type vf_identifier vf_media_size vf_parent vf_block_size vf_sector_bitmap_size vf_table_offset vf_number_of_blocks vf_tree].
    fold bs nb. repeat split; auto. intros; contradiction.
Qed.

(** ** The files of an image *)
Lemma after_backslash_none l : after_backslash l = None <-> ~ In 0x5c l.
Proof.
  induction l as [|c l IH]; [split; [intros _ []|reflexivity]|]. cbn [after_backslash In].
  destruct (after_backslash l) as [m|]; [split; [discriminate|]|].
  - intros H. exfalso. assert (~ In 0x5c l) as H' by tauto. apply IH in H'. discriminate.
  - destruct (N.eqb_spec c 0x5c); [split; [discriminate|tauto]|]. split; [|reflexivity]. intros _. tauto.
Qed.
Lemma after_backslash_some l m : after_backslash l = Some m -> ~ In 0x5c m /\ exists b, l = b ++ 0x5c :: m.
Proof.
  revert m. induction l as [|c l IH]; intros m; [discriminate|]. cbn [after_backslash].
  destruct (after_backslash l) as [m'|] eqn:E.
  - intros [= <-]. destruct (IH m' eq_refl) as [H (b & ->)]. split; [assumption|]. exists (c :: b). reflexivity.
  - destruct (N.eqb_spec c 0x5c) as [->|]; [|discriminate]. intros [= <-]. split; [apply after_backslash_none, E|].
    exists []. reflexivity.
Qed.
Lemma last_component_unique path : forall a b, last_component path a -> last_component path b -> a = b.
Proof.
  intros a b (p & E & Ha & Hp) (q & E' & Hb & Hq).
  assert (G : forall (a b p q : list N), p ++ a = q ++ b -> ~ In 0x5c a -> (p = [] \/ exists x, p = x ++ [0x5c]) ->
    (q = [] \/ exists x, q = x ++ [0x5c]) -> (length p <= length q)%nat -> a = b).
  { clear. intros a b p q H Ha Hp Hq Hl. apply app_eq_app in H as (m & [[H1 H2]|[H1 H2]]).
    - subst. rewrite app_length in Hl. destruct m; [reflexivity|cbn in Hl; lia].
    - subst. destruct Hq as [Hq|[x Hq]].
      + apply app_eq_nil in Hq as [_ ->]. reflexivity.
      + destruct m as [|y m]; [reflexivity|]. exfalso. apply Ha.
        apply (f_equal (@rev N)) in Hq. rewrite !rev_app_distr in Hq. cbn [rev app] in Hq.
        destruct (rev m ++ [y]) as [|z l] eqn:Er; [destruct (rev m); discriminate|]. cbn in Hq. injection Hq as -> _.
        apply in_app_iff. left. apply in_rev. cbn [rev]. rewrite Er. left. reflexivity. }
  destruct (Nat.le_ge_cases (length p) (length q)); [apply (G a b p q); auto; congruence|].
  symmetry. apply (G b a q p); auto. congruence.
Qed.
Lemma parent_name_ok path : last_component path (parent_file_name path).
Proof.
  unfold parent_file_name. destruct (after_backslash path) as [m|] eqn:E.
  - apply after_backslash_some in E as [H (b & ->)]. exists (b ++ [0x5c]). split; [now rewrite <- app_assoc|]. split; [assumption|].
    right. exists b. reflexivity.
  - apply after_backslash_none in E. exists []. auto.
Qed.
Lemma is_nil_iff l : is_nil l = true <-> l = repeat 0 16.
Proof. apply same_bytes_true. Qed.

Definition files_ok (resolver : list N -> option (list N)) : Prop :=
  forall name file, resolver name = Some file -> wf_bytes file /\ len file < two64.
Lemma vhd_parent_shape file v : vhd_of file v ->
  (vhd_has_parent file /\ vf_parent v = Some (vhd_parent_identifier file, vhd_parent_path file)) \/
  (~ vhd_has_parent file /\ vf_parent v = None).
Proof.
  intros (_ & _ & _ & H2 & H). unfold vhd_has_parent. destruct (N.eq_dec (vhd_type file) 2) as [E|E].
  - right. split; [tauto|auto].
  - destruct (H E) as (_ & _ & _ & _ & _ & ->). destruct (is_nil (vhd_parent_identifier file)) eqn:En.
    + apply is_nil_iff in En. right. tauto.
    + left. split; [|reflexivity]. split; [assumption|]. intros Hn. apply is_nil_iff in Hn. congruence.
Qed.

Lemma set_parents_cons f v f' v' files : vhd_set_parents ((f, v) :: (f', v') :: files) =
  (vhd_set_parents ((f', v') :: files) ;;;
   '(parent_identifier, _) <- of_option (vf_parent v) ;;
   check (same_bytes parent_identifier (vf_identifier v'))).
Proof. reflexivity. Qed.
Lemma set_parents_shape files : vhd_set_parents files <> Panic.
Proof.
  induction files as [|[f v] files IH]; [discriminate|]. destruct files as [|[f' v'] files]; [discriminate|]. rewrite set_parents_cons.
  destruct (vhd_set_parents ((f', v') :: files)) as [u| |]; cbn [bind]; [|discriminate|contradiction].
  destruct (vf_parent v) as [[i n]|]; cbn [of_option bind]; [|discriminate]. destruct (same_bytes _ _); discriminate.
Qed.

Lemma vhd_image_sound resolver : files_ok resolver -> forall fuel name files,
  vhd_image_open fuel resolver name = Ok files ->
  vhd_chain resolver name (map fst files) /\ Forall (fun f => vhd_of (fst f) (snd f)) files.
Proof.
  intros Hr. unfold vhd_image_open. induction fuel as [|fuel IH]; intros name files H; [discriminate|].
  cbn [vhd_open_files] in H. destruct (resolver name) as [file|] eqn:En; cbn [of_option bind] in H; [|discriminate].
  destruct (Hr _ _ En) as [Hw Hl].
  destruct (vhd_open_shape file Hw Hl) as [[Hh (v & Ev & Hv)]|[_ Ev]]; rewrite Ev in H; cbn [bind] in H; [|discriminate].
  destruct (vhd_parent_shape file v Hv) as [[Hp Ep]|[Hp Ep]]; rewrite Ep in H.
  - destruct (vhd_open_files fuel resolver (parent_file_name (vhd_parent_path file))) as [fs| |] eqn:Ef; cbn [bind] in H; try discriminate.
    assert (Hfs : fs <> []).
    { destruct fuel as [|fuel]; [discriminate|]. cbn [vhd_open_files] in Ef. apply bind_Ok_inv in Ef as (x & _ & Ef).
      apply bind_Ok_inv in Ef as (y & _ & Ef). destruct (vf_parent y) as [[i n]|]; [|injection Ef as <-; discriminate].
      apply bind_Ok_inv in Ef as (z & _ & Ef). injection Ef as <-. discriminate. }
    destruct fs as [|[f' v'] fs]; [contradiction|]. rewrite set_parents_cons in H.
    specialize (IH (parent_file_name (vhd_parent_path file)) ((f', v') :: fs)). rewrite Ef in IH. cbn [bind] in IH.
    destruct (vhd_set_parents ((f', v') :: fs)) as [u| |] eqn:Es; cbn [bind] in H; try discriminate.
    destruct (IH eq_refl) as [Hc Hf]. rewrite Ep in H. cbn [of_option bind] in H.
    destruct (same_bytes (vhd_parent_identifier file) (vf_identifier v')) eqn:Ei; cbn [check bind] in H; [|discriminate].
    injection H as <-. split; [|constructor; assumption]. cbn [map fst] in *.
    apply vhd_more with (parent_file_name (vhd_parent_path file)); auto using parent_name_ok.
    apply same_bytes_true in Ei. rewrite Ei. apply Forall_cons_iff in Hf as [Hf _]. apply Hf.
  - cbn [bind vhd_set_parents] in H. injection H as <-. split; [|constructor; [assumption|constructor]]. apply vhd_last; assumption.
Qed.
Lemma vhd_image_complete resolver : files_ok resolver -> forall name files, vhd_chain resolver name files ->
  forall fuel, (length files <= fuel)%nat -> exists fs, vhd_image_open fuel resolver name = Ok fs /\ map fst fs = files.
Proof.
  intros Hr name files H. unfold vhd_image_open.
  induction H as [name file En Hh Hp|name file pn parent files En Hh Hp Hn Hc IH Hi]; intros fuel Hf;
    (destruct fuel as [|fuel]; [cbn in Hf; lia|]); cbn [vhd_open_files]; rewrite En; cbn [of_option bind];
    destruct (Hr _ _ En) as [Hw Hl];
    (destruct (vhd_open_shape file Hw Hl) as [[_ (v & Ev & Hv)]|[Hh' _]]; [|contradiction]); rewrite Ev; cbn [bind];
    destruct (vhd_parent_shape file v Hv) as [[Hp' Ep]|[Hp' Ep]]; try contradiction; rewrite Ep.
  - exists [(file, v)]. split; reflexivity.
  - destruct (IH fuel) as (fs & Efs & Em); [cbn [length] in *; lia|].
    rewrite (last_component_unique _ _ _ Hn (parent_name_ok _)) in *.
    pose proof (vhd_image_sound resolver Hr fuel (parent_file_name (vhd_parent_path file)) fs Efs) as [_ Hof].
    destruct (vhd_open_files fuel resolver (parent_file_name (vhd_parent_path file))) as [fs'| |]; cbn [bind] in Efs |- *; try discriminate.
    apply bind_Ok_inv in Efs as (u & Es & Efs). injection Efs as ->. destruct fs as [|[f' v'] fs]; [discriminate|].
    injection Em as -> Em. apply Forall_cons_iff in Hof as [(_ & Ho & _) _]. cbn [fst snd] in Ho.
    exists ((file, v) :: (parent, v') :: fs). split; [|cbn [map fst]; congruence]. rewrite set_parents_cons, Es. cbn [bind]. rewrite Ep. cbn [of_option bind].
    assert (same_bytes (vhd_parent_identifier file) (vf_identifier v') = true) as -> by (apply same_bytes_true; congruence).
    reflexivity.
Qed.

(** ** Reading *)
Definition vhd_value (file : list N) (n : N) : block_range :=
  let unset := if vhd_type file =? 3 then Sparse else InParent in
  let bs := vhd_block_size file in
  if negb (vhd_entry file n =? 0xffffffff) && vhd_bit file n 0
  then {| br_media_offset := n * bs; br_data_offset := vhd_entry file n * 512 + vhd_bitmap_size file; br_size := bs; br_type := InFile |}
  else {| br_media_offset := n * bs; br_data_offset := 0; br_size := bs; br_type := unset |}.

Lemma file_byte_repeat file o n b x : bytes_at file o n = repeat b (N.to_nat n) -> o + n <= len file -> x < n -> file_byte file (o + x) = b.
Proof.
  intros H Hl Hx. assert (E : nth (N.to_nat x) (bytes_at file o n) 0 = b).
  { rewrite H. apply (repeat_spec (N.to_nat n)), nth_In. rewrite repeat_length. lia. }
  rewrite bytes_at_file in E by lia. rewrite (nth_indep _ 0 (file_byte file 0)) in E by (rewrite map_length, seqN_length; lia).
  rewrite map_nth in E. rewrite <- E. f_equal. symmetry. apply nth_error_nth with (d := 0). rewrite nth_error_seqN by lia. f_equal. lia.
Qed.

Record vhd_good (file : list N) (v : vhd_file) : Prop := {
  vg_wf : wf_bytes file;
  vg_len : len file < two64;
  vg_ok : vhd_header_ok file;
  vg_of : vhd_of file v;
  vg_uniform : vhd_uniform file;
  vg_complete : vhd_complete file
}.
Lemma vhd_bounds file : wf_bytes file -> vhd_block_size file < two32 /\ vhd_blocks file < two32 /\ (forall n, vhd_entry file n < two32).
Proof.
  intros Hw. repeat split; intros; (eapply N.lt_le_trans; [apply field_be_bound, Hw|vm_compute; discriminate]).
Qed.
Lemma vhd_header_dynamic file : vhd_header_ok file -> vhd_type file <> 2 ->
  (vhd_type file = 3 \/ vhd_type file = 4) /\ 0 < vhd_block_size file /\ vhd_media_size file <= vhd_blocks file * vhd_block_size file.
Proof. intros (_ & _ & _ & [H|H]) Ht; [lia|]. tauto. Qed.
Lemma vhd_bitmap_exact file : vhd_block_size file mod 0x200000 = 0 -> 512 * (8 * vhd_bitmap_size file) = vhd_block_size file.
Proof.
  intros H. unfold vhd_bitmap_size. apply N.mod_divide in H as [k H]; [|lia]. rewrite H.
  replace (k * 0x200000) with (k * 512 * 8 * 512) by lia. rewrite !N.div_mul by lia.
  replace ((k * 512 + 511) / 512) with k; [lia|]. apply N.div_unique with 511; lia.
Qed.
Lemma vhd_bits_uniform file n b x : vhd_entry file n * 512 + vhd_bitmap_size file <= len file ->
  bytes_at file (vhd_entry file n * 512) (vhd_bitmap_size file) = repeat b (N.to_nat (vhd_bitmap_size file)) ->
  b = 0 \/ b = 255 -> x < 8 * vhd_bitmap_size file -> vhd_bit file n x = negb (b =? 0).
Proof.
  intros Hl H Hb Hx. unfold vhd_bit. rewrite (file_byte_repeat _ _ _ b (x / 8) H Hl) by (apply N.div_lt_upper_bound; lia).
  destruct Hb as [->| ->]; [apply N.bits_0|]. change 255 with (N.ones 8). rewrite N.ones_spec_low; [reflexivity|].
  lia.
Qed.

Lemma vhd_layer_ok file v : vhd_good file v -> vhd_type file <> 2 ->
  layer_ok (vhd_layer file v) 512 (vhd_block_size file / 512) 1 (vhd_blocks file) (vhd_value file).
Proof.
  intros [Hw Hl Hh Hv Hu Hc] Ht. destruct (vhd_bounds file Hw) as (B1 & B2 & B3).
  destruct (vhd_header_dynamic file Hh Ht) as (H34 & Hb & Hm).
  destruct Hv as (V1 & _ & V3 & _ & V5). destruct (V5 Ht) as (V6 & V7 & V8 & V9 & _). clear V5.
  destruct Hu as [Hu|[Hmod Hu]]; [contradiction|]. unfold vhd_complete in Hc.
  destruct (N.eqb_spec (vhd_type file) 2) as [|_]; [contradiction|].
  pose proof (vhd_bitmap_exact file Hmod) as Hx.
  assert (Hbs : vhd_block_size file = 512 * (vhd_block_size file / 512)).
  { rewrite <- Hx at 2. rewrite (N.mul_comm 512 (8 * _)), N.div_mul by lia. lia. }
  assert (Hsmall : vhd_blocks file * vhd_block_size file < two64) by (unfold two32, two64 in *; nia).
  assert (Hn : forall n, n * vhd_block_size file < vhd_media_size file -> n < vhd_blocks file).
  { intros n H. apply N.mul_lt_mono_pos_r with (vhd_block_size file); [assumption|lia]. }
  constructor; cbn [vhd_layer ly_file ly_media_size ly_block_size ly_fixed ly_load]; rewrite ?V1, ?V3, ?V6.
  - apply N.eqb_neq. assumption.
  - lia.
  - destruct (N.eq_dec (vhd_block_size file / 512) 0) as [E|E]; [rewrite E in Hbs|]; lia.
  - unfold two32, two64 in *. lia.
  - rewrite N.pow_1_r. assumption.
  - assumption.
  - assumption.
  - intros n Hnm. destruct (Hc n Hnm) as [_ Hc2]. unfold vhd_value.
    destruct (N.eqb_spec (vhd_entry file n) 0xffffffff) as [E|E]; cbn [negb andb].
    + cbn [br_media_offset br_size br_type br_data_offset]. split; [reflexivity|]. split; [reflexivity|].
      destruct (vhd_type file =? 3); split; discriminate.
    + destruct (vhd_bit file n 0); cbn [br_media_offset br_size br_type br_data_offset];
        (split; [reflexivity|]); (split; [reflexivity|]).
      * split; [discriminate|]. intros _. apply Hc2, E.
      * destruct (vhd_type file =? 3); split; discriminate.
  - assumption.
  - intros t x n Hxm ->. set (n := x / vhd_block_size file).
    assert (Hnm : n * vhd_block_size file < vhd_media_size file).
    { unfold n. destruct (mod_split x (vhd_block_size file) Hb). lia. }
    pose proof (Hn n Hnm) as Hnb. destruct (Hc n Hnm) as [Hc1 Hc2]. specialize (Hu n Hnm).
    unfold vhd_load, vhd_entry_read. rewrite N.mod_small by (unfold two32 in *; lia). rewrite V9.
    destruct (N.ltb_spec n (vhd_blocks file)); [|lia]. cbn [check bind]. rewrite V8.
    assert (A : add_chk two64 (vhd_table file) (n * 4) = Ok (vhd_table file + 4 * n)).
    { unfold add_chk. destruct (N.ltb_spec (vhd_table file + n * 4) two64); [f_equal; lia|lia]. }
    rewrite A. cbn [bind]. destruct (read_exact_shape file (vhd_table file + 4 * n) 4) as [[-> _]|[_ H']]; [|lia].
    cbn [bind]. unfold u32_be. rewrite be_field by (rewrite len_bytes_at; unfold two64; lia).
    rewrite field_be_inner by lia. rewrite N.add_0_r. fold (vhd_entry file n). unfold vhd_unset. rewrite V1, V6. unfold vhd_value.
    destruct (N.eqb_spec (vhd_entry file n) 0xffffffff) as [E|E]; cbn [negb andb]; [reflexivity|].
    destruct (Hu E) as (b & Hb01 & Eb). specialize (Hc2 E).
    unfold vhd_read_sector_bitmap. rewrite V7. set (e := vhd_entry file n) in *. set (z := vhd_bitmap_size file) in *.
    destruct (read_exact_shape file (e * 512) z) as [[-> H']|[_ H']]; [|lia]. cbn [bind].
    rewrite (bitmap_uniform true _ 512 b); [|rewrite len_bytes_at; lia|rewrite Eb; apply Forall_forall; intros y Hy; apply repeat_spec in Hy; exact Hy|assumption].
    rewrite len_bytes_at. rewrite N.min_l by lia. rewrite Hx.
    cbn [insert_bitmap]. unfold vhd_unset. rewrite V1, V6.
    rewrite (vhd_bits_uniform file n b 0) by (fold e z; assumption || lia).
    assert (A1 : add_chk two64 (n * vhd_block_size file) (vhd_block_size file) = Ok (n * vhd_block_size file + vhd_block_size file)).
    { unfold add_chk. destruct (N.ltb_spec (n * vhd_block_size file + vhd_block_size file) two64) as [|Hov]; [reflexivity|].
      assert ((n + 1) * vhd_block_size file <= vhd_blocks file * vhd_block_size file) by (apply N.mul_le_mono_r; lia). lia. }
    assert (A2 : add_chk two64 (e * 512 + z) (vhd_block_size file) = Ok (e * 512 + z + vhd_block_size file)).
    { unfold add_chk. specialize (B3 n). fold e in B3. destruct (N.ltb_spec (e * 512 + z + vhd_block_size file) two64) as [|Hov]; [reflexivity|].
      unfold two32, two64 in *. lia. }
    rewrite A1, A2. destruct Hb01 as [->| ->]; cbn [N.eqb negb]; cbn [negb];
      (destruct (bt_insert _ _ _ _) as [t' [[]| |]]; reflexivity).
Qed.

Lemma vhd_range_byte file v parent x : vhd_good file v -> vhd_type file <> 2 -> x < vhd_media_size file ->
  range_byte file parent (vhd_value file) (vhd_block_size file) x = vhd_byte file parent x.
Proof.
  intros [Hw Hl Hh Hv Hu Hc] Ht Hxm. destruct (vhd_header_dynamic file Hh Ht) as (H34 & Hb & Hm).
  destruct Hu as [Hu|[Hmod Hu]]; [contradiction|]. unfold vhd_complete in Hc.
  unfold vhd_byte, range_byte, vhd_value. destruct (N.eqb_spec (vhd_type file) 2) as [|_]; [contradiction|].
  destruct (mod_split x (vhd_block_size file) Hb) as [Hr Hx'].
  pose proof (vhd_bitmap_exact file Hmod) as Hx.
  set (n := x / vhd_block_size file) in *. 
  assert (Hnm : n * vhd_block_size file < vhd_media_size file) by lia.
  destruct (Hc n Hnm) as [Hc1 Hc2]. specialize (Hu n Hnm).
  destruct (N.eqb_spec (vhd_entry file n) 0xffffffff) as [E|E]; cbn [negb andb].
  - cbn [br_type]. destruct H34 as [-> | ->]; reflexivity.
  - destruct (Hu E) as (b & Hb01 & Eb). specialize (Hc2 E).
    assert (Hs : x mod vhd_block_size file / 512 < 8 * vhd_bitmap_size file) by (apply N.div_lt_upper_bound; lia).
    rewrite !(vhd_bits_uniform file n b) by (assumption || lia).
    destruct Hb01 as [->| ->]; cbn [N.eqb negb]; cbn [negb br_type br_data_offset].
    + destruct H34 as [-> | ->]; reflexivity.
    + f_equal.
Qed.

Lemma vhd_files_exact files : Forall (fun f => vhd_good (fst f) (snd f)) files -> vhd_sizes (map fst files) ->
  exists IS : tree * parents -> Prop,
    exact_rd IS (vhd_media_size (hd [] (map fst files)))
      (disk_content (vhd_disk (map fst files)) (vhd_media_size (hd [] (map fst files)))) (chain_rd (vhd_layers files)) /\
    IS (fst (chain_start (vhd_start files))) /\ snd (chain_start (vhd_start files)) = 0.
Proof.
  induction files as [|[file v] files IH]; intros Hg Hs; [contradiction|].
  apply Forall_cons_iff in Hg as [Hg Hgs]. cbn [fst snd] in Hg.
  cbn [map fst hd vhd_layers vhd_start chain_start snd]. fold (vhd_layers files). fold (vhd_start files).
  pose proof (vg_of _ _ Hg) as Hof. destruct Hof as (V1 & _ & V3 & _ & V5).
  destruct (N.eq_dec (vhd_type file) 2) as [E2|E2].
  - exists (fun _ => True). split; [|auto]. cbn [chain_rd].
    pose proof (fun parent => fixed_exact (P := parents) (vhd_layer file v) parent) as F. cbn [vhd_layer ly_file ly_media_size ly_fixed] in F. rewrite V1, V3, E2 in F.
    pose proof (vg_complete _ _ Hg) as Hc. unfold vhd_complete in Hc. rewrite E2, N.eqb_refl in Hc.
    intros s o n _ Ho Hn.
    edestruct F as (s' & Es & _); [reflexivity|assumption|exact I|exact Ho|exact Hn|].
    exists s'. split; [|exact I]. etransitivity; [exact Es|]. do 2 f_equal. f_equal.
    apply disk_ext. intros x Hx. cbn [vhd_disk]. unfold vhd_byte. rewrite E2. reflexivity.
  - destruct (V5 E2) as (V6 & _ & _ & _ & V10 & _).
    pose proof (vhd_layer_ok file v Hg E2) as Hly.
    assert (Hd : forall p, disk_content (range_byte file p (vhd_value file) (vhd_block_size file)) (vhd_media_size file) =
      disk_content (vhd_byte file p) (vhd_media_size file)).
    { intros p. apply disk_ext. intros x Hx. eapply vhd_range_byte; eassumption. }
    assert (Fnew : filled 512 (vhd_block_size file / 512) 1 (vhd_blocks file) (vhd_value file) (vf_tree v)).
    { rewrite V10. pose proof (lo_block_size _ _ _ _ _ _ Hly) as Eb. cbn [vhd_layer ly_block_size] in Eb. rewrite V6 in Eb.
      pose proof (filled_new 512 (vhd_block_size file / 512) 1 (vhd_blocks file) (vhd_value file)) as Fn.
      rewrite <- Eb in Fn. exact Fn. }
    destruct files as [|[f' v'] files].
    + cbn [vhd_layers map]. cbn [vhd_sizes map fst] in Hs.
      pose proof (layer_exact (P := parents) (vhd_layer file v) (fun p media_offset n =>
        match @nil layer, p with
        | l' :: _, (t, _) :: p =>
            let '((t, p, o), r) := stream_read (ly_media_size l') (chain_rd []) ((t, p), media_offset) n in
            ((t, o) :: p, r)
        | _, _ => (p, Err)
        end) (fun _ => True) (fun _ => 0) _ _ _ _ _ Hly) as L.
      cbn [vhd_layer ly_file ly_media_size ly_block_size] in L. rewrite V3, V6 in L. rewrite Hd in L.
      eexists. split; [|split; [|reflexivity]].
      * apply L. intros (n & Hn & Hty). exfalso. unfold vhd_value in Hty.
        destruct (vhd_header_dynamic file (vg_ok _ _ Hg) E2) as (H34 & _).
        assert (E3 : vhd_type file = 3) by tauto. rewrite E3, N.eqb_refl in Hty. destruct (_ && _); discriminate.
      * cbn [fst snd]. split; [exact Fnew|exact I].
    + destruct Hs as [Hs1 Hs2]. fold (map fst ((f', v') :: files)) in Hs2.
      destruct (IH Hgs Hs2) as (IS & HIS & Hst & _). cbn [map fst hd] in HIS, Hs1.
      pose proof Hgs as Hgs'. apply Forall_cons_iff in Hgs' as [Hg' _]. cbn [fst snd] in Hg'.
      destruct (vg_of _ _ Hg') as (_ & _ & V3' & _).
      pose proof (chain_parent (vhd_layer f' v') (vhd_layers files) IS (vhd_disk (map fst ((f', v') :: files))) (vhd_media_size file)) as CP.
      assert (Hm64 : vhd_media_size f' < two64) by (eapply N.lt_le_trans; [apply field_be_bound, (vg_wf _ _ Hg')|vm_compute; discriminate]).
      assert (Em : ly_media_size (vhd_layer f' v') = vhd_media_size f') by exact V3'.
      specialize (CP ltac:(rewrite Em; exact HIS) ltac:(rewrite Em; exact Hs1) ltac:(rewrite Em; exact Hm64)).
      pose proof (fun parent IP pbyte => layer_exact (P := parents) (vhd_layer file v) parent IP pbyte _ _ _ _ _ Hly) as L.
      cbn [vhd_layer ly_file ly_media_size ly_block_size] in L. rewrite V3, V6 in L.
      eexists. split; [|split; [|reflexivity]].
      * cbn [vhd_disk]. fold (vhd_disk (f' :: map fst files)). rewrite <- Hd. apply L. intros _. exact CP.
      * cbn [fst snd]. split; [exact Fnew|]. exact Hst.
Qed.
