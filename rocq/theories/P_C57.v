(** * C57: compressed UDIF images *)
From Verif Require Import Base BaseLemmas Streams_model Streams_spec Part_spec Udif_model Udif_spec Udif_proofs UdifCodec_model UdifCodec_spec.
From Verif Require Lz_model Lz_spec Deflate_model Deflate_spec Bzip2_model Bzip2_spec Lzfse_model Lzfse_spec.
From Verif Require P_C06 P_C11 P_C12 P_C30 P_C56.
Ltac Zify.zify_post_hook ::= idtac.

Lemma len_zeros n : len (repeat 0 (N.to_nat n)) = n.
Proof. unfold len. rewrite repeat_length. lia. Qed.
Lemma skip_zeros (chunk : list N) n : len chunk = n -> skipn (length chunk) (repeat 0 (N.to_nat n)) = [].
Proof. intros H. apply skipn_all2. rewrite repeat_length. unfold len in H. lia. Qed.

(** Every decompressor restores the chunk. *)
Lemma codec_ok method data chunk size : udif_encodes method data chunk -> len chunk = size -> size < 2 ^ 31 ->
  udif_codec method data size = Ok chunk.
Proof.
  intros H L Hs. pose proof (len_zeros size) as LZ. pose proof (skip_zeros chunk size L) as SZ. unfold udif_codec, udif_decompress.
  destruct H as [(-> & ts & H1 & H2 & ->) | [(-> & w & f & body & tr & bs & pad & -> & Hw & Hf & Hd & Wb & Wt & Lt & Lp & Hb & Hv & Hh & Hm) | [(-> & level & block & H) | (-> & H)]]].
  - pose proof (P_C06.C06_valid_encodings_decode ts chunk (repeat 0 (N.to_nat size)) [] H1 (Forall_nil _) H2 ltac:(lia) (or_introl eq_refl)) as E.
    rewrite app_nil_r in E. rewrite E, SZ, app_nil_r. reflexivity.
  - assert (Z : P_C11.zlib_stream [16 * w + 8; f] body tr [] bs).
    { unfold P_C11.zlib_stream. repeat match goal with |- _ /\ _ => split end; eauto 8.
      rewrite !wf_bytes_app. repeat split; auto; [| apply Forall_nil].
      apply wf_bytes_cons; split; [lia |]. apply wf_bytes_cons; split; [exact Hf | apply Forall_nil]. }
    assert (WZ : wf_bytes (repeat 0 (N.to_nat size))).
    { apply Forall_forall. intros x Hx. apply repeat_spec in Hx. subst x. reflexivity. }
    rewrite (P_C11.C11_checksum_ignored_at_the_end _ _ _ _ _ Z WZ) by (rewrite Hm; lia). cbn [bind]. rewrite Hm, SZ, app_nil_r. reflexivity.
  - unfold udif_other. change (2147483654 =? 2147483654) with true. cbv iota.
    rewrite (P_C12.C12_valid_stream_decodes_partial _ _ _ _ (repeat 0 (N.to_nat size)) H) by lia. cbn [bind]. rewrite SZ, app_nil_r. reflexivity.
  - unfold udif_other. change (2147483655 =? 2147483654) with false. cbv iota.
    pose proof (P_C56.C56_content_partial data chunk [] (repeat 0 (N.to_nat size)) (S (length data)) H (Forall_nil _) ltac:(lia) ltac:(lia) ltac:(lia)) as E.
    rewrite app_nil_r in E. rewrite E. cbn [bind]. rewrite SZ, app_nil_r. reflexivity.
Qed.

Lemma holds_piece file fo fe e chunk : udif_range_ok fo fe e -> udif_holds file e chunk ->
  udif_complete udif_codec file e /\ udif_piece udif_codec file e = chunk.
Proof.
  intros (HT & Hp & _) (L & Hz & Hr & Hc).
  assert (C : udif_is_compressed e = true -> udif_codec (ue_type e) (bytes_at file (ue_offset e) (ue_size e)) (512 * ue_sectors e) = Ok chunk).
  { intros E. apply codec_ok; [apply Hc; exact E | exact L |].
    destruct HT as [HT | [HT | [_ HT]]]; [| | change (2 ^ 31) with 2147483648; lia]; exfalso; revert E HT; unfold udif_is_compressed, udif_is_zero, udif_is_raw; intros E HT.
    - apply andb_prop in E as [E _]. apply N.leb_le in E. apply orb_prop in HT as [HT | HT]; apply N.eqb_eq in HT; rewrite HT in E; vm_compute in E; congruence.
    - apply andb_prop in E as [E _]. apply N.leb_le in E. apply N.eqb_eq in HT; rewrite HT in E; vm_compute in E; congruence. }
  split.
  - split; [intros E; apply Hr; exact E |]. intros E. destruct (Hc E) as (H1 & H2 & _). repeat split; auto. exists chunk. auto.
  - unfold udif_piece. destruct (udif_is_zero e) eqn:E1; [rewrite Hz by reflexivity; f_equal; unfold len in L; lia |].
    destruct (udif_is_raw e) eqn:E2; [symmetry; apply Hr; reflexivity |].
    destruct HT as [HT | [HT | [HT _]]]; try congruence. rewrite C by exact HT. reflexivity.
Qed.

(** An image made from a disk, in chunks that are stored, zero or compressed with ADC, zlib,
    bzip2 or LZFSE by any compressor: under every history of reads and seeks it answers as the
    disk does. Missing: what C30, C10, C12 and C56 refute, that is ranges across multiples of
    8 MiB, compressed ranges with the same offset, DEFLATE blocks without distance code, bzip2
    streams with several or large blocks, LZFSE blocks of version 1 or with little data. *)
Theorem C57_image_shows_the_disk_partial :
  forall plist file tables chunks, len file < two64 -> udif_footer_ok file ->
  0 < udif_plist_size file <= 65536 -> plist (udif_plist_data file) = Ok tables -> Forall (fun t => len t < two64) tables ->
  udif_tables_ok (udif_fork_offset file) (udif_fork_end file) tables ->
  Forall2 (udif_holds file) (udif_ranges tables) chunks ->
  udif_fits (udif_ranges tables) -> udif_geometry (udif_ranges tables) -> udif_offsets_differ (udif_ranges tables) ->
  let disk := concat chunks in
  len disk < two63 ->
  exists v, udif_open plist file = Ok v /\ uf_media_size v = len disk /\
    forall ops, seeks_ok (len disk) disk 0 ops ->
    let calls := run (udif_stream_step udif_codec file v) udif_start ops in
    snd (fst calls) = fst (run (file_step (len disk) disk) 0 ops) /\
    snd calls = snd (run (file_step (len disk) disk) 0 ops).
Proof.
  intros plist file tables chunks Hl Hf Hps Hpl Htl Ht Hh Hfit Hgeo Hd disk Hsz.
  assert (HR : Forall (udif_range_ok (udif_fork_offset file) (udif_fork_end file)) (udif_ranges tables)) by apply Ht.
  assert (HC : Forall (udif_complete udif_codec file) (udif_ranges tables) /\ flat_map (udif_piece udif_codec file) (udif_ranges tables) = disk).
  { unfold disk. clear - Hh HR. induction Hh as [| e chunk es chunks He Hes IH]; [split; [constructor | reflexivity] |].
    apply Forall_cons_iff in HR as [H1 H2]. destruct (IH H2) as [I1 I2]. destruct (holds_piece _ _ _ _ _ H1 He) as [P1 P2].
    split; [constructor; assumption |]. cbn [flat_map concat]. rewrite P2, I2. reflexivity. }
  destruct HC as [HC HD].
  pose proof (P_C30.C30_reads_are_the_content_partial udif_other plist file tables Hl Hf Hps Hpl Htl Ht HC Hfit Hgeo Hd) as [_ HP].
  unfold udif_content in HP. fold udif_codec in HP. rewrite HD in HP. exact (HP Hsz).
Qed.
Print Assumptions C57_image_shows_the_disk_partial.

(** ** A case: a sector with LZFSE, a raw one and one of zeros *)
Import Lzfse_spec.
Ltac splits := repeat match goal with |- _ /\ _ => split end.
Ltac easy_goal := solve [vm_compute; reflexivity | vm_compute; intros; discriminate | vm_compute; lia
  | repeat (apply Forall_cons; [vm_compute; reflexivity |]); apply Forall_nil].
Ltac step_goal := splits; easy_goal.
Definition sparse (n : nat) (l : list (N * N)) : list N :=
  map (fun i => fold_right (fun '(j, f) a => if j =? i then f else a) 0 l) (seqN 0 n).
Definition C57_block : fse_block := {|
  b_l := sparse 20 [(4, 64)]; b_m := sparse 20 [(19, 64)]; b_d := sparse 64 [(4, 256)]; b_u := sparse 256 [(1, 256); (2, 256); (3, 256); (4, 256)];
  b_table := [0; 143; 2; 0; 0; 0; 0; 0; 0; 0; 0; 60; 10; 0; 143; 14; 0; 0; 0; 0; 0; 0; 0; 0; 0; 0; 0; 0; 0; 0; 192; 163; 243; 232; 60; 58; 143; 14; 0; 0; 0; 0; 0; 0; 0; 0; 0; 0; 0; 0; 0; 0; 0; 0; 0; 0; 0; 0; 0; 0; 0; 0; 0; 0; 0; 0; 0; 0; 0; 0; 0; 0; 0; 0; 0; 0; 0; 0; 0; 0; 0; 0; 0; 0; 0; 0; 0; 0; 0; 0; 0; 0; 0; 0; 0; 0; 0; 0; 0; 0; 0];
  b_literals := [1; 2; 3; 4]; b_triples := [(4, 508, 4)];
  b_states := [1; 481; 531; 843]; b_l_state := 7; b_m_state := 60; b_d_state := 200;
  b_literal_padding := 0; b_triple_padding := 0;
  b_literal_data := [0; 0; 0; 68]; b_triple_data := [0; 0; 128; 24] |}.
Lemma C57_block_valid : fse_block_valid C57_block.
Proof.
  unfold fse_block_valid. splits; try easy_goal.
  - exists [false; false; false; false]. split; [vm_compute; reflexivity | vm_compute; lia].
  - exists [], ([false; true] ++ [false; false] ++ [false; true] ++ [false; false] ++ []), [false; false; false; false; false; false; false; false; false; false; false; false; false; false; false; false; false; false; false; false; false; false; false; false]. splits; [easy_goal | easy_goal |].
    eapply literal_next with (x := 5); [exists 256, 2%nat; step_goal |].
    eapply literal_next with (x := 900); [exists 256, 2%nat; step_goal |].
    eapply literal_next with (x := 77); [exists 256, 2%nat; step_goal |].
    eapply literal_next with (x := 300); [exists 256, 2%nat; step_goal |].
    apply literal_end.
  - exists [], ([] ++ [false; false; false; true; true; false; false; false; true; false; false] ++ [false] ++ []), [false; false; false; false; false; false; false; false; false; false; false; false; false; false; false; false; false; false; false; false]. splits; [easy_goal | easy_goal |].
    eapply triple_next with (xl := 7) (xm := 60) (xd := 200).
    { exists 4, [], 0, 0. splits; [exists 64, 0%nat; step_goal | easy_goal ..]. }
    { exists 19, [], 11, 196. splits; [exists 64, 0%nat; step_goal | easy_goal ..]. }
    { exists 4, [], 1, 0. splits; [exists 256, 0%nat; step_goal | easy_goal ..]. }
    apply triple_end.
Qed.
Definition C57_data : list N := Eval vm_compute in Lzfse_spec.block_bytes 512 (Fse C57_block) ++ [0x62; 0x76; 0x78; 0x24].
Definition C57_chunk : list N := Eval vm_compute in flat_map (fun _ => [1; 2; 3; 4]) (seqN 0 128).
Lemma C57_parts : C57_data = block_bytes (len C57_chunk - len (A := N) []) (Fse C57_block) ++ [0x62; 0x76; 0x78; 0x24] /\
  block_with_data (Fse C57_block) /\ block_meaning [] (Fse C57_block) = Some C57_chunk /\ len C57_chunk = 512.
Proof. split; [vm_compute; reflexivity |]. split; [vm_compute; discriminate |]. split; vm_compute; reflexivity. Qed.
Lemma C57_stream : lzfse_stream block_with_data [] C57_data C57_chunk.
Proof.
  destruct C57_parts as (E1 & E2 & E3 & E4). pose proof (C57_block_valid : block_valid (Fse C57_block)) as V. rewrite E1. clear E1.
  generalize dependent (Fse C57_block). generalize dependent C57_chunk. intros chunk E4 b E2 E3 V.
  apply (stream_block block_with_data [] b chunk); auto; [rewrite E4; reflexivity | apply stream_end].
Qed.
Definition C57_file : list N := Eval vm_compute in P_C30.image (C57_data ++ repeat 7 512) 1.
Definition C57_size : N := Eval vm_compute in len C57_data.
Definition C57_tables : list (list N) := Eval vm_compute in
  [P_C30.table 0 [P_C30.entry 0x80000007 0 1 0 C57_size; P_C30.entry 1 1 1 C57_size 512; P_C30.entry 0xffffffff 2 0 0 0]; P_C30.table 2 [P_C30.entry 2 0 1 0 0]].
Lemma C57_file_parts : C57_data = bytes_at C57_file 0 C57_size /\ repeat 7 512 = bytes_at C57_file C57_size 512 /\
  C57_size + 512 <=? len C57_file = true.
Proof. split; [vm_compute; reflexivity |]. split; vm_compute; reflexivity. Qed.
Lemma C57_ranges : udif_ranges C57_tables =
    [{| ue_type := 0x80000007; ue_start := 0; ue_sectors := 1; ue_offset := 0; ue_size := C57_size |};
     {| ue_type := 1; ue_start := 1; ue_sectors := 1; ue_offset := C57_size; ue_size := 512 |};
     {| ue_type := 2; ue_start := 0; ue_sectors := 1; ue_offset := 0; ue_size := 0 |}].
Proof. vm_compute. reflexivity. Qed.
Lemma C57_holds : Forall2 (udif_holds C57_file) (udif_ranges C57_tables) [C57_chunk; repeat 7 512; repeat 0 512].
Proof.
  rewrite C57_ranges. destruct C57_file_parts as (F1 & F2 & F3). destruct C57_parts as (_ & _ & _ & E4). pose proof C57_stream as S.
  assert (L7 : len (repeat 7 512) = 512) by reflexivity. assert (L0 : len (repeat 0 512) = 512) by reflexivity.
  assert (R0 : repeat 0 512 = repeat 0 (length (repeat 0 512))) by (rewrite repeat_length; reflexivity).
  assert (SZ : C57_size < two32) by reflexivity.
  apply N.leb_le in F3. revert F1 F2 F3 E4 S L7 L0 R0 SZ.
  generalize C57_file, C57_size, C57_data, C57_chunk, (repeat 7 512), (repeat 0 512). intros f sz d c l7 l0 F1 F2 F3 E4 S L7 L0 R0 SZ.
  apply Forall2_cons; [| apply Forall2_cons; [| apply Forall2_cons; [| apply Forall2_nil]]]; unfold udif_holds, udif_is_zero, udif_is_raw, udif_is_compressed; cbn [ue_type ue_offset ue_sectors ue_size];
    change (512 * 1) with 512.
  - split; [exact E4 |]. split; [intros H; discriminate H |]. split; [intros H; discriminate H |]. intros _.
    split; [exact SZ |]. split; [lia |]. right. right. right. split; [reflexivity |]. rewrite <- F1. exact S.
  - split; [exact L7 |]. split; [intros H; discriminate H |]. split; [| intros H; discriminate H]. intros _. split; [lia | exact F2].
  - split; [exact L0 |]. split; [intros _; exact R0 |]. split; intros H; discriminate H.
Qed.
Example C57_case :
  udif_footer_ok C57_file /\ 0 < udif_plist_size C57_file <= 65536 /\
  udif_tables_ok (udif_fork_offset C57_file) (udif_fork_end C57_file) C57_tables /\
  Forall2 (udif_holds C57_file) (udif_ranges C57_tables) [C57_chunk; repeat 7 512; repeat 0 512] /\
  udif_fits (udif_ranges C57_tables) /\ udif_geometry (udif_ranges C57_tables) /\ udif_offsets_differ (udif_ranges C57_tables).
Proof.
  split. { unfold udif_footer_ok. split; [vm_compute; discriminate |]. vm_compute. auto. }
  split. { vm_compute. split; [reflexivity | discriminate]. }
  split. { apply (P_C30.tables_ok_sound 0x80000007). vm_compute. reflexivity. }
  split; [exact C57_holds |]. rewrite C57_ranges.
  split; [vm_compute; reflexivity |]. split; [left; vm_compute; discriminate |].
  intros e e' H H' C C'. cbn [In] in H, H'.
  destruct H as [<-|[<-|[<-|[]]]]; [|discriminate C|discriminate C]. destruct H' as [<-|[<-|[<-|[]]]]; [auto|discriminate C'|discriminate C'].
Qed.
