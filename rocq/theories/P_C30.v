(** * C30: UDIF images *)
From Verif Require Import Base BaseLemmas Streams_model Streams_spec Streams_proofs BlockTree_model Blocks_model Blocks_proofs Lru_model Part_spec
  Udif_model Udif_spec Udif_proofs.
Ltac Zify.zify_post_hook ::= idtac.

(** Every file that is opened, for every parser of the property list: its footer is
    well-formed, and there is no property list, or its block tables and the ranges in them
    follow each other, with the types, sizes and offsets they can have. The size is that of
    the data fork, or the sum of the sizes of the ranges. *)
Theorem C30_open :
  forall plist file v, len file < two64 -> udif_open plist file = Ok v ->
  udif_footer_ok file /\
  (udif_plist_size file = 0 /\ uf_media_size v = udif_fork_size file \/
   0 < udif_plist_size file <= 65536 /\ exists tables, plist (udif_plist_data file) = Ok tables /\
     (Forall (fun t => len t < two64) tables ->
      udif_tables_ok (udif_fork_offset file) (udif_fork_end file) tables /\
      uf_media_size v = 512 * udif_sectors (udif_ranges tables) /\ uf_media_size v < two64)).
Proof.
  intros plist file v Hl H. destruct (udif_open_inv plist file v Hl H) as [Hf [[H0 ->]|H']]; (split; [assumption|]); [left|right; assumption].
  split; [assumption|reflexivity].
Qed.
Print Assumptions C30_open.

(** Every image of ranges: all histories of reads and seeks answer as the content, the
    concatenation of the raw, zero and decompressed ranges. [other] stands for the bzip2
    and LZFSE decompressors. Missing, see the refutations below: ranges that cross or
    reach a multiple of 8 MiB, and compressed ranges that share the start of their data. *)
Theorem C30_reads_are_the_content_partial :
  forall other plist file tables, len file < two64 -> udif_footer_ok file ->
  0 < udif_plist_size file <= 65536 -> plist (udif_plist_data file) = Ok tables -> Forall (fun t => len t < two64) tables ->
  udif_tables_ok (udif_fork_offset file) (udif_fork_end file) tables ->
  Forall (udif_complete (udif_decompress other) file) (udif_ranges tables) ->
  udif_fits (udif_ranges tables) -> udif_geometry (udif_ranges tables) -> udif_offsets_differ (udif_ranges tables) ->
  let content := udif_content (udif_decompress other) file tables in
  len content = 512 * udif_sectors (udif_ranges tables) /\
  (len content < two63 ->
   exists v, udif_open plist file = Ok v /\ uf_media_size v = len content /\
     forall ops, seeks_ok (len content) content 0 ops ->
     let calls := run (udif_stream_step (udif_decompress other) file v) udif_start ops in
     snd (fst calls) = fst (run (file_step (len content) content) 0 ops) /\
     snd calls = snd (run (file_step (len content) content) 0 ops)).
Proof.
  intros other plist file tables Hl Hf Hps Hpl Htl Ht Hc Hfit Hgeo Hd content.
  destruct (udif_open_ok plist file tables Hl Hf Hps Hpl Htl Ht Hfit Hgeo) as (v & Eo & V1 & V2 & V3 & V4).
  set (rs := udif_ranges tables) in *. destruct Ht as (_ & Hr & m & Hm).
  assert (Hm' : Forall (fun e => udif_is_compressed e = true -> ue_type e = uf_compressed v) rs).
  { rewrite V3. apply Forall_forall. intros e He Hce. rewrite Forall_forall in Hm. rewrite (method_all rs m); [auto|apply Forall_forall; assumption|eauto]. }
  assert (Hty : Forall (typed (udif_decompress other) file (uf_compressed v) (udif_fork_offset file) (udif_fork_end file)) rs).
  { rewrite Forall_forall in *. intros e He. split; [|split]; auto. }
  assert (Elen : len content = 512 * udif_sectors rs).
  { destruct (rpieces (udif_decompress other) file (uf_compressed v) Hl _ _ rs Hty 0) as (P1 & P2 & _).
    unfold content, udif_content. fold rs. rewrite <- P1. rewrite (len_flat_pieces _ _ P2). apply total_ranges. }
  split; [assumption|]. intros Hsz. exists v. split; [assumption|]. split; [congruence|].
  intros ops Hops. rewrite Elen in *. unfold udif_stream_step. rewrite V2.
  assert (Hex : exact_rd (cache_ok (of_range (udif_decompress other) file (uf_compressed v) rs) 64) (512 * udif_sectors rs) content (udif_rd (udif_decompress other) file v)).
  { intros c o n Hc' Ho Hn. unfold udif_rd. rewrite V1, V2. apply (blocks_rd_exact _ _ _ _ (udif_step_exact (udif_decompress other) file (uf_compressed v) Hl _ _ rs v Hty Hd eq_refl V4)); auto.
    eapply N.lt_trans; [exact Hsz|reflexivity]. }
  destruct (run_exact _ _ _ _ Hex (N.eq_le_incl _ _ Elen) Hsz ops (lru_new 64) 0) as (s' & E & _); [apply cache_ok_new|reflexivity|exact Hops|].
  unfold udif_start. rewrite E. cbn [fst snd]. auto.
Qed.
Print Assumptions C30_reads_are_the_content_partial.

(** Every image without a property list: the content is the data fork. *)
Theorem C30_raw_reads :
  forall plist decompress file, len file < two64 -> udif_footer_ok file -> udif_plist_size file = 0 -> udif_fork_end file <= len file ->
  let size := udif_fork_size file in
  let content := bytes_at file (udif_fork_offset file) size in
  size < two63 ->
  exists v, udif_open plist file = Ok v /\ uf_media_size v = size /\
    forall ops, seeks_ok size content 0 ops ->
    let calls := run (udif_stream_step decompress file v) udif_start ops in
    snd (fst calls) = fst (run (file_step size content) 0 ops) /\ snd calls = snd (run (file_step size content) 0 ops).
Proof.
  intros plist decompress file Hl Hf Hp He size content Hs. eexists. split.
  - unfold udif_open. destruct (footer_shape file Hl) as [(_ & H512 & -> & E)|[H _]]; [|contradiction].
    destruct (N.ltb_spec (len file) 512) as [H|_]; [lia|]. cbn [negb check bind]. rewrite E. cbn [bind].
    destruct Hf as (_ & _ & _ & Hfe). unfold udif_fork_end in Hfe. unfold add_chk at 1. apply N.ltb_lt in Hfe. rewrite Hfe. cbn [bind].
    rewrite Hp. cbn [N.eqb]. reflexivity.
  - cbn [uf_media_size]. split; [reflexivity|]. intros ops Hops.
    match goal with |- context [udif_stream_step _ _ ?x] => set (v := x) end.
    pose proof (udif_raw_exact decompress file v Hl eq_refl He) as Hex.
    change (uf_media_size v) with size in Hex. change (uf_fork_offset v) with (udif_fork_offset file) in Hex.
    assert (Hlc : len (bytes_at file (udif_fork_offset file) size) <= size) by (rewrite len_bytes_at; lia).
    destruct (run_exact _ _ _ _ Hex Hlc Hs ops (lru_new 64) 0 I eq_refl Hops) as (s' & E & _).
    unfold udif_stream_step, udif_start. change (uf_media_size v) with size. rewrite E. auto.
Qed.
Print Assumptions C30_raw_reads.

(** ** Cases *)
Definition entry (type start sectors offset size : N) : list N :=
  be_bytes 4 type ++ [0; 0; 0; 0] ++ be_bytes 8 start ++ be_bytes 8 sectors ++ be_bytes 8 offset ++ be_bytes 8 size.
Definition table (start : N) (entries : list (list N)) : list N :=
  [0x6d; 0x69; 0x73; 0x68; 0; 0; 0; 1] ++ be_bytes 8 start ++ repeat 0 184 ++ be_bytes 4 (len entries) ++ concat entries.
Definition image (fork : list N) (plist_size : N) : list N :=
  fork ++ [1] ++ [0x6b; 0x6f; 0x6c; 0x79; 0; 0; 0; 4] ++ repeat 0 16 ++ be_bytes 8 0 ++ be_bytes 8 (len fork) ++ repeat 0 176 ++
  be_bytes 8 (len fork) ++ be_bytes 8 plist_size ++ repeat 0 280.
(** A sector compressed with ADC, and a raw one. *)
Definition fork : list N := flat_map (fun n => 0xff :: repeat n 128) [1; 2; 3; 4] ++ repeat 7 512.
Definition file : list N := image fork 1.
Definition no_other (_ : N) (_ : list N) (_ : N) : res (list N) := Err.
(** A compressed, a raw and a zero range, in two tables. *)
Definition tables : list (list N) :=
  [table 0 [entry 0x80000004 0 1 0 516; entry 0x7ffffffe 0 0 0 0; entry 1 1 1 516 512; entry 0xffffffff 2 0 0 0]; table 2 [entry 2 0 1 0 0]].
Definition expected : list N := repeat 1 128 ++ repeat 2 128 ++ repeat 3 128 ++ repeat 4 128 ++ repeat 7 512 ++ repeat 0 512.

(** A check of the tables. *)
Definition range_okb (fo fe : N) (e : udif_entry) : bool :=
  (udif_is_zero e || udif_is_raw e || udif_is_compressed e && (ue_sectors e <=? 2048)) &&
  (0 <? ue_sectors e) && (fo <=? ue_offset e) && (ue_offset e <? fe) && (ue_offset e + ue_size e <=? fe).
Fixpoint consecutiveb (start : N) (l : list udif_entry) : bool :=
  match l with [] => true | e :: l => (ue_start e =? start) && consecutiveb (start + ue_sectors e) l end.
Definition table_okb (t : list N) : bool :=
  (204 + 40 * udif_table_number t <=? len t) && Vhd_model.same_bytes (bytes_at t 0 4) [0x6d; 0x69; 0x73; 0x68] && (field_be t 4 4 =? 1).
Fixpoint followb (sector : N) (tables : list (list N)) : bool :=
  match tables with
  | [] => true
  | t :: tables => table_okb t && (udif_table_start t =? sector) && consecutiveb 0 (udif_table_ranges t) &&
      followb (sector + udif_sectors (udif_table_ranges t)) tables
  end.
Lemma tables_ok_sound m fo fe tables : followb 0 tables && forallb (range_okb fo fe) (udif_ranges tables) &&
    forallb (fun e => negb (udif_is_compressed e) || (ue_type e =? m)) (udif_ranges tables) = true ->
  udif_tables_ok fo fe tables.
Proof.
  assert (Hc : forall l n, consecutiveb n l = true -> udif_consecutive n l).
  { induction l as [|e l IH]; intros n H; [exact I|]. cbn [consecutiveb] in H. apply andb_true_iff in H as [H1 H2]. apply N.eqb_eq in H1.
    split; [assumption|]. apply IH. assumption. }
  assert (Hf : forall l n, followb n l = true -> udif_tables_follow n l).
  { induction l as [|t l IH]; intros n H; [exact I|]. cbn [followb] in H. rewrite !andb_true_iff in H. destruct H as [[[H1 H2] H3] H4].
    apply N.eqb_eq in H2. split; [|split; [assumption|split; auto]]. unfold table_okb in H1. rewrite !andb_true_iff in H1. destruct H1 as [[H1 H5] H6].
    split; [apply N.leb_le; assumption|]. split; [apply Vhd_proofs.same_bytes_true; assumption|apply N.eqb_eq; assumption]. }
  intros H. rewrite !andb_true_iff in H. destruct H as [[H1 H2] H3]. split; [auto|]. rewrite forallb_forall in H2, H3. split.
  - apply Forall_forall. intros e He. specialize (H2 e He). unfold range_okb in H2. rewrite !andb_true_iff, !orb_true_iff, andb_true_iff in H2.
    rewrite !N.ltb_lt, !N.leb_le in H2. unfold udif_range_ok. tauto.
  - exists m. apply Forall_forall. intros e He Hce. specialize (H3 e He). rewrite Hce in H3. apply N.eqb_eq. exact H3.
Qed.

Example C30_case :
  udif_footer_ok file /\ 0 < udif_plist_size file <= 65536 /\
  udif_tables_ok (udif_fork_offset file) (udif_fork_end file) tables /\
  Forall (udif_complete (udif_decompress no_other) file) (udif_ranges tables) /\
  udif_fits (udif_ranges tables) /\ udif_geometry (udif_ranges tables) /\ udif_offsets_differ (udif_ranges tables) /\
  udif_content (udif_decompress no_other) file tables = expected.
Proof.
  assert (Er : udif_ranges tables =
    [{| ue_type := 0x80000004; ue_start := 0; ue_sectors := 1; ue_offset := 0; ue_size := 516 |};
     {| ue_type := 1; ue_start := 1; ue_sectors := 1; ue_offset := 516; ue_size := 512 |};
     {| ue_type := 2; ue_start := 0; ue_sectors := 1; ue_offset := 0; ue_size := 0 |}]) by (vm_compute; reflexivity).
  assert (Ef : udif_fork_offset file = 0 /\ udif_fork_end file = 1028 /\ udif_plist_size file = 1 /\ len file = 1541) by (vm_compute; auto).
  destruct Ef as (E1 & E2 & E3 & E4).
  split. { unfold udif_footer_ok. rewrite E2, E4. split; [lia|]. vm_compute. auto. }
  split; [lia|]. split.
  { apply (tables_ok_sound 0x80000004). vm_compute. reflexivity. }
  rewrite Er. split.
  { assert (Ed : exists data, udif_decompress no_other 0x80000004 (bytes_at file 0 516) 512 = Ok data /\ len data = 512).
    { eexists. split; vm_compute; reflexivity. }
    clear Er. generalize dependent file. intros f _ _ _ E4 Ed.
    constructor; [|constructor; [|constructor; [|constructor]]]; unfold udif_complete, udif_is_raw, udif_is_compressed; rewrite E4; cbn [ue_type ue_offset ue_sectors ue_size].
    - split; [intros H; discriminate H|]. intros _. split; [reflexivity|]. split; [lia|exact Ed].
    - split; [intros _; lia|intros H; discriminate H].
    - split; intros H; discriminate H. }
  clear E1 E2 E3 E4 Er. split; [vm_compute; reflexivity|]. split; [left; vm_compute; discriminate|]. split; [|vm_compute; reflexivity].
  generalize dependent file. intros _ e e' H H' C C'. cbn [In] in H, H'.
  destruct H as [<-|[<-|[<-|[]]]]; [|discriminate C|discriminate C]. destruct H' as [<-|[<-|[<-|[]]]]; [auto|discriminate C'|discriminate C'].
Qed.
Example C30_raw_case : udif_footer_ok (image fork 0) /\ udif_plist_size (image fork 0) = 0 /\ udif_fork_end (image fork 0) <= len (image fork 0).
Proof.
  split; [|vm_compute; split; [reflexivity|discriminate]]. unfold udif_footer_ok. split; [vm_compute; discriminate|]. vm_compute. auto.
Qed.

(** ** Where the property does not hold *)
Definition outcome (tables : list (list N)) : res N :=
  v <- udif_open (fun _ => Ok tables) file ;; Ok (uf_media_size v).
Ltac tables_fine :=
  apply (tables_ok_sound 0x80000004); vm_compute; reflexivity.

(** A range that crosses a multiple of 8 MiB, as ranges of 512 sectors do that start at
    sector 40, makes opening the image panic. *)
Theorem C30_crossing_range_refuted :
  let tables := [table 0 [entry 2 0 16383 0 0; entry 2 16383 2 0 0]] in
  udif_tables_ok (udif_fork_offset file) (udif_fork_end file) tables /\
  udif_sectors (udif_ranges tables) = 16385 /\ outcome tables = Panic.
Proof. split; [tables_fine|]. vm_compute. auto. Qed.
Print Assumptions C30_crossing_range_refuted.

(** A zero range of more than 8 MiB is rejected. *)
Theorem C30_long_range_refuted :
  let tables := [table 0 [entry 2 0 16385 0 0]] in
  udif_tables_ok (udif_fork_offset file) (udif_fork_end file) tables /\
  udif_sectors (udif_ranges tables) = 16385 /\ outcome tables = Err.
Proof. split; [tables_fine|]. vm_compute. auto. Qed.
Print Assumptions C30_long_range_refuted.

(** Sizes that do not fit 64 bits make opening the image panic. *)
Theorem C30_size_refuted :
  outcome [table 0 [entry 2 0 0x7fffffffffffff 0 0; entry 2 0x7fffffffffffff 0x7fffffffffffff 0 0]] = Panic /\
  outcome [table 0 [entry 2 0 0x7fffffffffffff 0 0]] = Panic.
Proof. vm_compute. auto. Qed.
Print Assumptions C30_size_refuted.

(** A zero range after the last data, at the end of the data fork, is rejected, although
    there is no data in it. *)
Theorem C30_zero_range_at_end_refuted :
  udif_fork_end file = 1028 /\ outcome [table 0 [entry 1 0 1 516 512; entry 2 1 1 1028 0]] = Err /\
  outcome [table 0 [entry 1 0 1 516 512; entry 2 1 1 1027 0]] = Ok 1024.
Proof. vm_compute. auto. Qed.
Print Assumptions C30_zero_range_at_end_refuted.

(** Two compressed ranges with their data at the same offset: what is read depends on what
    was read before, and can panic. *)
Theorem C30_history_refuted :
  let tables := [table 0 [entry 0x80000004 0 1 0 516; entry 0x80000004 1 2 0 516]] in
  udif_tables_ok (udif_fork_offset file) (udif_fork_end file) tables /\
  let reads ops := v <- udif_open (fun _ => Ok tables) file ;; Ok (snd (run (udif_stream_step (udif_decompress no_other) file v) udif_start ops)) in
  reads [Seek (SeekStart 1024); Read 1] = Ok [Position (Ok 1024); Data (Ok [0])] /\
  reads [Read 1; Seek (SeekStart 1024); Read 1] = Ok [Data (Ok [1]); Position (Ok 1024); Data Panic].
Proof. split; [tables_fine|]. vm_compute. auto. Qed.
Print Assumptions C30_history_refuted.
