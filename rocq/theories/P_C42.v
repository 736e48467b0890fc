(** * C42: reads of an EWF image return the media *)
From Verif Require Import Base BaseLemmas Checksums_spec Streams_model Streams_spec Streams_proofs BlockTree_model BlockTree_proofs Blocks_model Blocks_proofs
  Lru_model Lru_spec Lru_proofs Part_spec Paths_model Paths_spec Deflate_model Deflate_spec Udif_proofs P_C11 P_C41 Ewf_model Ewf_spec Ewf_proofs.
Ltac Zify.zify_post_hook ::= idtac.

(** The extension of the first segment file. *)
Definition first_extension (schema : naming_schema) : list N := [schema_first schema; 0x30; 0x31].

Lemma open_schema header header2 resolve schema : ewf_open header header2 resolve (Some (first_extension schema)) =
  ewf_read_segments header header2 (N.to_nat 65535) resolve schema 1 ewf_image_new 0 (lru_new 16).
Proof. unfold ewf_open, first_extension. generalize (N.to_nat 65535). intros fuel. destruct schema; reflexivity. Qed.

Lemma files_wf hok h2ok find names n v v' files cs : ewf_segments hok h2ok find names n v v' files cs ->
  Forall (fun f => wf_bytes f /\ len f < two64) files.
Proof. induction 1; constructor; auto. Qed.

Lemma open_ok header header2 resolve find schema v files cs :
  ewf_segments (fun d => header d = Ok tt) (fun d => header2 d = Ok tt) find (extensions (schema_base schema) (schema_first schema)) 1 None v files cs ->
  (forall e f, find e = Some f -> resolve e = Ok (Some f)) -> len cs <= v_chunks v ->
  exists t cache, ewf_open header header2 resolve (Some (first_extension schema)) = Ok (image_of (Some v) t, cache) /\
    lru_size cache = 16 /\ fifo_rel cache (cached_files files) /\ volume_ok v /\
    forall x, x < v_chunk_size v * len cs -> exists c, nth_error cs (N.to_nat (x / v_chunk_size v)) = Some c /\
      bt_get t x = Ok (Some (chunk_range (x / v_chunk_size v * v_chunk_size v) c)).
Proof.
  intros Hseg Hres Hmax. rewrite open_schema.
  pose proof (segments_bound header header2 resolve find schema Hres _ _ _ _ _ Hseg ltac:(lia)) as Hb.
  destruct (segments_ok header header2 resolve find schema Hres _ _ _ _ _ Hseg [] [] (bt_new 0 0 0) (lru_new 16) (N.to_nat 65535)) as (t & cache & E & Hin & Hsz & Hrel); auto.
  { unfold len in Hb. clear - Hb. set (x := 65535). assert (14972 <= x) by (unfold x; discriminate). clearbody x. lia. }
  { reflexivity. }
  { split; [reflexivity|]. split; [constructor|]. split; [cbn; lia|]. reflexivity. }
  exists t, cache. split; [exact E|]. split; [assumption|]. split; [exact Hrel|]. cbn [chunks_in app] in Hin. destruct Hin as [Hv Hins]. split; [assumption|].
  destruct (tree_ok v cs Hv Hmax) as (t' & Et & Hx). rewrite Hins in Et. injection Et as <-. exact Hx.
Qed.

(** An image of at most 16 segment files opens, and for every history of reads and seeks
    the answers are those of a file with its media: the data of the chunks, up to the size
    of the media. The header sections are taken to be parsed. Missing: more segment files,
    see [C42_more_segments_refuted]; two compressed chunks at the same offset of different
    segment files, see [C42_same_offset_refuted]; chunks that do not start in the order of
    the media, see [C42_open_refuted]. *)
Theorem C42_reads_are_the_media_partial :
  forall header header2 resolve find schema v files cs datas,
  ewf_segments (fun d => header d = Ok tt) (fun d => header2 d = Ok tt) find (extensions (schema_base schema) (schema_first schema)) 1 None v files cs ->
  (forall e f, find e = Some f -> resolve e = Ok (Some f)) ->
  len files <= 16 -> len cs <= v_chunks v ->
  Forall2 (ewf_chunk_holds files (v_chunk_size v)) cs datas -> ewf_full (v_chunk_size v) datas -> ewf_offsets_differ cs datas ->
  v_media_size v <= len (concat datas) -> v_media_size v < two63 ->
  let media := bytes_at (concat datas) 0 (v_media_size v) in
  exists image cache, ewf_open header header2 resolve (Some (first_extension schema)) = Ok (image, cache) /\
    ei_media_size image = v_media_size v /\
    forall ops, seeks_ok (v_media_size v) media 0 ops ->
    exists s, run (ewf_stream_step image) (ewf_start cache) ops =
      ((s, fst (run (file_step (v_media_size v) media) 0 ops)), snd (run (file_step (v_media_size v) media) 0 ops)).
Proof.
  intros header header2 resolve find schema v files cs datas Hseg Hres Hn Hmax Hholds Hfull Hdiff Hmedia H63 media.
  destruct (open_ok header header2 resolve find schema v files cs Hseg Hres Hmax) as (t & cache & E & Hsz & Hrel & Hv & Htree).
  exists (image_of (Some v) t), cache. split; [exact E|]. split; [reflexivity|]. intros ops Hops.
  assert (Hg : forall k f, 1 <= k -> nth_error files (N.to_nat (k - 1)) = Some f -> lru_get cache k = Some (Some f)).
  { intros k f Hk Hf. unfold lru_get. destruct Hrel as (_ & _ & _ & ->). rewrite cached_find. destruct (N.leb_spec k (len files - 16)); [lia|].
    destruct (N.eqb_spec k 0); [lia|]. rewrite Hf. reflexivity. }
  pose proof (ewf_step_exact files v cs datas t cache (files_wf _ _ _ _ _ _ _ _ _ Hseg) Hv Htree Hholds Hfull Hdiff Hmedia Hg) as Hstep.
  assert (Hstep' : exact_step (fun s => fst s = cache /\ cache_ok (of_chunk v cs datas) 64 (snd s)) (v_media_size v) media (ewf_step (image_of (Some v) t))).
  { intros s o r HI Ho Hr Hor. destruct (Hstep s o r HI Ho Hr Hor) as (s' & k & E1 & E2 & E3). exists s', k. split; [|auto]. rewrite E1. do 2 f_equal.
    unfold media. rewrite bytes_at_bytes_at by lia. reflexivity. }
  destruct (run_exact _ (v_media_size v) media _ (blocks_rd_exact _ _ _ _ Hstep' ltac:(unfold two63, two64 in *; lia))) with (ops := ops) (s := (cache, @lru_new (list N) 64)) (p := 0)
    as (s' & E1 & _).
  - unfold media. rewrite len_bytes_at. lia.
  - assumption.
  - split; [reflexivity|]. apply cache_ok_new.
  - unfold two63. lia.
  - assumption.
  - exists s'. exact E1.
Qed.
Print Assumptions C42_reads_are_the_media_partial.

(** With more than 16 segment files, of whichever content, the image opens, and no read
    from a chunk that is in neither of the last 16 of them succeeds. *)
Theorem C42_more_segments_refuted :
  forall header header2 resolve find schema v files cs,
  ewf_segments (fun d => header d = Ok tt) (fun d => header2 d = Ok tt) find (extensions (schema_base schema) (schema_first schema)) 1 None v files cs ->
  (forall e f, find e = Some f -> resolve e = Ok (Some f)) -> len cs <= v_chunks v ->
  exists image cache, ewf_open header header2 resolve (Some (first_extension schema)) = Ok (image, cache) /\
    forall o c n, o < v_media_size v -> nth_error cs (N.to_nat (o / v_chunk_size v)) = Some c ->
    ec_segment c + 16 <= len files -> 0 < n -> ec_offset c + v_chunk_size v < two64 ->
    snd (ewf_stream_step image (fst (ewf_start cache), o) (Read n)) = Data Err.
Proof.
  intros header header2 resolve find schema v files cs Hseg Hres Hmax.
  destruct (open_ok header header2 resolve find schema v files cs Hseg Hres Hmax) as (t & cache & E & Hsz & Hrel & Hv & Htree).
  exists (image_of (Some v) t), cache. split; [exact E|]. intros o c n Ho Hc Hs Hn Hoff.
  pose proof (proj1 Hv) as Hbs.
  assert (Hoc : o < v_chunk_size v * len cs).
  { assert (Hl : (N.to_nat (o / v_chunk_size v) < length cs)%nat) by (apply nth_error_Some; congruence). pose proof (N.mul_succ_div_gt o (v_chunk_size v) ltac:(lia)) as G.
    eapply N.lt_le_trans; [exact G|]. apply N.mul_le_mono_l. unfold len. lia. }
  destruct (Htree o Hoc) as (c' & Hc' & Hget). rewrite Hc in Hc'. injection Hc' as <-.
  assert (Hnone : lru_contains cache (ec_segment c) = false).
  { unfold lru_contains. destruct Hrel as (_ & _ & _ & ->). rewrite cached_find. destruct (N.leb_spec (ec_segment c) (len files - 16)); [reflexivity|lia]. }
  assert (Hins : exists cache', lru_insert cache (ec_segment c) None = Ok cache' /\ lru_get cache' (ec_segment c) = Some None).
  { destruct Hrel as (Hu & Hnd & Hlen & Hq). destruct (insert_shape cache (ec_segment c) None) as (cache' & I1 & _ & Sh); [lia|rewrite Hu, len_map; assumption|].
    exists cache'. split; [assumption|].
    unfold lru_get. destruct Sh as [(_ & _ & ->)|(old & rest & _ & _ & _ & ->)]; rewrite hm_get_insert, N.eqb_refl; reflexivity. }
  destruct Hins as (cache' & I1 & Hget').
  assert (Hstep : forall k, 0 < k -> snd (ewf_step (image_of (Some v) t) (fst (ewf_start cache)) o k) = Err).
  { intros k Hk. unfold ewf_start. cbn [fst]. unfold ewf_step, image_of. cbn [ei_tree ei_block_size]. rewrite Hget.
    cbn [bind of_option chunk_range er_segment]. rewrite Hnone, I1. cbn [bind chunk_range er_segment er_media_offset er_data_offset er_data_size er_compressed].
    rewrite Hget'. cbn [of_option bind]. 
    pose proof (N.div_mod o (v_chunk_size v) ltac:(lia)) as Dm. pose proof (N.mod_lt o (v_chunk_size v) ltac:(lia)) as Dl. rewrite (N.mul_comm (v_chunk_size v)) in Dm.
    revert Dm Dl. generalize (o / v_chunk_size v * v_chunk_size v), (o mod v_chunk_size v). intros b rel Dm Dl.
    unfold sub_chk. destruct (N.leb_spec b o); [|lia]. cbn [bind]. destruct (N.leb_spec (o - b) (v_chunk_size v)); [|lia]. cbn [bind].
    destruct (ec_compressed c).
    - unfold ewf_cached. cbn [chunk_range er_data_offset]. reflexivity.
    - cbn [snd]. unfold add_chk. destruct (N.ltb_spec (ec_offset c + (o - b)) two64); [|lia]. reflexivity. }
  unfold ewf_stream_step, stream_step, stream_read. cbn [image_of ei_media_size].
  destruct (N.leb_spec (v_media_size v) o); [lia|].
  set (k := if v_media_size v - o <? n then v_media_size v - o else n). assert (Hk : 0 < k) by (unfold k; destruct (N.ltb_spec (v_media_size v - o) n); lia). clearbody k.
  unfold blocks_rd. cbn [read_blocks]. change (len (@nil N)) with 0. destruct (N.ltb_spec 0 k); [|lia]. destruct (N.leb_spec (v_media_size v) o); [lia|].
  rewrite N.sub_0_r. specialize (Hstep k Hk). cbn [image_of] in Hstep |- *. destruct (ewf_step _ _ o k) as [s' [x| |]]; try discriminate Hstep. reflexivity.
Qed.
Print Assumptions C42_more_segments_refuted.
(** ** Cases *)
Definition with_checksum (d : list N) : list N := d ++ le_bytes 4 (adler32 1 d).
Definition case_header (type : list N) (next size : N) : list N := with_checksum (type ++ le_bytes 8 next ++ le_bytes 8 size ++ repeat 0 40).
Fixpoint case_sections (o : N) (l : list (list N * list N)) (last : list N) : list N :=
  match l with
  | [] => case_header last o 76
  | (type, data) :: l => let next := o + 76 + len data in case_header type next (next - o) ++ data ++ case_sections next l last
  end.
Definition case_file (n : N) (l : list (list N * list N)) (last : list N) : list N :=
  [69; 86; 70; 9; 13; 10; 255; 0; 1] ++ le_bytes 2 n ++ [0; 0] ++ case_sections 13 l last.
Definition case_volume (chunks sectors_per_chunk bytes_per_sector sectors : N) : list N * list N :=
  (name_volume, with_checksum (le_bytes 4 1 ++ le_bytes 4 chunks ++ le_bytes 4 sectors_per_chunk ++ le_bytes 4 bytes_per_sector ++ le_bytes 8 sectors ++ repeat 0 66)).
Definition case_table (base : N) (entries : list N) : list N * list N :=
  (name_table, with_checksum (le_bytes 4 (len entries) ++ repeat 0 4 ++ le_bytes 8 base ++ repeat 0 4) ++ with_checksum (flat_map (le_bytes 4) entries)).
Definition case_find (files : list (list N)) (extension : list N) : option (list N) :=
  match extension with
  | [0x45; a; b] => if (0x30 <=? a) && (0x30 <=? b) then (if a * 10 + b - 528 =? 0 then None else nth_error files (N.to_nat (a * 10 + b - 529))) else None
  | _ => None
  end.
Definition accept_header (_ : list N) : res unit := Ok tt.

(** Two segment files, with a chunk as it is and a compressed one. *)
Definition two_blocks : list stream_block := [Fixed [DLiteral 97; DLiteral 98; DLiteral 99; DLiteral 100]].
Definition two_stream : list N := [120; 156] ++ pack (blocks_bits two_blocks) ++ [0; 0; 0; 0].
Definition two_files : list (list N) := Eval vm_compute in
  [ case_file 1 [case_volume 2 1 4 2; (name_sectors, [1; 2; 3; 4]); case_table 0 [259]] name_next;
    case_file 2 [(name_sectors, two_stream); case_table 0 [89 + 0x80000000]] name_done ].
Definition two_volume : volume := {| v_chunks := 2; v_sectors_per_chunk := 1; v_bytes_per_sector := 4; v_sectors := 2; v_identifier := repeat 0 16 |}.
Definition two_chunks : list ewf_chunk :=
  [ {| ec_segment := 1; ec_offset := 259; ec_size := 4; ec_compressed := false |};
    {| ec_segment := 2; ec_offset := 89; ec_size := len two_stream; ec_compressed := true |} ].
Definition two_datas : list (list N) := [[1; 2; 3; 4]; [97; 98; 99; 100]].
Ltac num := vm_compute; first [reflexivity | discriminate | intros H; discriminate H].
Ltac nums := repeat split; num.
Ltac layout := lazymatch goal with
  | |- ewf_layout ?f ?o [(?t, _, _)] => apply (layout_last f o t 76); [first [left; reflexivity | right; reflexivity]|nums|right; reflexivity|num]
  | |- ewf_layout ?f ?o ((?t, _, ?next) :: _) => let s := eval vm_compute in (next - o) in
      apply (layout_more f o t next s); [num|num|nums|right; reflexivity|num|layout]
  end.


Ltac segment_file := lazymatch goal with |- wf_bytes _ => apply wf_bytesb_iff; num | |- ewf_layout _ _ _ => layout | |- _ = _ => num | |- _ => nums end.
(** An image of two segment files meets the conditions; the media is the eight bytes. *)
Example C42_case :
  ewf_segments (fun d => accept_header d = Ok tt) (fun d => accept_header d = Ok tt) (case_find two_files)
    (extensions (schema_base E01UpperCase) (schema_first E01UpperCase)) 1 None two_volume two_files two_chunks /\
  Forall2 (ewf_chunk_holds two_files (v_chunk_size two_volume)) two_chunks two_datas /\ ewf_full (v_chunk_size two_volume) two_datas /\
  ewf_offsets_differ two_chunks two_datas /\ v_media_size two_volume = len (concat two_datas).
Proof.
  split; [|split; [|split; [|split]]].
  - apply (segments_more _ _ _ _ 1 [0x45; 0x30; 0x31] (nth 0 two_files []) [(name_volume, 13, 183); (name_sectors, 183, 263); (name_table, 263, 371); (name_next, 371, 447)]
      None (Some two_volume) two_volume [nth 0 two_chunks {| ec_segment := 1; ec_offset := 259; ec_size := 4; ec_compressed := false |}]
      [nth 1 two_files []] [nth 1 two_chunks {| ec_segment := 1; ec_offset := 259; ec_size := 4; ec_compressed := false |}]).
    1-7: segment_file.
    + apply (sections_volume _ _ _ _ _ _ _ _ _ two_volume); [reflexivity|right; reflexivity| |nums|].
      { split; [num|]. split; [num|]. split; [num|]. split; [num|]. left. nums. }
      apply sections_sectors. apply (sections_table _ _ 1 (nth 0 two_files []) (Some 263) 263 371 [(name_next, 371, 447)] two_volume (Some two_volume) [] 0 [(259, false)] 259); [nums|reflexivity|num|nums|].
      apply sections_end; [right; reflexivity|]. apply sections_nil.
    + apply (segments_last _ _ _ _ 2 [0x45; 0x30; 0x32] (nth 1 two_files []) [(name_sectors, 13, 101); (name_table, 101, 209); (name_done, 209, 285)]).
      1-7: segment_file.
      apply sections_sectors. apply (sections_table _ _ 2 (nth 1 two_files []) (Some 101) 101 209 [(name_done, 209, 285)] two_volume (Some two_volume) [] 0 [(89, true)] 89); [nums|reflexivity|num|nums|].
      apply sections_end; [left; reflexivity|]. apply sections_nil.
  - constructor; [|constructor; [|constructor]].
    + split; [num|]. exists (nth 0 two_files []). split; [reflexivity|]. split; [num|]. split; num.
    + split; [num|]. exists (nth 1 two_files []). split; [reflexivity|]. split; [num|]. split; [num|].
      exists [120; 156], (pack (blocks_bits two_blocks)), [0; 0; 0; 0], [], two_blocks. split; [num|]. split; [|split; [num|left; reflexivity]].
      split; [|split; [|split; [|split; [|split]]]].
      * exists 7, 156. repeat split. discriminate.
      * apply wf_bytesb_iff. num.
      * reflexivity.
      * exists (repeat false (8 - length (blocks_bits two_blocks) mod 8)). split; [vm_compute; repeat constructor|num].
      * cbn [two_blocks blocks_valid block_valid tokens_valid token_valid]. repeat split; reflexivity.
      * repeat constructor.
  - constructor; [reflexivity|constructor].
  - intros i j c c' d d' Hi Hj Di Dj. destruct i as [|[|i]], j as [|[|j]]; cbn [two_chunks two_datas nth_error] in *; try congruence;
      try (destruct i; discriminate); try (destruct j; discriminate); injection Hi as <-; injection Hj as <-; cbn; discriminate.
  - reflexivity.
Qed.

(** Seventeen segment files, each with a chunk of four bytes: the conditions of
    [C42_more_segments_refuted] are met, and the first chunk is in the first of them. *)
Definition many_file_of (n : N) : list N :=
  if n =? 1 then case_file 1 [case_volume 17 1 4 17; (name_sectors, [1; 2; 3; 4]); case_table 0 [259]] name_next
  else case_file n [(name_sectors, [1; 2; 3; 4]); case_table 0 [89]] (if n =? 17 then name_done else name_next).
Definition many_table : list (list N) := Eval vm_compute in (map many_file_of (seqN 1 17)).
Definition many_file (n : N) : list N := nth (N.to_nat (n - 1)) many_table [].
Definition many_files : list (list N) := map many_file (seqN 1 17).
Definition many_volume : volume := {| v_chunks := 17; v_sectors_per_chunk := 1; v_bytes_per_sector := 4; v_sectors := 17; v_identifier := repeat 0 16 |}.
Definition many_chunk (n : N) : ewf_chunk := {| ec_segment := n; ec_offset := if n =? 1 then 259 else 89; ec_size := 4; ec_compressed := false |}.
Definition many_chunks : list ewf_chunk := map many_chunk (seqN 1 17).
Example C42_many_case :
  ewf_segments (fun d => accept_header d = Ok tt) (fun d => accept_header d = Ok tt) (case_find many_files)
    (extensions (schema_base E01UpperCase) (schema_first E01UpperCase)) 1 None many_volume many_files many_chunks /\
  len many_chunks <= v_chunks many_volume /\ nth_error many_chunks 0 = Some (many_chunk 1) /\ ec_segment (many_chunk 1) + 16 <= len many_files.
Proof.
  split; [|split; [num|split; [reflexivity|num]]].
  assert (Ef : many_files = map many_file [1; 2; 3; 4; 5; 6; 7; 8; 9; 10; 11; 12; 13; 14; 15; 16; 17]) by reflexivity.
  assert (Ec : many_chunks = map many_chunk [1; 2; 3; 4; 5; 6; 7; 8; 9; 10; 11; 12; 13; 14; 15; 16; 17]) by reflexivity.
  set (find := case_find many_files). rewrite Ef, Ec.
  cbn [map].
  apply (segments_more _ _ _ _ 1 [0x45; 0x30; 0x31] (many_file 1) [(name_volume, 13, 183); (name_sectors, 183, 263); (name_table, 263, 371); (name_next, 371, 447)]
      None (Some many_volume) many_volume [many_chunk 1]).
  1-7: segment_file.
  { apply (sections_volume _ _ _ _ _ _ _ _ _ many_volume); [reflexivity|right; reflexivity| |nums|].
    { split; [num|]. split; [num|]. split; [num|]. split; [num|]. left. nums. }
    apply sections_sectors. apply (sections_table _ _ 1 (many_file 1) (Some 263) 263 371 [(name_next, 371, 447)] many_volume (Some many_volume) [] 0 [(259, false)] 259);
      [nums|reflexivity|num|nums|].
    apply sections_end; [right; reflexivity|]. apply sections_nil. }
  assert (M : forall n l, ewf_layout (many_file n) 13 [(name_sectors, 13, 93); (name_table, 93, 201); (l, 201, 277)] ->
    ewf_table_at (many_file n) 169 32 0 [89] -> (l = name_done \/ l = name_next) -> ec_offset (many_chunk n) = 89 ->
    ewf_sections (fun d => accept_header d = Ok tt) (fun d => accept_header d = Ok tt) n (many_file n) None (Some many_volume)
      [(name_sectors, 13, 93); (name_table, 93, 201); (l, 201, 277)] (Some many_volume) [many_chunk n]).
  { intros n l _ Ht Hl Hc. apply sections_sectors.
    replace [many_chunk n] with (ewf_table_chunks n 0 (match Some 93 with Some last => last | None => 201 end) [(89, false)] ++ [])
      by (cbn; unfold many_chunk in *; cbn [ec_offset] in Hc; rewrite Hc; reflexivity).
    apply (sections_table _ _ n (many_file n) (Some 93) 93 201 [(l, 201, 277)] many_volume (Some many_volume) [] 0 [(89, false)] 89);
      [exact Ht|reflexivity|num|nums|].
    apply sections_end; [assumption|]. apply sections_nil. }
  Ltac more n a b M := apply (segments_more _ _ _ _ n [0x45; a; b] (many_file n) [(name_sectors, 13, 93); (name_table, 93, 201); (name_next, 201, 277)]
      (Some many_volume) (Some many_volume) many_volume [many_chunk n]);
    [segment_file|segment_file|segment_file|segment_file|segment_file|segment_file|segment_file|apply M; [segment_file|nums|right; reflexivity|reflexivity]|].
  more 2 0x30 0x32 M. more 3 0x30 0x33 M. more 4 0x30 0x34 M. more 5 0x30 0x35 M. more 6 0x30 0x36 M. more 7 0x30 0x37 M. more 8 0x30 0x38 M. more 9 0x30 0x39 M.
  more 10 0x31 0x30 M. more 11 0x31 0x31 M. more 12 0x31 0x32 M. more 13 0x31 0x33 M. more 14 0x31 0x34 M. more 15 0x31 0x35 M. more 16 0x31 0x36 M.
  apply (segments_last _ _ _ _ 17 [0x45; 0x31; 0x37] (many_file 17) [(name_sectors, 13, 93); (name_table, 93, 201); (name_done, 201, 277)]).
  1-7: segment_file.
  apply M; [segment_file|nums|left; reflexivity|reflexivity].
Qed.

(** The answers to a history of an image in the segment files *)
Definition case_answers (files : list (list N)) (ops : list stream_op) : res (list stream_out) :=
  '(image, cache) <- ewf_open accept_header accept_header (fun e => Ok (case_find files e)) (Some [0x45; 0x30; 0x31]) ;;
  Ok (snd (run (ewf_stream_step image) (ewf_start cache) ops)).
(** Of these seventeen, only the first chunk cannot be read; afterwards the second one
    cannot be read either. *)
Theorem C42_segments_history_refuted :
  case_answers many_files [Seek (SeekStart 4); Read 4] = Ok [Position (Ok 4); Data (Ok [1; 2; 3; 4])] /\
  case_answers many_files [Read 4; Seek (SeekStart 4); Read 4] = Ok [Data Err; Position (Ok 4); Data Err].
Proof. vm_compute. auto. Qed.
Print Assumptions C42_segments_history_refuted.

(** Compressed chunks at the same offset of two segment files: the second chunk is read as
    the first one if that was read before. *)
Definition same_stream (l : list N) : list N := [120; 156] ++ pack (blocks_bits [Fixed (map DLiteral l)]) ++ [0; 0; 0; 0].
Definition same_files : list (list N) :=
  [ case_file 1 [case_volume 2 1 4 2; (name_sectors, same_stream [97; 98; 99; 100]); case_table 0 [259 + 0x80000000]] name_next;
    case_file 2 [(ewf_name [120], repeat 0 94); (name_sectors, same_stream [101; 102; 103; 104]); case_table 0 [259 + 0x80000000]] name_done ].
Theorem C42_same_offset_refuted :
  case_answers same_files [Seek (SeekStart 4); Read 4] = Ok [Position (Ok 4); Data (Ok [101; 102; 103; 104])] /\
  case_answers same_files [Read 8] = Ok [Data (Ok [97; 98; 99; 100; 97; 98; 99; 100])].
Proof. vm_compute. auto. Qed.
Print Assumptions C42_same_offset_refuted.

(** Opening does not always return: it panics for a chunk size of 2^32, for chunks that
    are not stored in the order of the media, for a chunk that starts after the end of the
    sectors section and for a table that is said to be larger than it is. *)
Definition one_file (chunk_size : N) (table : list N * list N) : list (list N) :=
  [case_file 1 [case_volume 2 chunk_size chunk_size 2; (name_sectors, [1; 2; 3; 4]); table] name_done].
Theorem C42_open_refuted :
  case_answers (one_file 65536 (case_table 0 [259])) [] = Panic /\
  case_answers (one_file 2 (case_table 0 [260; 259])) [] = Panic /\
  case_answers (one_file 2 (case_table 0 [264])) [] = Panic /\
  case_answers (one_file 2 (name_table, with_checksum (le_bytes 4 5 ++ repeat 0 16) ++ with_checksum (le_bytes 4 259))) [] = Panic.
Proof. vm_compute. auto. Qed.
Print Assumptions C42_open_refuted.

(** The number of sectors is a 64-bit value: only its lower half is used. *)
Theorem C42_size_refuted :
  (let files sectors := [case_file 1 [case_volume 1 2 2 sectors; (name_sectors, [1; 2; 3; 4]); case_table 0 [259]] name_done] in
   case_answers (files (two32 + 1)) [Seek (SeekEnd 0)] = Ok [Position (Ok 2)]).
Proof. vm_compute. reflexivity. Qed.
Print Assumptions C42_size_refuted.

(** A compressed last chunk of less than the chunk size cannot be read when anything is
    stored between it and the end of the sectors section, although the checksum matches. *)
Theorem C42_padding_refuted :
  (let stream := [120; 156] ++ pack (blocks_bits [Fixed (map DLiteral [97; 98])]) ++ rev (le_bytes 4 (adler32_closed [97; 98])) in
   let files padding := [case_file 1 [case_volume 1 2 2 1; (name_sectors, stream ++ padding); case_table 0 [259 + 0x80000000]] name_done] in
   case_answers (files []) [Read 2] = Ok [Data (Ok [97; 98])] /\ case_answers (files [0]) [Read 2] = Ok [Data Err]).
Proof. vm_compute. auto. Qed.
Print Assumptions C42_padding_refuted.

(** An image has one volume: once its sizes are known no further volume or disk section is
    accepted, in this segment file or a later one, and the sizes stay. *)
Theorem C42_one_volume :
  forall header header2 segment_number file sections file_offset last_sectors v offset last v' offset' last',
  ewf_read_sections header header2 segment_number file sections file_offset last_sectors v offset last = Ok (v', offset', last') ->
  ei_block_size v <> 0 \/ ei_media_size v <> 0 ->
  Forall (fun s => es_type s <> ewf_type_disk /\ es_type s <> ewf_type_volume) sections /\
  ei_block_size v' = ei_block_size v /\ ei_media_size v' = ei_media_size v.
Proof.
  intros header header2 segment_number file. induction sections as [|s sections IH]; intros o ls v m last v' m' last' H Hv.
  - cbn [ewf_read_sections] in H. injection H as <- <- <-. auto.
  - cbn [ewf_read_sections] in H.
    assert (Skip : forall ls v1 m last, ei_block_size v1 = ei_block_size v -> ei_media_size v1 = ei_media_size v ->
      (file_offset <- add_chk two64 o (es_size s) ;; ewf_read_sections header header2 segment_number file sections file_offset ls v1 m last) = Ok (v', m', last') ->
      Forall (fun s => es_type s <> ewf_type_disk /\ es_type s <> ewf_type_volume) sections /\
      ei_block_size v' = ei_block_size v /\ ei_media_size v' = ei_media_size v).
    { intros ls1 v1 m1 last1 E1 E2 X. apply bind_Ok_inv in X as (o1 & _ & X). rewrite <- E1, <- E2 in Hv.
      apply IH in X; [|exact Hv]. rewrite <- E1, <- E2. exact X. }
    assert (G : es_type s <> ewf_type_disk /\ es_type s <> ewf_type_volume ->
      Forall (fun s => es_type s <> ewf_type_disk /\ es_type s <> ewf_type_volume) sections /\
      ei_block_size v' = ei_block_size v /\ ei_media_size v' = ei_media_size v ->
      Forall (fun s => es_type s <> ewf_type_disk /\ es_type s <> ewf_type_volume) (s :: sections) /\
      ei_block_size v' = ei_block_size v /\ ei_media_size v' = ei_media_size v).
    { intros A (B & C). split; [now constructor|exact C]. }
    assert (T : forall t, Vhd_model.same_bytes (es_type s) t = true -> es_type s = t).
    { intros t. unfold Vhd_model.same_bytes. now destruct (list_eq_dec N.eq_dec (es_type s) t). }
    assert (F : forall t, Vhd_model.same_bytes (es_type s) t = false -> es_type s <> t).
    { intros t. unfold Vhd_model.same_bytes. now destruct (list_eq_dec N.eq_dec (es_type s) t). }
    Ltac other T G E := apply G; [rewrite (T _ E); split; vm_compute; discriminate|].
    Ltac skips Skip H := repeat first [exact (Skip _ _ _ _ eq_refl eq_refl H) | apply bind_Ok_inv in H as (? & _ & H)].
    destruct (Vhd_model.same_bytes (es_type s) ewf_type_data) eqn:E1; [other T G E1; skips Skip H|].
    destruct (Vhd_model.same_bytes (es_type s) ewf_type_digest) eqn:E2; [other T G E2; skips Skip H|].
    destruct (Vhd_model.same_bytes (es_type s) ewf_type_disk || Vhd_model.same_bytes (es_type s) ewf_type_volume) eqn:E3.
    { apply bind_Ok_inv in H as (v1 & H & _). unfold ewf_read_volume in H. apply bind_Ok_inv in H as (? & _ & H).
      destruct (N.eqb_spec (ei_block_size v) 0), (N.eqb_spec (ei_media_size v) 0); cbn in H; try discriminate. tauto. }
    apply orb_false_iff in E3 as [E3 E4]. apply G; [split; now apply F|].
    repeat match type of H with (if Vhd_model.same_bytes ?a ?b then _ else _) = _ => destruct (Vhd_model.same_bytes a b)
      | (if Vhd_model.same_bytes ?a ?b || Vhd_model.same_bytes ?a ?c then _ else _) = _ => destruct (Vhd_model.same_bytes a b || Vhd_model.same_bytes a c) end.
    all: try (skips Skip H; fail).
    apply bind_Ok_inv in H as ((v1 & m1) & Ht & H). apply (Skip _ _ _ _) in H; [exact H|..].
    all: unfold ewf_read_table in Ht; apply bind_Ok_inv in Ht as (? & _ & Ht); apply bind_Ok_inv in Ht as (? & _ & Ht);
      apply bind_Ok_inv in Ht as ((? & entries) & _ & Ht); destruct entries; [discriminate|];
      apply bind_Ok_inv in Ht as ((? & ?) & _ & Ht); injection Ht as <- _; reflexivity.
Qed.
Print Assumptions C42_one_volume.
Example C42_second_volume_example :
  case_answers [case_file 1 [case_volume 1 2 2 1; (name_sectors, [1; 2; 3; 4]); case_table 0 [259]] name_done] [Seek (SeekEnd 0)] = Ok [Position (Ok 2)] /\
  case_answers [case_file 1 [case_volume 1 2 2 1; (name_sectors, [1; 2; 3; 4]); case_table 0 [259]; case_volume 1 2 2 1] name_done] [] = Err.
Proof. vm_compute. auto. Qed.
