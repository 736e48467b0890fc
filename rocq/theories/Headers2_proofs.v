(** * Proofs about the readers of header structures, continued *)
From Verif Require Import Base BaseLemmas Bytes_model Checksums_model Uuid_model Checksums_spec Checksums_proofs Strings_model Strings_spec Strings_proofs Streams_spec Streams_proofs Part_spec Part_model Fat_proofs Part_proofs Ext_proofs Ext_model Sparse_model Vhd_model Qcow_model Udif_model Ewf_model Ewf_proofs Headers_model Headers_spec Headers_proofs Headers2_model Headers2_spec.
Ltac Zify.zify_post_hook ::= idtac.

(** ** NTFS attribute lists *)
Lemma attribute_list_step fuel data o : buffer data -> o < len data ->
  attribute_list_loop (S fuel) data o =
  let d := skipn (N.to_nat o) data in
  if 26 <=? len d then
    match attribute_list_loop fuel data (o + field d 4 2) with
    | None => None
    | Some r => Some (entries <- r ;; Ok (attribute_list_entry_of d :: entries))
    end
  else Some Err.
Proof.
  intros Hb H. cbn [attribute_list_loop]. destruct (N.ltb_spec o (len data)); [|lia]. rewrite slice_rest by lia. cbn [bind].
  rewrite (attribute_list_entry_ok' _ (buffer_skip _ _ Hb) I). cbv zeta. destruct (N.leb_spec 26 (len (skipn (N.to_nat o) data))); reflexivity.
Qed.
Lemma attribute_list_done fuel data o : len data <= o -> attribute_list_loop fuel data o = Some (Ok []).
Proof. intros H. destruct fuel; cbn [attribute_list_loop]; destruct (N.ltb_spec o (len data)); auto; lia. Qed.
Lemma skip_add (data : list N) o n : skipn (N.to_nat (o + n)) data = skipn (N.to_nat n) (skipn (N.to_nat o) data).
Proof. rewrite skipn_skipn. f_equal. lia. Qed.
Lemma skip_nil (data : list N) o : len data <= o <-> skipn (N.to_nat o) data = [].
Proof.
  split; intros H.
  - apply skipn_all2. unfold len in H. lia.
  - apply (f_equal len) in H. rewrite len_skip in H. change (len []) with 0 in H. lia.
Qed.
Lemma attribute_list_value data : buffer data -> forall fuel o r, attribute_list_loop fuel data o = Some r ->
  r <> Panic /\ ~ attribute_list_stuck (skipn (N.to_nat o) data) /\
  forall entries, r = Ok entries <-> attribute_list (skipn (N.to_nat o) data) entries.
Proof.
  intros Hb. induction fuel as [|fuel IH]; intros o r H.
  - destruct (N.lt_ge_cases o (len data)) as [L|L].
    { cbn [attribute_list_loop] in H. destruct (N.ltb_spec o (len data)); [discriminate|lia]. }
    rewrite attribute_list_done in H by exact L. injection H as <-. apply skip_nil in L. rewrite L.
    split; [discriminate|]. split.
    + intros S. inversion S as [d H1|d H1]; subst; change (len []) with 0 in H1; lia.
    + intros entries. split.
      * intros E. injection E as <-. constructor.
      * intros E. inversion E as [|d es H1]; [reflexivity|]. subst. change (len []) with 0 in H1. lia.
  - destruct (N.lt_ge_cases o (len data)) as [L|L].
    2:{ rewrite attribute_list_done in H by exact L. injection H as <-. apply skip_nil in L. rewrite L.
        split; [discriminate|]. split.
        + intros S. inversion S as [d H1|d H1]; subst; change (len []) with 0 in H1; lia.
        + intros entries. split.
          * intros E. injection E as <-. constructor.
          * intros E. inversion E as [|d es H1]; [reflexivity|]. subst. change (len []) with 0 in H1. lia. }
    rewrite attribute_list_step in H by assumption. cbv zeta in H. set (d := skipn (N.to_nat o) data) in *.
    assert (Nd : d <> []) by (intros E; apply skip_nil in E; lia).
    destruct (N.leb_spec 26 (len d)) as [L26|L26].
    + destruct (attribute_list_loop fuel data (o + field d 4 2)) as [r'|] eqn:E; [|discriminate]. injection H as <-.
      destruct (IH _ _ E) as (P & S & V). rewrite skip_add in S, V. fold d in S, V.
      assert (F : field d 4 2 <> 0).
      { intros F. rewrite F in S. change (skipn (N.to_nat 0) d) with d in S. apply S. now constructor. }
      split; [destruct r'; [discriminate|discriminate|congruence]|]. split.
      * intros C. inversion C; subst; [contradiction|]. now apply S.
      * intros entries. split.
        -- intros Q. apply bind_Ok_inv in Q as (es & -> & Q). injection Q as <-. constructor; [exact L26|lia|]. now apply V.
        -- intros Q. inversion Q as [|d' es H1 H2 H3]; [congruence|]. subst. apply V in H3. rewrite H3. reflexivity.
    + injection H as <-. split; [discriminate|]. split.
      * intros C. inversion C; subst; lia.
      * intros entries. split; [discriminate|]. intros Q. inversion Q; [congruence|]. subst. lia.
Qed.
Lemma attribute_list_never data : buffer data -> forall fuel o, attribute_list_stuck (skipn (N.to_nat o) data) ->
  attribute_list_loop fuel data o = None.
Proof.
  intros Hb fuel o S. destruct (attribute_list_loop fuel data o) eqn:E; [|reflexivity].
  destruct (attribute_list_value data Hb _ _ _ E) as (_ & N & _). contradiction.
Qed.
Lemma attribute_list_ends data : buffer data -> forall fuel o, len data - o < N.of_nat fuel ->
  attribute_list_stuck (skipn (N.to_nat o) data) \/ exists r, attribute_list_loop fuel data o = Some r.
Proof.
  intros Hb. induction fuel as [|fuel IH]; intros o H; [lia|].
  destruct (N.lt_ge_cases o (len data)) as [L|L]; [|right; rewrite attribute_list_done by exact L; eauto].
  rewrite attribute_list_step by assumption. cbv zeta. set (d := skipn (N.to_nat o) data).
  destruct (N.leb_spec 26 (len d)) as [L26|L26]; [|eauto].
  destruct (N.eq_dec (field d 4 2) 0) as [F|F]; [left; now constructor|].
  destruct (IH (o + field d 4 2) ltac:(lia)) as [S|[r ->]]; [|eauto].
  left. rewrite skip_add in S. apply attribute_list_later; [exact L26|lia|exact S].
Qed.

(** ** Steps *)
Lemma has_same_bytes data o s x : x = bytes_at data o (len s) -> same_bytes x s = has data o s.
Proof. intros ->. reflexivity. Qed.
Ltac signature' := match goal with
  | |- context [same_bytes (bytes_at ?d ?o ?n) ?s] => rewrite (has_same_bytes d o s (bytes_at d o n)) by reflexivity
  | |- context [if list_eq_dec N.eq_dec (bytes_at ?d ?o ?n) ?s then true else false] =>
      change (if list_eq_dec N.eq_dec (bytes_at d o n) s then true else false) with (has d o s)
  | |- context [same (bytes_at ?d ?o ?n) ?s] => rewrite (has_same d o s (bytes_at d o n)) by reflexivity end.
Lemma not_zero n : negb (n =? 0) = (1 <=? n).
Proof. destruct (N.eqb_spec n 0), (N.leb_spec 1 n); try reflexivity; lia. Qed.
Lemma not_less a b : negb (a <? b) = (b <=? a).
Proof. rewrite N.ltb_antisym. apply negb_involutive. Qed.

Lemma sparse_header_ok' : decodes sparse_header_read sparse_header_ok sparse_header_of.
Proof.
  intros data Hb _. unfold sparse_header_read, sparse_header_ok, sparse_header_of. size_is Hb 64. reads Hb. signature'. chk. reads Hb.
  rewrite not_zero. chk. reflexivity.
Qed.
Lemma extents_header_ok' : decodes extents_header_read extents_header_ok extents_header_of.
Proof.
  intros data Hb _. unfold extents_header_read, extents_header_ok, extents_header_of. size_is Hb 12. reads Hb. signature'. chk. reads Hb.
  chk. reflexivity.
Qed.
Lemma extent_index_ok' : decodes extent_index_read (fun d => len d =? 12) extent_index_of.
Proof.
  intros data Hb _. unfold extent_index_read, extent_index_of. size_is Hb 12. reads Hb. f_equal.
  rewrite N.lor_comm. apply lor_high. exact (field_lt data Hb 4 4).
Qed.
Lemma extent_descriptor_ok' : decodes extent_descriptor_read (fun d => len d =? 12) extent_descriptor_of.
Proof.
  intros data Hb _. unfold extent_descriptor_read, extent_descriptor_of. size_is Hb 12. reads Hb. do 2 f_equal.
  rewrite N.lor_comm. apply lor_high. exact (field_lt data Hb 8 4).
Qed.
Lemma udif_footer_ok' : decodes udif_footer_read udif_footer_ok udif_footer_of.
Proof.
  intros data Hb _. unfold udif_footer_read, udif_footer_ok, udif_footer_of, udif_footer_signature. size_is Hb 512. reads Hb. signature'. chk. reads Hb.
  chk. reads Hb. reflexivity.
Qed.
Lemma udif_entry_ok' : decodes udif_entry_read (fun d => len d =? 40) udif_entry_of.
Proof. intros data Hb _. unfold udif_entry_read, udif_entry_of. size_is Hb 40. reads Hb. reflexivity. Qed.
Lemma udif_table_header_ok' : decodes udif_table_header_read (fun d => (len d =? 204) && udif_table_header_ok d) udif_table_header_of.
Proof.
  intros data Hb _. unfold udif_table_header_read, udif_table_header_ok, udif_table_header_of, udif_table_signature. size_is Hb 204. reads Hb.
  signature'. chk. reads Hb. chk. reads Hb. reflexivity.
Qed.
Lemma has_part data o n p s : p + len s <= n -> has (bytes_at data o n) p s = has data (o + p) s.
Proof. intros H. unfold has. now rewrite bytes_at_bytes_at by exact H. Qed.
Lemma udif_entries_ok data : buffer data -> forall n o,
  udif_entries_read n data o = if o + 40 * N.of_nat n <=? len data then Ok (map udif_entry_of (pieces data o 40 (N.of_nat n)))
                               else match n with O => Ok [] | _ => Err end.
Proof.
  intros Hb. induction n as [|n IH]; intros o; [destruct (_ <=? _); reflexivity|]. rewrite pieces_cons. cbn [udif_entries_read map].
  rewrite not_less. destruct (N.leb_spec (o + 40) (len data)); cbn [check bind].
  2:{ destruct (N.leb_spec (o + 40 * N.of_nat (S n)) (len data)); [lia|reflexivity]. }
  rewrite slice_at by lia. cbn [bind]. replace (o + 40 - o) with 40 by lia.
  rewrite (udif_entry_ok' _ (buffer_part _ _ _ Hb) I). rewrite len_bytes_at. destruct (N.eqb_spec (N.min 40 (len data - o)) 40); [|lia]. cbn [bind].
  rewrite IH. replace (o + 40 + 40 * N.of_nat n) with (o + 40 * N.of_nat (S n)) by lia.
  destruct (N.leb_spec (o + 40 * N.of_nat (S n)) (len data)); cbn [bind]; [reflexivity|].
  destruct n; [|reflexivity]. lia.
Qed.
Lemma udif_table_ok' : decodes udif_table_read (fun d => (204 <=? len d) && udif_table_ok d) udif_table_of.
Proof.
  intros data Hb _. unfold udif_table_read, udif_table_ok, udif_table_of. rewrite not_less. size_ge Hb 204. reads Hb.
  rewrite (udif_table_header_ok' _ (buffer_part _ _ _ Hb) I). rewrite len_bytes_at. change (204 - 0) with 204.
  destruct (N.eqb_spec (N.min 204 (len data - 0)) 204) as [_|C]; [|lia]. cbn [andb].
  unfold udif_table_header_ok, udif_table_header_of. change (204 - 0) with 204. rewrite has_part by (vm_compute; discriminate). rewrite !field_be_part by lia.
  rewrite !N.add_0_l. destruct (has data 0 _ && _); cbn [bind andb]; [|reflexivity].
  rewrite (udif_entries_ok data Hb). rewrite N2Nat.id.
  destruct (N.leb_spec (204 + 40 * field_be data 200 4) (len data)) as [L|L].
  - replace (N.min (field_be data 200 4) (len data)) with (field_be data 200 4) by lia.
    destruct (N.leb_spec (204 + 40 * field_be data 200 4) (len data)); [|lia]. reflexivity.
  - destruct (N.leb_spec (204 + 40 * N.min (field_be data 200 4) (len data)) (len data)); [lia|].
    destruct (N.to_nat (N.min (field_be data 200 4) (len data))) eqn:E; [lia|]. reflexivity.
Qed.

Lemma vhd_footer_ok' : decodes vhd_footer_read vhd_footer_ok vhd_footer_of.
Proof.
  intros data Hb _. unfold vhd_footer_read, vhd_footer_ok, vhd_footer_of, vhd_footer_signature. size_is Hb 512. reads Hb. signature'. chk. reads Hb.
  chk. reads Hb. change (2 ^ 64 - 1) with 0xffffffffffffffff. unfold one_of. cbn [existsb]. rewrite orb_false_r, not_less.
  change (84 - 68) with 16.
  destruct (field_be data 60 4 =? 2) eqn:E2; cbn [orb check bind andb].
  - assert (F : (field_be data 60 4 =? 3) || (field_be data 60 4 =? 4) = false) by (apply N.eqb_eq in E2; now rewrite E2).
    rewrite F. cbn [andb]. rewrite orb_false_r. chk. reflexivity.
  - chk. chk. reflexivity.
Qed.
Lemma u16s_pairs_be bytes l : u16s true bytes l -> l = pairs_be bytes.
Proof. intros H. induction H; [reflexivity|]. cbn [pairs_be]. now rewrite IHu16s. Qed.
Lemma text_be bytes : len bytes < two64 -> N.even (len bytes) = true ->
  u16string_from_be_bytes bytes = Ok (up_to_zero (pairs_be bytes)).
Proof.
  intros Hl He. destruct (read_even true bytes Hl) as (l & p & H1 & H2 & H3).
  { rewrite <- N.bit0_mod, N.bit0_odd, <- N.negb_even, He. reflexivity. }
  rewrite H3. f_equal. rewrite <- (u16s_pairs_be _ _ H1). apply (before_nul_unique l); [exact H2|apply before_nul_zero].
Qed.
Lemma text_le bytes : len bytes < two64 -> N.even (len bytes) = true ->
  u16string_from_le_bytes bytes = Ok (up_to_zero (pairs_le bytes)).
Proof.
  intros Hl He. destruct (read_even false bytes Hl) as (l & p & H1 & H2 & H3).
  { rewrite <- N.bit0_mod, N.bit0_odd, <- N.negb_even, He. reflexivity. }
  rewrite H3. f_equal. rewrite <- (u16s_pairs _ _ H1). apply (before_nul_unique l); [exact H2|apply before_nul_zero].
Qed.
Lemma vhd_header_ok' : decodes vhd_header_read vhd_header_ok vhd_header_of.
Proof.
  intros data Hb _. unfold vhd_header_read, vhd_header_ok, vhd_header_of, vhd_header_signature. size_is Hb 1024. reads Hb. signature'. chk. reads Hb.
  chk. reads Hb. change (2 ^ 64 - 1) with 0xffffffffffffffff. chk. reads Hb.
  change (56 - 40) with 16. change (576 - 64) with 512.
  assert (L : len (bytes_at data 64 512) = 512) by (rewrite len_bytes_at; lia).
  rewrite text_be by (rewrite L; reflexivity). cbn [bind]. rewrite not_zero. chk. reflexivity.
Qed.

Lemma mbr_entry_ok' : decodes mbr_entry_read (fun d => len d =? 16) mbr_entry_of.
Proof. intros data Hb _. unfold mbr_entry_read, mbr_entry_of. size_is Hb 16. reads Hb. reflexivity. Qed.
Lemma boot_record_ok' : decodes boot_record_read boot_record_ok boot_record_of.
Proof.
  intros data Hb _. unfold boot_record_read, boot_record_ok, boot_record_of. size_is Hb 512. reads Hb. signature'. chk. reads Hb.
  cbn [mbr_entries_read]. 
  assert (G : forall o, o + 16 <= len data -> (d <- slice data o (o + 16) ;; mbr_entry_read d) = Ok (mbr_entry_of (bytes_at data o 16))).
  { intros o L. rewrite slice_at by lia. cbn [bind]. replace (o + 16 - o) with 16 by lia. rewrite (mbr_entry_ok' _ (buffer_part _ _ _ Hb) I).
    rewrite len_bytes_at. destruct (N.eqb_spec (N.min 16 (len data - o)) 16); [reflexivity|lia]. }
  assert (R : forall offsets, (forall o, In o offsets -> o + 16 <= len data) ->
    mbr_entries_read data offsets = Ok (map (fun o => mbr_entry_of (bytes_at data o 16)) offsets)).
  { induction offsets as [|o offsets IH]; intros H; [reflexivity|]. cbn [mbr_entries_read map].
    pose proof (G o (H o (or_introl eq_refl))) as G'. rewrite slice_at in G' |- * by (specialize (H o (or_introl eq_refl)); lia). cbn [bind] in G' |- *.
    rewrite G'. cbn [bind]. rewrite IH by (intros; apply H; now right). reflexivity. }
  change (_ <- slice data 446 _ ;; _) with (mbr_entries_read data [446; 462; 478; 494]).
  rewrite R by (intros o [<-|[<-|[<-|[<-|[]]]]]; lia). reflexivity.
Qed.
Lemma apm_entry_ok' : decodes apm_entry_read apm_entry_ok apm_entry_of.
Proof.
  intros data Hb _. unfold apm_entry_read, apm_entry_ok, apm_entry_of. size_is Hb 512. reads Hb. signature'. chk. reads Hb.
  rewrite !string_zero. reflexivity.
Qed.
Lemma gpt_entry_ok' index : decodes (gpt_entry_read index) (fun d => len d =? 128) (gpt_entry_of index).
Proof.
  intros data Hb _. unfold gpt_entry_read, gpt_entry_of, text16. size_is Hb 128. reads Hb.
  change (16 - 0) with 16. change (32 - 16) with 16. rewrite !uuid_at by (assumption || lia). cbn [bind]. reads Hb.
  change (128 - 56) with 72.
  assert (L : len (bytes_at data 56 72) = 72) by (rewrite len_bytes_at; lia).
  rewrite text_le by (rewrite L; reflexivity). cbn [bind]. reflexivity.
Qed.
Lemma gpt_header_ok' : decodes gpt_header_read gpt_header_ok gpt_header_of.
Proof.
  intros data Hb _. unfold gpt_header_read, gpt_header_ok, gpt_header_of. size_is Hb 92. reads Hb. signature'. chk. reads Hb.
  chk. reads Hb. chk. match goal with H : (field data 12 4 =? 92) = true |- _ => apply N.eqb_eq in H; rewrite H end. reads Hb.
  change (16 - 0) with 16. change (92 - 20) with 72.
  assert (Hw : wf_bytes data) by apply Hb.
  destruct (crc_at_step [] (crc_new gpt_polynomial 0) (bytes_at data 0 16) crc_at_new (wf_bytes_at _ _ _ Hw)) as (c1 & F1 & A1).
  destruct (crc_at_step _ c1 [0; 0; 0; 0] A1 ltac:(repeat constructor)) as (c2 & F2 & A2).
  destruct (crc_at_step _ c2 (bytes_at data 20 72) A2 (wf_bytes_at _ _ _ Hw)) as (c3 & F3 & A3).
  rewrite F1. cbn [bind]. rewrite F2. cbn [bind]. reads Hb. change (92 - 20) with 72. rewrite F3. cbn [bind]. rewrite (crc_at_value _ _ A3). cbn [app concat]. rewrite app_nil_r.
  destruct ((field data 16 4 =? 0) || _); cbn [check bind]; [|reflexivity]. reads Hb. change (72 - 56) with 16.
  rewrite uuid_at by (assumption || lia). cbn [bind]. reads Hb. reflexivity.
Qed.

(** ** EWF *)
Lemma ewf_check_at data n : buffer data -> ewf_check data n = if (n + 4 <=? len data) && ewf_sum data 0 n then Ok tt else Err.
Proof.
  intros Hb. unfold ewf_check, ewf_sum. rewrite not_less. size_ge Hb (n + 4). reads Hb.
  rewrite ewf_adler_ok by (apply wf_bytes_at, Hb). cbn [bind]. rewrite N.sub_0_r, N.add_0_l. destruct (_ =? _); reflexivity.
Qed.
Lemma ewf_file_header_ok' : decodes ewf_file_header_read ewf_file_header_ok (fun d => field d 9 2).
Proof.
  intros data Hb _. unfold ewf_file_header_read, ewf_file_header_ok, ewf_signature. rewrite not_less. size_ge Hb 13. reads Hb. signature'. chk. reads Hb.
  replace (has data 8 [1]) with (byte data 8 =? 1).
  - chk. reads Hb. signature'. chk. reads Hb. reflexivity.
  - unfold has. change (len [1]) with 1.
    assert (B : bytes_at data 8 1 = [byte data 8]).
    { unfold bytes_at, byte. change (N.to_nat 8) with 8%nat. change (N.to_nat 1) with 1%nat.
      do 9 (destruct data as [|? data]; [vm_compute in H; exfalso; now apply H|]). reflexivity. }
    rewrite B. destruct (list_eq_dec N.eq_dec [byte data 8] [1]) as [E'|E']; destruct (N.eqb_spec (byte data 8) 1); try reflexivity; congruence.
Qed.
Lemma ewf_section_ok' : decodes ewf_section_read ewf_section_ok ewf_section_of.
Proof.
  intros data Hb _. unfold ewf_section_read, ewf_section_ok, ewf_section_of. rewrite ewf_check_at by exact Hb. change (72 + 4) with 76.
  size_ge Hb 76. destruct (ewf_sum data 0 72); cbn [bind]; [|reflexivity]. reads Hb. reflexivity.
Qed.
Lemma ewf_table_header_ok' : decodes ewf_table_header_read ewf_table_header_ok ewf_table_header_of.
Proof.
  intros data Hb _. unfold ewf_table_header_read, ewf_table_header_ok, ewf_table_header_of. rewrite ewf_check_at by exact Hb. change (20 + 4) with 24.
  size_ge Hb 24. destruct (ewf_sum data 0 20); cbn [bind]; [|reflexivity]. reads Hb. reflexivity.
Qed.
Lemma ewf_entries_ok data : buffer data -> forall n o, o + 4 * N.of_nat n <= len data ->
  ewf_entries_read n data o = Ok (map (fun i => field data (o + 4 * i) 4) (seqN 0 n)).
Proof.
  intros Hb. induction n as [|n IH]; intros o H; [reflexivity|]. cbn [ewf_entries_read].
  change (seqN 0 (S n)) with (0 :: seqN (0 + 1) n). rewrite seqN_map. cbn [map]. rewrite map_map.
  rewrite slice_at by lia. cbn [bind]. replace (o + 4 - o) with 4 by lia. rewrite (u32_at _ (buffer_part _ _ _ Hb)) by (rewrite len_bytes_at; lia).
  cbn [bind]. rewrite IH by lia. cbn [bind]. do 2 f_equal.
  - rewrite field_part by lia. f_equal; lia.
  - apply map_ext. intros i. f_equal; lia.
Qed.
Lemma ewf_table_ok' : decodes_if ewf_table_fits ewf_table_read ewf_table_ok ewf_table_of.
Proof.
  intros data Hb F. unfold ewf_table_read, ewf_table_ok, ewf_table_of, ewf_table_fits in *.
  rewrite (ewf_table_header_ok' data Hb I). destruct (ewf_table_header_ok data) eqn:E; cbn [bind andb]; [|reflexivity].
  unfold ewf_table_header_of. cbv zeta. rewrite (N.mul_comm _ 4). set (n := field data 0 4) in *. reads Hb.
  replace (24 + 4 * n + 4 - (24 + 4 * n)) with 4 by lia. rewrite (u32_at _ (buffer_part _ _ _ Hb)) by (rewrite len_bytes_at; lia).
  cbn [bind]. reads Hb. rewrite ewf_adler_ok by (apply wf_bytes_at, Hb). cbn [bind]. rewrite field_part by lia. rewrite N.add_0_r.
  unfold ewf_sum. replace (24 + 4 * n - 24) with (4 * n) by lia. destruct (_ =? _); cbn [check bind]; [|reflexivity].
  rewrite ewf_entries_ok by (assumption || lia). reflexivity.
Qed.
Lemma ewf_table_beyond data : buffer data -> ewf_table_header_ok data = true -> ~ ewf_table_fits data -> ewf_table_read data = Panic.
Proof.
  intros Hb E F. unfold ewf_table_read, ewf_table_fits in *. rewrite (ewf_table_header_ok' data Hb I), E. cbn [bind].
  unfold ewf_table_header_of. cbv zeta. rewrite (N.mul_comm _ 4). unfold slice.
  destruct (N.leb_spec (24 + 4 * field data 0 4) (24 + 4 * field data 0 4 + 4)); [|lia]. cbn [andb].
  destruct (N.leb_spec (24 + 4 * field data 0 4 + 4) (len data)); [lia|]. reflexivity.
Qed.
Lemma ewf_volume_e01_ok' : decodes ewf_volume_e01_read (fun d => (1052 <=? len d) && ewf_sum d 0 1048) (fun d => ewf_volume_of (bytes_at d 64 16) d).
Proof.
  intros data Hb _. unfold ewf_volume_e01_read, ewf_volume_of. rewrite ewf_check_at by exact Hb. change (1048 + 4) with 1052.
  size_ge Hb 1052. destruct (ewf_sum data 0 1048); cbn [bind]; [|reflexivity]. reads Hb. reflexivity.
Qed.
Lemma ewf_volume_s01_ok' : decodes ewf_volume_s01_read (fun d => (94 <=? len d) && ewf_sum d 0 90) (ewf_volume_of (repeat 0 16)).
Proof.
  intros data Hb _. unfold ewf_volume_s01_read, ewf_volume_of. rewrite ewf_check_at by exact Hb. change (90 + 4) with 94.
  size_ge Hb 94. destruct (ewf_sum data 0 90); cbn [bind]; [|reflexivity]. reads Hb. reflexivity.
Qed.

(** ** QCOW *)
Lemma has_number data o v n s : buffer data -> s = be_bytes n v -> o + N.of_nat n <= len data -> v < 256 ^ N.of_nat n ->
  has data o s = (field_be data o (N.of_nat n) =? v).
Proof.
  intros Hb -> H V. unfold has, field_be. assert (L : length (be_bytes n v) = n).
  { unfold be_bytes. rewrite rev_length. apply le_bytes_length. }
  replace (bytes_at data o (len (be_bytes n v))) with (bytes_at data o (N.of_nat n)) by (unfold len; now rewrite L).
  assert (W : wf_bytes (bytes_at data o (N.of_nat n))) by apply wf_bytes_at, Hb.
  destruct (list_eq_dec N.eq_dec _ _) as [E|E]; destruct (N.eqb_spec (be_value (bytes_at data o (N.of_nat n))) v) as [F|F]; try reflexivity; exfalso.
  - apply F. rewrite E, be_value_be_bytes. now apply N.mod_small.
  - apply E. rewrite <- F. unfold be_bytes. rewrite be_value_rev.
    assert (Ln : length (rev (bytes_at data o (N.of_nat n))) = n).
    { rewrite rev_length. pose proof (len_bytes_at data o (N.of_nat n)) as LB. unfold len at 1 in LB. lia. }
    rewrite <- Ln at 2. rewrite le_bytes_le_value by (now apply Forall_rev). now rewrite rev_involutive.
Qed.
Lemma le_63 n : negb (63 <? n) = (n <=? 63).
Proof. apply not_less. Qed.
Lemma qcow_v1_ok' : decodes qcow_v1_read_data qcow_v1_ok qcow_v1_of.
Proof.
  intros data Hb _. unfold qcow_v1_read_data, qcow_v1_ok, qcow_v1_of, qcow_magic, qcow_signature, qcow_header_v1. size_ge Hb 48. reads Hb. signature'. chk. reads Hb.
  signature'. rewrite (has_number data 4 1 4) by (exact Hb || reflexivity || (cbn; lia)). change (N.of_nat 4) with 4. chk. reads Hb.
  rewrite !le_63. chk. chk. reflexivity.
Qed.
Lemma bits_ok n : negb ((n <=? 8) || (63 <? n)) = (9 <=? n) && (n <=? 63).
Proof. rewrite negb_orb, not_less. f_equal. destruct (N.leb_spec n 8), (N.leb_spec 9 n); try reflexivity; lia. Qed.
Lemma qcow_v23_ok version size data : buffer data -> 48 <= len data ->
  qcow_header_v23 version size data = if qcow_bits_ok data then Ok (qcow_v23_of version size data) else Err.
Proof.
  intros Hb H. unfold qcow_header_v23, qcow_bits_ok. reads Hb. rewrite bits_ok. destruct (_ && _); reflexivity.
Qed.
Lemma qcow_v2_ok' : decodes qcow_v2_read_data qcow_v2_ok (qcow_v23_of 2 72).
Proof.
  intros data Hb _. unfold qcow_v2_read_data, qcow_v2_ok, qcow_magic, qcow_signature. size_ge Hb 72. reads Hb. signature'. chk. reads Hb.
  signature'. rewrite (has_number data 4 2 4) by (exact Hb || reflexivity || (cbn; lia)). change (N.of_nat 4) with 4. chk. apply qcow_v23_ok; [exact Hb|lia].
Qed.
Lemma ldiff_one n : (N.ldiff n 1 =? 0) = (n <=? 1).
Proof.
  change 1 with (N.ones 1) at 1. rewrite N.ldiff_ones_r. rewrite N.shiftl_mul_pow2, N.shiftr_div_pow2. change (2 ^ 1) with 2.
  pose proof (N.div_mod n 2 ltac:(lia)). pose proof (N.mod_lt n 2 ltac:(lia)).
  destruct (N.eqb_spec (n / 2 * 2) 0), (N.leb_spec n 1); try reflexivity; lia.
Qed.
Lemma qcow_v3_ok' : decodes_if (fun d => len d <> 104) qcow_v3_read_data qcow_v3_ok qcow_v3_of.
Proof.
  intros data Hb L. unfold qcow_v3_read_data, qcow_v3_ok, qcow_v3_of, qcow_magic, qcow_signature. size_ge Hb 104. reads Hb. signature'. chk. reads Hb.
  signature'. rewrite (has_number data 4 3 4) by (exact Hb || reflexivity || (cbn; lia)). change (N.of_nat 4) with 4. chk. reads Hb. rewrite !ldiff_one. chk. reads Hb. chk. reads Hb.
  rewrite qcow_v23_ok by (exact Hb || lia). destruct (qcow_bits_ok data); cbn [bind andb]; [|reflexivity].
  unfold one_of. cbn [existsb]. rewrite orb_false_r. chk. reflexivity.
Qed.
Lemma qcow_v3_104 data : buffer data -> len data = 104 -> qcow_magic data = true -> field_be data 4 4 = 3 -> field_be data 72 8 <= 1 ->
  field_be data 80 8 <= 1 -> qcow_v3_read_data data = Panic.
Proof.
  intros Hb L M V F G. unfold qcow_v3_read_data, qcow_signature. unfold qcow_magic in M. rewrite L. change (104 <=? 104) with true. cbn [check bind].
  reads Hb. signature'. rewrite M. cbn [check bind]. reads Hb.
  signature'. rewrite (has_number data 4 3 4) by (exact Hb || reflexivity || (cbn; lia)). change (N.of_nat 4) with 4. rewrite V. cbn [N.eqb Pos.eqb check bind].
  reads Hb. rewrite !ldiff_one. apply N.leb_le in F, G. rewrite F, G. cbn [check bind]. reads Hb. 
  unfold idx. replace (nth_error data (N.to_nat 104)) with (@None N); [reflexivity|]. symmetry. apply nth_error_None. unfold len in L. lia.
Qed.

(** ** VHDX metadata tables that state more entries than there is room for *)
Lemma vhdx_entries_beyond {A} (read : list N -> res A) ok value : decodes read ok value ->
  forall data, buffer data -> forall k n o, (k < n)%nat -> o + 32 * N.of_nat k <= len data < o + 32 * N.of_nat k + 32 ->
  forallb ok (pieces data o 32 (N.of_nat k)) = true -> vhdx_entries read data n o = Panic.
Proof.
  intros D data Hb. induction k as [|k IH]; intros n o Hk Hl Ho; (destruct n as [|n]; [lia|]); cbn [vhdx_entries].
  - unfold slice. destruct (N.leb_spec (o + 32) (len data)); [lia|]. rewrite andb_false_r. reflexivity.
  - rewrite pieces_cons in Ho. cbn [forallb] in Ho. apply andb_true_iff in Ho as [Ho1 Ho2].
    rewrite slice_at by lia. cbn [bind]. replace (o + 32 - o) with 32 by lia. rewrite (D _ (buffer_part _ _ _ Hb) I), Ho1. cbn [bind].
    rewrite (IH n (o + 32)) by (assumption || lia). reflexivity.
Qed.
Lemma vhdx_metadata_beyond data : buffer data -> len data = 65536 -> vhdx_metadata_header_ok data = true -> 2048 <= field data 10 2 ->
  forallb vhdx_metadata_entry_ok (pieces data 32 32 2047) = true -> vhdx_metadata_table_read data = Panic.
Proof.
  intros Hb L H F P. unfold vhdx_metadata_table_read. rewrite (vhdx_metadata_header_ok' data Hb I), H. cbn [bind].
  apply (vhdx_entries_beyond _ _ _ vhdx_metadata_entry_ok' data Hb (N.to_nat 2047)); [lia|rewrite N2Nat.id; lia|].
  rewrite N2Nat.id. exact P.
Qed.
Fixpoint copies (n : nat) (e : list N) : list N := match n with O => [] | S n => e ++ copies n e end.
Lemma len_copies n e : len (copies n e) = N.of_nat n * len e.
Proof. induction n as [|n IH]; [reflexivity|]. cbn [copies]. rewrite len_app, IH. lia. Qed.
Lemma pieces_copies e : forall n pre, pieces (pre ++ copies n e) (len pre) (len e) (N.of_nat n) = repeat e n.
Proof.
  induction n as [|n IH]; intros pre; [reflexivity|]. rewrite pieces_cons. cbn [copies repeat]. f_equal.
  - unfold bytes_at, len. rewrite !Nat2N.id. rewrite skipn_app, skipn_all, Nat.sub_diag. cbn [app skipn].
    rewrite firstn_app, Nat.sub_diag, firstn_all, firstn_O. apply app_nil_r.
  - rewrite app_assoc, <- len_app. apply IH.
Qed.
Definition metadata_header : list N := [0x6d; 0x65; 0x74; 0x61; 0x64; 0x61; 0x74; 0x61; 0; 0; 0; 8] ++ repeat 0 20.
Definition metadata_entry : list N := repeat 0 16 ++ [0; 0; 1; 0; 8; 0; 0; 0] ++ repeat 0 8.
Lemma vhdx_metadata_2048 : exists data, buffer data /\ len data = 65536 /\ vhdx_metadata_header_ok data = true /\ field data 10 2 = 2048 /\
  forallb vhdx_metadata_entry_ok (pieces data 32 32 2047) = true.
Proof.
  exists (metadata_header ++ copies (N.to_nat 2047) metadata_entry).
  assert (L : len (metadata_header ++ copies (N.to_nat 2047) metadata_entry) = 65536).
  { rewrite len_app, len_copies, N2Nat.id. reflexivity. }
  assert (P : pieces (metadata_header ++ copies (N.to_nat 2047) metadata_entry) 32 32 2047 = repeat metadata_entry (N.to_nat 2047)).
  { rewrite <- (pieces_copies metadata_entry (N.to_nat 2047) metadata_header), N2Nat.id. reflexivity. }
  split; [split|split; [exact L|split; [|split]]].
  - apply Forall_app. split; [apply wf_bytesb_iff; reflexivity|]. generalize (N.to_nat 2047) as n.
    induction n as [|n IH]; [constructor|]. cbn [copies]. apply Forall_app. split; [apply wf_bytesb_iff; reflexivity|exact IH].
  - rewrite L. reflexivity.
  - unfold vhdx_metadata_header_ok. rewrite L. generalize (copies (N.to_nat 2047) metadata_entry). intros r. reflexivity.
  - generalize (copies (N.to_nat 2047) metadata_entry). intros r. reflexivity.
  - rewrite P. apply forallb_forall. intros x Hx. apply repeat_spec in Hx as ->. reflexivity.
Qed.
