(** * C11: zlib detects corrupted data *)
From Verif Require Import Base BaseLemmas Checksums_model Lz_spec Huffman_spec Deflate_model Deflate_spec Deflate_proofs Deflate_streams.
From Verif Require Checksums_spec P_C01.
Ltac Zify.zify_post_hook ::= idtac.

(** A complete zlib stream without preset dictionary (RFC 1950): header, DEFLATE data
    filled up to whole bytes, Adler-32, and whatever follows in the buffer. *)
Definition zlib_stream (header body trailer following : list N) (blocks : list stream_block) : Prop :=
  (exists window flags, header = [16 * window + 8; flags] /\ window <= 7 /\ flags < 256 /\ N.land flags 32 = 0) /\
  wf_bytes (header ++ body ++ trailer ++ following) /\ len trailer = 4 /\
  (exists padding, (length padding < 8)%nat /\ bits_of body = blocks_bits blocks ++ padding) /\
  blocks_valid 0 [] blocks /\ Forall has_distance_code blocks.

Lemma unread_nothing data s p : SR data s p -> unread_data 5 s = Ok s.
Proof.
  intros [H _]. cbn [unread_data]. destruct (N.ltb_spec 8 (number_of_bits s)); [lia | reflexivity].
Qed.

Lemma zlib_header_ok window flags rest : window <= 7 -> N.land flags 32 = 0 ->
  zlib_header ([16 * window + 8; flags] ++ rest) = Ok 2.
Proof.
  intros Hw Hf. unfold zlib_header. rewrite len_app. change (len [16 * window + 8; flags]) with 2.
  destruct (N.leb_spec 2 (2 + len rest)); [| lia]. cbn [check bind].
  cbn [app]. unfold idx at 1. cbn [nth_error N.to_nat].
  assert (F : Forall (fun w => (N.land (16 * w + 8) 15 =? 8) = true /\ 
     (N.shiftl 1 (N.shiftr (16 * w + 8) 4 + 8) <=? 32768) = true) (seqN 0 8)).
  { cbn [seqN]. repeat first [apply Forall_nil | apply Forall_cons]; split; reflexivity. }
  rewrite Forall_forall in F. destruct (F window) as [F1 F2]; [apply in_seqN; lia |].
  cbn [of_option bind]. rewrite F1. cbn [check bind]. rewrite F2. cbn [check bind].
  unfold idx. change (N.to_nat 1) with 1%nat. cbn [nth_error of_option bind]. rewrite Hf. reflexivity.
Qed.

Lemma zlib_run header body trailer following blocks buf :
  zlib_stream header body trailer following blocks -> wf_bytes buf ->
  len (blocks_meaning blocks) <= len buf ->
  zlib_decompress (header ++ body ++ trailer ++ following) buf =
    let buf' := blocks_meaning blocks ++ skipn (length (blocks_meaning blocks)) buf in
    (if 4 <? 4 + len following then
       adler <- adler_update (adler_new 1) buf' ;;
       check (be_value trailer =? fst (adler_finalize adler))
     else Ok tt) ;;;
    Ok (buf', len (blocks_meaning blocks)).
Proof.
  intros ((window & flags & -> & Hw & Hf & Hfl) & Hwf & Ht & (padding & Hp & Hb) & Hv & Hd) Hbuf Hl.
  unfold zlib_decompress. set (header := [16 * window + 8; flags]) in *.
  set (data := header ++ body ++ trailer ++ following) in *.
  unfold data at 1. unfold header. rewrite zlib_header_ok by assumption. cbn [bind]. fold header.
  assert (Ld : len data = 2 + len body + 4 + len following).
  { unfold data. rewrite !len_app. change (len header) with 2. lia. }
  destruct (decompress_bitstream_rt data 2 blocks (padding ++ bits_of (trailer ++ following)) buf Hwf)
    as (s & E & S); auto.
  { lia. }
  { change (skipn (N.to_nat 2) data) with (body ++ trailer ++ following). rewrite bits_of_app, Hb, <- app_assoc. reflexivity. }
  rewrite E. cbn [bind]. destruct S as [S _]. rewrite (unread_nothing _ _ _ S). cbn [bind].
  assert (Ho : data_offset s = 2 + len body).
  { assert (Lb : 8 * len body = len (blocks_bits blocks) + len padding) by (rewrite <- len_bits_of, Hb; apply len_app).
    destruct S as [H8 (q & Hq & Ho & _)]. clear - Lb Hp H8 Hq Ho Ld. unfold len in Lb, Ld. unfold len in *. lia. }
  rewrite Ho. unfold sub_chk. destruct (N.leb_spec (2 + len body) (len data)); [| lia]. cbn [bind].
  replace (len data - (2 + len body)) with (4 + len following) by lia.
  destruct (N.ltb_spec 4 (4 + len following)); [| reflexivity].
  assert (Es : slice data (2 + len body) (2 + len body + 4) = Ok trailer).
  { rewrite slice_ok by lia. f_equal. unfold data. rewrite app_assoc.
    replace (N.to_nat (2 + len body)) with (length (header ++ body)).
    2:{ rewrite app_length. unfold len. cbn [length header]. lia. }
    rewrite (proj2 (Lz_proofs.firstn_skipn_app (header ++ body) (trailer ++ following) _ eq_refl)).
    apply Lz_proofs.firstn_skipn_app. unfold len in *. lia. }
  rewrite Es. cbn [bind]. destruct (adler_update _ _); reflexivity.
Qed.

Lemma meaning_wf blocks header body trailer following buf :
  zlib_stream header body trailer following blocks -> len (blocks_meaning blocks) <= len buf -> wf_bytes buf ->
  wf_bytes (blocks_meaning blocks).
Proof.
  intros ((w & f & -> & _) & Hwf & _ & (padding & Hp & Hb) & Hv & Hd) Hl Hbuf.
  assert (Hwb : wf_bytes body).
  { apply wf_bytes_app in Hwf as [_ Hwf]. now apply wf_bytes_app in Hwf as [Hwf _]. }
  destruct (decompress_bitstream_rt body 0 blocks padding buf Hwb ltac:(lia) Hb Hv Hd Hl) as (s & E & _).
  destruct (decompress_bitstream_safe body 0 (length buf) Hwb ltac:(lia)) as [E' | (out & s' & p & L & _ & _ & W & E')];
    rewrite E' in E by reflexivity; [discriminate |].
  injection E as E1 E2 _. cbn [app] in E1, E2.
  assert (Hlen : length out = length (blocks_meaning blocks)) by (unfold len in E2; lia).
  rewrite Hlen in E1. apply (app_inj_len out _ (blocks_meaning blocks)) in E1 as [<- _]; [| exact Hlen].
  apply W. constructor.
Qed.

(** If at least one more byte follows a complete stream, and the destination has the size
    of the data, decompression succeeds exactly if the checksum is that of the data. *)
Theorem C11_checksum_with_following_data_partial :
  forall header body trailer following blocks buf,
  zlib_stream header body trailer following blocks -> following <> [] ->
  wf_bytes buf -> len buf = len (blocks_meaning blocks) ->
  zlib_decompress (header ++ body ++ trailer ++ following) buf =
    if be_value trailer =? Checksums_spec.adler32_closed (blocks_meaning blocks)
    then Ok (blocks_meaning blocks, len (blocks_meaning blocks)) else Err.
Proof.
  intros header body trailer following blocks buf Hz Hf Hb Hl.
  rewrite (zlib_run _ _ _ _ _ _ Hz Hb) by lia. cbv zeta.
  rewrite skipn_all2 by (unfold len in Hl; lia). rewrite app_nil_r.
  assert (H1 : 1 <= len following) by (destruct following; [congruence | rewrite len_cons; lia]).
  destruct (N.ltb_spec 4 (4 + len following)); [| lia].
  destruct (P_C01.C01_adler32_standard [blocks_meaning blocks]) as (c & E & F).
  { constructor; [| constructor]. eapply meaning_wf; [exact Hz | | exact Hb]. lia. }
  cbn [adler_updates] in E. apply bind_Ok_inv in E as (c' & E & E'). injection E' as ->.
  rewrite E. cbn [bind]. rewrite F. cbn [concat]. rewrite app_nil_r.
  destruct (be_value trailer =? _); reflexivity.
Qed.
Print Assumptions C11_checksum_with_following_data_partial.

(** If the stream is all there is, as in a zlib file, its checksum is never looked at. *)
Theorem C11_checksum_ignored_at_the_end :
  forall header body trailer blocks buf,
  zlib_stream header body trailer [] blocks -> wf_bytes buf -> len (blocks_meaning blocks) <= len buf ->
  zlib_decompress (header ++ body ++ trailer) buf =
    Ok (blocks_meaning blocks ++ skipn (length (blocks_meaning blocks)) buf, len (blocks_meaning blocks)).
Proof.
  intros header body trailer blocks buf Hz Hb Hl.
  pose proof (zlib_run _ _ _ _ _ _ Hz Hb Hl) as E. rewrite app_nil_r in E. exact E.
Qed.
Print Assumptions C11_checksum_ignored_at_the_end.

(** Corrupted data is then not detected. *)
Definition case_blocks : list stream_block := [Fixed [DLiteral 97; DLiteral 98]].
Definition case_body : list N := pack (blocks_bits case_blocks).
Example C11_case : forall trailer following, wf_bytes trailer -> wf_bytes following -> len trailer = 4 ->
  zlib_stream [120; 156] case_body trailer following case_blocks.
Proof.
  intros trailer following Ht Hf Hl. split; [| split; [| split; [| split; [| split]]]].
  - exists 7, 156. repeat split. discriminate.
  - rewrite !wf_bytes_app. repeat split; auto; apply wf_bytesb_iff; reflexivity.
  - exact Hl.
  - exists (repeat false 6). split; [cbn; lia | vm_compute; reflexivity].
  - cbn [case_blocks blocks_valid block_valid tokens_valid token_valid]. repeat split; reflexivity.
  - repeat constructor.
Qed.
Theorem C11_detects_corruption_refuted :
  ~ (forall header body trailer blocks buf result,
     zlib_stream header body trailer [] blocks -> wf_bytes buf -> len buf = len (blocks_meaning blocks) ->
     zlib_decompress (header ++ body ++ trailer) buf = Ok result ->
     be_value trailer = Checksums_spec.adler32_closed (blocks_meaning blocks)).
Proof.
  intros H. specialize (H [120; 156] case_body [222; 173; 190; 239] case_blocks [0; 0]).
  specialize (H ([97; 98], 2)). 
  assert (W : wf_bytes [222; 173; 190; 239]) by (apply wf_bytesb_iff; reflexivity).
  specialize (H (C11_case _ [] W ltac:(constructor) eq_refl) ltac:(apply wf_bytesb_iff; reflexivity) eq_refl).
  vm_compute in H. specialize (H eq_refl). discriminate H.
Qed.
Print Assumptions C11_detects_corruption_refuted.

(** The decoder does not panic, whatever the input. *)
Theorem C11_no_panic :
  forall data buf, wf_bytes data -> wf_bytes buf -> zlib_decompress data buf <> Panic.
Proof.
  intros data buf Hwf Hb. unfold zlib_decompress.
  assert (Hh : zlib_header data = Err \/ exists h, zlib_header data = Ok h /\ h <= len data).
  { unfold zlib_header. destruct (N.leb_spec 2 (len data)); cbn [check bind]; [| now left].
    rewrite (idx_ok data 0 0) by lia. cbn [bind]. destruct (_ =? 8); cbn [check bind]; [| now left].
    destruct (_ <=? 32768); cbn [check bind]; [| now left]. rewrite (idx_ok data 1 0) by lia. cbn [bind].
    destruct (negb _).
    - destruct (N.leb_spec 6 (len data)); cbn [check bind]; [| now left]. right. exists 6. auto.
    - right. exists 2. auto. }
  destruct Hh as [E | (h & E & Hh)]; rewrite E; cbn [bind]; [discriminate |].
  destruct (decompress_bitstream_safe data h (length buf) Hwf Hh) as [E1 | (w & s & p & L & S & _ & W & E1)];
    rewrite E1 by reflexivity; cbn [bind]; [discriminate |].
  rewrite (unread_nothing _ _ _ S). cbn [bind]. unfold sub_chk.
  assert (Ho : data_offset s <= len data) by (destruct S as [_ (q & _ & Ho & _)]; clear - Ho; lia).
  destruct (N.leb_spec (data_offset s) (len data)); [| lia]. cbn [bind].
  destruct (N.ltb_spec 4 (len data - data_offset s)); [| discriminate].
  rewrite slice_ok by lia. cbn [bind app].
  destruct (P_C01.C01_adler32_standard [w ++ skipn (length w) buf]) as (c & E2 & _).
  { constructor; [| constructor]. apply wf_bytes_app. split; [apply W; constructor | now apply wf_bytes_skipn]. }
  cbn [adler_updates] in E2. apply bind_Ok_inv in E2 as (c' & E2 & _). rewrite E2. cbn [bind].
  destruct (_ =? _); discriminate.
Qed.
Print Assumptions C11_no_panic.
