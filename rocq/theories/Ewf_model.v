(** * Model of keramics-formats/src/ewf *)
From Verif Require Import Base Bytes_model Checksums_model Uuid_model Streams_model Streams_spec BlockTree_model Blocks_model Lru_model
  Deflate_model Vhd_model Paths_model.

(** constants.rs 14-92 *)
Definition ewf_signature : list N := [0x45; 0x56; 0x46; 0x09; 0x0d; 0x0a; 0xff; 0x00].
Definition ewf_type_data : list N := [0x64; 0x61; 0x74; 0x61; 0; 0; 0; 0; 0; 0; 0; 0; 0; 0; 0; 0].
Definition ewf_type_digest : list N := [0x64; 0x69; 0x67; 0x65; 0x73; 0x74; 0; 0; 0; 0; 0; 0; 0; 0; 0; 0].
Definition ewf_type_disk : list N := [0x64; 0x69; 0x73; 0x6b; 0; 0; 0; 0; 0; 0; 0; 0; 0; 0; 0; 0].
Definition ewf_type_done : list N := [0x64; 0x6f; 0x6e; 0x65; 0; 0; 0; 0; 0; 0; 0; 0; 0; 0; 0; 0].
Definition ewf_type_error2 : list N := [0x65; 0x72; 0x72; 0x6f; 0x72; 0x73; 0x32; 0; 0; 0; 0; 0; 0; 0; 0; 0].
Definition ewf_type_hash : list N := [0x68; 0x61; 0x73; 0x68; 0; 0; 0; 0; 0; 0; 0; 0; 0; 0; 0; 0].
Definition ewf_type_header : list N := [0x68; 0x65; 0x61; 0x64; 0x65; 0x72; 0; 0; 0; 0; 0; 0; 0; 0; 0; 0].
Definition ewf_type_header2 : list N := [0x68; 0x65; 0x61; 0x64; 0x65; 0x72; 0x32; 0; 0; 0; 0; 0; 0; 0; 0; 0].
Definition ewf_type_next : list N := [0x6e; 0x65; 0x78; 0x74; 0; 0; 0; 0; 0; 0; 0; 0; 0; 0; 0; 0].
Definition ewf_type_sectors : list N := [0x73; 0x65; 0x63; 0x74; 0x6f; 0x72; 0x73; 0; 0; 0; 0; 0; 0; 0; 0; 0].
Definition ewf_type_table : list N := [0x74; 0x61; 0x62; 0x6c; 0x65; 0; 0; 0; 0; 0; 0; 0; 0; 0; 0; 0].
Definition ewf_type_table2 : list N := [0x74; 0x61; 0x62; 0x6c; 0x65; 0x32; 0; 0; 0; 0; 0; 0; 0; 0; 0; 0].
Definition ewf_type_volume : list N := [0x76; 0x6f; 0x6c; 0x75; 0x6d; 0x65; 0; 0; 0; 0; 0; 0; 0; 0; 0; 0].

(** The calls of [Adler32Context] below: [new(1)], [update] and [finalize]. *)
Definition ewf_adler (data : list N) : res N :=
  c <- adler_update (adler_new 1) data ;; Ok (fst (adler_finalize c)).
(** The check of section_header.rs 61-73 and the other structures: the last 4 of [n] + 4
    bytes are the checksum of the first [n]. *)
Definition ewf_check (data : list N) (n : N) : res unit :=
  check (negb (len data <? n + 4)) ;;;
  stored_checksum <- u32_le data n ;;
  checked_data <- slice data 0 n ;;
  calculated_checksum <- ewf_adler checked_data ;;
  check (stored_checksum =? calculated_checksum).

(** file_header.rs 45-69 [read_data]: the segment number *)
Definition ewf_file_header_read (data : list N) : res N :=
  check (negb (len data <? 13)) ;;;
  signature <- slice data 0 8 ;;
  check (same_bytes signature ewf_signature) ;;;
  start_of_fields <- idx data 8 ;;
  check (start_of_fields =? 1) ;;;
  end_of_fields <- slice data 11 13 ;;
  check (same_bytes end_of_fields [0; 0]) ;;;
  u16_le data 9.

(** section_header.rs 33-42 *)
Record ewf_section := { es_type : list N; es_next : N; es_size : N }.
(** section_header.rs 55-79 [read_data] *)
Definition ewf_section_read (data : list N) : res ewf_section :=
  ewf_check data 72 ;;;
  section_type <- slice data 0 16 ;;
  next_offset <- u64_le data 16 ;;
  size <- u64_le data 24 ;;
  Ok {| es_type := section_type; es_next := next_offset; es_size := size |}.

(** file.rs 94-150: the sections from an offset, and the offset behind them. A section has
    at least 76 bytes. *)
Fixpoint ewf_sections_read (fuel : nat) (file : list N) (file_offset : N) : res (list ewf_section * N) :=
  match fuel with
  | O => Panic
  | S fuel =>
      if file_offset <? len file then
        data <- read_exact_at file file_offset 76 ;;
        header <- ewf_section_read data ;;
        '(section_size, is_last_section) <-
          (if same_bytes (es_type header) ewf_type_done || same_bytes (es_type header) ewf_type_next then
             check ((es_size header =? 0) || (es_size header =? 76)) ;;;
             check (es_next header =? file_offset) ;;;
             Ok (76, true)
           else
             check (negb (es_next header <=? file_offset)) ;;;
             let calculated_section_size := es_next header - file_offset in
             check ((es_size header =? 0) || (es_size header =? calculated_section_size)) ;;;
             check (negb (calculated_section_size <? 76)) ;;;
             Ok (calculated_section_size, false)) ;;
        let section := {| es_type := es_type header; es_next := es_next header; es_size := section_size |} in
        file_offset <- add_chk two64 file_offset section_size ;;
        if is_last_section : bool then Ok ([section], file_offset)
        else
          '(sections, file_offset) <- ewf_sections_read fuel file file_offset ;;
          Ok (section :: sections, file_offset)
      else Ok ([], file_offset)
  end.
(** file.rs 62-160 [read_data_stream] and [read_sections]: the segment number and the sections *)
Definition ewf_file_read (file : list N) : res (N * list ewf_section) :=
  data <- read_exact_at file 0 13 ;;
  segment_number <- ewf_file_header_read data ;;
  '(sections, file_offset) <- ewf_sections_read (S (length file)) file 13 ;;
  check (file_offset =? len file) ;;;
  Ok (segment_number, sections).

(** table_header.rs 50-74 [read_data]: number of entries and base offset *)
Definition ewf_table_header_read (data : list N) : res (N * N) :=
  ewf_check data 20 ;;;
  number_of_entries <- u32_le data 0 ;;
  base_offset <- u64_le data 8 ;;
  Ok (number_of_entries, base_offset).
(** table.rs 94-117, table_entry.rs 46-55: the entries *)
Fixpoint ewf_entries_read (n : nat) (data : list N) (data_offset : N) : res (list N) :=
  match n with
  | O => Ok []
  | S n =>
      entry_data <- slice data data_offset (data_offset + 4) ;;
      entry <- u32_le entry_data 0 ;;
      entries <- ewf_entries_read n data (data_offset + 4) ;;
      Ok (entry :: entries)
  end.
(** table.rs 47-119 [read_data]: the base offset and the entries; table_footer.rs 39-48.
    The entries are only read when all of them are in the data. *)
Definition ewf_table_read (data : list N) : res (N * list N) :=
  '(number_of_entries, base_offset) <- ewf_table_header_read data ;;
  let footer_offset := 24 + number_of_entries * 4 in
  footer_data <- slice data footer_offset (footer_offset + 4) ;;
  stored_checksum <- u32_le footer_data 0 ;;
  entries_data <- slice data 24 footer_offset ;;
  calculated_checksum <- ewf_adler entries_data ;;
  check (stored_checksum =? calculated_checksum) ;;;
  entries <- ewf_entries_read (N.to_nat number_of_entries) data 24 ;;
  Ok (base_offset, entries).
(** table.rs 122-148 [read_at_position] *)
Definition ewf_table_read_at (file : list N) (data_size position : N) : res (N * list N) :=
  check (negb ((data_size <? 28) || (16777216 <? data_size))) ;;;
  data <- read_exact_at file position data_size ;;
  ewf_table_read data.

(** error2.rs 45-111 [read_data], error2_header.rs 45-68, error2_footer.rs 39-48,
    error2_entry.rs 46-56. Simplification: the entries, which are stored nowhere, are left out. *)
Definition ewf_error2_read (data : list N) : res unit :=
  ewf_check data 516 ;;;
  number_of_entries <- u32_le data 0 ;;
  let footer_offset := 520 + number_of_entries * 8 in
  footer_data <- slice data footer_offset (footer_offset + 4) ;;
  stored_checksum <- u32_le footer_data 0 ;;
  entries_data <- slice data 520 footer_offset ;;
  calculated_checksum <- ewf_adler entries_data ;;
  check (stored_checksum =? calculated_checksum).
(** error2.rs 114-140 [read_at_position] *)
Definition ewf_error2_read_at (file : list N) (data_size position : N) : res unit :=
  check (negb ((data_size <? 28) || (16777216 <? data_size))) ;;;
  data <- read_exact_at file position data_size ;;
  ewf_error2_read data.
(** digest.rs 50-73 [read_data] and hash.rs 45-67 [read_data]. Simplification: the hashes
    are not kept. *)
Definition ewf_digest_read_at (file : list N) (position : N) : res unit :=
  data <- read_exact_at file position 80 ;; ewf_check data 76.
Definition ewf_hash_read_at (file : list N) (position : N) : res unit :=
  data <- read_exact_at file position 36 ;; ewf_check data 32.

(** volume.rs 50-77 and 146-158, the values the image uses; the identifier is its 16 bytes *)
Record ewf_volume := { ev_chunks : N; ev_sectors_per_chunk : N; ev_bytes_per_sector : N; ev_sectors : N; ev_identifier : list N }.
(** volume.rs 96-128 [read_data] of EWF-E01 *)
Definition ewf_volume_e01_read (data : list N) : res ewf_volume :=
  ewf_check data 1048 ;;;
  number_of_chunks <- u32_le data 4 ;;
  sectors_per_chunk <- u32_le data 8 ;;
  bytes_per_sector <- u32_le data 12 ;;
  number_of_sectors <- u32_le data 16 ;;
  set_identifier <- slice data 64 80 ;;
  Ok {| ev_chunks := number_of_chunks; ev_sectors_per_chunk := sectors_per_chunk; ev_bytes_per_sector := bytes_per_sector;
        ev_sectors := number_of_sectors; ev_identifier := set_identifier |}.
(** volume.rs 172-197 [read_data] of EWF-S01; the set identifier of the image remains nil *)
Definition ewf_volume_s01_read (data : list N) : res ewf_volume :=
  ewf_check data 90 ;;;
  number_of_chunks <- u32_le data 4 ;;
  sectors_per_chunk <- u32_le data 8 ;;
  bytes_per_sector <- u32_le data 12 ;;
  number_of_sectors <- u32_le data 16 ;;
  Ok {| ev_chunks := number_of_chunks; ev_sectors_per_chunk := sectors_per_chunk; ev_bytes_per_sector := bytes_per_sector;
        ev_sectors := number_of_sectors; ev_identifier := repeat 0 16 |}.

(** block_range.rs 14-38 *)
Record ewf_range := { er_media_offset : N; er_segment : N; er_data_offset : N; er_data_size : N; er_compressed : bool }.
(** image.rs 44-98, the values that matter for reading *)
Record ewf_image := { ei_block_size : N; ei_media_size : N; ei_identifier : list N; ei_tree : block_tree ewf_range }.
(** image.rs 100-124 [new] *)
Definition ewf_image_new : ewf_image :=
  {| ei_block_size := 0; ei_media_size := 0; ei_identifier := repeat 0 16; ei_tree := bt_new 0 0 0 |}.

(** image.rs 852-932 [read_volume_section] *)
Definition ewf_read_volume (segment_number : N) (file : list N) (file_offset : N) (section : ewf_section) (v : ewf_image) : res ewf_image :=
  check (segment_number =? 1) ;;;
  check (negb (negb (ei_block_size v =? 0) || negb (ei_media_size v =? 0))) ;;;
  volume <-
    (if es_size section =? 170 then
       data <- read_exact_at file (file_offset + 76) 94 ;; ewf_volume_s01_read data
     else if es_size section =? 1128 then
       data <- read_exact_at file (file_offset + 76) 1052 ;; ewf_volume_e01_read data
     else Err) ;;
  block_size <- mul_chk two32 (ev_sectors_per_chunk volume) (ev_bytes_per_sector volume) ;;
  media_size <- mul_chk two64 (ev_sectors volume) (ev_bytes_per_sector volume) ;;
  block_tree_data_size <- mul_chk two64 (ev_chunks volume) block_size ;;
  Ok {| ei_block_size := block_size; ei_media_size := media_size;
        ei_identifier := if es_size section =? 170 then ei_identifier v else ev_identifier volume;
        ei_tree := bt_new block_tree_data_size (ev_sectors_per_chunk volume) (ev_bytes_per_sector volume) |}.

(** image.rs 719-807 and 808-847: the entries of a table, from [entry]. [overflow] is
    chunk_data_offset_overflow, [offset] safe_block_media_offset. *)
Fixpoint ewf_read_entries (segment_number block_size base_offset end_offset : N) (overflow : bool) (entry : N) (entries : list N)
    (t : block_tree ewf_range) (offset : N) : res (block_tree ewf_range * N) :=
  let chunk_is_compressed := if overflow then false else negb (N.land entry 0x80000000 =? 0) in
  let chunk_data_offset := if overflow then entry else N.land entry 0x7fffffff in
  let insert chunk_data_size :=
    data_offset <- add_chk two64 base_offset chunk_data_offset ;;
    t <- match bt_insert t offset block_size
           {| er_media_offset := offset; er_segment := segment_number; er_data_offset := data_offset;
              er_data_size := chunk_data_size; er_compressed := chunk_is_compressed |} with
         | (t, Ok _) => Ok t
         | (_, Err) => Err
         | (_, Panic) => Panic
         end ;;
    offset <- add_chk two64 offset block_size ;;
    Ok (t, offset) in
  match entries with
  | [] =>
      last_chunk_data_offset <- add_chk two64 base_offset chunk_data_offset ;;
      size <- sub_chk end_offset last_chunk_data_offset ;;
      insert (size mod two32)
  | next_entry :: entries =>
      let next_chunk_data_offset := if overflow then next_entry else N.land next_entry 0x7fffffff in
      chunk_data_size <-
        (if chunk_data_offset <? next_chunk_data_offset then sub_chk next_chunk_data_offset chunk_data_offset
         else if chunk_data_offset <? next_entry then sub_chk next_entry chunk_data_offset
         else Panic) ;;
      '(t, offset) <- insert chunk_data_size ;;
      chunk_data_end <- (if overflow then Ok 0 else add_chk two32 chunk_data_offset chunk_data_size) ;;
      let overflow := overflow || (0x7fffffff <? chunk_data_end) in
      ewf_read_entries segment_number block_size base_offset end_offset overflow next_entry entries t offset
  end.
(** image.rs 679-850 [read_table_section]; [last_sectors] is the next offset of
    last_sectors_section_header *)
Definition ewf_read_table (segment_number : N) (file : list N) (file_offset : N) (section : ewf_section) (last_sectors : option N)
    (v : ewf_image) (block_media_offset : N) : res (ewf_image * N) :=
  check (negb ((ei_block_size v =? 0) || (ei_media_size v =? 0))) ;;;
  data_size <- sub_chk (es_size section) 76 ;;
  '(base_offset, entries) <- ewf_table_read_at file data_size (file_offset + 76) ;;
  match entries with
  | [] => Err
  | entry :: entries =>
      let end_offset := match last_sectors with Some next_offset => next_offset | None => es_next section end in
      '(t, offset) <- ewf_read_entries segment_number (ei_block_size v) base_offset end_offset false entry entries
                        (ei_tree v) block_media_offset ;;
      Ok ({| ei_block_size := ei_block_size v; ei_media_size := ei_media_size v; ei_identifier := ei_identifier v; ei_tree := t |}, offset)
  end.

Section Ewf.
  (** The parsers of the header sections (header.rs, header2.rs: they fill the table of
      header values), which are not modelled: whether they accept the data. *)
  Context (header header2 : list N -> res unit).

  (** image.rs 352-562 [read_sections]: the image, block_media_offset and last_segment_file *)
  Fixpoint ewf_read_sections (segment_number : N) (file : list N) (sections : list ewf_section) (file_offset : N) (last_sectors : option N)
      (v : ewf_image) (block_media_offset : N) (last : bool) : res (ewf_image * N * bool) :=
    match sections with
    | [] => Ok (v, block_media_offset, last)
    | section :: sections =>
        let is := same_bytes (es_type section) in
        let go last_sectors v block_media_offset last :=
          file_offset <- add_chk two64 file_offset (es_size section) ;;
          ewf_read_sections segment_number file sections file_offset last_sectors v block_media_offset last in
        let skip := go last_sectors v block_media_offset last in
        if is ewf_type_data then
          data <- read_exact_at file (file_offset + 76) 1052 ;;
          volume <- ewf_volume_e01_read data ;;
          check (same_bytes (ei_identifier v) (ev_identifier volume)) ;;;
          skip
        else if is ewf_type_digest then ewf_digest_read_at file (file_offset + 76) ;;; skip
        else if is ewf_type_disk || is ewf_type_volume then
          v <- ewf_read_volume segment_number file file_offset section v ;;
          go last_sectors v block_media_offset last
        else if is ewf_type_done then go last_sectors v block_media_offset true
        else if is ewf_type_error2 then
          data_size <- sub_chk (es_size section) 76 ;;
          ewf_error2_read_at file data_size (file_offset + 76) ;;; skip
        else if is ewf_type_hash then ewf_hash_read_at file (file_offset + 76) ;;; skip
        else if is ewf_type_header || is ewf_type_header2 then
          check (segment_number =? 1) ;;;
          data_size <- sub_chk (es_size section) 76 ;;
          check (negb ((data_size <? 2) || (16777216 <? data_size))) ;;;
          data <- read_exact_at file (file_offset + 76) data_size ;;
          (if is ewf_type_header then header data else header2 data) ;;;
          skip
        else if is ewf_type_next then go last_sectors v block_media_offset false
        else if is ewf_type_sectors then go (Some (es_next section)) v block_media_offset last
        else if is ewf_type_table then
          '(v, block_media_offset) <- ewf_read_table segment_number file file_offset section last_sectors v block_media_offset ;;
          go last_sectors v block_media_offset last
        else if is ewf_type_table2 then
          data_size <- sub_chk (es_size section) 76 ;;
          _ <- ewf_table_read_at file data_size (file_offset + 76) ;;
          skip
        else skip
    end.

  (** The cached segment files; [None] is a file without a data stream, file.rs 36-42 [new] *)
  Definition ewf_cache : Type := lru (option (list N)).
  (** image.rs 604-672: the segment files from [segment_number]. [resolve] is
      [FileResolver::get_data_stream] as a function of the extension of the file. *)
  Fixpoint ewf_read_segments (fuel : nat) (resolve : list N -> res (option (list N))) (schema : naming_schema) (segment_number : N)
      (v : ewf_image) (block_media_offset : N) (cache : ewf_cache) : res (ewf_image * ewf_cache) :=
    match fuel with
    | O => Panic
    | S fuel =>
        extension <- get_segment_file_extension segment_number schema ;;
        result <- resolve extension ;;
        file <- of_option result ;;
        '(number, sections) <- ewf_file_read file ;;
        check (number =? segment_number) ;;;
        '(v, block_media_offset, last) <- ewf_read_sections segment_number file sections 13 None v block_media_offset false ;;
        cache <- lru_insert cache segment_number (Some file) ;;
        segment_number <- add_chk two16 segment_number 1 ;;
        if last : bool then Ok (v, cache)
        else ewf_read_segments fuel resolve schema segment_number v block_media_offset cache
    end.
  (** image.rs 186-201 [open] and 565-676 [read_segment_files], from the extension of the
      file name: [None] is a name without extension. The loop ends before segment 65535,
      which has no extension. *)
  Definition ewf_open (resolve : list N -> res (option (list N))) (extension : option (list N)) : res (ewf_image * ewf_cache) :=
    extension <- of_option extension ;;
    schema <-
      (if same_bytes extension [0x45; 0x30; 0x31] then Ok E01UpperCase
       else if same_bytes extension [0x53; 0x30; 0x31] then Ok S01UpperCase
       else if same_bytes extension [0x65; 0x30; 0x31] then Ok E01LowerCase
       else if same_bytes extension [0x73; 0x30; 0x31] then Ok S01LowerCase
       else Err) ;;
    ewf_read_segments (N.to_nat 65535) resolve schema 1 ewf_image_new 0 (lru_new 16).
End Ewf.

(** file.rs 45-59 [read_exact_at_position] *)
Definition ewf_segment_read (segment_file : option (list N)) (offset n : N) : res (list N) :=
  file <- of_option segment_file ;; read_exact_at file offset n.
(** image.rs 273-325: a compressed chunk, by way of the cache *)
Definition ewf_cached (v : ewf_image) (segment_file : option (list N)) (c : lru (list N)) (r : ewf_range) : lru (list N) * res (list N) :=
  match (if lru_contains c (er_data_offset r) then Ok c
         else
           compressed_data <- ewf_segment_read segment_file (er_data_offset r) (er_data_size r) ;;
           '(block_data, _) <- zlib_decompress compressed_data (repeat 0 (N.to_nat (ei_block_size v))) ;;
           lru_insert c (er_data_offset r) block_data) with
  | Ok c => (c, of_option (lru_get c (er_data_offset r)))
  | Err => (c, Err)
  | Panic => (c, Panic)
  end.
(** image.rs 204-345: the body of the loop of [read_data_from_blocks] *)
Definition ewf_step (v : ewf_image) (s : ewf_cache * lru (list N)) (media_offset n : N) : (ewf_cache * lru (list N)) * res (list N) :=
  let '(segments, c) := s in
  match (found <- bt_get (ei_tree v) media_offset ;;
         r <- of_option found ;;
         segments <- (if lru_contains segments (er_segment r) then Ok segments else lru_insert segments (er_segment r) None) ;;
         Ok (r, segments)) with
  | Ok (r, segments) =>
      match (segment_file <- of_option (lru_get segments (er_segment r)) ;;
             relative <- sub_chk media_offset (er_media_offset r) ;;
             remainder <- sub_chk (ei_block_size v) relative ;;
             Ok (segment_file, relative, N.min n remainder)) with
      | Ok (segment_file, relative, n) =>
          if er_compressed r then
            let '(c, data) := ewf_cached v segment_file c r in
            ((segments, c), data <- data ;; slice data relative (relative + n))
          else
            ((segments, c), chunk_offset <- add_chk two64 (er_data_offset r) relative ;; ewf_segment_read segment_file chunk_offset n)
      | Err => ((segments, c), Err)
      | Panic => ((segments, c), Panic)
      end
  | Err => (s, Err)
  | Panic => (s, Panic)
  end.
(** image.rs 935-985 *)
Definition ewf_stream_step (v : ewf_image) := stream_step (ei_media_size v) (blocks_rd (ei_media_size v) (ewf_step v)).
(** The caches of an opened image, line 114, and the position *)
Definition ewf_start (cache : ewf_cache) : (ewf_cache * lru (list N)) * N := ((cache, lru_new 64), 0).
