(** * Model of keramics-formats/src/udif *)
From Verif Require Import Base Bytes_model Streams_model Streams_spec BlockTree_model Blocks_model Lru_model Lz_model Deflate_model Vhd_model.

(** udif/constants.rs 14-18 *)
Definition udif_footer_signature : list N := [0x6b; 0x6f; 0x6c; 0x79].
Definition udif_table_signature : list N := [0x6d; 0x69; 0x73; 0x68].

(** file_footer.rs 78-102 [read_data]: data fork offset and size, plist offset and size *)
Definition udif_footer_read (data : list N) : res (N * N * N * N) :=
  check (len data =? 512) ;;;
  signature <- slice data 0 4 ;;
  check (same_bytes signature udif_footer_signature) ;;;
  format_version <- u32_be data 4 ;;
  check (format_version =? 4) ;;;
  data_fork_offset <- u64_be data 24 ;;
  data_fork_size <- u64_be data 32 ;;
  plist_offset <- u64_be data 216 ;;
  plist_size <- u64_be data 224 ;;
  Ok (data_fork_offset, data_fork_size, plist_offset, plist_size).

(** block_table_entry.rs 34-49 *)
Record udif_entry := { ue_type : N; ue_start : N; ue_sectors : N; ue_offset : N; ue_size : N }.
(** block_table_entry.rs 64-78 [read_data] *)
Definition udif_entry_read (data : list N) : res udif_entry :=
  check (len data =? 40) ;;;
  entry_type <- u32_be data 0 ;;
  start_sector <- u64_be data 8 ;;
  number_of_sectors <- u64_be data 16 ;;
  data_offset <- u64_be data 24 ;;
  data_size <- u64_be data 32 ;;
  Ok {| ue_type := entry_type; ue_start := start_sector; ue_sectors := number_of_sectors;
        ue_offset := data_offset; ue_size := data_size |}.
(** block_table_header.rs 59-82 [read_data]: start sector and number of entries *)
Definition udif_table_header_read (data : list N) : res (N * N) :=
  check (len data =? 204) ;;;
  signature <- slice data 0 4 ;;
  check (same_bytes signature udif_table_signature) ;;;
  format_version <- u32_be data 4 ;;
  check (format_version =? 1) ;;;
  start_sector <- u64_be data 8 ;;
  number_of_entries <- u32_be data 200 ;;
  Ok (start_sector, number_of_entries).
(** block_table.rs 71-96 *)
Fixpoint udif_entries_read (n : nat) (data : list N) (data_offset : N) : res (list udif_entry) :=
  match n with
  | O => Ok []
  | S n =>
      let data_end_offset := data_offset + 40 in
      check (negb (len data <? data_end_offset)) ;;;
      entry_data <- slice data data_offset data_end_offset ;;
      entry <- udif_entry_read entry_data ;;
      entries <- udif_entries_read n data data_end_offset ;;
      Ok (entry :: entries)
  end.
(** block_table.rs 43-98 [read_data]. Loops that would run out of the data are cut short: the
    number of entries of the loop is at most one more than fits. *)
Definition udif_table_read (data : list N) : res (N * list udif_entry) :=
  check (negb (len data <? 204)) ;;;
  header_data <- slice data 0 204 ;;
  '(start_sector, number_of_entries) <- udif_table_header_read header_data ;;
  entries <- udif_entries_read (N.to_nat (N.min number_of_entries (len data))) data 204 ;;
  Ok (start_sector, entries).

(** block_range.rs 15-40 *)
Inductive udif_range_type := UdifCompressed | UdifInFile | UdifSparse.
Record udif_range := { ur_media_offset : N; ur_data_offset : N; ur_size : N; ur_compressed_size : N; ur_type : udif_range_type }.

(** file.rs 28 *)
Definition maximum_number_of_sectors : N := 0xffffffffffffffff / 512.
(** The variables of file.rs 167-170: the ranges, last one first, the sector, the offset
    and the type of compressed entries. *)
Record udif_state := { us_ranges : list udif_range; us_sector : N; us_offset : N; us_compressed : N }.
(** file.rs 208-305: the entries of a table *)
Fixpoint udif_entries (fork_offset fork_end start_sector : N) (entries : list udif_entry) (s : udif_state) : res udif_state :=
  match entries with
  | [] => Ok s
  | e :: entries =>
      if ue_type e =? 0xffffffff then Ok s
      else if ue_type e =? 0x7ffffffe then udif_entries fork_offset fork_end start_sector entries s
      else
        maximum <- sub_chk maximum_number_of_sectors start_sector ;;
        check (negb (maximum <? ue_start e)) ;;;
        check (start_sector + ue_start e =? us_sector s) ;;;
        check (negb ((ue_sectors e =? 0) || (maximum_number_of_sectors <? ue_sectors e))) ;;;
        check (negb ((ue_offset e <? fork_offset) || (fork_end <=? ue_offset e))) ;;;
        check (negb (fork_end - ue_offset e <? ue_size e)) ;;;
        let media_size := ue_sectors e * 512 in
        '(r, compressed) <-
          (if (ue_type e =? 0) || (ue_type e =? 2) then
             Ok ({| ur_media_offset := us_offset s; ur_data_offset := 0; ur_size := media_size;
                    ur_compressed_size := 0; ur_type := UdifSparse |}, us_compressed s)
           else if ue_type e =? 1 then
             Ok ({| ur_media_offset := us_offset s; ur_data_offset := ue_offset e; ur_size := media_size;
                    ur_compressed_size := 0; ur_type := UdifInFile |}, us_compressed s)
           else if (0x80000004 <=? ue_type e) && (ue_type e <? 0x80000008) then
             check (negb (2048 <? ue_sectors e)) ;;;
             check ((us_compressed s =? 0) || (ue_type e =? us_compressed s)) ;;;
             Ok ({| ur_media_offset := us_offset s; ur_data_offset := ue_offset e; ur_size := media_size;
                    ur_compressed_size := ue_size e mod two32; ur_type := UdifCompressed |}, ue_type e)
           else Err) ;;
        offset <- add_chk two64 (us_offset s) media_size ;;
        sector <- add_chk two64 (us_sector s) (ue_sectors e) ;;
        udif_entries fork_offset fork_end start_sector entries
          {| us_ranges := r :: us_ranges s; us_sector := sector; us_offset := offset; us_compressed := compressed |}
  end.
(** file.rs 172-306: the tables *)
Fixpoint udif_tables (fork_offset fork_end : N) (tables : list (list N)) (s : udif_state) : res udif_state :=
  match tables with
  | [] => Ok s
  | data :: tables =>
      '(start_sector, entries) <- udif_table_read data ;;
      check (start_sector =? us_sector s) ;;;
      s <- udif_entries fork_offset fork_end start_sector entries s ;;
      udif_tables fork_offset fork_end tables s
  end.

(** file.rs 31-62; [uf_has_ranges] is [has_block_ranges] *)
Record udif_file := { uf_fork_offset : N; uf_has_ranges : bool; uf_tree : block_tree udif_range; uf_compressed : N; uf_media_size : N }.
(** file.rs 98-344 [read_metadata]. [plist] stands for the conversion of the data to a
    string, the plist parser and the look up of resource-fork, blkx and the Data values. A
    file of less than 512 bytes has no footer: seeking before the start is an error. *)
Definition udif_open (plist : list N -> res (list (list N))) (file : list N) : res udif_file :=
  check (negb (len file <? 512)) ;;;
  data <- read_exact_at file (len file - 512) 512 ;;
  '(data_fork_offset, data_fork_size, plist_offset, plist_size) <- udif_footer_read data ;;
  data_fork_end_offset <- add_chk two64 data_fork_offset data_fork_size ;;
  if plist_size =? 0 then
    Ok {| uf_fork_offset := data_fork_offset; uf_has_ranges := false; uf_tree := bt_new 0 0 0; uf_compressed := 0;
          uf_media_size := data_fork_size |}
  else
    check (negb (65536 <? plist_size)) ;;;
    tables <- plist (read_at file plist_offset plist_size ++ repeat 0 (N.to_nat (plist_size - len (read_at file plist_offset plist_size)))) ;;
    s <- udif_tables data_fork_offset data_fork_end_offset tables
           {| us_ranges := []; us_sector := 0; us_offset := 0; us_compressed := 0 |} ;;
    groups <- div_ceil (us_sector s) 16384 ;;
    sectors <- mul_chk two64 groups 16384 ;;
    block_tree_data_size <- mul_chk two64 sectors 512 ;;
    tree <- insert_ranges (bt_new block_tree_data_size 16384 512)
              (map (fun r => (ur_media_offset r, ur_size r, r)) (us_ranges s)) ;;
    Ok {| uf_fork_offset := 0; uf_has_ranges := true; uf_tree := tree; uf_compressed := us_compressed s;
          uf_media_size := us_offset s |}.

(** The decompressors of file.rs 459-523, of which bzip2 and LZFSE, here [other], are not
    modelled: from the type of the entries, the compressed data and the size of the
    buffer, which is filled with zeros, to the buffer. *)
Definition udif_decompress (other : N -> list N -> N -> res (list N)) (method : N) (data : list N) (size : N) : res (list N) :=
  match method with
  | 0x80000004 => '(buf, _) <- adc_decompress data (repeat 0 (N.to_nat size)) ;; Ok buf
  | 0x80000005 => '(buf, _) <- zlib_decompress data (repeat 0 (N.to_nat size)) ;; Ok buf
  | 0x80000006 | 0x80000007 => other method data size
  | _ => Err
  end.
Section Udif.
  Context (decompress : N -> list N -> N -> res (list N)).

  (** file.rs 430-526 [read_compressed_block] *)
  Definition udif_read_compressed (file : list N) (v : udif_file) (r : udif_range) : res (list N) :=
    compressed_data <- read_exact_at file (ur_data_offset r) (ur_compressed_size r) ;;
    decompress (uf_compressed v) compressed_data (ur_size r).
  (** file.rs 376-400: a compressed range, by way of the cache *)
  Definition udif_cached (file : list N) (v : udif_file) (c : lru (list N)) (r : udif_range) : lru (list N) * res (list N) :=
    match (if lru_contains c (ur_data_offset r) then Ok c
           else data <- udif_read_compressed file v r ;; lru_insert c (ur_data_offset r) data) with
    | Ok c => (c, of_option (lru_get c (ur_data_offset r)))
    | Err => (c, Err)
    | Panic => (c, Panic)
    end.
  (** file.rs 352-421: the body of the loop of [read_data_from_blocks] *)
  Definition udif_step (file : list N) (v : udif_file) (c : lru (list N)) (media_offset n : N) : lru (list N) * res (list N) :=
    match (found <- bt_get (uf_tree v) media_offset ;;
           r <- of_option found ;;
           relative <- sub_chk media_offset (ur_media_offset r) ;;
           remainder <- sub_chk (ur_size r) relative ;;
           Ok (r, relative, N.min n remainder)) with
    | Ok (r, relative, n) =>
        match ur_type r with
        | UdifCompressed =>
            let '(c, data) := udif_cached file v c r in
            (c, data <- data ;; slice data relative (relative + n))
        | UdifInFile => (c, o <- add_chk two64 (ur_data_offset r) relative ;; Ok (read_at file o n))
        | UdifSparse => (c, Ok (repeat 0 (N.to_nat n)))
        end
    | Err => (c, Err)
    | Panic => (c, Panic)
    end.
  (** file.rs 536-571 [read], its part below the bounds *)
  Definition udif_rd (file : list N) (v : udif_file) (c : lru (list N)) (media_offset n : N) : lru (list N) * res (list N) :=
    if uf_has_ranges v then blocks_rd (uf_media_size v) (udif_step file v) c media_offset n
    else (c, o <- add_chk two64 (uf_fork_offset v) media_offset ;; Ok (read_at file o n)).
  (** file.rs 529-591 and the cache of line 73 *)
  Definition udif_stream_step (file : list N) (v : udif_file) := stream_step (uf_media_size v) (udif_rd file v).
End Udif.
Definition udif_start : lru (list N) * N := (lru_new 64, 0).
