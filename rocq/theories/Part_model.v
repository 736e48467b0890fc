(** * Model of the volume systems of keramics-formats: mbr, gpt and apm

    The data stream is the list of its bytes. The structures are read with the
    [read_at_position] generated by keramics-layout-map/src/structure.rs 811-849: an exact
    read followed by [read_data]. What a volume system keeps of a failed read is left out:
    without its data stream it gives out no partition. *)
From Verif Require Import Base Bytes_model Checksums_model Uuid_model Strings_model Streams_spec Blocks_model.

Definition same (a b : list N) : bool := if list_eq_dec N.eq_dec a b then true else false.

(** ** Master Boot Record: mbr/ *)

(** partition_entry.rs 32-47 *)
Record mbr_entry := { me_index : N; me_flags : N; me_type : N; me_start : N; me_sectors : N }.
(** partition_entry.rs 62-74 *)
Definition mbr_entry_read (data : list N) : res mbr_entry :=
  check (len data =? 16) ;;;
  flags <- idx data 0 ;;
  partition_type <- idx data 4 ;;
  start <- u32_le data 8 ;;
  sectors <- u32_le data 12 ;;
  Ok {| me_index := 0; me_flags := flags; me_type := partition_type; me_start := start; me_sectors := sectors |}.

Fixpoint mbr_entries_read (data : list N) (offsets : list N) : res (list mbr_entry) :=
  match offsets with
  | [] => Ok []
  | data_offset :: offsets =>
      d <- slice data data_offset (data_offset + 16) ;;
      entry <- mbr_entry_read d ;;
      entries <- mbr_entries_read data offsets ;;
      Ok (entry :: entries)
  end.
(** master_boot_record.rs 58-80 and extended_boot_record.rs 53-75: the first accepts more
    than 512 bytes, but is given 512; the disk identity and the entries *)
Definition boot_record_read (data : list N) : res (N * list mbr_entry) :=
  check (len data =? 512) ;;;
  signature <- slice data 510 512 ;;
  check (same signature [0x55; 0xaa]) ;;;
  disk_identity <- u32_le data 440 ;;
  entries <- mbr_entries_read data [446; 462; 478; 494] ;;
  Ok (disk_identity, entries).
Definition boot_record_at (volume : list N) (offset : N) : res (N * list mbr_entry) :=
  data <- read_exact_at volume offset 512 ;; boot_record_read data.

(** volume_system.rs 24 *)
Definition mbr_sector_sizes : list N := [512; 1024; 2048; 4096].

(** volume_system.rs 149-164: [boot_signature] keeps the bytes that were not read *)
Fixpoint mbr_detect (volume : list N) (start : N) (sizes boot_signature : list N) : N :=
  match sizes with
  | [] => 0
  | bytes_per_sector :: sizes =>
      let data := read_at volume (start * bytes_per_sector + 510) 2 in
      let boot_signature := data ++ skipn (length data) boot_signature in
      if same boot_signature [0x55; 0xaa] then bytes_per_sector
      else mbr_detect volume start sizes boot_signature
  end.
(** volume_system.rs 148, 173 *)
Definition is_extended (e : mbr_entry) : bool := (me_type e =? 5) || (me_type e =? 15).

(** volume_system.rs 169-191: the entries of the master boot record; the entries kept and
    the offset of the extended boot record *)
Fixpoint mbr_primary (bytes_per_sector : N) (entries : list mbr_entry) (entry_index extended_offset : N)
  : res (list mbr_entry * N) :=
  match entries with
  | [] => Ok ([], extended_offset)
  | e :: entries =>
      if is_extended e then
        check (negb (bytes_per_sector =? 0)) ;;;
        check (extended_offset =? 0) ;;;
        mbr_primary bytes_per_sector entries (entry_index + 1) (me_start e * bytes_per_sector)
      else
        '(kept, extended_offset) <- mbr_primary bytes_per_sector entries (entry_index + 1) extended_offset ;;
        Ok (if me_type e =? 0 then kept
            else {| me_index := entry_index; me_flags := me_flags e; me_type := me_type e;
                    me_start := me_start e; me_sectors := me_sectors e |} :: kept, extended_offset)
  end.

(** volume_system.rs 260-280: the entries of an extended boot record *)
Fixpoint mbr_logical (first_offset bytes_per_sector first_index : N) (entries : list mbr_entry)
    (entry_index extended_offset : N) : res (list mbr_entry * N) :=
  match entries with
  | [] => Ok ([], extended_offset)
  | e :: entries =>
      if me_type e =? 0 then
        mbr_logical first_offset bytes_per_sector first_index entries entry_index extended_offset
      else if me_type e =? 5 then
        check (extended_offset =? 0) ;;;
        offset <- add_chk two64 first_offset (me_start e * bytes_per_sector) ;;
        mbr_logical first_offset bytes_per_sector first_index entries (entry_index + 1) offset
      else
        '(kept, extended_offset) <-
           mbr_logical first_offset bytes_per_sector first_index entries (entry_index + 1) extended_offset ;;
        Ok ({| me_index := first_index + entry_index; me_flags := me_flags e; me_type := me_type e;
               me_start := me_start e; me_sectors := me_sectors e |} :: kept, extended_offset)
  end.

(** volume_system.rs 234-298 [read_extended_boot_record]; [first_entry_index] grows by 4 up
    to 1024, so that the fuel of 256 is never used up *)
Fixpoint mbr_extended (fuel : nat) (volume : list N) (first_offset bytes_per_sector : N)
    (offset first_entry_index : N) : res (list mbr_entry) :=
  match fuel with
  | O => Panic
  | S fuel =>
      check (negb (1024 <=? first_entry_index)) ;;;
      '(_, entries) <- boot_record_at volume offset ;;
      '(kept, extended_offset) <- mbr_logical first_offset bytes_per_sector first_entry_index entries 0 0 ;;
      if extended_offset =? 0 then Ok kept
      else
        rest <- mbr_extended fuel volume first_offset bytes_per_sector extended_offset (first_entry_index + 4) ;;
        Ok (kept ++ rest)
  end.

(** [max_by_key]: the last of the elements with the largest start *)
Fixpoint last_start (entries : list mbr_entry) (best : option mbr_entry) : option mbr_entry :=
  match entries with
  | [] => best
  | e :: entries =>
      last_start entries
        (match best with
         | Some b => if me_start b <=? me_start e then Some e else Some b
         | None => Some e
         end)
  end.
(** volume_system.rs 218-223 *)
Fixpoint mbr_fit (end_lba stream_size : N) (sizes : list N) (bytes_per_sector : N) : N :=
  match sizes with
  | [] => bytes_per_sector
  | size :: sizes =>
      if stream_size / size <? end_lba then bytes_per_sector else mbr_fit end_lba stream_size sizes size
  end.

(** volume_system.rs 27-42 *)
Record mbr_system := {
  ms_bytes_per_sector : N;
  ms_first_extended : N;
  ms_disk_identity : N;
  ms_entries : list mbr_entry
}.
(** volume_system.rs 116-231 [read_data_stream] of a new volume system with the
    [bytes_per_sector] that was set, or 0 *)
Definition mbr_read (volume : list N) (bytes_per_sector : N) : res mbr_system :=
  '(disk_identity, entries) <- boot_record_at volume 0 ;;
  let bytes_per_sector :=
    if bytes_per_sector =? 0 then
      match find is_extended entries with
      | Some e => mbr_detect volume (me_start e) mbr_sector_sizes [0; 0]
      | None => 0
      end
    else bytes_per_sector in
  '(primary, extended_offset) <- mbr_primary bytes_per_sector entries 0 0 ;;
  logical <-
    (if extended_offset =? 0 then Ok []
     else mbr_extended 256 volume extended_offset bytes_per_sector extended_offset 4) ;;
  let kept := primary ++ logical in
  let bytes_per_sector :=
    if bytes_per_sector =? 0 then
      match last_start kept None with
      | Some e => mbr_fit (me_start e + me_sectors e) (len volume) mbr_sector_sizes 0
      | None => 0
      end
    else bytes_per_sector in
  Ok {| ms_bytes_per_sector := bytes_per_sector; ms_first_extended := extended_offset;
        ms_disk_identity := disk_identity; ms_entries := kept |}.

(** partition.rs 26-39: index of the entry, offset, size, type and flags *)
Record mbr_partition := { mp_index : N; mp_offset : N; mp_size : N; mp_type : N; mp_flags : N }.
(** volume_system.rs 62-113 [get_partition_by_index] *)
Definition mbr_partition_at (system : mbr_system) (partition_index : N) : res mbr_partition :=
  e <- of_option (nth_error (ms_entries system) (N.to_nat partition_index)) ;;
  check (negb (ms_bytes_per_sector system =? 0)) ;;;
  partition_offset <- mul_chk two64 (me_start e) (ms_bytes_per_sector system) ;;
  partition_size <- mul_chk two64 (me_sectors e) (ms_bytes_per_sector system) ;;
  partition_offset <-
    (if 4 <=? me_index e then add_chk two64 partition_offset (ms_first_extended system)
     else Ok partition_offset) ;;
  Ok {| mp_index := me_index e; mp_offset := partition_offset; mp_size := partition_size;
        mp_type := me_type e; mp_flags := me_flags e |}.

(** ** GUID Partition Table: gpt/ *)

(** partition_table_header.rs 45-54 *)
Record gpt_header := {
  gh_backup : N; gh_area_start : N; gh_area_end : N; gh_disk : uuid;
  gh_entries_start : N; gh_number : N; gh_entry_size : N; gh_checksum : N
}.
Definition gpt_polynomial : N := 0xedb88320.
(** partition_table_header.rs 72-124 *)
Definition gpt_header_read (data : list N) : res gpt_header :=
  check (len data =? 92) ;;;
  signature <- slice data 0 8 ;;
  check (same signature [0x45; 0x46; 0x49; 0x20; 0x50; 0x41; 0x52; 0x54]) ;;;
  format_version <- u32_le data 8 ;;
  check (format_version =? 0x00010000) ;;;
  header_data_size <- u32_le data 12 ;;
  check (header_data_size =? 92) ;;;
  stored_checksum <- u32_le data 16 ;;
  a <- slice data 0 16 ;;
  c <- rcrc_update (crc_new gpt_polynomial 0) a ;;
  c <- rcrc_update c [0; 0; 0; 0] ;;
  b <- slice data 20 header_data_size ;;
  c <- rcrc_update c b ;;
  let calculated_checksum := fst (crc_finalize c) in
  check ((stored_checksum =? 0) || (stored_checksum =? calculated_checksum)) ;;;
  backup <- u64_le data 32 ;;
  area_start <- u64_le data 40 ;;
  area_end <- u64_le data 48 ;;
  d <- slice data 56 72 ;;
  disk <- uuid_from_le_bytes d ;;
  entries_start <- u64_le data 72 ;;
  number <- u32_le data 80 ;;
  entry_size <- u32_le data 84 ;;
  checksum <- u32_le data 88 ;;
  Ok {| gh_backup := backup; gh_area_start := area_start; gh_area_end := area_end; gh_disk := disk;
        gh_entries_start := entries_start; gh_number := number; gh_entry_size := entry_size;
        gh_checksum := checksum |}.
Definition gpt_header_at (volume : list N) (offset : N) : res gpt_header :=
  data <- read_exact_at volume offset 92 ;; gpt_header_read data.

(** partition_entry.rs 32-40 *)
Record gpt_entry := {
  ge_index : N; ge_type : uuid; ge_identifier : uuid; ge_start : N; ge_end : N;
  ge_flags : N; ge_name : list N
}.
(** partition_entry.rs 57-71 *)
Definition gpt_entry_read (index : N) (data : list N) : res gpt_entry :=
  check (len data =? 128) ;;;
  d <- slice data 0 16 ;;
  type_identifier <- uuid_from_le_bytes d ;;
  d <- slice data 16 32 ;;
  identifier <- uuid_from_le_bytes d ;;
  start <- u64_le data 32 ;;
  end_ <- u64_le data 40 ;;
  flags <- u64_le data 48 ;;
  d <- slice data 56 128 ;;
  name <- u16string_from_le_bytes d ;;
  Ok {| ge_index := index; ge_type := type_identifier; ge_identifier := identifier; ge_start := start;
        ge_end := end_; ge_flags := flags; ge_name := name |}.

(** volume_system.rs 226-272: [n] entries from [entry_index] on *)
Fixpoint gpt_entries (n : nat) (volume : list N) (area_start entry_size : N) (entry_data_offset entry_index : N)
    (c : crc_ctx) : res (list gpt_entry * crc_ctx) :=
  match n with
  | O => Ok ([], c)
  | S n =>
      entry_data <- read_exact_at volume entry_data_offset entry_size ;;
      entry_data_offset <- add_chk two64 entry_data_offset entry_size ;;
      c <- rcrc_update c entry_data ;;
      entry <- gpt_entry_read entry_index entry_data ;;
      (if uuid_is_nil (ge_type entry) then Ok tt
       else check (negb (ge_start entry <? area_start)) ;;; check (negb (ge_end entry <? ge_start entry))) ;;;
      '(kept, c) <- gpt_entries n volume area_start entry_size entry_data_offset (entry_index + 1) c ;;
      Ok (if uuid_is_nil (ge_type entry) then kept else entry :: kept, c)
  end.

(** volume_system.rs 151-161: the first sector size with a header *)
Fixpoint gpt_detect (volume : list N) (sizes : list N) : res (gpt_header * N) :=
  match sizes with
  | [] => Err
  | size :: sizes =>
      match gpt_header_at volume size with
      | Ok header => Ok (header, size)
      | Err => gpt_detect volume sizes
      | Panic => Panic
      end
  end.

(** volume_system.rs 28-44 *)
Record gpt_system := { gs_bytes_per_sector : N; gs_disk : uuid; gs_entries : list gpt_entry }.
(** volume_system.rs 114-284 [read_data_stream] of a new volume system with the
    [bytes_per_sector] that was set, or 0. [SeekFrom::End] is the position counted from
    the end, which is in the stream since the primary header is. *)
Definition gpt_read (volume : list N) (bytes_per_sector : N) : res gpt_system :=
  '(header, bytes_per_sector) <-
    (if bytes_per_sector =? 0 then gpt_detect volume [512; 4096]
     else header <- gpt_header_at volume bytes_per_sector ;; Ok (header, bytes_per_sector)) ;;
  backup_offset <- mul_chk two64 (gh_backup header) bytes_per_sector ;;
  (if 0 <? backup_offset then
     match gpt_header_at volume backup_offset with
     | Ok _ => Ok tt
     | Err =>
         offset <- sub_chk (len volume) bytes_per_sector ;;
         _ <- gpt_header_at volume offset ;; Ok tt
     | Panic => Panic
     end
   else Ok tt) ;;;
  check (gh_entry_size header =? 128) ;;;
  let maximum_number_of_entries := 32 * bytes_per_sector / gh_entry_size header in
  check (gh_number header <=? maximum_number_of_entries) ;;;
  entry_data_offset <- mul_chk two64 (gh_entries_start header) bytes_per_sector ;;
  '(kept, c) <- gpt_entries (N.to_nat (gh_number header)) volume (gh_area_start header)
      (gh_entry_size header) entry_data_offset 0 (crc_new gpt_polynomial 0) ;;
  let calculated_checksum := fst (crc_finalize c) in
  check ((gh_checksum header =? 0) || (gh_checksum header =? calculated_checksum)) ;;;
  Ok {| gs_bytes_per_sector := bytes_per_sector; gs_disk := gh_disk header; gs_entries := kept |}.

(** partition.rs 27-40 *)
Record gpt_partition := { gp_index : N; gp_offset : N; gp_size : N; gp_type : uuid; gp_identifier : uuid }.
(** volume_system.rs 64-109 [get_partition_by_index] *)
Definition gpt_partition_at (system : gpt_system) (partition_index : N) : res gpt_partition :=
  e <- of_option (nth_error (gs_entries system) (N.to_nat partition_index)) ;;
  partition_offset <- mul_chk two64 (ge_start e) (gs_bytes_per_sector system) ;;
  n <- sub_chk (ge_end e) (ge_start e) ;;
  n <- add_chk two64 n 1 ;;
  partition_size <- mul_chk two64 n (gs_bytes_per_sector system) ;;
  Ok {| gp_index := ge_index e; gp_offset := partition_offset; gp_size := partition_size;
        gp_type := ge_type e; gp_identifier := ge_identifier e |}.

(** ** Apple Partition Map: apm/ *)

(** partition_map_entry.rs 49-67 *)
Record apm_entry := {
  ae_number : N; ae_start : N; ae_sectors : N; ae_name : list N; ae_type : list N; ae_flags : N
}.
(** partition_map_entry.rs 84-103 *)
Definition apm_entry_read (data : list N) : res apm_entry :=
  check (len data =? 512) ;;;
  signature <- slice data 0 2 ;;
  check (same signature [0x50; 0x4d]) ;;;
  number <- u32_be data 4 ;;
  start <- u32_be data 8 ;;
  sectors <- u32_be data 12 ;;
  name <- slice data 16 48 ;;
  type_identifier <- slice data 48 80 ;;
  flags <- u32_be data 88 ;;
  Ok {| ae_number := number; ae_start := start; ae_sectors := sectors; ae_name := string_from_slice name;
        ae_type := string_from_slice type_identifier; ae_flags := flags |}.
(** constants.rs 18-21: "Apple_partition_map" *)
Definition apm_map_type : list N :=
  [0x41; 0x70; 0x70; 0x6c; 0x65; 0x5f; 0x70; 0x61; 0x72; 0x74; 0x69; 0x74; 0x69; 0x6f; 0x6e; 0x5f;
   0x6d; 0x61; 0x70].
(** volume_system.rs 120-157; the fuel is the number of sectors of the stream *)
Fixpoint apm_entries (fuel : nat) (volume : list N) (number entry_index entry_offset : N)
  : res (list apm_entry) :=
  match fuel with
  | O => Panic
  | S fuel =>
      data <- read_exact_at volume entry_offset 512 ;;
      entry <- apm_entry_read data ;;
      number <-
        (if entry_index =? 0 then check (same (ae_type entry) apm_map_type) ;;; Ok (ae_number entry)
         else check (ae_number entry =? number) ;;; Ok number) ;;
      let kept := if entry_index =? 0 then [] else [entry] in
      entry_index' <- add_chk two32 entry_index 1 ;;
      entry_offset <- add_chk two64 entry_offset 512 ;;
      if number <=? entry_index' then Ok kept
      else
        rest <- apm_entries fuel volume number entry_index' entry_offset ;;
        Ok (kept ++ rest)
  end.
(** volume_system.rs 96-159 [read_data_stream] of a new volume system *)
Definition apm_read (volume : list N) : res (list apm_entry) :=
  apm_entries (S (N.to_nat (len volume / 512))) volume 0 0 512.
(** volume_system.rs 50-93 [get_partition_by_index]: offset and size *)
Definition apm_partition_at (entries : list apm_entry) (partition_index : N) : res (N * N) :=
  e <- of_option (nth_error entries (N.to_nat partition_index)) ;;
  partition_offset <- mul_chk two64 (ae_start e) 512 ;;
  partition_size <- mul_chk two64 (ae_sectors e) 512 ;;
  Ok (partition_offset, partition_size).
