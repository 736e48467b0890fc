(** * Model of keramics-formats/src/qcow *)
From Verif Require Import Base Bytes_model Strings_model Streams_model Streams_spec BlockTree_model Blocks_model Lazy_model Vhd_model.

(** qcow/constants.rs 14-15 *)
Definition qcow_signature : list N := [0x51; 0x46; 0x49; 0xfb].

(** file_header.rs 26-68. Left out: compression method, which is never used, and snapshots. *)
Record qcow_header := {
  qh_version : N;
  qh_size : N;
  qh_l1_entries : N;
  qh_l1_offset : N;
  qh_l2_bits : N;
  qh_cluster_bits : N;
  qh_media_size : N;
  qh_encryption : N;
  qh_backing_offset : N;
  qh_backing_size : N
}.
(** file_header_v1.rs 44-81 [read_data] and file_header.rs 136 *)
Definition qcow_header_v1 (data : list N) : res qcow_header :=
  backing_file_name_offset <- u64_be data 8 ;;
  backing_file_name_size <- u32_be data 16 ;;
  media_size <- u64_be data 24 ;;
  number_of_cluster_block_bits <- idx data 32 ;;
  number_of_level2_table_bits <- idx data 33 ;;
  encryption_method <- u32_be data 36 ;;
  level1_table_offset <- u64_be data 40 ;;
  check (negb (63 <? number_of_cluster_block_bits)) ;;;
  check (negb (63 <? number_of_level2_table_bits)) ;;;
  Ok {| qh_version := 1; qh_size := 48; qh_l1_entries := 0; qh_l1_offset := level1_table_offset;
        qh_l2_bits := number_of_level2_table_bits; qh_cluster_bits := number_of_cluster_block_bits;
        qh_media_size := media_size; qh_encryption := encryption_method;
        qh_backing_offset := backing_file_name_offset; qh_backing_size := backing_file_name_size |}.
(** The fields that versions 2 and 3 have in common: file_header_v2.rs 62-79 and
    file_header_v3.rs 87-106. *)
Definition qcow_header_v23 (version size : N) (data : list N) : res qcow_header :=
  backing_file_name_offset <- u64_be data 8 ;;
  backing_file_name_size <- u32_be data 16 ;;
  number_of_cluster_block_bits <- u32_be data 20 ;;
  media_size <- u64_be data 24 ;;
  encryption_method <- u32_be data 32 ;;
  level1_table_number_of_references <- u32_be data 36 ;;
  level1_table_offset <- u64_be data 40 ;;
  check (negb ((number_of_cluster_block_bits <=? 8) || (63 <? number_of_cluster_block_bits))) ;;;
  Ok {| qh_version := version; qh_size := size; qh_l1_entries := level1_table_number_of_references;
        qh_l1_offset := level1_table_offset; qh_l2_bits := number_of_cluster_block_bits - 3;
        qh_cluster_bits := number_of_cluster_block_bits;
        qh_media_size := media_size; qh_encryption := encryption_method;
        qh_backing_offset := backing_file_name_offset; qh_backing_size := backing_file_name_size |}.
(** file_header.rs 92-181 [read_at_position] with file_header_v2.rs 46-81 and
    file_header_v3.rs 53-114; the signature and version that these check again are left out *)
Definition qcow_header_read (file : list N) : res qcow_header :=
  data <- read_exact_at file 0 112 ;;
  signature <- slice data 0 4 ;;
  check (same_bytes signature qcow_signature) ;;;
  format_version <- u32_be data 4 ;;
  match format_version with
  | 1 => qcow_header_v1 data
  | 2 => qcow_header_v23 2 72 data
  | 3 =>
      incompatible_feature_flags <- u64_be data 72 ;;
      check (N.ldiff incompatible_feature_flags 1 =? 0) ;;;
      compatible_feature_flags <- u64_be data 80 ;;
      check (N.ldiff compatible_feature_flags 1 =? 0) ;;;
      header_size <- u32_be data 100 ;;
      header <- qcow_header_v23 3 header_size data ;;
      check ((header_size =? 104) || (header_size =? 112)) ;;;
      Ok header
  | _ => Err
  end.

(** file.rs 29-98. The masks are functions of the bits. *)
Record qcow_file := {
  qf_version : N;
  qf_l1_shift : N;
  qf_l1_offset : N;
  qf_l1_entries : N;
  qf_l2_bits : N;
  qf_cluster_bits : N;
  qf_backing : option (list N);
  qf_media_size : N;
  qf_tree : tree
}.
(** file.rs 282-319 [read_backing_file_name] *)
Definition qcow_backing_name (file : list N) (header_size offset size : N) : res (list N) :=
  check (negb (offset <? header_size)) ;;;
  check (negb (65536 <? size)) ;;;
  data <- read_exact_at file offset size ;;
  Ok (string_from_slice data).
(** file.rs 153-279 [read_file_header]. The shifts by at most 63 of lines 198-205 are powers
    of two. *)
Definition qcow_open (file : list N) : res qcow_file :=
  h <- qcow_header_read file ;;
  let bits := qh_cluster_bits h in
  sub_chk (if qh_version h =? 1 then 63 else 62) bits ;;;
  let level1_index_bit_shift := bits + qh_l2_bits h in
  check (negb (63 <? level1_index_bit_shift)) ;;;
  let cluster_block_size := 2 ^ bits in
  let level2_table_number_of_references := 2 ^ qh_l2_bits h in
  level1_table_number_of_references <-
    (if qh_version h =? 1 then
       check (negb (0xffffffffffffffff / level2_table_number_of_references <? cluster_block_size)) ;;;
       product <- mul_chk two64 cluster_block_size level2_table_number_of_references ;;
       n <- div_ceil (qh_media_size h) product ;;
       check (negb (0xffffffff <? n)) ;;;
       Ok n
     else Ok (qh_l1_entries h)) ;;
  clusters <- div_ceil (qh_media_size h) cluster_block_size ;;
  block_tree_data_size <- mul_chk two64 clusters cluster_block_size ;;
  backing <-
    (if (0 <? qh_backing_offset h) && (0 <? qh_backing_size h) then
       name <- qcow_backing_name file (qh_size h) (qh_backing_offset h) (qh_backing_size h) ;;
       Ok (Some name)
     else Ok None) ;;
  check (qh_encryption h =? 0) ;;;
  Ok {| qf_version := qh_version h; qf_l1_shift := level1_index_bit_shift; qf_l1_offset := qh_l1_offset h;
        qf_l1_entries := level1_table_number_of_references; qf_l2_bits := qh_l2_bits h; qf_cluster_bits := bits;
        qf_backing := backing; qf_media_size := qh_media_size h;
        qf_tree := bt_new block_tree_data_size level2_table_number_of_references cluster_block_size |}.

(** cluster_table.rs 75-116 [read_entry] *)
Definition qcow_entry_read (file : list N) (offset number_of_entries entry_index : N) : res N :=
  check (entry_index <? number_of_entries) ;;;
  entry_offset <- add_chk two64 offset (entry_index * 8) ;;
  data <- read_exact_at file entry_offset 8 ;;
  u64_be data 0.
(** file.rs 180-188 *)
Definition qcow_offset_mask (v : qcow_file) : N := if qf_version v =? 1 then 0x7fffffffffffffff else 0x3fffffffffffffff.
Definition qcow_compression_flag (v : qcow_file) : N := if qf_version v =? 1 then 2 ^ 63 else 2 ^ 62.
(** file.rs 322-431 [read_cluster_block_entry] *)
Definition qcow_load (file : list N) (v : qcow_file) (t : tree) (media_offset block_number : N) : tree * res unit :=
  let level1_table_index := N.shiftr media_offset (qf_l1_shift v) in
  match (level1_entry <- qcow_entry_read file (qf_l1_offset v) (qf_l1_entries v mod two32) (level1_table_index mod two32) ;;
         let level1_media_offset := N.shiftl level1_table_index (qf_l1_shift v) in
         let level2_table_offset := N.land level1_entry (qcow_offset_mask v) in
         if level2_table_offset =? 0 then
           let range_media_size := 2 ^ qf_l1_shift v in
           Ok {| br_media_offset := level1_media_offset; br_data_offset := 0; br_size := range_media_size; br_type := Sparse |}
         else
           let level2_table_index := N.land (N.shiftr media_offset (qf_cluster_bits v)) (N.ones (qf_l2_bits v)) in
           level2_entry <- qcow_entry_read file level2_table_offset (2 ^ qf_l2_bits v mod two32) (level2_table_index mod two32) ;;
           level2_media_offset <- add_chk two64 level1_media_offset (level2_table_index * 2 ^ qf_cluster_bits v) ;;
           let block_data_offset := N.land level2_entry (qcow_offset_mask v) in
           let range_type :=
             if block_data_offset =? 0 then match qf_backing v with Some _ => InParent | None => Sparse end
             else if N.land level2_entry (qcow_compression_flag v) =? 0 then InFile else Compressed in
           Ok {| br_media_offset := level2_media_offset; br_data_offset := block_data_offset;
                 br_size := 2 ^ qf_cluster_bits v; br_type := range_type |}) with
  | Ok r => bt_insert t (br_media_offset r) (br_size r) r
  | Err => (t, Err)
  | Panic => (t, Panic)
  end.
Definition qcow_layer (file : list N) (v : qcow_file) : layer :=
  {| ly_file := file; ly_media_size := qf_media_size v; ly_block_size := 2 ^ qf_cluster_bits v;
     ly_fixed := false; ly_load := qcow_load file v |}.

(** image.rs 54-143 [open]: the files, that of the image first. [resolver] finds a file by
    its name, here the bytes of the byte string: its conversion to a path component is left
    out. The loop has no bound: running out of fuel is a panic here. *)
Fixpoint qcow_image_open (fuel : nat) (resolver : list N -> option (list N)) (name : list N)
  : res (list (list N * qcow_file)) :=
  match fuel with
  | O => Panic
  | S fuel =>
      file <- of_option (resolver name) ;;
      v <- qcow_open file ;;
      match qf_backing v with
      | None => Ok [(file, v)]
      | Some name =>
          files <- qcow_image_open fuel resolver name ;;
          Ok ((file, v) :: files)
      end
  end.
Definition qcow_layers (files : list (list N * qcow_file)) : list layer := map (fun f => qcow_layer (fst f) (snd f)) files.
Definition qcow_start (files : list (list N * qcow_file)) : parents := map (fun f => (qf_tree (snd f), 0)) files.
Definition qcow_step (files : list (list N * qcow_file)) := chain_step (qcow_layers files).
