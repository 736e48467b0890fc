(** * What a UDIF image shows *)
From Verif Require Import Base Streams_spec Part_spec Udif_model.

(** ** The footer: the last 512 bytes *)
Definition udif_footer (file : list N) : list N := bytes_at file (len file - 512) 512.
Definition udif_fork_offset (file : list N) : N := field_be (udif_footer file) 24 8.
Definition udif_fork_size (file : list N) : N := field_be (udif_footer file) 32 8.
Definition udif_fork_end (file : list N) : N := udif_fork_offset file + udif_fork_size file.
Definition udif_plist_offset (file : list N) : N := field_be (udif_footer file) 216 8.
Definition udif_plist_size (file : list N) : N := field_be (udif_footer file) 224 8.
Definition udif_footer_ok (file : list N) : Prop :=
  512 <= len file /\ bytes_at (udif_footer file) 0 4 = [0x6b; 0x6f; 0x6c; 0x79] /\ field_be (udif_footer file) 4 4 = 4 /\
  udif_fork_end file < two64.

(** A property list that ends after the end of the file is filled up with zeros. *)
Definition udif_plist_data (file : list N) : list N :=
  let data := bytes_at file (udif_plist_offset file) (udif_plist_size file) in
  data ++ repeat 0 (N.to_nat (udif_plist_size file - len data)).

(** ** A block table: entries of 40 bytes after a header of 204 bytes *)
Definition udif_table_start (t : list N) : N := field_be t 8 8.
Definition udif_table_number (t : list N) : N := field_be t 200 4.
Definition udif_table_entry (t : list N) (i : N) : udif_entry :=
  let o := 204 + 40 * i in
  {| ue_type := field_be t o 4; ue_start := field_be t (o + 8) 8; ue_sectors := field_be t (o + 16) 8;
     ue_offset := field_be t (o + 24) 8; ue_size := field_be t (o + 32) 8 |}.
Definition udif_table_ok (t : list N) : Prop :=
  204 + 40 * udif_table_number t <= len t /\ bytes_at t 0 4 = [0x6d; 0x69; 0x73; 0x68] /\ field_be t 4 4 = 1.
(** Up to the terminator, without comments. *)
Fixpoint udif_before_end (l : list udif_entry) : list udif_entry :=
  match l with
  | [] => []
  | e :: l => if ue_type e =? 0xffffffff then [] else if ue_type e =? 0x7ffffffe then udif_before_end l else e :: udif_before_end l
  end.
Definition udif_table_ranges (t : list N) : list udif_entry :=
  udif_before_end (map (udif_table_entry t) (seqN 0 (N.to_nat (udif_table_number t)))).

(** ** The image: the tables follow each other, and so do the ranges of each *)
Definition udif_sectors (l : list udif_entry) : N := fold_right (fun e n => ue_sectors e + n) 0 l.
Definition udif_ranges (tables : list (list N)) : list udif_entry := flat_map udif_table_ranges tables.
Fixpoint udif_consecutive (start : N) (l : list udif_entry) : Prop :=
  match l with
  | [] => True
  | e :: l => ue_start e = start /\ udif_consecutive (start + ue_sectors e) l
  end.
Fixpoint udif_tables_follow (sector : N) (tables : list (list N)) : Prop :=
  match tables with
  | [] => True
  | t :: tables =>
      udif_table_ok t /\ udif_table_start t = sector /\ udif_consecutive 0 (udif_table_ranges t) /\
      udif_tables_follow (sector + udif_sectors (udif_table_ranges t)) tables
  end.
Definition udif_is_zero (e : udif_entry) : bool := (ue_type e =? 0) || (ue_type e =? 2).
Definition udif_is_raw (e : udif_entry) : bool := ue_type e =? 1.
Definition udif_is_compressed (e : udif_entry) : bool := (0x80000004 <=? ue_type e) && (ue_type e <=? 0x80000007).
(** Types and sizes of the ranges, and where their data is. *)
Definition udif_range_ok (fork_offset fork_end : N) (e : udif_entry) : Prop :=
  (udif_is_zero e = true \/ udif_is_raw e = true \/ udif_is_compressed e = true /\ ue_sectors e <= 2048) /\
  0 < ue_sectors e /\ fork_offset <= ue_offset e < fork_end /\ ue_offset e + ue_size e <= fork_end.
(** There is one type of compression in an image. *)
Definition udif_one_method (l : list udif_entry) : Prop :=
  exists m, Forall (fun e => udif_is_compressed e = true -> ue_type e = m) l.
Definition udif_tables_ok (fork_offset fork_end : N) (tables : list (list N)) : Prop :=
  udif_tables_follow 0 tables /\ Forall (udif_range_ok fork_offset fork_end) (udif_ranges tables) /\
  udif_one_method (udif_ranges tables).

(** ** Its content *)
Section Content.
  Context (decompress : N -> list N -> N -> res (list N)).
  Definition udif_piece (file : list N) (e : udif_entry) : list N :=
    let size := 512 * ue_sectors e in
    if udif_is_zero e then repeat 0 (N.to_nat size)
    else if udif_is_raw e then bytes_at file (ue_offset e) size
    else match decompress (ue_type e) (bytes_at file (ue_offset e) (ue_size e)) size with Ok data => data | _ => [] end.
  Definition udif_content (file : list N) (tables : list (list N)) : list N := flat_map (udif_piece file) (udif_ranges tables).

  (** The data of the ranges is in the file, and the compressed data can be decompressed. *)
  Definition udif_complete (file : list N) (e : udif_entry) : Prop :=
    (udif_is_raw e = true -> ue_offset e + 512 * ue_sectors e <= len file) /\
    (udif_is_compressed e = true -> ue_size e < two32 /\ ue_offset e + ue_size e <= len file /\
       exists data, decompress (ue_type e) (bytes_at file (ue_offset e) (ue_size e)) (512 * ue_sectors e) = Ok data /\
         len data = 512 * ue_sectors e).
End Content.
(** Compressed ranges at the same offset of the file are the same. *)
Definition udif_offsets_differ (l : list udif_entry) : Prop :=
  forall e e', In e l -> In e' l -> udif_is_compressed e = true -> udif_is_compressed e' = true -> ue_offset e = ue_offset e' ->
    ue_size e = ue_size e' /\ ue_sectors e = ue_sectors e'.
(** No range crosses a multiple of 16384 sectors, or is that long, unless the image is not
    longer than that. *)
Fixpoint udif_in_groups (sector : N) (l : list udif_entry) : Prop :=
  match l with
  | [] => True
  | e :: l =>
      ue_sectors e < 16384 /\ sector / 16384 = (sector + ue_sectors e - 1) / 16384 /\ udif_in_groups (sector + ue_sectors e) l
  end.
Definition udif_geometry (l : list udif_entry) : Prop := udif_sectors l <= 16384 \/ udif_in_groups 0 l.
(** The size rounded up to 16384 sectors fits 64 bits. *)
Definition udif_fits (l : list udif_entry) : Prop := 512 * (16384 * ((udif_sectors l + 16383) / 16384)) < two64.
