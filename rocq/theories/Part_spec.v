(** * Partition tables as the formats define them *)
From Verif Require Import Base Streams_spec Checksums_spec.

(** The unsigned number in [n] bytes at offset [o]. *)
Definition field (data : list N) (o n : N) : N := le_value (bytes_at data o n).
Definition field_be (data : list N) (o n : N) : N := be_value (bytes_at data o n).

(** [get] gives out the elements of [l], by their index, and no others. *)
Definition gives {A} (get : N -> res A) (l : list A) : Prop := forall i, get i = of_option (nth_error l (N.to_nat i)).

(** ** Master Boot Record *)
(** A boot record of 512 bytes ends with 55 aa. *)
Definition boot_record (volume : list N) (o : N) : Prop :=
  o + 512 <= len volume /\ bytes_at volume (o + 510) 2 = [0x55; 0xaa].
(** Its four partition table entries of 16 bytes: flags, three bytes, type, three bytes,
    start sector, number of sectors. *)
Record table_entry := { te_flags : N; te_type : N; te_start : N; te_sectors : N }.
Definition entry_at (volume : list N) (o : N) : table_entry :=
  {| te_flags := field volume o 1; te_type := field volume (o + 4) 1;
     te_start := field volume (o + 8) 4; te_sectors := field volume (o + 12) 4 |}.
Definition table_entries (volume : list N) (o : N) : list table_entry :=
  map (fun i => entry_at volume (o + 446 + 16 * i)) [0; 1; 2; 3].
(** The entry of an extended partition, in the first boot record and in the others. *)
Definition extended (e : table_entry) : bool := (te_type e =? 5) || (te_type e =? 15).
Definition link (e : table_entry) : bool := te_type e =? 5.
Definition used (e : table_entry) : bool := negb (te_type e =? 0).

(** A partition: offset and size in bytes, type, flags. [base] is what the start sector is
    relative to: the disk, or the boot record with the entry. *)
Record partition := { p_offset : N; p_size : N; p_type : N; p_flags : N }.
Definition partition_of (sector_size base : N) (e : table_entry) : partition :=
  {| p_offset := base + te_start e * sector_size; p_size := te_sectors e * sector_size;
     p_type := te_type e; p_flags := te_flags e |}.
Definition primary_entries (volume : list N) : list table_entry :=
  filter (fun e => used e && negb (extended e)) (table_entries volume 0).
Definition logical_entries (volume : list N) (o : N) : list table_entry :=
  filter (fun e => used e && negb (link e)) (table_entries volume o).

(** The chain of extended boot records from [o] on. The start sector of a link is relative
    to the first of them. *)
Definition links (volume : list N) (o : N) : list table_entry := filter link (table_entries volume o).
Inductive ebr_chain (volume : list N) (sector_size first : N) : N -> list N -> Prop :=
| chain_last o : boot_record volume o -> links volume o = [] -> ebr_chain volume sector_size first o [o]
| chain_link o e rest : boot_record volume o -> links volume o = [e] ->
    ebr_chain volume sector_size first (first + te_start e * sector_size) rest ->
    ebr_chain volume sector_size first o (o :: rest).
(** [n] records following each other, which need not end there. *)
Inductive ebr_path (volume : list N) (sector_size first : N) : N -> nat -> Prop :=
| path_nil o : ebr_path volume sector_size first o 0
| path_link o e n : boot_record volume o -> links volume o = [e] ->
    ebr_path volume sector_size first (first + te_start e * sector_size) n ->
    ebr_path volume sector_size first o (S n).

(** [ebrs] are the offsets of the extended boot records of the disk and [first] that of the
    first: there are none, or there is one extended partition. *)
Definition extended_at (volume : list N) (sector_size first : N) (ebrs : list N) : Prop :=
  match filter extended (table_entries volume 0) with
  | [] => ebrs = [] /\ first = 0
  | [e] => te_start e <> 0 /\ first = te_start e * sector_size /\ ebr_chain volume sector_size first first ebrs
  | _ => False
  end.

(** The partitions as the format defines them: those of the boot record, relative to the
    disk; those of each extended boot record, relative to that record. *)
Definition mbr_partitions (volume : list N) (sector_size : N) (ebrs : list N) : list partition :=
  map (partition_of sector_size 0) (primary_entries volume) ++
  flat_map (fun o => map (partition_of sector_size o) (logical_entries volume o)) ebrs.

(** ** GUID Partition Table *)
Definition crc32 (data : list N) : N := crc32_reflected 0xedb88320 0 data.
(** The header of 92 bytes: its checksum is computed with the checksum field zero. *)
Definition gpt_header_checksum (h : list N) : N := crc32 (bytes_at h 0 16 ++ [0; 0; 0; 0] ++ bytes_at h 20 72).
(** What a header states apart from its checksum. *)
Definition gpt_header_form (h : list N) : Prop :=
  bytes_at h 0 8 = [0x45; 0x46; 0x49; 0x20; 0x50; 0x41; 0x52; 0x54] /\ field h 8 4 = 0x00010000 /\ field h 12 4 = 92.
(** The bytes of a header at offset [o]. *)
Definition gpt_header_bytes (volume : list N) (o : N) : list N := bytes_at volume o 92.
Definition gpt_header_in (volume : list N) (o : N) : Prop :=
  o + 92 <= len volume /\ gpt_header_form (gpt_header_bytes volume o) /\
  (field (gpt_header_bytes volume o) 16 4 = 0 \/
   field (gpt_header_bytes volume o) 16 4 = gpt_header_checksum (gpt_header_bytes volume o)).
(** The entries of 128 bytes of a table; an entry whose type is zero is not used. *)
Definition gpt_used (t : list N) (i : N) : bool := negb (forallb (N.eqb 0) (bytes_at t (128 * i) 16)).
Definition gpt_start (t : list N) (i : N) : N := field t (128 * i + 32) 8.
Definition gpt_end (t : list N) (i : N) : N := field t (128 * i + 40) 8.
(** The parts of a GUID. *)
Definition guid (data : list N) (o : N) : N * N * N * N * N :=
  (field data o 4, field data (o + 4) 2, field data (o + 6) 2, field_be data (o + 8) 2, field_be data (o + 10) 6).
(** Index, type, identifier, first and last sector and flags of an entry. *)
Definition gpt_partition_entry (t : list N) (i : N) : N * (N * N * N * N * N) * (N * N * N * N * N) * N * N * N :=
  (i, guid t (128 * i), guid t (128 * i + 16), gpt_start t i, gpt_end t i, field t (128 * i + 48) 8).
Definition gpt_used_entries (t : list N) (number : N) :=
  map (gpt_partition_entry t) (filter (gpt_used t) (seqN 0 (N.to_nat number))).
(** The table of the header [h]. *)
Definition gpt_table (volume : list N) (sector_size : N) (h : list N) : list N :=
  bytes_at volume (field h 72 8 * sector_size) (128 * field h 80 4).
(** Each used entry of the table starts in the area and does not end before its start. *)
Definition gpt_entries_in (h t : list N) (number : N) : Prop :=
  forall i, i < number -> gpt_used t i = true -> field h 40 8 <= gpt_start t i <= gpt_end t i.

(** What is accepted, with the sector size: a header in the second sector, whose backup, if
    it gives one, is there or in the last sector, and a table of at most 32 sectors. *)
Definition gpt_accepts (volume : list N) (sector_size : N) : Prop :=
  let h := gpt_header_bytes volume sector_size in
  let t := gpt_table volume sector_size h in
  gpt_header_in volume sector_size /\
  field h 32 8 * sector_size < two64 /\
  (field h 32 8 = 0 \/ gpt_header_in volume (field h 32 8 * sector_size) \/
   gpt_header_in volume (len volume - sector_size)) /\
  field h 84 4 = 128 /\ 128 * field h 80 4 <= 32 * sector_size /\
  field h 72 8 * sector_size < two64 /\ len t = 128 * field h 80 4 /\
  gpt_entries_in h t (field h 80 4) /\
  (field h 88 4 = 0 \/ field h 88 4 = crc32 t).

(** ** Apple Partition Map *)
(** Entry [i], counted from 0, is in sector [i + 1] of 512 bytes. *)
Definition apm_sector (volume : list N) (i : N) : list N := bytes_at volume ((i + 1) * 512) 512.
(** A map of [n] entries: each has the signature PM and the number of entries. *)
Definition apm_entry_ok (volume : list N) (n i : N) : Prop :=
  (i + 2) * 512 <= len volume /\ bytes_at (apm_sector volume i) 0 2 = [0x50; 0x4d] /\
  field_be (apm_sector volume i) 4 4 = n.
(** The text before the first zero byte. *)
Fixpoint text (l : list N) : list N :=
  match l with [] => [] | b :: l => if b =? 0 then [] else b :: text l end.
(** "Apple_partition_map" *)
Definition apm_text : list N :=
  [65; 112; 112; 108; 101; 95; 112; 97; 114; 116; 105; 116; 105; 111; 110; 95; 109; 97; 112].
(** The first entry describes the map itself. *)
Definition apm_map (volume : list N) (n : N) : Prop :=
  apm_entry_ok volume n 0 /\ text (bytes_at (apm_sector volume 0) 48 32) = apm_text /\
  forall i, i < n -> apm_entry_ok volume n i.
(** Offset and size in bytes, name, type and flags of entry [i]. *)
Definition apm_described (volume : list N) (i : N) : N * N * list N * list N * N :=
  let s := apm_sector volume i in
  (field_be s 8 4 * 512, field_be s 12 4 * 512, text (bytes_at s 16 32), text (bytes_at s 48 32), field_be s 88 4).
