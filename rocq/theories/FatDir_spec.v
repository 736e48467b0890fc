(** * FAT directories: records, names and the files a directory lists *)
From Verif Require Import Base Streams_spec Part_spec Strings_model Fat_model Fat_spec Headers_model Headers_spec FatDir_model.

(** A record: where it is in the volume, and its 32 bytes. *)
Definition record := (N * list N)%type.
(** The records in [size] bytes of the volume from [offset] on, and in the clusters of a chain. *)
Definition records_at (volume : list N) (offset size : N) : list record :=
  map (fun i => (offset + 32 * i, bytes_at volume (offset + 32 * i) 32)) (seqN 0 (N.to_nat (size / 32))).
Definition records_in (volume : list N) (first_cluster_offset cluster_size : N) (clusters : list N) : list record :=
  flat_map (fun c => records_at volume (first_cluster_offset + (c - 2) * cluster_size) cluster_size) clusters.

(** ** What a record is *)
(** In use: the first byte is neither the mark of a deleted record nor the one after the last;
    0x05 stands for the character 0xe5. *)
Definition in_use (r : record) : Prop := byte (snd r) 0 <> 0xe5 /\ byte (snd r) 0 <> 0 /\ byte (snd r) 0 <> 0x05.
(** The attributes: six of them, number 3 is a volume label, 4 a directory; the first four
    together mark a part of a long name. *)
Definition attributes (r : record) : N := byte (snd r) 11.
Definition short_record (r : record) : Prop := in_use r /\ attributes r < 64 /\ attributes r <> 15.
Definition is_label (r : record) : Prop := flag (attributes r) 3 = true /\ flag (attributes r) 4 = false.
Definition is_directory (r : record) : bool := flag (attributes r) 4.
Definition is_dot (r : record) : Prop := fat_name (snd r) = [0x2e] \/ fat_name (snd r) = [0x2e; 0x2e].
(** The first cluster; its upper half has a meaning in FAT32 only. *)
Definition start_cluster (f : fat_format) (r : record) : N :=
  field (snd r) 26 2 + (match f with Fat32 => 65536 * field (snd r) 20 2 | _ => 0 end).

(** ** Long names *)
(** The checksum of the eleven characters of a short name: rotate right, add. *)
Definition name_checksum (short_name : list N) : N :=
  fold_left (fun sum b => (sum mod 2 * 128 + sum / 2 + b) mod 256) short_name 0.
(** Part [k] of [n] of the long name of a short record. *)
Definition long_part (n k : N) (short r : record) : Prop :=
  byte (snd r) 0 = k + (if k =? n then 64 else 0) /\ attributes r = 15 /\ byte (snd r) 12 = 0 /\
  field (snd r) 26 2 = 0 /\ byte (snd r) 13 = name_checksum (bytes_at (snd short) 0 11).
(** The parts [k], [k] - 1, ..., 1. *)
Fixpoint long_parts (n : N) (k : nat) (short : record) (parts : list record) : Prop :=
  match k, parts with
  | O, [] => True
  | S k', r :: parts => long_part n (N.of_nat k) short r /\ long_parts n k' short parts
  | _, _ => False
  end.
(** [n] parts, at most 20, whose characters from the first part on are those of the name and,
    if there is room, a zero and a filling of 0xffff. *)
Definition long_name (parts : list record) (short : record) (name : list N) : Prop :=
  (1 <= length parts <= 20)%nat /\ long_parts (len parts) (length parts) short parts /\
  ~ In 0 name /\ 13 * (len parts - 1) < len name <= 13 * len parts /\
  flat_map (fun r => fat_units (snd r)) (rev parts) =
    name ++ firstn (length parts * 13 - length name) (0 :: repeat 0xffff 13).

(** ** What a directory lists *)
Record file := { fl_parts : list record; fl_short : record; fl_name : list N }.
Definition file_ok (f : file) : Prop :=
  short_record (fl_short f) /\ flag (attributes (fl_short f)) 3 = false /\ ~ is_dot (fl_short f) /\
  match fl_parts f with
  | [] => fl_name f = fat_name (snd (fl_short f)) /\ Forall (fun b => b < 128) (fl_name f)
  | _ => long_name (fl_parts f) (fl_short f) (fl_name f)
  end.
Inductive item := Deleted (r : record) | Label (r : record) | Dot (r : record) | File (f : file).
Definition item_ok (i : item) : Prop :=
  match i with
  | Deleted r => byte (snd r) 0 = 0xe5
  | Label r => short_record r /\ is_label r
  | Dot r => short_record r /\ flag (attributes r) 3 = false /\ is_dot r
  | File f => file_ok f
  end.
Definition item_records (i : item) : list record :=
  match i with Deleted r | Label r | Dot r => [r] | File f => fl_parts f ++ [fl_short f] end.
(** The records are those of the items, and then zeros. *)
Definition holds (records : list record) (items : list item) : Prop :=
  Forall item_ok items /\
  exists free, records = flat_map item_records items ++ free /\ Forall (fun r => snd r = repeat 0 32) free.

Definition files (items : list item) : list file :=
  flat_map (fun i => match i with File f => [f] | _ => [] end) items.
(** The last volume label. *)
Definition label (items : list item) : option (list N) :=
  fold_left (fun l i => match i with Label r => Some (fat_name (snd r)) | _ => l end) items None.
(** Names in upper case; two names are the same if they are in upper case. *)
Definition upper (mapping : N -> option N) (name : list N) : list N :=
  map (fun c => match mapping c with Some u => u | None => c end) name.
Definition same_name (mapping : N -> option N) (a b : list N) : bool :=
  if list_eq_dec N.eq_dec (upper mapping a) (upper mapping b) then true else false.
Definition distinct_names (mapping : N -> option N) (items : list item) : Prop :=
  NoDup (map (fun f => upper mapping (fl_name f)) (files items)).
Definition named (mapping : N -> option N) (items : list item) (name : list N) : option file :=
  find (fun f => same_name mapping (fl_name f) name) (files items).

(** What is shown of a file. *)
Definition entry_of (f : file) : dir_entry :=
  {| de_identifier := fst (fl_short f) mod 2 ^ 32; de_short := fat_short_entry_of (snd (fl_short f));
     de_long := match fl_parts f with [] => None | _ => Some (fl_name f) end |}.
(** Names in the order of their characters in upper case. *)
Definition before (mapping : N -> option N) (a b : file) : Prop :=
  ucs2_compare (upper mapping (fl_name a)) (upper mapping (fl_name b)) = Lt.

(** ** Directories in a volume *)
(** The table [t] of a volume and a chain of clusters inside of the volume. *)
Definition chain_ok (volume : list N) (table : fat_table) (t : list N) (start : N) (clusters : list N) : Prop :=
  let f := table_format table in
  chain f (fat_entry f t) start clusters /\ NoDup clusters /\
  Forall (fun c => c < number_of_entries table /\ reserved_clear f t c /\
    match f with Fat12 => c / 2 * 3 + 3 | Fat16 => c * 2 + 2 | Fat32 => c * 4 + 4 end <= len t /\
    first_cluster_offset table + (c - 2) * cluster_block_size table + cluster_block_size table <= len volume) clusters.
Definition volume_ok (volume : list N) (table : fat_table) (t : list N) : Prop :=
  wf_bytes volume /\ len volume < two63 /\
  t = bytes_at volume (table_offset table) (len t) /\ table_offset table + len t < two63 /\
  0 < cluster_block_size table < two32 /\ cluster_block_size table mod 32 = 0.
(** The directory that starts at a cluster has the items. *)
Definition directory (mapping : N -> option N) (volume : list N) (table : fat_table) (t : list N) (start : N)
    (items : list item) : Prop :=
  distinct_names mapping items /\
  exists clusters, chain_ok volume table t start clusters /\
    holds (records_in volume (first_cluster_offset table) (cluster_block_size table) clusters) items.
(** A directory that is a part of the volume outside of the clusters. *)
Definition fixed_directory (mapping : N -> option N) (volume : list N) (offset size : N) (items : list item) : Prop :=
  distinct_names mapping items /\ offset + size <= len volume /\ size mod 32 = 0 /\ 32 <= size <= 2097152 /\
  holds (records_at volume offset size) items.

(** ** Paths *)
(** [leads items path through r]: from a directory with the items, the names of the path lead
    to [r], through the directories [through]; [None] if there is nothing of one of the names. *)
Inductive leads (mapping : N -> option N) (volume : list N) (table : fat_table) (t : list N)
  : list item -> list (list N) -> list file -> option file -> Prop :=
| leads_missing items name path : named mapping items name = None ->
    leads mapping volume table t items (name :: path) [] None
| leads_last items name f : named mapping items name = Some f ->
    leads mapping volume table t items [name] [] (Some f)
| leads_no_directory items name f next path : named mapping items name = Some f ->
    is_directory (fl_short f) = false -> leads mapping volume table t items (name :: next :: path) [] None
| leads_inside items name f sub next path through r : named mapping items name = Some f ->
    is_directory (fl_short f) = true ->
    directory mapping volume table t (start_cluster (table_format table) (fl_short f)) sub ->
    leads mapping volume table t sub (next :: path) through r ->
    leads mapping volume table t items (name :: next :: path) (f :: through) r.

(** ** The volume *)
(** Geometry, as the boot record gives it: the sectors of the root directory of FAT12 and FAT16,
    the first sector of the clusters, and the number of whole clusters. *)
Definition root_sectors (b : fat_boot) : N :=
  (fb_root_entries b * 32 + (fb_bytes_per_sector b - 1)) / fb_bytes_per_sector b.
Definition data_sector (b : fat_boot) : N := fb_reserved_sectors b + fb_tables b * fb_table_size b + root_sectors b.
Definition cluster_count (b : fat_boot) : N := (fb_sectors b - data_sector b) / fb_sectors_per_cluster b.
(** FAT32 has a boot record of its own, with a cluster for the root directory. For the others
    the number of clusters says which format it is. *)
Definition format_of (b : fat_boot) : fat_format :=
  if negb (fb_root_cluster b =? 0) then Fat32 else if cluster_count b <? 4085 then Fat12 else Fat16.
