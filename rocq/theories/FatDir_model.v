(** * Model of keramics-formats/src/fat: directories and the file system *)
From Verif Require Import Base Bytes_model Streams_model Blocks_model CodePages_model CodePages_tables Strings_model.
From Verif Require Import Part_model Fat_model Headers_model Case_model.

(** directory_entry.rs 24-33 *)
Record dir_entry := { de_identifier : N; de_short : fat_short_entry; de_long : option (list N) }.

(** directory_entry.rs 46-65 [get_lookup_name] *)
Definition entry_lookup_name (mappings : N -> option N) (e : dir_entry) : list N :=
  match de_long e with
  | Some name => ucs2_case_folding name mappings
  | None => map (fun b => if (0x61 <=? b) && (b <=? 0x7a) then b - 32 else b) (fs_name (de_short e))
  end.
(** directory_entry.rs 68-81 [set_long_name]: the entries last to first, their names one
    after the other; a list of them that is empty leaves the name unset *)
Definition set_long_name (pending : list (N * list N)) : option (list N) :=
  match pending with [] => None | _ => Some (concat (map snd (rev pending))) end.

(** string.rs 23-29; a byte string carries its encoding, here the one of the names read from
    a directory, which is ASCII *)
Inductive fat_string := ByteName (elements : list N) | Ucs2Name (elements : list N).
(** string.rs 38-74 [get_lookup_name] *)
Definition string_lookup_name (mappings : N -> option N) (s : fat_string) : res (list N) :=
  match s with
  | ByteName elements =>
      code_points <- cp_decode_string ascii elements ;;
      check (forallb (fun c => c <=? 0xffff) code_points) ;;;
      Ok code_points
  | Ucs2Name elements => Ok (ucs2_case_folding elements mappings)
  end.
(** string.rs 85-90 [len] *)
Definition string_len (s : fat_string) : N := match s with ByteName l => len l | Ucs2Name l => len l end.

(** directory_entry_type.rs 15-27 *)
Inductive entry_type := LongName | ShortName | Terminator | Unallocated.
(** directory_entry_type.rs 31-44 *)
Definition entry_type_read (data : list N) : res entry_type :=
  b <- idx data 0 ;;
  if b =? 0xe5 then Ok Unallocated else
  a <- slice data 11 13 ;;
  c <- (if same a [0x0f; 0] then c <- slice data 26 28 ;; Ok (same c [0; 0]) else Ok false) ;;
  if c && (((0x01 <=? b) && (b <=? 0x13)) || ((0x41 <=? b) && (b <=? 0x54))) then Ok LongName else
  z <- slice data 0 32 ;;
  if same z (repeat 0 32) then Ok Terminator else Ok ShortName.

(** directory_entries.rs 31-46 and the two variables that are carried from one block to the
    next, 225-226; the [BTreeMap] as the list of its pairs in the order of the keys *)
Record dir_state := {
  ds_entries : list (list N * dir_entry);
  ds_label : option (list N);
  ds_last : N;
  ds_pending : list (N * list N)
}.
(** directory_entries.rs 50-58 *)
Definition dir_new : dir_state := {| ds_entries := []; ds_label := None; ds_last := 0; ds_pending := [] |}.
(** [BTreeMap::insert], [BTreeMap::get_key_value] *)
Fixpoint map_insert (key : list N) (e : dir_entry) (l : list (list N * dir_entry)) : list (list N * dir_entry) :=
  match l with
  | [] => [(key, e)]
  | (k, v) :: rest =>
      match ucs2_compare key k with
      | Lt => (key, e) :: l
      | Eq => (k, e) :: rest
      | Gt => (k, v) :: map_insert key e rest
      end
  end.
Fixpoint map_find (key : list N) (l : list (list N * dir_entry)) : option dir_entry :=
  match l with
  | [] => None
  | (k, v) :: rest => match ucs2_compare key k with Eq => Some v | _ => map_find key rest end
  end.

(** directory_entries.rs 126-203: one record; [None]: the loop ends *)
Definition dir_record (mappings : N -> option N) (record : list N) (offset : N) (s : dir_state) : res (option dir_state) :=
  t <- entry_type_read record ;;
  match t with
  | LongName =>
      '(sequence, name) <- fat_long_entry_read record ;;
      let number := N.land sequence 0x1f in
      pending <- (if negb (N.land sequence 0x40 =? 0) then Ok []
                  else if negb (number + 1 =? ds_last s) then Err else Ok (ds_pending s)) ;;
      Ok (Some {| ds_entries := ds_entries s; ds_label := ds_label s; ds_last := number;
                  ds_pending := pending ++ [(sequence, name)] |})
  | ShortName =>
      entry <- fat_short_entry_read record ;;
      if N.land (fs_attributes entry) 0x58 =? 0x08 then
        Ok (Some {| ds_entries := ds_entries s; ds_label := Some (fs_name entry); ds_last := ds_last s;
                    ds_pending := ds_pending s |})
      else if same (fs_name entry) [0x2e] || same (fs_name entry) [0x2e; 0x2e] then Ok (Some s)
      else
        let e := {| de_identifier := offset mod two32; de_short := entry; de_long := set_long_name (ds_pending s) |} in
        Ok (Some {| ds_entries := map_insert (entry_lookup_name mappings e) e (ds_entries s); ds_label := ds_label s;
                    ds_last := ds_last s; ds_pending := [] |})
  | Terminator => Ok None
  | Unallocated => Ok (Some s)
  end.
(** directory_entries.rs 97-210 [read_data]; the rest of the data in place of an offset into
    it; a turn uses up 32 bytes. Simplification: the records are cut to their 32 bytes
    before the type is found, which looks at no more. *)
Fixpoint dir_read_data (fuel : nat) (mappings : N -> option N) (data : list N) (offset : N) (s : dir_state) : res dir_state :=
  match fuel with
  | O => Panic
  | S fuel =>
      if len data =? 0 then Ok s else
      check (32 <=? len data) ;;;
      r <- dir_record mappings (firstn 32 data) offset s ;;
      match r with
      | None => Ok s
      | Some s =>
          offset <- add_chk two64 offset 32 ;;
          dir_read_data fuel mappings (skipn 32 data) offset s
      end
  end.
Definition dir_read (mappings : N -> option N) (data : list N) (offset : N) (s : dir_state) : res dir_state :=
  dir_read_data (S (length data)) mappings data offset s.

(** directory_entries.rs 213-286 [read_at_cluster_block]; a turn adds a number below the
    number of entries of the table to [seen], so that the fuel is never used up *)
Fixpoint dir_walk (fuel : nat) (mappings : N -> option N) (volume : list N) (table : fat_table) (seen : list N)
    (cluster : N) (s : dir_state) : res dir_state :=
  match fuel with
  | O => Panic
  | S fuel =>
      if (2 <=? cluster) && (cluster <? largest_cluster_block_number (table_format table)) then
        if existsb (N.eqb cluster) seen then Err else
        relative <- mul_chk two64 (cluster - 2) (cluster_block_size table) ;;
        offset <- add_chk two64 (first_cluster_offset table) relative ;;
        data <- read_exact_at volume offset (cluster_block_size table) ;;
        s <- dir_read mappings data offset s ;;
        next <- read_entry volume table cluster ;;
        dir_walk fuel mappings volume table (cluster :: seen) next s
      else Ok s
  end.
Definition dir_read_clusters (mappings : N -> option N) (volume : list N) (table : fat_table) (cluster : N) : res dir_state :=
  dir_walk (N.to_nat (number_of_entries table) + 2) mappings volume table [] cluster dir_new.
(** directory_entries.rs 289-337 [read_at_position] *)
Definition dir_read_position (mappings : N -> option N) (volume : list N) (size offset : N) : res dir_state :=
  check ((32 <=? size) && (size <=? 2097152)) ;;;
  data <- read_exact_at volume offset size ;;
  dir_read mappings data offset dir_new.

(** directory_entries.rs 61-66, 69-84, 87-89 *)
Definition dir_by_index (s : dir_state) (i : N) : option dir_entry :=
  match nth_error (ds_entries s) (N.to_nat i) with Some (_, e) => Some e | None => None end.
Definition dir_by_name (mappings : N -> option N) (s : dir_state) (name : fat_string) : res (option dir_entry) :=
  key <- string_lookup_name mappings name ;; Ok (map_find key (ds_entries s)).
Definition dir_count (s : dir_state) : N := len (ds_entries s).

(** file_system.rs 35-77 *)
Record fat_system := {
  sy_bytes_per_sector : N; sy_cluster_size : N; sy_first_cluster : N; sy_root_offset : N; sy_root_size : N;
  sy_root_cluster : N; sy_format : fat_format; sy_table : fat_table; sy_serial : N; sy_label : option (list N);
  sy_root_label : option (list N)
}.
(** file_system.rs 422-476 [read_root_directory] *)
Definition read_root (mappings : N -> option N) (volume : list N) (root_size root_offset root_cluster : N)
    (table : fat_table) : res dir_state :=
  if 0 <? root_size then dir_read_position mappings volume root_size root_offset
  else dir_read_clusters mappings volume table root_cluster.
(** file_system.rs 354-419 [read_metadata]. The subtractions are of u64 and panic below zero;
    products of a u16 or u8 and a u32 fit in u64; the cluster size and root directory size
    are u32 products of smaller numbers that fit. *)
Definition fat_system_read (mappings : N -> option N) (volume : list N) : res fat_system :=
  data <- read_exact_at volume 0 512 ;;
  boot <- fat_boot_read data ;;
  n <- sub_chk (fb_sectors boot) (fb_reserved_sectors boot) ;;
  n <- sub_chk n (fb_tables boot * fb_table_size boot) ;;
  clusters <- div_chk n (fb_sectors_per_cluster boot) ;;
  let format := if negb (fb_root_cluster boot =? 0) || (65525 <=? clusters) then Fat32
                else if 4085 <=? clusters then Fat16 else Fat12 in
  let allocation_table_offset := fb_reserved_sectors boot * fb_bytes_per_sector boot in
  let allocation_table_size := fb_table_size boot * fb_bytes_per_sector boot in
  let first := allocation_table_offset + fb_tables boot * allocation_table_size in
  let cluster_size := fb_bytes_per_sector boot * fb_sectors_per_cluster boot in
  let '(root_offset, root_size, first) :=
    if fb_root_cluster boot =? 0 then (first, fb_root_entries boot * 32, first + fb_root_entries boot * 32)
    else (0, 0, first) in
  let table := {| table_format := format; table_offset := allocation_table_offset;
                  number_of_entries := clusters mod two32; first_cluster_offset := first;
                  cluster_block_size := cluster_size |} in
  root <- read_root mappings volume root_size root_offset (fb_root_cluster boot) table ;;
  Ok {| sy_bytes_per_sector := fb_bytes_per_sector boot; sy_cluster_size := cluster_size; sy_first_cluster := first;
        sy_root_offset := root_offset; sy_root_size := root_size; sy_root_cluster := fb_root_cluster boot;
        sy_format := format; sy_table := table; sy_serial := fb_serial boot;
        sy_label := match fb_label boot with [] => None | l => Some l end; sy_root_label := ds_label root |}.
(** file_system.rs 105-110 [get_volume_label] *)
Definition fat_volume_label (sy : fat_system) : option (list N) :=
  match sy_root_label sy with Some l => Some l | None => sy_label sy end.

(** file_entry.rs 27-42; [ff_sub] is the directory if it has been read already *)
Record fat_file := { ff_identifier : N; ff_entry : option dir_entry; ff_sub : option dir_state }.
(** file_entry.rs 238-246 *)
Definition ff_is_directory (f : fat_file) : bool :=
  match ff_entry f with Some e => N.land (fs_attributes (de_short e)) 0x58 =? 0x10 | None => true end.
(** file_entry.rs 95-105 *)
Definition ff_name (f : fat_file) : option fat_string :=
  match ff_entry f with
  | Some e => match de_long e with Some n => Some (Ucs2Name n) | None => Some (ByteName (fs_name (de_short e))) end
  | None => None
  end.
(** file_entry.rs 108-113 *)
Definition ff_size (f : fat_file) : N := match ff_entry f with Some e => Headers_model.fs_size (de_short e) | None => 0 end.
(** file_entry.rs 116-142 *)
Definition ff_data_stream (volume : list N) (table : fat_table) (f : fat_file) : res (option fat_stream) :=
  if ff_is_directory f then Ok None else
  let '(cluster, size) := match ff_entry f with
    | Some e => (fs_cluster (de_short e), Headers_model.fs_size (de_short e)) | None => (0, 0) end in
  s <- fat_stream_open volume table (cluster_block_size table) size cluster ;; Ok (Some s).
(** file_entry.rs 254-279 and the first lines of 145-159, 162-177, 199-214: the entries of the
    directory, read when first asked for. Simplification: they are read each time; the
    content of the volume does not change, so that the answer is the one of the first time. *)
Definition ff_entries (mappings : N -> option N) (volume : list N) (table : fat_table) (f : fat_file) : res dir_state :=
  match ff_sub f with
  | Some s => Ok s
  | None =>
      if ff_is_directory f then
        e <- of_option (ff_entry f) ;; dir_read_clusters mappings volume table (fs_cluster (de_short e))
      else Ok dir_new
  end.
Definition ff_of (e : dir_entry) : fat_file := {| ff_identifier := de_identifier e; ff_entry := Some e; ff_sub := None |}.
(** file_entry.rs 145-159 *)
Definition ff_count mappings volume table f : res N :=
  s <- ff_entries mappings volume table f ;; Ok (dir_count s).
(** file_entry.rs 162-194 *)
Definition ff_by_index mappings volume table f (i : N) : res fat_file :=
  s <- ff_entries mappings volume table f ;;
  e <- of_option (dir_by_index s i) ;; Ok (ff_of e).
(** file_entry.rs 199-235 *)
Definition ff_by_name mappings volume table f (name : fat_string) : res (option fat_file) :=
  s <- ff_entries mappings volume table f ;;
  o <- dir_by_name mappings s name ;;
  Ok (match o with Some e => Some (ff_of e) | None => None end).

(** file_system.rs 192-222 [get_root_directory] *)
Definition fat_root (mappings : N -> option N) (volume : list N) (sy : fat_system) : res fat_file :=
  s <- read_root mappings volume (sy_root_size sy) (sy_root_offset sy) (sy_root_cluster sy) (sy_table sy) ;;
  Ok {| ff_identifier := sy_root_offset sy mod two32; ff_entry := None; ff_sub := Some s |}.
(** file_system.rs 153-189 [get_file_entry_by_path] *)
Fixpoint fat_descend (mappings : N -> option N) (volume : list N) (table : fat_table) (f : fat_file)
    (path : list fat_string) : res (option fat_file) :=
  match path with
  | [] => Ok (Some f)
  | name :: path =>
      o <- ff_by_name mappings volume table f name ;;
      match o with Some f => fat_descend mappings volume table f path | None => Ok None end
  end.
Definition fat_by_path (mappings : N -> option N) (volume : list N) (sy : fat_system) (path : list fat_string)
  : res (option fat_file) :=
  match path with
  | [] => Ok None
  | first :: rest =>
      if negb (string_len first =? 0) then Ok None else
      f <- fat_root mappings volume sy ;; fat_descend mappings volume (sy_table sy) f rest
  end.

(** file_system.rs 285-338: the records before the one of the short name, from the last to
    the first; [pending] in the order they are met. A turn takes 32 from the offset. *)
Fixpoint long_scan (fuel : nat) (volume : list N) (first offset last : N) (pending : list (N * list N))
  : res (list (N * list N)) :=
  match fuel with
  | O => Panic
  | S fuel =>
      if first <=? offset then
        data <- read_exact_at volume offset 32 ;;
        t <- entry_type_read data ;;
        match t with
        | LongName =>
            '(sequence, name) <- fat_long_entry_read data ;;
            let number := N.land sequence 0x1f in
            if negb (N.land sequence 0x40 =? 0) then Ok (pending ++ [(sequence, name)])
            else if negb (last =? 0) && negb (last + 1 =? number) then Err
            else
              offset <- sub_chk offset 32 ;;
              long_scan fuel volume first offset number (pending ++ [(sequence, name)])
        | _ => Ok pending
        end
      else Ok pending
  end.
(** file_system.rs 242-351 [read_directory_entry_by_identifier] *)
Definition entry_by_identifier (volume : list N) (sy : fat_system) (identifier : N) : res dir_entry :=
  data <- read_exact_at volume identifier 32 ;;
  short <- fat_short_entry_read data ;;
  offset <- sub_chk identifier 32 ;;
  first <- (if offset <? sy_first_cluster sy then Ok (sy_root_offset sy)
            else
              relative <- div_chk (identifier - sy_first_cluster sy) (sy_cluster_size sy) ;;
              Ok (sy_first_cluster sy + relative * sy_cluster_size sy)) ;;
  pending <- long_scan (N.to_nat (offset / 32) + 2) volume first offset 0 [] ;;
  Ok {| de_identifier := identifier; de_short := short; de_long := set_long_name (rev pending) |}.
(** file_system.rs 113-150 [get_file_entry_by_identifier] *)
Definition fat_by_identifier (mappings : N -> option N) (volume : list N) (sy : fat_system) (identifier : N)
  : res fat_file :=
  if identifier =? sy_root_offset sy then fat_root mappings volume sy else
  e <- entry_by_identifier volume sy identifier ;;
  Ok {| ff_identifier := identifier; ff_entry := Some e; ff_sub := None |}.
