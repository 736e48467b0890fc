(** * Model of keramics-formats/src/ntfs: MFT entries, attributes, directories, volumes

    [volume] is the content of the data stream of the volume. The debug output is left out.
    What an object keeps of a failed call is left out: a failed [read_attributes],
    [initialize] or [read_data_stream] makes its caller drop the object. *)
From Verif Require Import Base Bytes_model Streams_model BlockTree_model Blocks_model Strings_model
  Part_model Headers_model Ntfs_model NtfsCompressed_model.

(** ** Computations that may not end

    A function with loops or recursion that the bytes of the volume control takes fuel, one
    unit for each turn or call. [None]: it has not ended with that much. *)
Definition out (A : Type) := option (res A).
Definition obind {A B} (m : out A) (k : A -> out B) : out B :=
  match m with
  | None => None
  | Some (Ok a) => k a
  | Some Err => Some Err
  | Some Panic => Some Panic
  end.
Notation "x <~ m ;; k" := (obind m (fun x => k))
  (at level 61, m at next level, right associativity).
Notation "' p <~ m ;; k" := (obind m (fun p => k))
  (at level 61, p pattern, m at next level, right associativity).
(** An operation that ends *)
Definition now {A} (r : res A) : out A := Some r.

(** ** Attributes *)

(** mft_attribute.rs 25-64 *)
Record mft_attribute := { ma_type : N; ma_size : N; ma_name : option (list N); ma_allocated : N;
  ma_data_size : N; ma_valid : N; ma_unit : N; ma_compressed : N; ma_resident_data : list N;
  ma_groups : list cluster_group; ma_non_resident : N; ma_flags : N }.
(** mft_attribute.rs 107-119 *)
Definition ma_is_compressed (a : mft_attribute) : bool := negb (N.land (ma_flags a) 0xff =? 0).
Definition ma_is_resident (a : mft_attribute) : bool := N.land (ma_non_resident a) 1 =? 0.
Definition ma_is_sparse (a : mft_attribute) : bool := negb (N.land (ma_flags a) 0x8000 =? 0).
(** The fields that the streams use *)
Definition ma_stream (a : mft_attribute) : ntfs_attribute :=
  {| allocated_data_size := ma_allocated a; data_size := ma_data_size a;
     valid_data_size := ma_valid a; is_compressed := ma_is_compressed a;
     compression_unit_size := ma_unit a; data_cluster_groups := ma_groups a |}.

(** mft_attribute.rs 233-254 and 329-356: the name, and the offset after it *)
Definition attribute_name_read (data : list N) (h : attribute_header) (data_offset : N)
  : res (option (list N) * N) :=
  if 0 <? ah_name_size h then
    let name_offset := ah_name_offset h in
    check (negb ((name_offset <? data_offset) || (len data <=? name_offset))) ;;;
    let name_size := ah_name_size h * 2 in
    let name_end_offset := name_offset + name_size in
    check (name_end_offset <=? len data) ;;;
    d <- slice data name_offset name_end_offset ;;
    name <- u16string_from_le_bytes d ;;
    Ok (Some name, name_end_offset)
  else Ok (None, data_offset).

(** mft_attribute.rs 146-326 [read_data]; the resident and the non-resident case apart *)
Definition attribute_read_resident (data : list N) (h : attribute_header) : res mft_attribute :=
  d <- slice data 16 (len data) ;;
  '(resident_size, resident_offset) <- attribute_resident_read d ;;
  '(name, data_offset) <- attribute_name_read data h 24 ;;
  content <- (if 0 <? resident_size then
      check (negb ((resident_offset <? data_offset) || (len data <=? resident_offset))) ;;;
      let resident_end_offset := resident_offset + resident_size in
      check (resident_end_offset <=? len data) ;;;
      slice data resident_offset resident_end_offset
    else Ok []) ;;
  Ok {| ma_type := ah_type h; ma_size := ah_size h; ma_name := name; ma_allocated := 0;
        ma_data_size := resident_size; ma_valid := 0; ma_unit := 0; ma_compressed := 0;
        ma_resident_data := content; ma_groups := []; ma_non_resident := ah_non_resident h;
        ma_flags := ah_data_flags h |}.
Definition attribute_read_non_resident (data : list N) (h : attribute_header) : res mft_attribute :=
  d <- slice data 16 (len data) ;;
  n <- attribute_non_resident_read d ;;
  '(name, data_offset) <- attribute_name_read data h
     (16 + (if an_compression_unit n =? 0 then 48 else 56)) ;;
  let runs_offset := an_runs_offset n in
  check (negb ((runs_offset <? data_offset) || (len data <=? runs_offset))) ;;;
  '(runs, _) <- read_data_runs data runs_offset ;;
  Ok {| ma_type := ah_type h; ma_size := ah_size h; ma_name := name; ma_allocated := an_allocated n;
        ma_data_size := an_size n; ma_valid := an_valid n; ma_unit := an_compression_unit n;
        ma_compressed := an_compressed n; ma_resident_data := [];
        ma_groups := [{| first_vcn := an_first_vcn n; last_vcn := an_last_vcn n; data_runs := runs |}];
        ma_non_resident := ah_non_resident h; ma_flags := ah_data_flags h |}.
Definition mft_attribute_read (data : list N) : res mft_attribute :=
  h <- attribute_header_read data ;;
  check (N.land (ah_data_flags h) 0xff <=? 1) ;;;
  if N.land (ah_non_resident h) 1 =? 0 then attribute_read_resident data h
  else attribute_read_non_resident data h.

(** mft_attribute.rs 139-140: [sort_by_key], which keeps the order of equal keys *)
Fixpoint insert_group (g : cluster_group) (l : list cluster_group) : list cluster_group :=
  match l with
  | [] => [g]
  | g' :: l' => if first_vcn g <=? first_vcn g' then g :: l else g' :: insert_group g l'
  end.
Definition sort_groups (l : list cluster_group) : list cluster_group := fold_right insert_group [] l.

(** mft_attribute.rs 122-143 *)
Definition merge (a other : mft_attribute) : res mft_attribute :=
  check (negb (ma_is_resident other)) ;;;
  g <- unwrap (nth_error (ma_groups other) 0) ;;
  let from := if first_vcn g =? 0 then other else a in
  Ok {| ma_type := ma_type a; ma_size := ma_size a; ma_name := ma_name a;
        ma_allocated := ma_allocated from; ma_data_size := ma_data_size from;
        ma_valid := ma_valid from; ma_unit := ma_unit from; ma_compressed := ma_compressed from;
        ma_resident_data := ma_resident_data a; ma_groups := sort_groups (ma_groups a ++ ma_groups other);
        ma_non_resident := ma_non_resident a; ma_flags := ma_flags a |}.

(** symbolic_link_reparse_data.rs 60-75 and 80-95: one of the two names *)
Definition link_name_read (data : list N) (name_offset name_size : N) : res (list N) :=
  let data_offset := name_offset + 12 in
  check (data_offset <? len data) ;;;
  let data_end_offset := data_offset + name_size in
  check (data_end_offset <=? len data) ;;;
  d <- slice data data_offset data_end_offset ;;
  ucs2_read_data_le [] d.
(** symbolic_link_reparse_data.rs 49-98: the substitute and the display name *)
Definition symbolic_link_read (data : list N) : res (list N * list N) :=
  check (12 <=? len data) ;;;
  substitute_offset <- u16_le data 0 ;;
  substitute_size <- u16_le data 2 ;;
  substitute <- link_name_read data substitute_offset substitute_size ;;
  display_offset <- u16_le data 4 ;;
  display_size <- u16_le data 6 ;;
  display <- link_name_read data display_offset display_size ;;
  Ok (substitute, display).

(** reparse_point.rs 25-38 *)
Inductive reparse_point :=
  Junction | SymbolicLink (substitute display : list N) | Undefined (tag : N) | Overlay (method : N).
(** reparse_point.rs 77-133 [from_attribute], with [new] 42-55 and [read_data] 68-74; the
    type of the attribute is that of its caller's test *)
Definition reparse_point_of (a : mft_attribute) : res reparse_point :=
  check (ma_type a =? 0xc0) ;;;
  check (ma_is_resident a) ;;;
  '(tag, _) <- reparse_header_read (ma_resident_data a) ;;
  d <- slice (ma_resident_data a) 8 (len (ma_resident_data a)) ;;
  if tag =? 0x80000017 then method <- wof_reparse_read d ;; Ok (Overlay method)
  else if tag =? 0xa0000003 then Ok Junction
  else if tag =? 0xa000000c then '(s, t) <- symbolic_link_read d ;; Ok (SymbolicLink s t)
  else Ok (Undefined tag).
(** standard_information.rs 131-153 *)
Definition standard_of (a : mft_attribute) : res standard_information :=
  check (ma_type a =? 0x10) ;;;
  check (ma_is_resident a) ;;;
  standard_information_read (ma_resident_data a).

(** mft_attributes.rs 30-48. The two levels of maps of [attribute_groups] as the names that
    have a group and, for each name and type, the index of the attribute. *)
Record mft_attributes := { as_attributes : list mft_attribute; as_groups : list (option (list N));
  as_index : list (option (list N) * N * nat); as_list : option nat; as_data : list nat;
  as_reparse : option reparse_point; as_standard : option standard_information }.
Definition no_attributes : mft_attributes :=
  {| as_attributes := []; as_groups := []; as_index := []; as_list := None; as_data := [];
     as_reparse := None; as_standard := None |}.
Definition name_eqb (a b : option (list N)) : bool :=
  match a, b with
  | None, None => true
  | Some a, Some b => same a b
  | _, _ => false
  end.
(** mft_attributes.rs 207-209 *)
Definition has_group (s : mft_attributes) (name : option (list N)) : bool :=
  existsb (name_eqb name) (as_groups s).
(** mft_attributes.rs 202-204 and mft_attribute_group.rs 36-38 *)
Definition index_of (s : mft_attributes) (name : option (list N)) (type : N) : option nat :=
  match find (fun e => name_eqb name (fst (fst e)) && (snd (fst e) =? type)) (as_index s) with
  | Some e => Some (snd e)
  | None => None
  end.
(** mft_attributes.rs 190-199 and 212-221 *)
Definition get_attribute (s : mft_attributes) (name : option (list N)) (type : N) : option mft_attribute :=
  match index_of s name type with
  | Some i => nth_error (as_attributes s) i
  | None => None
  end.
(** mft_attributes.rs 64-166 *)
Definition add_attribute (s : mft_attributes) (a : mft_attribute) : res mft_attributes :=
  let groups := if has_group s (ma_name a) then as_groups s else ma_name a :: as_groups s in
  match index_of s (ma_name a) (ma_type a) with
  | Some i =>
      existing <- of_option (nth_error (as_attributes s) i) ;;
      merged <- merge existing a ;;
      Ok {| as_attributes := set_nth (as_attributes s) i merged; as_groups := groups;
            as_index := as_index s; as_list := as_list s; as_data := as_data s;
            as_reparse := as_reparse s; as_standard := as_standard s |}
  | None =>
      let i := length (as_attributes s) in
      let type := ma_type a in
      attribute_list <- (if type =? 0x20 then
                           match as_list s with Some _ => Err | None => Ok (Some i) end
                         else Ok (as_list s)) ;;
      reparse <- (if type =? 0xc0 then
                    match as_reparse s with
                    | Some _ => Err
                    | None => r <- reparse_point_of a ;; Ok (Some r)
                    end
                  else Ok (as_reparse s)) ;;
      standard <- (if type =? 0x10 then
                     match as_standard s with
                     | Some _ => Err
                     | None => r <- standard_of a ;; Ok (Some r)
                     end
                   else Ok (as_standard s)) ;;
      Ok {| as_attributes := as_attributes s ++ [a]; as_groups := groups;
            as_index := if type =? 0x30 then as_index s else (ma_name a, type, i) :: as_index s;
            as_list := attribute_list; as_data := if type =? 0x80 then as_data s ++ [i] else as_data s;
            as_reparse := reparse; as_standard := standard |}
  end.

(** ** MFT entries *)

(** mft_entry.rs 28-55 *)
Record mft_entry := { me_data : list N; me_sequence : N; me_base : N; me_journal : N;
  me_attributes_offset : N; me_is_empty : bool; me_is_bad : bool; me_is_allocated : bool }.
(** mft_entry.rs 115-193 [read_data]; [buffer[0..4]] of at least 42 bytes *)
Definition mft_entry_read (data : list N) : res mft_entry :=
  signature <- slice data 0 4 ;;
  let unread empty bad :=
    {| me_data := data; me_sequence := 0; me_base := 0; me_journal := 0; me_attributes_offset := 0;
       me_is_empty := empty; me_is_bad := bad; me_is_allocated := false |} in
  if same signature [0; 0; 0; 0] then Ok (unread true false)
  else if same signature [0x42; 0x41; 0x41; 0x44] then Ok (unread false true)
  else
    h <- mft_entry_header_read data ;;
    check (mh_size h =? len data) ;;;
    check (negb ((mh_fixup_offset h <? 42) || (len data <? mh_fixup_offset h))) ;;;
    let header_size := if mh_fixup_offset h =? 42 then 42 else 48 in
    check (negb ((mh_attributes_offset h <? header_size) || (len data <? mh_attributes_offset h))) ;;;
    check (mh_fixup_offset h <? mh_attributes_offset h) ;;;
    let '(data, result) := apply_fixup_values data (mh_fixup_offset h) (mh_fixups h) in
    result ;;;
    Ok {| me_data := data; me_sequence := mh_sequence h; me_base := mh_base h;
          me_journal := mh_journal h; me_attributes_offset := mh_attributes_offset h;
          me_is_empty := false; me_is_bad := false; me_is_allocated := true |}.
(** mft_entry.rs 196-237 *)
Definition mft_entry_read_at (volume : list N) (data_size offset : N) : res mft_entry :=
  check (negb ((data_size <? 42) || (65535 <? data_size))) ;;;
  data <- read_exact_at volume offset data_size ;;
  mft_entry_read data.
(** mft_entry.rs 74-112 *)
Fixpoint read_attributes_loop (fuel : nat) (data : list N) (data_offset : N) (s : mft_attributes)
  : out mft_attributes :=
  match fuel with
  | O => None
  | S fuel =>
      limit <~ now (sub_chk (len data) 4) ;;
      if limit <? data_offset then now Err
      else
        marker <~ now (slice data data_offset (data_offset + 4)) ;;
        if same marker [0xff; 0xff; 0xff; 0xff] then now (Ok s)
        else
          d <~ now (slice data data_offset (len data)) ;;
          a <~ now (mft_attribute_read d) ;;
          s <~ now (add_attribute s a) ;;
          read_attributes_loop fuel data (data_offset + ma_size a) s
  end.
Definition read_attributes (fuel : nat) (e : mft_entry) (s : mft_attributes) : out mft_attributes :=
  read_attributes_loop fuel (me_data e) (me_attributes_offset e) s.

(** ** Attribute lists *)

(** attribute_list.rs 109-135: reads of one cluster until one is empty *)
Fixpoint attribute_list_blocks (fuel : nat) (volume : list N) (stream : ntfs_block_stream)
    (cluster_block_size : N) (position : N) : out (list attribute_list_entry) :=
  match fuel with
  | O => None
  | S fuel =>
      let '(st, r) := stream_read (ns_size stream) (ntfs_block_rd volume stream) (tt, position)
                        cluster_block_size in
      d <~ now r ;;
      if len d =? 0 then now (Ok [])
      else
        entries <~ attribute_list_loop (S fuel) d 0 ;;
        more <~ attribute_list_blocks fuel volume stream cluster_block_size (snd st) ;;
        now (Ok (entries ++ more))
  end.
(** attribute_list.rs 71-138 *)
Definition attribute_list_read (fuel : nat) (volume : list N) (cluster_block_size : N)
    (a : mft_attribute) : out (list attribute_list_entry) :=
  if negb (ma_type a =? 0x20) then now Err
  else if ma_is_compressed a then now Err
  else if ma_is_resident a then attribute_list_loop fuel (ma_resident_data a) 0
  else
    stream <~ now (ntfs_block_stream_open cluster_block_size (ma_stream a)) ;;
    attribute_list_blocks fuel volume stream cluster_block_size 0.
(** master_file_table.rs 255-265 and file_entry.rs 488-498: the set of the entry numbers
    other than [own], in ascending order *)
Fixpoint insert_number (n : N) (l : list N) : list N :=
  match l with
  | [] => [n]
  | m :: l' => if n =? m then l else if n <? m then n :: l else m :: insert_number n l'
  end.
Definition other_entries (own : N) (entries : list attribute_list_entry) : list N :=
  fold_right (fun e l => let n := N.land (al_file_reference e) 0xffffffffffff in
                         if n =? own then l else insert_number n l) [] entries.

(** ** The master file table *)

(** master_file_table.rs 31-43 *)
Record mft := { mt_cluster : N; mt_entry_size : N; mt_entries : N; mt_tree : block_tree block_range }.
(** master_file_table.rs 62-99 *)
Fixpoint add_runs (runs : list data_run) (t : mft) (vcn offset : N) : res (mft * N) :=
  match runs with
  | [] => Ok (t, vcn)
  | data_run :: runs =>
      range_size <- mul_chk two64 (number_of_blocks data_run) (mt_cluster t) ;;
      r <- mod_chk range_size (mt_entry_size t) ;;
      check (r =? 0) ;;;
      n <- div_chk range_size (mt_entry_size t) ;;
      entries <- add_chk two64 (mt_entries t) n ;;
      match run_kind data_run with InFile => Ok tt | _ => Err end ;;;
      match bt_insert (mt_tree t) offset range_size
        {| virtual_cluster_offset := offset; cluster_block_number := block_number data_run;
           range_blocks := number_of_blocks data_run; range_sparse := false |} with
      | (tree, Ok _) =>
          vcn <- add_chk two64 vcn (number_of_blocks data_run) ;;
          offset <- add_chk two64 offset range_size ;;
          add_runs runs {| mt_cluster := mt_cluster t; mt_entry_size := mt_entry_size t;
                           mt_entries := entries; mt_tree := tree |} vcn offset
      | (_, Err) => Err
      | (_, Panic) => Panic
      end
  end.
(** master_file_table.rs 57-109 *)
Definition add_cluster_group (t : mft) (g : cluster_group) : res mft :=
  offset <- mul_chk two64 (first_vcn g) (mt_cluster t) ;;
  '(t, vcn) <- add_runs (data_runs g) t (first_vcn g) offset ;;
  (if last_vcn g =? two64 - 1 then Ok tt
   else last <- add_chk two64 (last_vcn g) 1 ;; check (last =? vcn)) ;;;
  Ok t.
(** master_file_table.rs 112-148 *)
Definition get_entry (volume : list N) (t : mft) (entry_number : N) : res mft_entry :=
  virtual_offset <- mul_chk two64 entry_number (mt_entry_size t) ;;
  found <- bt_get (mt_tree t) virtual_offset ;;
  range <- of_option found ;;
  relative <- sub_chk virtual_offset (virtual_cluster_offset range) ;;
  start <- mul_chk two64 (cluster_block_number range) (mt_cluster t) ;;
  offset <- add_chk two64 start relative ;;
  mft_entry_read_at volume (mt_entry_size t) offset.
(** master_file_table.rs 269-305: the further entries of the MFT itself *)
Fixpoint add_entries (fuel : nat) (volume : list N) (numbers : list N) (t : mft) : out mft :=
  match numbers with
  | [] => now (Ok t)
  | n :: numbers =>
      e <~ now (get_entry volume t n) ;;
      s <~ read_attributes fuel e no_attributes ;;
      t <~ match get_attribute s None 0x80 with
           | Some a => now (g <- unwrap (nth_error (ma_groups a) 0) ;; add_cluster_group t g)
           | None => now (Ok t)
           end ;;
      add_entries fuel volume numbers t
  end.
(** master_file_table.rs 151-307 *)
Definition mft_initialize (fuel : nat) (volume : list N) (cluster_block_size mft_entry_size mft_block_number : N)
  : out mft :=
  mft_offset <~ now (mul_chk two64 mft_block_number cluster_block_size) ;;
  e <~ now (mft_entry_read_at volume mft_entry_size mft_offset) ;;
  if me_is_bad e then now Err
  else if negb (me_is_allocated e) then now Err
  else
    s <~ read_attributes fuel e no_attributes ;;
    a <~ now (of_option (get_attribute s None 0x80)) ;;
    if ma_is_resident a then now Err
    else if ma_is_compressed a then now Err
    else
      q <~ now (div_chk (ma_allocated a) mft_entry_size) ;;
      size <~ now (mul_chk two64 q mft_entry_size) ;;
      n <~ now (div_chk size mft_entry_size) ;;
      if 0xffffffff <=? n then now Err
      else
        g <~ now (unwrap (nth_error (ma_groups a) 0)) ;;
        t <~ now (add_cluster_group {| mt_cluster := cluster_block_size; mt_entry_size := mft_entry_size;
                    mt_entries := 0; mt_tree := bt_new size 0 mft_entry_size |} g) ;;
        numbers <~ match as_list s with
                   | Some i =>
                       a <~ now (of_option (nth_error (as_attributes s) i)) ;;
                       entries <~ attribute_list_read fuel volume cluster_block_size a ;;
                       now (Ok (other_entries 0 entries))
                   | None => now (Ok [])
                   end ;;
        add_entries fuel volume numbers t.

(** ** Directory indexes *)

(** directory_entry.rs 20-29 *)
Record directory_entry := { de_reference : N; de_name : file_name; de_short : option file_name }.
(** directory_entries.rs 23-31; the map as its entries *)
Record directory_entries := { ds_entries : list directory_entry; ds_short : list (N * file_name) }.
Definition short_of (s : directory_entries) (reference : N) : option file_name :=
  match find (fun e => fst e =? reference) (ds_short s) with Some e => Some (snd e) | None => None end.
(** directory_entries.rs 43-62 *)
Definition add_directory_entry (s : directory_entries) (reference : N) (f : file_name)
  : res directory_entries :=
  dot <- (if fn_name_size f =? 1 then e <- idx (fn_name f) 0 ;; Ok (e =? 0x2e) else Ok false) ;;
  if dot then Ok s
  else if fn_name_space f =? 2 then
    match short_of s reference with
    | Some _ => Err
    | None => Ok {| ds_entries := ds_entries s; ds_short := (reference, f) :: ds_short s |}
    end
  else Ok {| ds_entries := ds_entries s ++ [{| de_reference := reference; de_name := f; de_short := None |}];
             ds_short := ds_short s |}.
(** directory_entries.rs 70-91; the entry is a copy, the change of its short name is kept by
    the code *)
Definition directory_entry_by_index (s : directory_entries) (i : nat) : res directory_entry :=
  e <- of_option (nth_error (ds_entries s) i) ;;
  if (fn_name_space (de_name e) =? 1) && match de_short e with Some _ => true | None => false end then
    match short_of s (de_reference e) with
    | Some f => Ok {| de_reference := de_reference e; de_name := de_name e; de_short := Some f |}
    | None => Ok e
    end
  else Ok e.

(** index_entry.rs 41-117 *)
Definition index_entry_read_at (volume : list N) (data_size offset : N) : res (list N) :=
  check (negb ((data_size <? 42) || (65535 <? data_size))) ;;;
  data <- read_exact_at volume offset data_size ;;
  '(fixup_offset, fixups) <- index_entry_header_read data ;;
  check (negb ((fixup_offset <? 32) || (len data <? fixup_offset))) ;;;
  let '(data, result) := apply_fixup_values data fixup_offset fixups in
  result ;;;
  Ok data.

(** directory_index.rs 37-55, with the fields of index.rs 26-35. [None] for the sub nodes:
    no [$INDEX_ALLOCATION], an empty tree and an index entry size of 0. *)
Record directory_index := { di_cluster : N; di_entry_size : N; di_tree : block_tree block_range;
  di_root : list N; di_folding : bool }.
(** index.rs 123-171 *)
Fixpoint index_runs (cluster_block_size : N) (runs : list data_run) (t : block_tree block_range)
    (vcn offset : N) : res (block_tree block_range * N * N) :=
  match runs with
  | [] => Ok (t, vcn, offset)
  | data_run :: runs =>
      range_size <- mul_chk two64 (number_of_blocks data_run) cluster_block_size ;;
      match run_kind data_run with InFile => Ok tt | _ => Err end ;;;
      match bt_insert t offset range_size
        {| virtual_cluster_offset := offset; cluster_block_number := block_number data_run;
           range_blocks := number_of_blocks data_run; range_sparse := false |} with
      | (t, Ok _) =>
          vcn <- add_chk two64 vcn (number_of_blocks data_run) ;;
          offset <- add_chk two64 offset range_size ;;
          index_runs cluster_block_size runs t vcn offset
      | (_, Err) => Err
      | (_, Panic) => Panic
      end
  end.
Fixpoint index_groups (cluster_block_size : N) (groups : list cluster_group)
    (t : block_tree block_range) (vcn offset : N) : res (block_tree block_range) :=
  match groups with
  | [] => Ok t
  | group :: groups =>
      check (first_vcn group =? vcn) ;;;
      '(t, vcn, offset) <- index_runs cluster_block_size (data_runs group) t vcn offset ;;
      (if last_vcn group =? two64 - 1 then Ok tt
       else last <- add_chk two64 (last_vcn group) 1 ;; check (last =? vcn)) ;;;
      index_groups cluster_block_size groups t vcn offset
  end.
(** index.rs 102-175 *)
Definition index_initialize (cluster_block_size : N) (a : mft_attribute) : res (block_tree block_range) :=
  check (negb (ma_is_resident a)) ;;;
  check (negb (ma_is_compressed a)) ;;;
  q <- div_chk (ma_allocated a) cluster_block_size ;;
  size <- mul_chk two64 q cluster_block_size ;;
  index_groups cluster_block_size (ma_groups a) (bt_new size 0 cluster_block_size) 0 0.

(** [Ucs2String::from("$I30")] *)
Definition i30 : option (list N) := Some [0x24; 0x49; 0x33; 0x30].
(** directory_index.rs 71-175; every call builds the index anew, where the code keeps the
    first that it could build *)
Definition directory_index_of (cluster_block_size : N) (s : mft_attributes) : res directory_index :=
  check (has_group s i30) ;;;
  root <- of_option (get_attribute s i30 0x90) ;;
  check (ma_is_resident root) ;;;
  '(type, collation, entry_size) <- index_root_header_read (ma_resident_data root) ;;
  check (type =? 0x30) ;;;
  check (collation =? 1) ;;;
  check (negb ((entry_size <? 20) || (2097152 <? entry_size))) ;;;
  folding <- match get_attribute s None 0x10 with
             | Some a =>
                 i <- standard_of a ;;
                 Ok (negb ((si_maximum_versions i =? 0) && (si_version i =? 1)))
             | None => Ok true
             end ;;
  '(entry_size, tree) <- match get_attribute s i30 0xa0 with
                         | Some a => t <- index_initialize cluster_block_size a ;; Ok (entry_size, t)
                         | None => Ok (0, bt_new 0 0 0)
                         end ;;
  Ok {| di_cluster := cluster_block_size; di_entry_size := entry_size; di_tree := tree;
        di_root := ma_resident_data root; di_folding := folding |}.

(** index.rs 48-99 *)
Definition index_entry_at (volume : list N) (d : directory_index) (vcn : N) : res (list N) :=
  virtual_offset <- mul_chk two64 vcn (di_cluster d) ;;
  found <- bt_get (di_tree d) virtual_offset ;;
  range <- of_option found ;;
  relative <- sub_chk virtual_offset (virtual_cluster_offset range) ;;
  start <- mul_chk two64 (cluster_block_number range) (di_cluster d) ;;
  offset <- add_chk two64 start relative ;;
  range_size <- mul_chk two64 (range_blocks range) (di_cluster d) ;;
  remaining <- sub_chk range_size relative ;;
  check (di_entry_size d <=? remaining) ;;;
  index_entry_read_at volume (di_entry_size d) offset.

(** directory_index.rs 554-592: size of the node and offset of its values *)
Definition node_header_read (data : list N) (node_offset : N) : res (N * N) :=
  d <- slice data node_offset (len data) ;;
  '(values_offset, size, _) <- index_node_header_read d ;;
  check (size <=? len data) ;;;
  check (negb ((values_offset <? 16) || (size <=? values_offset))) ;;;
  Ok (size, values_offset).
(** directory_index.rs 595-638 *)
Definition node_value_read (data : list N) (offset end_offset : N) : res index_value :=
  check (offset + 16 <=? end_offset) ;;;
  d <- slice data offset (len data) ;;
  v <- index_value_read d ;;
  remaining <- sub_chk (len data) offset ;;
  check (iv_size v <=? remaining) ;;;
  Ok v.
(** directory_index.rs 492-517 *)
Definition node_branch_read (data : list N) (offset value_size : N) : res N :=
  check (8 <=? value_size) ;;;
  u64_le data (offset + value_size - 8).
(** directory_index.rs 520-551 *)
Definition node_key_read (data : list N) (offset key_size : N) : res file_name :=
  d <- slice data offset (offset + key_size) ;;
  file_name_read d.
(** directory_index.rs 231-257 and 382-407: a value, the offset of its key, the offset after
    its key and the size of what follows the key *)
Definition node_value (data : list N) (offset end_offset : N) : res (index_value * N * N * N) :=
  v <- node_value_read data offset end_offset ;;
  let key_offset := offset + 16 in
  after <- (if 0 <? iv_key_size v then
              check (key_offset + iv_key_size v <=? end_offset) ;;;
              Ok (key_offset + iv_key_size v)
            else Ok key_offset) ;;
  n <- sub_chk (iv_size v) 16 ;;
  value_size <- sub_chk n (iv_key_size v) ;;
  Ok (v, key_offset, after, value_size).
(** directory_index.rs 290-297 and 479-486 *)
Definition next_value (after value_size : N) : N :=
  let offset := after + value_size in
  let padding := offset mod 8 in
  if 0 <? padding then offset + (8 - padding) else offset.
Definition is_branch (v : index_value) : bool := negb (N.land (iv_flags v) 1 =? 0).
Definition is_last (v : index_value) : bool := negb (N.land (iv_flags v) 2 =? 0).

(** directory_index.rs 228-298: the directory entry, or where the search goes on, with
    [is_branch], the offset after the key and the size of what follows *)
Fixpoint search_values (fuel : nat) (fold : list N -> list N) (data name : list N)
    (offset end_offset : N) (branch : bool) (value_size : N) : out (directory_entry + bool * N * N) :=
  if offset <? end_offset then
    match fuel with
    | O => None
    | S fuel =>
        '(v, key_offset, after, value_size) <~ now (node_value data offset end_offset) ;;
        let branch := is_branch v in
        if is_last v then now (Ok (inr (branch, after, value_size)))
        else if iv_key_size v =? 0 then now Err
        else
          f <~ now (node_key_read data key_offset (iv_key_size v)) ;;
          let result := ucs2_compare (fold (fn_name f)) name in
          match result with
          | Eq => now (Ok (inl {| de_reference := iv_file_reference v; de_name := f; de_short := None |}))
          | Gt => if branch then now (Ok (inr (branch, after, value_size)))
                  else search_values fuel fold data name (next_value after value_size) end_offset branch value_size
          | Lt => search_values fuel fold data name (next_value after value_size) end_offset branch value_size
          end
    end
  else now (Ok (inr (branch, offset, value_size))).
(** directory_index.rs 204-341 *)
Fixpoint search_node (fuel : nat) (fold : list N -> list N) (volume : list N) (d : directory_index)
    (data : list N) (node_offset : N) (name : list N) : out (option directory_entry) :=
  match fuel with
  | O => None
  | S fuel =>
      '(size, values_offset) <~ now (node_header_read data node_offset) ;;
      if size =? 0 then now (Ok None)
      else
        found <~ search_values fuel fold data name (node_offset + values_offset) (node_offset + size) false 0 ;;
        match found with
        | inl e => now (Ok (Some e))
        | inr (branch, offset, value_size) =>
            if branch then
              vcn <~ now (node_branch_read data offset value_size) ;;
              entry <~ now (index_entry_at volume d vcn) ;;
              search_node fuel fold volume d entry 24 name
            else now (Ok None)
        end
  end.
(** directory_index.rs 178-201; [upcase] is the map of the case folding *)
Definition fold_name (d : directory_index) (upcase : N -> option N) (name : list N) : list N :=
  if di_folding d then ucs2_case_folding name upcase else name.
Definition search_name (fuel : nat) (volume : list N) (upcase : N -> option N) (d : directory_index)
    (name : list N) : out (option directory_entry) :=
  search_node fuel (fold_name d upcase) volume d (di_root d) 16 (fold_name d upcase name).

(** directory_index.rs 382-488 with 358-380 of the sub node *)
Fixpoint list_values (fuel : nat) (volume : list N) (d : directory_index) (data : list N)
    (offset end_offset : N) (s : directory_entries) : out directory_entries :=
  if offset <? end_offset then
    match fuel with
    | O => None
    | S fuel =>
        '(v, key_offset, after, value_size) <~ now (node_value data offset end_offset) ;;
        s <~ (if is_branch v then
                vcn <~ now (node_branch_read data after value_size) ;;
                entry <~ now (index_entry_at volume d vcn) ;;
                '(size, values_offset) <~ now (node_header_read entry 24) ;;
                if size =? 0 then now (Ok s)
                else list_values fuel volume d entry (24 + values_offset) (24 + size) s
              else now (Ok s)) ;;
        if is_last v then now (Ok s)
        else
          f <~ now (node_key_read data key_offset (iv_key_size v)) ;;
          s <~ now (add_directory_entry s (iv_file_reference v) f) ;;
          list_values fuel volume d data (next_value after value_size) end_offset s
    end
  else now (Ok s).
(** directory_index.rs 344-380 *)
Definition list_entries (fuel : nat) (volume : list N) (d : directory_index) : out directory_entries :=
  '(size, values_offset) <~ now (node_header_read (di_root d) 16) ;;
  if size =? 0 then now (Ok {| ds_entries := []; ds_short := [] |})
  else list_values fuel volume d (di_root d) (16 + values_offset) (16 + size)
         {| ds_entries := []; ds_short := [] |}.

(** ** Volumes *)

(** file_system.rs 33-63 *)
Record ntfs_volume := { nv_boot : ntfs_boot; nv_mft : mft; nv_upcase : list N;
  nv_information : option (N * N * N); nv_label : option (list N) }.
(** file_system.rs 347-364: the map has an entry for each value that the table changes *)
Definition upcase_of (table : list N) (c : N) : option N :=
  match u16_le table (2 * c) with
  | Ok v => if c =? v then None else Some v
  | _ => None
  end.
(** file_system.rs 269-308 and 410-449: the attributes of a metadata file of one entry *)
Definition metadata_attributes (fuel : nat) (volume : list N) (t : mft) (number : N) : out mft_attributes :=
  e <~ now (get_entry volume t number) ;;
  if me_is_bad e then now Err
  else if negb (me_is_allocated e) then now Err
  else
    s <~ read_attributes fuel e no_attributes ;;
    match as_list s with Some _ => now Err | None => now (Ok s) end.
(** file_system.rs 406-487, with volume_information.rs 69-96: the label and the information *)
Definition read_volume_information (fuel : nat) (volume : list N) (t : mft)
  : out (option (list N) * option (N * N * N)) :=
  s <~ metadata_attributes fuel volume t 3 ;;
  label <~ now match get_attribute s None 0x60 with
               | Some a =>
                   check (ma_is_resident a) ;;;
                   check (negb (ma_is_compressed a)) ;;;
                   l <- u16string_from_le_bytes (ma_resident_data a) ;;
                   Ok (Some l)
               | None => Ok None
               end ;;
  information <~ now match get_attribute s None 0x70 with
                     | Some a =>
                         check (negb (ma_is_compressed a)) ;;;
                         check (ma_is_resident a) ;;;
                         i <- volume_information_read (ma_resident_data a) ;;
                         Ok (Some i)
                     | None => Ok None
                     end ;;
  now (Ok (label, information)).
(** file_system.rs 265-366: the table of the case folding *)
Definition read_case_folding (fuel : nat) (volume : list N) (t : mft) : out (list N) :=
  s <~ metadata_attributes fuel volume t 10 ;;
  a <~ now (of_option (get_attribute s None 0x80)) ;;
  if ma_is_resident a then now Err
  else if ma_is_compressed a then now Err
  else
    stream <~ now (ntfs_block_stream_open (mt_cluster t) (ma_stream a)) ;;
    d <~ now (snd (stream_read (ns_size stream) (ntfs_block_rd volume stream) (tt, 0) 131072)) ;;
    now (check (len d =? 131072) ;;; Ok d).
(** file_system.rs 202-262 and 369-403 *)
Definition ntfs_open (fuel : nat) (volume : list N) : out ntfs_volume :=
  d <~ now (read_exact_at volume 0 512) ;;
  b <~ now (ntfs_boot_read d) ;;
  maximum <~ now (div_chk 0xffffffffffffffff (nb_cluster_block_size b)) ;;
  if maximum <? nb_mft_block b then now Err
  else
    t <~ mft_initialize fuel volume (nb_cluster_block_size b) (nb_mft_entry_size b) (nb_mft_block b) ;;
    '(label, information) <~ read_volume_information fuel volume t ;;
    upcase <~ read_case_folding fuel volume t ;;
    now (Ok {| nv_boot := b; nv_mft := t; nv_upcase := upcase; nv_information := information;
               nv_label := label |}).

(** ** File entries *)

(** file_entry.rs 38-74 *)
Record file_entry := { fe_number : N; fe_entry : mft_entry; fe_attributes : mft_attributes;
  fe_directory_entry : option directory_entry; fe_is_directory : bool }.
(** file_entry.rs 500-522 *)
Fixpoint read_other_entries (fuel : nat) (volume : list N) (t : mft) (numbers : list N) (s : mft_attributes)
  : out mft_attributes :=
  match numbers with
  | [] => now (Ok s)
  | n :: numbers =>
      e <~ now (get_entry volume t n) ;;
      s <~ read_attributes fuel e s ;;
      read_other_entries fuel volume t numbers s
  end.
(** file_entry.rs 451-531 [read_attributes] of a new file entry *)
Definition file_entry_of (fuel : nat) (volume : list N) (t : mft) (number : N) (e : mft_entry)
    (de : option directory_entry) : out file_entry :=
  s <~ read_attributes fuel e no_attributes ;;
  s <~ match as_list s with
       | Some i =>
           a <~ now (of_option (nth_error (as_attributes s) i)) ;;
           entries <~ attribute_list_read fuel volume (mt_cluster t) a ;;
           read_other_entries fuel volume t (other_entries number entries) s
       | None => now (Ok s)
       end ;;
  now (Ok {| fe_number := number; fe_entry := e; fe_attributes := s; fe_directory_entry := de;
             fe_is_directory := has_group s i30 |}).
(** file_system.rs 107-150 *)
Definition ntfs_by_identifier (fuel : nat) (volume : list N) (v : ntfs_volume) (number : N) : out file_entry :=
  if mt_entries (nv_mft v) <=? number then now Err
  else
    e <~ now (get_entry volume (nv_mft v) number) ;;
    file_entry_of fuel volume (nv_mft v) number e None.
(** file_system.rs 189-197 *)
Definition ntfs_root (fuel : nat) (volume : list N) (v : ntfs_volume) : out file_entry :=
  ntfs_by_identifier fuel volume v 5.
(** file_entry.rs 419-447 and 565-595 *)
Definition entry_of (fuel : nat) (volume : list N) (v : ntfs_volume) (de : directory_entry) : out file_entry :=
  let number := N.land (de_reference de) 0xffffffffffff in
  e <~ now (get_entry volume (nv_mft v) number) ;;
  file_entry_of fuel volume (nv_mft v) number e (Some de).
(** file_entry.rs 649-683; a failed listing keeps what it added, but then fails again at the
    latest at the same place, so that the entries of the listing are those of one pass *)
Definition sub_entries (fuel : nat) (volume : list N) (v : ntfs_volume) (f : file_entry) : out directory_entries :=
  if negb (fe_is_directory f) then now Err
  else
    d <~ now (directory_index_of (mt_cluster (nv_mft v)) (fe_attributes f)) ;;
    list_entries fuel volume d.
(** file_entry.rs 373-390 *)
Definition number_of_sub_entries (fuel : nat) (volume : list N) (v : ntfs_volume) (f : file_entry) : out nat :=
  if negb (fe_is_directory f) then now (Ok O)
  else s <~ sub_entries fuel volume v f ;; now (Ok (length (ds_entries s))).
(** file_entry.rs 393-448 *)
Definition sub_entry_by_index (fuel : nat) (volume : list N) (v : ntfs_volume) (f : file_entry) (i : nat)
  : out file_entry :=
  s <~ sub_entries fuel volume v f ;;
  de <~ now (directory_entry_by_index s i) ;;
  entry_of fuel volume v de.
(** file_entry.rs 534-599 *)
Definition sub_entry_by_name (fuel : nat) (volume : list N) (v : ntfs_volume) (f : file_entry) (name : list N)
  : out (option file_entry) :=
  if negb (fe_is_directory f) then now (Ok None)
  else
    d <~ now (directory_index_of (mt_cluster (nv_mft v)) (fe_attributes f)) ;;
    found <~ search_name fuel volume (upcase_of (nv_upcase v)) d name ;;
    match found with
    | Some de => f <~ entry_of fuel volume v de ;; now (Ok (Some f))
    | None => now (Ok None)
    end.
(** file_system.rs 168-184 *)
Fixpoint ntfs_walk (fuel : nat) (volume : list N) (v : ntfs_volume) (components : list (list N)) (f : file_entry)
  : out (option file_entry) :=
  match components with
  | [] => now (Ok (Some f))
  | name :: components =>
      found <~ sub_entry_by_name fuel volume v f name ;;
      match found with
      | Some f => ntfs_walk fuel volume v components f
      | None => now (Ok None)
      end
  end.
(** file_system.rs 153-186; the path as its components *)
Definition ntfs_by_path (fuel : nat) (volume : list N) (v : ntfs_volume) (path : list (list N))
  : out (option file_entry) :=
  match path with
  | [] => now (Ok None)
  | first :: components =>
      if negb (len first =? 0) then now (Ok None)
      else
        root <~ ntfs_root fuel volume v ;;
        ntfs_walk fuel volume v components root
  end.

(** file_entry.rs 107-167 and 178-197, 608-646 *)
Definition fe_name (f : file_entry) : option (list N) :=
  match fe_directory_entry f with Some de => Some (fn_name (de_name de)) | None => None end.
Definition fe_reference (f : file_entry) : N :=
  match fe_directory_entry f with
  | Some de => de_reference de
  | None => N.lor (fe_number f) (N.shiftl (me_sequence (fe_entry f)) 48 mod two64)
  end.
Definition fe_parent_reference (f : file_entry) : option N :=
  match fe_directory_entry f with Some de => Some (fn_parent (de_name de)) | None => None end.
Definition fe_size (f : file_entry) : N :=
  match get_attribute (fe_attributes f) None 0x80 with Some a => ma_data_size a | None => 0 end.
Definition fe_link_target (f : file_entry) : option (list N) :=
  match as_reparse (fe_attributes f) with Some (SymbolicLink s _) => Some s | _ => None end.
Definition fe_flags (f : file_entry) : N :=
  match as_standard (fe_attributes f) with Some i => si_flags i | None => 0 end.

(** ** Data streams *)

(** The stream that mft_attributes.rs 237-319 opens. [WofStream]: opening the stream of a file
    of the Windows overlay filter is [Wof_model.wof_open]. *)
Inductive data_stream :=
  FakeStream (data : list N) (size : N) | BlockStream (s : ntfs_block_stream)
| CompressedStream (s : ntfs_compressed_stream) | WofStream (method : N) (a : mft_attribute) (size : N).
(** [Ucs2String::from("WofCompressedData")] *)
Definition wof_name : option (list N) :=
  Some [0x57; 0x6f; 0x66; 0x43; 0x6f; 0x6d; 0x70; 0x72; 0x65; 0x73; 0x73; 0x65; 0x64; 0x44; 0x61; 0x74; 0x61].
(** mft_attributes.rs 237-319 *)
Definition data_stream_by_name (s : mft_attributes) (cluster_block_size : N) (name : option (list N))
  : res (option data_stream) :=
  match get_attribute s name 0x80 with
  | None => Ok None
  | Some a =>
      let open :=
        if ma_is_resident a then Ok (FakeStream (ma_resident_data a) (ma_data_size a))
        else if ma_is_compressed a then
          c <- ntfs_compressed_open cluster_block_size (ma_stream a) ;; Ok (CompressedStream c)
        else b <- ntfs_block_stream_open cluster_block_size (ma_stream a) ;; Ok (BlockStream b) in
      d <- match as_reparse s, name with
           | Some (Overlay method), None =>
               check (negb (ma_is_resident a)) ;;;
               w <- of_option (get_attribute s wof_name 0x80) ;;
               Ok (WofStream method w (ma_valid a))
           | _, _ => open
           end ;;
      Ok (Some d)
  end.
(** data_fork.rs 52-71 of file_entry.rs 226-245 *)
Definition data_fork_name (s : mft_attributes) (i : nat) : res (option (list N)) :=
  k <- of_option (nth_error (as_data s) i) ;;
  a <- of_option (nth_error (as_attributes s) k) ;;
  Ok (ma_name a).
