(** * NTFS: MFT entries, attributes, files, directories

    What the bytes of a volume say, as positions of numbers and texts. *)
From Coq Require Import Permutation Sorted.
From Verif Require Import Base Streams_model Streams_spec Part_spec Strings_model Strings_spec Part_model
  Headers_model Headers_spec Ntfs_model Ntfs_spec NtfsCompressed_model NtfsFs_model.

(** A computation that ends with an answer; one that never ends. *)
Definition ends {A} (f : nat -> out A) (r : res A) : Prop := exists n, forall m, (n <= m)%nat -> f m = Some r.
Definition never_ends {A} (f : nat -> out A) : Prop := forall m, f m = None.

(** ** Records

    A record has an array at [offset]: a placeholder of two bytes and, for each sector of 512
    bytes, the two bytes that the placeholder stands for at the end of that sector. *)
Definition sectors (data : list N) : N := len data / 512.
Definition record_ok (data : list N) (offset values : N) : Prop :=
  0 < len data /\ len data mod 512 = 0 /\ values = sectors data + 1 /\ offset + 2 * values <= 510 /\
  forall k, k < sectors data -> byte data (512 * k + 510) = byte data offset /\
                                byte data (512 * k + 511) = byte data (offset + 1).
Definition record_of (data : list N) (offset : N) : list N :=
  map (fun i => if 510 <=? i mod 512 then byte data (offset + 2 + 2 * (i / 512) + (i mod 512 - 510)) else byte data i)
    (seqN 0 (length data)).

(** ** MFT entries *)
Definition entry_ok (data : list N) : Prop :=
  has data 0 [0x46; 0x49; 0x4c; 0x45] = true /\ field data 28 4 = len data /\ 42 <= field data 4 2 /\
  field data 4 2 + 2 * field data 6 2 <= field data 20 2 /\ 48 <= field data 20 2 /\
  field data 20 2 <= len data /\ record_ok data (field data 4 2) (field data 6 2).
(** The entry with its attributes, which start at the offset that the entry says. *)
Definition entry_record (data : list N) : list N := record_of data (field data 4 2).
Definition entry_value (data : list N) : mft_entry :=
  {| me_data := entry_record data; me_sequence := field data 16 2; me_base := field data 32 8;
     me_journal := field data 8 8; me_attributes_offset := field data 20 2; me_is_empty := false;
     me_is_bad := false; me_is_allocated := true |}.

(** ** Attributes *)
Definition resident (a : mft_attribute) : Prop := flag (ma_non_resident a) 0 = false.
(** The name of an attribute, in the bytes of the attribute after its header, and where it
    ends. *)
Definition name_end (data : list N) (first : N) : N :=
  if byte data 9 =? 0 then first else field data 10 2 + 2 * byte data 9.
Definition name_ok (data : list N) (first : N) : bool :=
  (byte data 9 =? 0) || ((first <=? field data 10 2) && (name_end data first <=? len data)).
Definition name_of (data : list N) : option (list N) :=
  if byte data 9 =? 0 then None else Some (text16 data (field data 10 2) (2 * byte data 9)).
(** Compression methods other than none and LZNT1 are not known. *)
Definition method_ok (data : list N) : bool := field data 12 2 mod 256 <=? 1.
(** An attribute whose content is in the entry, after its name. *)
Definition resident_ok (data : list N) : bool :=
  (24 <=? len data) && method_ok data && name_ok data 24 &&
  ((field data 16 4 =? 0) ||
   ((name_end data 24 <=? field data 20 2) && (field data 20 2 + field data 16 4 <=? len data))).
Definition resident_of (data : list N) : mft_attribute :=
  {| ma_type := field data 0 4; ma_size := field data 4 4; ma_name := name_of data; ma_allocated := 0;
     ma_data_size := field data 16 4; ma_valid := 0; ma_unit := 0; ma_compressed := 0;
     ma_resident_data := bytes_at data (field data 20 2) (field data 16 4); ma_groups := [];
     ma_non_resident := byte data 8; ma_flags := field data 12 2 |}.
(** An attribute whose content is in clusters. *)
Definition runs_first (data : list N) : N := if field data 34 2 =? 0 then 64 else 72.
Definition non_resident_ok (data : list N) : bool :=
  (runs_first data <=? len data) && method_ok data && (field data 34 2 <? 32) && name_ok data (runs_first data) &&
  (name_end data (runs_first data) <=? field data 32 2) && (field data 32 2 <? len data).
Definition non_resident_of (data : list N) (runs : list data_run) : mft_attribute :=
  let compressed := negb (field data 34 2 =? 0) in
  {| ma_type := field data 0 4; ma_size := field data 4 4; ma_name := name_of data;
     ma_allocated := field data 40 8; ma_data_size := field data 48 8; ma_valid := field data 56 8;
     ma_unit := (if compressed then 2 ^ field data 34 2 else 0);
     ma_compressed := (if compressed then field data 64 8 else 0);
     ma_resident_data := [];
     ma_groups := [{| first_vcn := field data 16 8; last_vcn := field data 24 8; data_runs := runs |}];
     ma_non_resident := byte data 8; ma_flags := field data 12 2 |}.
(** The attribute that [data] starts with. *)
Inductive attribute_in (data : list N) : mft_attribute -> Prop :=
| attribute_resident : flag (byte data 8) 0 = false -> resident_ok data = true -> attribute_in data (resident_of data)
| attribute_non_resident runs bytes : flag (byte data 8) 0 = true -> non_resident_ok data = true ->
    encoded 0 runs bytes -> bytes_at data (field data 32 2) (len bytes + 1) = bytes ++ [0] ->
    attribute_in data (non_resident_of data (map as_data_run runs)).
(** The attributes of a record from an offset on, each at the end of the one before, up to
    an end marker. *)
Inductive attributes_from (record : list N) : N -> list mft_attribute -> Prop :=
| attributes_end o : o + 4 <= len record -> field record o 4 = 0xffffffff -> attributes_from record o []
| attributes_more o a l : o + 4 <= len record -> field record o 4 <> 0xffffffff ->
    attribute_in (skipn (N.to_nat o) record) a -> attributes_from record (o + ma_size a) l ->
    attributes_from record o (a :: l).

(** ** The attributes of a file

    They come from one or more entries. Several can be pieces of one: they have the same name
    and type, and each has a part of the runs. Names of the file (type 0x30) are apart. *)
Definition equal_names (a b : option (list N)) : bool :=
  match a, b with
  | None, None => true
  | Some a, Some b => if list_eq_dec N.eq_dec a b then true else false
  | _, _ => false
  end.
Definition pieces (name : option (list N)) (type : N) (l : list mft_attribute) : list mft_attribute :=
  filter (fun a => equal_names name (ma_name a) && (ma_type a =? type)) l.
Definition starts (a : mft_attribute) : Prop := exists g, ma_groups a = [g] /\ first_vcn g = 0.
Definition sizes (a : mft_attribute) : N * N * N * N * N :=
  (ma_allocated a, ma_data_size a, ma_valid a, ma_unit a, ma_compressed a).
(** [a] is what the pieces [ps] are together: all the runs in the order of their first cluster;
    the piece with the first cluster has the sizes. *)
Definition assembled (ps : list mft_attribute) (a : mft_attribute) : Prop :=
  match ps with
  | [] => False
  | [p] => a = p
  | p :: _ =>
      ma_type a = ma_type p /\ ma_name a = ma_name p /\ ma_non_resident a = ma_non_resident p /\
      ma_flags a = ma_flags p /\ ma_resident_data a = ma_resident_data p /\
      Permutation (ma_groups a) (flat_map ma_groups ps) /\
      StronglySorted (fun g h => first_vcn g <= first_vcn h) (ma_groups a) /\
      forall q, In q ps -> starts q -> sizes a = sizes q
  end.

(** A reparse point: its kind and, for a symbolic link, two texts. *)
Definition link_name_ok (data : list N) (o n : N) : bool :=
  (12 + o <? len data) && (12 + o + n <=? len data) && N.even n.
Definition reparse_ok (content : list N) : bool :=
  let data := skipn 8 content in
  (8 <=? len content) &&
  (if field content 0 4 =? 0x80000017 then len data =? 16
   else if field content 0 4 =? 0xa000000c then
     (12 <=? len data) && link_name_ok data (field data 0 2) (field data 2 2) &&
     link_name_ok data (field data 4 2) (field data 6 2)
   else true).
Definition reparse_value (content : list N) : reparse_point :=
  let data := skipn 8 content in
  let tag := field content 0 4 in
  if tag =? 0x80000017 then Overlay (field data 12 4)
  else if tag =? 0xa0000003 then Junction
  else if tag =? 0xa000000c then
    SymbolicLink (text16 data (12 + field data 0 2) (field data 2 2)) (text16 data (12 + field data 4 2) (field data 6 2))
  else Undefined tag.

(** Two attributes, one before the other: they are apart, or pieces of one. *)
Definition compatible (a b : mft_attribute) : Prop :=
  ma_type a <> 0x30 -> ma_name a = ma_name b -> ma_type a = ma_type b ->
  flag (ma_non_resident a) 0 = true /\ flag (ma_non_resident b) 0 = true /\ ~ (starts a /\ starts b).
(** What a sound file has: compatible attributes; the one with the times, the attribute list
    and the reparse point have no name and can be read. *)
Definition sound (l : list mft_attribute) : Prop :=
  ForallOrdPairs compatible l /\
  Forall (fun a =>
    (ma_type a = 0x10 -> ma_name a = None /\ resident a /\ 48 <= len (ma_resident_data a)) /\
    (ma_type a = 0x20 -> ma_name a = None) /\
    (ma_type a = 0xc0 -> ma_name a = None /\ resident a /\ reparse_ok (ma_resident_data a) = true)) l.
Definition content_of_type (type : N) (l : list mft_attribute) : option (list N) :=
  option_map ma_resident_data (find (fun a => ma_type a =? type) l).
(** The names, each once, in the order in which they come first. *)
Fixpoint distinct (seen names : list (option (list N))) : list (option (list N)) :=
  match names with
  | [] => []
  | n :: names => if existsb (equal_names n) seen then distinct seen names else n :: distinct (n :: seen) names
  end.
Definition data_names (l : list mft_attribute) : list (option (list N)) :=
  distinct [] (map ma_name (filter (fun a => ma_type a =? 0x80) l)).

(** What a collection of attributes shows of the attributes [l] of a file: each attribute by
    its name and type; whether there is one with a name; the data forks; the reparse point; the
    times and flags; and all of them, in order, when none is a piece of another. *)
Record shows (l : list mft_attribute) (s : mft_attributes) : Prop := {
  shows_attribute : forall name type, type <> 0x30 ->
    match get_attribute s name type with
    | None => pieces name type l = []
    | Some a => assembled (pieces name type l) a
    end;
  shows_name : forall name, has_group s name = existsb (fun a => equal_names name (ma_name a)) l;
  shows_forks : length (as_data s) = length (data_names l) /\
    forall i, data_fork_name s i = of_option (nth_error (data_names l) i);
  shows_reparse : as_reparse s = option_map reparse_value (content_of_type 0xc0 l);
  shows_times : as_standard s = option_map standard_information_of (content_of_type 0x10 l);
  shows_all :
    ForallOrdPairs (fun a b => ma_type a = 0x30 \/ ma_name a <> ma_name b \/ ma_type a <> ma_type b) l ->
    as_attributes s = l;
  shows_sizes : Forall (fun a => resident a -> ma_data_size a = len (ma_resident_data a)) l }.

(** ** Data *)
(** Every history of reads and seeks of a stream answers as a file with that content. *)
Definition stream_answers (volume : list N) (d : data_stream) (ops : list stream_op) : option (list stream_out) :=
  match d with
  | FakeStream data n => Some (snd (Streams_model.run (fake_step data n) (tt, 0) ops))
  | BlockStream s => Some (snd (Streams_model.run (ntfs_block_stream_step volume s) (tt, 0) ops))
  | CompressedStream s => Some (snd (Streams_model.run (nc_stream_step volume s) nc_start ops))
  | WofStream _ _ _ => None
  end.
Definition reads_as (volume : list N) (d : data_stream) (size : N) (content : list N) : Prop :=
  forall ops, seeks_ok size content 0 ops ->
  stream_answers volume d ops = Some (snd (Streams_model.run (file_step size content) 0 ops)).
(** The runs lie in the volume. *)
Definition runs_inside (volume : list N) (cluster_size : N) (runs : list run) : Prop :=
  Forall (fun r => 0 < run_count r /\
    match r with
    | Allocated count cluster => (cluster + count) * cluster_size <= len volume
    | Hole _ => True
    end) runs.

(** ** Volumes

    The MFT is a file of entries of [entry_size] bytes, in the clusters of [runs]. *)
Definition all_allocated (runs : list run) : Prop :=
  Forall (fun r => match r with Allocated _ _ => True | Hole _ => False end) runs.
Section volume.
  Context (volume : list N) (cluster_size entry_size : N) (runs : list run).
  Definition mft_bytes (n : N) : list N :=
    bytes_at (flat_map (run_content volume cluster_size) runs) (n * entry_size) entry_size.
  (** Entry [n] is sound and has the attributes [l]. *)
  Definition entry_has (n : N) (l : list mft_attribute) : Prop :=
    (n + 1) * entry_size <= clusters runs * cluster_size /\
    entry_ok (mft_bytes n) /\ attributes_from (entry_record (mft_bytes n)) (field (mft_bytes n) 20 2) l.
  (** The file with its first entry [n] has the attributes [l]: those of the entry and, when
      it has an attribute list, those of the other entries that the list mentions, in
      ascending order. *)
  Inductive file (n : N) : list mft_attribute -> Prop :=
  | file_one l : entry_has n l -> sound l -> Forall (fun a => ma_type a <> 0x20) l -> file n l
  | file_more l a entries numbers others :
      entry_has n l -> pieces None 0x20 l = [a] -> resident a -> ma_flags a mod 256 = 0 ->
      attribute_list (ma_resident_data a) entries ->
      StronglySorted N.lt numbers ->
      (forall k, In k numbers <-> k <> n /\ exists e, In e entries /\ k = al_file_reference e mod 2 ^ 48) ->
      Forall2 entry_has numbers others -> sound (l ++ concat others) ->
      file n (l ++ concat others).

  (** ** Directories

      An index of file names: values in nodes, the first in the attribute [$INDEX_ROOT], the
      others in blocks of [block_size] bytes of the clusters [irs] of [$INDEX_ALLOCATION]. *)
  Context (block_size : N) (irs : list run).
  (** The block at cluster [vcn] of the index, which has to be in one run. *)
  Definition index_block (vcn : N) (block : list N) : Prop :=
    exists before r after, irs = before ++ r :: after /\ clusters before <= vcn /\
      vcn * cluster_size + block_size <= (clusters before + run_count r) * cluster_size /\
      let data := bytes_at (flat_map (run_content volume cluster_size) irs) (vcn * cluster_size) block_size in
      has data 0 [0x49; 0x4e; 0x44; 0x58] = true /\ 32 <= field data 4 2 /\
      record_ok data (field data 4 2) (field data 6 2) /\ block = record_of data (field data 4 2).
  (** A value at an offset of a node that ends at [e]: its size, that of its key and its
      flags: bit 0, there is a sub node; bit 1, it is the last. *)
  Definition value_ok (data : list N) (o e : N) : Prop :=
    o + 16 <= e /\ o + 16 <= len data /\ 16 + field data (o + 10) 2 <= field data (o + 8) 2 /\
    o + field data (o + 8) 2 <= len data /\ o + 16 + field data (o + 10) 2 <= e.
  Definition has_sub (data : list N) (o : N) : bool := flag (field data (o + 12) 4) 0.
  Definition last_value (data : list N) (o : N) : bool := flag (field data (o + 12) 4) 1.
  (** Its key: the name of a file. *)
  Definition key_bytes (data : list N) (o : N) : list N := bytes_at data (o + 16) (field data (o + 10) 2).
  (** The items of an index, in order: the reference to a file and its name. [sub_items]: those
      of the sub node of a value; [values_items]: those of the values from an offset on;
      [node_items]: those of a node. *)
  Inductive sub_items : list N -> N -> list (N * file_name) -> Prop :=
  | sub_none data o : has_sub data o = false -> sub_items data o []
  | sub_node data o block items : has_sub data o = true ->
      24 + field data (o + 10) 2 <= field data (o + 8) 2 ->
      index_block (field data (o + field data (o + 8) 2 - 8) 8) block ->
      node_items block 24 items -> sub_items data o items
  with values_items : list N -> N -> N -> list (N * file_name) -> Prop :=
  | values_last data e o items : o < e -> value_ok data o e -> last_value data o = true ->
      sub_items data o items -> values_items data e o items
  | values_more data e o below next items : o < e -> value_ok data o e -> last_value data o = false ->
      sub_items data o below -> 0 < field data (o + 10) 2 ->
      file_name_ok (key_bytes data o) = true ->
      next mod 8 = 0 -> o + field data (o + 8) 2 <= next < o + field data (o + 8) 2 + 8 ->
      values_items data e next items ->
      values_items data e o (below ++ (field data o 8, file_name_of (key_bytes data o)) :: items)
  with node_items : list N -> N -> list (N * file_name) -> Prop :=
  | node_values data o items :
      o + 16 <= len data -> 16 <= field data o 4 -> field data o 4 < field data (o + 4) 4 ->
      field data (o + 4) 4 <= len data ->
      values_items data (o + field data (o + 4) 4) (o + field data o 4) items -> node_items data o items.
End volume.

(** The names of an index are in ascending order, after folding. *)
Definition ordered (fold : list N -> list N) (items : list (N * file_name)) : Prop :=
  StronglySorted (fun a b => lex_lt (fold (fn_name (snd a))) (fold (fn_name (snd b)))) items.
(** What is listed: not the directory itself, nor the short names. *)
Definition is_dot (f : file_name) : bool := (fn_name_size f =? 1) && equal_names (Some (fn_name f)) (Some [0x2e]).
Definition listed (items : list (N * file_name)) : list (N * file_name) :=
  filter (fun i => negb (is_dot (snd i)) && negb (fn_name_space (snd i) =? 2)) items.
Definition found (fold : list N -> list N) (name : list N) (items : list (N * file_name)) : option (N * file_name) :=
  find (fun i => equal_names (Some (fold (fn_name (snd i)))) (Some (fold name))) items.
