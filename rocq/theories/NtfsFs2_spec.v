(** * NTFS: directories, paths and whole volumes

    The files and indexes that the bytes of a volume describe are in [NtfsFs_spec]. *)
From Coq Require Import Permutation.
From Verif Require Import Base Streams_spec Part_spec Strings_spec Part_model Headers_model Headers_spec
  Ntfs_model Ntfs_spec NtfsFs_model NtfsFs_spec.

(** ** Content in clusters

    The pieces of an attribute [name], [type] have together the runs [runs]; [q] is the piece
    with the first cluster, which has the sizes. Neither compressed nor encrypted. *)
Definition in_clusters (volume : list N) (cluster_size : N) (l : list mft_attribute) (name : option (list N))
    (type : N) (q : mft_attribute) (runs : list run) : Prop :=
  exists p groups, nth_error (pieces name type l) 0 = Some p /\ flag (ma_non_resident p) 0 = true /\
    ma_flags p mod 256 = 0 /\ In q (pieces name type l) /\ starts q /\
    Permutation groups (flat_map ma_groups (pieces name type l)) /\ NoDup (map first_vcn groups) /\
    grouped 0 runs groups /\ runs_inside volume cluster_size runs /\
    clusters runs * cluster_size <= ma_allocated q /\ ma_allocated q + cluster_size <= 2 ^ 64.

(** ** Names

    The upper case of each of the 65536 characters is in a table, two bytes each. *)
Definition folded (table name : list N) : list N :=
  map (fun c => if c <? 65536 then field table (2 * c) 2 else c) name.
(** A directory is case-sensitive if its times attribute has no maximum of versions and
    version 1. *)
Definition case_sensitive (l : list mft_attribute) : bool :=
  match content_of_type 0x10 l with
  | Some c => (field c 36 4 =? 0) && (field c 40 4 =? 1)
  | None => false
  end.
Definition compared (table : list N) (l : list mft_attribute) (name : list N) : list N :=
  if case_sensitive l then name else folded table name.

(** ** Directories

    A file with attributes named [$I30] is a directory. Its items are in an index of names
    (type 0x30, collation 1), the root of which is in [$INDEX_ROOT] (type 0x90). *)
Definition is_directory (l : list mft_attribute) : bool := existsb (fun a => equal_names i30 (ma_name a)) l.
Inductive directory (volume : list N) (cluster_size : N) (l : list mft_attribute) : list (N * file_name) -> Prop :=
| directory_index r irs items :
    pieces i30 0x90 l = [r] -> resident r ->
    let root := ma_resident_data r in
    field root 0 4 = 0x30 -> field root 4 4 = 1 -> 20 <= field root 8 4 <= 2 ^ 21 ->
    (pieces i30 0xa0 l = [] /\ irs = [] \/
     (exists q, in_clusters volume cluster_size l i30 0xa0 q irs) /\ all_allocated irs /\
     42 <= field root 8 4 <= 65535) ->
    node_items volume cluster_size (field root 8 4) irs root 16 items ->
    directory volume cluster_size l items.
(** The items can be listed: a name of one character is there, and no file has two short
    names. *)
Definition can_list (items : list (N * file_name)) : Prop :=
  Forall (fun i => fn_name_size (snd i) = 1 -> exists c, fn_name (snd i) = [c]) items /\
  NoDup (map fst (filter (fun i => negb (is_dot (snd i)) && (fn_name_space (snd i) =? 2)) items)).

(** ** What a file shows

    The file with first entry [n], as it was found: by its number, or through an item [via] of
    a directory. *)
Record file_shows (sequence n : N) (via : option (N * file_name)) (l : list mft_attribute) (f : file_entry) : Prop := {
  f_number : fe_number f = n;
  f_name : fe_name f = option_map (fun i => fn_name (snd i)) via;
  f_reference : fe_reference f = match via with Some i => fst i | None => n + 2 ^ 48 * sequence end;
  f_parent : fe_parent_reference f = option_map (fun i => fn_parent (snd i)) via;
  f_no_data : pieces None 0x80 l = [] -> fe_size f = 0;
  f_size : forall q, In q (pieces None 0x80 l) -> pieces None 0x80 l = [q] \/ starts q -> fe_size f = ma_data_size q;
  f_target : fe_link_target f =
    match option_map reparse_value (content_of_type 0xc0 l) with Some (SymbolicLink t _) => Some t | _ => None end;
  f_flags : fe_flags f = match content_of_type 0x10 l with Some c => field c 32 4 | None => 0 end;
  f_directory : fe_is_directory f = is_directory l;
  f_attributes : shows l (fe_attributes f) }.

(** ** Paths *)
Section paths.
  Context (volume : list N) (cluster_size entry_size : N) (runs : list run) (table : list N).
  (** Where the names lead from the file [n], found through [via]: to a file, or nowhere. *)
  Inductive leads (n : N) (via : option (N * file_name))
    : list (list N) -> option (N * option (N * file_name) * list mft_attribute) -> Prop :=
  | leads_here l : file volume cluster_size entry_size runs n l -> leads n via [] (Some (n, via, l))
  | leads_into l items name i names r :
      file volume cluster_size entry_size runs n l -> is_directory l = true -> directory volume cluster_size l items ->
      ordered (compared table l) items -> found (compared table l) name items = Some i ->
      leads (fst i mod 2 ^ 48) (Some i) names r -> leads n via (name :: names) r
  | leads_nowhere l items name names :
      file volume cluster_size entry_size runs n l -> is_directory l = true -> directory volume cluster_size l items ->
      ordered (compared table l) items -> found (compared table l) name items = None ->
      leads n via (name :: names) None
  | leads_file l name names :
      file volume cluster_size entry_size runs n l -> is_directory l = false -> leads n via (name :: names) None.
End paths.

(** ** Volumes

    The boot record has the sizes and the cluster of the MFT. The first entry of the MFT
    describes the MFT itself; entry 3 has the label and the version, entry 10 the upper case
    table. *)
Definition boot (volume : list N) : ntfs_boot := ntfs_boot_of (bytes_at volume 0 512).
Definition cluster_of (volume : list N) : N := nb_cluster_block_size (boot volume).
Definition entry_of_size (volume : list N) : N := nb_mft_entry_size (boot volume).
Definition single (l : list mft_attribute) : Prop := sound l /\ Forall (fun a => ma_type a <> 0x20) l.
Record volume_ok (volume : list N) (runs : list run) (table : list N) (label : option (list N))
    (information : option (N * N * N)) : Prop := {
  v_buffer : buffer volume;
  v_boot : 512 <= len volume /\ ntfs_boot_ok (bytes_at volume 0 512) = true /\
    field volume 64 4 <> 224 /\ field volume 68 4 <> 224;
  v_mft : exists l a last,
    let first := bytes_at volume (nb_mft_block (boot volume) * cluster_of volume) (entry_of_size volume) in
    nb_mft_block (boot volume) * cluster_of volume + entry_of_size volume <= len volume /\
    entry_ok first /\ attributes_from (entry_record first) (field first 20 2) l /\ single l /\
    pieces None 0x80 l = [a] /\ flag (ma_non_resident a) 0 = true /\ ma_flags a mod 256 = 0 /\
    ma_groups a = [{| first_vcn := 0; last_vcn := last; data_runs := map as_data_run runs |}] /\
    (last = 2 ^ 64 - 1 \/ last + 1 = clusters runs) /\
    all_allocated runs /\ runs_inside volume (cluster_of volume) runs /\
    Forall (fun r => run_count r * cluster_of volume mod entry_of_size volume = 0) runs /\
    clusters runs * cluster_of volume <= ma_allocated a / entry_of_size volume * entry_of_size volume /\
    ma_allocated a < 2 ^ 64 /\ ma_allocated a / entry_of_size volume < 2 ^ 32 - 1;
  v_information : exists l, entry_has volume (cluster_of volume) (entry_of_size volume) runs 3 l /\ single l /\
    (pieces None 0x60 l = [] /\ label = None \/
     exists a, pieces None 0x60 l = [a] /\ resident a /\ ma_flags a mod 256 = 0 /\ N.even (len (ma_resident_data a)) = true /\
       label = Some (text16 (ma_resident_data a) 0 (len (ma_resident_data a)))) /\
    (pieces None 0x70 l = [] /\ information = None \/
     exists a, pieces None 0x70 l = [a] /\ resident a /\ ma_flags a mod 256 = 0 /\ 12 <= len (ma_resident_data a) /\
       information = Some (volume_information_of (ma_resident_data a)));
  v_table : exists l q irs, entry_has volume (cluster_of volume) (entry_of_size volume) runs 10 l /\ single l /\
    in_clusters volume (cluster_of volume) l None 0x80 q irs /\
    ma_valid q <= clusters irs * cluster_of volume /\ ma_valid q <= ma_data_size q /\ 131072 <= ma_data_size q < 2 ^ 63 /\
    table = bytes_at (attribute_content volume (cluster_of volume) irs (ma_data_size q) (ma_valid q)) 0 131072 }.
