(** * Model of the file systems that show partitions and image layers as files

    keramics-vfs/src/{apm,gpt,mbr,qcow,vhd,vhdx,ewf,sparseimage,udif}/file_system.rs and
    file_entry.rs, and the finder and the iterator of keramics-vfs/src/finder and iterators.

    Strings are lists of characters, as in [Paths_model]. What a partition or a layer holds
    is left open: the type [A], and the function of the volume system or of the image that
    retrieves it by its index. The locks and reference counts around it are not modelled. *)
From Verif Require Import Base Formatters_model Paths_model.

(** ** Numbers in names *)
(** [str::parse::<usize>], of the standard library and with 64 bits: an optional plus sign
    and at least one digit; a number that does not fit is an error like any other. *)
Fixpoint parse_digits (s : list N) (value : N) : option N :=
  match s with
  | [] => Some value
  | c :: s =>
    if (0x30 <=? c) && (c <=? 0x39) then
      let value := value * 10 + (c - 0x30) in
      if value <? two64 then parse_digits s value else None
    else None
  end.
Definition parse_usize (s : list N) : option N :=
  let digits := match s with c :: rest => if c =? 0x2b then rest else s | [] => [] end in
  match digits with [] => None | _ => parse_digits digits 0 end.

(** [str::starts_with] of a string *)
Fixpoint str_starts_with (s prefix : list N) {struct prefix} : bool :=
  match prefix with
  | [] => true
  | p :: prefix => match s with [] => false | c :: s => (c =? p) && str_starts_with s prefix end
  end.

(** [String] equality *)
Fixpoint str_eqb (a b : list N) : bool :=
  match a, b with
  | [], [] => true
  | x :: a, y :: b => (x =? y) && str_eqb a b
  | _, _ => false
  end.

(** ** The kinds of file systems *)
Inductive volume_kind := Apm | Gpt | Mbr | Qcow | Vhd | Vhdx.
(** apm, gpt and mbr/file_system.rs 114, qcow/file_system.rs 112, vhd and
    vhdx/file_system.rs 115: the text of [starts_with] *)
Definition index_prefix (kind : volume_kind) : list N :=
  match kind with
  | Apm => [0x61; 0x70; 0x6d]
  | Gpt => [0x67; 0x70; 0x74]
  | Mbr => [0x6d; 0x62; 0x72]
  | Qcow => [0x71; 0x63; 0x6f; 0x77]
  | Vhd => [0x76; 0x68; 0x64]
  | Vhdx => [0x76; 0x68; 0x64; 0x78]
  end.
(** apm, gpt and mbr/file_system.rs 117, qcow/file_system.rs 115, vhd and
    vhdx/file_system.rs 118: the start of the slice that is parsed *)
Definition index_start (kind : volume_kind) : N :=
  match kind with
  | Apm => 3 | Gpt => 3 | Mbr => 3 | Qcow => 4 | Vhd => 3 | Vhdx => 4
  end.
(** apm, mbr, qcow, vhd and vhdx/file_entry.rs 59 and gpt/file_entry.rs 71: the text in
    front of the number in [format!] *)
Definition name_prefix (kind : volume_kind) : list N :=
  match kind with
  | Apm => [0x61; 0x70; 0x6d]
  | Gpt => [0x67; 0x70; 0x74]
  | Mbr => [0x6d; 0x62; 0x72]
  | Qcow => [0x71; 0x63; 0x6f; 0x77]
  | Vhd => [0x76; 0x68; 0x64]
  | Vhdx => [0x76; 0x68; 0x64; 0x78]
  end.

(** path.rs 28-34: a path of components, or one of another kind of file system *)
Inductive vfs_path := VfsPathString (components : list (list N)) | VfsPathOther.

Section Volumes.
Context {A : Type}.

(** The volume system or image: its number of partitions or layers and the retrieval of one
    by its index (apm/volume_system.rs 50-90, qcow/image.rs 43-51 and their like). *)
Record volume_system := { vs_number : N; vs_get : N -> res A }.
(** apm/file_system.rs 26-32 [ApmFileSystem] and its like *)
Record volume_file_system := { vfs_kind : volume_kind; vfs_system : volume_system; vfs_number : N }.
(** apm/file_entry.rs 22-37 [ApmFileEntry] and its like *)
Inductive volume_entry := VPart (index : N) (part : A) | VRoot (system : volume_system).

(** apm/file_system.rs 38-43 [new] *)
Definition volume_new (kind : volume_kind) : volume_file_system :=
  {| vfs_kind := kind; vfs_system := {| vs_number := 0; vs_get := fun _ => Err |}; vfs_number := 0 |}.
(** apm/file_system.rs 137-173, qcow/file_system.rs 135-168 [open]: [opened] is what opening
    the volume system or image gave. *)
Definition volume_open (fs : volume_file_system) (opened : res volume_system) : res volume_file_system :=
  system <- opened ;;
  Ok {| vfs_kind := vfs_kind fs; vfs_system := system; vfs_number := vs_number system |}.

(** apm/file_system.rs 113-127 [get_partition_index], qcow/file_system.rs 111-125
    [get_layer_index] *)
Definition volume_index (fs : volume_file_system) (file_name : list N) : res (option N) :=
  if str_starts_with file_name (index_prefix (vfs_kind fs)) then
    text <- str_from file_name (index_start (vfs_kind fs)) ;;
    Ok match parse_usize text with
       | Some n => if (0 <? n) && (n <=? vfs_number fs) then Some (n - 1) else None
       | None => None
       end
  else Ok None.

(** apm/file_system.rs 46-67 [file_entry_exists] *)
Definition volume_exists (fs : volume_file_system) (path : vfs_path) : res bool :=
  match path with
  | VfsPathString components =>
    match components with
    | [[]] => Ok true
    | [[]; name] =>
      i <- volume_index fs name ;;
      Ok match i with Some _ => true | None => false end
    | _ => Ok false
    end
  | VfsPathOther => Err
  end.
(** apm/file_system.rs 70-110 [get_file_entry_by_path] *)
Definition volume_by_path (fs : volume_file_system) (path : vfs_path) : res (option volume_entry) :=
  match path with
  | VfsPathString components =>
    match components with
    | [[]] => Ok (Some (VRoot (vfs_system fs)))
    | [[]; name] =>
      i <- volume_index fs name ;;
      match i with
      | Some index => part <- vs_get (vfs_system fs) index ;; Ok (Some (VPart index part))
      | None => Ok None
      end
    | _ => Ok None
    end
  | VfsPathOther => Err
  end.
(** apm/file_system.rs 130-134 [get_root_file_entry] *)
Definition volume_root (fs : volume_file_system) : volume_entry := VRoot (vfs_system fs).

(** apm/file_entry.rs 57-62, gpt/file_entry.rs 69-74 [get_name]. The kind is that of the
    entry's type. *)
Definition volume_name (kind : volume_kind) (entry : volume_entry) : res (option (list N)) :=
  match entry with
  | VPart index _ => n <- add_chk two64 index 1 ;; Ok (Some (name_prefix kind ++ number_text n))
  | VRoot _ => Ok None
  end.
(** apm/file_entry.rs 65-70, gpt/file_entry.rs 77-82 [get_number_of_sub_file_entries] *)
Definition volume_number_of_subs (entry : volume_entry) : res N :=
  match entry with
  | VPart _ _ => Ok 0
  | VRoot system => Ok (vs_number system)
  end.
(** apm/file_entry.rs 73-97, gpt/file_entry.rs 85-110 [get_sub_file_entry_by_index] *)
Definition volume_sub (entry : volume_entry) (index : N) : res volume_entry :=
  match entry with
  | VPart _ _ => Err
  | VRoot system => part <- vs_get system index ;; Ok (VPart index part)
  end.

(** ** Images of one layer *)
(** ewf/file_entry.rs 22-34 [EwfFileEntry] and its like *)
Inductive image_entry := ILayer (image : A) | IRoot (image : A).
End Volumes.
Arguments volume_system : clear implicits.
Arguments volume_file_system : clear implicits.
Arguments volume_entry : clear implicits.
Arguments image_entry : clear implicits.

Inductive image_kind := Ewf | SparseImage | Udif.
(** ewf, sparseimage and udif/file_entry.rs 56: the name of the layer *)
Definition image_layer_name (kind : image_kind) : list N :=
  match kind with
  | Ewf => [0x65; 0x77; 0x66; 0x31]
  | SparseImage => [0x73; 0x70; 0x61; 0x72; 0x73; 0x65; 0x69; 0x6d; 0x61; 0x67; 0x65; 0x31]
  | Udif => [0x75; 0x64; 0x69; 0x66; 0x31]
  end.
(** ewf/file_system.rs 62 and 92, sparseimage/file_system.rs 60 and 91, udif/file_system.rs 60
    and 90: the name that a path is compared with *)
Definition image_path_name (kind : image_kind) : list N :=
  match kind with
  | Ewf => [0x65; 0x77; 0x66; 0x31]
  | SparseImage => [0x73; 0x70; 0x61; 0x72; 0x73; 0x65; 0x69; 0x6d; 0x61; 0x67; 0x65; 0x31]
  | Udif => [0x75; 0x64; 0x69; 0x66; 0x31]
  end.
Section Images.
Context {A : Type}.
(** ewf/file_system.rs 48-70 [file_entry_exists] *)
Definition image_exists (kind : image_kind) (image : A) (path : vfs_path) : res bool :=
  match path with
  | VfsPathString components =>
    match components with
    | [[]] => Ok true
    | [[]; name] => if str_eqb name (image_path_name kind) then Ok true else Ok false
    | _ => Ok false
    end
  | VfsPathOther => Err
  end.
(** ewf/file_system.rs 73-103 [get_file_entry_by_path] *)
Definition image_by_path (kind : image_kind) (image : A) (path : vfs_path) : res (option (image_entry A)) :=
  match path with
  | VfsPathString components =>
    match components with
    | [[]] => Ok (Some (IRoot image))
    | [[]; name] => if str_eqb name (image_path_name kind) then Ok (Some (ILayer image)) else Ok None
    | _ => Ok None
    end
  | VfsPathOther => Err
  end.
(** ewf/file_entry.rs 54-59 [get_name] *)
Definition image_name (kind : image_kind) (entry : image_entry A) : option (list N) :=
  match entry with ILayer _ => Some (image_layer_name kind) | IRoot _ => None end.
(** ewf/file_entry.rs 62-67 [get_number_of_sub_file_entries] *)
Definition image_number_of_subs (entry : image_entry A) : res N :=
  match entry with ILayer _ => Ok 0 | IRoot _ => Ok 1 end.
(** ewf/file_entry.rs 70-90 [get_sub_file_entry_by_index] *)
Definition image_sub (entry : image_entry A) (index : N) : res (image_entry A) :=
  match entry with
  | ILayer _ => Err
  | IRoot image => if negb (index =? 0) then Err else Ok (ILayer image)
  end.
End Images.
