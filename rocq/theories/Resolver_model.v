(** * Model of file resolvers and of the joining of VFS paths

    A file resolver is how an image finds the other files it consists of: segment files,
    bands, backing files and parents. Strings are lists of code points, as in
    Paths_model. *)
From Verif Require Import Base Strings_model Paths_model.

(** keramics-formats/src/path_component.rs 19-23 [PathComponent]; of a [ByteString] only
    its bytes. *)
Inductive path_component :=
| CByteString (elements : list N)
| CString (string : list N)
| CUcs2String (elements : list N).

(** [PathBuf::push] of Rust's standard library on Unix: a path that begins with a
    separator replaces the other; otherwise a separator is added unless there is one
    or the path is empty. *)
Definition is_absolute (path : list N) : bool :=
  match path with c :: _ => c =? 0x2f | [] => false end.
Definition path_buf_push (path_buf string : list N) : list N :=
  if is_absolute string then string
  else match rev path_buf with
       | [] => string
       | c :: _ => if c =? 0x2f then path_buf ++ string else path_buf ++ [0x2f] ++ string
       end.

(** keramics-formats/src/os_file_resolver.rs 41-53: the loop over the components; also
    that of keramics-vfs/src/path.rs 133-149. *)
Fixpoint os_join (path_buf : list N) (path_components : list path_component) : res (list N) :=
  match path_components with
  | [] => Ok path_buf
  | CString string :: rest => os_join (path_buf_push path_buf string) rest
  | _ :: _ => Err
  end.

(** os_file_resolver.rs 37-65 [OsFileResolver::get_data_stream]; [open_file] is
    [open_os_data_stream], os_data_stream.rs 80-84: the file at a path, if it can be opened. *)
Definition os_get_data_stream {D} (open_file : list N -> option D) (base_path : list N)
    (path_components : list path_component) : res (option D) :=
  path <- os_join base_path path_components ;;
  match open_file path with
  | Some data_stream => Ok (Some data_stream)
  | None => Err
  end.

(** keramics-formats/src/fake_file_resolver.rs 30-35 [FakeFileResolver::get_data_stream] *)
Definition fake_get_data_stream {D} (path_components : list path_component) : res (option D) :=
  Ok None.

(** keramics-formats/src/fat/string.rs [FatString] *)
Inductive fat_name := FatByteString (elements : list N) | FatUcs2String (elements : list N).

(** keramics-vfs/src/path.rs [VfsPath] *)
Inductive vfs_path :=
| VExt (components : list (list N))
| VFat (components : list fat_name)
| VNtfs (components : list (list N))
| VOs (path_buf : list N)
| VString (components : list (list N)).

(** path.rs 84-93: what becomes of a component in an ext path *)
Definition ext_component (c : path_component) : res (list N) :=
  match c with
  | CByteString elements => Ok elements
  | CString string => Ok (bytestring_from_str string)
  | CUcs2String _ => Err
  end.
(** path.rs 104-112; a FAT string of a string is a UCS-2 string *)
Definition fat_component (c : path_component) : res fat_name :=
  match c with
  | CByteString elements => Ok (FatByteString elements)
  | CUcs2String elements => Ok (FatUcs2String elements)
  | CString string => Ok (FatUcs2String (ucs2_from_str string))
  end.
(** path.rs 122-130 *)
Definition ntfs_component (c : path_component) : res (list N) :=
  match c with
  | CString string => Ok (ucs2_from_str string)
  | CUcs2String elements => Ok elements
  | CByteString _ => Err
  end.
(** path.rs 155-163 *)
Definition string_component (c : path_component) : res (list N) :=
  match c with CString string => Ok string | _ => Err end.

(** The loops of path.rs 80-96, 101-114, 119-132 and 152-165: each component is converted
    and put behind the others. *)
Fixpoint push_components {A} (convert : path_component -> res A) (components : list A)
    (path_components : list path_component) : res (list A) :=
  match path_components with
  | [] => Ok components
  | c :: rest =>
    a <- convert c ;;
    push_components convert (components ++ [a]) rest
  end.

(** path.rs 77-172 [VfsPath::new_with_join] *)
Definition vfs_new_with_join (path : vfs_path) (path_components : list path_component)
  : res vfs_path :=
  match path with
  | VExt components =>
    l <- push_components ext_component components path_components ;; Ok (VExt l)
  | VFat components =>
    l <- push_components fat_component components path_components ;; Ok (VFat l)
  | VNtfs components =>
    l <- push_components ntfs_component components path_components ;; Ok (VNtfs l)
  | VOs path_buf => p <- os_join path_buf path_components ;; Ok (VOs p)
  | VString components =>
    l <- push_components string_component components path_components ;; Ok (VString l)
  end.

(** path.rs 175-201 [new_with_parent_directory]; not for OS paths, where it is
    [PathBuf::pop]. *)
Definition vfs_parent_directory (path : vfs_path) : option vfs_path :=
  match path with
  | VExt components => Some (VExt (parent_directory components))
  | VFat components => Some (VFat (parent_directory components))
  | VNtfs components => Some (VNtfs (parent_directory components))
  | VOs _ => None
  | VString components => Some (VString (parent_directory components))
  end.

(** [Option] of a component as that of a path component *)
Definition as_component {A} (f : A -> path_component) (r : res (option A))
  : res (option path_component) :=
  o <- r ;; Ok (match o with Some a => Some (f a) | None => None end).
(** path.rs 204-240 [get_file_name]; not for OS paths, where it is [Path::file_name]. *)
Definition vfs_file_name (path : vfs_path) : option (res (option path_component)) :=
  match path with
  | VExt components => Some (as_component CByteString (file_name components))
  | VFat components =>
    Some (as_component (fun n => match n with
                                 | FatByteString l => CByteString l
                                 | FatUcs2String l => CUcs2String l
                                 end) (file_name components))
  | VNtfs components => Some (as_component CUcs2String (file_name components))
  | VOs _ => None
  | VString components => Some (as_component CString (file_name components))
  end.

(** keramics-vfs/src/file_resolver.rs 41-65 [VfsFileResolver::get_data_stream]: a file
    system as what it has at each path, and a file entry as its default data stream. *)
Definition vfs_get_data_stream {E D} (get_file_entry_by_path : vfs_path -> res (option E))
    (get_data_stream : E -> res (option D)) (base_path : vfs_path)
    (path_components : list path_component) : res (option D) :=
  path <- vfs_new_with_join base_path path_components ;;
  result <- get_file_entry_by_path path ;;
  match result with
  | Some file_entry => get_data_stream file_entry
  | None => Ok None
  end.
