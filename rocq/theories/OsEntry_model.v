(** * Model of the operating system file system of the VFS (Unix) *)
From Coq Require Import ZArith.
From Verif Require Import Base Paths_model Resolver_model.
Open Scope N_scope. Open Scope list_scope.

(** keramics-datetime/src/enums.rs [DateTime], the kinds that are used here *)
Inductive os_time := NotSet | PosixTime32 (timestamp : Z) | PosixTime64Ns (timestamp : Z) (fraction : N).

(** keramics-vfs/src/enums.rs 15-26 [VfsFileType] *)
Inductive vfs_file_type :=
| BlockDevice | CharacterDevice | Device | Directory | File | NamedPipe | Socket | SymbolicLink
| Unknown (value : N) | Whiteout.

(** What the operating system keeps of a file: [std::fs::Metadata] on Unix. A time is its
    seconds since 1970 and the nanoseconds of the second. The creation time is not there in
    every file system. *)
Record metadata := {
  md_mode : N;
  md_access : Z * N;
  md_change : Z * N;
  md_modification : Z * N;
  md_creation : option (Z * N)
}.

(** The files of the operating system by their paths. Permissions, links in the middle of a
    path and the normalization of paths are left out. *)
Inductive os_file := OsReal (md : metadata) (data : list N) | OsLink (target : list N).
Definition os_files := list N -> option os_file.

(** How the operating system follows links, at most 40 of them: [std::fs::metadata],
    [Path::try_exists] and [File::open] all do. Too many links are an error. *)
Fixpoint os_follow (links : nat) (os : os_files) (path : list N)
  : res (option (metadata * list N)) :=
  match os path with
  | None => Ok None
  | Some (OsReal md data) => Ok (Some (md, data))
  | Some (OsLink target) =>
    match links with O => Err | S links => os_follow links os target end
  end.
Definition os_lookup := os_follow 40.

(** keramics-vfs/src/os/file_entry.rs 36-54 [OsFileEntry] *)
Record os_entry := {
  oe_path : list N;
  oe_file_type : vfs_file_type;
  oe_access : option os_time;
  oe_change : option os_time;
  oe_creation : option os_time;
  oe_modification : option os_time
}.

(** [as i32] of an i64 *)
Definition as_i32 (z : Z) : Z := ((z + 2 ^ 31) mod 2 ^ 32 - 2 ^ 31)%Z.

(** os/file_entry.rs 118-127 [get_posix_datetime_value]; the fraction is below 10^9, so
    [as u32] keeps it. *)
Definition get_posix_datetime_value (timestamp : Z) (fraction : N) : os_time :=
  if negb (fraction =? 0) then PosixTime64Ns timestamp fraction
  else if negb (timestamp =? 0)%Z then PosixTime32 (as_i32 timestamp)
  else NotSet.

(** os/file_entry.rs 141-153: the file type of a mode *)
Definition mode_file_type (mode : N) : res vfs_file_type :=
  let value := N.land mode 0xf000 in
  if value =? 0x1000 then Ok NamedPipe
  else if value =? 0x2000 then Ok CharacterDevice
  else if value =? 0x4000 then Ok Directory
  else if value =? 0x6000 then Ok BlockDevice
  else if value =? 0x8000 then Ok File
  else if value =? 0xa000 then Ok SymbolicLink
  else Err.

(** os/file_entry.rs 167-181: the creation time; a time before 1970 has no
    [duration_since]. *)
Definition creation_value (creation : option (Z * N)) : res (option os_time) :=
  match creation with
  | Some (seconds, nanoseconds) =>
    check (0 <=? seconds)%Z ;;;
    Ok (Some (PosixTime64Ns seconds nanoseconds))
  | None => Ok None
  end.

(** os/file_entry.rs 129-185 [open] on a new file entry *)
Definition os_entry_open (os : os_files) (path : list N) : res os_entry :=
  found <- os_lookup os path ;;
  match found with
  | None => Err
  | Some (md, _) =>
    file_type <- mode_file_type (md_mode md) ;;
    creation <- creation_value (md_creation md) ;;
    Ok {| oe_path := path;
          oe_file_type := file_type;
          oe_access := Some (get_posix_datetime_value (fst (md_access md)) (snd (md_access md)));
          oe_change := Some (get_posix_datetime_value (fst (md_change md)) (snd (md_change md)));
          oe_creation := creation;
          oe_modification :=
            Some (get_posix_datetime_value (fst (md_modification md)) (snd (md_modification md))) |}
  end.

(** os/file_entry.rs 85-99 [get_data_stream]: the bytes of the file at the path, as the
    operating system has them when it is called *)
Definition os_entry_data_stream (os : os_files) (entry : os_entry) : res (option (list N)) :=
  match oe_file_type entry with
  | File =>
    found <- os_lookup os (oe_path entry) ;;
    match found with
    | Some (_, data) => Ok (Some data)
    | None => Err
    end
  | _ => Ok None
  end.

(** keramics-vfs/src/file_system.rs 206-219 [file_entry_exists] of [VfsFileSystem::Os] *)
Definition os_entry_exists (os : os_files) (path : vfs_path) : res bool :=
  match path with
  | VOs path_buf =>
    found <- os_lookup os path_buf ;;
    Ok (match found with Some _ => true | None => false end)
  | _ => Err
  end.

(** file_system.rs 454-486 [get_file_entry_by_path] of [VfsFileSystem::Os] *)
Definition os_entry_by_path (os : os_files) (path : vfs_path) : res (option os_entry) :=
  match path with
  | VOs path_buf =>
    found <- os_lookup os path_buf ;;
    match found with
    | None => Ok None
    | Some _ => entry <- os_entry_open os path_buf ;; Ok (Some entry)
    end
  | _ => Err
  end.
