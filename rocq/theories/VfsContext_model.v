(** * Model of VFS locations and of the context that keeps opened file systems

    keramics-vfs/src/location.rs, enums.rs and context.rs. *)
From Coq Require Import String Ascii.
From Verif Require Import Base.
Open Scope N_scope.
Open Scope list_scope.

(** enums.rs 28-44 [VfsType] *)
Inductive vfs_type := TApm | TExt | TEwf | TFake | TFat | TGpt | TMbr | TNtfs | TOs | TQcow | TSparseImage | TUdif | TVhd | TVhdx.

(** path.rs 28-34 [VfsPath]: which of its five variants, and the text of the path. Two paths
    of a variant are taken to be equal when their texts are. *)
Definition vpath := (N * list N)%type.

(** location.rs 21-31 [VfsLocation] *)
Inductive location :=
| LBase (path : vpath) (type : vfs_type)
| LLayer (path : vpath) (parent : location) (type : vfs_type).

(** The derived [PartialEq] *)
Definition vfs_type_eq_dec (a b : vfs_type) : {a = b} + {a <> b}.
Proof. decide equality. Defined.
Definition vpath_eq_dec (a b : vpath) : {a = b} + {a <> b}.
Proof. decide equality; [apply list_eq_dec, N.eq_dec|apply N.eq_dec]. Defined.
Definition location_eq_dec (a b : location) : {a = b} + {a <> b}.
Proof. decide equality; first [apply vfs_type_eq_dec|apply vpath_eq_dec]. Defined.

(** location.rs 74-79 [get_parent], 90-95 [get_type], 82-87 [get_path] *)
Definition location_parent (l : location) : option location :=
  match l with LBase _ _ => None | LLayer _ parent _ => Some parent end.
Definition location_type (l : location) : vfs_type :=
  match l with LBase _ t => t | LLayer _ _ t => t end.
Definition location_path (l : location) : vpath :=
  match l with LBase p _ => p | LLayer p _ _ => p end.

(** enums.rs 46-66 [as_str] *)
Definition chars (s : string) : list N := List.map N_of_ascii (list_ascii_of_string s).
Definition type_text (t : vfs_type) : list N :=
  chars match t with
        | TApm => "APM" | TExt => "EXT" | TEwf => "EWF" | TFake => "FAKE" | TFat => "FAT" | TGpt => "GPT"
        | TMbr => "MBR" | TNtfs => "NTFS" | TOs => "OS" | TQcow => "QCOW" | TSparseImage => "SPARSEIMAGE"
        | TUdif => "UDIF" | TVhd => "VHD" | TVhdx => "VHDX"
        end%string.
(** location.rs 98-116 [to_string] *)
Fixpoint location_text (l : location) : list N :=
  match l with
  | LBase path type => chars "type: " ++ type_text type ++ chars ": path: " ++ snd path ++ [10]
  | LLayer path parent type =>
    type_text type ++ [10] ++ chars "type: " ++ location_text parent ++ chars ": path: " ++ snd path ++ [10]
  end.

(** location.rs 120-125 [new_os_vfs_location] of "/"; the variant of OS paths is 3. *)
Definition os_root : location := LBase (3, chars "/") TOs.

Section Context.
Context {FS : Type}.
(** file_system.rs 740-930: [VfsFileSystem::new] and [open] with the parent file system and the
    location to open *)
Variable fs_open : vfs_type -> option FS -> location -> res FS.

(** context.rs 27-33 [file_systems]: the pairs that can still be upgraded, the last inserted
    first *)
Definition cache := list (location * FS).
Fixpoint cache_get (c : cache) (key : location) : option FS :=
  match c with
  | [] => None
  | (k, fs) :: c => if location_eq_dec k key then Some fs else cache_get c key
  end.

(** context.rs 77-139 [open_file_system] *)
Definition lookup_key (l : location) : location :=
  match location_parent l with Some parent => parent | None => os_root end.
Fixpoint context_open (c : cache) (l : location) : res FS * cache :=
  match location_type l with
  | TFake => (Err, c)
  | _ =>
    match cache_get c (lookup_key l) with
    | Some fs => (Ok fs, c)
    | None =>
      let opened (parent_fs : option FS) (c : cache) :=
        match fs_open (location_type l) parent_fs (lookup_key l) with
        | Ok fs => (Ok fs, (lookup_key l, fs) :: c)
        | Err => (Err, c)
        | Panic => (Panic, c)
        end in
      match l with
      | LBase _ _ => opened None c
      | LLayer _ parent _ =>
        match context_open c parent with
        | (Ok fs, c) => opened (Some fs) c
        | (Err, c) => (Err, c)
        | (Panic, c) => (Panic, c)
        end
      end
    end
  end.

(** A history: before each call the file systems that nobody uses any more are gone, those
    for which [kept] is false. *)
Fixpoint context_run (c : cache) (history : list ((location -> bool) * location)) : list (res FS) :=
  match history with
  | [] => []
  | (kept, l) :: history =>
    let '(answer, c) := context_open (filter (fun entry => kept (fst entry)) c) l in
    answer :: context_run c history
  end.
End Context.
