(** * Model of the fake file system

    keramics-vfs/src/fake/file_system.rs and file_entry.rs. *)
From Verif Require Import Base Paths_model.
Open Scope N_scope.
Open Scope list_scope.

(** file_entry.rs 22-41 and 57-70 [FakeFileEntry], of [new_file]: the data and the position of its
    one data stream, which all who open it share. The times are not set. *)
Record fake_entry := mk_entry { fe_data : list N; fe_position : N }.
(** file_system.rs 24-35 [FakeFileSystem]: the [HashMap] from paths to entries, as a list with at
    most one pair for each path, and the entries that were made, in their order *)
Record fake_fs := mk_fs { fs_paths : list (list N * nat); fs_entries : list fake_entry }.
Definition fake_new : fake_fs := mk_fs [] [].
Fixpoint path_get (path : list N) (paths : list (list N * nat)) : option nat :=
  match paths with
  | [] => None
  | (p, id) :: paths => if list_eq_dec N.eq_dec p path then Some id else path_get path paths
  end.
Definition path_insert (path : list N) (id : nat) (paths : list (list N * nat)) : list (list N * nat) :=
  (path, id) :: filter (fun p => if list_eq_dec N.eq_dec (fst p) path then false else true) paths.
(** file_system.rs 38-52 [add_file_entry] with [new_file]: [HashMap::insert] replaces a value that
    is there, and returns it *)
Definition add_file_entry (path data : list N) (fs : fake_fs) : res unit * fake_fs :=
  let fs' := mk_fs (path_insert path (length (fs_entries fs)) (fs_paths fs)) (fs_entries fs ++ [mk_entry data 0]) in
  match path_get path (fs_paths fs) with
  | Some _ => (Err, fs')
  | None => (Ok tt, fs')
  end.
(** file_system.rs 55-60 [file_entry_exists], of the components of a path *)
Definition fake_exists (components : list (list N)) (fs : fake_fs) : bool :=
  match path_get (string_path_to_string components) (fs_paths fs) with Some _ => true | None => false end.
(** file_system.rs 63-75 [get_file_entry_by_path] *)
Definition fake_get (components : list (list N)) (fs : fake_fs) : option nat :=
  path_get (string_path_to_string components) (fs_paths fs).
(** file_entry.rs 88-98 [get_data_stream], then a read of it; fake_data_stream.rs for a size that is
    the one of the data (C21) *)
Definition fake_read (id : nat) (count : N) (fs : fake_fs) : res (list N) * fake_fs :=
  match nth_error (fs_entries fs) id with
  | None => (Err, fs)
  | Some e =>
    let bytes := firstn (N.to_nat count) (skipn (N.to_nat (fe_position e)) (fe_data e)) in
    (Ok bytes, mk_fs (fs_paths fs) (firstn id (fs_entries fs) ++ [mk_entry (fe_data e) (fe_position e + len bytes)] ++ skipn (S id) (fs_entries fs)))
  end.
