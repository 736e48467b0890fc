(** * Specification of opening a location *)
From Coq Require Import String.
From Verif Require Import Base VfsContext_model.
Open Scope N_scope.
Open Scope list_scope.

Section Spec.
Context {FS : Type}.
Variable fs_open : vfs_type -> option FS -> location -> res FS.
(** Opening a location for the first time: its parents from the base on, each in the one
    before it. *)
Fixpoint fresh (l : location) : res FS :=
  match l with
  | LBase _ TFake | LLayer _ _ TFake => Err
  | LBase _ type => fs_open type None os_root
  | LLayer _ parent type => fs <- fresh parent ;; fs_open type (Some fs) parent
  end.
End Spec.

(** The locations of a history agree on what is at a place: no two of them, and of their
    parents, have the same parent and different types, all bases are of one type, and
    nothing is opened in the root directory of the operating system as if it were a file. *)
Fixpoint agrees (type_of : option location -> vfs_type) (l : location) : Prop :=
  location_type l = type_of (location_parent l) /\
  match l with
  | LBase _ _ => True
  | LLayer _ parent _ => parent <> os_root /\ agrees type_of parent
  end.

(** The text of a location: a line for each layer, the base first. *)
Fixpoint location_lines (l : location) : list N :=
  match l with
  | LBase path type => chars "type: " ++ type_text type ++ chars ": path: " ++ snd path ++ [10]
  | LLayer path parent type =>
    location_lines parent ++ chars "type: " ++ type_text type ++ chars ": path: " ++ snd path ++ [10]
  end.
