(** * What the scanner should find *)
From Coq Require Import String.
From Verif Require Import Base Formatters_spec VfsContext_model VfsScanner_model.
Open Scope N_scope.
Open Scope list_scope.

(** What is on a medium: nothing that is known, a file system, a volume system with its
    partitions, or an image with what its last layer shows. *)
Inductive medium :=
| Unknown
| FileSystem (t : vfs_type)
| Volumes (t : vfs_type) (partitions : list medium)
| Image (t : vfs_type) (layers : N) (content : medium).

(** The place of partition or layer [n], and the root of what is in a place *)
Definition member (l : location) (t : vfs_type) (place : location) (n : N) : Prop :=
  exists number, decimal_text n number /\
  place = LLayer (4, chars (match t with TApm => "/apm" | TEwf => "/ewf" | TGpt => "/gpt" | TMbr => "/mbr" | TQcow => "/qcow"
    | TSparseImage => "/sparseimage" | TUdif => "/udif" | TVhd => "/vhd" | TVhdx => "/vhdx" | _ => "" end) ++ number) l t.
Definition root_of (l : location) (t : vfs_type) : location :=
  LLayer (match t with TExt => (0, chars "/") | TFat => (1, chars "/") | TNtfs => (2, chars "\") | _ => (4, chars "/") end) l t.

(** The tree that tells all of it *)
Inductive tells : location -> medium -> list scan_node -> Prop :=
| tells_unknown l : tells l Unknown []
| tells_file_system l t : tells l (FileSystem t) [Node (root_of l t) []]
| tells_volumes l t parts nodes : tells_parts l t 1 parts nodes -> tells l (Volumes t parts) [Node (root_of l t) nodes]
| tells_image l t layers content place nodes : member l t place layers -> tells place content nodes -> tells l (Image t layers content) [Node (root_of l t) nodes]
with tells_parts : location -> vfs_type -> N -> list medium -> list scan_node -> Prop :=
| tells_no_part l t n : tells_parts l t n [] []
| tells_part l t n part parts place sub_nodes nodes : member l t place n -> tells place part sub_nodes -> tells_parts l t (n + 1) parts nodes ->
    tells_parts l t n (part :: parts) (Node place sub_nodes :: nodes).

(** The signatures of a medium: what the scanners for images, for volume systems in their
    three phases and for file systems find *)
Definition signatures (m : medium) (image phase1 phase2 phase3 file_system : res (list format)) : Prop :=
  match m with
  | Unknown => image = Ok [] /\ phase1 = Ok [] /\ phase2 = Ok [] /\ phase3 = Ok [] /\ file_system = Ok []
  | FileSystem TExt => image = Ok [] /\ phase1 = Ok [] /\ phase2 = Ok [] /\ phase3 = Ok [] /\ file_system = Ok [FExt]
  | FileSystem TFat => image = Ok [] /\ phase1 = Ok [] /\ phase2 = Ok [FFat] /\ file_system = Ok [FFat]
  | FileSystem TNtfs => image = Ok [] /\ phase1 = Ok [] /\ phase2 = Ok [FNtfs] /\ file_system = Ok [FNtfs]
  | Volumes TApm _ => image = Ok [] /\ phase1 = Ok [FApm] /\ file_system = Ok []
  | Volumes TGpt _ => image = Ok [] /\ phase1 = Ok [FGpt] /\ file_system = Ok []
  | Volumes TMbr _ => image = Ok [] /\ phase1 = Ok [] /\ phase2 = Ok [] /\ phase3 = Ok [FMbr] /\ file_system = Ok []
  | Image TEwf _ _ => image = Ok [FEwf]
  | Image TQcow _ _ => image = Ok [FQcow]
  | Image TSparseImage _ _ => image = Ok [FSparseImage]
  | Image TUdif _ _ => image = Ok [FUdif]
  | Image TVhd _ _ => image = Ok [FVhd]
  | Image TVhdx _ _ => image = Ok [FVhdx]
  | _ => False
  end.

Section Shows.
Context {D : Type}.
Variables image_scanner phase1_scanner phase2_scanner phase3_scanner file_system_scanner : D -> res (list format).
Variable resolve : location -> res unit.
Variable stream_at : location -> res (option D).
Variable number_at : vfs_type -> location -> res N.
(** The medium is at a location: its signatures are there, it opens with its number of
    partitions or layers, and those are in their places. *)
Inductive shows : location -> medium -> Prop :=
| shows_at l m d : stream_at l = Ok (Some d) ->
    signatures m (image_scanner d) (phase1_scanner d) (phase2_scanner d) (phase3_scanner d) (file_system_scanner d) ->
    shows_inside l m -> shows l m
with shows_inside : location -> medium -> Prop :=
| inside_unknown l : shows_inside l Unknown
| inside_file_system l t : shows_inside l (FileSystem t)
| inside_volumes l t parts : number_at t l = Ok (len parts) -> resolve (root_of l t) = Ok tt -> shows_parts l t 1 parts -> shows_inside l (Volumes t parts)
| inside_image l t layers content place : number_at t l = Ok layers -> 0 < layers < two64 -> (t = TEwf \/ t = TSparseImage \/ t = TUdif -> layers = 1) ->
    member l t place layers -> resolve place = Ok tt -> shows place content -> shows_inside l (Image t layers content)
with shows_parts : location -> vfs_type -> N -> list medium -> Prop :=
| parts_end l t n : shows_parts l t n []
| parts_more l t n part parts place : n < two64 -> member l t place n -> shows place part -> shows_parts l t (n + 1) parts -> shows_parts l t n (part :: parts).
End Shows.
