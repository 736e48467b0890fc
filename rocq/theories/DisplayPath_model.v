(** * Model of the paths and file modes that the tools show, and of the lines of a bodyfile

    keramics-tools/src/display_path.rs and image_tool.rs. Texts are lists of code points. *)
From Coq Require Import String.
From Verif Require Import Base Uuid_model Formatters_model.
Open Scope N_scope.
Open Scope list_scope.

(** display_path.rs 128-137 *)
Definition undefined_characters : list N :=
  [0xfdd0; 0xfdd1; 0xfdd2; 0xfdd3; 0xfdd4; 0xfdd5; 0xfdd6; 0xfdd7; 0xfdd8; 0xfdd9; 0xfdda;
   0xfddb; 0xfddc; 0xfddd; 0xfdde; 0xfddf; 0xfffe; 0xffff; 0x1fffe; 0x1ffff; 0x2fffe;
   0x2ffff; 0x3fffe; 0x3ffff; 0x4fffe; 0x4ffff; 0x5fffe; 0x5ffff; 0x6fffe; 0x6ffff;
   0x7fffe; 0x7ffff; 0x8fffe; 0x8ffff; 0x9fffe; 0x9ffff; 0xafffe; 0xaffff; 0xbfffe;
   0xbffff; 0xcfffe; 0xcffff; 0xdfffe; 0xdffff; 0xefffe; 0xeffff; 0xffffe; 0xfffff;
   0x10fffe; 0x10ffff].
(** display_path.rs 143-145 *)
Definition observed_characters : list N := [0x2028; 0x2029; 0xe000; 0xf8ff; 0xf0000; 0xffffd; 0x100000; 0x10fffd].
Definition among (c : N) (l : list N) : bool := existsb (N.eqb c) l.
(** display_path.rs 103-151 [get_character_translation_table]: [get] of the table. The keys of
    the insertions differ, so that their order does not matter. *)
Definition translation (c : N) : option (list N) :=
  if c <? 0x20 then Some ([92; 120] ++ format_hex 2 c)
  else if c =? 47 then Some [92; 47]
  else if c =? 58 then Some [92; 58]
  else if c =? 92 then Some [92; 92]
  else if (0x7f <=? c) && (c <? 0xa0) then Some ([92; 120] ++ format_hex 2 c)
  else if among c undefined_characters then Some ([92; 85] ++ format_hex 8 c)
  else if among c observed_characters then Some ([92; 85] ++ format_hex 8 c)
  else None.
Definition translated (c : N) : list N :=
  match translation c with Some t => t | None => [c] end.
(** [char::from_u32] *)
Definition is_char (c : N) : bool := (c <? 0xd800) || ((0xe000 <=? c) && (c <? 0x110000)).

(** keramics-vfs/src/string.rs 20-26 [VfsString]. A byte string is what its character decoder
    gives, a string its characters, a UCS-2 string its elements. *)
Inductive vfs_string :=
| VByte (decoded : list (res N))
| VEmpty
| VOsString (units : list N)
| VString (chars : list N)
| VUcs2 (elements : list N).
(** string.rs 30-38 [is_empty]; byte strings decode to nothing iff they are empty *)
Definition vfs_string_is_empty (s : vfs_string) : bool :=
  match s with
  | VByte l => len l =? 0
  | VEmpty => true
  | VOsString l => len l =? 0
  | VString l => len l =? 0
  | VUcs2 l => len l =? 0
  end.
(** display_path.rs 64-80: [todo!()] panics *)
Fixpoint escape_decoded (l : list (res N)) : res (list N) :=
  match l with
  | [] => Ok []
  | Ok c :: l =>
    let t := if is_char c then translated c else [92; 85; 123] ++ format_hex 8 c ++ [125] in
    rest <- escape_decoded l ;; Ok (t ++ rest)
  | _ :: _ => Panic
  end.
(** display_path.rs 43-55 [internal_escape_string] and 58-100 [escape_string] *)
Definition escape_string (s : vfs_string) : res (list N) :=
  match s with
  | VByte l => escape_decoded l
  | VEmpty => Ok []
  | VOsString _ => Panic
  | VString l => Ok (flat_map translated l)
  | VUcs2 l => Ok (flat_map (fun c => if is_char c then translated c else [92; 85] ++ format_hex 8 c) l)
  end.
Fixpoint escape_strings (l : list vfs_string) : res (list (list N)) :=
  match l with
  | [] => Ok []
  | s :: l => t <- escape_string s ;; ts <- escape_strings l ;; Ok (t :: ts)
  end.
(** display_path.rs 223-233 [join_path_components] *)
Definition join_path_components (path_components : list vfs_string) : res (list N) :=
  match path_components with
  | [s] => if vfs_string_is_empty s then Ok [47] else ts <- escape_strings [s] ;; Ok (joined [47] ts)
  | l => ts <- escape_strings l ;; Ok (joined [47] ts)
  end.

(** image_tool.rs 466-506 [get_file_mode_string] *)
Definition set_if (mode mask : N) (i : N) (c : N) (parts : list N) : res (list N) :=
  if negb (N.land mode mask =? 0) then upd parts i c else Ok parts.
Definition get_file_mode_string (file_mode : N) : res (list N) :=
  p <- set_if file_mode 0x0001 9 120 (repeat 45 10) ;;
  p <- set_if file_mode 0x0002 8 119 p ;;
  p <- set_if file_mode 0x0004 7 114 p ;;
  p <- set_if file_mode 0x0008 6 120 p ;;
  p <- set_if file_mode 0x0010 5 119 p ;;
  p <- set_if file_mode 0x0020 4 114 p ;;
  p <- set_if file_mode 0x0040 3 120 p ;;
  p <- set_if file_mode 0x0080 2 119 p ;;
  p <- set_if file_mode 0x0100 1 114 p ;;
  let t := N.land file_mode 0xf000 in
  upd p 0 (if t =? 0x1000 then 112 else if t =? 0x2000 then 99 else if t =? 0x4000 then 100 else if t =? 0x6000 then 98
           else if t =? 0xa000 then 108 else if t =? 0xc000 then 115 else 45).

(** image_tool.rs 586-596: the prefix without its last slash, and the suffix of a symbolic link *)
Definition ends_with_slash (t : list N) : bool := match rev t with c :: _ => c =? 47 | [] => false end.
Definition path_prefix (display_path : list N) : list N :=
  if ends_with_slash display_path then removelast display_path else display_path.
Definition path_suffix (target : option (list N)) : list N :=
  match target with Some t => [32; 45; 62; 32] ++ t | None => [] end.
(** image_tool.rs 686-701: the line that is printed, with its line end. The values are texts. *)
Definition bodyfile_line (md5 file_system_display_path display_path : list N) (target : option (list N))
    (file_identifier mode owner group size access_time modification_time change_time creation_time : list N) : list N :=
  md5 ++ [124] ++ path_prefix file_system_display_path ++ display_path ++ path_suffix target ++ [124] ++ file_identifier ++ [124] ++ mode ++ [124]
  ++ owner ++ [124] ++ group ++ [124] ++ size ++ [124] ++ access_time ++ [124] ++ modification_time ++ [124] ++ change_time ++ [124] ++ creation_time ++ [10].
