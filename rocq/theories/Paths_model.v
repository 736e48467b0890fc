(** * Model of path components, paths and EWF segment file names

    A Rust string is the list of its characters, as code points. Byte positions in a
    string are those of its UTF-8 form. *)
From Verif Require Import Base Strings_model Strings_spec Utf8_spec Utf8_model.

(** Number of bytes of a string: [str::len] *)
Definition str_len (s : list N) : N := len (flat_map utf8 s).

(** [&string[index..]] and [&string[..index]]: a byte index that is not at the boundary
    of a character panics. *)
Fixpoint str_split_at (s : list N) (index : N) : res (list N * list N) :=
  if index =? 0 then Ok ([], s)
  else match s with
       | [] => Panic
       | c :: rest =>
         if index <? len (utf8 c) then Panic
         else '(a, b) <- str_split_at rest (index - len (utf8 c)) ;; Ok (c :: a, b)
       end.
Definition str_from (s : list N) (index : N) : res (list N) :=
  '(_, b) <- str_split_at s index ;; Ok b.
Definition str_to (s : list N) (index : N) : res (list N) :=
  '(a, _) <- str_split_at s index ;; Ok a.

(** [iter().position(|value| *value == v)] *)
Fixpoint position (v : N) (l : list N) : option N :=
  match l with
  | [] => None
  | x :: l => if x =? v then Some 0
              else match position v l with Some i => Some (i + 1) | None => None end
  end.

(** keramics-formats/src/path_component.rs 27-45 [PathComponent::extension] of a
    [String]; of the other two kinds it is [todo!()]. *)
Definition component_extension (string : list N) : res (option (list N)) :=
  match string with
  | [] => Ok None
  | _ =>
    tail <- str_from string 1 ;;
    match position 0x2e (rev tail) with
    | Some value_index =>
      string_index <- sub_chk (str_len string) value_index ;;
      extension <- str_from string string_index ;;
      Ok (Some extension)
    | None => Ok None
    end
  end.

(** path_component.rs 48-66 [PathComponent::file_stem] of a [String] *)
Definition component_file_stem (string : list N) : res (option (list N)) :=
  match string with
  | [] => Ok None
  | _ =>
    tail <- str_from string 1 ;;
    match position 0x2e (rev tail) with
    | Some value_index =>
      n <- sub_chk (str_len string) value_index ;;
      string_size <- sub_chk n 1 ;;
      stem <- str_to string string_size ;;
      Ok (Some stem)
    | None => Ok (Some string)
    end
  end.

(** ntfs/path.rs 50-68, ext/path.rs 50-68, fat/path.rs 52-88 [extension]: on the elements
    (bytes or 16-bit values) of the file name; the constructor of the result stops at a
    zero element. *)
Definition elements_extension (elements : list N) : res (option (list N)) :=
  match position 0x2e (rev (skipn 1 elements)) with
  | Some value_index =>
    string_index <- sub_chk (len elements) value_index ;;
    s <- slice elements string_index (len elements) ;;
    Ok (Some (string_from_slice s))
  | None => Ok None
  end.
(** ntfs/path.rs 71-89, ext/path.rs 71-89, fat/path.rs 91-127 [file_stem] *)
Definition elements_file_stem (elements : list N) : res (option (list N)) :=
  match position 0x2e (rev (skipn 1 elements)) with
  | Some value_index =>
    n <- sub_chk (len elements) value_index ;;
    string_size <- sub_chk n 1 ;;
    s <- slice elements 0 string_size ;;
    Ok (Some (string_from_slice s))
  | None => Ok (Some elements)
  end.

(** ** Paths *)

(** [str::split] with a separator of one character *)
Fixpoint split (sep : N) (s : list N) : list (list N) :=
  match s with
  | [] => [[]]
  | c :: s =>
    if c =? sep then [] :: split sep s
    else match split sep s with
         | [] => [[c]]
         | w :: ws => (c :: w) :: ws
         end
  end.
(** [join] with a separator of one character *)
Fixpoint join (sep : N) (l : list (list N)) : list N :=
  match l with
  | [] => []
  | [w] => w
  | w :: ws => w ++ [sep] ++ join sep ws
  end.

(** keramics-vfs/src/string_path.rs 58-74 [From<&str>] *)
Definition string_path_from (string : list N) : list (list N) :=
  if (match string with [c] => c =? 0x2f | _ => false end) then [[]] else split 0x2f string.
(** string_path.rs 48-55 [to_string] *)
Definition string_path_to_string (components : list (list N)) : list N :=
  match components with
  | [[]] => [0x2f]
  | _ => join 0x2f components
  end.
(** string_path.rs 25-35, ext/path.rs 37-47, fat/path.rs 39-49, ntfs/path.rs 37-47
    [new_with_parent_directory] *)
Definition parent_directory {A} (components : list A) : list A :=
  let n := length components in
  firstn (if (1 <? n)%nat then n - 1 else n) components.
(** string_path.rs 38-45, ext/path.rs 92-99, fat/path.rs 130-137, ntfs/path.rs 92-99
    [file_name] *)
Definition file_name {A} (components : list A) : res (option A) :=
  let n := len components in
  if 1 <? n then (i <- sub_chk n 1 ;; v <- idx components i ;; Ok (Some v)) else Ok None.
(** vfs/src/path.rs 153-170, ext/path.rs 27-34, fat/path.rs 29-36, ntfs/path.rs 27-34
    [new_with_join] *)
Definition new_with_join {A} (components others : list A) : list A := components ++ others.

(** ext/path.rs 126-145, fat/path.rs 164-183, ntfs/path.rs 126-145 [From<&str>]: the
    separator and the conversion of a component *)
Definition fs_path_from (sep : N) (of_str : list N -> list N) (string : list N) : list (list N) :=
  match string with
  | [] => []
  | _ => if (match string with [c] => c =? sep | _ => false end) then [[]]
         else map of_str (split sep string)
  end.
(** [map] of a conversion that can panic *)
Fixpoint map_res {A B} (f : A -> res B) (l : list A) : res (list B) :=
  match l with
  | [] => Ok []
  | a :: l => b <- f a ;; bs <- map_res f l ;; Ok (b :: bs)
  end.
(** ext/path.rs 112-123, fat/path.rs 150-161, ntfs/path.rs 112-123 [to_string] *)
Definition fs_path_to_string (sep : N) (to_str : list N -> res (list N))
    (components : list (list N)) : res (list N) :=
  match components with
  | [[]] => Ok [sep]
  | _ => l <- map_res to_str components ;; Ok (join sep l)
  end.

(** types/src/byte_string.rs 149-169: the UTF-8 bytes before a zero byte *)
Definition bytestring_from_str (s : list N) : list N := string_from_slice (flat_map utf8 s).

Definition ext_path_from := fs_path_from 0x2f bytestring_from_str.
Definition ext_path_to_string := fs_path_to_string 0x2f utf8_bytestring_to_string.
(** a path made from a string has UCS-2 components: fat/string.rs 101-115 *)
Definition fat_path_from := fs_path_from 0x2f ucs2_from_str.
Definition fat_path_to_string := fs_path_to_string 0x2f (fun l => Ok (ucs2_to_string l)).
Definition ntfs_path_from := fs_path_from 0x5c ucs2_from_str.
Definition ntfs_path_to_string := fs_path_to_string 0x5c (fun l => Ok (ucs2_to_string l)).

(** ** EWF segment files, keramics-formats/src/ewf/enums.rs and image.rs *)
Inductive naming_schema := E01LowerCase | E01UpperCase | S01LowerCase | S01UpperCase.

(** ewf/image.rs 131-183 [get_segment_file_extension]; u32 arithmetic cannot overflow on
    a u16 number, [char::from_u32] is defined on every value below 0xd800. *)
Definition get_segment_file_extension (segment_number : N) (schema : naming_schema)
  : res (list N) :=
  check (negb (segment_number =? 0)) ;;;
  let first_character :=
    match schema with
    | E01UpperCase => 0x45 | S01UpperCase => 0x53 | E01LowerCase => 0x65 | S01LowerCase => 0x73
    end in
  extension <-
    (if segment_number <? 100 then
       Ok [first_character; 0x30 + segment_number / 10; 0x30 + segment_number mod 10]
     else
       let base_character :=
         match schema with
         | E01UpperCase | S01UpperCase => 0x41
         | E01LowerCase | S01LowerCase => 0x61
         end in
       extension_segment_number <- sub_chk segment_number 100 ;;
       let c2 := base_character + extension_segment_number mod 26 in
       let extension_segment_number := extension_segment_number / 26 in
       let c1 := base_character + extension_segment_number mod 26 in
       let extension_segment_number := extension_segment_number / 26 in
       Ok [first_character + extension_segment_number; c1; c2]) ;;
  let last_character :=
    match schema with
    | E01UpperCase | S01UpperCase => 0x5a
    | E01LowerCase | S01LowerCase => 0x7a
    end in
  c0 <- idx extension 0 ;;
  check (negb (last_character <? c0)) ;;;
  Ok extension.
