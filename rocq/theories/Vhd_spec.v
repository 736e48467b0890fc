(** * What a VHD image shows *)
From Verif Require Import Base Streams_spec Part_spec Image_spec.

(** ** The footer, the last 512 bytes of the file *)
Definition vhd_footer (file : list N) : N := len file - 512.
Definition vhd_header (file : list N) : N := field_be file (vhd_footer file + 16) 8.
Definition vhd_media_size (file : list N) : N := field_be file (vhd_footer file + 40) 8.
(** 2 fixed, 3 dynamic, 4 differential *)
Definition vhd_type (file : list N) : N := field_be file (vhd_footer file + 60) 4.
Definition vhd_identifier (file : list N) : list N := bytes_at file (vhd_footer file + 68) 16.
(** ** The dynamic disk header *)
Definition vhd_table (file : list N) : N := field_be file (vhd_header file + 16) 8.
Definition vhd_blocks (file : list N) : N := field_be file (vhd_header file + 28) 4.
Definition vhd_block_size (file : list N) : N := field_be file (vhd_header file + 32) 4.
Definition vhd_parent_identifier (file : list N) : list N := bytes_at file (vhd_header file + 40) 16.
(** The UCS-2 name, which ends at a zero. *)
Fixpoint before_zero (l : list N) : list N :=
  match l with [] => [] | c :: l => if c =? 0 then [] else c :: before_zero l end.
Definition vhd_parent_path (file : list N) : list N :=
  before_zero (map (fun i => field_be file (vhd_header file + 64 + 2 * i) 2) (seqN 0 256)).
(** [name] is the last component of [path]. *)
Definition last_component (path name : list N) : Prop :=
  exists before, path = before ++ name /\ ~ In 0x5c name /\ (before = [] \/ exists b, before = b ++ [0x5c]).

Definition vhd_header_ok (file : list N) : Prop :=
  512 <= len file /\
  bytes_at file (vhd_footer file) 8 = [0x63; 0x6f; 0x6e; 0x65; 0x63; 0x74; 0x69; 0x78] /\
  field_be file (vhd_footer file + 12) 4 = 0x10000 /\
  (vhd_type file = 2 /\ vhd_header file = 0xffffffffffffffff \/
   (vhd_type file = 3 \/ vhd_type file = 4) /\ 512 <= vhd_header file /\ vhd_header file + 1024 <= len file /\
   bytes_at file (vhd_header file) 8 = [0x63; 0x78; 0x73; 0x70; 0x61; 0x72; 0x73; 0x65] /\
   field_be file (vhd_header file + 24) 4 = 0x10000 /\
   field_be file (vhd_header file + 8) 8 = 0xffffffffffffffff /\
   0 < vhd_block_size file /\ vhd_media_size file <= vhd_blocks file * vhd_block_size file).
(** Whether a file names a parent. *)
Definition vhd_has_parent (file : list N) : Prop :=
  vhd_type file <> 2 /\ vhd_parent_identifier file <> repeat 0 16.

(** ** The blocks *)
(** The sector of the bitmap of a block, 0xffffffff for none. *)
Definition vhd_entry (file : list N) (n : N) : N := field_be file (vhd_table file + 4 * n) 4.
(** A bit for every sector of a block, padded to whole sectors. *)
Definition vhd_bitmap_size (file : list N) : N :=
  (vhd_block_size file / 512 / 8 + 511) / 512 * 512.
(** The sectors of a block are counted from the highest bit of each byte on. *)
Definition vhd_bit (file : list N) (n sector : N) : bool :=
  N.testbit (file_byte file (vhd_entry file n * 512 + sector / 8)) (7 - sector mod 8).
Definition vhd_byte (file : list N) (parent : N -> N) (x : N) : N :=
  if vhd_type file =? 2 then file_byte file x
  else let bs := vhd_block_size file in
  if (if vhd_entry file (x / bs) =? 0xffffffff then false else vhd_bit file (x / bs) (x mod bs / 512))
  then file_byte file (vhd_entry file (x / bs) * 512 + vhd_bitmap_size file + x mod bs)
  else if vhd_type file =? 4 then parent x
  else 0.
(** The files of an image, the newest first. *)
Fixpoint vhd_disk (files : list (list N)) : N -> N :=
  match files with
  | [] => fun _ => 0
  | file :: files => vhd_byte file (vhd_disk files)
  end.

(** ** The files of an image: each names the next one as its parent *)
Inductive vhd_chain (resolver : list N -> option (list N)) : list N -> list (list N) -> Prop :=
| vhd_last name file : resolver name = Some file -> vhd_header_ok file -> ~ vhd_has_parent file ->
    vhd_chain resolver name [file]
| vhd_more name file parent_name parent files : resolver name = Some file -> vhd_header_ok file -> vhd_has_parent file ->
    last_component (vhd_parent_path file) parent_name -> vhd_chain resolver parent_name (parent :: files) ->
    vhd_parent_identifier file = vhd_identifier parent ->
    vhd_chain resolver name (file :: parent :: files).

(** ** Complete files *)
(** The table, bitmaps and data of the blocks, up to the end of the media, are in the
    file. *)
Definition vhd_complete (file : list N) : Prop :=
  if vhd_type file =? 2 then vhd_media_size file <= len file
  else forall n, n * vhd_block_size file < vhd_media_size file ->
    vhd_table file + 4 * n + 4 <= len file /\
    (vhd_entry file n <> 0xffffffff ->
       vhd_entry file n * 512 + vhd_bitmap_size file +
         N.min (vhd_block_size file) (vhd_media_size file - n * vhd_block_size file) <= len file).
(** Every file but the last is on top of one that is at least as large. *)
Fixpoint vhd_sizes (files : list (list N)) : Prop :=
  match files with
  | file :: ((file' :: _) as rest) => vhd_media_size file <= vhd_media_size file' /\ vhd_sizes rest
  | [file] => vhd_type file <> 4
  | [] => False
  end.

(** The restriction of the theorem: blocks of a multiple of 2 MiB, for which the bitmap
    has no padding, and in each of them all sectors stored or none. *)
Definition vhd_uniform (file : list N) : Prop :=
  vhd_type file = 2 \/
  vhd_block_size file mod 0x200000 = 0 /\
  forall n, n * vhd_block_size file < vhd_media_size file -> vhd_entry file n <> 0xffffffff ->
    exists b, (b = 0 \/ b = 255) /\
      bytes_at file (vhd_entry file n * 512) (vhd_bitmap_size file) = repeat b (N.to_nat (vhd_bitmap_size file)).
