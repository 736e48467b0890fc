(** * What a VHDX image shows *)
From Verif Require Import Base Streams_spec Part_spec Image_spec Vhdx_model.

(** ** One file *)
(** Blocks per chunk: a chunk has 2^23 sectors. *)
Definition vhdx_ratio (p : vhdx_parameters) : N := 0x800000 * xp_sector_size p / xp_block_size p.
(** The entry of the table: after the entries of each chunk is that of its bitmap. *)
Definition vhdx_entry (file : list N) (p : vhdx_parameters) (i : N) : N := field file (xp_table_offset p + 8 * i) 8.
Definition vhdx_block_entry (file : list N) (p : vhdx_parameters) (n : N) : N :=
  vhdx_entry file p (n / vhdx_ratio p * (vhdx_ratio p + 1) + n mod vhdx_ratio p).
Definition vhdx_bitmap_entry (file : list N) (p : vhdx_parameters) (n : N) : N :=
  vhdx_entry file p (n / vhdx_ratio p * (vhdx_ratio p + 1) + vhdx_ratio p).
(** State, and offset in MiB. *)
Definition entry_state (e : N) : N := e mod 8.
Definition entry_offset (e : N) : N := e / 0x100000 * 0x100000.
(** The bits of the chunk, for each sector, from the lowest of each byte on. *)
Definition vhdx_bit (file : list N) (p : vhdx_parameters) (n sector : N) : bool :=
  let i := n mod vhdx_ratio p * (xp_block_size p / xp_sector_size p) + sector in
  N.testbit (file_byte file (entry_offset (vhdx_bitmap_entry file p n) + i / 8)) (i mod 8).
(** Flag 2: has a parent. *)
Definition vhdx_has_parent (p : vhdx_parameters) : bool := N.testbit (xp_flags p) 1.
(** Block states: 0 not present, 1 undefined, 2 zero, 3 unmapped, 6 fully present, 7
    partially present. *)
Definition vhdx_byte (file : list N) (p : vhdx_parameters) (parent : N -> N) (x : N) : N :=
  let n := x / xp_block_size p in
  let o := x mod xp_block_size p in
  let e := vhdx_block_entry file p n in
  match entry_state e with
  | 6 => file_byte file (entry_offset e + o)
  | 7 => if vhdx_bit file p n (o / xp_sector_size p) then file_byte file (entry_offset e + o) else parent x
  | 0 => if vhdx_has_parent p then parent x else 0
  | _ => 0
  end.
Fixpoint vhdx_disk (files : list (list N * vhdx_parameters)) : N -> N :=
  match files with
  | [] => fun _ => 0
  | (file, p) :: files => vhdx_byte file p (vhdx_disk files)
  end.

(** ** Accepted parameters *)
Definition vhdx_parameters_ok (p : vhdx_parameters) : Prop :=
  0x100000 <= xp_block_size p <= 0x10000000 /\ (xp_sector_size p = 512 \/ xp_sector_size p = 4096) /\
  xp_media_size p <= xp_table_size p / 8 * xp_block_size p.
(** The sizes of the format: the block size is a power of two. *)
Definition vhdx_block_size_ok (p : vhdx_parameters) : Prop := exists k, xp_block_size p = 2 ^ k.

(** ** Complete files *)
Definition vhdx_complete (file : list N) (p : vhdx_parameters) : Prop :=
  forall n, n * xp_block_size p < xp_media_size p ->
    (let i := n / vhdx_ratio p * (vhdx_ratio p + 1) + n mod vhdx_ratio p in
     i < xp_table_size p / 8 /\ xp_table_offset p + 8 * i + 8 <= len file) /\
    (6 <= entry_state (vhdx_block_entry file p n) ->
       entry_offset (vhdx_block_entry file p n) + N.min (xp_block_size p) (xp_media_size p - n * xp_block_size p) <= len file).
(** A file without a parent: no block is partially present, which is not valid there. *)
Definition vhdx_plain (file : list N) (p : vhdx_parameters) : Prop :=
  vhdx_has_parent p = false /\
  forall n, n * xp_block_size p < xp_media_size p -> entry_state (vhdx_block_entry file p n) <= 6.
(** A file with a parent, as far as the theorem goes: every block is fully present, or it is
    not present or partially present and has a bitmap that is the same for all of its
    sectors, all unset if it is not present. *)
Definition vhdx_uniform (file : list N) (p : vhdx_parameters) : Prop :=
  N.land (xp_flags p) 3 = 2 /\
  let bytes := xp_block_size p / xp_sector_size p / 8 in
  forall n, n * xp_block_size p < xp_media_size p ->
    let s := entry_state (vhdx_block_entry file p n) in
    let o := entry_offset (vhdx_bitmap_entry file p n) + n mod vhdx_ratio p * bytes in
    s = 6 \/
    (exists b, (s = 0 /\ b = 0 \/ s = 7 /\ (b = 0 \/ b = 255)) /\
       entry_offset (vhdx_block_entry file p n) + xp_block_size p < two64 /\
       n / vhdx_ratio p * (vhdx_ratio p + 1) + vhdx_ratio p < xp_table_size p / 8 /\
       xp_table_offset p + 8 * (n / vhdx_ratio p * (vhdx_ratio p + 1) + vhdx_ratio p) + 8 <= len file /\
       o + bytes <= len file /\ bytes_at file o bytes = repeat b (N.to_nat bytes)).
(** ** Chains *)
(** The files of an image, the newest first: a file with a parent is followed by it, and is
    not larger. *)
Definition vhdx_size (files : list (list N * vhdx_parameters)) : N :=
  match files with (_, p) :: _ => xp_media_size p | [] => 0 end.
Fixpoint vhdx_chain (files : list (list N * vhdx_parameters)) : Prop :=
  match files with
  | [] => False
  | (_, p) :: files => vhdx_has_parent p = false \/ (vhdx_chain files /\ xp_media_size p <= vhdx_size files)
  end.
(** The files the theorem is about. Without a parent, either the flag of fixed images is
    set or all blocks are in the first chunk. *)
Definition vhdx_supported (file : list N) (p : vhdx_parameters) : Prop :=
  vhdx_uniform file p \/
  (vhdx_plain file p /\ (N.land (xp_flags p) 3 = 1 \/ N.land (xp_flags p) 3 = 0 /\ xp_media_size p <= vhdx_ratio p * xp_block_size p)).
Record vhdx_good (file : list N) (p : vhdx_parameters) : Prop := {
  xg_wf : wf_bytes file;
  xg_len : len file < two64;
  xg_table : xp_table_size p < two32;
  xg_ok : vhdx_parameters_ok p;
  xg_pow : vhdx_block_size_ok p;
  xg_complete : vhdx_complete file p;
  xg_supported : vhdx_supported file p
}.
