(** * Single byte code pages: keramics-encodings/src/{ascii,iso8859_*,koi8_*,mac_*,windows*}.rs

    All these files have the same form: a decoder that maps a byte to itself or through a
    table, and an encoder that matches the code point against ranges (to itself or through a
    table) and single values. They are modelled by an interpreter over a description of
    these cases; the descriptions are in CodePages_tables.v. Windows 932 (double byte) is
    not modelled. *)
From Verif Require Import Base.

(** One case: [lo..hi] mapped to itself, or through a table indexed by [value - base];
    a single value is a table of one element. *)
Inductive arm := Direct (lo hi : N) | Table (lo hi base : N) (table : list (option N)).
Record code_page := { cp_decode : list arm; cp_encode : list arm }.

Definition arm_range (a : arm) : N * N := match a with Direct lo hi => (lo, hi) | Table lo hi _ _ => (lo, hi) end.
Definition arm_matches (a : arm) (v : N) : bool := let '(lo, hi) := arm_range a in (lo <=? v) && (v <? hi).

(** Cases are tried in order; the last one is an error; [None] in a table is an error. *)
Fixpoint arms_lookup (arms : list arm) (v : N) : res N :=
  match arms with
  | [] => Err
  | a :: rest =>
      if arm_matches a v then
        match a with
        | Direct _ _ => Ok v
        | Table _ _ base table =>
            i <- sub_chk v base ;;
            o <- idx table i ;;
            of_option o
        end
      else arms_lookup rest v
  end.

(** [Iterator::next] of the decoder on one byte, e.g. iso8859_3.rs:138-162 *)
Definition cp_decode_byte (p : code_page) (byte_value : N) : res N := arms_lookup (cp_decode p) byte_value.
(** [Iterator::next] of the encoder on one code point, e.g. windows1252.rs:146-200: the byte
    ([*code_point as u8] for the direct ranges) *)
Definition cp_encode_code_point (p : code_page) (code_point : N) : res N :=
  v <- arms_lookup (cp_encode p) code_point ;; Ok (v mod 256).

(** The loops over the iterators: byte_string.rs:57-65 and 85-93, to the first error *)
Fixpoint map_res {A B} (f : A -> res B) (l : list A) : res (list B) :=
  match l with
  | [] => Ok []
  | a :: rest => b <- f a ;; bs <- map_res f rest ;; Ok (b :: bs)
  end.
Definition cp_decode_string (p : code_page) (bytes : list N) : res (list N) := map_res (cp_decode_byte p) bytes.
Definition cp_encode_string (p : code_page) (code_points : list N) : res (list N) := map_res (cp_encode_code_point p) code_points.
