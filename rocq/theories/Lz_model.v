(** * ADC, LZVN and LZNT1 decompression

    The destination is a buffer [buf] of fixed length, overwritten in place, as in
    the code; a decompressor returns the buffer and the number of bytes it reports as
    written ([uncompressed_data_size]). Offsets are unbounded numbers: a Rust slice
    has fewer than 2^63 elements, so adding to an offset inside one cannot overflow.
    The debug output is not modelled. When an error is returned the partly
    overwritten buffer is not modelled. *)
From Verif Require Import Base.

(** [buf[offset..offset + data.len()].copy_from_slice(data)] *)
Definition write_at (buf : list N) (offset : N) (data : list N) : res (list N) :=
  if offset + len data <=? len buf
  then Ok (firstn (N.to_nat offset) buf ++ data ++ skipn (N.to_nat (offset + len data)) buf)
  else Panic.

(** [for _ in 0..match_size { buf[dst] = buf[src]; src += 1; dst += 1; }]:
    adc.rs 147-153, lzvn.rs 493-499, lznt1.rs 268-274 *)
Fixpoint copy_loop (match_size : nat) (buf : list N) (dst src : N) : res (list N) :=
  match match_size with
  | O => Ok buf
  | S n =>
      v <- idx buf src ;;
      buf' <- upd buf dst v ;;
      copy_loop n buf' (dst + 1) (src + 1)
  end.

(** [bytes_to_u16_be!(data, offset)] and [bytes_to_u16_le!]:
    keramics-types/src/macros.rs, see Bytes_model *)
Definition u16_be_at (data : list N) (offset : N) : res N :=
  a <- idx data offset ;; b <- idx data (offset + 1) ;; Ok (a * 256 + b).
Definition u16_le_at (data : list N) (offset : N) : res N :=
  a <- idx data offset ;; b <- idx data (offset + 1) ;; Ok (a + b * 256).

(** ** ADC: keramics-compression/src/adc.rs 40-169 *)
Fixpoint adc_loop (fuel : nat) (c : list N) (co : N) (buf : list N) (uo : N)
    : res (list N * N) :=
  match fuel with
  | O => Panic
  | S fuel' =>
      if co <? len c then
        if len buf <=? uo then Ok (buf, uo)
        else
          oppcode <- idx c co ;;
          let co := co + 1 in
          if negb (N.land oppcode 0x80 =? 0) then
            literal_size <- add_chk two8 (N.land oppcode 0x7f) 1 ;;
            check (literal_size <=? len c - co) ;;;
            check (literal_size <=? len buf - uo) ;;;
            literal <- slice c co (co + literal_size) ;;
            buf' <- write_at buf uo literal ;;
            adc_loop fuel' c (co + literal_size) buf' (uo + literal_size)
          else
            '(match_size, distance, co) <-
              (if negb (N.land oppcode 0x40 =? 0) then
                 check (2 <=? len c - co) ;;;
                 match_size <- add_chk two8 (N.land oppcode 0x3f) 4 ;;
                 distance <- u16_be_at c co ;;
                 Ok (match_size, distance, co + 2)
               else
                 check (co <? len c) ;;;
                 match_size <- add_chk two8 (N.shiftr (N.land oppcode 0x3f) 2) 3 ;;
                 b <- idx c co ;;
                 Ok (match_size, N.lor (N.shiftl (N.land oppcode 0x03) 8) b, co + 1)) ;;
            check (1 <=? uo) ;;;
            check (distance <? uo) ;;;
            check (match_size <=? len buf - uo) ;;;
            match_offset <- sub_chk (uo - distance) 1 ;;
            buf' <- copy_loop (N.to_nat match_size) buf uo match_offset ;;
            adc_loop fuel' c co buf' (uo + match_size)
      else Ok (buf, uo)
  end.

Definition adc_decompress (c buf : list N) : res (list N * N) :=
  adc_loop (S (length c)) c 0 buf 0.

(** ** LZVN: keramics-compression/src/lzvn.rs *)
Inductive lzvn_type :=
  DistanceLarge | DistanceMedium | DistancePrevious | DistanceSmall | EndOfStream
| Invalid | LiteralLarge | LiteralSmall | MatchLarge | MatchSmall | NoOperation.

(** [LZVN_OPPCODE_TYPES]: lzvn.rs 38-295. The table of 256 entries, as rows of
    sixteen. *)
Definition lzvn_row_a (t6 te : lzvn_type) : list lzvn_type :=
  let s := DistanceSmall in let l := DistanceLarge in
  [s; s; s; s; s; s; t6; l; s; s; s; s; s; s; te; l].
Definition lzvn_types : list lzvn_type :=
  let p := DistancePrevious in
  lzvn_row_a EndOfStream NoOperation ++ lzvn_row_a NoOperation Invalid ++
  lzvn_row_a Invalid Invalid ++ lzvn_row_a Invalid Invalid ++
  lzvn_row_a p p ++ lzvn_row_a p p ++ lzvn_row_a p p ++
  repeat Invalid 16 ++
  lzvn_row_a p p ++ lzvn_row_a p p ++
  repeat DistanceMedium 32 ++
  lzvn_row_a p p ++
  repeat Invalid 16 ++
  LiteralLarge :: repeat LiteralSmall 15 ++ MatchLarge :: repeat MatchSmall 15.

(** The [match] on the type of an oppcode, lzvn.rs 352-439: literal size, match size,
    distance and the offset after the operands; [None] at the end of the stream. *)
Definition lzvn_operands (c : list N) (oppcode co distance : N)
    : res (option (N * N * N * N)) :=
  t <- idx lzvn_types oppcode ;;
  match t with
  | DistanceLarge =>
      check (2 <=? len c - co) ;;;
      v <- idx c co ;;
      w <- idx c (co + 1) ;;
      Ok (Some (N.shiftr (N.land oppcode 0xc0) 6, N.shiftr (N.land oppcode 0x38) 3 + 3,
                N.lor (N.shiftl w 8) v, co + 2))
  | DistanceMedium =>
      check (2 <=? len c - co) ;;;
      v <- idx c co ;;
      w <- idx c (co + 1) ;;
      Ok (Some (N.shiftr (N.land oppcode 0x18) 3,
                N.lor (N.shiftl (N.land oppcode 0x07) 2) (N.land v 0x03) + 3,
                N.lor (N.shiftl w 6) (N.shiftr (N.land v 0xfc) 2), co + 2))
  | DistancePrevious =>
      Ok (Some (N.shiftr (N.land oppcode 0xc0) 6, N.shiftr (N.land oppcode 0x38) 3 + 3,
                distance, co))
  | DistanceSmall =>
      check (co <? len c) ;;;
      v <- idx c co ;;
      Ok (Some (N.shiftr (N.land oppcode 0xc0) 6, N.shiftr (N.land oppcode 0x38) 3 + 3,
                N.lor (N.shiftl (N.land oppcode 0x07) 8) v, co + 1))
  | LiteralLarge =>
      check (co <? len c) ;;;
      v <- idx c co ;;
      Ok (Some (v + 16, 0, distance, co + 1))
  | LiteralSmall => Ok (Some (N.land oppcode 0x0f, 0, distance, co))
  | MatchLarge =>
      check (co <? len c) ;;;
      v <- idx c co ;;
      Ok (Some (0, v + 16, distance, co + 1))
  | MatchSmall => Ok (Some (0, N.land oppcode 0x0f, distance, co))
  | EndOfStream => Ok None
  | NoOperation => Ok (Some (0, 0, distance, co))
  | Invalid => Err
  end.

(** The copies of one oppcode, lzvn.rs 448-507: buffer, source and destination
    offsets after them. *)
Definition lzvn_apply (c : list N) (literal_size match_size distance co : N)
    (buf : list N) (uo : N) : res (list N * N * N) :=
  '(buf, co, uo) <-
    (if 0 <? literal_size then
       check (literal_size <=? len c - co) ;;;
       check (literal_size <=? len buf - uo) ;;;
       literal <- slice c co (co + literal_size) ;;
       buf' <- write_at buf uo literal ;;
       Ok (buf', co + literal_size, uo + literal_size)
     else Ok (buf, co, uo)) ;;
  if 0 <? match_size then
    check (distance <=? uo) ;;;
    check (match_size <=? len buf - uo) ;;;
    match_offset <- sub_chk uo distance ;;
    buf' <- copy_loop (N.to_nat match_size) buf uo match_offset ;;
    Ok (buf', co, uo + match_size)
  else Ok (buf, co, uo).

(** [LzvnContext::decompress]: lzvn.rs 316-515. [distance] survives from one oppcode
    to the next. *)
Fixpoint lzvn_loop (fuel : nat) (c : list N) (co : N) (buf : list N) (uo distance : N)
    : res (list N * N) :=
  match fuel with
  | O => Panic
  | S fuel' =>
      if co <? len c then
        if len buf <=? uo then Ok (buf, uo)
        else
          oppcode <- idx c co ;;
          operands <- lzvn_operands c oppcode (co + 1) distance ;;
          match operands with
          | None => Ok (buf, uo)
          | Some (literal_size, match_size, distance, co) =>
              '(buf, co, uo) <- lzvn_apply c literal_size match_size distance co buf uo ;;
              lzvn_loop fuel' c co buf uo distance
          end
      else Ok (buf, uo)
  end.

Definition lzvn_decompress (c buf : list N) : res (list N * N) :=
  lzvn_loop (S (length c)) c 0 buf 0 0.

(** ** LZNT1: keramics-compression/src/lznt1.rs *)

(** The loop that adapts the split of a tuple, lznt1.rs 307-316; returns the new
    threshold, shift and mask. The shift is at most 12, so 13 rounds are enough. *)
Fixpoint lznt1_adapt (fuel : nat) (uo threshold shift mask : N) : res (N * N * N) :=
  match fuel with
  | O => Panic
  | S fuel' =>
      if threshold <? uo then
        if shift =? 0 then Err
        else lznt1_adapt fuel' uo (N.shiftl threshold 1) (shift - 1) (N.shiftr mask 1)
      else Ok (threshold, shift, mask)
  end.

(** The [for _ in 0..8] loop of a flag byte, lznt1.rs 220-317. [buf] is the
    destination from the start of the chunk on. *)
Fixpoint lznt1_tokens (n : nat) (c : list N) (end_offset : N)
    (flags co : N) (buf : list N) (uo threshold shift mask : N)
    : res (N * list N * N * (N * N * N)) :=
  match n with
  | O => Ok (co, buf, uo, (threshold, shift, mask))
  | S n' =>
      '(co, buf, uo) <-
        (if negb (N.land flags 0x01 =? 0) then
           check (2 <=? len c - co) ;;;
           tuple <- u16_le_at c co ;;
           let co := co + 2 in
           distance <- add_chk two16 (N.shiftr tuple shift) 1 ;;
           match_size <- add_chk two16 (N.land tuple mask) 3 ;;
           check (distance <=? uo) ;;;
           check (match_size <=? len buf - uo) ;;;
           match_offset <- sub_chk uo distance ;;
           buf' <- copy_loop (N.to_nat match_size) buf uo match_offset ;;
           Ok (co, buf', uo + match_size)
         else
           check (co <? len c) ;;;
           check (uo <? len buf) ;;;
           v <- idx c co ;;
           buf' <- upd buf uo v ;;
           Ok (co + 1, buf', uo + 1)) ;;
      let flags := N.shiftr flags 1 in
      if end_offset <=? co then Ok (co, buf, uo, (threshold, shift, mask))
      else
        '(threshold, shift, mask) <- lznt1_adapt 14 uo threshold shift mask ;;
        lznt1_tokens n' c end_offset flags co buf uo threshold shift mask
  end.

(** [decompress_block]: lznt1.rs 181-325; the outer loop. Returns the buffer and the
    number of bytes written. *)
Fixpoint lznt1_block_loop (fuel : nat) (c : list N) (end_offset co : N)
    (buf : list N) (uo threshold shift mask : N) : res (list N * N) :=
  match fuel with
  | O => Panic
  | S fuel' =>
      if co <? end_offset then
        if len c <=? co then Ok (buf, uo)
        else
          flags <- idx c co ;;
          '(co, buf, uo, (threshold, shift, mask)) <-
            lznt1_tokens 8 c end_offset flags (co + 1) buf uo threshold shift mask ;;
          lznt1_block_loop fuel' c end_offset co buf uo threshold shift mask
      else Ok (buf, uo)
  end.

Definition lznt1_block (c : list N) (co block_size : N) (buf : list N) : res (list N * N) :=
  lznt1_block_loop (S (N.to_nat block_size)) c (co + block_size) co buf 0 16 12 0x0fff.

(** [Lznt1Context::decompress]: lznt1.rs 86-178, with the block header 52-64. *)
Fixpoint lznt1_loop (fuel : nat) (c : list N) (co : N) (buf : list N) (uo : N)
    : res (list N * N) :=
  match fuel with
  | O => Panic
  | S fuel' =>
      if co <? len c then
        if len buf <=? uo then Ok (buf, uo)
        else
          check (2 <=? len c - co) ;;;
          header <- u16_le_at c co ;;
          if header =? 0 then Ok (buf, uo)
          else
            let block_size := N.land header 0x0fff + 1 in
            let co := co + 2 in
            if negb (N.land header 0x8000 =? 0) then
              tail <- slice buf uo (len buf) ;;
              '(tail', write_count) <- lznt1_block c co block_size tail ;;
              buf' <- write_at buf uo tail' ;;
              lznt1_loop fuel' c (co + block_size) buf' (uo + write_count)
            else
              check (co + block_size <=? len c) ;;;
              check (uo + block_size <=? len buf) ;;;
              literal <- slice c co (co + block_size) ;;
              buf' <- write_at buf uo literal ;;
              lznt1_loop fuel' c (co + block_size) buf' (uo + block_size)
      else Ok (buf, uo)
  end.

Definition lznt1_decompress (c buf : list N) : res (list N * N) :=
  lznt1_loop (S (length c)) c 0 buf 0.
