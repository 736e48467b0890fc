(** * C10: DEFLATE decompression inverts valid streams and is safe on invalid ones *)
From Verif Require Import Base BaseLemmas Lz_spec Huffman_spec Deflate_model Deflate_spec Deflate_proofs Deflate_streams.
Ltac Zify.zify_post_hook ::= idtac.

(** Any sequence of stored, fixed and dynamic blocks, in any bytes that start with its
    bits, is decoded to what it means, at the start of the destination. Missing: blocks
    without any distance code, see below. *)
Theorem C10_valid_streams_decode_partial :
  forall blocks data following buf,
  wf_bytes data -> bits_of data = blocks_bits blocks ++ following ->
  blocks_valid 0 [] blocks -> Forall has_distance_code blocks ->
  len (blocks_meaning blocks) <= len buf ->
  deflate_decompress data buf =
    Ok (blocks_meaning blocks ++ skipn (length (blocks_meaning blocks)) buf, len (blocks_meaning blocks)).
Proof.
  intros bs data r buf Hwf Hb Hv Hd Hl. unfold deflate_decompress.
  destruct (decompress_bitstream_rt data 0 bs r buf Hwf ltac:(lia) Hb Hv Hd Hl) as (s & E & _).
  rewrite E. reflexivity.
Qed.
Print Assumptions C10_valid_streams_decode_partial.

(** Decoding ends without a panic on every input and for every destination. *)
Theorem C10_no_panic :
  forall data buf, wf_bytes data -> deflate_decompress data buf <> Panic.
Proof.
  intros data buf Hwf. unfold deflate_decompress.
  destruct (decompress_bitstream_safe data 0 (length buf) Hwf ltac:(lia)) as [E | (w & s & p & _ & _ & _ & _ & E)];
    rewrite E by reflexivity; discriminate.
Qed.
Print Assumptions C10_no_panic.

(** It writes the reported number of bytes at the start of the destination and leaves the
    others alone, and neither the outcome nor those bytes depend on what was in it. *)
Theorem C10_previous_content_irrelevant :
  forall data (buf : list N), wf_bytes data ->
  (forall buf', length buf' = length buf -> deflate_decompress data buf' = Err) \/
  exists out, len out <= len buf /\ wf_bytes out /\
    forall buf', length buf' = length buf ->
      deflate_decompress data buf' = Ok (out ++ skipn (length out) buf', len out).
Proof.
  intros data buf Hwf. unfold deflate_decompress.
  destruct (decompress_bitstream_safe data 0 (length buf) Hwf ltac:(lia)) as [E | (w & s & p & L & _ & _ & W & E)].
  - left. intros buf' Hl. rewrite E by exact Hl. reflexivity.
  - right. exists w. split; [unfold len; lia |]. split; [apply W; constructor |].
    intros buf' Hl. rewrite E by exact Hl. reflexivity.
Qed.
Print Assumptions C10_previous_content_irrelevant.

(** RFC 1951 lets a block of literals only send a single distance code of length zero.
    Such a block is rejected. *)
Definition literals_only : dynamic_header := {|
  number_of_literals := 257; number_of_distances := 1; number_sent := 18;
  code_length_lengths := [2; 1] ++ repeat 0 16 ++ [2];
  instructions := [CManyZeros 97; CLength 1; CManyZeros 138; CManyZeros 20; CLength 1; CLength 0];
  literal_lengths := repeat 0 97 ++ [1] ++ repeat 0 158 ++ [1];
  distance_lengths := [0] |}.
Lemma literals_only_valid : header_valid literals_only.
Proof.
  unfold header_valid. cbn [literals_only number_of_literals number_of_distances number_sent
    code_length_lengths instructions literal_lengths distance_lengths].
  repeat match goal with |- _ /\ _ => split end; try reflexivity; try discriminate.
  - apply Forall_forall. intros x Hx. apply in_app_or in Hx as [[<- | [<- | []]] | Hx]; try reflexivity.
    apply in_app_or in Hx as [Hx | [<- | []]]; [apply repeat_spec in Hx; subst |]; reflexivity.
  - intros i Hi. assert (i = 18) by lia. subst. reflexivity.
  - repeat first [apply Forall_nil | apply Forall_cons]; repeat split; try reflexivity; discriminate.
  - split; reflexivity.
Qed.
Definition literals_only_block : stream_block := Dynamic literals_only [DLiteral 97; DLiteral 97].

Theorem C10_valid_streams_decode_refuted :
  ~ (forall blocks data following buf,
     wf_bytes data -> bits_of data = blocks_bits blocks ++ following ->
     blocks_valid 0 [] blocks -> len (blocks_meaning blocks) <= len buf ->
     exists result, deflate_decompress data buf = Ok result).
Proof.
  intros H.
  destruct (H [literals_only_block] (pack (blocks_bits [literals_only_block])) (repeat false 7) [0; 0]) as (r & E).
  - apply wf_bytesb_iff. vm_compute. reflexivity.
  - vm_compute. reflexivity.
  - cbn [blocks_valid literals_only_block block_valid tokens_valid token_valid].
    split; [apply literals_only_valid |]. repeat split; try reflexivity.
  - vm_compute. discriminate.
  - vm_compute in E. discriminate E.
Qed.
Print Assumptions C10_valid_streams_decode_refuted.

(** A stream that ends early is not reported: without data nothing is decoded, with
    success. *)
Theorem C10_truncated_stream_accepted :
  forall buf, deflate_decompress [] buf = Ok (buf, 0).
Proof. reflexivity. Qed.
Print Assumptions C10_truncated_stream_accepted.

(** ** Cases *)
(** A stored block, a fixed one with an overlapping match, and a dynamic one. *)
Definition some_header : dynamic_header := {|
  number_of_literals := 257; number_of_distances := 1; number_sent := 18;
  code_length_lengths := [2; 1] ++ repeat 0 16 ++ [2];
  instructions := [CManyZeros 97; CLength 1; CManyZeros 138; CManyZeros 20; CLength 1; CLength 1];
  literal_lengths := repeat 0 97 ++ [1] ++ repeat 0 158 ++ [1];
  distance_lengths := [1] |}.
Definition some_blocks : list stream_block :=
  [Stored (repeat false 5) [1; 2; 255]; Fixed [DLiteral 104; DMatch 265 1 3 0]; Dynamic some_header [DLiteral 97]].
Example C10_case_meaning :
  blocks_meaning some_blocks = [1; 2; 255; 104; 1; 2; 255; 104; 1; 2; 255; 104; 1; 2; 255; 104; 97].
Proof. vm_compute. reflexivity. Qed.
Lemma some_header_valid : header_valid some_header.
Proof.
  unfold header_valid. cbn [some_header number_of_literals number_of_distances number_sent
    code_length_lengths instructions literal_lengths distance_lengths].
  repeat match goal with |- _ /\ _ => split end; try reflexivity; try discriminate.
  - apply Forall_forall. intros x Hx. apply in_app_or in Hx as [[<- | [<- | []]] | Hx]; try reflexivity.
    apply in_app_or in Hx as [Hx | [<- | []]]; [apply repeat_spec in Hx; subst |]; reflexivity.
  - intros i Hi. assert (i = 18) by lia. subst. reflexivity.
  - repeat first [apply Forall_nil | apply Forall_cons]; repeat split; try reflexivity; discriminate.
  - split; reflexivity.
Qed.
Example C10_case_valid : blocks_valid 0 [] some_blocks /\ Forall has_distance_code some_blocks.
Proof.
  split.
  - cbn [blocks_valid some_blocks].
    split; [| split].
    + split; [discriminate |]. split; [apply wf_bytesb_iff; reflexivity |]. split; [cbn; lia | reflexivity].
    + cbn [block_valid tokens_valid token_valid]. repeat split; try reflexivity; discriminate.
    + split; [apply some_header_valid |]. cbn [tokens_valid token_valid]. repeat split; reflexivity.
  - repeat first [apply Forall_nil | apply Forall_cons]; cbn [has_distance_code]; auto.
    exists 0. split; reflexivity.
Qed.
(** "hello hello hello hello" as compressed by zlib. *)
Example C10_case_zlib :
  deflate_decompress [203; 72; 205; 201; 201; 87; 200; 64; 39; 1] (repeat 0 24) =
  Ok ([104; 101; 108; 108; 111; 32; 104; 101; 108; 108; 111; 32; 104; 101; 108; 108; 111; 32; 104; 101; 108; 108; 111; 0], 23).
Proof. vm_compute. reflexivity. Qed.
