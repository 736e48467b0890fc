(** * C12: bzip2 decompression undoes the block transforms and never panics

    The streams are those of [Bzip2_spec], [stream_of limit size]: with code words of up to
    [limit] bits, and blocks of up to [size] bytes before the Burrows-Wheeler transform. The
    format has [limit] 20 and [size] 100000 times the level. The code reads those with code
    words of up to 19 bits and one block of up to 100000 bytes. *)
From Coq Require Import Permutation Sorted.
From Verif Require Import Base BaseLemmas Checksums_model Checksums_spec Checksums_proofs Huffman_model Huffman_spec Bzip2_model Bzip2_spec
  Bzip2_proofs Bzip2_bwt_proofs Bzip2_stream_proofs Bzip2_total_proofs.
Ltac Zify.zify_post_hook ::= idtac.

(** ** The Burrows-Wheeler and the first run-length decoding, of blocks of any size *)
Theorem C12_block_transforms_undone data text last_bytes origin before room :
  rle1 None data text -> bwt text last_bytes origin -> wf_bytes data -> data <> [] ->
  bz_reverse_bwt last_bytes origin (before ++ room) (len before) =
  if len data <=? len room then Ok (before ++ data ++ skipn (length data) room, len before + len data) else Err.
Proof.
  intros Hr Hb Hw Hne. rewrite (bz_reverse_bwt_ok text).
  - now rewrite (put_all_ok _ _ _ Hr) by reflexivity.
  - exact (rle1_wf _ _ _ Hr Hw).
  - destruct Hr as [p | p b n d e Hn Hp H | p b k d e Hk Hp H]; [congruence | |]; [destruct n; [lia |] |]; discriminate.
  - exact Hb.
Qed.
Print Assumptions C12_block_transforms_undone.

(** ** Streams *)
(** What a stream decodes to. *)
Theorem C12_stream_result limit size level blocks bytes buf :
  limit <= 19 -> size <= 900000 -> stream_of limit size level blocks bytes ->
  bzip2_decompress bytes buf =
  if forallb (fun '(_, b) => len (block_text b) <=? 100000) blocks && (len (stream_data blocks) <=? len buf) &&
     (stream_crc (map fst blocks) =? crc (stream_data blocks))
  then Ok (stream_data blocks ++ skipn (length (stream_data blocks)) buf, len (stream_data blocks))
  else Err.
Proof.
  intros Hl Hs H. unfold bzip2_decompress. rewrite (bzip2_stream_ok Panic limit size level blocks) by (auto; lia).
  assert (E : forallb small blocks = forallb (fun '(_, b) => len (block_text b) <=? 100000) blocks).
  { clear. induction blocks as [| [d b] blocks IH]; [reflexivity |]. cbn [forallb]. now rewrite IH. }
  now rewrite E.
Qed.
Print Assumptions C12_stream_result.

Lemma stream_crc_one data : stream_crc [data] = crc data.
Proof. unfold stream_crc, combine. cbn [fold_left]. change (N.lor (N.shiftl 0 1 mod 2 ^ 32) (N.shiftr 0 31)) with 0. apply N.lxor_0_l. Qed.

(** Data of one block. What is missing: streams of several blocks, blocks of more than 100000
    bytes and code words of 20 bits, which are refuted below. *)
Theorem C12_valid_stream_decodes_partial level data block bytes buf :
  stream_of 19 100000 level [(data, block)] bytes -> len data <= len buf ->
  bzip2_decompress bytes buf = Ok (data ++ skipn (length data) buf, len data).
Proof.
  intros H Hb. rewrite (C12_stream_result 19 100000 level [(data, block)]) by (auto; lia).
  destruct H as (_ & Hf & _). apply Forall_cons_iff in Hf. destruct Hf as [(_ & _ & _ & _ & _ & Ht & _) _].
  unfold stream_data. cbn [forallb map fst concat]. rewrite app_nil_r, stream_crc_one, N.eqb_refl.
  destruct (N.leb_spec (len (block_text block)) 100000); [| lia]. destruct (N.leb_spec (len data) (len buf)); [reflexivity | lia].
Qed.
Print Assumptions C12_valid_stream_decodes_partial.

Theorem C12_no_room level data block bytes buf :
  stream_of 19 100000 level [(data, block)] bytes -> len buf < len data -> bzip2_decompress bytes buf = Err.
Proof.
  intros H Hb. rewrite (C12_stream_result 19 100000 level [(data, block)]) by (auto; lia).
  unfold stream_data. cbn [forallb map fst concat]. rewrite app_nil_r. destruct (N.leb_spec (len data) (len buf)); [lia |].
  now rewrite andb_false_r.
Qed.
Print Assumptions C12_no_room.

(** Blocks of more than 100000 bytes, which all levels but the first have for longer data. *)
Theorem C12_large_blocks_rejected limit size level blocks bytes buf :
  limit <= 19 -> size <= 900000 -> stream_of limit size level blocks bytes ->
  Exists (fun '(_, b) => 100000 < len (block_text b)) blocks -> bzip2_decompress bytes buf = Err.
Proof.
  intros Hl Hs H He. rewrite (C12_stream_result limit size level blocks) by auto.
  assert (E : forallb (fun '(_, b) => len (block_text b) <=? 100000) blocks = false).
  { clear - He. induction He as [[d b] bs Hx | [d b] bs _ IH]; cbn [forallb].
    - destruct (N.leb_spec (len (block_text b)) 100000); [lia | reflexivity].
    - rewrite IH. apply andb_false_r. }
  now rewrite E.
Qed.
Print Assumptions C12_large_blocks_rejected.

(** The checksum of the stream is compared with the checksum of all the data; the format has
    one made from the checksums of the blocks there, the same for one block only. *)
Theorem C12_several_blocks limit size level blocks bytes buf :
  limit <= 19 -> size <= 900000 -> stream_of limit size level blocks bytes ->
  stream_crc (map fst blocks) <> crc (stream_data blocks) -> bzip2_decompress bytes buf = Err.
Proof.
  intros Hl Hs H Hc. rewrite (C12_stream_result limit size level blocks) by auto.
  apply N.eqb_neq in Hc. now rewrite Hc, andb_false_r.
Qed.
Print Assumptions C12_several_blocks.

(** ** Any input *)
(** Other data give an error or a result that fits the buffer, except that one of three
    subtractions or shifts overflows: [overflow] is what follows such an overflow. *)
Theorem C12_panics_are_overflows_partial overflow data buf : wf_bytes data -> wf_bytes buf ->
  match bzip2_decompress_with overflow data buf with
  | Ok (buf', n) => len buf' = len buf /\ wf_bytes buf' /\ n <= len buf
  | Err => True
  | Panic => overflow = Panic
  end.
Proof. apply bzip2_total. Qed.
Print Assumptions C12_panics_are_overflows_partial.

(** The three: a code length counted down below 0, code lengths of too many code words, and
    more than 64 symbols for one run. *)
Theorem C12_no_panic_refuted :
  ~ (forall data buf, wf_bytes data -> wf_bytes buf -> bzip2_decompress data buf <> Panic) /\
  Forall (fun rest => wf_bytes rest /\
    bzip2_decompress ([66; 90; 104; 49; 49; 65; 89; 38; 83; 89; 0; 0; 0; 0; 0; 0; 0; 1; 0; 32; 0; 32; 0; 32] ++ rest) [] = Panic)
    [[96]; [128]; [160; 40; 0; 0; 0; 0; 0; 0; 0; 0; 0]].
Proof.
  split.
  - intros H. refine (H [66; 90; 104; 49; 49; 65; 89; 38; 83; 89; 0; 0; 0; 0; 0; 0; 0; 1; 0; 32; 0; 32; 0; 32; 96] [] _ _ _).
    + repeat constructor.
    + constructor.
    + vm_compute. reflexivity.
  - repeat (constructor; [split; [repeat constructor | vm_compute; reflexivity] |]). constructor.
Qed.
Print Assumptions C12_no_panic_refuted.

(** ** Examples of streams *)
Fixpoint lengths_check (limit l : N) (lengths : list N) (bits : list bool) : bool :=
  match lengths, bits with
  | [], [] => true
  | m :: lengths', false :: r => (1 <=? l) && (l <=? limit) && (l =? m) && lengths_check limit l lengths' r
  | _ :: _, true :: false :: r => (1 <=? l) && (l <=? limit) && lengths_check limit (l + 1) lengths r
  | _ :: _, true :: true :: r => (1 <=? l) && (l <=? limit) && lengths_check limit (l - 1) lengths r
  | _, _ => false
  end.
Lemma lengths_check_ok limit : forall n bits, (length bits <= n)%nat -> forall l lengths,
  lengths_check limit l lengths bits = true ->
  match lengths with
  | [] => bits = []
  | m :: lengths' => exists b r, bits = b ++ r /\ steps limit l m b /\ lengths_check limit m lengths' r = true /\ (length r < length bits)%nat
  end.
Proof.
  induction n as [| n IH]; intros bits Hn l lengths E.
  - destruct bits; [| cbn in Hn; lia]. destruct lengths; [reflexivity | discriminate].
  - destruct lengths as [| m ls]; [destruct bits; [reflexivity | discriminate] |].
    destruct bits as [| [|] bits]; [discriminate | |].
    + destruct bits as [| [|] bits]; [discriminate | |]; cbn [lengths_check] in E;
        apply andb_true_iff in E; destruct E as [E1 E]; apply andb_true_iff in E1; destruct E1 as [Ea Eb];
        apply N.leb_le in Ea, Eb; cbn [length] in Hn; destruct (IH bits ltac:(lia) _ _ E) as (b & r & -> & S & C & L).
      * exists (true :: true :: b), r. split; [reflexivity |]. split; [now constructor |]. split; [exact C | cbn [length]; lia].
      * exists (true :: false :: b), r. split; [reflexivity |]. split; [now constructor |]. split; [exact C | cbn [length]; lia].
    + cbn [lengths_check] in E. apply andb_true_iff in E. destruct E as [E1 E]. apply andb_true_iff in E1. destruct E1 as [E1 Em].
      apply andb_true_iff in E1. destruct E1 as [Ea Eb]. apply N.leb_le in Ea, Eb. apply N.eqb_eq in Em. subst m.
      exists [false], bits. split; [reflexivity |]. split; [now constructor |]. split; [exact E | cbn [length]; lia].
Qed.
Lemma lengths_check_sound limit : forall lengths l bits, lengths_check limit l lengths bits = true -> lengths_bits limit l lengths bits.
Proof.
  induction lengths as [| m ls IH]; intros l bits E; pose proof (lengths_check_ok limit _ bits (le_n _) l _ E) as H; cbn in H.
  - subst. constructor.
  - destruct H as (b & r & -> & S & C & _). econstructor; [exact S | now apply IH].
Qed.
Definition table_check (limit start : N) (lengths : list N) (bits : list bool) : bool :=
  (if list_eq_dec Bool.bool_dec (firstn 5 bits) (number_bits 5 start) then true else false) && (start <? 32) &&
  lengths_check limit start lengths (skipn 5 bits) && (kraft 20 lengths =? 2 ^ 20).
Lemma table_check_sound limit start lengths bits : table_check limit start lengths bits = true -> table_bits limit lengths bits.
Proof.
  unfold table_check. intros E. apply andb_true_iff in E. destruct E as [E E4]. apply andb_true_iff in E. destruct E as [E E3].
  apply andb_true_iff in E. destruct E as [E1 E2]. destruct (list_eq_dec _ _ _) as [E1' |]; [| discriminate].
  exists start, (skipn 5 bits). split; [rewrite <- E1'; symmetry; apply firstn_skipn |]. split; [now apply N.ltb_lt |].
  split; [now apply lengths_check_sound |]. now apply N.eqb_eq.
Qed.
Ltac perm_find x pre post :=
  match post with
  | x :: ?t => apply (Permutation_cons_app pre t); cbn [app]
  | ?y :: ?t => let pre' := eval cbn [app] in (pre ++ [y]) in perm_find x pre' t
  end.
Ltac perm := repeat match goal with
  | |- Permutation [] [] => constructor
  | |- Permutation (?x :: _) ?r => perm_find x (@nil (list N)) r
  end.
Definition b01 (l : list N) : list bool := map (fun x => x =? 1) l.
Definition one_of (l : list N) (x : N) : bool := existsb (N.eqb x) l.

(** Written by a compressor, checked with bzip2: "aaaaaabc" with two tables, of which the
    first symbols have the second. *)
Definition example_data : list N := [97; 97; 97; 97; 97; 97; 98; 99].
Definition example_block : block := {|
  block_text := [97; 97; 97; 97; 2; 98; 99];
  block_last := [97; 97; 97; 97; 99; 2; 98];
  block_origin := 4;
  block_used := one_of [2; 97; 98; 99];
  block_symbols := [2; 0; 0; 4; 3; 4];
  block_tables := [[3; 2; 2; 3; 3; 3]; [2; 2; 2; 3; 4; 4]];
  block_selectors := [1; 0];
  block_table_bits := [b01 [0; 0; 0; 1; 1; 0; 1; 1; 0; 0; 1; 0; 0; 0; 0]; b01 [0; 0; 0; 1; 0; 0; 0; 0; 1; 0; 0; 1; 0; 0; 0]] |}.
Definition example_bytes : list N :=
  [66; 90; 104; 57; 49; 65; 89; 38; 83; 89; 27; 252; 138; 40; 0; 0; 2; 65; 0; 16; 0; 56; 0; 32; 0; 84; 54; 64; 66; 68; 29; 187; 197;
   220; 145; 78; 20; 36; 6; 255; 34; 138; 0].
Lemma example_rle1 : rle1 None example_data (block_text example_block).
Proof.
  apply (R_long None 97 2 [98; 99] [98; 99]); [lia | discriminate |].
  apply (R_short None 98 1 [99] [99]); [lia | discriminate |].
  apply (R_short (Some 98) 99 1 [] []); [lia | discriminate | constructor].
Qed.
Lemma example_bwt : bwt (block_text example_block) (block_last example_block) (block_origin example_block).
Proof.
  exists [[2; 98; 99; 97; 97; 97; 97]; [97; 2; 98; 99; 97; 97; 97]; [97; 97; 2; 98; 99; 97; 97]; [97; 97; 97; 2; 98; 99; 97];
    [97; 97; 97; 97; 2; 98; 99]; [98; 99; 97; 97; 97; 97; 2]; [99; 97; 97; 97; 97; 2; 98]].
  split; [cbn; perm |]. split; [| split; reflexivity].
  repeat (constructor; [| repeat (constructor; [cbn [lex_le]; lia |]); constructor]). constructor.
Qed.
Lemma example_stream : stream_of 19 100000 9 [(example_data, example_block)] example_bytes.
Proof.
  split; [lia |]. split.
  - constructor; [| constructor]. split; [exact example_rle1 |]. split; [exact example_bwt |].
    split; [repeat constructor |].
    split. { apply (Z_index 1 [0; 0; 0; 3; 2; 3] [0; 0; 4; 3; 4]); [lia |].
      apply (Z_run [0; 0] [3; 2; 3] [4; 3; 4]); [discriminate | repeat constructor; lia | discriminate |].
      apply (Z_index 3); [lia |]. apply (Z_index 2); [lia |]. apply (Z_index 3); [lia | constructor]. }
    split; [repeat constructor |]. split; [cbn; lia |]. split; [cbn; lia |].
    split. { constructor; [now apply (table_check_sound 19 3) | constructor; [now apply (table_check_sound 19 2) | constructor]]. }
    split; [repeat constructor |]. split; [cbn; lia |]. split; [repeat constructor; cbn; lia | cbn; lia].
  - exists (skipn 4 example_bytes), (repeat false 6). split; [reflexivity |]. split; [repeat constructor |].
    split; [cbn; lia |]. vm_compute. reflexivity.
Qed.
Example C12_valid_stream_decodes_reachable :
  bzip2_decompress example_bytes (repeat 7 10) = Ok (example_data ++ [7; 7], 8).
Proof. exact (C12_valid_stream_decodes_partial 9 _ _ _ (repeat 7 10) example_stream ltac:(cbn; lia)). Qed.
Example C12_no_room_reachable : bzip2_decompress example_bytes (repeat 7 7) = Err.
Proof. exact (C12_no_room 9 _ _ _ (repeat 7 7) example_stream ltac:(cbn; lia)). Qed.
Example C12_block_transforms_reachable :
  bz_reverse_bwt [97; 97; 97; 97; 99; 2; 98] 4 ([1; 1] ++ repeat 7 9) 2 = Ok ([1; 1] ++ example_data ++ [7], 10).
Proof. exact (C12_block_transforms_undone _ _ _ _ [1; 1] (repeat 7 9) example_rle1 example_bwt ltac:(repeat constructor) ltac:(discriminate)). Qed.

(** Two blocks, "a" and "b". *)
Definition two_block (c : N) : block := {|
  block_text := [c]; block_last := [c]; block_origin := 0; block_used := one_of [c]; block_symbols := [0];
  block_tables := [[1; 2; 2]; [1; 2; 2]]; block_selectors := [0];
  block_table_bits := [b01 [0; 0; 0; 0; 1; 0; 1; 0; 0; 0]; b01 [0; 0; 0; 0; 1; 0; 1; 0; 0; 0]] |}.
Definition two_bytes : list N :=
  [66; 90; 104; 49; 49; 65; 89; 38; 83; 89; 25; 147; 155; 107; 0; 0; 0; 1; 0; 32; 0; 32; 0; 32; 160; 40; 102; 40; 43; 36; 202; 107; 34;
   154; 23; 182; 64; 0; 0; 0; 32; 2; 0; 4; 0; 4; 20; 5; 12; 93; 201; 20; 225; 66; 64; 159; 222; 45; 144].
Lemma two_block_of c : c = 97 \/ c = 98 -> block_of 19 100000 [c] (two_block c).
Proof.
  intros Hc. split; [apply (R_short None c 1 [] []); [lia | discriminate | constructor] |].
  split. { exists [[c]]. split; [reflexivity |]. split; [repeat constructor |]. split; reflexivity. }
  split; [constructor; [cbn; now rewrite N.eqb_refl | constructor] |].
  split. { assert (E : mtf (alphabet (block_used (two_block c))) (block_last (two_block c)) = [0]) by (destruct Hc as [-> | ->]; reflexivity).
    rewrite E. apply (Z_run [0] [] []); [discriminate | repeat constructor; lia | discriminate | constructor]. }
  split; [constructor; [unfold byte_ok; lia | constructor] |]. split; [cbn; lia |]. split; [cbn; lia |].
  split. { repeat (constructor; [now apply (table_check_sound 19 1) |]). constructor. }
  split. { assert (E : len (alphabet (block_used (two_block c))) = 1) by (destruct Hc as [-> | ->]; reflexivity).
    rewrite E. repeat constructor. }
  split; [cbn; lia |]. split; [repeat constructor; cbn; lia | cbn; lia].
Qed.
Lemma two_stream : stream_of 19 100000 1 [([97], two_block 97); ([98], two_block 98)] two_bytes.
Proof.
  split; [lia |]. split; [constructor; [apply two_block_of; lia | constructor; [apply two_block_of; lia | constructor]] |].
  exists (skipn 4 two_bytes), (repeat false 2). split; [reflexivity |]. split; [repeat constructor |].
  split; [cbn; lia |]. vm_compute. reflexivity.
Qed.

(** A code word of 20 bits in a table no symbol uses. *)
Definition long_block : block := {|
  block_text := [97]; block_last := [97]; block_origin := 0; block_used := one_of (seqN 97 19); block_symbols := [0];
  block_tables := [[5; 5; 5; 5; 5; 5; 5; 5; 5; 5; 4; 4; 4; 4; 4; 4; 4; 4; 4; 4; 4]; seqN 1 20 ++ [20]]; block_selectors := [0];
  block_table_bits := [b01 [0; 0; 1; 0; 1; 0; 0; 0; 0; 0; 0; 0; 0; 0; 0; 1; 1; 0; 0; 0; 0; 0; 0; 0; 0; 0; 0; 0];
    b01 ([0; 0; 0; 0; 1] ++ concat (repeat [0; 1; 0] 19) ++ [0; 0])] |}.
Definition long_bytes : list N :=
  [66; 90; 104; 49; 49; 65; 89; 38; 83; 89; 25; 147; 155; 107; 0; 0; 0; 1; 128; 63; 255; 248; 0; 32; 0; 34; 128; 24; 0; 10; 73; 36; 146;
   73; 36; 146; 72; 181; 11; 185; 34; 156; 40; 72; 12; 201; 205; 181; 128].
Lemma long_stream : bzip2_stream 1 [([97], long_block)] long_bytes.
Proof.
  split; [lia |]. split.
  - constructor; [| constructor]. split; [apply (R_short None 97 1 [] []); [lia | discriminate | constructor] |].
    split. { exists [[97]]. split; [reflexivity |]. split; [repeat constructor |]. split; reflexivity. }
    split; [repeat constructor |].
    split. { change (mtf (alphabet (block_used long_block)) (block_last long_block)) with [0].
      apply (Z_run [0] [] []); [discriminate | repeat constructor; lia | discriminate | constructor]. }
    split; [repeat constructor |]. split; [cbn; lia |]. split; [cbn; lia |].
    split. { constructor; [now apply (table_check_sound 20 5) | constructor; [now apply (table_check_sound 20 1) | constructor]]. }
    split; [repeat constructor |]. split; [cbn; lia |]. split; [repeat constructor; cbn; lia | cbn; lia].
  - exists (skipn 4 long_bytes), (repeat false 7). split; [reflexivity |]. split; [repeat constructor |].
    split; [cbn; lia |]. vm_compute. reflexivity.
Qed.

(** A block of 100005 bytes before the transform: 2020101 times "a". *)
Definition large_times : nat := N.to_nat 20001.
Definition large_data : list N := repeat 97 (large_times * 101).
Definition large_block : block := {|
  block_text := repeat 97 (large_times * 5); block_last := repeat 97 (large_times * 5); block_origin := 0; block_used := one_of [97];
  block_symbols := [0; 1; 1; 0; 0; 1; 0; 1; 0; 1; 1; 0; 0; 0; 0; 1]; block_tables := [[1; 2; 2]; [1; 2; 2]]; block_selectors := [0];
  block_table_bits := [b01 [0; 0; 0; 0; 1; 0; 1; 0; 0; 0]; b01 [0; 0; 0; 0; 1; 0; 1; 0; 0; 0]] |}.
Lemma large_symbols : run_length [0; 1; 1; 0; 0; 1; 0; 1; 0; 1; 1; 0; 0; 0; 0; 1] = 100005.
Proof. reflexivity. Qed.
Lemma repeat_add {A} (x : A) a b : repeat x (a + b) = repeat x a ++ repeat x b.
Proof. apply repeat_app. Qed.
Lemma large_rle1 : forall m, rle1 None (repeat 97 (m * 101)) (repeat 97 (m * 5)).
Proof.
  induction m as [| m IH]; [constructor |]. change (S m * 101)%nat with (4 + 97 + m * 101)%nat. change (S m * 5)%nat with (4 + (1 + m * 5))%nat.
  rewrite !repeat_add. rewrite <- (repeat_add 97 4 97). exact (R_long None 97 97 _ _ ltac:(lia) ltac:(discriminate) IH).
Qed.
Lemma rotate_equal (x : N) n : rotate (repeat x n) = repeat x n.
Proof. destruct n; [reflexivity |]. cbn [repeat rotate]. symmetry. apply repeat_cons. Qed.
Lemma lex_le_refl l : lex_le l l.
Proof. induction l as [| x l IH]; [exact I |]. right. auto. Qed.
Lemma equal_bwt (x : N) n : (0 < n)%nat -> bwt (repeat x n) (repeat x n) 0.
Proof.
  intros Hn. exists (repeat (repeat x n) n). split; [| split; [| split]].
  - unfold rotations. rewrite repeat_length. assert (E : forall k, Nat.iter k rotate (repeat x n) = repeat x n).
    { induction k as [| k IH]; [reflexivity |]. change (Nat.iter (S k) rotate (repeat x n)) with (rotate (Nat.iter k rotate (repeat x n))).
      rewrite IH. apply rotate_equal. }
    rewrite (map_ext _ (fun _ => repeat x n) E). clear E Hn. generalize (repeat x n) as l. intros l. generalize 0%nat. 
    induction n as [| n IH]; intros a; [constructor |]. cbn [repeat seq map]. constructor. apply IH.
  - clear Hn. generalize (repeat x n) as l. intros l. induction n as [| n IH]; cbn [repeat]; constructor; [exact IH |].
    apply Forall_forall. intros y Hy. apply repeat_spec in Hy. subst. apply lex_le_refl.
  - assert (E : last (repeat x n) 0 = x). { destruct n; [lia |]. cbn [repeat]. rewrite repeat_cons. apply last_last. }
    revert E. generalize (repeat x n) at 1 3. intros l El. clear Hn. induction n as [| n IH]; [reflexivity |]. cbn [repeat map]. now rewrite El, <- IH.
  - destruct n; [lia | reflexivity].
Qed.
Lemma equal_mtf (x : N) n : mtf [x] (repeat x n) = repeat 0 n.
Proof.
  induction n as [| n IH]; [reflexivity |]. cbn [repeat mtf index_of]. unfold front. cbn [filter]. rewrite N.eqb_refl. cbn [negb].
  now rewrite IH.
Qed.
Lemma large_size : N.of_nat (large_times * 5) = 100005.
Proof. unfold large_times. rewrite Nat2N.inj_mul, N2Nat.id. reflexivity. Qed.
Lemma large_block_of : block_of 19 900000 large_data large_block.
Proof.
  pose proof large_size as Hs. unfold block_of, large_data, large_block.
  cbn [block_text block_last block_origin block_used block_symbols block_tables block_selectors block_table_bits].
  generalize dependent large_times. intros m Hs.
  split; [apply large_rle1 |]. split; [apply equal_bwt; lia |].
  split; [apply Forall_forall; intros x Hx; apply repeat_spec in Hx; subst; reflexivity |].
  split. { change (alphabet (one_of [97])) with [97]. rewrite equal_mtf. replace (m * 5)%nat with (N.to_nat 100005) by lia.
    rewrite <- large_symbols, <- (app_nil_r (repeat 0 _)).
    apply (Z_run [0; 1; 1; 0; 0; 1; 0; 1; 0; 1; 1; 0; 0; 0; 0; 1] [] []); [discriminate | repeat constructor; lia | discriminate | constructor]. }
  split; [apply Forall_forall; intros x Hx; apply repeat_spec in Hx; subst; unfold byte_ok; lia |].
  split; [unfold len; rewrite repeat_length; lia |]. split; [cbn; lia |].
  split. { repeat (constructor; [now apply (table_check_sound 19 1) |]). constructor. }
  split; [repeat constructor |].
  split; [cbn; lia |]. split; [repeat constructor; cbn; lia | cbn; lia].
Qed.
Lemma bytes_of_bits : forall n bits, length bits = (8 * n)%nat -> exists l, wf_bytes l /\ bytes_bits l = bits.
Proof.
  induction n as [| n IH]; intros bits Hl; [exists []; split; [constructor | destruct bits; [reflexivity | discriminate]] |].
  destruct (IH (skipn 8 bits)) as (l & Hw & E); [rewrite skipn_length; lia |].
  destruct (bits_value_exists (firstn 8 bits)) as (v & Hv & Eb). rewrite firstn_length in Hv, Eb.
  replace (Nat.min 8 (length bits)) with 8%nat in Hv, Eb by lia.
  exists (v :: l). split; [constructor; [exact Hv | exact Hw] |]. unfold bytes_bits in *. cbn [flat_map]. rewrite E, Eb. apply firstn_skipn.
Qed.
Lemma stream_exists limit size level blocks : 1 <= level <= 9 -> Forall (fun '(data, b) => block_of limit size data b) blocks ->
  exists bytes, stream_of limit size level blocks bytes.
Proof.
  intros Hl Hf. set (bits := concat (map (fun '(data, b) => block_bits data b) blocks) ++
      number_bits 48 0x177245385090 ++ number_bits 32 (stream_crc (map fst blocks))).
  set (k := ((8 - length bits mod 8) mod 8)%nat).
  assert (Hk : (k < 8)%nat) by (apply Nat.mod_upper_bound; lia).
  destruct (bytes_of_bits ((length bits + k) / 8) (bits ++ repeat false k)) as (rest & Hw & E).
  { rewrite app_length, repeat_length. assert (Hm : ((length bits + k) mod 8 = 0)%nat).
    { unfold k. rewrite Nat.add_mod_idemp_r by lia. pose proof (Nat.mod_upper_bound (length bits) 8 ltac:(lia)) as Hb.
      rewrite <- Nat.add_mod_idemp_l by lia. replace (length bits mod 8 + (8 - length bits mod 8))%nat with 8%nat by lia. reflexivity. }
    apply Nat.div_exact; [lia | exact Hm]. }
  exists ([0x42; 0x5a; 0x68; 0x30 + level] ++ rest). split; [exact Hl |]. split; [exact Hf |].
  exists rest, (repeat false k). split; [reflexivity |]. split; [exact Hw |]. split; [rewrite repeat_length; exact Hk |].
  rewrite E. unfold bits. now rewrite <- !app_assoc.
Qed.

(** Streams of the format are not all decoded: not those with code words of 20 bits, with
    several blocks, or with blocks of more than 100000 bytes. *)
Definition decodes (level : N) (blocks : list (list N * block)) (bytes : list N) : Prop :=
  forall buf, len (stream_data blocks) <= len buf ->
    bzip2_decompress bytes buf = Ok (stream_data blocks ++ skipn (length (stream_data blocks)) buf, len (stream_data blocks)).
Theorem C12_every_stream_decodes_refuted :
  ~ (forall level blocks bytes, bzip2_stream level blocks bytes -> decodes level blocks bytes) /\
  (exists block bytes, bzip2_stream 1 [([97], block)] bytes /\ forall n, bzip2_decompress bytes (repeat 0 n) = Err) /\
  (exists block1 block2 bytes, stream_of 19 100000 1 [([97], block1); ([98], block2)] bytes /\ forall buf, bzip2_decompress bytes buf = Err) /\
  (exists data block bytes, stream_of 19 900000 9 [(data, block)] bytes /\ forall buf, bzip2_decompress bytes buf = Err).
Proof.
  assert (H2 : forall buf, bzip2_decompress two_bytes buf = Err).
  { intros buf. apply (C12_several_blocks 19 100000 1 _ _ _ ltac:(lia) ltac:(lia) two_stream). vm_compute. discriminate. }
  split; [| split; [| split]].
  - intros H. assert (Hs : bzip2_stream 1 [([97], two_block 97); ([98], two_block 98)] two_bytes).
    { destruct two_stream as (A1 & A2 & A3). split; [exact A1 |]. split; [| exact A3]. 
      eapply Forall_impl; [| exact A2]. intros [d b] (B1 & B2 & B3 & B4 & B5 & B6 & B7 & B8 & B9).
      split; [exact B1 |]. split; [exact B2 |]. split; [exact B3 |]. split; [exact B4 |]. split; [exact B5 |]. split; [lia |]. split; [exact B7 |].
      split; [| exact B9]. clear - B8. induction B8 as [| t bits ts bs Ht _ IH]; constructor; [| exact IH].
      destruct Ht as (start & rest & -> & Hst & Hl & Hc). exists start, rest. repeat split; auto. clear - Hl.
      induction Hl as [l | l m ls bits rest Hs Hl IH]; econstructor; [| exact IH]. clear - Hs. induction Hs; constructor; auto; lia. }
    specialize (H _ _ _ Hs [0; 0] ltac:(cbn; lia)). rewrite H2 in H. discriminate.
  - exists long_block, long_bytes. split; [exact long_stream |]. intros n. destruct n; [vm_compute; reflexivity |].
    cbn [repeat]. generalize (repeat 0 n). intros l. vm_compute. reflexivity.
  - exists (two_block 97), (two_block 98), two_bytes. split; [exact two_stream | exact H2].
  - destruct (stream_exists 19 900000 9 [(large_data, large_block)] ltac:(lia)) as (bytes & Hb).
    { constructor; [exact large_block_of | constructor]. }
    exists large_data, large_block, bytes. split; [exact Hb |]. intros buf.
    apply (C12_large_blocks_rejected 19 900000 9 _ _ buf ltac:(lia) ltac:(lia) Hb). constructor.
    unfold large_block. cbn [block_text]. unfold len. rewrite repeat_length, large_size. lia.
Qed.
Print Assumptions C12_every_stream_decodes_refuted.
