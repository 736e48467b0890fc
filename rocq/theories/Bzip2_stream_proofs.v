From Coq Require Import Permutation Sorted.
From Verif Require Import Base BaseLemmas Lz_model Checksums_model Checksums_spec Checksums_proofs Huffman_model Huffman_spec Huffman_proofs
  Bzip2_model Bzip2_spec Bzip2_proofs Bzip2_block_proofs Bzip2_bwt_proofs.
Ltac Zify.zify_post_hook ::= idtac.

(** ** Headers *)
Lemma At_number data n v s r : wf_bytes data -> (n <= 32)%nat ->
  At data s (number_bits n v ++ r) -> exists s', bz_value data (N.of_nat n) s = Ok (v mod 2 ^ N.of_nat n, s') /\ At data s' r.
Proof.
  intros Hwf Hn H. apply At_value; auto; [apply N.mod_lt, N.pow_nonzero; lia |].
  unfold number_bits in *. now rewrite bits_msb_mod.
Qed.
Lemma block_signature_bits : number_bits 48 0x314159265359 = number_bits 24 0x314159 ++ number_bits 24 0x265359.
Proof. vm_compute. reflexivity. Qed.
Lemma end_signature_bits : number_bits 48 0x177245385090 = number_bits 24 0x177245 ++ number_bits 24 0x385090.
Proof. vm_compute. reflexivity. Qed.

Lemma bz_header_block data c origin s r : wf_bytes data -> origin < 2 ^ 24 ->
  At data s (number_bits 48 0x314159265359 ++ number_bits 32 c ++ [false] ++ number_bits 24 origin ++ r) ->
  exists s', bz_header data s = Ok (0x314159265359, c mod 2 ^ 32, origin, s') /\ At data s' r.
Proof.
  intros Hwf Ho H. rewrite block_signature_bits, <- app_assoc in H. unfold bz_header.
  destruct (At_value data 24 0x314159 s _ Hwf ltac:(lia) ltac:(reflexivity) H) as (s1 & E1 & H1). change (N.of_nat 24) with 24 in E1.
  rewrite E1. cbn [bind].
  destruct (At_value data 24 0x265359 s1 _ Hwf ltac:(lia) ltac:(reflexivity) H1) as (s2 & E2 & H2). change (N.of_nat 24) with 24 in E2.
  rewrite E2. cbn [bind]. change (N.lor (N.shiftl 0x314159 24) 0x265359) with 0x314159265359. cbv zeta.
  change (0x314159265359 =? 0x177245385090) with false. change (0x314159265359 =? 0x314159265359) with true. cbv iota.
  destruct (At_number data 32 c s2 _ Hwf ltac:(lia) H2) as (s3 & E3 & H3). change (N.of_nat 32) with 32 in E3.
  rewrite E3. cbn [bind].
  destruct (At_bit data false s3 _ Hwf H3) as (s4 & E4 & H4). rewrite E4. cbn [bind].
  destruct (At_value data 24 origin s4 _ Hwf ltac:(lia) ltac:(exact Ho) H4) as (s5 & E5 & H5). change (N.of_nat 24) with 24 in E5.
  rewrite E5. cbn [bind]. exists s5. auto.
Qed.
Lemma bz_header_end data c s r : wf_bytes data ->
  At data s (number_bits 48 0x177245385090 ++ number_bits 32 c ++ r) ->
  exists s', bz_header data s = Ok (0x177245385090, c mod 2 ^ 32, 0, s') /\ At data s' r.
Proof.
  intros Hwf H. rewrite end_signature_bits, <- app_assoc in H. unfold bz_header.
  destruct (At_value data 24 0x177245 s _ Hwf ltac:(lia) ltac:(reflexivity) H) as (s1 & E1 & H1). change (N.of_nat 24) with 24 in E1.
  rewrite E1. cbn [bind].
  destruct (At_value data 24 0x385090 s1 _ Hwf ltac:(lia) ltac:(reflexivity) H1) as (s2 & E2 & H2). change (N.of_nat 24) with 24 in E2.
  rewrite E2. cbn [bind]. change (N.lor (N.shiftl 0x177245 24) 0x385090) with 0x177245385090. cbv zeta.
  change (0x177245385090 =? 0x177245385090) with true. cbv iota.
  destruct (At_number data 32 c s2 _ Hwf ltac:(lia) H2) as (s3 & E3 & H3). change (N.of_nat 32) with 32 in E3.
  rewrite E3. cbn [bind]. exists s3. auto.
Qed.
Lemma At_offset data s n v r : (8 <= n)%nat -> At data s (number_bits n v ++ r) -> bz_offset s < len data.
Proof.
  intros Hn [[Hc _] Hv]. apply (f_equal (@length bool)) in Hv. rewrite app_length in Hv. unfold number_bits in Hv.
  rewrite bits_msb_length in Hv. unfold view in Hv. rewrite app_length, bits_msb_length in Hv.
  destruct (N.lt_ge_cases (bz_offset s) (len data)) as [| Hge]; [assumption |]. exfalso.
  rewrite skipn_all2 in Hv by (unfold len in Hge; lia). cbn [bytes_bits flat_map length] in Hv. lia.
Qed.

(** ** Blocks *)
Lemma bwt_sizes text l origin : bwt text l origin -> length l = length text /\ origin < len text.
Proof.
  intros (R & Hp & _ & -> & Ho). assert (Hl : length R = length text).
  { rewrite (Permutation_length Hp). unfold rotations. now rewrite map_length, seq_length. }
  split; [now rewrite map_length |]. assert ((N.to_nat origin < length R)%nat) by (apply nth_error_Some; congruence). unfold len. lia.
Qed.

Lemma block_facts limit size d b : block_of limit size d b ->
  Forall (fun x => In x (alphabet (block_used b))) (block_last b) /\ 1 <= len (alphabet (block_used b)) /\
  Forall (fun t => len t = len (alphabet (block_used b)) + 1 + 1 /\ Forall (fun c => 1 <= c) t) (block_tables b) /\
  len (block_last b) = len (block_text b).
Proof.
  intros (Hrle & Hbwt & Hused & Hz & Hwd & Hsz & Htab & Htb & Htl & Hns & Hsel & Hsy).
  pose proof (bwt_sizes _ _ _ Hbwt) as [Hll Hor].
  assert (Hin : Forall (fun x => In x (alphabet (block_used b))) (block_last b)).
  { apply Forall_forall. intros x Hx. unfold alphabet. apply filter_In. rewrite Forall_forall in Hused. split; [| now apply Hused].
    destruct Hbwt as (R & Hp & _ & Hl & _). rewrite Hl in Hx. apply in_map_iff in Hx. destruct Hx as (q & <- & Hq).
    pose proof (Permutation_in _ Hp Hq) as Hq'. unfold rotations in Hq'. apply in_map_iff in Hq'. destruct Hq' as (k & <- & _).
    assert (Hi : In (last (Nat.iter k rotate (block_text b)) 0) (block_text b)).
    { apply (iter_in _ k). apply last_in. intros E. apply (f_equal (@length N)) in E. rewrite iter_length in E.
      unfold len in Hsz. cbn [length] in E. lia. }
    pose proof (rle1_wf _ _ _ Hrle Hwd) as Hwt. unfold wf_bytes in Hwt. rewrite Forall_forall in Hwt. apply Hwt in Hi.
    unfold byte_ok in Hi. apply in_seqN. lia. }
  split; [exact Hin |]. split.
  { destruct (block_last b) as [| x l]; [cbn in Hll; unfold len in Hsz; lia |]. apply Forall_cons_iff in Hin. destruct Hin as [Hx _].
    apply index_lt in Hx. lia. }
  split; [| unfold len; now rewrite Hll].
  clear - Htb Htl. induction Htb as [| x y l m Hb Htb IH]; [constructor |]. apply Forall_cons_iff in Htl. destruct Htl as [Hx Htl].
  constructor; [| now apply IH]. split; [lia |]. destruct Hb as (start & rest & _ & _ & Hb & _).
  destruct (lengths_range _ _ _ _ Hb) as [F _]. eapply Forall_impl; [| exact F]. intros c Hc. cbv beta in Hc. lia.
Qed.

Lemma bz_block_data_ok overflow data limit size d b trees old t s r :
  wf_bytes data -> size < 2 ^ 24 -> block_of limit size d b ->
  Forall2 (fun t tree => tree_for t 20 tree) (block_tables b) trees ->
  len (alphabet (block_used b) ++ t) = 256 ->
  At data s (symbols_bits (block_tables b) (block_selectors b) 0 (block_symbols b ++ [len (alphabet (block_used b)) + 1]) ++ r) ->
  if len (block_text b) <=? bzip2_block_size then
    exists stk' s', bz_block_data overflow data trees (block_selectors b ++ old) (len (block_selectors b)) (alphabet (block_used b) ++ t)
        (len (alphabet (block_used b)) + 2) s = Ok (block_last b, stk', s') /\ len stk' = 256 /\ At data s' r
  else bz_block_data overflow data trees (block_selectors b ++ old) (len (block_selectors b)) (alphabet (block_used b) ++ t)
        (len (alphabet (block_used b)) + 2) s = Err.
Proof.
  intros Hwf Hsize Hb F5 L1 H. destruct (block_facts _ _ _ _ Hb) as (Hin & Hal & Hlen & Hll).
  destruct Hb as (Hrle & Hbwt & Hused & Hz & Hwd & Hsz & Htab & Htb & Htl & Hns & Hsel & Hsy).
  pose proof (alphabet_nodup (block_used b)) as Hnd. clear Hrle Hbwt Hused Htab Htb Htl Hwd.
  generalize dependent (alphabet (block_used b)). intros al Hz L1 H Hin Hal Hlen Hnd.
  unfold bz_block_data. unfold sub_chk.
  destruct (N.leb_spec 1 (len al + 2)); [| lia]. cbn [bind]. replace (len al + 2 - 1) with (len al + 1) by lia.
  rewrite selector_at_ok by lia. cbn [bind].
  assert (HL40 : len (block_last b) < 2 ^ 40).
  { rewrite Hll. eapply N.le_lt_trans; [apply Hsz |]. eapply N.lt_trans; [exact Hsize |]. reflexivity. }
  pose proof (fun fuel => loop_ok overflow data (block_tables b) trees (block_selectors b) old (len al + 1)
    Hwf F5 Hsel Hlen _ _ Hz ltac:(lia) fuel al t (block_last b) 0 [] 0 0 s r
    eq_refl Hnd Hin eq_refl L1 ltac:(lia) ltac:(cbn; lia) ltac:(congruence) ltac:(cbn; lia) HL40 ltac:(lia)) as P.
  specialize (P (N.to_nat (50 * (len (block_selectors b) + 1) + 1)) ltac:(unfold len in *; lia) H).
  assert (Ez : (2 ^ 0 + 0 - 1) = 0) by reflexivity. rewrite Ez in P. cbn [N.to_nat repeat app] in P. unfold the_loop, loop_result in P.
  assert (Et : tix (block_selectors b) 0 = nth (N.to_nat 0) (block_selectors b) 0) by reflexivity. rewrite Et in P.
  rewrite Hll in P. destruct (N.leb_spec (len (block_text b)) bzip2_block_size) as [Hfit | Hbig].
  - destruct P as (stk' & s6 & H6 & L6 & E6). rewrite E6. cbn [bind bl_out bl_stack]. exists stk', s6. auto.
  - rewrite P. reflexivity.
Qed.

Lemma bz_block_ok overflow data limit size d b done tail sel stk s r :
  wf_bytes data -> limit <= 19 -> size < 2 ^ 24 -> block_of limit size d b -> len stk = 256 ->
  At data s (used_bits (block_used b) ++ number_bits 3 (len (block_tables b)) ++ number_bits 15 (len (block_selectors b)) ++
    selectors_bits (len (block_tables b)) (block_selectors b) ++ concat (block_table_bits b) ++
    symbols_bits (block_tables b) (block_selectors b) 0 (block_symbols b ++ [len (alphabet (block_used b)) + 1]) ++ r) ->
  if (len (block_text b) <=? bzip2_block_size) && (len d <=? len tail) then
    exists sel' stk' s', bz_block overflow data (block_origin b) (done ++ tail) (len done) sel stk s =
        Ok (done ++ d ++ skipn (length d) tail, len done + len d, sel', stk', s') /\ len stk' = 256 /\ At data s' r
  else bz_block overflow data (block_origin b) (done ++ tail) (len done) sel stk s = Err.
Proof.
  intros Hwf Hlim Hsize Hb Hstk H. destruct (block_facts _ _ _ _ Hb) as (_ & Hal & _ & _).
  pose proof Hb as (Hrle & Hbwt & _ & _ & Hwd & Hsz & Htab & Htb & Htl & Hns & Hsel & _).
  pose proof (alphabet_len (block_used b)) as Hal2.
  destruct (bz_symbol_stack_ok data (block_used b) stk s _ Hwf Hstk H) as (t & s1 & E1 & L1 & H1).
  destruct (At_value data 3 (len (block_tables b)) s1 _ Hwf ltac:(lia) ltac:(apply (N.le_lt_trans _ 6); [lia | reflexivity]) H1) as (s2 & E2 & H2).
  destruct (At_value data 15 (len (block_selectors b)) s2 _ Hwf ltac:(lia) ltac:(exact (proj2 Hns)) H2) as (s3 & E3 & H3).
  destruct (bz_selectors_ok data (len (block_tables b)) (block_selectors b) sel s3 _ Hwf ltac:(lia) Hsel H3) as (s4 & E4 & H4).
  destruct (bz_trees_ok overflow data limit (len (alphabet (block_used b)) + 2) Hwf Hlim ltac:(lia) _ _ Htb Htl s4 _ H4) as (trees & s5 & E5 & F5 & H5).
  pose proof (bz_block_data_ok overflow data limit size d b trees (skipn (length (block_selectors b)) sel) t s5 r Hwf Hsize Hb F5 L1 H5) as P.
  replace (length (block_tables b)) with (N.to_nat (len (block_tables b))) in E5 by (unfold len; lia).
  assert (Hor : forall buf off, bz_reverse_bwt (block_last b) (block_origin b) buf off = put_all (block_text b) buf off 0 0).
  { intros buf off. apply bz_reverse_bwt_ok; [exact (rle1_wf _ _ _ Hrle Hwd) | intros E; rewrite E in Hsz; cbn in Hsz; lia | exact Hbwt]. }
  pose proof (put_all_ok None d (block_text b) Hrle done tail 0 0 eq_refl) as Hput.
  clear H H1 H2 H3 H4 H5 F5 Hb Hrle Hbwt Htb Htl.
  unfold bz_block. rewrite E1. cbn [bind]. clear E1.
  generalize dependent (alphabet (block_used b)). intros al Hal Hal2 L1 E5 P.
  change (N.of_nat 3) with 3 in E2. rewrite E2. cbn [bind]. change (N.of_nat 15) with 15 in E3. rewrite E3. cbn [bind].
  rewrite E4. cbn [bind]. rewrite E5. cbn [bind].
  destruct (len (block_text b) <=? bzip2_block_size); cbn [andb].
  - destruct P as (stk' & s6 & E6 & L6 & H6). rewrite E6. cbn [bind]. rewrite Hor, Hput.
    destruct (len d <=? len tail); cbn [bind]; [| reflexivity].
    eexists _, stk', s6. split; [reflexivity |]. split; [exact L6 | exact H6].
  - rewrite P. reflexivity.
Qed.

(** ** Streams *)
Definition small (x : list N * block) : bool := len (block_text (snd x)) <=? bzip2_block_size.
Lemma bz_blocks_ok overflow data limit size c padding : wf_bytes data -> limit <= 19 -> size < 2 ^ 24 ->
  forall blocks fuel done tail sel stk ck s,
  Forall (fun '(d, b) => block_of limit size d b) blocks -> (length blocks < fuel)%nat -> len stk = 256 ->
  At data s (concat (map (fun '(d, b) => block_bits d b) blocks) ++ number_bits 48 0x177245385090 ++ number_bits 32 c ++ padding) ->
  bz_blocks overflow fuel data (done ++ tail) (len done) sel stk ck s =
  if forallb small blocks && (len (stream_data blocks) <=? len tail)
  then Ok (done ++ stream_data blocks ++ skipn (length (stream_data blocks)) tail, len done + len (stream_data blocks), c mod 2 ^ 32)
  else Err.
Proof.
  intros Hwf Hlim Hsize. induction blocks as [| [d b] blocks IH]; intros fuel done tail sel stk ck s Hf Hfu Hstk H;
    (destruct fuel as [| fuel]; [lia |]); cbn [bz_blocks].
  - cbn [map concat app] in H. pose proof (At_offset data s 48 _ _ ltac:(lia) H) as Hoff.
    destruct (N.ltb_spec (bz_offset s) (len data)); [| lia].
    destruct (bz_header_end data c s padding Hwf H) as (s1 & E1 & H1). rewrite E1. cbn [bind].
    rewrite N.eqb_refl. cbn [forallb andb stream_data map concat app length skipn]. rewrite len_nil, N.add_0_r.
    destruct (N.leb_spec 0 (len tail)); [reflexivity | lia].
  - apply Forall_cons_iff in Hf. destruct Hf as [Hb Hf]. cbn [map concat] in H. unfold block_bits in H at 1.
    rewrite <- !app_assoc in H. pose proof (At_offset data s 48 _ _ ltac:(lia) H) as Hoff.
    destruct (N.ltb_spec (bz_offset s) (len data)); [| lia].
    assert (Ho : block_origin b < len (block_text b)) by (destruct Hb as (_ & Hb & _); apply bwt_sizes in Hb; tauto).
    assert (Ht : len (block_text b) <= size) by (destruct Hb as (_ & _ & _ & _ & _ & Hb & _); tauto).
    destruct (bz_header_block data (crc d) (block_origin b) s _ Hwf ltac:(lia) H) as (s1 & E1 & H1). rewrite E1. cbn [bind].
    change (0x314159265359 =? 0x177245385090) with false. cbv iota.
    pose proof (bz_block_ok overflow data limit size d b done tail sel stk s1 _ Hwf Hlim Hsize Hb Hstk H1) as P.
    cbn [forallb]. unfold small at 1. cbn [snd].
    destruct (N.leb_spec (len (block_text b)) bzip2_block_size) as [Hfit | Hbig]; cbn [andb] in P |- *.
    + destruct (N.leb_spec bzip2_block_size (block_origin b)); [lia |]. cbn [negb check bind].
      change (stream_data ((d, b) :: blocks)) with (d ++ stream_data blocks). rewrite len_app.
      destruct (N.leb_spec (len d) (len tail)) as [Hle | Hgt].
      * destruct P as (sel' & stk' & s2 & E2 & L2 & H2'). rewrite E2. cbn [bind]. rewrite app_assoc, <- len_app.
        rewrite (IH fuel (done ++ d) (skipn (length d) tail) sel' stk' _ s2 Hf ltac:(cbn [length] in Hfu; lia) L2 H2').
        assert (Hsk : len (skipn (length d) tail) + len d = len tail) by (unfold len in *; rewrite skipn_length; lia).
        destruct (forallb small blocks); cbn [andb]; [| reflexivity].
        destruct (N.leb_spec (len (stream_data blocks)) (len (skipn (length d) tail))), (N.leb_spec (len d + len (stream_data blocks)) (len tail));
          try lia; [| reflexivity].
        rewrite skipn_skipn, app_length, len_app, <- !app_assoc.
        replace (length (stream_data blocks) + length d)%nat with (length d + length (stream_data blocks))%nat by lia.
        rewrite N.add_assoc. reflexivity.
      * rewrite P. cbn [bind]. destruct (N.leb_spec (len d + len (stream_data blocks)) (len tail)); [lia |].
        now rewrite andb_false_r.
    + rewrite P. cbn [bind]. destruct (negb (bzip2_block_size <=? block_origin b)); reflexivity.
Qed.

Lemma crc_bound d : crc d < 2 ^ 32.
Proof.
  unfold crc, crc32_forward. apply lxor_bound; [| reflexivity]. apply feed_msb_bound; [reflexivity |]. apply lxor_bound; reflexivity.
Qed.
Lemma combine_bound c x : c < 2 ^ 32 -> x < 2 ^ 32 -> combine c x < 2 ^ 32.
Proof.
  intros Hc Hx. unfold combine. apply lxor_bound; [| exact Hx].
  assert (N.shiftr c 31 < 2 ^ 1). { rewrite N.shiftr_div_pow2. apply N.div_lt_upper_bound; [apply N.pow_nonzero; lia |]. exact Hc. }
  destruct (N.eq_dec (N.lor (N.shiftl c 1 mod 2 ^ 32) (N.shiftr c 31)) 0) as [-> | Hz]; [reflexivity |].
  apply N.log2_lt_pow2; [lia |]. rewrite N.log2_lor. apply N.max_lub_lt.
  - destruct (N.eq_dec (N.shiftl c 1 mod 2 ^ 32) 0) as [-> | Hn]; [reflexivity |]. apply N.log2_lt_pow2; [lia |]. apply N.mod_lt. discriminate.
  - destruct (N.eq_dec (N.shiftr c 31) 0) as [-> | Hn]; [reflexivity |]. apply N.log2_lt_pow2; [lia |].
    eapply N.lt_le_trans; [exact H |]. apply N.pow_le_mono_r; lia.
Qed.
Lemma stream_crc_bound ds : stream_crc ds < 2 ^ 32.
Proof.
  unfold stream_crc. assert (H : forall c, c < 2 ^ 32 -> fold_left (fun c d => combine c (crc d)) ds c < 2 ^ 32).
  { induction ds as [| d ds IH]; intros c Hc; [exact Hc |]. cbn [fold_left]. apply IH, combine_bound; [exact Hc | apply crc_bound]. }
  apply H. reflexivity.
Qed.
Lemma blocks_bits_length blocks : (48 * length blocks <= length (concat (map (fun '(d, b) => block_bits d b) blocks)))%nat.
Proof.
  induction blocks as [| [d b] blocks IH]; [cbn; lia |]. cbn [map concat length]. rewrite app_length. unfold block_bits at 1.
  rewrite app_length. unfold number_bits at 1. rewrite bits_msb_length. lia.
Qed.
Lemma bytes_bits_length l : length (bytes_bits l) = (8 * length l)%nat.
Proof. unfold bytes_bits. induction l as [| x l IH]; [reflexivity |]. cbn [flat_map]. rewrite app_length, bits_msb_length, IH. cbn [length]. lia. Qed.

(** What is returned for any stream of blocks. *)
Lemma bzip2_stream_ok overflow limit size level blocks bytes buf :
  limit <= 19 -> size < 2 ^ 24 -> stream_of limit size level blocks bytes ->
  bzip2_decompress_with overflow bytes buf =
  if forallb small blocks && (len (stream_data blocks) <=? len buf) && (stream_crc (map fst blocks) =? crc (stream_data blocks))
  then Ok (stream_data blocks ++ skipn (length (stream_data blocks)) buf, len (stream_data blocks))
  else Err.
Proof.
  intros Hlim Hsize (Hlevel & Hf & rest & padding & -> & Hwr & Hpad & Hbits).
  assert (Hr : (8 * length rest >= 48 * length blocks + 80)%nat).
  { rewrite <- bytes_bits_length, Hbits, !app_length. pose proof (blocks_bits_length blocks). unfold number_bits. rewrite !bits_msb_length. lia. }
  unfold bzip2_decompress_with. rewrite len_app. change (len [0x42; 0x5a; 0x68; 0x30 + level]) with 4.
  destruct (N.ltb_spec (4 + len rest) 14) as [Hx | _]; [unfold len in Hx; lia |]. cbn [negb check bind].
  assert (Esl : slice ([0x42; 0x5a; 0x68; 0x30 + level] ++ rest) 0 2 = Ok [0x42; 0x5a]).
  { unfold slice. rewrite len_app. change (len [0x42; 0x5a; 0x68; 0x30 + level]) with 4.
    destruct (N.leb_spec 2 (4 + len rest)); [reflexivity | lia]. }
  rewrite Esl. cbn [bind app].
  destruct (list_eq_dec N.eq_dec [0x42; 0x5a] [0x42; 0x5a]) as [_ | Hx]; [| congruence]. cbn [check bind].
  change (idx (0x42 :: 0x5a :: 0x68 :: 0x30 + level :: rest) 3) with (Ok (A := N) (0x30 + level)). cbn [bind].
  destruct (N.ltb_spec (0x30 + level) 0x31); [lia |]. destruct (N.ltb_spec 0x39 (0x30 + level)); [lia |]. cbn [orb negb check bind].
  set (data := 0x42 :: 0x5a :: 0x68 :: 0x30 + level :: rest).
  assert (Hwf : wf_bytes data).
  { unfold data. repeat (apply wf_bytes_cons; split; [unfold byte_ok; lia |]). exact Hwr. }
  assert (HAt : At data (mk_bz 4 0 0) (bytes_bits rest)).
  { split; [split; [cbn; lia | unfold bz_inv; cbn; lia] |]. reflexivity. }
  rewrite Hbits in HAt. unfold bz_bitstream.
  pose proof (bz_blocks_ok overflow data limit size _ padding Hwf Hlim Hsize blocks (S (length data)) [] buf [] (repeat 0 256) 0 _ Hf
    ltac:(unfold data; cbn [length]; lia) eq_refl HAt) as P.
  cbn [app] in P. change (len (@nil N)) with 0 in P. rewrite P. clear P.
  destruct (forallb small blocks); cbn [andb]; [| reflexivity].
  destruct (N.leb_spec (len (stream_data blocks)) (len buf)) as [Hle | Hgt]; cbn [andb bind]; [| reflexivity].
  rewrite N.add_0_l. set (out := stream_data blocks) in *.
  assert (Es : slice (out ++ skipn (length out) buf) 0 (len out) = Ok out).
  { unfold slice. rewrite len_app. destruct (N.leb_spec 0 (len out)); [| lia].
    destruct (N.leb_spec (len out) (len out + len (skipn (length out) buf))); [| lia]. cbn [andb N.to_nat skipn].
    f_equal. rewrite N.sub_0_r. unfold len. rewrite Nat2N.id, firstn_app, Nat.sub_diag, firstn_all. cbn [firstn]. apply app_nil_r. }
  rewrite Es. cbn [bind].
  assert (Hwo : wf_bytes out).
  { unfold out, stream_data. clear - Hf. induction blocks as [| [d b] blocks IH]; [constructor |].
    apply Forall_cons_iff in Hf. destruct Hf as [Hb Hf]. cbn [map concat fst]. apply wf_bytes_app. split; [| now apply IH].
    destruct Hb as (_ & _ & _ & _ & Hb & _). exact Hb. }
  destruct (crc_forward_ok 0x04c11db7 0 [out] eq_refl eq_refl ltac:(constructor; [exact Hwo | constructor])) as (c & c' & Ec & Efin & _).
  cbn [crc_updates] in Ec. apply bind_Ok_inv in Ec. destruct Ec as (c0 & Ec & E0). injection E0 as ->.
  rewrite Ec. cbn [bind]. rewrite Efin. cbn [fst concat]. rewrite app_nil_r. change (crc32_forward 0x04c11db7 0 out) with (crc out).
  rewrite N.mod_small by apply stream_crc_bound.
  destruct (stream_crc (map fst blocks) =? crc out); reflexivity.
Qed.
