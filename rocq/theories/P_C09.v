(** * C09: Huffman decoding inverts canonical Huffman coding *)
From Verif Require Import Base BaseLemmas Huffman_model Huffman_spec Huffman_proofs.

Lemma new_fresh n largest : fresh (huffman_new n largest) /\
  len (symbols (huffman_new n largest)) = n.
Proof. unfold fresh, huffman_new, len. cbn. rewrite !repeat_length. lia. Qed.

Lemma build_new n largest cs t : 1 <= largest -> len cs <= n ->
  huffman_build (huffman_new n largest) cs = Ok t ->
  tree_for cs largest t /\ exists s, coded cs s.
Proof.
  intros H1 H2 E. destruct (new_fresh n largest) as [F L].
  assert (H16 : len cs <= 65535).
  { unfold huffman_build in E. apply bind_Ok_inv in E as (? & E & _). apply check_Ok in E. lia. }
  destruct (build_cases (huffman_new n largest) cs F) as [(t' & E' & T & _ & S) | (E' & _)];
    try assumption; try lia; cbn [largest_code_size huffman_new] in *; try congruence.
  rewrite E in E'. injection E' as <-. auto.
Qed.

Lemma yields_list bits : forall rest, yields list_bit (bits ++ rest) bits rest.
Proof. induction bits; intros; cbn [app]; econstructor; [reflexivity | auto]. Qed.

Lemma yields_list_inv s bs s' : yields list_bit s bs s' ->
  exists padding, Forall (eq false) padding /\ s ++ padding = bs ++ s'.
Proof.
  induction 1 as [s | s b s1 bs s2 E Y (p & P1 & P2)].
  - exists []. split; [constructor |]. apply app_nil_r.
  - destruct s as [| x s]; cbn [list_bit] in E.
    + injection E as E <-. destruct b; [discriminate |]. exists (false :: p).
      split; [now constructor |]. cbn [app] in *. now rewrite P2.
    + injection E as E <-. assert (x = b) by (destruct x, b; cbn in E; congruence). subst x.
      exists p. split; [exact P1 |]. cbn [app]. now rewrite P2.
Qed.

(** Every symbol's canonical code word is decoded to that symbol, and the bits behind it
    are left alone. *)
Theorem C09_decodes_code_words :
  forall number_of_symbols largest code_sizes tree symbol rest,
  1 <= largest -> len code_sizes <= number_of_symbols ->
  huffman_build (huffman_new number_of_symbols largest) code_sizes = Ok tree ->
  coded code_sizes symbol ->
  decode_symbol list_bit tree (code_word code_sizes symbol ++ rest) = Ok (symbol, rest).
Proof.
  intros n largest cs t sym rest H1 H2 E Hc.
  destruct (build_new _ _ _ _ H1 H2 E) as [T _].
  eapply decode_symbol_word; eauto. apply yields_list.
Qed.
Print Assumptions C09_decodes_code_words.

(** The same for any source of bits. *)
Theorem C09_decodes_code_words_from_any_source :
  forall (S : Type) (get_bit : S -> res (N * S)) number_of_symbols largest code_sizes tree symbol s s',
  1 <= largest -> len code_sizes <= number_of_symbols ->
  huffman_build (huffman_new number_of_symbols largest) code_sizes = Ok tree ->
  coded code_sizes symbol -> yields get_bit s (code_word code_sizes symbol) s' ->
  decode_symbol get_bit tree s = Ok (symbol, s').
Proof.
  intros S gb n largest cs t sym s s' H1 H2 E Hc Hy.
  destruct (build_new _ _ _ _ H1 H2 E) as [T _]. eapply decode_symbol_word; eauto.
Qed.
Print Assumptions C09_decodes_code_words_from_any_source.

(** And nothing else is decoded: a symbol is returned only if its code word was read,
    zeros being read after the end of the bits; no bits make it panic. *)
Theorem C09_decodes_only_code_words :
  forall number_of_symbols largest code_sizes tree bits,
  1 <= largest -> len code_sizes <= number_of_symbols ->
  huffman_build (huffman_new number_of_symbols largest) code_sizes = Ok tree ->
  decode_symbol list_bit tree bits = Err \/
  exists symbol rest padding,
    decode_symbol list_bit tree bits = Ok (symbol, rest) /\ coded code_sizes symbol /\
    Forall (eq false) padding /\ bits ++ padding = code_word code_sizes symbol ++ rest.
Proof.
  intros n largest cs t bits H1 H2 E.
  destruct (build_new _ _ _ _ H1 H2 E) as [T _].
  destruct (decode_symbol_sound list_bit (fun _ => True) cs largest t bits) as [D | (sym & s' & D & C & Y & _)];
    auto.
  - intros [| b s] _; [exists false, [] | exists b, s]; split; auto; reflexivity.
  - right. destruct (yields_list_inv _ _ _ Y) as (p & P1 & P2). exists sym, s', p. auto.
Qed.
Print Assumptions C09_decodes_only_code_words.

(** Over-subscribed code lengths are rejected. *)
Theorem C09_over_subscribed_rejected :
  forall number_of_symbols largest code_sizes,
  1 <= largest -> len code_sizes <= number_of_symbols -> over_subscribed largest code_sizes ->
  huffman_build (huffman_new number_of_symbols largest) code_sizes = Err.
Proof.
  intros n largest cs H1 H2 Ho. destruct (new_fresh n largest) as [F L].
  destruct (N.leb_spec (len cs) 65535) as [H16 | H16].
  - destruct (build_cases (huffman_new n largest) cs F) as [(t' & _ & T & _) | (E & _)];
      try assumption; cbn [largest_code_size huffman_new] in *; try lia.
    exfalso. destruct T as (_ & Hf & _ & _ & _ & Hu).
    specialize (Hu (N.to_nat largest) ltac:(lia)). rewrite used_is_kraft, N2Nat.id in Hu by exact Hf.
    unfold over_subscribed in Ho. lia.
  - unfold huffman_build. destruct (N.leb_spec (len cs) 65535); [lia | reflexivity].
Qed.
Print Assumptions C09_over_subscribed_rejected.

(** All other code lengths are accepted: those with some symbol, within the largest size
    and not over-subscribed. *)
Theorem C09_accepts_the_rest :
  forall number_of_symbols largest code_sizes,
  1 <= largest -> len code_sizes <= number_of_symbols -> len code_sizes <= 65535 ->
  Forall (fun l => l <= largest) code_sizes -> (exists s, coded code_sizes s) ->
  ~ over_subscribed largest code_sizes ->
  exists tree, huffman_build (huffman_new number_of_symbols largest) code_sizes = Ok tree.
Proof.
  intros n largest cs H1 H2 H16 Hf (s & S1 & S2) Ho. destruct (new_fresh n largest) as [F L].
  destruct (build_cases (huffman_new n largest) cs F) as [(t' & E & _) | (E & C)];
    try assumption; cbn [largest_code_size huffman_new] in *; try lia; [eauto |].
  exfalso. destruct C as [C | [C | (j & Hj & Hu)]].
  - apply C. exact Hf.
  - assert (count_of 0 cs < len cs); [| lia].
    assert (G : forall a x b, x <> 0 -> count_of 0 (a ++ x :: b) < len (a ++ x :: b)).
    { intros a x b Hx. rewrite count_of_app, count_of_cons, len_app, len_cons.
      destruct (N.eqb_spec x 0); [lia |].
      pose proof (filter_le (fun x => x =? 0) a). pose proof (filter_le (fun x => x =? 0) b).
      unfold count_of. lia. }
    rewrite (length_of_split cs s S1). apply G. lia.
  - pose proof (used_mono cs j (N.to_nat largest - j)) as M.
    replace (j + (N.to_nat largest - j))%nat with (N.to_nat largest) in M by lia.
    rewrite used_is_kraft in M by exact Hf. unfold over_subscribed in Ho.
    assert (2 ^ largest = 2 ^ N.of_nat j * 2 ^ N.of_nat (N.to_nat largest - j)).
    { rewrite <- N.pow_add_r. f_equal. lia. }
    assert (2 ^ N.of_nat (N.to_nat largest - j) <> 0) by (apply N.pow_nonzero; lia).
    set (p := 2 ^ N.of_nat (N.to_nat largest - j)) in *. set (q := 2 ^ N.of_nat j) in *.
    assert (q * p < used cs j * p) by (apply N.mul_lt_mono_pos_r; lia). lia.
Qed.
Print Assumptions C09_accepts_the_rest.

(** Building never panics. *)
Theorem C09_build_no_panic :
  forall number_of_symbols largest code_sizes,
  1 <= largest -> len code_sizes <= number_of_symbols ->
  huffman_build (huffman_new number_of_symbols largest) code_sizes <> Panic.
Proof.
  intros n largest cs H1 H2. destruct (new_fresh n largest) as [F L].
  destruct (N.leb_spec (len cs) 65535) as [H16 | H16].
  - destruct (build_cases (huffman_new n largest) cs F) as [(t' & E & _) | (E & _)];
      try assumption; cbn [largest_code_size huffman_new] in *; try lia; congruence.
  - unfold huffman_build. destruct (N.leb_spec (len cs) 65535); [lia | discriminate].
Qed.
Print Assumptions C09_build_no_panic.

(** The example of RFC 1951, 3.2.2: A to H with lengths 3, 3, 3, 3, 3, 2, 4, 4. *)
Definition C09_lengths : list N := [3; 3; 3; 3; 3; 2; 4; 4].
Example C09_rfc_code_words :
  map (code_word C09_lengths) (seqN 0 8) =
  let f := false in let t := true in
  [[f; t; f]; [f; t; t]; [t; f; f]; [t; f; t]; [t; t; f]; [f; f]; [t; t; t; f]; [t; t; t; t]].
Proof. reflexivity. Qed.
Example C09_rfc_tree : exists t, huffman_build (huffman_new 8 15) C09_lengths = Ok t /\
  decode_symbol list_bit t [true; true; true; false; true] = Ok (6, [true]).
Proof. eexists. split; vm_compute; reflexivity. Qed.
Example C09_rfc_coded : coded C09_lengths 6 /\ ~ over_subscribed 15 C09_lengths.
Proof. split; [split; reflexivity | vm_compute; discriminate]. Qed.
Example C09_over : over_subscribed 15 [1; 1; 2].
Proof. reflexivity. Qed.
