(** * Reading fields of a record: lemmas shared by the format parsers *)
From Verif Require Import Base BaseLemmas Bytes_model.

Lemma slice_app {A} (pre mid rest : list A) a b :
  a = len pre -> b = len pre + len mid -> slice (pre ++ mid ++ rest) a b = Ok mid.
Proof.
  intros -> ->. unfold slice. rewrite !len_app.
  replace ((len pre <=? len pre + len mid) && (len pre + len mid <=? len pre + (len mid + len rest)))
    with true by lia.
  f_equal. replace (N.to_nat (len pre)) with (length pre) by (unfold len; lia).
  rewrite skipn_app, skipn_all, Nat.sub_diag. cbn [app skipn].
  replace (N.to_nat (len pre + len mid - len pre)) with (length mid) by (unfold len; lia).
  rewrite firstn_app, firstn_all, Nat.sub_diag. cbn [firstn]. apply app_nil_r.
Qed.

Lemma read_le n pre v rest e :
  e = len pre -> len pre + N.of_nat n < two64 -> v < 256 ^ N.of_nat n ->
  bytes_to_uint_le (N.of_nat n) (pre ++ le_bytes n v ++ rest) e = Ok v.
Proof.
  intros -> H1 H2. unfold bytes_to_uint_le, add_chk.
  destruct (N.ltb_spec (len pre + N.of_nat n) two64); [|lia]. cbn [bind].
  rewrite slice_app; [|reflexivity|]; cbn [bind].
  - f_equal. rewrite le_value_le_bytes. now apply N.mod_small.
  - unfold len at 3. now rewrite le_bytes_length.
Qed.

Lemma read_be n pre v rest e :
  e = len pre -> len pre + N.of_nat n < two64 -> v < 256 ^ N.of_nat n ->
  bytes_to_uint_be (N.of_nat n) (pre ++ be_bytes n v ++ rest) e = Ok v.
Proof.
  intros -> H1 H2. unfold bytes_to_uint_be, add_chk.
  destruct (N.ltb_spec (len pre + N.of_nat n) two64); [|lia]. cbn [bind].
  rewrite slice_app; [|reflexivity|]; cbn [bind].
  - f_equal. unfold be_bytes. rewrite be_value_rev, rev_involutive, le_value_le_bytes.
    now apply N.mod_small.
  - unfold len at 3, be_bytes. now rewrite rev_length, le_bytes_length.
Qed.

(** A field inside the data can be read. *)
Lemma read_le_some n data e :
  wf_bytes data -> len data < two64 -> e + n <= len data ->
  exists v, bytes_to_uint_le n data e = Ok v /\ v < 256 ^ n.
Proof.
  intros Hw Hl He. unfold bytes_to_uint_le, add_chk.
  destruct (N.ltb_spec (e + n) two64); [|lia]. cbn [bind]. unfold slice.
  replace ((e <=? e + n) && (e + n <=? len data)) with true by lia. cbn [bind].
  eexists. split; [reflexivity|].
  eapply N.lt_le_trans.
  - apply le_value_bound. apply wf_bytes_firstn, wf_bytes_skipn, Hw.
  - apply N.pow_le_mono_r; [lia|]. unfold len. rewrite firstn_length. lia.
Qed.

Lemma read_be_some n data e :
  wf_bytes data -> len data < two64 -> e + n <= len data ->
  exists v, bytes_to_uint_be n data e = Ok v /\ v < 256 ^ n.
Proof.
  intros Hw Hl He. unfold bytes_to_uint_be, add_chk.
  destruct (N.ltb_spec (e + n) two64); [|lia]. cbn [bind]. unfold slice.
  replace ((e <=? e + n) && (e + n <=? len data)) with true by lia. cbn [bind].
  eexists. split; [reflexivity|]. rewrite be_value_rev.
  set (l := firstn _ _).
  assert (Hl' : wf_bytes (rev l)).
  { apply Forall_rev. apply wf_bytes_firstn, wf_bytes_skipn, Hw. }
  eapply N.lt_le_trans.
  - apply le_value_bound, Hl'.
  - apply N.pow_le_mono_r; [lia|]. unfold len, l. rewrite rev_length, firstn_length. lia.
Qed.

Lemma le_bytes_app a b v :
  le_bytes (a + b) v = le_bytes a v ++ le_bytes b (v / 256 ^ N.of_nat a).
Proof.
  revert v. induction a as [|a IH]; intros v.
  - cbn. now rewrite N.div_1_r.
  - cbn [le_bytes app Nat.add]. f_equal. rewrite IH. f_equal. f_equal.
    rewrite N.div_div by (try apply N.pow_nonzero; lia).
    rewrite Nat2N.inj_succ, N.pow_succ_r'. reflexivity.
Qed.

Lemma le_bytes_mod n v : le_bytes n v = le_bytes n (v mod 256 ^ N.of_nat n).
Proof.
  revert v. induction n as [|n IH]; intros v; [reflexivity|]. cbn [le_bytes].
  rewrite Nat2N.inj_succ, N.pow_succ_r'.
  pose proof (N.pow_nonzero 256 (N.of_nat n) ltac:(lia)).
  rewrite N.mod_mul_r by lia.
  replace ((v mod 256 + 256 * ((v / 256) mod 256 ^ N.of_nat n)) mod 256) with (v mod 256).
  2: { rewrite N.mul_comm, N.mod_add by lia. rewrite N.mod_mod by lia. reflexivity. }
  f_equal. rewrite (IH (v / 256)). f_equal.
  rewrite N.mul_comm, N.div_add by lia.
  rewrite (N.div_small (v mod 256)) by (apply N.mod_lt; lia). lia.
Qed.
