(** * C22: hexdump and array formatting *)
From Coq Require Import Lia String.
From Verif Require Import Base BaseLemmas Uuid_model Uuid_spec Uuid_proofs Formatters_model Formatters_spec Formatters_proofs.
Open Scope N_scope.
Open Scope list_scope.
Notation length := List.length.
Ltac Zify.zify_post_hook ::= idtac.

Lemma one_byte_rows data rows tail : data = concat rows ++ tail -> Forall (fun r : list N => length r = 16%nat) rows -> (length tail < 16)%nat ->
  len data mod 16 = N.of_nat (length tail).
Proof.
  intros -> F T. rewrite len_app, (len_rows rows F), N.mul_comm, N.add_comm, N.mod_add by lia. apply N.mod_small. lia.
Qed.
(** Formatting any byte string succeeds. But for a last row of one byte the result is rows of
    offset, bytes and characters that show the data: all the bytes in order. Only with
    grouping there are signs for repeated rows. *)
Theorem C22_hexdump_shows_the_data_partial : forall data group,
  Forall (fun b => b < 256) data -> len data < two64 -> len data mod 16 <> 1 ->
  exists items t, dump None 0 items data /\ rows_text items t /\ format_as_hexdump data group = Ok (t ++ [10])
  /\ (group = false -> ~ In Repeated items).
Proof.
  intros data group W Hl Hm. assert (Hlim : len data < 16 ^ 32) by (apply (N.lt_trans _ _ _ Hl); reflexivity).
  destruct (split_rows data) as (rows & tail & Ed & F & T). pose proof (one_byte_rows data rows tail Ed F T) as M. rewrite M in Hm.
  destruct tail as [|b tail'].
  - destruct (hexdump_ok data group rows [] [] Ed F T W Hlim) as (items & ts & X1 & X2 & X3 & X4); [intros prev; constructor|].
    exists items, (concat ts). rewrite app_nil_r in X1. split; [exact X1|]. split; [exists ts; auto|]. cbn [last_row] in X4. rewrite app_nil_r in X4. split; [exact X4|exact X2].
  - remember (b :: tail') as tail eqn:Et.
    assert (T2 : (2 <= length tail < 16)%nat) by (rewrite Et in *; cbn [length] in *; lia).
    assert (T3 : len tail = N.of_nat (length tail)) by reflexivity.
    destruct (hexdump_ok data group rows tail [Row (len (concat rows)) tail] Ed F T W Hlim) as (items & ts & X1 & X2 & X3 & X4); [intros prev; apply dump_last; lia|].
    exists (items ++ [Row (len (concat rows)) tail]), (concat ts ++ last_row (len (concat rows)) tail). split; [exact X1|]. split; [|split; [exact X4|]].
    + exists (ts ++ [last_row (len (concat rows)) tail]). split; [|rewrite concat_app; cbn [concat]; rewrite app_nil_r; reflexivity].
      apply Forall2_app; [exact X3|]. constructor; [|constructor]. apply last_row_text; [|exact T2].
      apply (N.le_lt_trans _ (len data)); [|exact Hlim]. rewrite Ed, len_app. lia.
    + intros Hg H. apply in_app_or in H. destruct H as [H|[H|[]]]; [exact (X2 Hg H)|discriminate].
Qed.
Print Assumptions C22_hexdump_shows_the_data_partial.
(** With a last row of one byte too the formatting succeeds, but that row has the offset and the
    byte only: no characters and no end of line. *)
Theorem C22_hexdump_one_byte_row_refuted : forall data b group,
  Forall (fun b => b < 256) (data ++ [b]) -> len data + 1 < two64 -> len data mod 16 = 0 ->
  exists items t o, dump None 0 (items ++ [Row (len data) [b]]) (data ++ [b]) /\ rows_text items t /\ offset_text (len data) o
  /\ format_as_hexdump (data ++ [b]) group = Ok (t ++ (o ++ text "  " ++ byte_text b ++ text " ") ++ [10])
  /\ (group = false -> ~ In Repeated items).
Proof.
  intros data b group W Hl Hm. assert (Hlim : len (data ++ [b]) < 16 ^ 32) by (rewrite len_app; change (len [b]) with 1; apply (N.lt_trans _ _ _ Hl); reflexivity).
  destruct (split_rows data) as (rows & tail & Ed & F & T). pose proof (one_byte_rows data rows tail Ed F T) as M. rewrite M in Hm.
  destruct tail; [|cbn [length] in Hm; lia]. rewrite app_nil_r in Ed.
  destruct (hexdump_ok (data ++ [b]) group rows [b] [Row (len (concat rows)) [b]]) as (items & ts & X1 & X2 & X3 & X4).
  - rewrite Ed. reflexivity.
  - exact F.
  - cbn [length]. lia.
  - exact W.
  - exact Hlim.
  - intros prev. apply dump_last. split; reflexivity.
  - rewrite <- Ed in *. exists items, (concat ts), (format_hex 8 (len data)). split; [exact X1|]. split; [exists ts; auto|].
    split; [apply format_offset; rewrite len_app in Hlim; lia|]. split; [|exact X2]. rewrite X4. f_equal.
    unfold last_row, row_start. change (len [b] =? 1) with true. change (0 =? 0) with true. cbv iota. cbn [cells_from]. change (0 =? 7) with false. cbv iota.
    rewrite <- !app_assoc. reflexivity.
Qed.
Print Assumptions C22_hexdump_one_byte_row_refuted.
(** Rows, signs included, determine the data. *)
Theorem C22_rows_determine_the_data : forall items data data', dump None 0 items data -> dump None 0 items data' -> data = data'.
Proof. intros items data data' H H'. exact (dump_data None 0 items data H data' H'). Qed.
Print Assumptions C22_rows_determine_the_data.
(** Bytes as a string: two digits for each. *)
Theorem C22_format_as_string : forall data, Forall (fun b => b < 256) data ->
  format_as_string data = bytes_text data.
Proof.
  intros data W. unfold format_as_string, bytes_text. induction W as [|b data Hb _ IH]; [reflexivity|]. cbn [flat_map]. rewrite IH, (format_byte b Hb). reflexivity.
Qed.
Print Assumptions C22_format_as_string.
(** Arrays: one value and the number of times it is there; up to 16 values, or a multiple of
    16: every element once and in order. *)
Theorem C22_array_partial : forall array, array <> [] -> len array < two64 ->
  (forall v n, array = repeat v n -> exists t, decimal_text (N.of_nat n) t /\ debug_format_array array = Ok (text "[" ++ v ++ text "; " ++ t ++ text "]"))
  /\ ((forall v, array <> repeat v (length array)) -> len array <= 16 -> debug_format_array array = Ok (text "[" ++ join (text ", ") array ++ text "]"))
  /\ ((forall v, array <> repeat v (length array)) -> 16 < len array -> len array mod 16 = 0 ->
      exists rows, rows_of_16 rows /\ concat rows = array
      /\ debug_format_array array = Ok (text "[" ++ [10] ++ text "        " ++ join (text "," ++ [10] ++ text "        ") (map (join (text ", ")) rows) ++ [10] ++ text "    ]")).
Proof.
  intros array Hne H64. destruct array as [|first array']; [congruence|]. remember (first :: array') as array eqn:Ea. clear Hne.
  assert (Ef : idx array 0 = Ok first) by (rewrite Ea; reflexivity).
  split; [|split].
  - intros v n E. assert (Ev : first = v /\ n = length array).
    { split; [|rewrite E, repeat_length; reflexivity]. rewrite Ea in E. destruct n; [discriminate|]. cbn [repeat] in E. congruence. }
    destruct Ev as [-> ->]. exists (number_text (len array)). split; [apply number_text_ok; apply (N.lt_trans _ _ _ H64); reflexivity|]. unfold debug_format_array. cbv zeta. rewrite Ef. cbn [bind]. apply same_all in E. rewrite E. reflexivity.
  - intros Hd Hl. unfold debug_format_array. cbv zeta. rewrite Ef. cbn [bind].
    destruct (forallb (bytes_eq first) array) eqn:Es; [apply same_all in Es; exfalso; exact (Hd _ Es)|].
    replace (16 <? len array) with false by (symmetry; apply N.ltb_ge; exact Hl). reflexivity.
  - intros Hd Hl Hm. unfold debug_format_array. cbv zeta. rewrite Ef. cbn [bind].
    destruct (forallb (bytes_eq first) array) eqn:Es; [apply same_all in Es; exfalso; exact (Hd _ Es)|].
    replace (16 <? len array) with true by (symmetry; apply N.ltb_lt; exact Hl). unfold sub_chk. replace (16 <=? len array) with true by (symmetry; apply N.leb_le; lia). cbn [bind].
    assert (R : exists rows last, array = concat rows ++ last /\ Forall (fun r => length r = 16%nat) rows /\ length last = 16%nat).
    { clear - Hm Hl. pose proof (N.div_mod (len array) 16 ltac:(lia)) as D. rewrite Hm, N.add_0_r in D. remember (N.to_nat (len array / 16)) as q eqn:Eq.
      assert (Hq : length array = (16 * q)%nat) by (unfold len in *; lia). clear Eq D Hm.
      assert (Hq0 : (0 < q)%nat) by (unfold len in Hl; lia). clear Hl.
      revert array Hq. induction q as [|q IH]; intros array Hq; [lia|]. destruct q as [|q]; [exists [], array; split; [reflexivity|split; [constructor|lia]]|].
      destruct (IH ltac:(lia) (skipn 16 array)) as (rows & last & E & F & L); [rewrite skipn_length; lia|].
      exists (firstn 16 array :: rows), last. split; [cbn [concat]; rewrite <- app_assoc, <- E; symmetry; apply firstn_skipn|]. split; [|exact L]. constructor; [|exact F]. rewrite firstn_length. lia. }
    destruct R as (rows & last & Er & F & L). exists (rows ++ [last]).
    assert (Lc : forall rs : list (list (list N)), Forall (fun r => length r = 16%nat) rs -> len (concat rs) = 16 * len rs).
    { induction 1 as [|r rs H _ IH]; [reflexivity|]. cbn [concat]. rewrite len_app, IH, len_cons. unfold len at 1. rewrite H. lia. }
    split; [apply Forall_app; split; [exact F|repeat constructor; exact L]|]. split; [rewrite concat_app; cbn [concat]; rewrite app_nil_r, Er; reflexivity|].
    assert (El : len array - 16 = len (concat rows)) by (rewrite Er, len_app; unfold len at 2; rewrite L; lia).
    rewrite El. pose proof (array_rows_ok array (length rows) rows [] last (S (length array)) Er eq_refl F) as X. rewrite len_nil, N.add_0_l in X. rewrite X.
    2: { assert (length rows <= length array)%nat; [|lia]. specialize (Lc rows F). rewrite Er, app_length. unfold len in Lc. lia. }
    cbn [bind]. rewrite slice_ok by (try lia; rewrite Er, len_app; lia).
    replace (firstn (N.to_nat (len array - len (concat rows))) (skipn (N.to_nat (len (concat rows))) array)) with last.
    + cbn [bind]. rewrite map_app. reflexivity.
    + rewrite Er, len_app. replace (len (concat rows) + len last - len (concat rows)) with (len last) by lia. unfold len. rewrite !Nat2N.id, skipn_app, skipn_all, Nat.sub_diag. cbn [skipn app]. symmetry. apply firstn_all.
Qed.
Print Assumptions C22_array_partial.
(** The array text of no elements panics, and that of 17 different elements shows 32. *)
Theorem C22_array_refuted :
  debug_format_array [] = Panic
  /\ debug_format_array (map (fun i => [0x61 + i]) (seqN 0 17)) = Ok (text "[" ++ [10] ++ text "        a, b, c, d, e, f, g, h, i, j, k, l, m, n, o, p," ++ [10]
       ++ text "        b, c, d, e, f, g, h, i, j, k, l, m, n, o, p, q" ++ [10] ++ text "    ]").
Proof. split; vm_compute; reflexivity. Qed.
Print Assumptions C22_array_refuted.

(** ** Cases *)
Example C22_dump : format_as_hexdump (seqN 60 19) false = Ok
  (text "00000000  3c 3d 3e 3f 40 41 42 43  44 45 46 47 48 49 4a 4b  <=>?@ABCDEFGHIJK" ++ [10] ++
   text "00000010  4c 4d 4e                                          LMN" ++ [10; 10]).
Proof. vm_compute. reflexivity. Qed.
Example C22_dump_group : format_as_hexdump (repeat 0 64) true = Ok
  (text "00000000  00 00 00 00 00 00 00 00  00 00 00 00 00 00 00 00  ................" ++ [10] ++ text "..." ++ [10] ++
   text "00000030  00 00 00 00 00 00 00 00  00 00 00 00 00 00 00 00  ................" ++ [10; 10]).
Proof. vm_compute. reflexivity. Qed.
Example C22_dump_one : format_as_hexdump (seqN 60 17) false = Ok
  (text "00000000  3c 3d 3e 3f 40 41 42 43  44 45 46 47 48 49 4a 4b  <=>?@ABCDEFGHIJK" ++ [10] ++ text "00000010  4c " ++ [10]).
Proof. vm_compute. reflexivity. Qed.
Example C22_array_case : debug_format_array [text "x"; text "x"] = Ok (text "[x; 2]") /\ debug_format_array [text "x"; text "y"] = Ok (text "[x, y]").
Proof. split; vm_compute; reflexivity. Qed.
