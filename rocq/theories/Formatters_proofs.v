(** * Proofs about hexdumps and array texts *)
From Coq Require Import Lia String.
From Verif Require Import Base BaseLemmas Uuid_model Uuid_spec Uuid_proofs Formatters_model Formatters_spec.
Open Scope N_scope.
Open Scope list_scope.
Notation length := List.length.
Ltac Zify.zify_post_hook ::= idtac.

(** ** Numbers *)
Lemma hex_rev_bound fuel : forall v, v < 16 ^ N.of_nat fuel -> v < 16 ^ N.of_nat (length (hex_digits_rev fuel v)).
Proof.
  induction fuel as [|fuel IH]; intros v Hv; [exact Hv|]. cbn [hex_digits_rev]. destruct (N.eqb_spec v 0) as [->|Hz]; [reflexivity|].
  cbn [length]. rewrite Nat2N.inj_succ, N.pow_succ_r' in *. assert (H : v / 16 < 16 ^ N.of_nat fuel) by (apply N.div_lt_upper_bound; lia).
  specialize (IH _ H). pose proof (N.div_mod v 16 ltac:(lia)) as D. pose proof (N.mod_lt v 16 ltac:(lia)) as M. lia.
Qed.
Lemma hex_size o : o < 16 ^ 32 -> exists k, (8 <= k <= 32)%nat /\ o < 16 ^ N.of_nat k /\ (k = 8%nat \/ 16 ^ N.of_nat (k - 1) <= o).
Proof.
  assert (X : forall n, o < 16 ^ N.of_nat (8 + n) -> exists k, (8 <= k <= 8 + n)%nat /\ o < 16 ^ N.of_nat k /\ (k = 8%nat \/ 16 ^ N.of_nat (k - 1) <= o)).
  { induction n as [|n IH]; intros H; [exists 8%nat; repeat split; [lia|lia|exact H|left; reflexivity]|].
    destruct (N.lt_ge_cases o (16 ^ N.of_nat (8 + n))) as [L|L].
    - destruct (IH L) as (k & K1 & K2). exists k. split; [lia|exact K2].
    - exists (8 + S n)%nat. split; [lia|]. split; [exact H|]. right. replace (8 + S n - 1)%nat with (8 + n)%nat by lia. exact L. }
  intros H. apply (X 24%nat H).
Qed.
Lemma format_offset o : o < 16 ^ 32 -> offset_text o (format_hex 8 o).
Proof.
  intros Ho. destruct (hex_size o Ho) as (k & K1 & K2 & K3). exists k. split; [lia|]. split; [exact K2|]. split; [exact K3|].
  destruct (Nat.eq_dec k 8) as [->|Hk]; [apply format_hex_digits; [lia|exact K2]|]. destruct K3 as [K3|K3]; [lia|].
  rewrite <- (format_hex_digits k o) by (try lia; exact K2). unfold format_hex.
  assert (L : (k <= length (hex_digits_rev 32 o))%nat).
  { pose proof (hex_rev_bound 32 o Ho) as B. destruct (Nat.le_gt_cases k (length (hex_digits_rev 32 o))) as [G|G]; [exact G|]. exfalso.
    assert (P : 16 ^ N.of_nat (length (hex_digits_rev 32 o)) <= 16 ^ N.of_nat (k - 1)) by (apply N.pow_le_mono_r; lia). lia. }
  destruct (rev (hex_digits_rev 32 o)) as [|c d] eqn:E.
  - apply (f_equal (@length N)) in E. rewrite rev_length in E. cbn [length] in E. lia.
  - apply (f_equal (@length N)) in E. rewrite rev_length in E. rewrite <- E.
    replace (8 - length (hex_digits_rev 32 o))%nat with 0%nat by lia. replace (k - length (hex_digits_rev 32 o))%nat with 0%nat by lia. reflexivity.
Qed.
Lemma format_byte b : b < 256 -> format_hex 2 b = byte_text b.
Proof. intros H. apply format_hex_digits; [lia|exact H]. Qed.

(** ** Cells *)
Fixpoint cells_from (i : N) (bytes : list N) : list N :=
  match bytes with [] => [] | b :: bytes => byte_text b ++ [32] ++ (if i =? 7 then [32] else []) ++ cells_from (i + 1) bytes end.
Lemma cells_app a : forall i b, cells_from i (a ++ b) = cells_from i a ++ cells_from (i + len a) b.
Proof.
  induction a as [|x a IH]; intros i b; [cbn [app cells_from]; f_equal; rewrite len_nil; lia|]. cbn [app cells_from]. rewrite IH, len_cons.
  replace (i + 1 + len a) with (i + (len a + 1)) by lia. rewrite <- app_assoc. f_equal. cbn [app]. f_equal. rewrite <- app_assoc. reflexivity.
Qed.
Lemma length_byte_text b : length (byte_text b) = 2%nat.
Proof. reflexivity. Qed.
Lemma cells_padded bytes : (2 <= length bytes <= 16)%nat -> cells_from 0 bytes ++ padding (16 - length bytes) (len bytes) ++ [32] = padded 50 (cells bytes).
Proof.
  intros H. do 2 (destruct bytes as [|? bytes]; [cbn in H; lia|]).
  do 15 (destruct bytes as [|? bytes]; [reflexivity|]). cbn in H. lia.
Qed.
Lemma ascii_printable b : ascii_value b = printable b.
Proof.
  unfold ascii_value, printable. destruct (N.ltb_spec b 32), (N.leb_spec 127 b), (N.leb_spec 32 b), (N.leb_spec b 126); try lia; reflexivity.
Qed.

(** ** Rows *)
Lemma idx_mid (pre : list N) b post o : o = len pre -> idx (pre ++ b :: post) o = Ok b.
Proof. intros ->. unfold idx, len. rewrite Nat2N.id, nth_error_app2, Nat.sub_diag by lia. reflexivity. Qed.
Lemma set_nth_mid (pre : list N) x post v : set_nth (pre ++ x :: post) (length pre) v = pre ++ v :: post.
Proof. induction pre as [|y pre IH]; [reflexivity|]. cbn [app length set_nth]. rewrite IH. reflexivity. Qed.
Lemma upd_mid (pre : list N) x post v o : o = len pre -> upd (pre ++ x :: post) o v = Ok (pre ++ v :: post).
Proof.
  intros ->. rewrite upd_ok by (rewrite len_app, len_cons; lia). unfold len. rewrite Nat2N.id, set_nth_mid. reflexivity.
Qed.
Lemma slice_mid (pre a post : list N) o e : o = len pre -> e = len pre + len a -> slice (pre ++ a ++ post) o e = Ok a.
Proof.
  intros -> ->. rewrite slice_ok by (rewrite ?len_app; lia). f_equal. replace (len pre + len a - len pre) with (len a) by lia. unfold len. rewrite !Nat2N.id.
  rewrite skipn_app, skipn_all, Nat.sub_diag. cbn [skipn app]. rewrite firstn_app, firstn_all, Nat.sub_diag. cbn [firstn]. apply app_nil_r.
Qed.
Definition row_start (c o : N) : list N := if c =? 0 then format_hex 8 o ++ [32; 32] else [].
Lemma group_byte_ok data s pre done b post x t :
  data = pre ++ done ++ b :: post -> b < 256 -> character_index s = len done -> len done < 16 -> data_offset s = len pre + len done ->
  ascii_values s = map printable done ++ x :: t -> (length done + S (length t) = 16)%nat ->
  group_byte data s = Ok (if len done =? 15
    then {| ascii_values := map printable (done ++ [b]); character_index := 0; data_offset := data_offset s + 1;
            group_data_offset := if len done =? 0 then data_offset s else group_data_offset s;
            output := output s ++ row_start (len done) (data_offset s) ++ cells_from (len done) [b] ++ [32] ++ map printable (done ++ [b]) ++ [10] |}
    else {| ascii_values := map printable (done ++ [b]) ++ t; character_index := len done + 1; data_offset := data_offset s + 1;
            group_data_offset := if len done =? 0 then data_offset s else group_data_offset s;
            output := output s ++ row_start (len done) (data_offset s) ++ cells_from (len done) [b] |}).
Proof.
  intros Ed Hb Hc Hl Ho Ha Ht. unfold group_byte. rewrite Hc, Ha.
  assert (E1 : idx data (data_offset s) = Ok b) by (rewrite Ed, app_assoc; apply idx_mid; rewrite len_app; exact Ho).
  rewrite E1. cbn [bind]. rewrite (upd_mid (map printable done) x t _ (len done)) by (rewrite len_map; reflexivity). cbn [bind].
  rewrite (format_byte b Hb), ascii_printable. unfold row_start. cbn [cells_from].
  assert (Em : map printable done ++ [printable b] = map printable (done ++ [b])) by (rewrite map_app; reflexivity).
  destruct (N.eqb_spec (len done) 15) as [E15|N15].
  - assert (length done = 15%nat) by (unfold len in E15; lia). destruct t as [|? ?]; [|cbn in Ht; lia]. rewrite Em.
    rewrite slice_ok by (rewrite ?len_map, ?len_app; cbn; lia). cbn [bind]. f_equal.
    replace (firstn (N.to_nat (len done + 1 - 0)) (skipn (N.to_nat 0) (map printable (done ++ [b])))) with (map printable (done ++ [b])).
    2: { cbn [N.to_nat skipn]. symmetry. apply firstn_all2. rewrite map_length, app_length. cbn [length]. unfold len. lia. }
    rewrite E15. cbn [N.eqb Pos.eqb]. rewrite !app_nil_l, ?app_nil_r. rewrite <- !app_assoc. reflexivity.
  - f_equal. replace (map printable done ++ printable b :: t) with (map printable (done ++ [b]) ++ t) by (rewrite map_app, <- app_assoc; reflexivity).
    destruct (len done =? 0), (len done =? 7); rewrite ?app_nil_r, <- ?app_assoc; reflexivity.
Qed.
Lemma row_steps data group gsize rest : forall done pre post s fuel t,
  data = pre ++ done ++ rest ++ post -> rest <> [] -> done <> [] -> (length done + length rest = 16)%nat -> wf_bytes rest ->
  len pre + 16 <= gsize -> character_index s = len done -> data_offset s = len pre + len done -> ascii_values s = map printable done ++ t -> length t = length rest ->
  groups_loop (length rest + fuel) data group gsize s
  = groups_loop fuel data group gsize {| ascii_values := map printable (done ++ rest); character_index := 0; data_offset := len pre + 16; group_data_offset := group_data_offset s;
      output := output s ++ cells_from (len done) rest ++ [32] ++ map printable (done ++ rest) ++ [10] |}.
Proof.
  induction rest as [|b rest IH]; intros done pre post s fuel t Ed Hr Hd Hl W Hg Hc Ho Ha Ht; [congruence|]. clear Hr.
  destruct t as [|x t]; [cbn in Ht; lia|]. cbn [length] in Hl, Ht. apply wf_bytes_cons in W. destruct W as [Hb W].
  assert (Hld : len done <> 0) by (destruct done; [congruence|rewrite len_cons; lia]).
  assert (Hl16 : len done < 16) by (unfold len; lia).
  change (length (b :: rest) + fuel)%nat with (S (length rest + fuel)). cbn [groups_loop].
  replace (data_offset s <? gsize) with true by (symmetry; apply N.ltb_lt; lia).
  unfold same_group. rewrite Hc. replace (len done =? 0) with false by (symmetry; apply N.eqb_neq; exact Hld). cbn [andb bind].
  rewrite (group_byte_ok data s pre done b (rest ++ post) x t Ed Hb Hc Hl16 Ho Ha) by lia. cbn [bind].
  replace (len done =? 0) with false by (symmetry; apply N.eqb_neq; exact Hld).
  unfold row_start. replace (len done =? 0) with false by (symmetry; apply N.eqb_neq; exact Hld). rewrite app_nil_l.
  destruct (N.eqb_spec (len done) 15) as [E15|N15].
  - assert (rest = []) by (destruct rest; [reflexivity|cbn in Hl; unfold len in E15; lia]). subst rest. cbn [length Nat.add]. f_equal. f_equal. lia.
  - destruct rest as [|b2 rest]; [cbn in Hl; unfold len in N15; lia|].
    rewrite (IH (done ++ [b]) pre post _ fuel t).
    + cbn [group_data_offset output]. f_equal. rewrite (cells_app [b] (len done) (b2 :: rest) : cells_from (len done) (b :: b2 :: rest) = _).
      replace (len done + len [b]) with (len (done ++ [b])) by (rewrite len_app; reflexivity). rewrite <- !app_assoc. reflexivity.
    + rewrite Ed, <- !app_assoc. reflexivity.
    + discriminate.
    + destruct done; discriminate.
    + rewrite app_length. cbn [length] in *. lia.
    + exact W.
    + exact Hg.
    + cbn [character_index]. rewrite len_app. reflexivity.
    + cbn [data_offset]. rewrite len_app, Ho. change (len [b]) with 1. lia.
    + reflexivity.
    + lia.
Qed.
Lemma groups_step data group gsize n s s' : data_offset s < gsize -> same_group data group gsize s = Ok false -> group_byte data s = Ok s' ->
  groups_loop (S n) data group gsize s = groups_loop n data group gsize s'.
Proof. intros H1 H2 H3. cbn [groups_loop]. apply N.ltb_lt in H1. rewrite H1, H2. cbn [bind]. rewrite H3. reflexivity. Qed.
(** A whole row *)
Lemma full_row data group gsize row pre post s fuel t :
  data = pre ++ row ++ post -> length row = 16%nat -> wf_bytes row -> len pre + 16 <= gsize -> character_index s = 0 -> data_offset s = len pre -> ascii_values s = t -> length t = 16%nat ->
  same_group data group gsize s = Ok false ->
  groups_loop (16 + fuel) data group gsize s
  = groups_loop fuel data group gsize {| ascii_values := map printable row; character_index := 0; data_offset := len pre + 16; group_data_offset := len pre;
      output := output s ++ (format_hex 8 (len pre) ++ [32; 32]) ++ cells_from 0 row ++ [32] ++ map printable row ++ [10] |}.
Proof.
  intros Ed Hl W Hg Hc Ho Ha Ht Hs. destruct row as [|b rest]; [discriminate|]. destruct t as [|x t]; [discriminate|]. cbn [length] in Hl, Ht.
  apply wf_bytes_cons in W. destruct W as [Hb W].
  assert (Er : length rest = 15%nat) by lia. replace (16 + fuel)%nat with (S (length rest + fuel)) by lia.
  assert (G := group_byte_ok data s pre [] b (rest ++ post) x t Ed Hb Hc ltac:(rewrite len_nil; lia) ltac:(rewrite len_nil; lia) Ha ltac:(cbn [length]; lia)).
  change (len []) with 0 in G. change (0 =? 15) with false in G. change (0 =? 0) with true in G. cbv iota in G.
  rewrite (groups_step data group gsize _ s _ ltac:(lia) Hs G). clear G.
  rewrite (row_steps data group gsize rest [b] pre post _ fuel t).
  - cbn [group_data_offset output]. change (len [b]) with 1. rewrite Ho. unfold row_start. change (0 =? 0) with true. cbv iota.
    rewrite (cells_app [b] 0 rest : cells_from 0 (b :: rest) = _). rewrite <- !app_assoc. reflexivity.
  - rewrite Ed. reflexivity.
  - destruct rest; [discriminate|discriminate].
  - discriminate.
  - cbn [length]. lia.
  - exact W.
  - exact Hg.
  - reflexivity.
  - cbn [data_offset]. rewrite Ho. reflexivity.
  - reflexivity.
  - lia.
Qed.
Lemma bytes_eq_iff a : forall b, bytes_eq a b = true <-> a = b.
Proof.
  induction a as [|x a IH]; intros [|y b]; cbn [bytes_eq]; split; intros H; try congruence.
  - apply Bool.andb_true_iff in H. destruct H as [H1 H2]. apply N.eqb_eq in H1. apply IH in H2. subst. reflexivity.
  - injection H as -> ->. rewrite N.eqb_refl. apply IH. reflexivity.
Qed.
Lemma len_16 (l : list N) : length l = 16%nat -> len l = 16.
Proof. unfold len. intros ->. reflexivity. Qed.
Lemma len_copies (row : list N) n : length row = 16%nat -> len (concat (repeat row n)) = 16 * N.of_nat n.
Proof. intros H. induction n as [|n IH]; [reflexivity|]. cbn [repeat concat]. rewrite len_app, IH, (len_16 row H). lia. Qed.
Lemma full_row_text o row : o < 16 ^ 32 -> length row = 16%nat ->
  row_text (Row o row) ((format_hex 8 o ++ [32; 32]) ++ cells_from 0 row ++ [32] ++ map printable row ++ [10]).
Proof.
  intros Ho Hl. pose proof (cells_padded row ltac:(lia)) as C. rewrite Hl in C. cbn [padding] in C. change (16 - 16)%nat with 0%nat in C. cbn [padding app] in C.
  replace ((format_hex 8 o ++ [32; 32]) ++ cells_from 0 row ++ [32] ++ map printable row ++ [10])
    with (format_hex 8 o ++ text "  " ++ padded 50 (cells row) ++ map printable row ++ [10]) by (rewrite <- C, <- !app_assoc; reflexivity).
  apply row_text_row. apply format_offset. exact Ho.
Qed.
(** The whole groups after a row that is shown at [pre0] and [m] copies of it that are not *)
Lemma groups_ok data group tail tl gsize (n : nat) : forall (m : nat) pre0 row rows s fuel,
  data = (pre0 ++ row ++ concat (repeat row m)) ++ concat rows ++ tail -> length rows = n -> Forall (fun r => length r = 16%nat) (row :: rows) -> wf_bytes data ->
  gsize = len (pre0 ++ row ++ concat (repeat row m)) + len (concat rows) -> gsize < 16 ^ 32 -> (m = 0%nat \/ (0 < n)%nat) ->
  (forall prev, dump prev gsize tl tail) ->
  character_index s = 0 -> data_offset s = len (pre0 ++ row ++ concat (repeat row m)) -> group_data_offset s = len pre0 -> length (ascii_values s) = 16%nat ->
  (16 * n < fuel)%nat ->
  exists k items ts rest a g, concat rows ++ tail = concat (repeat row k) ++ rest
    /\ dump (Some row) (data_offset s + 16 * N.of_nat k) (items ++ tl) rest
    /\ ((0 < m)%nat \/ (0 < k)%nat -> exists b items', items = Row (data_offset s + 16 * N.of_nat k) b :: items')
    /\ (group = false -> k = 0%nat /\ ~ In Repeated items)
    /\ Forall2 row_text items ts /\ length a = 16%nat
    /\ groups_loop fuel data group gsize s = Ok {| ascii_values := a; character_index := 0; data_offset := gsize; group_data_offset := g;
         output := output s ++ (if ((m =? 0) && negb (k =? 0))%nat then text "..." ++ [10] else []) ++ concat ts |}.
Proof.
  induction n as [|n IH]; intros m pre0 row rows s fuel Ed Hn HF W Hg Hlim Hm Htl Hc Ho Hgo Ha Hf.
  - destruct rows; [|discriminate]. destruct Hm as [->|Hm]; [|lia]. cbn [concat] in *. rewrite len_nil, N.add_0_r in Hg.
    exists 0%nat, [], [], tail, (ascii_values s), (group_data_offset s). split; [reflexivity|].
    split; [rewrite Ho, <- Hg; cbn [app]; replace (gsize + 16 * N.of_nat 0) with gsize by lia; apply Htl|]. split; [intros [H|H]; lia|].
    split; [intros _; split; [reflexivity|intros []]|]. split; [constructor|]. split; [exact Ha|].
    destruct fuel as [|fuel]; [lia|]. cbn [groups_loop]. replace (data_offset s <? gsize) with false by (symmetry; apply N.ltb_ge; lia).
    f_equal. destruct s. cbn in *. subst. rewrite !app_nil_r. reflexivity.
  - destruct rows as [|r rows]; [discriminate|]. injection Hn as Hn. apply Forall_cons_iff in HF. destruct HF as [HP HR]. apply Forall_cons_iff in HR. destruct HR as [H1 HR'].
    set (pre := pre0 ++ row ++ concat (repeat row m)) in *.
    assert (Epre : len pre = len pre0 + 16 * (N.of_nat m + 1)) by (unfold pre; rewrite !len_app, (len_copies row m HP), (len_16 row HP); lia).
    cbn [concat] in *. rewrite len_app, (len_16 r H1) in *.
    assert (Egs : slice data (len pre0) (len pre0 + 16) = Ok row).
    { rewrite Ed. unfold pre. rewrite <- !app_assoc. apply slice_mid; [reflexivity|]. rewrite (len_16 row HP). lia. }
    assert (Eos : slice data (len pre) (len pre + 16) = Ok r).
    { rewrite Ed. rewrite <- !app_assoc. apply slice_mid; [reflexivity|]. rewrite (len_16 r H1). lia. }
    assert (Es : same_group data group gsize s = Ok (group && bytes_eq row r && (len pre + 16 <? gsize))).
    { unfold same_group. rewrite Hc, Hgo, Ho. change (0 =? 0) with true. replace (len pre0 =? len pre) with false by (symmetry; apply N.eqb_neq; lia). cbn [andb negb].
      destruct group; cbn [andb]; [|reflexivity]. rewrite Egs. cbn [bind]. rewrite Eos. reflexivity. }
    destruct (group && bytes_eq row r && (len pre + 16 <? gsize)) eqn:Eq.
    + apply Bool.andb_true_iff in Eq. destruct Eq as [Eq E3]. apply Bool.andb_true_iff in Eq. destruct Eq as [Egr E2]. apply bytes_eq_iff in E2. subst r. apply N.ltb_lt in E3. subst group.
      assert (Hn0 : (0 < length rows)%nat) by (destruct rows; [cbn [concat] in *; rewrite len_nil in Hg; lia|cbn [length]; lia]).
      destruct fuel as [|fuel]; [lia|].
      assert (Ecp : pre ++ row = pre0 ++ row ++ concat (repeat row (S m))).
      { unfold pre. rewrite <- !app_assoc. f_equal. cbn [repeat concat]. f_equal. clear. induction m as [|m IH]; [cbn; rewrite app_nil_r; reflexivity|]. cbn [repeat concat]. rewrite <- app_assoc, IH. reflexivity. }
      assert (Elp : len (pre ++ row) = len pre + 16) by (rewrite len_app, (len_16 row HP); reflexivity).
      destruct (IH (S m) pre0 row rows {| ascii_values := ascii_values s; character_index := character_index s; data_offset := data_offset s + 16; group_data_offset := group_data_offset s;
               output := if group_data_offset s + 16 =? data_offset s then output s ++ [0x2e; 0x2e; 0x2e; 0x0a] else output s |} fuel)
        as (k & items & ts & rest & a & g & X1 & X2 & X3 & X4 & X5 & X6 & X7).
      * rewrite Ed, <- Ecp, <- !app_assoc. reflexivity.
      * exact Hn.
      * constructor; assumption.
      * exact W.
      * rewrite <- Ecp, Elp. lia.
      * exact Hlim.
      * right. rewrite <- Hn. exact Hn0.
      * exact Htl.
      * exact Hc.
      * cbn [data_offset]. rewrite <- Ecp, Elp, Ho. reflexivity.
      * exact Hgo.
      * exact Ha.
      * lia.
      * cbn [data_offset output] in *. exists (S k), items, ts, rest, a, g.
        assert (Eo : data_offset s + 16 + 16 * N.of_nat k = data_offset s + 16 * N.of_nat (S k)) by lia.
        rewrite Eo in X2, X3. split; [cbn [repeat concat]; rewrite <- app_assoc, X1, <- app_assoc; reflexivity|]. split; [exact X2|].
        split; [intros _; apply X3; left; lia|]. split; [discriminate|]. split; [exact X5|]. split; [exact X6|].
        cbn [groups_loop]. replace (data_offset s <? gsize) with true by (symmetry; apply N.ltb_lt; rewrite Ho; lia). rewrite Es. cbn [bind]. rewrite X7. f_equal. f_equal.
        replace (S m =? 0)%nat with false by reflexivity. replace (S k =? 0)%nat with false by reflexivity. cbn [andb negb app].
        rewrite Hgo, Ho, Epre. destruct (Nat.eqb_spec m 0) as [->|Hm0].
        -- replace (len pre0 + 16 =? len pre0 + 16 * (N.of_nat 0 + 1)) with true by (symmetry; apply N.eqb_eq; lia). cbn [andb]. rewrite <- app_assoc. reflexivity.
        -- replace (len pre0 + 16 =? len pre0 + 16 * (N.of_nat m + 1)) with false by (symmetry; apply N.eqb_neq; lia). reflexivity.
    + replace fuel with (16 + (fuel - 16))%nat by lia.
      rewrite (full_row data group gsize r pre (concat rows ++ tail) s (fuel - 16) (ascii_values s)); try assumption; try reflexivity.
      2: { rewrite Ed, <- !app_assoc. reflexivity. }
      2: { rewrite Ed in W. apply wf_bytes_app in W. destruct W as [_ W]. rewrite <- app_assoc in W. apply wf_bytes_app in W. apply W. }
      2: { lia. }
      destruct (IH 0%nat pre r rows {| ascii_values := map printable r; character_index := 0; data_offset := len pre + 16; group_data_offset := len pre;
           output := output s ++ (format_hex 8 (len pre) ++ [32; 32]) ++ cells_from 0 r ++ [32] ++ map printable r ++ [10] |} (fuel - 16)%nat)
        as (k & items & ts & rest & a & g & X1 & X2 & X3 & X4 & X5 & X6 & X7).
      * cbn [repeat concat]. rewrite app_nil_r, Ed, <- !app_assoc. reflexivity.
      * exact Hn.
      * constructor; assumption.
      * exact W.
      * cbn [repeat concat]. rewrite app_nil_r, len_app, (len_16 r H1). lia.
      * exact Hlim.
      * left. reflexivity.
      * exact Htl.
      * reflexivity.
      * cbn [data_offset repeat concat]. rewrite app_nil_r, len_app, (len_16 r H1). reflexivity.
      * reflexivity.
      * cbn [ascii_values]. rewrite map_length. exact H1.
      * lia.
      * cbn [data_offset output] in *.
        exists 0%nat, (Row (data_offset s) r :: (if (k =? 0)%nat then items else Repeated :: items)),
          (((format_hex 8 (len pre) ++ [32; 32]) ++ cells_from 0 r ++ [32] ++ map printable r ++ [10]) :: (if (k =? 0)%nat then ts else (text "..." ++ [10]) :: ts)), (r ++ concat rows ++ tail), a, g.
        split; [cbn [repeat concat app]; rewrite <- app_assoc; reflexivity|].
        assert (Eo : data_offset s + 16 * N.of_nat 0 = len pre) by (rewrite Ho; lia). rewrite Eo, Ho.
        split. { cbn [app]. apply dump_row; [apply len_16; exact H1|]. rewrite X1. destruct (Nat.eqb_spec k 0) as [->|Hk].
          - cbn [repeat concat app]. replace (len pre + 16 + 16 * N.of_nat 0) with (len pre + 16) in X2 by lia. exact X2.
          - assert (Hk0 : (0 < k)%nat) by lia. destruct (X3 (or_intror Hk0)) as (b & items' & Ei). rewrite Ei in *. cbn [app] in *. apply dump_repeated; [lia|exact X2]. }
        split; [intros _; eauto|].
        split. { intros Hgf. destruct (X4 Hgf) as (-> & X4'). split; [reflexivity|]. cbn [Nat.eqb]. intros [H|H]; [discriminate|apply X4'; exact H]. }
        split. { constructor; [apply full_row_text; [apply (N.le_lt_trans _ gsize); [clear - Hg; lia|exact Hlim]|exact H1]|]. destruct (k =? 0)%nat; [exact X5|constructor; [apply row_text_repeated|exact X5]]. }
        split; [exact X6|]. rewrite X7. f_equal. f_equal.
        replace (0 =? 0)%nat with true by reflexivity. destruct (Nat.eqb_spec m 0) as [Em0|Em0], (Nat.eqb_spec k 0) as [Ek0|Ek0]; cbn [andb negb app concat]; rewrite <- !app_assoc; reflexivity.
Qed.

(** ** The bytes after the whole groups *)
Lemma remainder_steps data rest : forall done pre s fuel t,
  data = pre ++ done ++ rest -> (length done + length rest < 16)%nat -> wf_bytes rest -> len pre mod 16 = 0 ->
  data_offset s = len pre + len done -> ascii_values s = map printable done ++ t -> (length rest <= length t)%nat -> (length rest < fuel)%nat ->
  exists t', remainder_loop fuel data (len data) s = Ok {| ascii_values := map printable (done ++ rest) ++ t'; character_index := match rest with [] => character_index s | _ => len done + len rest - 1 end;
    data_offset := len data; group_data_offset := group_data_offset s;
    output := output s ++ match rest with [] => [] | _ => row_start (len done) (len pre + len done) ++ cells_from (len done) rest end |}.
Proof.
  induction rest as [|b rest IH]; intros done pre s fuel t Ed Hl W Hp Ho Ha Ht Hf.
  - exists t. destruct fuel as [|fuel]; [cbn in Hf; lia|]. cbn [remainder_loop].
    assert (E : len data = data_offset s) by (rewrite Ed, !len_app, len_nil; lia). rewrite E, N.ltb_irrefl. f_equal. destruct s. cbn in *. subst. rewrite !app_nil_r. reflexivity.
  - destruct fuel as [|fuel]; [cbn in Hf; lia|]. destruct t as [|x t]; [cbn in Ht; lia|]. cbn [length] in *. apply wf_bytes_cons in W. destruct W as [Hb W].
    assert (Hld : len done < 16) by (unfold len; lia).
    assert (Em : data_offset s mod 16 = len done).
    { rewrite Ho, N.add_mod, Hp, N.add_0_l, N.mod_mod by lia. apply N.mod_small. exact Hld. }
    cbn [remainder_loop]. replace (data_offset s <? len data) with true by (symmetry; apply N.ltb_lt; rewrite Ed, !len_app, len_cons; lia).
    rewrite Em. cbv zeta.
    assert (E1 : idx data (data_offset s) = Ok b) by (rewrite Ed, app_assoc; apply idx_mid; rewrite len_app; exact Ho). rewrite E1. cbn [bind].
    rewrite Ha, (upd_mid (map printable done) x t _ (len done)) by (rewrite len_map; reflexivity). cbn [bind]. rewrite (format_byte b Hb), ascii_printable.
    destruct (IH (done ++ [b]) pre {| ascii_values := map printable done ++ printable b :: t; character_index := len done; data_offset := data_offset s + 1; group_data_offset := group_data_offset s;
       output := if len done =? 7 then ((if len done =? 0 then output s ++ format_hex 8 (data_offset s) ++ [32; 32] else output s) ++ byte_text b ++ [32]) ++ [32]
                 else (if len done =? 0 then output s ++ format_hex 8 (data_offset s) ++ [32; 32] else output s) ++ byte_text b ++ [32] |} fuel t) as (t' & E).
    + rewrite Ed, <- !app_assoc. reflexivity.
    + rewrite app_length. cbn [length]. lia.
    + exact W.
    + exact Hp.
    + cbn [data_offset]. rewrite Ho, len_app. change (len [b]) with 1. lia.
    + cbn [ascii_values]. rewrite map_app, <- app_assoc. reflexivity.
    + lia.
    + lia.
    + exists t'. rewrite E. cbn [group_data_offset output character_index]. rewrite <- app_assoc. cbn [app]. f_equal.
      replace (match rest with [] => len done | _ :: _ => len (done ++ [b]) + len rest - 1 end) with (len done + len (b :: rest) - 1).
      2: { rewrite len_app, len_cons. change (len [b]) with 1. destruct rest; [rewrite len_nil|]; lia. }
      f_equal. rewrite Ho. unfold row_start.
      replace (len (done ++ [b]) =? 0) with false by (symmetry; apply N.eqb_neq; rewrite len_app; change (len [b]) with 1; lia).
      rewrite (cells_app [b] (len done) rest : cells_from (len done) (b :: rest) = _). cbn [cells_from].
      replace (len (done ++ [b])) with (len done + len [b]) by (rewrite len_app; reflexivity).
      destruct (len done =? 0), (len done =? 7), rest; cbn [cells_from]; rewrite ?app_nil_r, <- ?app_assoc; reflexivity.
Qed.

(** ** All together *)
Lemma split_rows (data : list N) : exists rows tail, data = concat rows ++ tail /\ Forall (fun r => length r = 16%nat) rows /\ (length tail < 16)%nat.
Proof.
  assert (X : forall n (data : list N), (length data < n)%nat -> exists rows tail, data = concat rows ++ tail /\ Forall (fun r => length r = 16%nat) rows /\ (length tail < 16)%nat).
  { induction n as [|n IH]; intros d H; [lia|]. destruct (Nat.lt_ge_cases (length d) 16) as [L|L]; [exists [], d; split; [reflexivity|split; [constructor|exact L]]|].
    destruct (IH (skipn 16 d)) as (rows & tail & E & F & T); [rewrite skipn_length; lia|]. exists (firstn 16 d :: rows), tail.
    split; [cbn [concat]; rewrite <- app_assoc, <- E; symmetry; apply firstn_skipn|]. split; [|exact T]. constructor; [|exact F]. rewrite firstn_length. lia. }
  apply (X (S (length data))). lia.
Qed.
Lemma len_rows rows : Forall (fun r : list N => length r = 16%nat) rows -> len (concat rows) = 16 * N.of_nat (length rows).
Proof. induction 1 as [|r rows H _ IH]; [reflexivity|]. cbn [concat length]. rewrite len_app, (len_16 r H), IH. lia. Qed.
(** What the last row looks like. *)
Definition last_row (o : N) (tail : list N) : list N :=
  match tail with [] => [] | _ => row_start 0 o ++ cells_from 0 tail ++ (if len tail =? 1 then [] else padding (16 - length tail) (len tail) ++ [32] ++ map printable tail ++ [10]) end.
Lemma hexdump_ok data group rows tail tl : data = concat rows ++ tail -> Forall (fun r => length r = 16%nat) rows -> (length tail < 16)%nat -> wf_bytes data -> len data < 16 ^ 32 ->
  (forall prev, dump prev (len (concat rows)) tl tail) ->
  exists items ts, dump None 0 (items ++ tl) data /\ (group = false -> ~ In Repeated items) /\ Forall2 row_text items ts
    /\ format_as_hexdump data group = Ok ((concat ts ++ last_row (len (concat rows)) tail) ++ [10]).
Proof.
  intros Ed HF Ht W Hlim Htl. assert (Et : len tail < 16) by (unfold len; lia). pose proof (len_rows rows HF) as Lr.
  assert (El : len data = 16 * N.of_nat (length rows) + len tail) by (rewrite Ed, len_app, Lr; reflexivity).
  assert (Eg : len data / 16 * 16 = len (concat rows)).
  { rewrite Lr, El, (N.mul_comm 16), N.div_add_l, (N.div_small (len tail) 16 Et), N.add_0_r by lia. reflexivity. }
  set (s0 := {| ascii_values := repeat 0x2e 16; character_index := 0; data_offset := 0; group_data_offset := 0; output := [] |}).
  assert (G : exists items ts a g, dump None 0 (items ++ tl) data /\ (group = false -> ~ In Repeated items) /\ Forall2 row_text items ts /\ length a = 16%nat
    /\ groups_loop (S (length data)) data group (len (concat rows)) s0 = Ok {| ascii_values := a; character_index := 0; data_offset := len (concat rows); group_data_offset := g; output := concat ts |}).
  { destruct rows as [|r rows].
    - exists [], [], (repeat 0x2e 16), 0. cbn [concat app] in *. rewrite Ed. split; [apply (Htl None)|]. split; [intros _ []|]. split; [constructor|]. split; reflexivity.
    - apply Forall_cons_iff in HF. destruct HF as [H1 HF]. cbn [concat] in *.
      assert (Hd : (16 + 16 * length rows <= length data)%nat) by (rewrite len_app, (len_16 r H1), (len_rows rows HF) in Lr; unfold len in El; cbn [length] in *; lia).
      replace (S (length data)) with (16 + (S (length data) - 16))%nat by lia.
      rewrite (full_row data group (len (r ++ concat rows)) r [] (concat rows ++ tail) s0 _ (repeat 0x2e 16)); try reflexivity; try assumption.
      2: { rewrite Ed, <- app_assoc. reflexivity. }
      2: { rewrite Ed in W. apply wf_bytes_app in W. destruct W as [W _]. apply wf_bytes_app in W. apply W. }
      2: { rewrite len_app, (len_16 r H1), len_nil. lia. }
      2: { unfold same_group, s0. cbn [character_index group_data_offset data_offset]. rewrite N.eqb_refl. destruct group; reflexivity. }
      set (s1 := {| ascii_values := map printable r; character_index := 0; data_offset := len [] + 16; group_data_offset := len []; output := output s0 ++ (format_hex 8 (len []) ++ [32; 32]) ++ cells_from 0 r ++ [32] ++ map printable r ++ [10] |}).
      destruct (groups_ok data group tail tl (len (r ++ concat rows)) (length rows) 0 [] r rows s1 (S (length data) - 16)) as (k & items & ts & rest & a & g & X1 & X2 & X3 & X4 & X5 & X6 & X7).
      + cbn [repeat concat app]. rewrite app_nil_r, Ed, <- app_assoc. reflexivity.
      + reflexivity.
      + constructor; assumption.
      + exact W.
      + cbn [repeat concat app]. rewrite app_nil_r, len_app. reflexivity.
      + apply (N.le_lt_trans _ (len data)); [|exact Hlim]. rewrite Ed, (len_app _ tail). lia.
      + left. reflexivity.
      + exact Htl.
      + reflexivity.
      + cbn [repeat concat app]. rewrite app_nil_r, (len_16 r H1). reflexivity.
      + reflexivity.
      + cbn [s1 ascii_values]. rewrite map_length. exact H1.
      + lia.
      + cbn [s1 data_offset] in X2, X3. change (len [] + 16) with 16 in X2, X3.
        exists (Row 0 r :: (if (k =? 0)%nat then items else Repeated :: items)),
          (((format_hex 8 0 ++ [32; 32]) ++ cells_from 0 r ++ [32] ++ map printable r ++ [10]) :: (if (k =? 0)%nat then ts else (text "..." ++ [10]) :: ts)), a, g.
        split. { rewrite Ed, <- app_assoc. cbn [app]. apply dump_row; [apply len_16; exact H1|]. rewrite X1. destruct (Nat.eqb_spec k 0) as [->|Hk].
          - cbn [repeat concat app]. replace (16 + 16 * N.of_nat 0) with (0 + 16) in X2 by lia. exact X2.
          - assert (Hk0 : (0 < k)%nat) by lia. destruct (X3 (or_intror Hk0)) as (b & items' & Ei). rewrite Ei in *. cbn [app] in *. change (0 + 16) with 16. apply dump_repeated; [lia|exact X2]. }
        split. { intros Hgf. destruct (X4 Hgf) as (-> & X4'). cbn [Nat.eqb]. intros [H|H]; [discriminate|apply X4'; exact H]. }
        split. { constructor; [apply full_row_text; [reflexivity|exact H1]|]. destruct (k =? 0)%nat; [exact X5|constructor; [apply row_text_repeated|exact X5]]. }
        split; [exact X6|]. rewrite X7. f_equal. f_equal. cbn [s1 s0 output]. change (len []) with 0.
        replace (0 =? 0)%nat with true by reflexivity. destruct (Nat.eqb_spec k 0) as [Ek0|Ek0]; cbn [andb negb app concat]; rewrite <- ?app_assoc; reflexivity. }
  destruct G as (items & ts & a & g & G1 & G2 & G3 & G4 & G5). exists items, ts. split; [exact G1|]. split; [exact G2|]. split; [exact G3|].
  unfold format_as_hexdump. cbv zeta. rewrite Eg. fold s0. rewrite G5. cbn [bind].
  assert (Wt : wf_bytes tail) by (rewrite Ed in W; apply wf_bytes_app in W; apply W).
  destruct (remainder_steps data tail [] (concat rows) {| ascii_values := a; character_index := 0; data_offset := len (concat rows); group_data_offset := g; output := concat ts |} (S (length data)) a) as (t' & E).
  - rewrite Ed. reflexivity.
  - cbn [length]. lia.
  - exact Wt.
  - rewrite Lr, N.mul_comm. apply N.mod_mul. lia.
  - cbn [data_offset]. rewrite len_nil. lia.
  - reflexivity.
  - lia.
  - rewrite Ed, app_length. lia.
  - rewrite E. cbn [bind character_index output app ascii_values]. unfold last_row. destruct tail as [|b tail'] eqn:Etl.
    + rewrite Bool.andb_false_r. cbn [bind]. reflexivity.
    + rewrite <- Etl in *. change (len []) with 0. rewrite N.add_0_l, N.add_0_r. assert (Hd : 0 < len tail) by (rewrite Etl, len_cons; lia).
      replace (0 <? len data) with true by (symmetry; apply N.ltb_lt; lia). cbn [andb].
      destruct (N.eqb_spec (len tail) 1) as [E1|E1].
      * rewrite E1. cbn [N.sub Pos.sub_mask N.ltb N.compare bind]. rewrite app_nil_r. reflexivity.
      * replace (0 <? len tail - 1) with true by (symmetry; apply N.ltb_lt; lia). replace (len tail - 1 + 1) with (len tail) by lia.
        rewrite (slice_mid [] (map printable tail) t') by (rewrite ?len_map; reflexivity). cbn [bind].
        replace (N.to_nat (16 - len tail)) with (16 - length tail)%nat by (unfold len; lia). repeat (rewrite <- ?app_assoc; cbn [app]). reflexivity.
Qed.
Lemma last_row_text o tail : o < 16 ^ 32 -> (2 <= length tail < 16)%nat -> row_text (Row o tail) (last_row o tail).
Proof.
  intros Ho Hl. pose proof (cells_padded tail ltac:(lia)) as C. unfold last_row. destruct tail as [|b tail'] eqn:E; [cbn in Hl; lia|]. rewrite <- E in *. clear E.
  replace (len tail =? 1) with false by (symmetry; apply N.eqb_neq; unfold len; lia).
  replace (row_start 0 o ++ cells_from 0 tail ++ padding (16 - length tail) (len tail) ++ [32] ++ map printable tail ++ [10])
    with (format_hex 8 o ++ text "  " ++ padded 50 (cells tail) ++ map printable tail ++ [10]).
  - apply row_text_row. apply format_offset. exact Ho.
  - rewrite <- C. unfold row_start. change (0 =? 0) with true. cbv iota. rewrite <- !app_assoc. reflexivity.
Qed.
Lemma dump_data prev o items d : dump prev o items d -> forall d', dump prev o items d' -> d = d'.
Proof.
  induction 1 as [prev o|prev o bytes items data Hl H IH|prev o bytes Hl|prev o n bytes items data Hn H IH]; intros d' H'.
  - inversion H'; reflexivity.
  - inversion H'; subst; [f_equal; apply IH; assumption|]. lia.
  - inversion H'; subst; [lia|reflexivity].
  - remember (o + 16 * N.of_nat n) as e eqn:Ee. inversion H' as [| | |p2 o2 n' b2 i2 d2 Hn' HD' E1 E2 E3 E4]. change (o + 16 * N.of_nat n' = e) in E3. assert (n' = n) by lia. subst n'. f_equal. apply IH. rewrite E3 in HD'. exact HD'.
Qed.
(** ** Arrays *)
Lemma joined_join s l : joined s l = join s l.
Proof. reflexivity. Qed.
Lemma array_rows_ok array : forall (n : nat) rows pre post fuel, array = pre ++ concat rows ++ post -> length rows = n ->
  Forall (fun r => length r = 16%nat) rows -> (n < fuel)%nat ->
  array_rows fuel array (len pre) (len pre + len (concat rows)) = Ok (map (joined comma) rows).
Proof.
  induction n as [|n IH]; intros rows pre post fuel Ea Hn HF Hf; (destruct fuel as [|fuel]; [lia|]); (destruct rows as [|r rows]; [try discriminate Hn|try discriminate Hn]); cbn [array_rows concat].
  - rewrite len_nil, N.add_0_r, N.ltb_irrefl. reflexivity.
  - apply Forall_cons_iff in HF. destruct HF as [H1 HF]. cbn [concat length] in *.
    assert (L1 : len r = 16) by (unfold len; rewrite H1; reflexivity).
    rewrite len_app, L1. replace (len pre <? len pre + (16 + len (concat rows))) with true by (symmetry; apply N.ltb_lt; lia).
    assert (Es : slice array (len pre) (len pre + 16) = Ok r).
    { rewrite Ea, <- L1, <- app_assoc. rewrite slice_ok by (rewrite ?len_app; lia). f_equal. replace (len pre + len r - len pre) with (len r) by lia. unfold len. rewrite !Nat2N.id.
      rewrite skipn_app, skipn_all, Nat.sub_diag. cbn [skipn app]. rewrite firstn_app, firstn_all, Nat.sub_diag. cbn [firstn]. apply app_nil_r. }
    rewrite Es. cbn [bind].
    assert (Ep : len (pre ++ r) = len pre + 16) by (rewrite len_app, L1; reflexivity).
    replace (len pre + (16 + len (concat rows))) with (len (pre ++ r) + len (concat rows)) by lia. rewrite <- Ep.
    rewrite (IH rows (pre ++ r) post fuel); [reflexivity| |lia|exact HF|lia]. rewrite Ea, <- !app_assoc. reflexivity.
Qed.
Lemma same_all first array : forallb (bytes_eq first) array = true <-> array = repeat first (length array).
Proof.
  induction array as [|x array IH]; cbn [forallb repeat length]; [tauto|]. rewrite Bool.andb_true_iff, bytes_eq_iff, IH. split.
  - intros [<- E]. f_equal. exact E.
  - intros E. injection E as E1 E2. split; [symmetry; exact E1|exact E2].
Qed.
Lemma decimal_rev_ok fuel : forall v, v < 10 ^ N.of_nat fuel -> (0 < fuel)%nat ->
  Forall (fun c => 48 <= c <= 57) (decimal_rev fuel v) /\ fold_right (fun c a => a * 10 + (c - 48)) 0 (decimal_rev fuel v) = v
  /\ exists t c, decimal_rev fuel v = t ++ [c] /\ (c = 48 -> t = [] /\ v = 0).
Proof.
  induction fuel as [|fuel IH]; intros v Hv Hf; [lia|]. cbn [decimal_rev]. pose proof (N.mod_lt v 10 ltac:(lia)) as M. pose proof (N.div_mod v 10 ltac:(lia)) as D.
  destruct (N.ltb_spec v 10) as [L|L].
  - rewrite (N.mod_small v 10 L). cbn [fold_right]. split; [repeat constructor; lia|]. split; [lia|]. exists [], (48 + v). split; [reflexivity|]. intros E. split; [reflexivity|lia].
  - rewrite Nat2N.inj_succ, N.pow_succ_r' in Hv. assert (H : v / 10 < 10 ^ N.of_nat fuel) by (apply N.div_lt_upper_bound; lia).
    assert (H10 : 1 <= v / 10) by (apply N.div_le_lower_bound; lia).
    assert (Hf' : (0 < fuel)%nat) by (destruct fuel; [cbn in H; lia|lia]).
    destruct (IH (v / 10) H Hf') as (A1 & A2 & t & c & A3 & A4). cbn [fold_right]. rewrite A2. split; [constructor; [lia|exact A1]|]. split; [lia|].
    exists (48 + v mod 10 :: t), c. split; [rewrite A3; reflexivity|]. intros E. destruct (A4 E) as [_ E']. lia.
Qed.
Lemma number_text_ok v : v < 10 ^ 20 -> decimal_text v (number_text v).
Proof.
  intros Hv. destruct (decimal_rev_ok 20 v Hv ltac:(lia)) as (A1 & A2 & t & c & A3 & A4). unfold number_text, decimal_text.
  split; [apply Forall_rev; exact A1|]. split; [rewrite fold_left_rev_right, rev_involutive || (rewrite <- fold_left_rev_right, rev_involutive); exact A2|].
  rewrite A3, rev_app_distr. exists c, (rev t). split; [reflexivity|]. intros E. destruct (A4 E) as [-> _]. reflexivity.
Qed.
