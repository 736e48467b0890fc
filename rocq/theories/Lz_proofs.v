From Verif Require Import Base BaseLemmas Lz_model Lz_spec.

(** ** Reading from a position *)
Definition At {A} (c : list A) (o : N) (r : list A) : Prop :=
  o <= len c /\ skipn (N.to_nat o) c = r.

Lemma at_start {A} (c : list A) : At c 0 c.
Proof. split; [lia | reflexivity]. Qed.

Lemma at_len {A} (c : list A) o r : At c o r -> len c = o + len r.
Proof. intros [H <-]. unfold len in *. rewrite skipn_length. lia. Qed.

Lemma at_advance {A} (c : list A) o r n : At c o r -> n <= len r ->
  At c (o + n) (skipn (N.to_nat n) r).
Proof.
  intros H Hn. pose proof (at_len _ _ _ H). destruct H as [H <-]. split; [lia |].
  rewrite skipn_skipn. f_equal. lia.
Qed.

Lemma at_cons {A} (c : list A) o x r : At c o (x :: r) ->
  idx c o = Ok x /\ At c (o + 1) r /\ o < len c.
Proof.
  intros H. pose proof (at_len _ _ _ H) as Hl. rewrite len_cons in Hl.
  split; [| split; [| lia]].
  - destruct H as [H E]. unfold idx.
    assert (G : nth_error (skipn (N.to_nat o) c) 0 = Some x) by now rewrite E.
    assert (X : forall a (l : list A), nth_error (skipn a l) 0 = nth_error l a).
    { induction a; intros [| h l]; try reflexivity. cbn [skipn]. rewrite IHa. reflexivity. }
    rewrite X in G. now rewrite G.
  - apply (at_advance c o (x :: r) 1) in H; [exact H |]. rewrite len_cons. lia.
Qed.

Lemma at_nil {A} (c : list A) o : At c o [] -> o = len c.
Proof. intros H. apply at_len in H. change (len (@nil A)) with 0 in H. lia. Qed.

Lemma at_slice {A} (c : list A) o r n : At c o r -> n <= len r ->
  slice c o (o + n) = Ok (firstn (N.to_nat n) r).
Proof.
  intros H Hn. pose proof (at_len _ _ _ H). destruct H as [H <-].
  rewrite slice_ok by lia. do 2 f_equal. lia.
Qed.

Lemma len_skipn {A} n (l : list A) : len (skipn n l) = len l - N.of_nat n.
Proof. unfold len. rewrite skipn_length. lia. Qed.

(** ** Writing at the end of what is written *)
Lemma firstn_len_app {A} (a b : list A) : firstn (length a) (a ++ b) = a.
Proof. rewrite firstn_app, Nat.sub_diag, firstn_all, firstn_O, app_nil_r. reflexivity. Qed.

Lemma skipn_len_app {A} (a b : list A) n : skipn (length a + n) (a ++ b) = skipn n b.
Proof.
  rewrite skipn_app, skipn_all2 by lia. cbn [app]. f_equal. lia.
Qed.

Lemma write_end out rest d : len d <= len rest ->
  write_at (out ++ rest) (len out) d = Ok (out ++ d ++ skipn (length d) rest).
Proof.
  intros H. unfold write_at. rewrite len_app.
  destruct (N.leb_spec (len out + len d) (len out + len rest)); [| lia].
  unfold len. rewrite Nat2N.id, firstn_len_app, <- Nat2N.inj_add, Nat2N.id, skipn_len_app.
  reflexivity.
Qed.

Lemma set_nth_app {A} (a : list A) x r v : set_nth (a ++ x :: r) (length a) v = a ++ v :: r.
Proof. induction a; cbn [app length set_nth]; congruence. Qed.

Lemma upd_end {A} (out : list A) x r v : upd (out ++ x :: r) (len out) v = Ok (out ++ v :: r).
Proof.
  rewrite upd_ok by (rewrite len_app, len_cons; lia).
  unfold len. rewrite Nat2N.id, set_nth_app. reflexivity.
Qed.

Lemma lz_copy_length d n : forall out, length (lz_copy out d n) = (length out + n)%nat.
Proof.
  induction n; intros out; cbn [lz_copy]; [lia |]. rewrite IHn, app_length. cbn [length]. lia.
Qed.
Lemma len_lz_copy d n out : len (lz_copy out d n) = len out + N.of_nat n.
Proof. unfold len. rewrite lz_copy_length. lia. Qed.

Lemma copy_end d : forall n out rest, 1 <= d <= len out -> (n <= length rest)%nat ->
  copy_loop n (out ++ rest) (len out) (len out - d) = Ok (lz_copy out d n ++ skipn n rest).
Proof.
  induction n as [| n IH]; intros out rest Hd Hn; [reflexivity |].
  destruct rest as [| x rest]; [cbn [length] in Hn; lia |].
  cbn [copy_loop lz_copy skipn].
  rewrite (idx_ok _ _ 0) by (rewrite len_app, len_cons; lia). cbn [bind].
  rewrite app_nth1 by (unfold len in *; lia).
  replace (N.to_nat (len out - d)) with (length out - N.to_nat d)%nat by (unfold len; lia).
  rewrite upd_end. cbn [bind].
  set (v := nth _ out 0).
  replace (out ++ v :: rest) with ((out ++ [v]) ++ rest) by now rewrite <- app_assoc.
  replace (len out + 1) with (len (out ++ [v])) by now rewrite len_app.
  replace (len out - d + 1) with (len (out ++ [v]) - d) by (rewrite len_app; cbn; lia).
  apply IH; [rewrite len_app; cbn; lia | cbn [length] in Hn; lia].
Qed.

(** With distance zero the buffer is copied onto itself. *)
Lemma copy_zero : forall n buf o, o + N.of_nat n <= len buf ->
  copy_loop n buf o o = Ok buf.
Proof.
  induction n as [| n IH]; intros buf o H; [reflexivity |].
  cbn [copy_loop]. rewrite (idx_ok _ _ 0) by lia. cbn [bind].
  rewrite upd_ok by lia. cbn [bind].
  assert (E : forall (l : list N) k, (k < length l)%nat -> set_nth l k (nth k l 0) = l).
  { induction l as [| h t IHl]; intros [| k] Hk; cbn [length set_nth nth] in *; try lia; auto.
    f_equal. apply IHl. lia. }
  rewrite E by (unfold len in H; lia). apply IH. lia.
Qed.

(** ** Bytes and bits *)
Lemma byte_forall (P : N -> bool) :
  forallb P (seqN 0 256) = true -> forall b, b < 256 -> P b = true.
Proof. intros H b Hb. rewrite forallb_forall in H. apply H, in_seqN. lia. Qed.

(** ** ADC as a function of the remaining input *)
Fixpoint adc_pure (fuel : nat) (c out : list N) (max : N) : res (list N) :=
  match fuel with
  | O => Panic
  | S fuel' =>
      match c with
      | [] => Ok out
      | op :: c =>
          if max <=? len out then Ok out
          else if 128 <=? op then
            check (op - 127 <=? len c) ;;;
            check (op - 127 <=? max - len out) ;;;
            adc_pure fuel' (skipn (N.to_nat (op - 127)) c)
              (out ++ firstn (N.to_nat (op - 127)) c) max
          else
            '(s, d, c) <-
              (if 64 <=? op then
                 match c with
                 | a :: b :: c => Ok (op - 60, a * 256 + b, c)
                 | _ => Err
                 end
               else
                 match c with
                 | b :: c => Ok (op / 4 + 3, op mod 4 * 256 + b, c)
                 | _ => Err
                 end) ;;
            check (d <? len out) ;;;
            check (s <=? max - len out) ;;;
            adc_pure fuel' c (lz_copy out (d + 1) (N.to_nat s)) max
      end
  end.

Lemma adc_op_facts op : op < 256 ->
  negb (N.land op 0x80 =? 0) = (128 <=? op) /\
  (128 <= op -> N.land op 0x7f + 1 = op - 127) /\
  (op < 128 -> negb (N.land op 0x40 =? 0) = (64 <=? op)) /\
  (64 <= op < 128 -> N.land op 0x3f + 4 = op - 60) /\
  (op < 64 -> N.shiftr (N.land op 0x3f) 2 + 3 = op / 4 + 3) /\
  N.land op 0x03 = op mod 4.
Proof.
  intros H.
  assert (G : (fun op =>
    Bool.eqb (negb (N.land op 0x80 =? 0)) (128 <=? op) &&
    (negb (128 <=? op) || (N.land op 0x7f + 1 =? op - 127)) &&
    (negb (op <? 128) || Bool.eqb (negb (N.land op 0x40 =? 0)) (64 <=? op)) &&
    (negb ((64 <=? op) && (op <? 128)) || (N.land op 0x3f + 4 =? op - 60)) &&
    (negb (op <? 64) || (N.shiftr (N.land op 0x3f) 2 + 3 =? op / 4 + 3)) &&
    (N.land op 0x03 =? op mod 4)) op = true).
  { revert H. revert op. apply byte_forall. vm_compute. reflexivity. }
  cbv beta in G. rewrite !andb_true_iff, !orb_true_iff in G.
  destruct G as (((((G1 & G2) & G3) & G4) & G5) & G6).
  repeat split.
  - now apply eqb_prop.
  - intros. destruct G2; [lia | now apply N.eqb_eq].
  - intros. destruct G3; [lia | now apply eqb_prop].
  - intros. destruct G4; [lia | now apply N.eqb_eq].
  - intros. destruct G5; [lia | now apply N.eqb_eq].
  - now apply N.eqb_eq.
Qed.

Lemma skipn_app_pre {A} (out x rest : list A) n :
  (out ++ x) ++ skipn n rest = out ++ x ++ skipn n rest.
Proof. now rewrite app_assoc. Qed.

Lemma lor_shl8 a b : b < 256 -> N.lor (N.shiftl a 8) b = a * 256 + b.
Proof.
  intros H. rewrite N.shiftl_mul_pow2. change (2 ^ 8) with 256.
  assert (E : N.land (a * 256) b = 0).
  { apply N.bits_inj_0. intros n. rewrite N.land_spec.
    change 256 with (2 ^ 8). destruct (N.ltb_spec n 8).
    - rewrite N.mul_pow2_bits_low by lia. reflexivity.
    - rewrite <- (N.mod_small b (2 ^ 8)) by exact H.
      rewrite N.mod_pow2_bits_high by lia. apply andb_false_r. }
  rewrite <- N.lxor_lor by exact E. rewrite <- N.add_nocarry_lxor by exact E. reflexivity.
Qed.

(** The rest of the buffer after the written part has grown from [out] to [o]. *)
Definition finished (out rest : list N) (r : res (list N)) : res (list N * N) :=
  o <- r ;; Ok (o ++ skipn (length o - length out) rest, len o).

Lemma finished_step out rest o1 k r :
  length o1 = (length out + k)%nat ->
  (forall o, r = Ok o -> (length o1 <= length o)%nat) ->
  finished o1 (skipn k rest) r = finished out rest r.
Proof.
  intros H Hr. unfold finished. destruct r as [o | |]; cbn [bind]; auto.
  specialize (Hr o eq_refl). do 3 f_equal. rewrite skipn_skipn. f_equal. lia.
Qed.

Lemma adc_pure_grows : forall fuel c out max o,
  adc_pure fuel c out max = Ok o -> (length out <= length o)%nat.
Proof.
  induction fuel; intros c out max o H; [discriminate |].
  cbn [adc_pure] in H. destruct c as [| op c]; [injection H as <-; lia |].
  destruct (max <=? len out); [injection H as <-; lia |].
  destruct (128 <=? op).
  - apply bind_Ok_inv in H as (? & _ & H). apply bind_Ok_inv in H as (? & _ & H).
    apply IHfuel in H. rewrite app_length in H. lia.
  - apply bind_Ok_inv in H as ([[s d] c'] & _ & H).
    apply bind_Ok_inv in H as (? & _ & H). apply bind_Ok_inv in H as (? & _ & H).
    apply IHfuel in H. rewrite lz_copy_length in H. lia.
Qed.

Lemma wf_skipn_at c o r : wf_bytes c -> At c o r -> wf_bytes r.
Proof. intros H [_ <-]. now apply wf_bytes_skipn. Qed.

Lemma adc_refine c : wf_bytes c -> forall fuel o r out rest,
  At c o r ->
  adc_loop fuel c o (out ++ rest) (len out) =
  finished out rest (adc_pure fuel r out (len out + len rest)).
Proof.
  intros Hwf. induction fuel as [| fuel IH]; intros o r out rest Hat; [reflexivity |].
  cbn [adc_loop adc_pure]. destruct r as [| op r].
  { apply at_nil in Hat. subst o. rewrite N.ltb_irrefl.
    unfold finished. cbn [bind]. rewrite Nat.sub_diag. reflexivity. }
  pose proof (wf_skipn_at _ _ _ Hwf Hat) as Hw. apply wf_bytes_cons in Hw as [Hop Hw].
  destruct (at_cons _ _ _ _ Hat) as (Hi & Hat1 & Hlt).
  destruct (N.ltb_spec o (len c)); [| lia].
  rewrite len_app.
  destruct (N.leb_spec (len out + len rest) (len out)).
  { unfold finished. cbn [bind]. rewrite Nat.sub_diag. reflexivity. }
  rewrite Hi. cbn [bind].
  destruct (adc_op_facts op Hop) as (F1 & F2 & F3 & F4 & F5 & F6).
  rewrite F1. pose proof (at_len _ _ _ Hat1) as Hlen.
  destruct (N.leb_spec 128 op) as [H128 | H128].
  - unfold add_chk, two8. rewrite F2 by lia.
    destruct (N.ltb_spec (op - 127) 256); [| lia]. cbn [bind].
    replace (len c - (o + 1)) with (len r) by lia.
    replace (len out + len rest - len out) with (len rest) by lia.
    destruct (N.leb_spec (op - 127) (len r)) as [Hl1 | Hl1]; [| reflexivity]. cbn [check bind].
    destruct (N.leb_spec (op - 127) (len rest)) as [Hl2 | Hl2]; [| reflexivity]. cbn [check bind].
    rewrite (at_slice _ _ _ _ Hat1) by exact Hl1. cbn [bind].
    set (lit := firstn (N.to_nat (op - 127)) r).
    assert (Hlit : len lit = op - 127)
      by (unfold lit, len; rewrite firstn_length; unfold len in Hl1; lia).
    rewrite write_end by lia. cbn [bind].
    rewrite app_assoc.
    replace (len out + (op - 127)) with (len (out ++ lit)) by (rewrite len_app; lia).
    rewrite (IH _ (skipn (N.to_nat (op - 127)) r)) by (now apply at_advance).
    replace (len (out ++ lit) + len (skipn (length lit) rest)) with (len out + len rest).
    2:{ rewrite len_app, len_skipn. unfold len in *. lia. }
    apply finished_step; [now rewrite app_length |].
    intros x Hx. now apply adc_pure_grows in Hx.
  - rewrite F3 by lia.
    assert (Hstep : forall s d o2 r2, 3 <= s -> At c o2 r2 ->
      (check (1 <=? len out);;; check (d <? len out);;;
       check (s <=? len out + len rest - len out);;;
       match_offset <- sub_chk (len out - d) 1;;
       buf' <- copy_loop (N.to_nat s) (out ++ rest) (len out) match_offset;;
       adc_loop fuel c o2 buf' (len out + s)) =
      finished out rest
        (check (d <? len out);;; check (s <=? len out + len rest - len out);;;
         adc_pure fuel r2 (lz_copy out (d + 1) (N.to_nat s)) (len out + len rest))).
    { intros s d o2 r2 Hs Hat2.
      destruct (N.ltb_spec d (len out)) as [Hd | Hd].
      2:{ destruct (1 <=? len out); reflexivity. }
      destruct (N.leb_spec 1 (len out)); [| lia]. cbn [check bind].
      replace (len out + len rest - len out) with (len rest) by lia.
      destruct (N.leb_spec s (len rest)) as [Hs2 | Hs2]; [| reflexivity]. cbn [check bind].
      unfold sub_chk. destruct (N.leb_spec 1 (len out - d)); [| lia]. cbn [bind].
      replace (len out - d - 1) with (len out - (d + 1)) by lia.
      rewrite copy_end by (unfold len in *; lia). cbn [bind].
      set (o1 := lz_copy out (d + 1) (N.to_nat s)).
      assert (Ho1 : len o1 = len out + s) by (unfold o1; rewrite len_lz_copy; lia).
      rewrite <- Ho1. rewrite (IH _ r2) by assumption.
      replace (len o1 + len (skipn (N.to_nat s) rest)) with (len out + len rest).
      2:{ rewrite len_skipn. unfold len in *. lia. }
      apply finished_step; [unfold o1; now rewrite lz_copy_length |].
      intros x Hx. now apply adc_pure_grows in Hx. }
    destruct (N.leb_spec 64 op) as [H64 | H64].
    + replace (len c - (o + 1)) with (len r) by lia.
      destruct r as [| a [| b r]].
      * reflexivity.
      * reflexivity.
      * rewrite !len_cons. destruct (N.leb_spec 2 (len r + 1 + 1)); [| lia]. cbn [check bind].
        unfold add_chk, two8. rewrite F4 by lia.
        destruct (N.ltb_spec (op - 60) 256); [| lia]. cbn [bind].
        destruct (at_cons _ _ _ _ Hat1) as (Ha & Hat2 & _).
        destruct (at_cons _ _ _ _ Hat2) as (Hb & Hat3 & _).
        unfold u16_be_at. rewrite Ha. cbn [bind]. rewrite Hb. cbn [bind].
        apply Hstep; [lia |]. replace (o + 1 + 2) with (o + 1 + 1 + 1) by lia. exact Hat3.
    + destruct r as [| b r].
      * apply at_nil in Hat1. rewrite Hat1, N.ltb_irrefl. reflexivity.
      * destruct (at_cons _ _ _ _ Hat1) as (Hb & Hat2 & Hlt2).
        destruct (N.ltb_spec (o + 1) (len c)); [| lia]. cbn [check bind].
        unfold add_chk, two8. rewrite F5 by lia.
        destruct (N.ltb_spec (op / 4 + 3) 256); [| lia]. cbn [bind].
        rewrite Hb. cbn [bind]. rewrite F6.
        apply wf_bytes_cons in Hw as [Hbb _]. rewrite lor_shl8 by exact Hbb.
        apply Hstep; [lia | exact Hat2].
Qed.

Lemma adc_decompress_pure c buf : wf_bytes c ->
  adc_decompress c buf = finished [] buf (adc_pure (S (length c)) c [] (len buf)).
Proof.
  intros H. unfold adc_decompress.
  change (adc_loop (S (length c)) c 0 buf 0)
    with (adc_loop (S (length c)) c 0 ([] ++ buf) (len (@nil N))).
  rewrite (adc_refine c H _ 0 c) by apply at_start. reflexivity.
Qed.

Lemma adc_pure_bounded : forall fuel c out max o, len out <= max ->
  adc_pure fuel c out max = Ok o -> len o <= max.
Proof.
  induction fuel; intros c out max o Hb H; [discriminate |].
  cbn [adc_pure] in H. destruct c as [| op c]; [now injection H as <- |].
  destruct (max <=? len out); [now injection H as <- |].
  destruct (128 <=? op).
  - apply bind_Ok_inv in H as (? & _ & H). apply bind_Ok_inv in H as (? & Hc & H).
    apply check_Ok in Hc. apply N.leb_le in Hc.
    apply IHfuel in H; [exact H |]. rewrite len_app. unfold len in *. rewrite firstn_length. lia.
  - apply bind_Ok_inv in H as ([[s d] c'] & _ & H). apply bind_Ok_inv in H as (? & _ & H).
    apply bind_Ok_inv in H as (? & Hc & H). apply check_Ok in Hc. apply N.leb_le in Hc.
    apply IHfuel in H; [exact H |]. rewrite len_lz_copy. lia.
Qed.

Lemma adc_pure_no_panic : forall fuel c out max,
  (length c < fuel)%nat -> adc_pure fuel c out max <> Panic.
Proof.
  induction fuel; intros c out max H; [lia |].
  cbn [adc_pure]. destruct c as [| op c]; [discriminate |].
  cbn [length] in H.
  destruct (max <=? len out); [discriminate |].
  destruct (128 <=? op).
  - destruct (op - 127 <=? len c); [| discriminate]. cbn [check bind].
    destruct (op - 127 <=? max - len out); [| discriminate]. cbn [check bind].
    apply IHfuel. rewrite skipn_length. lia.
  - assert (G : forall s d c', (length c' < fuel)%nat ->
      (check (d <? len out);;; check (s <=? max - len out);;;
       adc_pure fuel c' (lz_copy out (d + 1) (N.to_nat s)) max) <> Panic).
    { intros s d c' Hc. destruct (d <? len out); [| discriminate]. cbn [check bind].
      destruct (s <=? max - len out); [| discriminate]. cbn [check bind]. now apply IHfuel. }
    destruct (64 <=? op).
    + destruct c as [| a [| b c]]; try discriminate. cbn [bind]. apply G. cbn [length] in H. lia.
    + destruct c as [| b c]; try discriminate. cbn [bind]. apply G. cbn [length] in H. lia.
Qed.

(** Round trip. *)
Lemma adc_meaning_grows ts : forall out o, adc_meaning out ts = Some o ->
  (length out <= length o)%nat.
Proof.
  induction ts as [| t ts IH]; intros out o H; cbn [adc_meaning] in H.
  - injection H as <-. lia.
  - destruct (adc_token_meaning out t) as [o1 |] eqn:E; [| discriminate].
    apply IH in H. destruct t; cbn [adc_token_meaning] in E.
    + injection E as <-. rewrite app_length in H. lia.
    + destruct (distance <=? len out); [| discriminate]. injection E as <-.
      rewrite lz_copy_length in H. lia.
    + destruct (distance <=? len out); [| discriminate]. injection E as <-.
      rewrite lz_copy_length in H. lia.
Qed.

Lemma firstn_skipn_app {A} (l r : list A) n : n = length l ->
  firstn n (l ++ r) = l /\ skipn n (l ++ r) = r.
Proof.
  intros ->. split; [apply firstn_len_app |].
  replace (length l) with (length l + 0)%nat by lia. now rewrite skipn_len_app.
Qed.

Lemma adc_round_trip_pure ts : Forall adc_valid ts -> forall fuel out o max tail,
  (length (adc_encode ts ++ tail) < fuel)%nat ->
  adc_meaning out ts = Some o -> len o <= max ->
  (tail = [] \/ len o = max) ->
  adc_pure fuel (adc_encode ts ++ tail) out max = Ok o.
Proof.
  induction ts as [| t ts IH]; intros Hv fuel out o max tail Hf Hm Hmax Htail.
  - cbn [adc_meaning] in Hm. injection Hm as ->.
    change (adc_encode [] ++ tail) with tail in *.
    destruct fuel; [lia |]. cbn [adc_pure].
    destruct tail as [| x tail]; [reflexivity |].
    destruct Htail as [H | H]; [discriminate |].
    destruct (N.leb_spec max (len o)); [reflexivity | lia].
  - inversion Hv as [| ? ? Ht Hv']; subst. cbn [adc_meaning] in Hm.
    destruct (adc_token_meaning out t) as [o1 |] eqn:E; [| discriminate].
    pose proof (adc_meaning_grows _ _ _ Hm) as Hg.
    assert (Henc : adc_encode (t :: ts) ++ tail =
      adc_encode_token t ++ adc_encode ts ++ tail).
    { unfold adc_encode. cbn [map concat]. now rewrite <- app_assoc. }
    rewrite Henc in *. rewrite app_length in Hf.
    destruct fuel as [| fuel]; [lia |].
    assert (IH' : (length (adc_encode ts ++ tail) < fuel)%nat ->
       adc_pure fuel (adc_encode ts ++ tail) o1 max = Ok o)
      by (intros; apply IH; auto).
    set (r := adc_encode ts ++ tail) in *. clearbody r. clear IH Hv Hv' Henc Htail.
    destruct t as [l | d s | d s]; cbn [adc_valid adc_encode_token adc_token_meaning] in *.
    + destruct Ht as [Hl _]. injection E as <-. cbn [app adc_pure].
      rewrite app_length in Hg.
      destruct (N.leb_spec max (len out)); [unfold len in *; lia |].
      destruct (N.leb_spec 128 (128 + (len l - 1))); [| lia].
      replace (128 + (len l - 1) - 127) with (len l) by lia.
      rewrite len_app. destruct (N.leb_spec (len l) (len l + len r)); [| lia]. cbn [check bind].
      destruct (N.leb_spec (len l) (max - len out)); [| unfold len in *; lia]. cbn [check bind].
      destruct (firstn_skipn_app l r (N.to_nat (len l))) as [-> ->]; [unfold len; lia |].
      apply IH'. cbn [length] in Hf. lia.
    + destruct (N.leb_spec d (len out)); [| discriminate]. injection E as <-.
      rewrite lz_copy_length in Hg. cbn [app adc_pure].
      destruct (N.leb_spec max (len out)); [unfold len in *; lia |].
      destruct (N.leb_spec 128 ((s - 3) * 4 + (d - 1) / 256)); [lia |].
      destruct (N.leb_spec 64 ((s - 3) * 4 + (d - 1) / 256)); [lia |]. cbn [bind].
      replace (((s - 3) * 4 + (d - 1) / 256) mod 4 * 256 + (d - 1) mod 256) with (d - 1) by lia.
      replace (((s - 3) * 4 + (d - 1) / 256) / 4 + 3) with s by lia.
      destruct (N.ltb_spec (d - 1) (len out)); [| lia]. cbn [check bind].
      destruct (N.leb_spec s (max - len out)); [| unfold len in *; lia]. cbn [check bind].
      replace (d - 1 + 1) with d by lia. apply IH'. cbn [length] in Hf. lia.
    + destruct (N.leb_spec d (len out)); [| discriminate]. injection E as <-.
      rewrite lz_copy_length in Hg. cbn [app adc_pure].
      destruct (N.leb_spec max (len out)); [unfold len in *; lia |].
      destruct (N.leb_spec 128 (64 + (s - 4))); [lia |].
      destruct (N.leb_spec 64 (64 + (s - 4))); [| lia]. cbn [bind].
      replace ((d - 1) / 256 * 256 + (d - 1) mod 256) with (d - 1) by lia.
      replace (64 + (s - 4) - 60) with s by lia.
      destruct (N.ltb_spec (d - 1) (len out)); [| lia]. cbn [check bind].
      destruct (N.leb_spec s (max - len out)); [| unfold len in *; lia]. cbn [check bind].
      replace (d - 1 + 1) with d by lia. apply IH'. cbn [length] in Hf. lia.
Qed.

(** Every success is the meaning of a token sequence the input begins with. *)
Lemma adc_sound_pure : forall fuel c out max o, wf_bytes c ->
  adc_pure fuel c out max = Ok o ->
  exists ts tail, c = adc_encode ts ++ tail /\ Forall adc_valid ts /\
    adc_meaning out ts = Some o /\ (tail = [] \/ max <= len o).
Proof.
  induction fuel; intros c out max o Hw H; [discriminate |].
  cbn [adc_pure] in H. destruct c as [| op c].
  { injection H as <-. exists [], []. repeat split; auto. }
  apply wf_bytes_cons in Hw as [Hop Hw].
  destruct (N.leb_spec max (len out)).
  { injection H as <-. exists [], (op :: c). repeat split; auto. }
  assert (Hext : forall t c', adc_valid t -> op :: c = adc_encode_token t ++ c' ->
    (exists o1, adc_token_meaning out t = Some o1 /\
      exists ts tail, c' = adc_encode ts ++ tail /\ Forall adc_valid ts /\
       adc_meaning o1 ts = Some o /\ (tail = [] \/ max <= len o)) ->
    exists ts tail, op :: c = adc_encode ts ++ tail /\ Forall adc_valid ts /\
      adc_meaning out ts = Some o /\ (tail = [] \/ max <= len o)).
  { intros t c' Hv E (o1 & E1 & ts & tail & E2 & Hts & Hm & Ht).
    exists (t :: ts), tail. split.
    - rewrite E, E2. unfold adc_encode. cbn [map concat]. now rewrite <- app_assoc.
    - split; [now constructor |]. split; [| exact Ht]. cbn [adc_meaning]. now rewrite E1. }
  destruct (N.leb_spec 128 op) as [H128 | H128].
  - apply bind_Ok_inv in H as (u1 & C1 & H). apply check_Ok in C1.
    apply bind_Ok_inv in H as (u2 & C2 & H). apply check_Ok in C2.
    set (l := firstn (N.to_nat (op - 127)) c) in *.
    assert (Hl : len l = op - 127)
      by (unfold l, len; rewrite firstn_length; unfold len in *; lia).
    apply (Hext (ALiteral l) (skipn (N.to_nat (op - 127)) c)).
    + cbn [adc_valid]. split; [lia |]. now apply wf_bytes_firstn.
    + cbn [adc_encode_token app]. rewrite Hl. unfold l. rewrite firstn_skipn.
      f_equal. lia.
    + exists (out ++ l). split; [reflexivity |].
      apply IHfuel in H; [exact H |]. now apply wf_bytes_skipn.
  - assert (G : forall t d s c', wf_bytes c' ->
      (t = AShort (d + 1) s \/ t = ALong (d + 1) s) ->
      adc_valid t -> op :: c = adc_encode_token t ++ c' ->
      (check (d <? len out);;; check (s <=? max - len out);;;
       adc_pure fuel c' (lz_copy out (d + 1) (N.to_nat s)) max) = Ok o ->
      exists ts tail, op :: c = adc_encode ts ++ tail /\ Forall adc_valid ts /\
      adc_meaning out ts = Some o /\ (tail = [] \/ max <= len o)).
    { intros t d s c' Hw' Ht Hv E Hr.
      apply bind_Ok_inv in Hr as (u1 & C1 & Hr). apply check_Ok in C1.
      apply bind_Ok_inv in Hr as (u2 & C2 & Hr). apply check_Ok in C2.
      apply (Hext t c' Hv E).
      exists (lz_copy out (d + 1) (N.to_nat s)). split.
      - destruct Ht as [-> | ->]; cbn [adc_token_meaning];
          (destruct (N.leb_spec (d + 1) (len out)); [reflexivity | lia]).
      - apply IHfuel in Hr; assumption. }
    apply bind_Ok_inv in H as ([[s d] c'] & E & H).
    destruct (N.leb_spec 64 op) as [H64 | H64].
    + destruct c as [| a [| b c]]; try discriminate. injection E as <- <- <-.
      apply wf_bytes_cons in Hw as [Ha Hw]. apply wf_bytes_cons in Hw as [Hb Hw].
      apply (G (ALong (a * 256 + b + 1) (op - 60)) (a * 256 + b) (op - 60) c); auto.
      * cbn [adc_valid]. lia.
      * cbn [adc_encode_token app]. repeat f_equal; lia.
    + destruct c as [| b c]; try discriminate. injection E as <- <- <-.
      apply wf_bytes_cons in Hw as [Hb Hw].
      apply (G (AShort (op mod 4 * 256 + b + 1) (op / 4 + 3)) (op mod 4 * 256 + b) (op / 4 + 3) c); auto.
      * cbn [adc_valid]. lia.
      * cbn [adc_encode_token app]. repeat f_equal; lia.
Qed.
