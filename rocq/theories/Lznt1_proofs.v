From Verif Require Import Base BaseLemmas Lz_model Lz_spec Lz_proofs.

(** ** LZNT1 as a function of the remaining input [r] at offset [o] *)
Fixpoint tokens_pure (n : nat) (e flags o : N) (r out : list N) (room threshold shift mask : N)
    : res (N * list N * list N * (N * N * N)) :=
  match n with
  | O => Ok (o, r, out, (threshold, shift, mask))
  | S n' =>
      '(o, r, out) <-
        (if negb (N.land flags 0x01 =? 0) then
           match r with
           | a :: b :: r =>
               let tuple := a + b * 256 in
               distance <- add_chk two16 (N.shiftr tuple shift) 1 ;;
               match_size <- add_chk two16 (N.land tuple mask) 3 ;;
               check (distance <=? len out) ;;;
               check (match_size <=? room - len out) ;;;
               Ok (o + 2, r, lz_copy out distance (N.to_nat match_size))
           | _ => Err
           end
         else
           match r with
           | v :: r => check (len out <? room) ;;; Ok (o + 1, r, out ++ [v])
           | [] => Err
           end) ;;
      if e <=? o then Ok (o, r, out, (threshold, shift, mask))
      else
        '(threshold, shift, mask) <- lznt1_adapt 14 (len out) threshold shift mask ;;
        tokens_pure n' e (N.shiftr flags 1) o r out room threshold shift mask
  end.

Fixpoint block_pure (fuel : nat) (e o : N) (r out : list N) (room threshold shift mask : N)
    : res (list N) :=
  match fuel with
  | O => Panic
  | S fuel' =>
      if o <? e then
        match r with
        | [] => Ok out
        | flags :: r =>
            '(o, r, out, (threshold, shift, mask)) <-
              tokens_pure 8 e flags (o + 1) r out room threshold shift mask ;;
            block_pure fuel' e o r out room threshold shift mask
        end
      else Ok out
  end.

Fixpoint lznt1_pure (fuel : nat) (o : N) (r out : list N) (max : N) : res (list N) :=
  match fuel with
  | O => Panic
  | S fuel' =>
      match r with
      | [] => Ok out
      | _ =>
          if max <=? len out then Ok out
          else
            match r with
            | a :: b :: r =>
                let header := a + b * 256 in
                if header =? 0 then Ok out
                else
                  let bs := N.land header 0x0fff + 1 in
                  if negb (N.land header 0x8000 =? 0) then
                    chunk <- block_pure (S (N.to_nat bs)) (o + 2 + bs) (o + 2) r [] (max - len out)
                               16 12 0x0fff ;;
                    lznt1_pure fuel' (o + 2 + bs) (skipn (N.to_nat bs) r) (out ++ chunk) max
                  else
                    check (bs <=? len r) ;;;
                    check (len out + bs <=? max) ;;;
                    lznt1_pure fuel' (o + 2 + bs) (skipn (N.to_nat bs) r)
                      (out ++ firstn (N.to_nat bs) r) max
            | _ => Err
            end
      end
  end.

(** The buffer holds the output and the untouched rest. *)
Definition buffer_of (buf out0 rest0 out : list N) : Prop :=
  buf = out ++ skipn (length out - length out0) rest0 /\
  (length out0 <= length out)%nat /\ len out <= len out0 + len rest0.

Definition tokens_match (c out0 rest0 : list N)
    (m : res (N * list N * N * (N * N * N))) (p : res (N * list N * list N * (N * N * N))) : Prop :=
  match m, p with
  | Ok (o, buf, uo, t), Ok (o', r, out, t') =>
      o = o' /\ uo = len out /\ t = t' /\ At c o r /\ buffer_of buf out0 rest0 out
  | Err, Err => True
  | Panic, Panic => True
  | _, _ => False
  end.

Lemma buffer_grow out0 rest0 out x : buffer_of (out ++ skipn (length out - length out0) rest0) out0 rest0 out ->
  len x <= len out0 + len rest0 - len out ->
  buffer_of ((out ++ x) ++ skipn (length x) (skipn (length out - length out0) rest0)) out0 rest0 (out ++ x).
Proof.
  intros (_ & H2 & H3) Hx. unfold buffer_of. rewrite len_app, app_length. repeat split; try lia.
  rewrite skipn_skipn. do 2 f_equal. lia.
Qed.

Lemma lznt1_tokens_refine c : forall n e flags o r out0 rest0 buf out th sh mk,
  At c o r -> buffer_of buf out0 rest0 out ->
  tokens_match c out0 rest0 (lznt1_tokens n c e flags o buf (len out) th sh mk)
    (tokens_pure n e flags o r out (len out0 + len rest0) th sh mk).
Proof.
  induction n as [| n IH]; intros e flags o r out0 rest0 buf out th sh mk Hat Hbuf.
  { cbn. repeat split; try apply Hat; apply Hbuf. }
  cbn [lznt1_tokens tokens_pure].
  pose proof (at_len _ _ _ Hat) as Hlen.
  destruct Hbuf as (Hb1 & Hb2 & Hb3). set (rest := skipn (length out - length out0) rest0) in *.
  assert (Hlb : len buf = len out0 + len rest0).
  { rewrite Hb1, len_app. unfold rest. rewrite len_skipn. unfold len in *. lia. }
  assert (Hlr : len rest = len out0 + len rest0 - len out).
  { unfold rest. rewrite len_skipn. unfold len in *. lia. }
  rewrite Hlb.
  assert (Next : forall o1 r1 out1 buf1, At c o1 r1 -> buffer_of buf1 out0 rest0 out1 ->
    tokens_match c out0 rest0
      (if e <=? o1 then Ok (o1, buf1, len out1, (th, sh, mk))
       else '(threshold, shift, mask) <- lznt1_adapt 14 (len out1) th sh mk;;
            lznt1_tokens n c e (N.shiftr flags 1) o1 buf1 (len out1) threshold shift mask)
      (if e <=? o1 then Ok (o1, r1, out1, (th, sh, mk))
       else '(threshold, shift, mask) <- lznt1_adapt 14 (len out1) th sh mk;;
            tokens_pure n e (N.shiftr flags 1) o1 r1 out1 (len out0 + len rest0) threshold shift mask)).
  { intros o1 r1 out1 buf1 Hat1 Hbuf1. destruct (e <=? o1).
    - cbn. repeat split; try apply Hat1; apply Hbuf1.
    - destruct (lznt1_adapt 14 (len out1) th sh mk) as [[[t1 s1] m1] | |]; cbn [bind]; [| exact I ..].
      now apply IH. }
  destruct (negb (N.land flags 1 =? 0)).
  - replace (len c - o) with (len r) by lia.
    destruct r as [| a [| b r]]; [exact I | exact I |].
    rewrite !len_cons. destruct (N.leb_spec 2 (len r + 1 + 1)); [| lia]. cbn [check bind].
    destruct (at_cons _ _ _ _ Hat) as (Ha & Hat1 & _).
    destruct (at_cons _ _ _ _ Hat1) as (Hb & Hat2 & _).
    unfold u16_le_at. rewrite Ha. cbn [bind]. rewrite Hb. cbn [bind].
    destruct (add_chk two16 (N.shiftr (a + b * 256) sh) 1) as [d | |] eqn:Ed; cbn [bind]; [| exact I ..].
    assert (Hd : 1 <= d) by (unfold add_chk in Ed; destruct (_ <? _) in Ed; [injection Ed as <-; lia | discriminate]).
    destruct (add_chk two16 (N.land (a + b * 256) mk) 3) as [s | |] eqn:Es; cbn [bind]; [| exact I ..].
    destruct (N.leb_spec d (len out)); [| exact I]. cbn [check bind].
    destruct (N.leb_spec s (len out0 + len rest0 - len out)); [| exact I]. cbn [check bind].
    unfold sub_chk. destruct (N.leb_spec d (len out)); [| lia]. cbn [bind].
    rewrite Hb1. rewrite copy_end by (unfold len in *; lia). cbn [bind].
    replace (o + 2) with (o + 1 + 1) by lia.
    replace (len out + s) with (len (lz_copy out d (N.to_nat s))) by (rewrite len_lz_copy; lia).
    apply Next; [exact Hat2 |].
    unfold buffer_of. rewrite lz_copy_length, len_lz_copy. repeat split; try lia.
    unfold rest. rewrite skipn_skipn. do 2 f_equal. lia.
  - destruct r as [| v r].
    { apply at_nil in Hat. rewrite Hat, N.ltb_irrefl. exact I. }
    destruct (at_cons _ _ _ _ Hat) as (Hv & Hat1 & Hlt).
    destruct (N.ltb_spec o (len c)); [| lia]. cbn [check bind].
    destruct (N.ltb_spec (len out) (len out0 + len rest0)); [| exact I]. cbn [check bind].
    rewrite Hv. cbn [bind]. rewrite Hb1.
    destruct rest as [| x rest'] eqn:Er; [change (len (@nil N)) with 0 in Hlr; lia |].
    rewrite upd_end. cbn [bind].
    replace (len out + 1) with (len (out ++ [v])) by now rewrite len_app.
    apply Next; [exact Hat1 |].
    unfold buffer_of. rewrite app_length, len_app. cbn [length]. change (len [v]) with 1.
    repeat split; try lia.
    rewrite <- app_assoc. cbn [app]. f_equal. f_equal.
    replace (length out + 1 - length out0)%nat with (1 + (length out - length out0))%nat by lia.
    rewrite <- skipn_skipn. fold rest. rewrite Er. reflexivity.
Qed.

Definition block_match (out0 rest0 : list N) (m : res (list N * N)) (p : res (list N)) : Prop :=
  match m, p with
  | Ok (buf, uo), Ok out => uo = len out /\ buffer_of buf out0 rest0 out
  | Err, Err => True
  | Panic, Panic => True
  | _, _ => False
  end.

Lemma lznt1_block_refine c : forall fuel e o r out0 rest0 buf out th sh mk,
  At c o r -> buffer_of buf out0 rest0 out ->
  block_match out0 rest0 (lznt1_block_loop fuel c e o buf (len out) th sh mk)
    (block_pure fuel e o r out (len out0 + len rest0) th sh mk).
Proof.
  induction fuel as [| fuel IH]; intros e o r out0 rest0 buf out th sh mk Hat Hbuf; [exact I |].
  cbn [lznt1_block_loop block_pure].
  destruct (o <? e); [| cbn; auto].
  destruct r as [| flags r].
  { apply at_nil in Hat. subst o. rewrite N.leb_refl. cbn. auto. }
  destruct (at_cons _ _ _ _ Hat) as (Hf & Hat1 & Hlt).
  destruct (N.leb_spec (len c) o); [lia |]. rewrite Hf. cbn [bind].
  pose proof (lznt1_tokens_refine c 8 e flags (o + 1) r out0 rest0 buf out th sh mk Hat1 Hbuf) as H0.
  unfold tokens_match in H0.
  destruct (lznt1_tokens 8 c e flags (o + 1) buf (len out) th sh mk) as [[[[o1 b1] u1] t1] | |];
    destruct (tokens_pure 8 e flags (o + 1) r out (len out0 + len rest0) th sh mk)
      as [[[[o2 r2] out2] t2] | |];
    try (exfalso; exact H0); try exact I.
  destruct H0 as (<- & -> & -> & Hat2 & Hb2). cbn [bind]. destruct t2 as [[t2 s2] m2].
  now apply IH.
Qed.

Lemma skipn_all_app {A} (a b : list A) : skipn (length a) (a ++ b) = b.
Proof. replace (length a) with (length a + 0)%nat by lia. now rewrite skipn_len_app. Qed.

Lemma lznt1_pure_grows : forall fuel o r out max x,
  lznt1_pure fuel o r out max = Ok x -> (length out <= length x)%nat.
Proof.
  induction fuel; intros o r out max x H; [discriminate |].
  cbn [lznt1_pure] in H. destruct r as [| a r]; [injection H as <-; lia |].
  destruct (max <=? len out); [injection H as <-; lia |].
  destruct r as [| b r]; [discriminate |]. cbv zeta in H.
  destruct (a + b * 256 =? 0); [injection H as <-; lia |].
  destruct (negb _).
  - apply bind_Ok_inv in H as (ch & _ & H). apply IHfuel in H. rewrite app_length in H. lia.
  - apply bind_Ok_inv in H as (? & _ & H). apply bind_Ok_inv in H as (? & _ & H).
    apply IHfuel in H. rewrite app_length in H. lia.
Qed.

Definition AtOrPast (c : list N) (o : N) (r : list N) : Prop :=
  At c o r \/ (len c <= o /\ r = []).

Lemma at_or_past_advance c o r n : At c o r -> AtOrPast c (o + n) (skipn (N.to_nat n) r).
Proof.
  intros H. destruct (N.leb_spec n (len r)).
  - left. now apply at_advance.
  - right. pose proof (at_len _ _ _ H). split; [lia |]. apply skipn_all2. unfold len in *. lia.
Qed.

Lemma lznt1_refine c : forall fuel o r out rest, AtOrPast c o r ->
  lznt1_loop fuel c o (out ++ rest) (len out) =
  finished out rest (lznt1_pure fuel o r out (len out + len rest)).
Proof.
  induction fuel as [| fuel IH]; intros o r out rest Hat0; [reflexivity |].
  cbn [lznt1_loop lznt1_pure].
  assert (Hdone : Ok (out ++ rest, len out) = finished out rest (Ok out)).
  { unfold finished. cbn [bind]. now rewrite Nat.sub_diag. }
  destruct Hat0 as [Hat | [Hpast ->]].
  2:{ destruct (N.ltb_spec o (len c)); [lia | exact Hdone]. }
  pose proof (at_len _ _ _ Hat) as Hlen.
  destruct r as [| a r].
  { apply at_nil in Hat. subst o. rewrite N.ltb_irrefl. exact Hdone. }
  destruct (at_cons _ _ _ _ Hat) as (Ha & Hat1 & Hlt).
  destruct (N.ltb_spec o (len c)); [| lia]. rewrite len_app.
  destruct (N.leb_spec (len out + len rest) (len out)); [exact Hdone |].
  replace (len c - o) with (len (a :: r)) by lia.
  destruct r as [| b r]; [reflexivity |].
  rewrite !len_cons. destruct (N.leb_spec 2 (len r + 1 + 1)); [| lia]. cbn [check bind].
  destruct (at_cons _ _ _ _ Hat1) as (Hb & Hat2 & _).
  unfold u16_le_at. rewrite Ha. cbn [bind]. rewrite Hb. cbn [bind]. cbv zeta.
  destruct (a + b * 256 =? 0); [exact Hdone |].
  set (bs := N.land (a + b * 256) 4095 + 1).
  replace (o + 1 + 1) with (o + 2) in Hat2 by lia.
  destruct (negb (N.land (a + b * 256) 32768 =? 0)).
  - assert (Hs : slice (out ++ rest) (len out) (len out + len rest) = Ok rest).
    { assert (Hr : At (out ++ rest) (len out) rest).
      { split; [rewrite len_app; lia |]. unfold len. rewrite Nat2N.id. apply skipn_all_app. }
      rewrite (at_slice _ _ _ _ Hr) by lia. f_equal. unfold len. rewrite Nat2N.id. apply firstn_all. }
    rewrite Hs. cbn [bind]. unfold lznt1_block.
    pose proof (lznt1_block_refine c (S (N.to_nat bs)) (o + 2 + bs) (o + 2) r [] rest rest [] 16 12 4095 Hat2)
      as Hbm.
    change (len (@nil N)) with 0 in Hbm. rewrite N.add_0_l in Hbm.
    assert (Hbuf0 : buffer_of rest [] rest []).
    { unfold buffer_of. cbn [length]. change (len (@nil N)) with 0. repeat split; lia. }
    specialize (Hbm Hbuf0). replace (len out + len rest - len out) with (len rest) by lia.
    unfold block_match in Hbm.
    destruct (lznt1_block_loop (S (N.to_nat bs)) c (o + 2 + bs) (o + 2) rest 0 16 12 4095)
      as [[tail w] | |];
      destruct (block_pure (S (N.to_nat bs)) (o + 2 + bs) (o + 2) r [] (len rest) 16 12 4095)
        as [chunk | |]; try (exfalso; exact Hbm); try reflexivity.
    destruct Hbm as (-> & Hb1 & _ & Hb3). cbn [bind].
    cbn [length] in Hb1. rewrite Nat.sub_0_r in Hb1. change (len (@nil N)) with 0 in Hb3.
    assert (Htl : len tail = len rest) by (rewrite Hb1, len_app, len_skipn; unfold len in *; lia).
    rewrite write_end by lia. cbn [bind].
    rewrite (skipn_all2 rest) by (unfold len in Htl; lia). rewrite app_nil_r.
    rewrite Hb1, app_assoc.
    replace (len out + len chunk) with (len (out ++ chunk)) by now rewrite len_app.
    rewrite (IH _ (skipn (N.to_nat bs) r)) by (now apply at_or_past_advance).
    replace (len (out ++ chunk) + len (skipn (length chunk) rest)) with (len out + len rest)
      by (rewrite len_app, len_skipn; unfold len in *; lia).
    apply finished_step; [now rewrite app_length |].
    intros x Hx. now apply lznt1_pure_grows in Hx.
  - pose proof (at_len _ _ _ Hat2) as Hlen2.
    destruct (N.leb_spec (o + 2 + bs) (len c)); destruct (N.leb_spec bs (len r)); try lia;
      cbn [check bind]; [| reflexivity].
    destruct (N.leb_spec (len out + bs) (len out + len rest)); [| reflexivity]. cbn [check bind].
    rewrite (at_slice _ _ _ _ Hat2) by lia. cbn [bind].
    set (lit := firstn (N.to_nat bs) r).
    assert (Hlit : len lit = bs) by (unfold lit, len; rewrite firstn_length; unfold len in *; lia).
    rewrite write_end by lia. cbn [bind]. rewrite app_assoc.
    replace (len out + bs) with (len (out ++ lit)) by (rewrite len_app; lia).
    rewrite (IH _ (skipn (N.to_nat bs) r)) by (now apply at_or_past_advance).
    replace (len (out ++ lit) + len (skipn (length lit) rest)) with (len out + len rest)
      by (rewrite len_app, len_skipn; unfold len in *; lia).
    apply finished_step; [now rewrite app_length |].
    intros x Hx. now apply lznt1_pure_grows in Hx.
Qed.

Lemma lznt1_decompress_pure c buf :
  lznt1_decompress c buf = finished [] buf (lznt1_pure (S (length c)) 0 c [] (len buf)).
Proof.
  unfold lznt1_decompress.
  change (lznt1_loop (S (length c)) c 0 buf 0)
    with (lznt1_loop (S (length c)) c 0 ([] ++ buf) (len (@nil N))).
  rewrite (lznt1_refine c _ 0 c) by (left; apply at_start). reflexivity.
Qed.

(** ** How a tuple is divided *)
Definition split_at (k threshold shift mask : N) : Prop :=
  k <= 12 /\ threshold = 16 * 2 ^ k /\ shift = 12 - k /\ mask = N.ones (12 - k).
Definition split_ok (u threshold shift mask : N) : Prop :=
  exists k, split_at k threshold shift mask /\ u <= threshold /\ (k = 0 \/ 8 * 2 ^ k < u).

Lemma split_start : split_at 0 16 12 4095.
Proof. repeat split; lia. Qed.

Lemma adapt_total u : forall fuel k th sh mk,
  split_at k th sh mk -> (k = 0 \/ 8 * 2 ^ k < u) -> (N.to_nat (12 - k) < fuel)%nat ->
  (u <= 65536 -> exists th' sh' mk', lznt1_adapt fuel u th sh mk = Ok (th', sh', mk') /\
                  split_ok u th' sh' mk') /\
  lznt1_adapt fuel u th sh mk <> Panic /\
  (forall th' sh' mk', lznt1_adapt fuel u th sh mk = Ok (th', sh', mk') -> split_ok u th' sh' mk').
Proof.
  induction fuel as [| fuel IH]; intros k th sh mk Hsp Hlow Hf; [lia |].
  cbn [lznt1_adapt]. destruct (N.ltb_spec th u) as [Hu | Hu].
  - destruct Hsp as (Hk & -> & -> & ->).
    destruct (N.eqb_spec (12 - k) 0) as [E | E].
    + assert (k = 12) by lia. subst k. change (16 * 2 ^ 12) with 65536 in Hu.
      split; [intros; lia |]. split; [discriminate | discriminate].
    + apply (IH (k + 1)); [| right |lia].
      * repeat split; try lia.
        -- rewrite N.shiftl_mul_pow2, N.pow_add_r. lia.
        -- rewrite N.shiftr_div_pow2, !N.ones_equiv.
           replace (12 - k) with (12 - (k + 1) + 1) by lia.
           rewrite N.pow_add_r. change (2 ^ 1) with 2.
           assert (2 ^ (12 - (k + 1)) <> 0) by (apply N.pow_nonzero; lia).
           set (p := 2 ^ (12 - (k + 1))) in *. clearbody p. lia.
      * rewrite N.pow_add_r. change (2 ^ 1) with 2. lia.
  - assert (split_ok u th sh mk) by (exists k; auto).
    split; [intros; exists th, sh, mk; auto |]. split; [discriminate |].
    intros th' sh' mk' E. injection E as <- <- <-. assumption.
Qed.

Lemma land_ones_le a k : N.land a (N.ones k) <= 2 ^ k - 1.
Proof.
  rewrite N.land_ones. assert (2 ^ k <> 0) by (apply N.pow_nonzero; lia).
  pose proof (N.mod_lt a (2 ^ k) H). lia.
Qed.

Lemma pow2_small k : k <= 12 -> 2 ^ k * 2 ^ (12 - k) = 4096.
Proof. intros H. rewrite <- N.pow_add_r. replace (k + (12 - k)) with 12 by lia. reflexivity. Qed.

(** Growth of a chunk against the bytes it consumed. *)
Lemma tuple_growth u th sh mk tuple : split_ok u th sh mk ->
  let s := N.land tuple mk + 3 in
  u + s <= 8202 \/ (8192 < u /\ s <= 6).
Proof.
  intros (k & (Hk & -> & -> & ->) & Hu & Hlow). cbv zeta.
  pose proof (land_ones_le tuple (12 - k)) as Hl.
  set (x := N.land tuple (N.ones (12 - k))) in *. clearbody x.
  assert (C : k = 0 \/ k = 1 \/ k = 2 \/ k = 3 \/ k = 4 \/ k = 5 \/ k = 6 \/ k = 7 \/ k = 8 \/
    k = 9 \/ k = 10 \/ k = 11 \/ k = 12) by lia.
  destruct C as [-> | [-> | [-> | [-> | [-> | [-> | [-> | [-> | [-> | [-> | [-> | [-> | ->]]]]]]]]]]]];
    cbn in Hl, Hu, Hlow; lia.
Qed.

Lemma shift_positive u th sh mk : split_ok u th sh mk -> u <= 32768 -> 1 <= sh.
Proof.
  intros (k & (Hk & -> & -> & ->) & Hu & Hlow) H.
  assert (k <> 12) by (intros ->; cbn in Hlow; lia). lia.
Qed.

Lemma shr_bound t s : t < 65536 -> 1 <= s -> N.shiftr t s + 1 < 65536.
Proof.
  intros Ht Hs. rewrite N.shiftr_div_pow2.
  assert (t / 2 ^ s <= t / 2 ^ 1).
  { apply N.div_le_compat_l. split; [cbn; lia |]. apply N.pow_le_mono_r; lia. }
  change (2 ^ 1) with 2 in H. lia.
Qed.

Lemma tokens_no_panic start bs : bs <= 4096 -> forall n flags o r out room th sh mk,
  wf_bytes r -> split_ok (len out) th sh mk -> o < start + bs \/ n = 0%nat -> start <= o ->
  len out <= 8202 + 3 * (o - start) ->
  match tokens_pure n (start + bs) flags o r out room th sh mk with
  | Panic => False
  | Err => True
  | Ok (o', r', out', (th', sh', mk')) =>
      (o <= o' /\ ((0 < n)%nat -> o < o')) /\ wf_bytes r' /\
      (start + bs <= o' \/ (split_ok (len out') th' sh' mk' /\ len out' <= 8202 + 3 * (o' - start)))
  end.
Proof.
  intros Hbs. induction n as [| n IH]; intros flags o r out room th sh mk Hw Hsp Ho Hst Hlen.
  { cbn [tokens_pure]. repeat split; try lia; auto. }
  destruct Ho as [Ho | Ho]; [| discriminate].
  cbn [tokens_pure].
  assert (Next : forall o1 r1 out1, wf_bytes r1 -> o < o1 ->
    len out <= len out1 -> len out1 <= 8202 + 3 * (o1 - start) -> len out1 <= 65536 ->
    match
      (if start + bs <=? o1 then Ok (o1, r1, out1, (th, sh, mk))
       else '(threshold, shift, mask) <- lznt1_adapt 14 (len out1) th sh mk;;
            tokens_pure n (start + bs) (N.shiftr flags 1) o1 r1 out1 room threshold shift mask)
    with
    | Panic => False
    | Err => True
    | Ok (o', r', out', (th', sh', mk')) =>
      (o <= o' /\ ((0 < S n)%nat -> o < o')) /\ wf_bytes r' /\
      (start + bs <= o' \/ (split_ok (len out') th' sh' mk' /\ len out' <= 8202 + 3 * (o' - start)))
    end).
  { intros o1 r1 out1 Hw1 Ho1 Hge Hl1 Hl2.
    destruct (N.leb_spec (start + bs) o1) as [He | He]; [repeat split; auto; lia |].
    destruct Hsp as (k & Hsp & _ & Hlow).
    destruct (adapt_total (len out1) 14 k th sh mk Hsp) as (A1 & _ & _); [lia | lia |].
    destruct (A1 Hl2) as (th1 & sh1 & mk1 & E & Hsp1). rewrite E. cbn [bind].
    specialize (IH (N.shiftr flags 1) o1 r1 out1 room th1 sh1 mk1 Hw1 Hsp1 (or_introl He)).
    destruct (tokens_pure n (start + bs) (N.shiftr flags 1) o1 r1 out1 room th1 sh1 mk1)
      as [[[[o' r'] out'] [[th' sh'] mk']] | |]; [| exact I | apply IH; lia].
    destruct IH as ((I1 & _) & I2 & I3); [lia | lia |]. repeat split; auto; lia. }
  destruct (negb (N.land flags 1 =? 0)).
  - destruct r as [| a [| b r]]; [exact I | exact I |].
    apply wf_bytes_cons in Hw as [Ha Hw]. apply wf_bytes_cons in Hw as [Hb Hw]. cbv zeta.
    assert (Hsh : 1 <= sh) by (apply (shift_positive _ _ _ _ Hsp); lia).
    pose proof (shr_bound (a + b * 256) sh) as Hd.
    unfold add_chk at 1. unfold two16 at 1.
    destruct (N.ltb_spec (N.shiftr (a + b * 256) sh + 1) 65536); [| lia]. cbn [bind].
    pose proof (tuple_growth _ _ _ _ (a + b * 256) Hsp) as Hg. cbv zeta in Hg.
    unfold add_chk, two16.
    destruct (N.ltb_spec (N.land (a + b * 256) mk + 3) 65536); [| lia]. cbn [bind].
    destruct (_ <=? len out); [| exact I]. cbn [check bind].
    destruct (_ <=? room - len out); [| exact I]. cbn [check bind].
    apply Next; auto; rewrite ?len_lz_copy; lia.
  - destruct r as [| v r]; [exact I |]. apply wf_bytes_cons in Hw as [Hv Hw].
    destruct (len out <? room); [| exact I]. cbn [check bind].
    apply Next; auto; rewrite ?len_app; change (len [v]) with 1; lia.
Qed.

Lemma block_no_panic start bs : bs <= 4096 -> forall fuel o r out room th sh mk,
  wf_bytes r -> start <= o -> (N.to_nat (start + bs - o) < fuel)%nat ->
  start + bs <= o \/ (split_ok (len out) th sh mk /\ len out <= 8202 + 3 * (o - start)) ->
  block_pure fuel (start + bs) o r out room th sh mk <> Panic.
Proof.
  intros Hbs. induction fuel as [| fuel IH]; intros o r out room th sh mk Hw Hst Hf Hinv; [lia |].
  cbn [block_pure]. destruct (N.ltb_spec o (start + bs)) as [Ho | Ho]; [| discriminate].
  destruct Hinv as [? | [Hsp Hlen]]; [lia |].
  destruct r as [| flags r]; [discriminate |]. apply wf_bytes_cons in Hw as [_ Hw].
  destruct (N.ltb_spec (o + 1) (start + bs)) as [Ho1 | Ho1].
  - pose proof (tokens_no_panic start bs Hbs 8 flags (o + 1) r out room th sh mk Hw Hsp (or_introl Ho1)) as T.
    destruct (tokens_pure 8 (start + bs) flags (o + 1) r out room th sh mk)
      as [[[[o' r'] out'] [[th' sh'] mk']] | |]; [| discriminate | exfalso; apply T; lia].
    destruct T as ((T1 & _) & T2 & T3); [lia | lia |]. cbn [bind].
    apply IH; auto; lia.
  - (* the flag byte is the last byte of the block: one token is read beyond it *)
    cbn [tokens_pure].
    destruct (negb (N.land flags 1 =? 0)).
    + destruct r as [| a [| b r]]; [discriminate | discriminate |].
      apply wf_bytes_cons in Hw as [Ha Hw]. apply wf_bytes_cons in Hw as [Hb Hw]. cbv zeta.
      assert (Hsh : 1 <= sh) by (apply (shift_positive _ _ _ _ Hsp); lia).
      pose proof (shr_bound (a + b * 256) sh) as Hd.
      unfold add_chk at 1. unfold two16 at 1.
      destruct (N.ltb_spec (N.shiftr (a + b * 256) sh + 1) 65536); [| lia]. cbn [bind].
      pose proof (tuple_growth _ _ _ _ (a + b * 256) Hsp) as Hg. cbv zeta in Hg.
      unfold add_chk, two16.
      destruct (N.ltb_spec (N.land (a + b * 256) mk + 3) 65536); [| lia]. cbn [bind].
      destruct (_ <=? len out); [| discriminate]. cbn [check bind].
      destruct (_ <=? room - len out); [| discriminate]. cbn [check bind].
      destruct (N.leb_spec (start + bs) (o + 1 + 2)); [| lia]. cbn [bind].
      apply IH; auto; lia.
    + destruct r as [| v r]; [discriminate |]. apply wf_bytes_cons in Hw as [Hv Hw].
      destruct (len out <? room); [| discriminate]. cbn [check bind].
      destruct (N.leb_spec (start + bs) (o + 1 + 1)); [| lia]. cbn [bind].
      apply IH; auto; lia.
Qed.

Lemma land_fff h : N.land h 4095 + 1 <= 4096.
Proof. pose proof (land_ones_le h 12). change (N.ones 12) with 4095 in H. change (2 ^ 12 - 1) with 4095 in H. lia. Qed.

Lemma lznt1_no_panic_pure : forall fuel o r out max, wf_bytes r -> (length r < fuel)%nat ->
  lznt1_pure fuel o r out max <> Panic.
Proof.
  induction fuel; intros o r out max Hw Hf; [lia |].
  cbn [lznt1_pure]. destruct r as [| a r]; [discriminate |].
  destruct (max <=? len out); [discriminate |].
  destruct r as [| b r]; [discriminate |]. cbv zeta.
  apply wf_bytes_cons in Hw as [Ha Hw]. apply wf_bytes_cons in Hw as [Hb Hw].
  destruct (a + b * 256 =? 0); [discriminate |].
  pose proof (land_fff (a + b * 256)) as Hbs. set (bs := N.land (a + b * 256) 4095 + 1) in *.
  assert (Hlt : (length (skipn (N.to_nat bs) r) < fuel)%nat)
    by (rewrite skipn_length; cbn [length] in Hf; lia).
  assert (Hws : wf_bytes (skipn (N.to_nat bs) r)) by now apply wf_bytes_skipn.
  destruct (negb _).
  - assert (Hb0 : block_pure (S (N.to_nat bs)) (o + 2 + bs) (o + 2) r [] (max - len out) 16 12 4095 <> Panic).
    { apply block_no_panic; auto; try lia. right. change (len (@nil N)) with 0. split; [| lia].
      exists 0. split; [apply split_start | lia]. }
    destruct (block_pure (S (N.to_nat bs)) (o + 2 + bs) (o + 2) r [] (max - len out) 16 12 4095);
      [| discriminate | congruence].
    cbn [bind]. now apply IHfuel.
  - destruct (bs <=? len r); [| discriminate]. cbn [check bind].
    destruct (len out + bs <=? max); [| discriminate]. cbn [check bind]. now apply IHfuel.
Qed.

(** ** Round trip *)
Lemma split_bits u th sh mk : split_ok u th sh mk ->
  sh = 16 - lznt1_distance_bits u /\ mk = N.ones sh /\ lznt1_distance_bits u <= 16 /\
  u <= 2 ^ lznt1_distance_bits u.
Proof.
  intros (k & (Hk & -> & -> & ->) & Hu & Hlow).
  assert (E : lznt1_distance_bits u = k + 4).
  { unfold lznt1_distance_bits. destruct Hlow as [-> | Hlow].
    - assert (N.log2_up u <= N.log2_up 16) by (apply N.log2_up_le_mono; lia).
      change (N.log2_up 16) with 4 in H. lia.
    - assert (N.log2_up u = k + 4); [| lia].
      apply N.log2_up_unique; [lia |].
      replace (N.pred (k + 4)) with (k + 3) by lia. rewrite !N.pow_add_r.
      change (2 ^ 3) with 8. change (2 ^ 4) with 16. lia. }
  rewrite E. repeat split; try lia. rewrite N.pow_add_r. change (2 ^ 4) with 16. lia.
Qed.

Lemma tuple_decode u th sh mk d s : split_ok u th sh mk -> u <= 4096 ->
  1 <= d <= u -> 3 <= s < 3 + 2 ^ (16 - lznt1_distance_bits u) ->
  let v := (d - 1) * 2 ^ (16 - lznt1_distance_bits u) + (s - 3) in
  v < 65536 /\ N.shiftr v sh = d - 1 /\ N.land v mk = s - 3 /\ s <= 4098.
Proof.
  intros Hsp Hu Hd Hs. destruct (split_bits _ _ _ _ Hsp) as (-> & -> & Hb & Hup).
  cbv zeta. rewrite N.shiftr_div_pow2, N.land_ones.
  set (q := 16 - lznt1_distance_bits u) in *.
  assert (Hpq : 2 ^ lznt1_distance_bits u * 2 ^ q = 65536).
  { rewrite <- N.pow_add_r. unfold q.
    replace (lznt1_distance_bits u + (16 - lznt1_distance_bits u)) with 16 by lia. reflexivity. }
  assert (Hq12 : 2 ^ q <= 2 ^ 12).
  { apply N.pow_le_mono_r; [lia |]. unfold q, lznt1_distance_bits. lia. }
  change (2 ^ 12) with 4096 in Hq12.
  assert (Hnz : 2 ^ q <> 0) by (apply N.pow_nonzero; lia).
  set (p := 2 ^ q) in *. set (w := 2 ^ lznt1_distance_bits u) in *. clearbody p w.
  split; [| split; [| split]].
  - assert ((d - 1) * p + (s - 3) < d * p).
    { replace (d * p) with ((d - 1) * p + p) by (rewrite <- N.mul_succ_l; f_equal; lia). lia. }
    assert (d * p <= w * p) by (apply N.mul_le_mono_r; lia). lia.
  - rewrite N.add_comm, N.div_add by exact Hnz. rewrite N.div_small by lia. lia.
  - rewrite N.add_comm, N.mod_add by exact Hnz. apply N.mod_small. lia.
  - lia.
Qed.

Lemma encode_token_pos out t : (1 <= length (lznt1_encode_token out t))%nat.
Proof. destruct t; cbn; lia. Qed.

Lemma token_meaning_grows out t : len out <= len (lznt1_token_meaning out t).
Proof. destruct t; cbn [lznt1_token_meaning]; [rewrite len_app | rewrite len_lz_copy]; lia. Qed.

Lemma tokens_meaning_grows ts : forall out, len out <= len (lznt1_tokens_meaning out ts).
Proof.
  induction ts as [| t ts IH]; intros out; cbn [lznt1_tokens_meaning fold_left]; [lia |].
  pose proof (token_meaning_grows out t).
  specialize (IH (lznt1_token_meaning out t)). unfold lznt1_tokens_meaning in IH. lia.
Qed.

Lemma flags_step t g : 
  negb (N.land (lznt1_group_flags (t :: g)) 1 =? 0) = match t with NLiteral _ => false | _ => true end /\
  N.shiftr (lznt1_group_flags (t :: g)) 1 = lznt1_group_flags g.
Proof.
  cbn [lznt1_group_flags]. 
  match goal with |- context [N.land ?x 1] => change (N.land x 1) with (N.land x (N.ones 1)) end.
  rewrite N.land_ones, N.shiftr_div_pow2. change (2 ^ 1) with 2. destruct t; split; lia.
Qed.

Lemma tokens_round_trip g : forall n out o r2 m room th sh mk,
  lznt1_tokens_valid out g -> split_ok (len out) th sh mk -> len out <= 4096 ->
  (1 <= length g <= n)%nat -> length g = n \/ m = 0 ->
  len (lznt1_tokens_meaning out g) <= room ->
  exists t',
  tokens_pure n (o + len (lznt1_group_bytes out g) + m) (lznt1_group_flags g) o
    (lznt1_group_bytes out g ++ r2) out room th sh mk =
  Ok (o + len (lznt1_group_bytes out g), r2, lznt1_tokens_meaning out g, t') /\
  (m = 0 \/ let '(th', sh', mk') := t' in split_ok (len (lznt1_tokens_meaning out g)) th' sh' mk').
Proof.
  induction g as [| t g IH]; intros n out o r2 m room th sh mk Hv Hsp Hu Hn Hm Hroom;
    [cbn in Hn; lia |].
  destruct n as [| n]; [cbn in Hn; lia |].
  cbn [lznt1_tokens_valid] in Hv. destruct Hv as (Ht & Hmax & Hv).
  cbn [lznt1_group_bytes]. rewrite len_app, <- app_assoc.
  set (out1 := lznt1_token_meaning out t) in *.
  set (tl := lznt1_group_bytes out1 g) in *.
  assert (Hroom1 : len out1 <= room).
  { change (lznt1_tokens_meaning out (t :: g)) with (lznt1_tokens_meaning out1 g) in Hroom.
    pose proof (tokens_meaning_grows g out1). lia. }
  destruct (flags_step t g) as [Fl1 Fl2].
  assert (Hstep : forall (e : N),
    tokens_pure (S n) e (lznt1_group_flags (t :: g)) o (lznt1_encode_token out t ++ tl ++ r2) out room th sh mk =
    (let o1 := o + len (lznt1_encode_token out t) in
     if e <=? o1 then Ok (o1, tl ++ r2, out1, (th, sh, mk))
     else '(threshold, shift, mask) <- lznt1_adapt 14 (len out1) th sh mk;;
          tokens_pure n e (lznt1_group_flags g) o1 (tl ++ r2) out1 room threshold shift mask)).
  { intros e. cbn [tokens_pure]. rewrite Fl1, Fl2. destruct t as [b | d s].
    - cbn [lznt1_encode_token app]. unfold out1 in *. cbn [lznt1_token_meaning] in *.
      rewrite len_app in Hroom1. change (len [b]) with 1 in *.
      destruct (N.ltb_spec (len out) room); [| lia]. reflexivity.
    - cbn [lznt1_encode_token app lznt1_token_valid] in *. destruct Ht as [Hd Hs].
      destruct (tuple_decode _ _ _ _ d s Hsp Hu Hd Hs) as (V1 & V2 & V3 & V4).
      set (v := (d - 1) * 2 ^ (16 - lznt1_distance_bits (len out)) + (s - 3)) in *. cbv zeta.
      replace (v mod 256 + v / 256 * 256) with v by (clear; lia).
      rewrite V2, V3. unfold add_chk, two16.
      destruct (N.ltb_spec (d - 1 + 1) 65536); [| lia]. cbn [bind].
      destruct (N.ltb_spec (s - 3 + 3) 65536); [| lia]. cbn [bind].
      replace (d - 1 + 1) with d by lia. replace (s - 3 + 3) with s by lia.
      destruct (N.leb_spec d (len out)); [| lia]. cbn [check bind].
      unfold out1 in *. cbn [lznt1_token_meaning] in *. rewrite len_lz_copy in Hroom1.
      destruct (N.leb_spec s (room - len out)); [| lia]. cbn [check bind].
      change (len [v mod 256; v / 256]) with 2. reflexivity. }
  rewrite Hstep. cbv zeta. clear Hstep.
  change (lznt1_tokens_meaning out (t :: g)) with (lznt1_tokens_meaning out1 g) in *.
  set (k := len (lznt1_encode_token out t)) in *.
  destruct g as [| t2 g].
  - (* last token of the group *)
    unfold tl. cbn [lznt1_group_bytes]. change (len (@nil N)) with 0. cbn [app lznt1_tokens_meaning fold_left].
    destruct (N.leb_spec (o + (k + 0) + m) (o + k)).
    + eexists. split; [do 4 f_equal; lia |]. left. lia.
    + destruct Hsp as (k0 & Hsp & _ & Hlow).
      assert (Hlow' : k0 = 0 \/ 8 * 2 ^ k0 < len out1)
        by (pose proof (token_meaning_grows out t); unfold out1; lia).
      destruct (adapt_total (len out1) 14 k0 th sh mk Hsp Hlow') as (A1 & _ & _); [lia |].
      destruct A1 as (th1 & sh1 & mk1 & E & Hsp1); [lia |]. rewrite E. cbn [bind].
      destruct Hm as [Hm | Hm]; [| lia]. cbn [length] in Hm. injection Hm as <-.
      cbn [tokens_pure]. exists (th1, sh1, mk1). split; [do 4 f_equal; lia |]. now right.
  - assert (Htl : 1 <= len tl).
    { unfold tl. cbn [lznt1_group_bytes]. rewrite len_app.
      pose proof (encode_token_pos out1 t2). unfold len. lia. }
    destruct (N.leb_spec (o + (k + len tl) + m) (o + k)); [lia |].
    destruct Hsp as (k0 & Hsp & _ & Hlow).
    assert (Hlow' : k0 = 0 \/ 8 * 2 ^ k0 < len out1)
      by (pose proof (token_meaning_grows out t); unfold out1; lia).
    destruct (adapt_total (len out1) 14 k0 th sh mk Hsp Hlow') as (A1 & _ & _); [lia |].
    destruct A1 as (th1 & sh1 & mk1 & E & Hsp1); [lia |]. rewrite E. cbn [bind].
    destruct (IH n out1 (o + k) r2 m room th1 sh1 mk1) as (t' & E' & P'); auto.
    + cbn [length] in *. lia.
    + cbn [length] in *. lia.
    + exists t'. split; [| exact P'].
      replace (o + (k + len tl) + m) with (o + k + len tl + m) by lia.
      fold tl in E'. rewrite E'. do 4 f_equal. lia.
Qed.

Lemma tokens_valid_app a : forall out b, lznt1_tokens_valid out (a ++ b) ->
  lznt1_tokens_valid out a /\ lznt1_tokens_valid (lznt1_tokens_meaning out a) b.
Proof.
  induction a as [| t a IH]; intros out b H; [split; [exact I | exact H] |].
  cbn [app lznt1_tokens_valid] in H. destruct H as (H1 & H2 & H3).
  apply IH in H3 as [H3 H4]. split; [cbn [lznt1_tokens_valid]; auto | exact H4].
Qed.

Lemma tokens_valid_len a : forall out, lznt1_tokens_valid out a -> len out <= 4096 ->
  len (lznt1_tokens_meaning out a) <= 4096.
Proof.
  induction a as [| t a IH]; intros out H Ho; [exact Ho |].
  destruct H as (H1 & H2 & H3). now apply IH in H3.
Qed.

Lemma encode_groups_pos out g gs : 1 <= len (lznt1_encode_groups out (g :: gs)).
Proof. cbn [lznt1_encode_groups]. rewrite len_app, len_cons. lia. Qed.

Lemma block_round_trip gs : forall fuel o r2 out room th sh mk,
  lznt1_tokens_valid out (concat gs) -> lznt1_groups_of_eight gs ->
  len out <= 4096 -> gs = [] \/ split_ok (len out) th sh mk ->
  len (lznt1_tokens_meaning out (concat gs)) <= room ->
  (N.to_nat (len (lznt1_encode_groups out gs)) < fuel)%nat ->
  block_pure fuel (o + len (lznt1_encode_groups out gs)) o (lznt1_encode_groups out gs ++ r2)
    out room th sh mk = Ok (lznt1_tokens_meaning out (concat gs)).
Proof.
  induction gs as [| g gs IH]; intros fuel o r2 out room th sh mk Hv H8 Ho Hsp Hroom Hf.
  - cbn [lznt1_encode_groups concat]. change (len (@nil N)) with 0. rewrite N.add_0_r.
    destruct fuel; [lia |]. cbn [block_pure]. rewrite N.ltb_irrefl. reflexivity.
  - destruct Hsp as [? | Hsp]; [discriminate |].
    cbn [concat] in *. apply tokens_valid_app in Hv as [Hv1 Hv2].
    unfold lznt1_tokens_meaning in Hroom |- *. rewrite fold_left_app in *.
    fold (lznt1_tokens_meaning out g) in *. set (out1 := lznt1_tokens_meaning out g) in *.
    fold (lznt1_tokens_meaning out1 (concat gs)) in *.
    cbn [lznt1_encode_groups] in *. fold out1 in Hf |- *. rewrite len_app, len_cons in *.
    set (gb := lznt1_group_bytes out g) in *. set (more := lznt1_encode_groups out1 gs) in *.
    destruct fuel as [| fuel]; [lia |]. cbn [block_pure app].
    destruct (N.ltb_spec o (o + (len gb + 1 + len more))); [| lia].
    rewrite <- app_assoc.
    assert (Hg : (1 <= length g <= 8)%nat /\ (length g = 8%nat \/ len more = 0) /\ lznt1_groups_of_eight gs).
    { cbn [lznt1_groups_of_eight] in H8. destruct gs as [| g2 gs].
      - split; [exact H8 |]. split; [right; reflexivity | exact I].
      - destruct H8 as [H8 H8']. split; [lia |]. split; [now left | exact H8']. }
    destruct Hg as (Hg1 & Hg2 & Hg3).
    destruct (tokens_round_trip g 8 out (o + 1) (more ++ r2) (len more) room th sh mk) as (t' & E & P); auto.
    { fold out1. pose proof (tokens_meaning_grows (concat gs) out1). lia. }
    fold gb out1 in E, P.
    replace (o + (len gb + 1 + len more)) with (o + 1 + len gb + len more) by lia.
    rewrite E. cbn [bind]. destruct t' as [[th' sh'] mk'].
    apply IH; auto.
    + now apply tokens_valid_len.
    + destruct P as [P | P]; [| now right]. left.
      destruct gs as [| g2 gs]; [reflexivity |].
      pose proof (encode_groups_pos out1 g2 gs). unfold more in P. lia.
    + unfold more in Hf. lia.
Qed.

Lemma chunk_header_facts ch : lznt1_chunk_valid ch ->
  let h := lznt1_chunk_header ch in
  h mod 256 + h / 256 * 256 = h /\ h <> 0 /\ h < 65536 /\
  N.land h 4095 + 1 = len (lznt1_chunk_data ch) /\
  negb (N.land h 32768 =? 0) = match ch with NRaw _ => false | NCompressed _ => true end.
Proof.
  intros [Hl _]. cbv zeta. unfold lznt1_chunk_header.
  set (n := len (lznt1_chunk_data ch)) in *. clearbody n.
  set (x := match ch with NRaw _ => 0 | NCompressed _ => 32768 end).
  assert (Hx : x = 0 \/ x = 32768) by (unfold x; destruct ch; auto).
  split; [lia |]. split; [lia |]. split; [lia |]. split.
  - change 4095 with (N.ones 12). rewrite N.land_ones. change (2 ^ 12) with 4096. lia.
  - assert (E : N.land (n - 1 + 3 * 4096 + x) 32768 = x).
    { change 32768 with (2 ^ 15) at 1. apply N.bits_inj. intros i. rewrite N.land_spec.
      destruct (N.eq_dec i 15) as [-> | Hi].
      - rewrite N.pow2_bits_true, andb_true_r, N.testbit_eqb.
        assert (Hq : (n - 1 + 3 * 4096 + x) / 2 ^ 15 = x / 32768).
        { change (2 ^ 15) with 32768. clear - Hx Hl. lia. }
        rewrite Hq. destruct Hx as [-> | ->]; reflexivity.
      - rewrite N.pow2_bits_false by auto. rewrite andb_false_r.
        destruct Hx as [-> | ->]; [now rewrite N.bits_0 |].
        change 32768 with (2 ^ 15). now rewrite N.pow2_bits_false by auto. }
    rewrite E. unfold x. destruct ch; reflexivity.
Qed.

Lemma chunk_data_meaning ch : lznt1_chunk_valid ch ->
  match ch with NRaw _ => True | NCompressed gs => gs <> [] end.
Proof. intros [H _]. destruct ch as [| gs]; [exact I |]. intros ->. cbn in H. lia. Qed.

Lemma encode_cons ch chs tail : lznt1_encode (ch :: chs) ++ tail =
  lznt1_chunk_header ch mod 256 :: lznt1_chunk_header ch / 256 ::
  lznt1_chunk_data ch ++ lznt1_encode chs ++ tail.
Proof. unfold lznt1_encode. cbn [map concat app]. now rewrite <- app_assoc. Qed.

(** What may follow the chunks: nothing, an end marker, or anything when the output
    is complete. *)
Definition lznt1_stops (tail : list N) : Prop := tail = [] \/ exists t, tail = 0 :: 0 :: t.

Lemma lznt1_round_trip_pure chs : Forall lznt1_chunk_valid chs -> forall fuel o out max tail,
  (length (lznt1_encode chs ++ tail) < fuel)%nat ->
  len (out ++ lznt1_meaning chs) <= max ->
  lznt1_stops tail \/ len (out ++ lznt1_meaning chs) = max ->
  lznt1_pure fuel o (lznt1_encode chs ++ tail) out max = Ok (out ++ lznt1_meaning chs).
Proof.
  induction chs as [| ch chs IH]; intros Hv fuel o out max tail Hf Hmax Ht.
  - change (lznt1_encode [] ++ tail) with tail in *. change (lznt1_meaning []) with (@nil N) in *.
    rewrite app_nil_r in *. destruct fuel; [lia |]. cbn [lznt1_pure].
    destruct tail as [| a tail]; [reflexivity |].
    destruct (N.leb_spec max (len out)); [reflexivity |].
    destruct Ht as [[? | [t Ht]] | Ht]; [discriminate | | lia].
    injection Ht as -> ->. reflexivity.
  - inversion Hv as [| ? ? Hch Hv']; subst.
    rewrite encode_cons in *. destruct fuel as [| fuel]; [lia |]. cbn [length] in Hf.
    destruct (chunk_header_facts ch Hch) as (H1 & H2 & H3 & H4 & H5).
    change (lznt1_meaning (ch :: chs)) with (lznt1_chunk_meaning ch ++ lznt1_meaning chs) in *.
    rewrite (app_assoc out) in *. rewrite app_length in Hf.
    assert (Hne : 1 <= len (lznt1_chunk_meaning ch)).
    { destruct Hch as [Hl Hc]. destruct ch as [l | gs]; cbn [lznt1_chunk_meaning lznt1_chunk_data] in *; [lia |].
      destruct gs as [| g gs]; [cbn in Hl; lia |]. destruct Hc as [Hc H8].
      assert (Hg : exists t g', g = t :: g').
      { destruct g as [| t g']; [| eauto]. exfalso. cbn [lznt1_groups_of_eight length] in H8.
        destruct gs; [lia | destruct H8; lia]. }
      destruct Hg as (t & g' & ->). cbn [concat app].
      change (lznt1_tokens_meaning [] (t :: g' ++ concat gs))
        with (lznt1_tokens_meaning (lznt1_token_meaning [] t) (g' ++ concat gs)).
      pose proof (tokens_meaning_grows (g' ++ concat gs) (lznt1_token_meaning [] t)) as G.
      assert (1 <= len (lznt1_token_meaning [] t)); [| lia].
      cbn [concat app lznt1_tokens_valid] in Hc. destruct Hc as (Hc & _ & _).
      destruct t as [b | d s]; cbn [lznt1_token_meaning lznt1_token_valid] in *; [cbn; lia |].
      change (len (@nil N)) with 0 in Hc. lia. }
    assert (Hlt : len out < max).
    { rewrite !len_app in Hmax. lia. }
    cbn [lznt1_pure].
    destruct (N.leb_spec max (len out)); [lia |]. cbv zeta.
    rewrite H1. destruct (N.eqb_spec (lznt1_chunk_header ch) 0); [lia |].
    rewrite H4, H5. set (D := lznt1_chunk_data ch) in *.
    destruct (firstn_skipn_app D (lznt1_encode chs ++ tail) (N.to_nat (len D))) as [F1 F2];
      [unfold len; lia |].
    rewrite F1, F2.
    assert (IH' : forall o', lznt1_pure fuel o' (lznt1_encode chs ++ tail) (out ++ lznt1_chunk_meaning ch) max =
      Ok ((out ++ lznt1_chunk_meaning ch) ++ lznt1_meaning chs)).
    { intros o'. apply IH; auto. lia. }
    destruct Hch as [Hl Hc]. fold D in Hl. destruct ch as [l | gs].
    + rewrite len_app. destruct (N.leb_spec (len D) (len D + len (lznt1_encode chs ++ tail))); [| lia].
      cbn [check bind]. unfold D in *. cbn [lznt1_chunk_data lznt1_chunk_meaning] in *.
      destruct (N.leb_spec (len out + len l) max); [| rewrite !len_app in Hmax; lia].
      cbn [check bind]. apply IH'.
    + destruct Hc as [Hc H8]. unfold D. cbn [lznt1_chunk_data lznt1_chunk_meaning] in *.
      rewrite block_round_trip; auto.
      * cbn [bind]. apply IH'.
      * change (len (@nil N)) with 0. lia.
      * right. exists 0. split; [apply split_start |]. change (len (@nil N)) with 0. lia.
      * rewrite !len_app in Hmax. lia.
Qed.
