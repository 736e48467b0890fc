From Verif Require Import Base BaseLemmas Lz_model Lz_spec Lz_proofs.

(** ** LZVN as a function of the remaining input and the rest of the buffer *)
Definition lzvn_operands_pure (op : N) (c : list N) (distance : N)
    : res (option (N * N * N * list N)) :=
  t <- idx lzvn_types op ;;
  match t with
  | DistanceLarge =>
      match c with
      | v :: w :: c => Ok (Some (op / 64, op / 8 mod 8 + 3, w * 256 + v, c))
      | _ => Err
      end
  | DistanceMedium =>
      match c with
      | v :: w :: c =>
          Ok (Some (op / 8 mod 4, op mod 8 * 4 + v mod 4 + 3, w * 64 + v / 4, c))
      | _ => Err
      end
  | DistancePrevious => Ok (Some (op / 64, op / 8 mod 8 + 3, distance, c))
  | DistanceSmall =>
      match c with
      | v :: c => Ok (Some (op / 64, op / 8 mod 8 + 3, op mod 8 * 256 + v, c))
      | _ => Err
      end
  | LiteralLarge =>
      match c with v :: c => Ok (Some (v + 16, 0, distance, c)) | _ => Err end
  | LiteralSmall => Ok (Some (op mod 16, 0, distance, c))
  | MatchLarge =>
      match c with v :: c => Ok (Some (0, v + 16, distance, c)) | _ => Err end
  | MatchSmall => Ok (Some (0, op mod 16, distance, c))
  | EndOfStream => Ok None
  | NoOperation => Ok (Some (0, 0, distance, c))
  | Invalid => Err
  end.

Definition lzvn_apply_pure (l s d : N) (c out rest : list N)
    : res (list N * list N * list N) :=
  check (l <=? len c) ;;;
  check (l <=? len rest) ;;;
  let out1 := out ++ firstn (N.to_nat l) c in
  let rest1 := skipn (N.to_nat l) rest in
  let c1 := skipn (N.to_nat l) c in
  if 0 <? s then
    check (d <=? len out1) ;;;
    check (s <=? len rest1) ;;;
    Ok (c1, (if d =? 0 then out1 ++ firstn (N.to_nat s) rest1
             else lz_copy out1 d (N.to_nat s)), skipn (N.to_nat s) rest1)
  else Ok (c1, out1, rest1).

Fixpoint lzvn_pure (fuel : nat) (c out rest : list N) (distance : N)
    : res (list N * list N) :=
  match fuel with
  | O => Panic
  | S fuel' =>
      match c with
      | [] => Ok (out, rest)
      | op :: c =>
          match rest with
          | [] => Ok (out, rest)
          | _ =>
              o <- lzvn_operands_pure op c distance ;;
              match o with
              | None => Ok (out, rest)
              | Some (l, s, d, c) =>
                  '(c, out, rest) <- lzvn_apply_pure l s d c out rest ;;
                  lzvn_pure fuel' c out rest d
              end
          end
      end
  end.

Lemma lzvn_op_facts op : op < 256 ->
  N.shiftr (N.land op 0xc0) 6 = op / 64 /\
  N.shiftr (N.land op 0x38) 3 = op / 8 mod 8 /\
  N.land op 0x07 = op mod 8 /\
  N.shiftr (N.land op 0x18) 3 = op / 8 mod 4 /\
  N.land op 0x0f = op mod 16 /\
  N.land op 0x03 = op mod 4 /\
  N.shiftr (N.land op 0xfc) 2 = op / 4.
Proof.
  intros H.
  assert (G : (fun op =>
    (N.shiftr (N.land op 0xc0) 6 =? op / 64) &&
    (N.shiftr (N.land op 0x38) 3 =? op / 8 mod 8) &&
    (N.land op 0x07 =? op mod 8) &&
    (N.shiftr (N.land op 0x18) 3 =? op / 8 mod 4) &&
    (N.land op 0x0f =? op mod 16) &&
    (N.land op 0x03 =? op mod 4) &&
    (N.shiftr (N.land op 0xfc) 2 =? op / 4)) op = true).
  { revert op H. apply byte_forall. vm_compute. reflexivity. }
  cbv beta in G. rewrite !andb_true_iff, !N.eqb_eq in G. intuition.
Qed.

Lemma lor_shl k a b : b < 2 ^ k -> N.lor (N.shiftl a k) b = a * 2 ^ k + b.
Proof.
  intros H. rewrite N.shiftl_mul_pow2.
  assert (E : N.land (a * 2 ^ k) b = 0).
  { apply N.bits_inj_0. intros n. rewrite N.land_spec.
    destruct (N.ltb_spec n k).
    - rewrite N.mul_pow2_bits_low by lia. reflexivity.
    - rewrite <- (N.mod_small b (2 ^ k)) by exact H.
      rewrite N.mod_pow2_bits_high by lia. apply andb_false_r. }
  rewrite <- N.lxor_lor by exact E. rewrite <- N.add_nocarry_lxor by exact E. reflexivity.
Qed.

(** The model's operands are the pure ones. *)
Definition operands_match (c : list N) (m : res (option (N * N * N * N)))
    (p : res (option (N * N * N * list N))) : Prop :=
  match m, p with
  | Ok None, Ok None => True
  | Ok (Some (l, s, d, o)), Ok (Some (l', s', d', r)) => l = l' /\ s = s' /\ d = d' /\ At c o r
  | Err, Err => True
  | _, _ => False
  end.

Lemma lzvn_operands_refine c op o r distance : op < 256 -> wf_bytes r -> At c o r ->
  operands_match c (lzvn_operands c op o distance) (lzvn_operands_pure op r distance).
Proof.
  intros Hop Hw Hat. unfold lzvn_operands, lzvn_operands_pure.
  assert (Ht : exists t, idx lzvn_types op = Ok t).
  { eexists. apply (idx_ok _ _ Invalid). change (len lzvn_types) with 256. exact Hop. }
  destruct Ht as [t ->]. cbn [bind].
  destruct (lzvn_op_facts op Hop) as (F1 & F2 & F3 & F4 & F5 & F6 & F7).
  rewrite F1, F2, F3, F4, F5.
  pose proof (at_len _ _ _ Hat) as Hlen.
  assert (Two : forall A (k : N -> N -> res A),
    (check (2 <=? len c - o);;; v <- idx c o;; w <- idx c (o + 1);; k v w) =
    match r with v :: w :: _ => k v w | _ => Err end).
  { intros A k. replace (len c - o) with (len r) by lia.
    destruct r as [| v [| w r]]; [reflexivity | reflexivity |].
    rewrite !len_cons. destruct (N.leb_spec 2 (len r + 1 + 1)); [| lia]. cbn [check bind].
    destruct (at_cons _ _ _ _ Hat) as (Hv & Hat1 & _).
    destruct (at_cons _ _ _ _ Hat1) as (Hww & _ & _).
    rewrite Hv. cbn [bind]. rewrite Hww. reflexivity. }
  assert (One : forall A (k : N -> res A),
    (check (o <? len c);;; v <- idx c o;; k v) = match r with v :: _ => k v | _ => Err end).
  { intros A k. destruct r as [| v r].
    - apply at_nil in Hat. rewrite Hat, N.ltb_irrefl. reflexivity.
    - destruct (at_cons _ _ _ _ Hat) as (Hv & _ & Hlt).
      destruct (N.ltb_spec o (len c)); [| lia]. cbn [check bind]. rewrite Hv. reflexivity. }
  destruct t.
  - (* large *) rewrite Two. destruct r as [| v [| w r]]; cbn; auto.
    apply wf_bytes_cons in Hw as [Hv Hw]. apply wf_bytes_cons in Hw as [Hww Hw].
    repeat split.
    + now rewrite lor_shl8.
    + rewrite !len_cons in Hlen. lia.
    + apply (at_advance _ _ _ 2) in Hat; [exact (proj2 Hat) | rewrite !len_cons; lia].
  - (* medium *) rewrite Two. destruct r as [| v [| w r]]; cbn -[N.lor N.shiftl N.land N.shiftr]; auto.
    apply wf_bytes_cons in Hw as [Hv Hw]. apply wf_bytes_cons in Hw as [Hww Hw].
    destruct (lzvn_op_facts v Hv) as (_ & _ & _ & _ & _ & G6 & G7). rewrite G6, G7.
    rewrite (lor_shl 2) by (change (2 ^ 2) with 4; lia).
    rewrite (lor_shl 6) by (change (2 ^ 6) with 64; lia).
    repeat split.
    + rewrite !len_cons in Hlen. lia.
    + apply (at_advance _ _ _ 2) in Hat; [exact (proj2 Hat) | rewrite !len_cons; lia].
  - (* previous *) cbn. auto.
  - (* small *) rewrite One. destruct r as [| v r]; cbn -[N.lor N.shiftl]; auto.
    apply wf_bytes_cons in Hw as [Hv Hw]. rewrite lor_shl8 by exact Hv.
    destruct (at_cons _ _ _ _ Hat) as (_ & Hat1 & _). auto.
  - (* end *) exact I.
  - (* invalid *) exact I.
  - (* literal large *) rewrite One. destruct r as [| v r]; cbn; auto.
    destruct (at_cons _ _ _ _ Hat) as (_ & Hat1 & _). auto.
  - cbn. auto.
  - (* match large *) rewrite One. destruct r as [| v r]; cbn; auto.
    destruct (at_cons _ _ _ _ Hat) as (_ & Hat1 & _). auto.
  - cbn. auto.
  - cbn. auto.
Qed.

Definition apply_match (c : list N) (m : res (list N * N * N))
    (p : res (list N * list N * list N)) : Prop :=
  match m, p with
  | Ok (buf, o, u), Ok (r, out, rest) => buf = out ++ rest /\ u = len out /\ At c o r
  | Err, Err => True
  | _, _ => False
  end.

Lemma lzvn_apply_refine c l s d o r out rest : At c o r ->
  apply_match c (lzvn_apply c l s d o (out ++ rest) (len out)) (lzvn_apply_pure l s d r out rest).
Proof.
  intros Hat. unfold lzvn_apply, lzvn_apply_pure.
  pose proof (at_len _ _ _ Hat) as Hlen.
  assert (G : forall o1 r1 out1 rest1, At c o1 r1 ->
    apply_match c
      (if 0 <? s then
         check (d <=? len out1) ;;;
         check (s <=? len (out1 ++ rest1) - len out1) ;;;
         match_offset <- sub_chk (len out1) d ;;
         buf' <- copy_loop (N.to_nat s) (out1 ++ rest1) (len out1) match_offset ;;
         Ok (buf', o1, len out1 + s)
       else Ok (out1 ++ rest1, o1, len out1))
      (if 0 <? s then
         check (d <=? len out1) ;;;
         check (s <=? len rest1) ;;;
         Ok (r1, (if d =? 0 then out1 ++ firstn (N.to_nat s) rest1
             else lz_copy out1 d (N.to_nat s)), skipn (N.to_nat s) rest1)
       else Ok (r1, out1, rest1))).
  { intros o1 r1 out1 rest1 Hat1. destruct (0 <? s); [| cbn; auto].
    destruct (N.leb_spec d (len out1)); [| exact I]. cbn [check bind].
    rewrite len_app. replace (len out1 + len rest1 - len out1) with (len rest1) by lia.
    destruct (N.leb_spec s (len rest1)); [| exact I]. cbn [check bind].
    unfold sub_chk. destruct (N.leb_spec d (len out1)); [| lia]. cbn [bind].
    destruct (N.eqb_spec d 0) as [-> | Hd].
    - rewrite N.sub_0_r, copy_zero by (rewrite len_app; lia). cbn [bind apply_match].
      rewrite <- app_assoc, firstn_skipn. repeat split; [| exact (proj1 Hat1) | exact (proj2 Hat1)].
      rewrite len_app. unfold len in *. rewrite firstn_length. lia.
    - rewrite copy_end by (unfold len in *; lia). cbn [bind apply_match].
      repeat split; [| exact (proj1 Hat1) | exact (proj2 Hat1)]. rewrite len_lz_copy. lia. }
  destruct (N.ltb_spec 0 l) as [Hl | Hl].
  - replace (len c - o) with (len r) by lia.
    destruct (N.leb_spec l (len r)) as [Hl1 | Hl1]; [| exact I]. cbn [check bind].
    rewrite len_app. replace (len out + len rest - len out) with (len rest) by lia.
    destruct (N.leb_spec l (len rest)) as [Hl2 | Hl2]; [| exact I]. cbn [check bind].
    rewrite (at_slice _ _ _ _ Hat) by exact Hl1. cbn [bind].
    set (lit := firstn (N.to_nat l) r).
    assert (Hlit : len lit = l) by (unfold lit, len; rewrite firstn_length; unfold len in Hl1; lia).
    rewrite write_end by lia. cbn [bind]. rewrite app_assoc.
    replace (len out + l) with (len (out ++ lit)) by (rewrite len_app; lia).
    replace (length lit) with (N.to_nat l) by (unfold len in Hlit; lia).
    apply G. now apply at_advance.
  - assert (l = 0) by lia. subst l. cbn [bind].
    destruct (N.leb_spec 0 (len r)); [| lia]. destruct (N.leb_spec 0 (len rest)); [| lia].
    cbn [check bind]. change (N.to_nat 0) with 0%nat. cbn [firstn skipn]. rewrite app_nil_r.
    now apply G.
Qed.

Definition finish2 (p : res (list N * list N)) : res (list N * N) :=
  '(o, rest) <- p ;; Ok (o ++ rest, len o).

Lemma lzvn_refine c : wf_bytes c -> forall fuel o r out rest d, At c o r ->
  lzvn_loop fuel c o (out ++ rest) (len out) d = finish2 (lzvn_pure fuel r out rest d).
Proof.
  intros Hwf. induction fuel as [| fuel IH]; intros o r out rest d Hat; [reflexivity |].
  cbn [lzvn_loop lzvn_pure]. destruct r as [| op r].
  { apply at_nil in Hat. subst o. rewrite N.ltb_irrefl. reflexivity. }
  pose proof (wf_skipn_at _ _ _ Hwf Hat) as Hw. apply wf_bytes_cons in Hw as [Hop Hw].
  destruct (at_cons _ _ _ _ Hat) as (Hi & Hat1 & Hlt).
  destruct (N.ltb_spec o (len c)); [| lia]. rewrite len_app.
  destruct rest as [| x rest].
  { change (len (@nil N)) with 0. rewrite N.add_0_r, N.leb_refl. reflexivity. }
  set (rest' := x :: rest) in *.
  assert (Hr : 1 <= len rest') by (unfold rest'; rewrite len_cons; lia).
  destruct (N.leb_spec (len out + len rest') (len out)); [lia |].
  rewrite Hi. cbn [bind].
  pose proof (lzvn_operands_refine c op (o + 1) r d Hop Hw Hat1) as Ho.
  unfold operands_match in Ho.
  destruct (lzvn_operands c op (o + 1) d) as [[[[[l s] d'] o2] |] | |];
    destruct (lzvn_operands_pure op r d) as [[[[[l' s'] d''] r2] |] | |];
    try (exfalso; exact Ho); try reflexivity.
  destruct Ho as (<- & <- & <- & Hat2). cbn [bind].
  pose proof (lzvn_apply_refine c l s d' o2 r2 out rest' Hat2) as Ha.
  unfold apply_match in Ha.
  destruct (lzvn_apply c l s d' o2 (out ++ rest') (len out)) as [[[b3 o3] u3] | |];
    destruct (lzvn_apply_pure l s d' r2 out rest') as [[[r3 out3] rest3] | |];
    try (exfalso; exact Ha); try reflexivity.
  destruct Ha as (-> & -> & Hat3). cbn [bind]. now apply IH.
Qed.

Lemma lzvn_decompress_pure c buf : wf_bytes c ->
  lzvn_decompress c buf = finish2 (lzvn_pure (S (length c)) c [] buf 0).
Proof.
  intros H. unfold lzvn_decompress.
  change (lzvn_loop (S (length c)) c 0 buf 0 0)
    with (lzvn_loop (S (length c)) c 0 ([] ++ buf) (len (@nil N)) 0).
  apply lzvn_refine; [exact H | apply at_start].
Qed.

Lemma lzvn_operands_shrink op c d l s d' c' : op < 256 ->
  lzvn_operands_pure op c d = Ok (Some (l, s, d', c')) -> (length c' <= length c)%nat.
Proof.
  intros Hop. unfold lzvn_operands_pure.
  rewrite (idx_ok _ _ Invalid) by exact Hop. cbn [bind].
  destruct (nth _ lzvn_types Invalid); try discriminate;
    try (destruct c as [| v [| w c]]); try discriminate;
    intros E; injection E as <- <- <- <-; cbn [length]; lia.
Qed.

Lemma lzvn_operands_no_panic op c d : op < 256 -> lzvn_operands_pure op c d <> Panic.
Proof.
  intros Hop. unfold lzvn_operands_pure.
  rewrite (idx_ok _ _ Invalid) by exact Hop. cbn [bind].
  destruct (nth _ lzvn_types Invalid); try discriminate;
    try (destruct c as [| v [| w c]]); discriminate.
Qed.

Lemma lzvn_pure_no_panic : forall fuel c out rest d, wf_bytes c -> (length c < fuel)%nat ->
  lzvn_pure fuel c out rest d <> Panic.
Proof.
  induction fuel; intros c out rest d Hw Hf; [lia |].
  cbn [lzvn_pure]. destruct c as [| op c]; [discriminate |].
  apply wf_bytes_cons in Hw as [Hop Hw].
  destruct rest as [| x rest]; [discriminate |]. set (rest' := x :: rest).
  destruct (lzvn_operands_pure op c d) as [[[[[l s] d'] c'] |] | |] eqn:E; try discriminate.
  2:{ exfalso. now apply (lzvn_operands_no_panic op c d). }
  cbn [bind].
  assert (Hw' : wf_bytes c').
  { revert E. unfold lzvn_operands_pure. rewrite (idx_ok _ _ Invalid) by exact Hop. cbn [bind].
    destruct (nth _ lzvn_types Invalid); try discriminate;
    try (destruct c as [| v [| w c]]); try discriminate;
    intros E; injection E as <- <- <- <-; unfold wf_bytes in *;
    repeat match goal with H : Forall _ (_ :: _) |- _ => inversion H; clear H; subst end;
    auto using Forall_nil, Forall_cons. }
  apply lzvn_operands_shrink in E; [| exact Hop].
  unfold lzvn_apply_pure.
  destruct (l <=? len c'); [| discriminate]. cbn [check bind].
  destruct (l <=? len rest'); [| discriminate]. cbn [check bind].
  assert (Hl : (length (skipn (N.to_nat l) c') < fuel)%nat)
    by (rewrite skipn_length; cbn [length] in Hf; lia).
  assert (Hs : wf_bytes (skipn (N.to_nat l) c')) by now apply wf_bytes_skipn.
  destruct (0 <? s).
  - destruct (d' <=? len (out ++ firstn (N.to_nat l) c')); [| discriminate]. cbn [check bind].
    destruct (s <=? len (skipn (N.to_nat l) rest')); [| discriminate]. cbn [check bind].
    now apply IHfuel.
  - cbn [bind]. now apply IHfuel.
Qed.

(** ** Round trip *)
Lemma lzvn_type_of (f : N -> bool) (t : lzvn_type) :
  forallb (fun op => negb (f op) ||
    match nth (N.to_nat op) lzvn_types Invalid, t with
    | DistanceLarge, DistanceLarge | DistanceMedium, DistanceMedium
    | DistancePrevious, DistancePrevious | DistanceSmall, DistanceSmall
    | EndOfStream, EndOfStream | LiteralLarge, LiteralLarge | LiteralSmall, LiteralSmall
    | MatchLarge, MatchLarge | MatchSmall, MatchSmall | NoOperation, NoOperation => true
    | _, _ => false end) (seqN 0 256) = true ->
  forall op, op < 256 -> f op = true -> idx lzvn_types op = Ok t.
Proof.
  intros H op Hop Hf. rewrite (idx_ok _ _ Invalid) by exact Hop. f_equal.
  pose proof (byte_forall _ H op Hop) as G. cbv beta in G. rewrite Hf in G. cbn [negb orb] in G.
  destruct (nth (N.to_nat op) lzvn_types Invalid), t; congruence.
Qed.

Lemma lzvn_decode_token t r d : lzvn_valid t ->
  exists op c,
    lzvn_encode_token t ++ r = op :: c /\
    lzvn_operands_pure op c d =
      let '(l, s, od) := lzvn_parts t in
      Ok (Some (len l, s, match od with Some x => x | None => d end, l ++ r)).
Proof.
  intros Hv. destruct t as [l | s | l dd s | l dd s | l dd s | l s | b];
    cbn [lzvn_valid lzvn_encode_token lzvn_parts] in *.
  - destruct Hv as [Hl _]. destruct (N.ltb_spec (len l) 16); cbn [app]; do 2 eexists;
      (split; [reflexivity |]); unfold lzvn_operands_pure.
    + rewrite (lzvn_type_of (fun op => (0xe1 <=? op) && (op <? 0xf0)) LiteralSmall)
        by (reflexivity || lia). cbn [bind]. do 2 f_equal. repeat f_equal; lia.
    + change (idx lzvn_types 0xe0) with (Ok LiteralLarge). cbn [bind]. do 2 f_equal.
      repeat f_equal; lia.
  - destruct (N.ltb_spec s 16); cbn [app]; do 2 eexists;
      (split; [reflexivity |]); unfold lzvn_operands_pure.
    + rewrite (lzvn_type_of (fun op => 0xf1 <=? op) MatchSmall)
        by (reflexivity || lia). cbn [bind]. do 2 f_equal. change (len (@nil N)) with 0.
      repeat f_equal; lia.
    + change (idx lzvn_types 0xf0) with (Ok MatchLarge). cbn [bind]. do 2 f_equal.
      change (len (@nil N)) with 0. repeat f_equal; lia.
  - destruct Hv as (Hl & _ & Hd & Hs). cbn [app]. do 2 eexists. split; [reflexivity |].
    unfold lzvn_operands_pure.
    rewrite (lzvn_type_of (fun op => (op mod 8 <? 6) && (op / 8 mod 8 + 3 <=? 10 - 2 * (op / 64)))
               DistanceSmall) by (reflexivity || lia).
    cbn [bind]. do 2 f_equal. repeat f_equal; lia.
  - destruct Hv as (Hl & _ & Hd & Hs). cbn [app]. do 2 eexists. split; [reflexivity |].
    unfold lzvn_operands_pure.
    rewrite (lzvn_type_of (fun op => (0xa0 <=? op) && (op <? 0xc0)) DistanceMedium)
      by (reflexivity || lia).
    cbn [bind]. do 2 f_equal. repeat f_equal; lia.
  - destruct Hv as (Hl & _ & Hd & Hs). cbn [app]. do 2 eexists. split; [reflexivity |].
    unfold lzvn_operands_pure.
    rewrite (lzvn_type_of (fun op => (op mod 8 =? 7) && (op / 8 mod 8 + 3 <=? 10 - 2 * (op / 64)))
               DistanceLarge) by (reflexivity || lia).
    cbn [bind]. do 2 f_equal. repeat f_equal; lia.
  - destruct Hv as (Hl & _ & Hs). cbn [app]. do 2 eexists. split; [reflexivity |].
    unfold lzvn_operands_pure.
    rewrite (lzvn_type_of (fun op => (op mod 8 =? 6) && (op / 8 mod 8 + 3 <=? 10 - 2 * (op / 64))
               && (1 <=? op / 64)) DistancePrevious) by (reflexivity || lia).
    cbn [bind]. do 2 f_equal. repeat f_equal; lia.
  - cbn [app]. do 2 eexists. split; [reflexivity |]. unfold lzvn_operands_pure.
    destruct Hv as [-> | ->].
    + change (idx lzvn_types 0x0e) with (Ok NoOperation). reflexivity.
    + change (idx lzvn_types 0x16) with (Ok NoOperation). reflexivity.
Qed.

Lemma lzvn_meaning_grows ts : forall out d o, lzvn_meaning out d ts = Some o ->
  (length out <= length o)%nat.
Proof.
  induction ts as [| t ts IH]; intros out d o H; cbn [lzvn_meaning] in H.
  - injection H as <-. lia.
  - destruct (lzvn_parts t) as [[l s] od].
    destruct (s =? 0).
    + apply IH in H. rewrite app_length in H. lia.
    + destruct (_ && _); [| discriminate]. apply IH in H.
      rewrite lz_copy_length, app_length in H. lia.
Qed.

Lemma lzvn_meaning_same ts : forall out d o, lzvn_meaning out d ts = Some o ->
  length out = length o -> out = o.
Proof.
  induction ts as [| t ts IHts]; intros out1 d' o Hm2 H.
  - cbn in Hm2. congruence.
  - cbn [lzvn_meaning] in Hm2. destruct (lzvn_parts t) as [[l s] od].
    destruct (N.eqb_spec s 0).
    + pose proof (lzvn_meaning_grows _ _ _ _ Hm2) as G. rewrite app_length in G.
      assert (l = []) by (destruct l; [reflexivity | cbn in G; lia]). subst l.
      rewrite app_nil_r in Hm2. now apply IHts in Hm2.
    + destruct (_ && _); [| discriminate]. apply lzvn_meaning_grows in Hm2.
      rewrite lz_copy_length, app_length in Hm2. lia.
Qed.

(** What may follow the tokens: nothing, anything when the buffer is full, or the end
    of the stream. *)
Definition lzvn_stops (tail : list N) : Prop := tail = [] \/ exists t, tail = 6 :: t.

Lemma lzvn_round_trip_pure ts : Forall lzvn_valid ts -> forall fuel out rest d o tail,
  (length (concat (map lzvn_encode_token ts) ++ tail) < fuel)%nat ->
  lzvn_meaning out d ts = Some o -> len o <= len out + len rest ->
  lzvn_stops tail \/ len o = len out + len rest ->
  lzvn_pure fuel (concat (map lzvn_encode_token ts) ++ tail) out rest d =
    Ok (o, skipn (length o - length out) rest) .
Proof.
  induction ts as [| t ts IH]; intros Hv fuel out rest d o tail Hf Hm Hmax Ht.
  - cbn [lzvn_meaning] in Hm. injection Hm as ->. rewrite Nat.sub_diag.
    cbn [map concat app skipn] in *. destruct fuel; [lia |]. cbn [lzvn_pure].
    destruct tail as [| x tail]; [reflexivity |].
    destruct rest as [| y rest]; [reflexivity |].
    destruct Ht as [[Ht | [t Ht]] | Ht]; [discriminate | | rewrite len_cons in Ht; lia].
    injection Ht as -> ->. reflexivity.
  - inversion Hv as [| ? ? Ht' Hv']; subst.
    destruct (lzvn_decode_token t (concat (map lzvn_encode_token ts) ++ tail) d Ht')
      as (op & c & E1 & E2).
    cbn [map concat] in *. rewrite <- app_assoc in *. rewrite E1 in *.
    assert (Hlen : (length (concat (map lzvn_encode_token ts) ++ tail) <= length c)%nat).
    { apply (f_equal (@length N)) in E1. rewrite app_length in E1. cbn [length] in E1.
      assert (1 <= length (lzvn_encode_token t))%nat; [| lia].
      destruct t; cbn [lzvn_encode_token]; try (destruct (_ <? 16)); cbn [app length]; lia. }
    destruct fuel as [| fuel]; [lia |]. cbn [length] in Hf. cbn [lzvn_meaning] in Hm.
    destruct (lzvn_parts t) as [[l s] od].
    set (d' := match od with Some x => x | None => d end) in *.
    cbn [lzvn_pure].
    assert (Hg : (length (out ++ l) <= length o)%nat).
    { destruct (s =? 0); [now apply lzvn_meaning_grows in Hm |].
      destruct (_ && _); [| discriminate]. apply lzvn_meaning_grows in Hm.
      rewrite lz_copy_length in Hm. lia. }
    rewrite app_length in Hg.
    assert (Happ : lzvn_apply_pure (len l) s d' (l ++ concat (map lzvn_encode_token ts) ++ tail) out rest =
      Ok (concat (map lzvn_encode_token ts) ++ tail,
          (if s =? 0 then out ++ l else lz_copy (out ++ l) d' (N.to_nat s)),
          skipn (length l + N.to_nat s) rest) /\
      lzvn_meaning (if s =? 0 then out ++ l else lz_copy (out ++ l) d' (N.to_nat s)) d' ts = Some o).
    { unfold lzvn_apply_pure. rewrite len_app.
      destruct (N.leb_spec (len l) (len l + len (concat (map lzvn_encode_token ts) ++ tail)));
        [| lia]. cbn [check bind].
      destruct (N.leb_spec (len l) (len rest)); [| unfold len in *; lia]. cbn [check bind].
      destruct (firstn_skipn_app l (concat (map lzvn_encode_token ts) ++ tail) (N.to_nat (len l)))
        as [-> ->]; [unfold len; lia |].
      replace (N.to_nat (len l)) with (length l) by (unfold len; lia).
      destruct (N.eqb_spec s 0) as [-> | Hs].
      - change (0 <? 0) with false. cbn iota. rewrite Nat.add_0_r. split; [reflexivity | exact Hm].
      - destruct (N.ltb_spec 0 s); [| lia].
        destruct ((1 <=? d') && (d' <=? len (out ++ l))) eqn:Ed; [| discriminate].
        apply andb_true_iff in Ed as [Ed1 Ed2]. rewrite Ed2. cbn [check bind].
        pose proof (lzvn_meaning_grows _ _ _ _ Hm) as Hg2.
        rewrite lz_copy_length, app_length in Hg2.
        rewrite len_skipn. destruct (N.leb_spec s (len rest - N.of_nat (length l)));
          [| unfold len in *; lia].
        cbn [check bind]. destruct (N.eqb_spec d' 0); [lia |].
        rewrite skipn_skipn. split; [| exact Hm]. do 2 f_equal. f_equal. lia. }
    destruct Happ as [Happ Hm2]. clear Hm.
    set (out1 := if s =? 0 then out ++ l else lz_copy (out ++ l) d' (N.to_nat s)) in *.
    assert (Hout1 : length out1 = (length out + length l + N.to_nat s)%nat).
    { unfold out1. destruct (N.eqb_spec s 0) as [-> | Hs].
      - rewrite app_length. lia.
      - rewrite lz_copy_length, app_length. lia. }
    pose proof (lzvn_meaning_grows _ _ _ _ Hm2) as Hg3.
    assert (IH' : lzvn_pure fuel (concat (map lzvn_encode_token ts) ++ tail) out1
        (skipn (length l + N.to_nat s) rest) d' =
        Ok (o, skipn (length o - length out) rest)).
    { rewrite (IH Hv' fuel out1 _ d' o tail); auto.
      - do 2 f_equal. rewrite skipn_skipn. f_equal. lia.
      - lia.
      - rewrite len_skipn. unfold len in *. lia.
      - destruct Ht as [Ht | Ht]; [now left | right]. rewrite len_skipn. unfold len in *. lia. }
    destruct rest as [| y rest].
    { assert (o = out1 /\ length o = length out) as [-> He].
      { assert (E0 : length o = length out) by (change (len (@nil N)) with 0 in Hmax; unfold len in Hmax; lia).
        split; [| exact E0].
        symmetry. apply (lzvn_meaning_same ts out1 d' o Hm2). lia. }
      assert (l = [] /\ s = 0) as [-> ->].
      { split; [destruct l; [reflexivity | cbn in Hout1; lia] | lia]. }
      unfold out1. cbn. rewrite app_nil_r. rewrite Nat.sub_diag. reflexivity. }
    rewrite E2. cbn [bind]. rewrite Happ. cbn [bind]. exact IH'.
Qed.

(** ** Soundness *)
Lemma lzvn_type_facts op : op < 256 ->
  match nth (N.to_nat op) lzvn_types Invalid with
  | DistanceLarge => op mod 8 = 7 /\ op / 8 mod 8 + 3 <= 10 - 2 * (op / 64)
  | DistanceSmall => op mod 8 < 6 /\ op / 8 mod 8 + 3 <= 10 - 2 * (op / 64)
  | DistancePrevious => op mod 8 = 6 /\ op / 8 mod 8 + 3 <= 10 - 2 * (op / 64) /\ 1 <= op / 64
  | DistanceMedium => 0xa0 <= op < 0xc0
  | EndOfStream => op = 6
  | LiteralLarge => op = 0xe0
  | LiteralSmall => 0xe1 <= op < 0xf0
  | MatchLarge => op = 0xf0
  | MatchSmall => 0xf1 <= op
  | NoOperation => op = 0x0e \/ op = 0x16
  | Invalid => True
  end.
Proof.
  intros H.
  assert (G : (fun op => match nth (N.to_nat op) lzvn_types Invalid with
  | DistanceLarge => (op mod 8 =? 7) && (op / 8 mod 8 + 3 <=? 10 - 2 * (op / 64))
  | DistanceSmall => (op mod 8 <? 6) && (op / 8 mod 8 + 3 <=? 10 - 2 * (op / 64))
  | DistancePrevious => (op mod 8 =? 6) && (op / 8 mod 8 + 3 <=? 10 - 2 * (op / 64)) && (1 <=? op / 64)
  | DistanceMedium => (0xa0 <=? op) && (op <? 0xc0)
  | EndOfStream => op =? 6
  | LiteralLarge => op =? 0xe0
  | LiteralSmall => (0xe1 <=? op) && (op <? 0xf0)
  | MatchLarge => op =? 0xf0
  | MatchSmall => 0xf1 <=? op
  | NoOperation => (op =? 0x0e) || (op =? 0x16)
  | Invalid => true
  end) op = true).
  { revert op H. apply byte_forall. vm_compute. reflexivity. }
  cbv beta in G. destruct (nth (N.to_nat op) lzvn_types Invalid); lia.
Qed.

Lemma lzvn_encode_of_operands op c d : op < 256 -> wf_bytes c ->
  forall l s d' c', lzvn_operands_pure op c d = Ok (Some (l, s, d', c')) -> l <= len c' ->
  exists t, lzvn_valid t /\
    op :: c = lzvn_encode_token t ++ skipn (N.to_nat l) c' /\
    fst (lzvn_parts t) = (firstn (N.to_nat l) c', s) /\
    match snd (lzvn_parts t) with Some x => x | None => d end = d'.
Proof.
  intros Hop Hw l s d' c' H Hl. unfold lzvn_operands_pure in H.
  pose proof (lzvn_type_facts op Hop) as F.
  rewrite (idx_ok _ _ Invalid) in H by exact Hop. cbn [bind] in H.
  assert (Lit : forall k r, wf_bytes r -> k <= len r ->
    len (firstn (N.to_nat k) r) = k /\ wf_bytes (firstn (N.to_nat k) r)).
  { intros k r Hr Hk. split; [unfold len in *; rewrite firstn_length; lia | now apply wf_bytes_firstn]. }
  destruct (nth (N.to_nat op) lzvn_types Invalid); try discriminate.
  - destruct c as [| v [| w c]]; try discriminate. injection H as <- <- <- <-.
    apply wf_bytes_cons in Hw as [Hv Hw]. apply wf_bytes_cons in Hw as [Hww Hw].
    destruct (Lit _ _ Hw Hl) as [L1 L2].
    exists (VLarge (firstn (N.to_nat (op / 64)) c) (w * 256 + v) (op / 8 mod 8 + 3)).
    cbn [lzvn_valid lzvn_encode_token lzvn_parts fst snd]. rewrite L1.
    split; [repeat split; auto; lia |]. split; [| split; reflexivity].
    cbn [app]. rewrite firstn_skipn. repeat f_equal; lia.
  - destruct c as [| v [| w c]]; try discriminate. injection H as <- <- <- <-.
    apply wf_bytes_cons in Hw as [Hv Hw]. apply wf_bytes_cons in Hw as [Hww Hw].
    destruct (Lit _ _ Hw Hl) as [L1 L2].
    exists (VMedium (firstn (N.to_nat (op / 8 mod 4)) c) (w * 64 + v / 4) (op mod 8 * 4 + v mod 4 + 3)).
    cbn [lzvn_valid lzvn_encode_token lzvn_parts fst snd]. rewrite L1.
    split; [repeat split; auto; lia |]. split; [| split; reflexivity].
    cbn [app]. rewrite firstn_skipn. repeat f_equal; lia.
  - injection H as <- <- <- <-.
    destruct (Lit _ _ Hw Hl) as [L1 L2].
    exists (VPrevious (firstn (N.to_nat (op / 64)) c) (op / 8 mod 8 + 3)).
    cbn [lzvn_valid lzvn_encode_token lzvn_parts fst snd]. rewrite L1.
    split; [repeat split; auto; lia |]. split; [| split; reflexivity].
    cbn [app]. rewrite firstn_skipn. repeat f_equal; lia.
  - destruct c as [| v c]; try discriminate. injection H as <- <- <- <-.
    apply wf_bytes_cons in Hw as [Hv Hw].
    destruct (Lit _ _ Hw Hl) as [L1 L2].
    exists (VSmall (firstn (N.to_nat (op / 64)) c) (op mod 8 * 256 + v) (op / 8 mod 8 + 3)).
    cbn [lzvn_valid lzvn_encode_token lzvn_parts fst snd]. rewrite L1.
    split; [repeat split; auto; lia |]. split; [| split; reflexivity].
    cbn [app]. rewrite firstn_skipn. repeat f_equal; lia.
  - destruct c as [| v c]; try discriminate. injection H as <- <- <- <-.
    apply wf_bytes_cons in Hw as [Hv Hw].
    destruct (Lit _ _ Hw Hl) as [L1 L2].
    exists (VLiteral (firstn (N.to_nat (v + 16)) c)).
    cbn [lzvn_valid lzvn_encode_token lzvn_parts fst snd]. rewrite L1.
    split; [repeat split; auto; lia |]. split; [| split; reflexivity].
    destruct (N.ltb_spec (v + 16) 16); [lia |].
    cbn [app]. rewrite firstn_skipn. repeat f_equal; lia.
  - injection H as <- <- <- <-.
    destruct (Lit _ _ Hw Hl) as [L1 L2].
    exists (VLiteral (firstn (N.to_nat (op mod 16)) c)).
    cbn [lzvn_valid lzvn_encode_token lzvn_parts fst snd]. rewrite L1.
    split; [repeat split; auto; lia |]. split; [| split; reflexivity].
    destruct (N.ltb_spec (op mod 16) 16); [| lia].
    cbn [app]. rewrite firstn_skipn. repeat f_equal; lia.
  - destruct c as [| v c]; try discriminate. injection H as <- <- <- <-.
    apply wf_bytes_cons in Hw as [Hv Hw].
    exists (VMatch (v + 16)).
    cbn [lzvn_valid lzvn_encode_token lzvn_parts fst snd N.to_nat firstn skipn].
    split; [lia |]. split; [| split; reflexivity].
    destruct (N.ltb_spec (v + 16) 16); [lia |]. cbn [app]. repeat f_equal; lia.
  - injection H as <- <- <- <-.
    exists (VMatch (op mod 16)).
    cbn [lzvn_valid lzvn_encode_token lzvn_parts fst snd N.to_nat firstn skipn].
    split; [lia |]. split; [| split; reflexivity].
    destruct (N.ltb_spec (op mod 16) 16); [| lia]. cbn [app]. repeat f_equal; lia.
  - injection H as <- <- <- <-. exists (VNothing op).
    cbn [lzvn_valid lzvn_encode_token lzvn_parts fst snd N.to_nat firstn skipn app].
    repeat split; auto.
Qed.

Lemma lzvn_sound_pure : forall fuel c out rest d o rest', wf_bytes c ->
  lzvn_pure fuel c out rest d = Ok (o, rest') ->
  exists ts tail, c = concat (map lzvn_encode_token ts) ++ tail /\ Forall lzvn_valid ts /\
    len o + len rest' = len out + len rest /\
    (lzvn_stops tail \/ rest' = []) /\
    (lzvn_zero_distance d ts \/ lzvn_meaning out d ts = Some o).
Proof.
  induction fuel; intros c out rest d o rest' Hw H; [discriminate |].
  cbn [lzvn_pure] in H. destruct c as [| op c].
  { injection H as <- <-. exists [], []. repeat split; auto. left. now left. }
  apply wf_bytes_cons in Hw as [Hop Hw].
  destruct rest as [| x rest].
  { injection H as <- <-. exists [], (op :: c). repeat split; auto. }
  set (rs := x :: rest) in *. clearbody rs.
  destruct (lzvn_operands_pure op c d) as [[[[[l s] d'] c'] |] | |] eqn:E; try discriminate.
  2:{ injection H as <- <-. exists [], (op :: c). repeat split; auto. left. right. exists c. f_equal.
      unfold lzvn_operands_pure in E. pose proof (lzvn_type_facts op Hop) as F.
      rewrite (idx_ok _ _ Invalid) in E by exact Hop. cbn [bind] in E.
      destruct (nth (N.to_nat op) lzvn_types Invalid); try exact F; try discriminate;
        try (destruct c as [| ? [| ? ?]]; discriminate). }
  cbn [bind] in H. unfold lzvn_apply_pure in H.
  destruct (N.leb_spec l (len c')) as [Hl | Hl]; [| discriminate]. cbn [check bind] in H.
  destruct (N.leb_spec l (len rs)) as [Hl2 | Hl2]; [| discriminate]. cbn [check bind] in H.
  destruct (lzvn_encode_of_operands op c d Hop Hw l s d' c' E Hl) as (t & Ht & Et & P1 & P2).
  assert (Hwc : wf_bytes (skipn (N.to_nat l) c')).
  { assert (W : wf_bytes (op :: c)) by (apply wf_bytes_cons; now split).
    rewrite Et in W. now apply wf_bytes_app in W. }
  set (out1 := out ++ firstn (N.to_nat l) c') in *.
  assert (Lout1 : len out1 = len out + l)
    by (unfold out1; rewrite len_app; unfold len in *; rewrite firstn_length; lia).
  destruct (lzvn_parts t) as [[pl ps] pod] eqn:Ep. cbn [fst snd] in P1, P2.
  injection P1 as -> ->.
  assert (Step : forall out2 rest2, len out2 + len rest2 = len out + len rs ->
    (lzvn_zero_distance d' [] \/ ((s <> 0 /\ d' = 0) \/
       forall ts, lzvn_meaning out d (t :: ts) = lzvn_meaning out2 d' ts)) ->
    lzvn_pure fuel (skipn (N.to_nat l) c') out2 rest2 d' = Ok (o, rest') ->
    exists ts tail, op :: c = concat (map lzvn_encode_token ts) ++ tail /\ Forall lzvn_valid ts /\
    len o + len rest' = len out + len rs /\
    (lzvn_stops tail \/ rest' = []) /\
    (lzvn_zero_distance d ts \/ lzvn_meaning out d ts = Some o)).
  { intros out2 rest2 Hs Hm Hr.
    apply IHfuel in Hr as (ts & tail & E1 & V & L & T & M); [| exact Hwc].
    exists (t :: ts), tail. split; [rewrite Et, E1; cbn [map concat]; now rewrite <- app_assoc |].
    split; [now constructor |]. split; [lia |]. split; [exact T |].
    cbn [lzvn_zero_distance]. rewrite Ep. rewrite P2.
    destruct M as [M | M]; [left; now right |].
    destruct Hm as [[] | [Hm | Hm]]; [left; now left |].
    right. rewrite Hm. exact M. }
  destruct (N.ltb_spec 0 s) as [Hs | Hs].
  - destruct (N.leb_spec d' (len out1)) as [Hd | Hd]; [| discriminate]. cbn [check bind] in H.
    destruct (N.leb_spec s (len (skipn (N.to_nat l) rs))) as [Hs2 | Hs2]; [| discriminate].
    cbn [check bind] in H. rewrite len_skipn in Hs2.
    destruct (N.eqb_spec d' 0) as [Hz | Hz].
    + apply Step in H; [exact H | | right; left; split; [lia | exact Hz]].
      rewrite len_app, !len_skipn. unfold len at 2. rewrite firstn_length, skipn_length.
      unfold len in *. lia.
    + apply Step in H; [exact H | |].
      * rewrite len_lz_copy, !len_skipn. unfold len in *. lia.
      * right. right. intros ts. cbn [lzvn_meaning]. rewrite Ep, P2. fold out1.
        destruct (N.eqb_spec s 0); [lia |].
        rewrite (proj2 (andb_true_iff _ _)) by lia. reflexivity.
  - assert (s = 0) by lia. subst s.
    apply Step in H; [exact H | |].
    + rewrite len_skipn. unfold len in *. lia.
    + right. right. intros ts. cbn [lzvn_meaning]. rewrite Ep, P2. reflexivity.
Qed.
