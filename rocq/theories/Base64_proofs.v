From Verif Require Import Base BaseLemmas Bytes_proofs Uuid_spec Base64_model Base64_spec.

(** ** Characters *)
Definition class_ok (c : N) : bool :=
  match b64_classify c with
  | Sextet v => (v <? 64) && (c =? char_of v)
  | Padding => c =? 0x3d
  | WhiteSpace => existsb (N.eqb c) [0x09; 0x0a; 0x0b; 0x0d; 0x20]
  | Invalid => forallb (fun v => negb (c =? char_of v)) (seqN 0 64) && negb (c =? 0x3d)
               && negb (existsb (N.eqb c) [0x09; 0x0a; 0x0b; 0x0d; 0x20])
  end.
Lemma class_all : forallb class_ok (seqN 0 256) = true.
Proof. vm_compute. reflexivity. Qed.
Lemma char_class_all : forallb (fun v => match b64_classify (char_of v) with Sextet w => v =? w | _ => false end) (seqN 0 64) = true.
Proof. vm_compute. reflexivity. Qed.
Lemma classify_char v : v < 64 -> b64_classify (char_of v) = Sextet v.
Proof.
  intros H. pose proof char_class_all as F. rewrite forallb_forall in F.
  specialize (F v). rewrite in_seqN in F. specialize (F ltac:(lia)).
  destruct (b64_classify (char_of v)); try discriminate. f_equal. lia.
Qed.
Lemma classify_big c : 256 <= c -> b64_classify c = Invalid.
Proof.
  intros H. unfold b64_classify.
  repeat (match goal with |- context [if ?b then _ else _] => replace b with false by lia end). reflexivity.
Qed.
Lemma class_small c : c < 256 -> class_ok c = true.
Proof.
  intros H. pose proof class_all as F. rewrite forallb_forall in F. apply F. rewrite in_seqN. lia.
Qed.
Lemma classify_sextet c v : b64_classify c = Sextet v -> v < 64 /\ c = char_of v.
Proof.
  intros H. destruct (N.lt_ge_cases c 256) as [Hc|Hc]; [|rewrite classify_big in H; [discriminate|auto]].
  pose proof (class_small c Hc) as F. unfold class_ok in F. rewrite H in F. lia.
Qed.
Lemma classify_padding c : b64_classify c = Padding <-> c = equals_sign.
Proof.
  split.
  - intros H. destruct (N.lt_ge_cases c 256) as [Hc|Hc]; [|rewrite classify_big in H; [discriminate|auto]].
    pose proof (class_small c Hc) as F. unfold class_ok in F. rewrite H in F. unfold equals_sign. lia.
  - intros ->. reflexivity.
Qed.
Lemma classify_ws c : b64_classify c = WhiteSpace <-> white_space c.
Proof.
  split.
  - intros H. destruct (N.lt_ge_cases c 256) as [Hc|Hc]; [|rewrite classify_big in H; [discriminate|auto]].
    pose proof (class_small c Hc) as F. unfold class_ok in F. rewrite H in F.
    unfold white_space. cbn [existsb In] in *. lia.
  - unfold white_space. cbn [In]. intros [<-|[<-|[<-|[<-|[<-|[]]]]]]; reflexivity.
Qed.

(** ** The characters read: 6-bit values and the rest from the padding on *)
Fixpoint parse (skip : bool) (rest : list N) : res (list N * list N) :=
  match rest with
  | [] => Ok ([], [])
  | c :: rest' =>
      match b64_classify c with
      | Sextet v => '(s, t) <- parse skip rest' ;; Ok (v :: s, t)
      | Padding => Ok ([], rest)
      | WhiteSpace => if skip then parse skip rest' else Err
      | Invalid => Err
      end
  end.

(** The loops in one: a byte is emitted as soon as 8 bits are there. *)
Fixpoint flat (skip : bool) (rest : list N) (bits nbits : N) : res (list N * list N) :=
  match rest with
  | [] => Ok ([], [])
  | c :: rest' =>
      match b64_classify c with
      | Sextet v =>
          let bits := bits * 64 + v in
          if 2 <=? nbits then
            '(o, t) <- flat skip rest' (bits mod 2 ^ (nbits - 2)) (nbits - 2) ;; Ok (bits / 2 ^ (nbits - 2) :: o, t)
          else flat skip rest' bits (nbits + 6)
      | Padding => Ok ([], rest)
      | WhiteSpace => if skip then flat skip rest' bits nbits else Err
      | Invalid => Err
      end
  end.

Lemma lor_sextet bits v : bits < 256 -> v < 64 -> N.lor (N.shiftl bits 6 mod two32) v = bits * 64 + v.
Proof.
  intros Hb Hv. rewrite N.shiftl_mul_pow2. change (2 ^ 6) with 64.
  rewrite N.mod_small by (unfold two32; lia).
  assert (N.land (bits * 64) v = 0).
  { apply N.bits_inj. intros i. rewrite N.land_spec, N.bits_0.
    change 64 with (2 ^ 6). rewrite <- N.shiftl_mul_pow2.
    destruct (N.lt_ge_cases i 6).
    - rewrite N.shiftl_spec_low; auto.
    - assert (v = v mod 2 ^ 6) as -> by (change (2 ^ 6) with 64; lia).
      rewrite N.mod_pow2_bits_high by auto. apply andb_false_r. }
  rewrite <- N.lxor_lor by auto. rewrite <- N.add_nocarry_lxor by auto. reflexivity.
Qed.

Definition final (skip : bool) (rest : list N) : bool := match rest with [] => false | _ => true end.

Lemma pow2_small n : n < 8 -> 2 ^ n <= 128.
Proof. intros. change 128 with (2 ^ 7). apply N.pow_le_mono_r; lia. Qed.

Lemma get_value_sextet skip c rest bits nbits v :
  nbits < 8 -> bits < 2 ^ nbits -> b64_classify c = Sextet v ->
  b64_get_value skip {| b64_rest := c :: rest; b64_bits := bits; b64_nbits := nbits; b64_found_padding := false |} =
  if 2 <=? nbits then
    Ok (Some ((bits * 64 + v) / 2 ^ (nbits - 2)),
        {| b64_rest := rest; b64_bits := (bits * 64 + v) mod 2 ^ (nbits - 2); b64_nbits := nbits - 2; b64_found_padding := false |})
  else b64_get_value skip {| b64_rest := rest; b64_bits := bits * 64 + v; b64_nbits := nbits + 6; b64_found_padding := false |}.
Proof.
  intros Hn Hb Hc. pose proof (pow2_small nbits Hn). destruct (classify_sextet _ _ Hc) as [Hv _].
  unfold b64_get_value. cbn [b64_rest b64_bits b64_nbits b64_found_padding b64_fill].
  replace (8 <=? nbits) with false by lia. rewrite Hc, lor_sextet by lia.
  destruct (N.leb_spec 2 nbits) as [H2|H2]; [|reflexivity].
  replace (b64_fill skip rest (bits * 64 + v) (nbits + 6) false) with
    (Ok {| b64_rest := rest; b64_bits := bits * 64 + v; b64_nbits := nbits + 6; b64_found_padding := false |})
    by (destruct rest; cbn [b64_fill]; replace (8 <=? nbits + 6) with true by lia; reflexivity).
  cbn [bind b64_rest b64_bits b64_nbits b64_found_padding].
  replace (nbits + 6 <? 8) with false by lia.
  unfold sub_chk. replace (8 <=? nbits + 6) with true by lia. cbn [bind].
  replace (nbits + 6 - 8) with (nbits - 2) by lia.
  unfold shr_chk. replace (nbits - 2 <? 32) with true by lia. cbn [bind].
  assert (Hs : nbits - 2 <= 5) by lia.
  assert (E : nbits - 2 = 0 \/ nbits - 2 = 1 \/ nbits - 2 = 2 \/ nbits - 2 = 3 \/ nbits - 2 = 4 \/ nbits - 2 = 5) by lia.
  assert (Hlt : (bits * 64 + v) < 2 ^ (nbits - 2) * 256).
  { replace nbits with (nbits - 2 + 2) in Hb by lia. rewrite N.pow_add_r in Hb. change (2 ^ 2) with 4 in Hb.
    clear - Hb Hv. set (p := 2 ^ (nbits - 2)) in *. clearbody p. lia. }
  set (x := bits * 64 + v) in *. clearbody x.
  assert (Hm : (if nbits - 2 =? 0 then Ok 0 else
     sh <- (if nbits - 2 <=? 32 then Ok (32 - (nbits - 2)) else Panic) ;;
     mask <- (if sh <? 32 then Ok (N.shiftr 0xffffffff sh) else Panic) ;; Ok (N.land x mask)) = Ok (x mod 2 ^ (nbits - 2))).
  { destruct E as [->|E]; [rewrite N.mod_1_r; reflexivity|].
    replace (nbits - 2 =? 0) with false by lia. replace (nbits - 2 <=? 32) with true by lia. cbn [bind].
    replace (32 - (nbits - 2) <? 32) with true by lia. cbn [bind].
    rewrite <- N.land_ones. f_equal. f_equal. destruct E as [->|[->|[->|[->| ->]]]]; reflexivity. }
  rewrite Hm. cbn [bind]. rewrite N.shiftr_div_pow2, (N.mod_small (x / _)); auto.
  apply N.div_lt_upper_bound; auto. apply N.pow_nonzero; lia.
Qed.

Lemma get_value_ws skip c rest bits nbits :
  nbits < 8 -> b64_classify c = WhiteSpace ->
  b64_get_value skip {| b64_rest := c :: rest; b64_bits := bits; b64_nbits := nbits; b64_found_padding := false |} =
  if skip then b64_get_value skip {| b64_rest := rest; b64_bits := bits; b64_nbits := nbits; b64_found_padding := false |} else Err.
Proof.
  intros Hn Hc. unfold b64_get_value. cbn [b64_rest b64_bits b64_nbits b64_found_padding b64_fill].
  replace (8 <=? nbits) with false by lia. rewrite Hc. destruct skip; reflexivity.
Qed.
Lemma get_value_bad skip c rest bits nbits :
  nbits < 8 -> b64_classify c = Invalid ->
  b64_get_value skip {| b64_rest := c :: rest; b64_bits := bits; b64_nbits := nbits; b64_found_padding := false |} = Err.
Proof.
  intros Hn Hc. unfold b64_get_value. cbn [b64_rest b64_bits b64_nbits b64_found_padding b64_fill].
  replace (8 <=? nbits) with false by lia. rewrite Hc. reflexivity.
Qed.
Lemma get_value_end skip rest bits nbits :
  nbits < 8 -> (rest = [] \/ exists c t, rest = c :: t /\ b64_classify c = Padding) ->
  b64_get_value skip {| b64_rest := rest; b64_bits := bits; b64_nbits := nbits; b64_found_padding := false |} =
  Ok (None, {| b64_rest := rest; b64_bits := bits; b64_nbits := nbits; b64_found_padding := final skip rest |}).
Proof.
  intros Hn Hc. unfold b64_get_value. cbn [b64_rest b64_bits b64_nbits b64_found_padding].
  destruct Hc as [->|(c & t & -> & Hc)]; cbn [b64_fill]; replace (8 <=? nbits) with false by lia; [|rewrite Hc];
    cbn [bind b64_nbits]; replace (nbits <? 8) with true by lia; reflexivity.
Qed.

(** The outcome of both loops in terms of [flat]. *)
Lemma collect_flat skip rest : forall fuel bits nbits,
  (length rest < fuel)%nat -> nbits < 8 -> bits < 2 ^ nbits ->
  match flat skip rest bits nbits with
  | Ok (o, t) => exists s, b64_collect fuel skip {| b64_rest := rest; b64_bits := bits; b64_nbits := nbits; b64_found_padding := false |} = Ok (o, s)
      /\ b64_rest s = t /\ b64_found_padding s = final skip t
  | Err => b64_collect fuel skip {| b64_rest := rest; b64_bits := bits; b64_nbits := nbits; b64_found_padding := false |} = Err
  | Panic => False
  end.
Proof.
  induction rest as [|c rest IH]; intros fuel bits nbits Hf Hn Hb; (destruct fuel as [|fuel]; [cbn in Hf; lia|]); cbn [length] in Hf; cbn [flat].
  - cbn [b64_collect]. rewrite get_value_end; auto. cbn [bind]. eauto.
  - destruct (b64_classify c) as [v| | |] eqn:Hc.
    + pose proof (pow2_small nbits Hn). destruct (classify_sextet _ _ Hc) as [Hv _].
      cbn [b64_collect]. rewrite (get_value_sextet _ _ _ _ _ v) by auto.
      destruct (N.leb_spec 2 nbits) as [H2|H2].
      * cbn [bind].
        specialize (IH fuel ((bits * 64 + v) mod 2 ^ (nbits - 2)) (nbits - 2) ltac:(lia) ltac:(lia)
          ltac:(apply N.mod_upper_bound, N.pow_nonzero; lia)).
        destruct (flat skip rest _ _) as [[o t]| |]; cbn [bind]; auto.
        -- destruct IH as (s & E & H1 & H3). rewrite E. cbn [bind]. eauto.
        -- rewrite IH. reflexivity.
      * assert (Hp : bits * 64 + v < 2 ^ (nbits + 6)).
        { rewrite N.pow_add_r. change (2 ^ 6) with 64. clear - Hb Hv. set (p := 2 ^ nbits) in *. clearbody p. lia. }
        specialize (IH (S fuel) (bits * 64 + v) (nbits + 6) ltac:(lia) ltac:(lia) Hp). exact IH.
    + cbn [b64_collect]. rewrite get_value_end by eauto. cbn [bind]. eauto.
    + cbn [b64_collect]. rewrite get_value_ws by auto. destruct skip; auto.
      specialize (IH (S fuel) bits nbits ltac:(lia) Hn Hb). exact IH.
    + cbn [b64_collect]. rewrite get_value_bad by auto. reflexivity.
Qed.

(** Writing into a buffer that is large enough. *)
Lemma upd_app (a b : list N) x y : upd (a ++ y :: b) (len a) x = Ok (a ++ x :: b).
Proof.
  rewrite upd_ok by (rewrite len_app, len_cons; lia). f_equal.
  unfold len. rewrite Nat2N.id. induction a; cbn; congruence.
Qed.
Lemma decode_loop_collect : forall fuel s data o s',
  b64_collect fuel false s = Ok (o, s') -> forall pre, len o <= len data ->
  b64_decode_loop fuel s (pre ++ data) (len pre) = Ok (pre ++ o ++ skipn (length o) data, len pre + len o, s').
Proof.
  induction fuel as [|fuel IH]; intros s data o s' H pre Hl; [discriminate|].
  cbn [b64_collect b64_decode_loop] in *.
  destruct (b64_get_value false s) as [[[b|] s1]| |]; cbn [bind] in *; try discriminate.
  - destruct (b64_collect fuel false s1) as [[o1 s2]| |] eqn:E; cbn [bind] in H; try discriminate.
    inversion H; subst; clear H. destruct data as [|d data]; rewrite ?len_cons, ?len_nil in Hl; [lia|].
    rewrite upd_app. cbn [bind]. replace (pre ++ b :: data) with ((pre ++ [b]) ++ data) by (rewrite <- app_assoc; reflexivity).
    replace (len pre + 1) with (len (pre ++ [b])) by (rewrite len_app; reflexivity).
    rewrite (IH _ _ _ _ E) by lia. rewrite <- app_assoc. cbn [app length skipn].
    rewrite len_app, !len_cons. change (len (@nil N)) with 0. do 3 f_equal. lia.
  - inversion H; subst. cbn [app length skipn]. rewrite len_nil, N.add_0_r. reflexivity.
Qed.
Lemma decode_loop_err : forall fuel s, b64_collect fuel false s = Err ->
  forall data pre, N.of_nat fuel <= len data + 1 ->
  b64_decode_loop fuel s (pre ++ data) (len pre) = Err.
Proof.
  induction fuel as [|fuel IH]; intros s H data pre Hl; [discriminate|].
  cbn [b64_collect b64_decode_loop] in *.
  destruct (b64_get_value false s) as [[[b|] s1]| |]; cbn [bind] in *; try discriminate; auto.
  destruct (b64_collect fuel false s1) as [[o1 s2]| |] eqn:E; cbn [bind] in H; try discriminate.
  destruct fuel as [|fuel]; [discriminate|].
  destruct data as [|d data]; rewrite ?len_cons, ?len_nil in Hl; [lia|].
  rewrite upd_app. cbn [bind]. replace (pre ++ b :: data) with ((pre ++ [b]) ++ data) by (rewrite <- app_assoc; reflexivity).
  replace (len pre + 1) with (len (pre ++ [b])) by (rewrite len_app; reflexivity).
  apply IH; auto. lia.
Qed.
Lemma decode_loop_small : forall fuel s o s', b64_collect fuel false s = Ok (o, s') ->
  forall data pre, len data < len o -> b64_decode_loop fuel s (pre ++ data) (len pre) = Panic.
Proof.
  induction fuel as [|fuel IH]; intros s o s' H data pre Hl; [discriminate|].
  cbn [b64_collect b64_decode_loop] in *.
  destruct (b64_get_value false s) as [[[b|] s1]| |]; cbn [bind] in *; try discriminate.
  - destruct (b64_collect fuel false s1) as [[o1 s2]| |] eqn:E; cbn [bind] in H; try discriminate.
    inversion H; subst; clear H. destruct data as [|d data].
    + unfold upd. rewrite app_nil_r. replace (len pre <? len pre) with false by lia. reflexivity.
    + rewrite upd_app. cbn [bind]. replace (pre ++ b :: data) with ((pre ++ [b]) ++ data) by (rewrite <- app_assoc; reflexivity).
      replace (len pre + 1) with (len (pre ++ [b])) by (rewrite len_app; reflexivity).
      eapply IH; eauto. rewrite !len_cons in Hl. lia.
  - inversion H; subst. rewrite len_nil in Hl. lia.
Qed.

(** [flat] and [parse] *)
Lemma be_bytes_S m x : be_bytes (S m) x = x / 256 ^ N.of_nat m mod 256 :: be_bytes m x.
Proof.
  unfold be_bytes. revert x. induction m as [|m IH]; intros x.
  - cbn [le_bytes rev app]. rewrite N.pow_0_r, N.div_1_r. reflexivity.
  - cbn [le_bytes]. cbn [rev] in IH |- *. specialize (IH (x / 256)). cbn [le_bytes rev] in IH. rewrite IH.
    rewrite pow256_S, N.div_div by (try lia; apply N.pow_nonzero; lia). reflexivity.
Qed.
Lemma be_bytes_add m x y : be_bytes m (x * 256 ^ N.of_nat m + y) = be_bytes m y.
Proof.
  unfold be_bytes. f_equal. revert x y. induction m as [|m IH]; intros x y; [reflexivity|].
  cbn [le_bytes]. rewrite pow256_S.
  replace (x * (256 * 256 ^ N.of_nat m) + y) with (y + (x * 256 ^ N.of_nat m) * 256) by lia.
  rewrite N.mod_add, N.div_add by lia. f_equal. rewrite N.add_comm. apply IH.
Qed.

Definition number_from (acc : N) (v : list N) : N := fold_left (fun acc x => acc * 64 + x) v acc.
Lemma number_from_eq v : forall acc, number_from acc v = acc * 64 ^ len v + base64_number v.
Proof.
  unfold base64_number, number_from. induction v as [|x v IH]; intros acc; cbn [fold_left].
  - rewrite len_nil, N.pow_0_r. lia.
  - rewrite IH, (IH (0 * 64 + x)), len_cons, N.add_1_r, N.pow_succ_r'. lia.
Qed.
Definition out_from (bits nbits : N) (v : list N) : list N :=
  let n := nbits + 6 * len v in be_bytes (N.to_nat (n / 8)) (number_from bits v / 2 ^ (n mod 8)).

Lemma out_from_small bits nbits : nbits < 8 -> out_from bits nbits [] = [].
Proof. intros H. unfold out_from. change (len (@nil N)) with 0. replace ((nbits + 6 * 0) / 8) with 0 by lia. reflexivity. Qed.

Lemma number_bound v : Forall (fun x => x < 64) v -> base64_number v < 64 ^ len v.
Proof.
  induction 1 as [|x v Hx Hv IH]; [reflexivity|].
  change (base64_number (x :: v)) with (number_from (0 * 64 + x) v). rewrite number_from_eq, len_cons, N.add_1_r, N.pow_succ_r'.
  set (p := 64 ^ len v) in *. clearbody p. assert ((0 * 64 + x) * p <= 63 * p) by (apply N.mul_le_mono_r; lia). lia.
Qed.
Lemma parse_bound skip rest : match parse skip rest with Ok (v, _) => Forall (fun x => x < 64) v | _ => True end.
Proof.
  induction rest as [|c rest IH]; cbn [parse]; [constructor|].
  destruct (b64_classify c) as [v| | |] eqn:Hc; auto.
  - destruct (parse skip rest) as [[? ?]| |]; cbn [bind]; auto. constructor; auto. apply (classify_sextet _ _ Hc).
  - destruct skip; auto.
Qed.

Lemma out_from_step bits nbits v vs : nbits < 8 -> bits < 2 ^ nbits -> v < 64 -> Forall (fun x => x < 64) vs ->
  out_from bits nbits (v :: vs) =
  if 2 <=? nbits then (bits * 64 + v) / 2 ^ (nbits - 2) :: out_from ((bits * 64 + v) mod 2 ^ (nbits - 2)) (nbits - 2) vs
  else out_from (bits * 64 + v) (nbits + 6) vs.
Proof.
  intros Hn Hb Hv Hvs. unfold out_from. cbn [number_from fold_left]. fold (number_from (bits * 64 + v) vs).
  change (fold_left (fun acc x => acc * 64 + x) vs (bits * 64 + v)) with (number_from (bits * 64 + v) vs).
  rewrite len_cons. destruct (N.leb_spec 2 nbits) as [H2|H2].
  2:{ replace (nbits + 6 * (len vs + 1)) with (nbits + 6 + 6 * len vs) by lia. reflexivity. }
  set (k := len vs). set (n := nbits - 2 + 6 * k).
  replace (nbits + 6 * (k + 1)) with (n + 1 * 8) by lia.
  rewrite N.div_add, N.mod_add by lia. replace (N.to_nat (n / 8 + 1)) with (S (N.to_nat (n / 8))) by lia.
  set (x := bits * 64 + v).
  assert (Hx : x < 2 ^ (nbits - 2) * 256).
  { replace nbits with (nbits - 2 + 2) in Hb by lia. rewrite N.pow_add_r in Hb. change (2 ^ 2) with 4 in Hb.
    subst x. clear - Hb Hv. set (p := 2 ^ (nbits - 2)) in *. clearbody p. lia. }
  set (p := 2 ^ (nbits - 2)) in *.
  assert (Hp : p <> 0) by (apply N.pow_nonzero; lia).
  assert (Hxq : x / p < 256) by (apply N.div_lt_upper_bound; auto).
  rewrite !number_from_eq. fold k. set (y := base64_number vs).
  assert (Hpow : 64 ^ k * p = 256 ^ N.of_nat (N.to_nat (n / 8)) * 2 ^ (n mod 8)).
  { subst p. rewrite N2Nat.id. change 64 with (2 ^ 6). change 256 with (2 ^ 8). rewrite <- !N.pow_mul_r, <- !N.pow_add_r.
    f_equal. subst n. clear. lia. }
  assert (Hdiv : (x * 64 ^ k + y) / 2 ^ (n mod 8) = x / p * 256 ^ N.of_nat (N.to_nat (n / 8)) + (x mod p * 64 ^ k + y) / 2 ^ (n mod 8)).
  { rewrite (N.div_mod x p) at 1 by auto.
    replace ((p * (x / p) + x mod p) * 64 ^ k + y) with (x / p * (64 ^ k * p) + (x mod p * 64 ^ k + y)) by (clear; nia).
    rewrite Hpow. rewrite N.mul_assoc, N.add_comm, N.div_add, N.add_comm by (apply N.pow_nonzero; lia). reflexivity. }
  rewrite Hdiv. rewrite be_bytes_S, be_bytes_add. f_equal.
  assert (Hy : y < 64 ^ k) by (apply number_bound; auto).
  assert (Hlt : (x mod p * 64 ^ k + y) / 2 ^ (n mod 8) < 256 ^ N.of_nat (N.to_nat (n / 8))).
  { apply N.div_lt_upper_bound; [apply N.pow_nonzero; lia|]. rewrite (N.mul_comm (2 ^ (n mod 8))), <- Hpow.
    pose proof (N.mod_upper_bound x p Hp). clear - Hy H.
    assert ((x mod p + 1) * 64 ^ k <= p * 64 ^ k) by (apply N.mul_le_mono_r; lia). lia. }
  rewrite N.add_comm, N.div_add by (apply N.pow_nonzero; lia). rewrite (N.div_small _ _ Hlt).
  rewrite N.add_0_l. apply N.mod_small. auto.
Qed.

Lemma flat_parse skip rest : forall bits nbits, nbits < 8 -> bits < 2 ^ nbits ->
  flat skip rest bits nbits = ('(v, t) <- parse skip rest ;; Ok (out_from bits nbits v, t)).
Proof.
  induction rest as [|c rest IH]; intros bits nbits Hn Hb; cbn [flat parse].
  - cbn [bind]. rewrite out_from_small by auto. reflexivity.
  - destruct (b64_classify c) as [v| | |] eqn:Hc.
    + pose proof (pow2_small nbits Hn). destruct (classify_sextet _ _ Hc) as [Hv _].
      destruct (N.leb_spec 2 nbits) as [H2|H2].
      * rewrite IH by (try lia; apply N.mod_upper_bound, N.pow_nonzero; lia).
        pose proof (parse_bound skip rest) as Hw.
        destruct (parse skip rest) as [[vs t]| |]; cbn [bind]; auto.
        rewrite out_from_step by auto. replace (2 <=? nbits) with true by lia. reflexivity.
      * rewrite IH.
        -- pose proof (parse_bound skip rest) as Hw. destruct (parse skip rest) as [[vs t]| |]; cbn [bind]; auto.
           rewrite out_from_step by auto. replace (2 <=? nbits) with false by lia. reflexivity.
        -- lia.
        -- rewrite N.pow_add_r. change (2 ^ 6) with 64. clear - Hb Hv. set (p := 2 ^ nbits) in *. clearbody p. lia.
    + cbn [bind]. rewrite out_from_small by auto. reflexivity.
    + destruct skip; auto.
    + reflexivity.
Qed.
Lemma octets_out v : octets v = out_from 0 0 v.
Proof. unfold octets, out_from. rewrite N.add_0_l. reflexivity. Qed.

(** [parse] and the specification *)
Definition tail_ok (t : list N) : Prop := t = [] \/ exists t', t = equals_sign :: t'.
Lemma parse_true rest v t : parse true rest = Ok (v, t) <->
  exists body, Forall (fun x => x < 64) v /\ with_white_space (map char_of v) body /\ rest = body ++ t /\ tail_ok t.
Proof.
  split.
  - revert v t. induction rest as [|c rest IH]; cbn [parse]; intros v t H.
    + inversion H; subst. exists []. split; [constructor|]. split; [constructor|]. split; [auto|left; auto].
    + destruct (b64_classify c) as [x| | |] eqn:Hc.
      * destruct (parse true rest) as [[s t1]| |]; cbn [bind] in H; try discriminate. inversion H; subst; clear H.
        destruct (IH _ _ eq_refl) as (body & H1 & H2 & -> & H3). destruct (classify_sextet _ _ Hc) as [Hx ->].
        exists (char_of x :: body). repeat split; auto. constructor; auto.
      * inversion H; subst. apply classify_padding in Hc. subst. exists []. split; [constructor|]. split; [constructor|].
        split; auto. right; eauto.
      * destruct (IH _ _ H) as (body & H1 & H2 & -> & H3). apply classify_ws in Hc.
        exists (c :: body). repeat split; auto. constructor; auto.
      * discriminate.
  - intros (body & H1 & H2 & -> & H3). revert H1. remember (map char_of v) as m. revert v Heqm.
    induction H2 as [|c a b H IH|c a b Hc H IH]; intros v Hm H1.
    + destruct v; try discriminate. destruct H3 as [->|(t' & ->)]; reflexivity.
    + destruct v as [|x v]; try discriminate. cbn [map] in Hm. inversion Hm; subst. inversion H1; subst.
      cbn [app parse]. rewrite classify_char, (IH v) by auto. reflexivity.
    + cbn [app parse]. apply classify_ws in Hc. rewrite Hc. apply IH; auto.
Qed.
Lemma parse_false rest v t : parse false rest = Ok (v, t) <->
  Forall (fun x => x < 64) v /\ rest = map char_of v ++ t /\ tail_ok t.
Proof.
  split.
  - revert v t. induction rest as [|c rest IH]; cbn [parse]; intros v t H.
    + inversion H; subst. split; [constructor|]. split; [auto|left; auto].
    + destruct (b64_classify c) as [x| | |] eqn:Hc; try discriminate.
      * destruct (parse false rest) as [[s t1]| |]; cbn [bind] in H; try discriminate. inversion H; subst; clear H.
        destruct (IH _ _ eq_refl) as (H1 & -> & H3). destruct (classify_sextet _ _ Hc) as [Hx ->].
        repeat split; auto.
      * inversion H; subst. apply classify_padding in Hc. subst. split; [constructor|].
        split; auto. right; eauto.
  - intros (H1 & -> & H3). induction v as [|x v IH]; cbn [map app].
    + destruct H3 as [->|(t' & ->)]; reflexivity.
    + inversion H1; subst. cbn [parse]. rewrite classify_char, IH by auto. reflexivity.
Qed.
Lemma parse_no_panic skip rest : parse skip rest <> Panic.
Proof.
  induction rest as [|c rest IH]; cbn [parse]; try discriminate.
  destruct (b64_classify c); try discriminate.
  - destruct (parse skip rest) as [[? ?]| |]; cbn [bind]; congruence.
  - destruct skip; auto. discriminate.
Qed.

(** ** White space skipping stream *)
Lemma plist_parse e : plist_data e = ('(v, _) <- parse true e ;; Ok (octets v)).
Proof.
  unfold plist_data, b64_new.
  pose proof (collect_flat true e (S (length e)) 0 0 ltac:(lia) ltac:(lia) ltac:(cbn; lia)) as H.
  rewrite flat_parse in H by (cbn; lia). pose proof (parse_no_panic true e).
  destruct (parse true e) as [[v t]| |]; cbn [bind] in *; [|rewrite H; reflexivity|congruence].
  destruct H as (s & -> & _). reflexivity.
Qed.
Lemma plist_spec e out : plist_data e = Ok out <-> decodes_ws e out.
Proof.
  rewrite plist_parse. unfold decodes_ws. split.
  - intros H. destruct (parse true e) as [[v t]| |] eqn:E; cbn [bind] in H; try discriminate. inversion H; subst.
    apply parse_true in E. destruct E as (body & H1 & H2 & H3 & H4). exists v, body, t. auto.
  - intros (v & body & t & H1 & H2 & H3 & -> & H4).
    assert (E : parse true e = Ok (v, t)) by (apply parse_true; exists body; auto). rewrite E. reflexivity.
Qed.
Lemma plist_total e : plist_data e <> Panic.
Proof.
  rewrite plist_parse. pose proof (parse_no_panic true e). destruct (parse true e) as [[? ?]| |]; cbn [bind]; congruence.
Qed.

(** ** The context *)
Lemma check_padding_ok data : forall n off, off + N.of_nat n <= len data ->
  b64_check_padding n data off = check (forallb (N.eqb 0x3d) (firstn n (skipn (N.to_nat off) data))).
Proof.
  induction n as [|n IH]; intros off H; cbn [b64_check_padding]; [reflexivity|].
  rewrite (idx_ok _ _ 0) by lia. cbn [bind]. rewrite IH by lia.
  replace (N.to_nat (off + 1)) with (S (N.to_nat off)) by lia.
  assert (E : skipn (N.to_nat off) data = nth (N.to_nat off) data 0 :: skipn (S (N.to_nat off)) data).
  { assert (Hl : (N.to_nat off < length data)%nat) by (unfold len in H; lia). clear - Hl.
    revert Hl. generalize (N.to_nat off) as i. induction data as [|a data IH]; intros [|i] Hl; cbn [length] in Hl; try lia; cbn [skipn nth]; auto.
    apply IH. lia. }
  rewrite E. cbn [firstn forallb]. rewrite N.eqb_sym. destruct (0x3d =? nth (N.to_nat off) data 0); reflexivity.
Qed.

Definition pad_of (n : N) : N := (4 - n mod 4) mod 4.
Lemma pad_of_eq n : (let p := n mod 4 in if 0 <? p then sub_chk 4 p else Ok p) = Ok (pad_of n).
Proof.
  cbn zeta. unfold sub_chk, pad_of. destruct (N.ltb_spec 0 (n mod 4)).
  - replace (n mod 4 <=? 4) with true by lia. f_equal. lia.
  - f_equal. lia.
Qed.

Lemma forallb_repeat k l : (length l = k)%nat -> forallb (N.eqb 0x3d) l = true <-> l = repeat equals_sign k.
Proof.
  intros <-. induction l as [|a l IH]; cbn [forallb length repeat]; [tauto|].
  rewrite andb_true_iff, IH, N.eqb_eq. unfold equals_sign. split.
  - intros [<- H]. rewrite <- H. reflexivity.
  - intros H. inversion H; subst. split; auto. congruence.
Qed.

Definition padding_ok (v t : list N) : bool :=
  match t with
  | [] => true
  | _ => (pad_of (len v) <=? len t) && forallb (N.eqb 0x3d) (firstn (N.to_nat (pad_of (len v))) t)
  end.
Lemma padding_ok_iff v t : tail_ok t ->
  (padding_ok v t = true <->
   (t = [] \/ exists t1, t = equals_sign :: t1 /\ exists t', t = repeat equals_sign (N.to_nat ((4 - len v mod 4) mod 4)) ++ t')).
Proof.
  intros Ht. fold (pad_of (len v)). set (k := pad_of (len v)). split.
  - destruct Ht as [->|(t1 & ->)]; auto. unfold padding_ok. fold k. rewrite andb_true_iff. intros [H1 H2]. right.
    exists t1. split; auto. exists (skipn (N.to_nat k) (equals_sign :: t1)).
    apply (forallb_repeat (N.to_nat k)) in H2.
    + rewrite <- H2 at 1. symmetry. apply firstn_skipn.
    + rewrite firstn_length. unfold len in H1. lia.
  - intros [->|(t1 & H1 & t' & H2)]; [reflexivity|]. unfold padding_ok. rewrite H1 at 1. fold k. rewrite H2.
    rewrite andb_true_iff. split.
    + rewrite len_app. unfold len. rewrite repeat_length. lia.
    + replace (firstn (N.to_nat k) (repeat equals_sign (N.to_nat k) ++ t')) with (repeat equals_sign (N.to_nat k)).
      * apply (forallb_repeat (N.to_nat k)); auto. apply repeat_length.
      * rewrite <- (repeat_length equals_sign (N.to_nat k)) at 2. rewrite firstn_app, Nat.sub_diag, firstn_all. cbn [firstn]. rewrite app_nil_r. reflexivity.
Qed.

Lemma decode_after e v t data : parse false e = Ok (v, t) -> len (octets v) <= len data ->
  b64_decode e data = (check (padding_ok v t) ;;; Ok (octets v ++ skipn (length (octets v)) data, len (octets v))).
Proof.
  intros E Hl. unfold b64_decode.
  pose proof (collect_flat false e (S (length e)) 0 0 ltac:(lia) ltac:(lia) ltac:(cbn; lia)) as H.
  rewrite flat_parse in H by (cbn; lia). rewrite E in H. cbn [bind] in H. rewrite <- octets_out in H.
  destruct H as (s & H & Hr & Hp).
  pose proof (decode_loop_collect _ _ data _ _ H [] Hl) as D. change (len (@nil N)) with 0 in D.
  rewrite N.add_0_l in D. cbn [app] in D.
  unfold b64_new. rewrite D. cbn [bind]. rewrite Hp, Hr. clear D H Hp Hr s.
  apply parse_false in E. destruct E as (Hv & He & Ht). unfold final, padding_ok.
  destruct t as [|a t]; [reflexivity|]. set (t0 := a :: t) in *.
  assert (Hoff : len e - len t0 = len v) by (rewrite He, len_app, len_map; lia).
  rewrite Hoff, pad_of_eq. cbn [bind].
  assert (Hlen : len e = len v + len t0) by (rewrite He, len_app, len_map; lia).
  unfold sub_chk. replace (len v <=? len e) with true by lia. cbn [bind].
  replace (len e - len v) with (len t0) by lia.
  destruct (N.leb_spec (pad_of (len v)) (len t0)) as [Hk|Hk]; [|reflexivity]. cbn [check bind andb].
  rewrite check_padding_ok by lia.
  replace (skipn (N.to_nat (len v)) e) with t0. { reflexivity. }
  rewrite He. unfold len. rewrite Nat2N.id, <- (map_length char_of v), skipn_app, skipn_all, Nat.sub_diag. reflexivity.
Qed.
Lemma decode_ok e out data : decodes_padded e out -> len out <= len data ->
  b64_decode e data = Ok (out ++ skipn (length out) data, len out).
Proof.
  intros (v & t & Hv & He & -> & Ht) Hl.
  assert (Ht' : tail_ok t) by (unfold tail_ok; destruct Ht as [->|(t1 & -> & _)]; eauto).
  rewrite (decode_after e v t) by (try apply parse_false; auto).
  apply padding_ok_iff in Ht; auto. rewrite Ht. reflexivity.
Qed.
Lemma decode_sound e data r : len e <= len data -> b64_decode e data = Ok r ->
  exists out, decodes_padded e out /\ len out <= len data /\ r = (out ++ skipn (length out) data, len out).
Proof.
  intros Hl H. destruct (parse false e) as [[v t]| |] eqn:E.
  - assert (Ho : len (octets v) <= len data).
    { unfold octets, be_bytes, len at 1. rewrite rev_length, le_bytes_length.
      apply parse_false in E. destruct E as (_ & -> & _). rewrite len_app, len_map in Hl. lia. }
    rewrite (decode_after e v t) in H by auto. apply parse_false in E. destruct E as (Hv & He & Ht).
    destruct (padding_ok v t) eqn:Ep; [|discriminate]. cbn [check bind] in H. inversion H; subst.
    exists (octets v). repeat split; auto. exists v, t. repeat split; auto. apply padding_ok_iff; auto.
  - exfalso. unfold b64_decode in H.
    pose proof (collect_flat false e (S (length e)) 0 0 ltac:(lia) ltac:(lia) ltac:(cbn; lia)) as C.
    rewrite flat_parse, E in C by (cbn; lia). cbn [bind] in C.
    pose proof (decode_loop_err _ _ C data [] ltac:(unfold len in *; lia)) as D. cbn [app] in D. change (len (@nil N)) with 0 in D.
    unfold b64_new in H. rewrite D in H. discriminate.
  - exfalso. eapply parse_no_panic; eauto.
Qed.
Lemma decode_no_panic e data : len e <= len data -> b64_decode e data <> Panic.
Proof.
  intros Hl H. destruct (parse false e) as [[v t]| |] eqn:E.
  - assert (Ho : len (octets v) <= len data).
    { unfold octets, be_bytes, len at 1. rewrite rev_length, le_bytes_length.
      apply parse_false in E. destruct E as (_ & -> & _). rewrite len_app, len_map in Hl. lia. }
    rewrite (decode_after e v t) in H by auto. destruct (padding_ok v t); discriminate.
  - unfold b64_decode in H.
    pose proof (collect_flat false e (S (length e)) 0 0 ltac:(lia) ltac:(lia) ltac:(cbn; lia)) as C.
    rewrite flat_parse, E in C by (cbn; lia). cbn [bind] in C.
    pose proof (decode_loop_err _ _ C data [] ltac:(unfold len in *; lia)) as D. cbn [app] in D. change (len (@nil N)) with 0 in D.
    unfold b64_new in H. rewrite D in H. discriminate.
  - eapply parse_no_panic; eauto.
Qed.
Lemma decode_small e out data : decodes e out -> len data < len out -> b64_decode e data = Panic.
Proof.
  intros (v & t & Hv & He & -> & Ht) Hl. unfold b64_decode.
  assert (E : parse false e = Ok (v, t)) by (apply parse_false; auto).
  pose proof (collect_flat false e (S (length e)) 0 0 ltac:(lia) ltac:(lia) ltac:(cbn; lia)) as H.
  rewrite flat_parse in H by (cbn; lia). rewrite E in H. cbn [bind] in H. rewrite <- octets_out in H.
  destruct H as (s & H & _).
  pose proof (decode_loop_small _ _ _ _ H data [] Hl) as D. cbn [app] in D. change (len (@nil N)) with 0 in D.
  unfold b64_new. rewrite D. reflexivity.
Qed.

(** ** Encoding *)
Fixpoint sextets (l : list N) : list N :=
  match l with
  | a :: b :: c :: rest =>
      let v := (a * 256 + b) * 256 + c in [v / 262144; v / 4096 mod 64; v / 64 mod 64; v mod 64] ++ sextets rest
  | [a; b] => let v := (a * 256 + b) * 256 in [v / 262144; v / 4096 mod 64; v / 64 mod 64]
  | [a] => let v := a * 65536 in [v / 262144; v / 4096 mod 64]
  | [] => []
  end.
Lemma list3_ind (P : list N -> Prop) : P [] -> (forall a, P [a]) -> (forall a b, P [a; b]) ->
  (forall a b c l, P l -> P (a :: b :: c :: l)) -> forall l, P l.
Proof.
  intros H0 H1 H2 H3. assert (H : forall l, P l /\ (forall a, P (a :: l)) /\ (forall a b, P (a :: b :: l))).
  { induction l as [|x l (IH1 & IH2 & IH3)]; auto. }
  intros l. apply H.
Qed.
Lemma be_value_cons a l : be_value (a :: l) = a * 256 ^ len l + be_value l.
Proof.
  assert (H : forall l acc, fold_left (fun acc b => acc * 256 + b) l acc = acc * 256 ^ len l + be_value l).
  { unfold be_value. clear. induction l as [|x l IH]; intros acc; cbn [fold_left].
    - rewrite len_nil, N.pow_0_r. lia.
    - rewrite IH, (IH (0 * 256 + x)), len_cons, N.add_1_r, N.pow_succ_r'. lia. }
  unfold be_value at 1. cbn [fold_left]. rewrite H. lia.
Qed.
Lemma number_cons a l : base64_number (a :: l) = a * 64 ^ len l + base64_number l.
Proof. change (base64_number (a :: l)) with (number_from (0 * 64 + a) l). rewrite number_from_eq. f_equal. Qed.

Lemma sextets_ok l : wf_bytes l ->
  Forall (fun x => x < 64) (sextets l) /\ 6 * len (sextets l) / 8 = len l /\
  base64_number (sextets l) = be_value l * 2 ^ (6 * len (sextets l) mod 8) /\
  2 ^ (6 * len (sextets l) mod 8) * 256 ^ len l = 64 ^ len (sextets l).
Proof.
  induction l as [|a|a b|a b c l IH] using list3_ind; intros Hw.
  - repeat split; try constructor.
  - apply Forall_inv in Hw. unfold byte_ok in Hw. cbn [sextets]. repeat split.
    + repeat constructor; lia.
    + cbn [base64_number fold_left be_value]. change (len [a * 65536 / 262144; a * 65536 / 4096 mod 64]) with 2.
      change (2 ^ (6 * 2 mod 8)) with 16. lia.
  - pose proof (Forall_inv Hw) as Ha. pose proof (Forall_inv (Forall_inv_tail Hw)) as Hb. unfold byte_ok in *. cbn [sextets]. repeat split.
    + repeat constructor; lia.
    + cbn [base64_number fold_left be_value].
      match goal with |- context [len [?x; ?y; ?z]] => change (len [x; y; z]) with 3 end.
      change (2 ^ (6 * 3 mod 8)) with 4. lia.
  - apply wf_bytes_cons in Hw. destruct Hw as [Ha Hw]. apply wf_bytes_cons in Hw. destruct Hw as [Hb Hw].
    apply wf_bytes_cons in Hw. destruct Hw as [Hc Hw]. specialize (IH Hw). destruct IH as (I1 & I2 & I3 & I4).
    cbn [sextets app]. set (v := (a * 256 + b) * 256 + c).
    assert (Hv : v < 16777216) by (subst v; lia).
    rewrite !len_cons, !number_cons, !be_value_cons, !len_cons.
    set (k := len (sextets l)) in *. set (n := len l) in *.
    replace (6 * (k + 1 + 1 + 1 + 1)) with (6 * k + 3 * 8) by lia. rewrite N.mod_add, N.div_add by lia.
    split; [repeat constructor; auto; lia|]. split; [lia|].
    rewrite !N.pow_add_r. change (256 ^ 1) with 256. change (64 ^ 1) with 64.
    set (K := 64 ^ k) in *. set (M := 256 ^ n) in *. set (R := 2 ^ (6 * k mod 8)) in *. rewrite I3. clear I1 I2 I3.
    split.
    + replace (v / 262144 * (K * 64 * 64 * 64) + (v / 4096 mod 64 * (K * 64 * 64) + (v / 64 mod 64 * (K * 64) + (v mod 64 * K + be_value l * R))))
        with ((v / 262144 * 262144 + v / 4096 mod 64 * 4096 + v / 64 mod 64 * 64 + v mod 64) * K + be_value l * R) by ring.
      replace (v / 262144 * 262144 + v / 4096 mod 64 * 4096 + v / 64 mod 64 * 64 + v mod 64) with v by (clear - Hv; lia).
      rewrite <- I4. subst v. ring.
    + rewrite <- I4. ring.
Qed.
Lemma octets_sextets l : wf_bytes l -> octets (sextets l) = l.
Proof.
  intros Hw. destruct (sextets_ok l Hw) as (_ & H2 & H3 & _). unfold octets. rewrite H2, H3.
  rewrite N.div_mul by (apply N.pow_nonzero; lia). unfold be_bytes, len. rewrite Nat2N.id.
  rewrite be_value_rev, <- (rev_length l). rewrite le_bytes_le_value, rev_involutive; auto.
  unfold wf_bytes in *. apply Forall_rev. auto.
Qed.
Lemma encode_sextets l : wf_bytes l ->
  encode l = map char_of (sextets l) ++ repeat equals_sign (N.to_nat ((4 - len (sextets l) mod 4) mod 4)).
Proof.
  induction l as [|a|a b|a b c l IH] using list3_ind; intros Hw; try reflexivity.
  apply wf_bytes_cons in Hw. destruct Hw as [Ha Hw]. apply wf_bytes_cons in Hw. destruct Hw as [Hb Hw].
  apply wf_bytes_cons in Hw. destruct Hw as [Hc Hw]. specialize (IH Hw).
  cbn [encode sextets app map]. rewrite IH. rewrite !len_cons.
  replace ((len (sextets l) + 1 + 1 + 1 + 1) mod 4) with (len (sextets l) mod 4) by lia. reflexivity.
Qed.
Lemma encode_decodes l : wf_bytes l -> decodes_padded (encode l) l.
Proof.
  intros Hw. exists (sextets l), (repeat equals_sign (N.to_nat ((4 - len (sextets l) mod 4) mod 4))).
  split; [apply sextets_ok; auto|]. split; [apply encode_sextets; auto|]. split; [symmetry; apply octets_sextets; auto|].
  destruct (N.to_nat ((4 - len (sextets l) mod 4) mod 4)) as [|k]; [left; auto|]. right. exists (repeat equals_sign k).
  split; auto. exists []. rewrite app_nil_r. reflexivity.
Qed.
Lemma ws_app a1 a2 e : with_white_space (a1 ++ a2) e -> exists e1 e2, e = e1 ++ e2 /\ with_white_space a1 e1 /\ 
  (a2 = [] \/ exists c t1 t, a2 = c :: t1 /\ e2 = c :: t) /\ (a2 = [] -> e2 = []).
Proof.
  remember (a1 ++ a2) as a. intros H. revert a1 a2 Heqa.
  induction H as [|c a b H IH|c a b Hc H IH]; intros a1 a2 E.
  - destruct a1, a2; try discriminate. exists [], []. split; auto. split; [constructor|]. auto.
  - destruct a1 as [|x a1].
    + cbn [app] in E. subst a2. exists [], (c :: b). split; auto. split; [constructor|]. split; [|discriminate]. right. eauto.
    + cbn [app] in E. inversion E; subst. destruct (IH a1 a2 eq_refl) as (e1 & e2 & -> & H1 & H2).
      exists (x :: e1), e2. split; auto. split; [constructor; auto|auto].
  - destruct (IH a1 a2 E) as (e1 & e2 & -> & H1 & H2). exists (c :: e1), e2. split; auto. split; [constructor; auto|auto].
Qed.
Lemma encode_decodes_ws l e : wf_bytes l -> with_white_space (encode l) e -> decodes_ws e l.
Proof.
  intros Hw H. rewrite encode_sextets in H by auto. apply ws_app in H. destruct H as (e1 & e2 & -> & H1 & H2 & H3).
  exists (sextets l), e1, e2. split; [apply sextets_ok; auto|]. split; auto. split; auto.
  split; [symmetry; apply octets_sextets; auto|].
  destruct H2 as [H2|(c & t1 & t & H2 & ->)]; [left; auto|right].
  destruct (N.to_nat _); inversion H2. eauto.
Qed.
