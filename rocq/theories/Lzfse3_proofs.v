From Verif Require Import Base BaseLemmas Bytes_model Lz_model Lz_spec Huffman_spec Bzip2_spec Bzip2_proofs Deflate_spec Deflate_proofs.
From Verif Require Import Lz_proofs Lzvn_proofs Lzfse_model Lzfse_spec Lzfse_proofs Lzfse2_proofs.
Ltac Zify.zify_post_hook ::= idtac.

(** ** The table of frequencies *)
Definition code_size (f : N) : N := len (frequency_bits f).
Definition code_value (f : N) : N := bits_value (frequency_bits f).
Lemma code_small f : f < 8 -> In (f, code_size f, code_value f)
  [(0, 2, 0); (1, 2, 2); (2, 3, 1); (3, 3, 5); (4, 5, 3); (5, 5, 11); (6, 5, 19); (7, 5, 27)].
Proof.
  intros H. assert (f = 0 \/ f = 1 \/ f = 2 \/ f = 3 \/ f = 4 \/ f = 5 \/ f = 6 \/ f = 7) as E by lia.
  destruct E as [-> | [-> | [-> | [-> | [-> | [-> | [-> | ->]]]]]]]; vm_compute; tauto.
Qed.
Lemma code_medium f : 8 <= f < 24 -> code_size f = 8 /\ code_value f = 7 + 16 * (f - 8).
Proof.
  intros H. unfold code_size, code_value, frequency_bits.
  destruct (N.ltb_spec f 2), (N.ltb_spec f 4), (N.ltb_spec f 8), (N.ltb_spec f 24); try lia.
  split; [reflexivity |]. cbn [app bits_value]. rewrite bits_value_lsb by (change (2 ^ N.of_nat 4) with 16; lia). cbn [N.b2n]. lia.
Qed.
Lemma code_large f : 24 <= f < 1048 -> code_size f = 14 /\ code_value f = 15 + 16 * (f - 24).
Proof.
  intros H. unfold code_size, code_value, frequency_bits.
  destruct (N.ltb_spec f 2), (N.ltb_spec f 4), (N.ltb_spec f 8), (N.ltb_spec f 24); try lia.
  split; [reflexivity |]. cbn [app bits_value]. rewrite bits_value_lsb by (change (2 ^ N.of_nat 10) with 1024; lia). cbn [N.b2n]. lia.
Qed.
Lemma code_size_range f : f < 1048 -> 2 <= code_size f <= 14.
Proof.
  intros H. destruct (N.lt_ge_cases f 8) as [H8 | H8].
  - pose proof (code_small f H8) as HI. cbn [In] in HI.
    repeat (destruct HI as [E | HI]; [injection E as E1 E2 E3; rewrite <- E2; lia |]). contradiction.
  - destruct (N.lt_ge_cases f 24); [destruct (code_medium f); lia | destruct (code_large f); lia].
Qed.

(** What the code makes of a value that starts with a code. *)
Definition decode_frequency (value : N) : res (N * N) :=
  let index := N.land value 0x1f in
  size <- idx frequency_sizes index ;;
  f <- (if size =? 8 then Ok (bit_field value 4 4 + 8)
        else if size =? 14 then Ok (bit_field value 4 10 + 24)
        else idx frequency_values index) ;;
  Ok (size, f).
Lemma land31 v : N.land v 31 = v mod 32.
Proof. change 31 with (N.ones 5). apply N.land_ones. Qed.
Lemma small_cases (v q : N) (P : N -> Prop) : 0 < q -> (forall r, r < q -> P r) -> P (v mod q).
Proof. intros H F. apply F, N.mod_lt. lia. Qed.
Lemma decode_frequency_ok f v : f < 1048 -> decode_frequency (code_value f + 2 ^ code_size f * v) = Ok (code_size f, f).
Proof.
  intros H. unfold decode_frequency. rewrite land31. destruct (N.lt_ge_cases f 8) as [H8 | H8].
  - pose proof (code_small f H8) as HI. cbn [In] in HI.
    assert (D : forall c s m, c < 2 ^ s -> 2 ^ s * m = 32 -> (c + 2 ^ s * v) mod 32 = c + 2 ^ s * (v mod m)).
    { intros c s m Hc Hm. pose proof (N.div_mod v m ltac:(intros ->; lia)) as E.
      pose proof (N.mod_lt v m ltac:(intros ->; lia)) as L. symmetry. apply N.mod_unique with (v / m); [nia |].
      rewrite E at 1. rewrite <- Hm. nia. }
    assert (G : forall c s m r, (c + 2 ^ s * v) mod 32 = c + 2 ^ s * (v mod m) -> 0 < m ->
      (forall k, k < m -> idx frequency_sizes (c + 2 ^ s * k) = Ok s /\ idx frequency_values (c + 2 ^ s * k) = Ok r) -> s =? 8 = false -> s =? 14 = false ->
      (size <- idx frequency_sizes ((c + 2 ^ s * v) mod 32);;
       f0 <- (if size =? 8 then Ok (bit_field (c + 2 ^ s * v) 4 4 + 8) else if size =? 14 then Ok (bit_field (c + 2 ^ s * v) 4 10 + 24)
              else idx frequency_values ((c + 2 ^ s * v) mod 32));; Ok (size, f0)) = Ok (s, r)).
    { intros c s m r E Hm F N8 N14. rewrite E. destruct (F (v mod m) ltac:(apply N.mod_lt; lia)) as [-> ->]. cbn [bind]. rewrite N8, N14. reflexivity. }
    repeat (destruct HI as [E | HI];
      [injection E as E1 E2 E3; rewrite <- E2, <- E3, <- E1;
       match goal with |- context [2 ^ ?s * v] =>
         let m := eval vm_compute in (32 / 2 ^ s) in
         apply (G _ s m); [apply D; reflexivity | reflexivity | | reflexivity | reflexivity] end;
       intros k Hk;
       assert (KK : k = 0 \/ k = 1 \/ k = 2 \/ k = 3 \/ k = 4 \/ k = 5 \/ k = 6 \/ k = 7) by lia;
       repeat (destruct KK as [-> | KK]; [try lia; split; reflexivity |]); subst k; try lia; split; reflexivity |]).
    contradiction.
  - destruct (N.lt_ge_cases f 24) as [H24 | H24].
    + destruct (code_medium f ltac:(lia)) as [-> ->]. set (u := f - 8).
      assert (E : (7 + 16 * u + 2 ^ 8 * v) mod 32 = 7 + 16 * (u mod 2)).
      { pose proof (N.div_mod u 2 ltac:(lia)) as D. pose proof (N.mod_lt u 2 ltac:(lia)). symmetry. apply N.mod_unique with (u / 2 + 8 * v); [lia |].
        change (2 ^ 8) with 256. lia. }
      rewrite E. assert (S8 : idx frequency_sizes (7 + 16 * (u mod 2)) = Ok 8).
      { pose proof (N.mod_lt u 2 ltac:(lia)). assert (u mod 2 = 0 \/ u mod 2 = 1) as [-> | ->] by lia; reflexivity. }
      rewrite S8. cbn [bind]. change (8 =? 8) with true. cbv iota. cbn [bind]. do 2 f_equal.
      unfold bit_field. rewrite N.land_ones, N.shiftr_div_pow2. change (2 ^ 4) with 16. change (2 ^ 8) with 256.
      replace ((7 + 16 * u + 256 * v) / 16) with (u + 16 * v) by (apply N.div_unique with 7; lia).
      replace ((u + 16 * v) mod 16) with u by (apply N.mod_unique with v; unfold u; lia). unfold u. lia.
    + destruct (code_large f ltac:(lia)) as [-> ->]. set (u := f - 24).
      assert (E : (15 + 16 * u + 2 ^ 14 * v) mod 32 = 15 + 16 * (u mod 2)).
      { pose proof (N.div_mod u 2 ltac:(lia)) as D. pose proof (N.mod_lt u 2 ltac:(lia)). symmetry. apply N.mod_unique with (u / 2 + 512 * v); [lia |].
        change (2 ^ 14) with 16384. lia. }
      rewrite E. assert (S8 : idx frequency_sizes (15 + 16 * (u mod 2)) = Ok 14).
      { pose proof (N.mod_lt u 2 ltac:(lia)). assert (u mod 2 = 0 \/ u mod 2 = 1) as [-> | ->] by lia; reflexivity. }
      rewrite S8. cbn [bind]. change (14 =? 8) with false. change (14 =? 14) with true. cbv iota. cbn [bind]. do 2 f_equal.
      unfold bit_field. rewrite N.land_ones, N.shiftr_div_pow2. change (2 ^ 4) with 16. change (2 ^ 14) with 16384. change (2 ^ 10) with 1024.
      replace ((15 + 16 * u + 16384 * v) / 16) with (u + 1024 * v) by (apply N.div_unique with 15; lia).
      replace ((u + 1024 * v) mod 1024) with u by (apply N.mod_unique with v; unfold u; lia). unfold u. lia.
Qed.

Lemma fill_ok c e bytes : wf_bytes c -> forall fuel o value count, Lz_proofs.At c e bytes ->
  o <= e -> value < 2 ^ count -> count <= 32 -> 32 < count + 8 * N.of_nat fuel ->
  exists rest o' value' count', skipn (N.to_nat o) c = rest ++ bytes /\ len rest = e - o' + (o' - o) /\
    fill_bits fuel c o e value count = Ok (o', value', count') /\ o <= o' <= e /\ count' <= 32 /\ value' < 2 ^ count' /\
    (o' = e \/ 25 <= count') /\ count' = count + 8 * (o' - o) /\
    value' + 2 ^ count' * le_value (skipn (N.to_nat (o' - o)) rest) = value + 2 ^ count * le_value rest.
Proof.
  intros Hwf. induction fuel as [| fuel IH]; intros o value count He Ho Hv Hc Hf; [lia |].
  pose proof He as [He1 He2].
  assert (ER : skipn (N.to_nat o) c = firstn (N.to_nat (e - o)) (skipn (N.to_nat o) c) ++ bytes).
  { rewrite <- (firstn_skipn (N.to_nat (e - o)) (skipn (N.to_nat o) c)) at 1. f_equal. rewrite skipn_skipn.
    replace (N.to_nat (e - o) + N.to_nat o)%nat with (N.to_nat e) by lia. exact He2. }
  set (rest := firstn (N.to_nat (e - o)) (skipn (N.to_nat o) c)) in *.
  assert (LR : len rest = e - o).
  { unfold rest, len in *. rewrite firstn_length, skipn_length. lia. }
  cbn [fill_bits]. destruct (N.leb_spec count 24) as [H24 | H24]; cbn [andb].
  2:{ exists rest, o, value, count. rewrite N.sub_diag. cbn [N.to_nat skipn]. repeat split; auto; lia. }
  destruct (N.ltb_spec o e) as [H | H].
  2:{ exists rest, o, value, count. rewrite N.sub_diag. cbn [N.to_nat skipn]. repeat split; auto; lia. }
  destruct rest as [| x rest']; [change (len (@nil N)) with 0 in LR; lia |].
  assert (Hat : Lz_proofs.At c o (x :: rest' ++ bytes)) by (split; [lia | exact ER]).
  apply at_cons in Hat as (E1 & [Hat1 Hat2] & _). rewrite E1. cbn [bind].
  assert (Hx : x < 256) by (eapply wf_idx; eauto).
  assert (P24 : 2 ^ count <= 2 ^ 24) by (apply N.pow_le_mono_r; lia).
  unfold shl_chk. destruct (N.ltb_spec count 32); [| lia].
  rewrite N.shiftl_mul_pow2, N.mod_small.
  2:{ change (2 ^ 32) with (256 * 2 ^ 24). pose proof (pow2_pos count). nia. }
  cbn [bind]. rewrite N.lor_comm, <- N.shiftl_mul_pow2, lor_add by exact Hv.
  assert (P8 : 2 ^ (count + 8) = 2 ^ count * 256) by (rewrite N.pow_add_r; reflexivity).
  destruct (IH (o + 1) (x * 2 ^ count + value) (count + 8) He ltac:(lia)) as (rest2 & o' & v' & c' & S2 & L2 & F2 & O2 & C2 & V2 & D2 & K2 & W2);
    [rewrite P8; nia | lia | lia |].
  rewrite Hat2 in S2. apply app_inv_tail in S2. subst rest2.
  exists (x :: rest'), o', v', c'. rewrite len_cons in *.
  repeat match goal with |- _ /\ _ => split end; auto; try lia.
  replace (N.to_nat (o' - o)) with (S (N.to_nat (o' - (o + 1)))) by lia. cbn [skipn]. rewrite W2, P8. cbn [le_value]. nia.
Qed.

Lemma le_value_nil_iff : le_value [] = 0. Proof. reflexivity. Qed.

Lemma read_frequencies_step n c o e v k : read_frequencies (S n) c o e v k =
  ('(offset, value, count) <- fill_bits 6 c o e v k ;;
   '(size, f) <- decode_frequency value ;;
   value <- shr_chk 32 value size ;;
   count <- sub_chk count size ;;
   '(offset, r) <- read_frequencies n c offset e value count ;;
   Ok (offset, f :: r)).
Proof.
  cbn [read_frequencies]. destruct (fill_bits 6 c o e v k) as [[[o1 v1] c1] | |]; cbn [bind]; [| reflexivity ..].
  unfold decode_frequency. destruct (idx frequency_sizes (N.land v1 31)) as [s | |]; cbn [bind]; [| reflexivity ..].
  match goal with |- context [bind ?m _] => destruct m as [f | |] end; cbn [bind]; reflexivity.
Qed.

Lemma read_frequencies_ok c e bytes : wf_bytes c -> Lz_proofs.At c e bytes -> forall fs o value count rest R,
  Forall (fun f => f < 1048) fs -> skipn (N.to_nat o) c = rest ++ bytes -> len rest = e - o -> o <= e ->
  value < 2 ^ count -> count <= 32 ->
  value + 2 ^ count * le_value rest = bits_value (flat_map frequency_bits fs ++ R) ->
  count + 8 * len rest = len (flat_map frequency_bits fs ++ R) -> len R < 8 -> (fs = [] -> o = e) ->
  read_frequencies (length fs) c o e value count = Ok (e, fs).
Proof.
  intros Hwf Hat. induction fs as [| f fs IH]; intros o value count rest R HF HS HL Ho Hv Hc HV HN HR HE.
  - cbn [read_frequencies length]. rewrite HE by reflexivity. reflexivity.
  - apply Forall_cons_iff in HF as [Hf HF]. cbn [length flat_map] in *. rewrite <- app_assoc in HV, HN.
    rewrite read_frequencies_step.
    destruct (fill_ok c e bytes Hwf 6 o value count Hat Ho Hv Hc ltac:(lia)) as (rest0 & o' & v' & c' & S0 & L0 & -> & O' & C' & V' & D' & K' & W').
    rewrite HS in S0. apply app_inv_tail in S0. subst rest0. cbn [bind].
    set (rest' := skipn (N.to_nat (o' - o)) rest) in *.
    assert (LR' : len rest' = e - o') by (unfold rest'; rewrite len_skipn; lia).
    assert (HN' : c' + 8 * len rest' = len (frequency_bits f ++ flat_map frequency_bits fs ++ R)) by (rewrite <- HN, LR'; lia).
    rewrite len_app in HN'. fold (code_size f) in HN'. pose proof (code_size_range f Hf) as RS.
    assert (Hsz : code_size f <= c').
    { destruct D' as [D' | D']; [| lia]. rewrite LR', D', N.sub_diag in HN'. lia. }
    rewrite HV in W'. rewrite bits_value_app in W'. fold (code_value f) (code_size f) in W'.
    set (s := code_size f) in *. set (B := bits_value (flat_map frequency_bits fs ++ R)) in *.
    assert (CV : code_value f < 2 ^ s) by (unfold s, code_size, code_value; apply bits_value_bound).
    assert (Pc : 2 ^ c' = 2 ^ s * 2 ^ (c' - s)) by (rewrite <- N.pow_add_r; f_equal; lia).
    pose proof (pow2_pos s) as Ps.
    assert (EV : v' = code_value f + 2 ^ s * (v' / 2 ^ s)).
    { pose proof (N.div_mod v' (2 ^ s) ltac:(lia)) as DM. rewrite DM at 1. rewrite N.add_comm. f_equal.
      assert (E1 : (v' + 2 ^ c' * le_value rest') mod 2 ^ s = v' mod 2 ^ s).
      { rewrite Pc, <- N.mul_assoc, (N.mul_comm (2 ^ s)). apply N.mod_add. lia. }
      rewrite <- E1, W', (N.mul_comm (2 ^ s)), N.mod_add by lia. apply N.mod_small. exact CV. }
    assert (ED : decode_frequency v' = Ok (s, f)) by (rewrite EV; apply decode_frequency_ok; exact Hf).
    rewrite ED. cbn [bind]. unfold shr_chk. destruct (N.ltb_spec s 32); [| lia]. cbn [bind].
    unfold sub_chk. destruct (N.leb_spec s c'); [| lia]. cbn [bind]. rewrite N.shiftr_div_pow2.
    rewrite (IH o' (v' / 2 ^ s) (c' - s) rest' R); auto; try lia.
    + unfold rest'. rewrite <- (firstn_skipn (N.to_nat (o' - o)) rest) in HS.
      assert (skipn (N.to_nat o') c = skipn (N.to_nat (o' - o)) (skipn (N.to_nat o) c)) as -> by (rewrite skipn_skipn; f_equal; lia).
      rewrite HS, <- app_assoc, skipn_app, skipn_all2 by (rewrite firstn_length; unfold len in *; lia).
      rewrite firstn_length. replace (N.to_nat (o' - o) - Nat.min (N.to_nat (o' - o)) (length rest))%nat with O by (unfold len in *; lia). reflexivity.
    + apply N.div_lt_upper_bound; [lia |]. rewrite <- Pc. exact V'.
    + fold B. rewrite EV in W'. rewrite Pc in W'. clear - W' Ps. nia.
    + intros ->. cbn [flat_map app] in *. destruct D' as [D' | D']; [exact D' |]. lia.
Qed.
