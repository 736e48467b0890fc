From Verif Require Import Base BaseLemmas Lz_model Lz_spec Lz_proofs.
From Verif Require Import Huffman_model Huffman_spec Huffman_proofs Bzip2_proofs Bytes_model.
From Verif Require Import Lzx_model Lzx_spec Lzx_proofs Lzx2_proofs.
Ltac Zify.zify_post_hook ::= idtac.

(** ** Call instructions *)
Lemma target_range p t : (0 <= p < 2 ^ 31 -> -2 ^ 31 <= t < 2 ^ 31 ->
  let a := absolute_target p t in
  -2 ^ 31 <= a < 2 ^ 31 /\
  ((- p <= a < file_size /\ 0 <= a /\ a - p = t) \/ (- p <= a < file_size /\ a < 0 /\ a + file_size = t) \/
   (~ (- p <= a < file_size) /\ a = t)))%Z.
Proof.
  intros Hp Ht. unfold absolute_target, file_size.
  destruct (Z.leb_spec (- p) t), (Z.ltb_spec t 12000000); cbn [andb]; try lia.
  destruct (Z.ltb_spec (t + p) 12000000); lia.
Qed.
Lemma signed32_mod v : v < 2 ^ 32 -> (-2 ^ 31 <= signed32 v < 2 ^ 31)%Z /\ (Z.to_N (signed32 v mod 2 ^ 32) = v).
Proof.
  intros H. unfold signed32. destruct (N.ltb_spec v (2 ^ 31)).
  - split; [lia |]. rewrite Z.mod_small by lia. lia.
  - split; [lia |]. rewrite <- (Z.mod_add _ 1) by lia. rewrite Z.mod_small by lia. lia.
Qed.
Lemma to_signed_mod a : (-2 ^ 31 <= a < 2 ^ 31 -> to_signed 4 (Z.to_N (a mod 2 ^ 32)) = a)%Z.
Proof.
  intros H. unfold to_signed. change (2 ^ (8 * 4 - 1)) with 2147483648. change (2 ^ (8 * Z.of_N 4))%Z with 4294967296%Z.
  destruct (Z.ltb_spec a 0).
  - rewrite <- (Z.mod_add _ 1) by lia. rewrite Z.mod_small by lia.
    destruct (N.ltb_spec (Z.to_N (a + 1 * 2 ^ 32)) 2147483648); lia.
  - rewrite Z.mod_small by lia. destruct (N.ltb_spec (Z.to_N a) 2147483648); lia.
Qed.
Lemma mod32_small a : Z.to_N (a mod 2 ^ 32) < 256 ^ N.of_nat 4.
Proof. pose proof (Z.mod_pos_bound a (2 ^ 32) ltac:(lia)). change (256 ^ N.of_nat 4) with 4294967296. lia. Qed.

Lemma absolute_step size p b b0 b1 b2 b3 r :
  absolute_calls size p (b :: b0 :: b1 :: b2 :: b3 :: r) =
  if (b =? 0xe8) && (p + 6 <? size) then
    b :: le_bytes 4 (Z.to_N (absolute_target (Z.of_N p) (signed32 (le_value [b0; b1; b2; b3])) mod 2 ^ 32)) ++
      absolute_calls size (p + 5) r
  else b :: absolute_calls size (p + 1) (b0 :: b1 :: b2 :: b3 :: r).
Proof. reflexivity. Qed.
Lemma absolute_end size : forall l p, size <= p + 6 -> absolute_calls size p l = l.
Proof.
  induction l as [| b l IH]; intros p H; [reflexivity |].
  cbn [absolute_calls]. destruct l as [| b0 [| b1 [| b2 [| b3 r]]]]; try reflexivity.
  destruct (N.ltb_spec (p + 6) size); [lia |]. rewrite andb_false_r. f_equal. apply IH. lia.
Qed.
Lemma absolute_length size : forall n l p, (length l <= n)%nat -> length (absolute_calls size p l) = length l.
Proof.
  induction n as [| n IH]; intros [| b l] p H; try reflexivity; [cbn [length] in H; lia |].
  cbn [absolute_calls]. destruct l as [| b0 [| b1 [| b2 [| b3 r]]]]; try reflexivity. cbn [length] in H.
  destruct ((b =? 232) && (p + 6 <? size)).
  - cbn [length]. rewrite app_length, le_bytes_length, IH by lia. lia.
  - cbn [length]. rewrite IH by (cbn [length]; lia). reflexivity.
Qed.

Lemma adjust_rt size rest : size < 2 ^ 31 -> 6 <= size -> forall n l pre fuel, (length l <= n)%nat -> (n < fuel)%nat ->
  wf_bytes l -> len pre + len l = size ->
  adjust_loop fuel (pre ++ absolute_calls size (len pre) l ++ rest) size (len pre) = Ok (pre ++ l ++ rest).
Proof.
  intros Hs H6. induction n as [| n IH]; intros l pre fuel Hn Hf Hw Hlen.
  - destruct l; [| cbn [length] in Hn; lia]. destruct fuel; [lia |]. cbn [adjust_loop absolute_calls app].
    unfold sub_chk. destruct (N.leb_spec 6 size); [| lia]. cbn [bind].
    change (len (@nil N)) with 0 in Hlen. destruct (N.ltb_spec (len pre) (size - 6)); [lia | reflexivity].
  - destruct fuel as [| fuel]; [lia |]. cbn [adjust_loop].
    unfold sub_chk. destruct (N.leb_spec 6 size); [| lia]. cbn [bind].
    destruct (N.ltb_spec (len pre) (size - 6)) as [Hp | Hp].
    2:{ rewrite absolute_end by lia. reflexivity. }
    destruct l as [| b [| b0 [| b1 [| b2 [| b3 r]]]]]; try (unfold len in *; cbn [length] in *; lia).
    rewrite absolute_step. destruct (N.ltb_spec (len pre + 6) size); [| lia]. rewrite andb_true_r.
    apply wf_bytes_cons in Hw as [Hb Hw].
    destruct (N.eqb_spec b 232) as [-> | Hne].
    + set (bs := [b0; b1; b2; b3]) in *. set (t := signed32 (le_value bs)). set (p := Z.of_N (len pre)).
      assert (Hbs : wf_bytes bs).
      { unfold bs. change (b0 :: b1 :: b2 :: b3 :: r) with ([b0; b1; b2; b3] ++ r) in Hw. apply wf_bytes_app in Hw. tauto. }
      assert (Hr : wf_bytes r).
      { change (b0 :: b1 :: b2 :: b3 :: r) with ([b0; b1; b2; b3] ++ r) in Hw. apply wf_bytes_app in Hw. tauto. }
      assert (Hlv : le_value bs < 2 ^ 32) by (pose proof (le_value_bound bs Hbs) as B; exact B).
      destruct (signed32_mod _ Hlv) as [Ht Hback]. fold t in Ht, Hback.
      destruct (target_range p t ltac:(subst p; lia) Ht) as [Ha Hcases]. set (a := absolute_target p t) in *.
      set (enc := le_bytes 4 (Z.to_N (a mod 2 ^ 32))).
      set (tl_ := absolute_calls size (len pre + 5) r).
      cbn [app]. rewrite idx_app_l. cbn [bind]. change (232 =? 232) with true. cbn [negb].
      set (pre1 := pre ++ [232]). replace (len pre + 1) with (len pre1) by (subst pre1; rewrite len_app; reflexivity).
      replace (pre ++ 232 :: (enc ++ tl_) ++ rest) with (pre1 ++ enc ++ tl_ ++ rest)
        by (subst pre1; rewrite <- !app_assoc; reflexivity).
      assert (Lenc : length enc = 4%nat) by apply le_bytes_length.
      unfold u32_le_at. 
      destruct (slice_prefix (pre1 ++ enc ++ tl_ ++ rest) (len pre1) enc (tl_ ++ rest)) as (_ & Sl & _).
      { unfold len. rewrite Nat2N.id, skipn_app, skipn_all, Nat.sub_diag. reflexivity. }
      { rewrite len_app. lia. }
      replace (len enc) with 4 in Sl by (unfold len; rewrite Lenc; reflexivity).
      rewrite Sl. cbn [bind]. 
      assert (Hsig : to_signed 4 (le_value enc) = a)
        by (unfold enc; rewrite le_value_le_bytes, N.mod_small by apply mod32_small; apply to_signed_mod; exact Ha).
      rewrite !Hsig. unfold i32_chk at 1.
      fold p. destruct (Z.leb_spec (-2 ^ 31) (- p)); [| subst p; lia]. destruct (Z.ltb_spec (- p) (2 ^ 31)); [| subst p; lia].
      cbn [andb bind].
      assert (Done : forall buf, buf = pre1 ++ bs ++ tl_ ++ rest -> adjust_loop fuel buf size (len pre1 + 4) = Ok (pre ++ (232 :: bs ++ r) ++ rest)).
      { intros buf ->. set (pre2 := pre1 ++ bs).
        assert (L2 : len pre2 = len pre + 5) by (subst pre2 pre1; rewrite !len_app; subst bs; unfold len; cbn [length]; lia).
        replace (len pre1 + 4) with (len pre2) by (subst pre2; rewrite len_app; reflexivity).
        replace (pre1 ++ bs ++ tl_ ++ rest) with (pre2 ++ absolute_calls size (len pre2) r ++ rest)
          by (rewrite L2; subst pre2; rewrite <- !app_assoc; reflexivity).
        rewrite (IH r pre2 fuel); auto.
        - subst pre2 pre1. rewrite <- !app_assoc. reflexivity.
        - cbn [length] in Hn. lia.
        - lia.
        - rewrite L2, <- Hlen, !len_cons. lia. }
      destruct (Z.leb_spec (- p) a) as [A1 | A1], (Z.ltb_spec a 12000000) as [A2 | A2]; cbn [andb];
        try (cbn [bind]; apply Done; f_equal; f_equal; unfold enc; unfold file_size in Hcases;
             replace a with t by lia; rewrite Hback; apply (le_bytes_le_value bs Hbs)).
      assert (Hrel : (if 0 <=? a then a - p else a + 12000000)%Z = t).
      { unfold file_size in Hcases. destruct (Z.leb_spec 0 a); lia. }
      rewrite Hrel. unfold i32_chk. destruct (Z.leb_spec (-2 ^ 31) t); [| lia]. destruct (Z.ltb_spec t (2 ^ 31)); [| lia].
      cbn [andb bind]. rewrite Hback. change 4%nat with (length bs). rewrite (le_bytes_le_value bs Hbs).
      rewrite write_end by (rewrite len_app; unfold len; rewrite Lenc; subst bs; cbn [length]; lia).
      cbn [bind]. apply Done. reflexivity.
    + cbn [app]. rewrite idx_app_l. cbn [bind]. destruct (N.eqb_spec b 232); [contradiction |]. cbn [negb].
      set (m := b0 :: b1 :: b2 :: b3 :: r) in *. set (pre1 := pre ++ [b]).
      assert (L1 : len pre1 = len pre + 1) by (subst pre1; rewrite len_app; reflexivity).
      rewrite <- L1. replace (pre ++ b :: absolute_calls size (len pre1) m ++ rest) with (pre1 ++ absolute_calls size (len pre1) m ++ rest)
        by (subst pre1; rewrite <- app_assoc; reflexivity).
      rewrite (IH m pre1 fuel); auto.
      * subst pre1. rewrite <- app_assoc. reflexivity.
      * cbn [length] in Hn. lia.
      * lia.
      * rewrite L1, <- Hlen. rewrite (len_cons b m). lia.
Qed.
