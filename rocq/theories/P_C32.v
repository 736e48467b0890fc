(** * C32: NTFS fix-up values *)
From Verif Require Import Base BaseLemmas Bytes_model Ntfs_model Ntfs_spec Ntfs_proofs.

(** A record of any number of sectors with an update sequence array in its first sector:
    once protected, the fix-up gives back every byte of the record outside the array. *)
Theorem C32_restores_protected_records :
  forall record sectors offset p0 p1 buffer,
  1 <= sectors -> len record = 512 * sectors -> offset + 2 + 2 * sectors <= 510 ->
  len buffer = len record ->
  (forall i, i < len record -> nth (N.to_nat i) buffer 0 = protected record offset sectors p0 p1 i) ->
  exists restored, apply_fixup_values buffer offset (sectors + 1) = (restored, Ok tt) /\
    len restored = len record /\
    forall i, i < len record -> i < offset \/ offset + 2 + 2 * sectors <= i ->
      nth (N.to_nat i) restored 0 = nth (N.to_nat i) record 0.
Proof.
  intros record sectors offset p0 p1 buffer H1 Hr Ho Hb Hp. unfold apply_fixup_values.
  destruct (N.leb_spec (len buffer) offset); [lia|].
  destruct (N.ltb_spec (len buffer) (offset + (2 + (sectors + 1) * 2))); [lia|].
  rewrite slice_two by lia.
  assert (P0 : nth (N.to_nat offset) buffer 0 = p0).
  { rewrite Hp by lia. unfold protected. now rewrite N.eqb_refl. }
  assert (P1 : nth (N.to_nat (offset + 1)) buffer 0 = p1).
  { rewrite Hp by lia. unfold protected. destruct (N.eqb_spec (offset + 1) offset); [lia|]. now rewrite N.eqb_refl. }
  rewrite P0, P1.
  replace (N.to_nat (sectors + 1 - 1)) with (N.to_nat sectors) by lia.
  assert (PE : forall k x, k < sectors -> x < 2 ->
    nth (N.to_nat (512 * k + 510 + x)) buffer 0 = if x =? 0 then p0 else p1).
  { intros k x Hk Hx. rewrite Hp by lia. unfold protected.
    destruct (N.eqb_spec (512 * k + 510 + x) offset); [lia|].
    destruct (N.eqb_spec (512 * k + 510 + x) (offset + 1)); [lia|].
    replace ((offset + 2 <=? 512 * k + 510 + x) && (512 * k + 510 + x <? offset + 2 + 2 * sectors)) with false by lia.
    assert (E1 : (512 * k + 510 + x) / 512 = k) by (symmetry; apply N.div_unique with (510 + x); lia).
    assert (E2 : (512 * k + 510 + x) mod 512 = 510 + x) by (symmetry; apply N.mod_unique with k; lia).
    unfold sector_end. rewrite E1, E2. replace ((k <? sectors) && (510 <=? 510 + x)) with true by lia.
    clear - Hx. destruct (N.eqb_spec x 0) as [->|]; [reflexivity|].
    destruct (N.eqb_spec (510 + x) 510); [lia|reflexivity]. }
  destruct (fixup_loop_ok p0 p1 offset (N.to_nat sectors) 0 buffer) as (b & E & L & F1 & F2).
  - lia.
  - lia.
  - intros k [Hk _]. split.
    + rewrite <- (N.add_0_r (512 * k + 510)). rewrite PE by lia. reflexivity.
    + replace (512 * k + 511) with (512 * k + 510 + 1) by lia. rewrite PE by lia. reflexivity.
  - rewrite N.mul_0_r, !N.add_0_r in E. exists b. split; [exact E|]. split; [congruence|].
    intros i Hi Houtside.
    pose proof (N.div_mod i 512 ltac:(lia)) as Ei. pose proof (N.mod_lt i 512 ltac:(lia)) as Li.
    set (k := i / 512) in *. set (m := i mod 512) in *.
    destruct (N.leb_spec 510 m) as [Hm|Hm].
    + replace i with (512 * k + 510 + (m - 510)) at 1 by lia.
      assert (Hk : k < sectors) by (clear - Ei Hi Hr; lia).
      rewrite F1 by (try split; lia). rewrite Hp by lia. unfold protected.
      set (x := m - 510).
      assert (Hx : x < 2) by lia.
      destruct (N.eqb_spec (offset + 2 + 2 * k + x) offset); [lia|].
      destruct (N.eqb_spec (offset + 2 + 2 * k + x) (offset + 1)); [lia|].
      replace ((offset + 2 <=? offset + 2 + 2 * k + x) && (offset + 2 + 2 * k + x <? offset + 2 + 2 * sectors))
        with true by lia.
      replace (offset + 2 + 2 * k + x - offset - 2) with (2 * k + x) by lia.
      assert (E1 : (2 * k + x) / 2 = k) by (symmetry; apply N.div_unique with x; lia).
      assert (E2 : (2 * k + x) mod 2 = x) by (symmetry; apply N.mod_unique with k; lia).
      rewrite E1, E2. f_equal. f_equal. unfold x. lia.
    + rewrite F2 by lia. rewrite Hp by lia. unfold protected, sector_end. fold m.
      destruct (N.eqb_spec i offset); [lia|]. destruct (N.eqb_spec i (offset + 1)); [lia|].
      replace ((offset + 2 <=? i) && (i <? offset + 2 + 2 * sectors)) with false by lia.
      replace (510 <=? m) with false by lia. now rewrite andb_false_r.
Qed.
Print Assumptions C32_restores_protected_records.

(** A torn record: one sector ends with something else than the placeholder. *)
Theorem C32_torn_records_rejected :
  forall buffer offset sectors k,
  512 * sectors <= len buffer -> offset + 2 + 2 * sectors <= 510 -> k < sectors ->
  nth (N.to_nat (512 * k + 510)) buffer 0 <> nth (N.to_nat offset) buffer 0 \/
  nth (N.to_nat (512 * k + 511)) buffer 0 <> nth (N.to_nat (offset + 1)) buffer 0 ->
  snd (apply_fixup_values buffer offset (sectors + 1)) = Err.
Proof.
  intros buffer offset sectors k Hl Ho Hk Ht. unfold apply_fixup_values.
  destruct (N.leb_spec (len buffer) offset); [reflexivity|].
  destruct (N.ltb_spec (len buffer) (offset + (2 + (sectors + 1) * 2))); [reflexivity|].
  rewrite slice_two by lia. replace (N.to_nat (sectors + 1 - 1)) with (N.to_nat sectors) by lia.
  edestruct (fixup_loop_torn (nth (N.to_nat offset) buffer 0) (nth (N.to_nat (offset + 1)) buffer 0)
    offset (N.to_nat sectors) 0 buffer k) as (b & E); [lia|lia|split; lia|exact Ht|].
  rewrite N.mul_0_r, !N.add_0_r in E. rewrite E. reflexivity.
Qed.
Print Assumptions C32_torn_records_rejected.

(** Any buffer, offset and number: no panic, and the size of the buffer stays. *)
Theorem C32_no_panic :
  forall buffer offset number, len buffer < two64 ->
  snd (apply_fixup_values buffer offset number) <> Panic /\
  len (fst (apply_fixup_values buffer offset number)) = len buffer.
Proof.
  intros buffer offset number Hl. unfold apply_fixup_values.
  destruct (N.leb_spec (len buffer) offset); [split; [discriminate|reflexivity]|].
  destruct (N.ltb_spec (len buffer) (offset + (2 + number * 2))); [split; [discriminate|reflexivity]|].
  rewrite slice_two by lia. apply fixup_loop_no_panic; lia.
Qed.
Print Assumptions C32_no_panic.

(** A record of two sectors, its array at offset 48. *)
Example C32_case :
  let record := map (fun i => i mod 251) (seqN 0 1024) in
  let buffer := map (protected record 48 2 7 9) (seqN 0 1024) in
  len record = 512 * 2 /\
  forallb (fun i => nth (N.to_nat i) (fst (apply_fixup_values buffer 48 3)) 0 =? nth (N.to_nat i) record 0)
    [0; 47; 54; 509; 510; 511; 512; 1022; 1023] = true /\
  nth 510 buffer 0 = 7 /\ nth 1023 buffer 0 = 9.
Proof. vm_compute. auto. Qed.
