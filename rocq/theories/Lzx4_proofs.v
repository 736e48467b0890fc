From Verif Require Import Base BaseLemmas Lz_model Lz_spec Lz_proofs Lzvn_proofs.
From Verif Require Import Huffman_model Huffman_spec Huffman_proofs Bzip2_proofs Bytes_model.
From Verif Require Import P_C09 Lzx_model Lzx_spec Lzx_proofs Lzx2_proofs Lzx3_proofs.
Ltac Zify.zify_post_hook ::= idtac.

(** ** Any stream *)
(** At the end of the data, with only zeros after [m] bits. *)
Definition few (data : list N) (m : nat) (s : lzx_stream) : Prop :=
  len data < x_offset s + 2 /\ Forall (fun b => b = false) (skipn m (left_bits data s)).
Definition G (data : list N) (o : N) (zero : bool) (m : nat) (s : lzx_stream) : Prop :=
  inv data s /\ o <= x_offset s /\ (zero = true -> few data m s).

Lemma zeros_bits n : forall v, v < 2 ^ N.of_nat n -> Forall (fun b => b = false) (bits_msb n v) -> v = 0.
Proof.
  intros v Hv F. assert (E : bits_msb n v = bits_msb n 0).
  { assert (Z0 : forall n, Forall (fun b => b = false) (bits_msb n 0)).
    { intros m. apply Forall_forall. intros b Hb. unfold bits_msb in Hb. induction m; [destruct Hb |].
      cbn [bits_msb] in *. destruct Hb as [Hb | Hb]; [subst; apply N.bits_0 |]. auto. }
    assert (Q : forall a b : list bool, length a = length b -> Forall (fun b => b = false) a -> Forall (fun b => b = false) b -> a = b).
    { induction a as [| x a IH]; intros [| y b] L Fa Fb; try discriminate L; [reflexivity |].
      inversion Fa; inversion Fb; subst. f_equal. apply IH; auto. }
    apply Q; auto. now rewrite !bits_msb_length. }
  apply bits_msb_inj in E; auto. destruct n; cbn; lia.
Qed.

Lemma G_get data o z m n s : wf_bytes data -> n <= 16 -> G data o z m s ->
  exists v s', x_get_value data n s = Ok (v, s') /\ v < 2 ^ n /\ (z = true -> m = O -> v = 0) /\
    G data o z (m - N.to_nat n) s' /\ x_offset s <= x_offset s' /\
    (x_offset s' + 2 <= len data -> (place s' = place s + Z.of_N n)%Z).
Proof.
  intros Hwf Hn (Hi & Ho & Hz).
  destruct (get_ok data n s Hwf Hi Hn) as (v & s' & k & E & I' & V & L & K0 & Off & K1 & Pl & _).
  exists v, s'. split; [exact E |]. split; [exact V |].
  assert (HZ : forall j, (m <= j)%nat -> z = true -> Forall (fun b => b = false) (skipn j (bits_msb (N.to_nat n) v ++ left_bits data s'))).
  { intros j Hj Ez. destruct (Hz Ez) as [_ F]. rewrite <- L, skipn_app. apply Forall_app. split.
    - replace j with ((j - m) + m)%nat by lia. rewrite <- skipn_skipn. apply Forall_skip, F.
    - apply Forall_skip. apply Forall_forall. intros b Hb. now apply repeat_spec in Hb. }
  split; [| split; [| split]].
  - intros Ez ->. specialize (HZ O ltac:(lia) Ez). cbn [skipn] in HZ. apply Forall_app in HZ as [HZ _].
    eapply zeros_bits; [| exact HZ]. rewrite N2Nat.id. exact V.
  - split; [exact I' |]. split; [lia |]. intros Ez. split; [destruct (Hz Ez); lia |].
    specialize (HZ (Nat.max m (N.to_nat n)) ltac:(lia) Ez). rewrite skipn_app, bits_msb_length in HZ.
    apply Forall_app in HZ as [_ HZ]. replace (m - N.to_nat n)%nat with (Nat.max m (N.to_nat n) - N.to_nat n)%nat by lia. exact HZ.
  - exact Off.
  - intros H. apply Pl, K1, H.
Qed.
Lemma G_endless data o z : wf_bytes data -> endless (x_get_value data 1) (G data o z O).
Proof.
  intros Hwf s Hs. destruct (G_get data o z O 1 s Hwf ltac:(lia) Hs) as (v & s' & E & V & _ & G' & _).
  exists (v =? 1), s'. split; [| exact G']. rewrite E. change (2 ^ 1) with 2 in V. do 2 f_equal.
  destruct (N.eqb_spec v 1); cbn [N.b2n]; lia.
Qed.
Lemma G_symbol data o z cs largest t s : wf_bytes data -> tree_for cs largest t -> G data o z O s ->
  decode_symbol (x_get_value data 1) t s = Err \/
  exists sym s', decode_symbol (x_get_value data 1) t s = Ok (sym, s') /\ sym < len cs /\ G data o z O s'.
Proof.
  intros Hwf Ht Hs.
  destruct (decode_symbol_sound _ _ _ _ _ s (G_endless data o z Hwf) Ht Hs) as [E | (sym & s' & E & [C _] & _ & G')]; [now left |].
  right. exists sym, s'. auto.
Qed.
Lemma build_any n largest cs : 1 <= largest -> len cs <= n ->
  huffman_build (huffman_new n largest) cs = Err \/
  exists t, huffman_build (huffman_new n largest) cs = Ok t /\ tree_for cs largest t.
Proof.
  intros H1 H2. pose proof (C09_build_no_panic n largest cs H1 H2) as P.
  destruct (huffman_build (huffman_new n largest) cs) as [t | |] eqn:E; [right | now left | congruence].
  exists t. split; [reflexivity |]. now apply (build_new n largest cs t) in E.
Qed.

Lemma values_G data bits : wf_bytes data -> bits <= 16 -> forall n s o z m, G data o z m s ->
  exists l s', read_values n data bits s = Ok (l, s') /\ length l = n /\ G data o z (m - n * N.to_nat bits) s' /\
    (z = true -> m = O -> Forall (fun v => v = 0) l) /\
    x_offset s <= x_offset s' /\
    (x_offset s' + 2 <= len data -> (place s' = place s + Z.of_nat n * Z.of_N bits)%Z).
Proof.
  intros Hwf Hb. induction n as [| n IH]; intros s o z m Hs.
  - exists [], s. cbn [read_values length]. rewrite Nat.mul_0_l, Nat.sub_0_r.
    repeat match goal with |- _ /\ _ => split end; auto; try lia.
  - cbn [read_values].
    destruct (G_get data o z m bits s Hwf Hb Hs) as (v & s1 & E & V & Vz & G1 & Off & Pl). rewrite E. cbn [bind].
    destruct (IH s1 o z _ G1) as (l & s2 & E2 & L2 & G2 & Z2 & O2 & P2). rewrite E2. cbn [bind].
    exists (v :: l), s2. split; [reflexivity |]. split; [cbn [length]; lia |].
    split; [replace (m - S n * N.to_nat bits)%nat with (m - N.to_nat bits - n * N.to_nat bits)%nat by lia; exact G2 |].
    split; [intros Ez ->; constructor; auto |]. split; [lia |].
    intros H. rewrite P2 by exact H. rewrite Pl by lia. lia.
Qed.

Lemma repeat_size_any v : forall n l i, i + N.of_nat n <= len l ->
  exists l', repeat_size n l i v = Ok l' /\ length l' = length l.
Proof.
  induction n as [| n IH]; intros l i H; [exists l; auto |].
  cbn [repeat_size]. unfold upd. destruct (N.ltb_spec i (len l)); [| lia]. cbn [bind].
  destruct (IH (set_nth l (N.to_nat i) v) (i + 1)) as (l' & E & L).
  { unfold len. rewrite set_nth_length. unfold len in *. lia. }
  exists l'. split; [exact E |]. rewrite L. apply set_nth_length.
Qed.
Lemma decode_sizes_any data o z pre tree number : wf_bytes data -> tree_for pre 15 tree ->
  forall fuel l i s, len l = number -> G data o z O s -> (N.to_nat (number - i) < fuel)%nat ->
  decode_sizes fuel data tree number l i s = Err \/
  exists l' s', decode_sizes fuel data tree number l i s = Ok (l', s') /\ len l' = number /\ G data o z O s'.
Proof.
  intros Hwf Ht. induction fuel as [| fuel IH]; intros l i s Hl Hs Hf; [lia |].
  cbn [decode_sizes]. destruct (N.ltb_spec i number) as [Hi | Hi]; [| right; eauto].
  destruct (G_symbol _ _ _ _ _ _ _ Hwf Ht Hs) as [E | (sym & s1 & E & _ & G1)]; rewrite E; cbn [bind]; [now left |].
  destruct (N.ltb_spec sym 17).
  - rewrite (idx_ok l i 0) by lia. cbn [bind]. unfold upd. destruct (N.ltb_spec i (len l)); [| lia]. cbn [bind].
    apply IH; [unfold len; rewrite set_nth_length; exact Hl | exact G1 | lia].
  - match goal with |- context [bind ?m _] => assert (Ht1 : m = Err \/ exists times s2, m = Ok (times, s2) /\ 4 <= times /\ G data o z O s2) end.
    { assert (Q : forall n c, n <= 16 -> 4 <= c -> exists times s2, ('(v, s0) <- x_get_value data n s1 ;; Ok (v + c, s0)) = Ok (times, s2) /\ 4 <= times /\ G data o z O s2).
      { intros n c Hn Hc. destruct (G_get data o z O n s1 Hwf Hn G1) as (v & s2 & E2 & _ & _ & G2 & _). rewrite E2. cbn [bind].
        exists (v + c), s2. split; [reflexivity |]. split; [lia | exact G2]. }
      destruct (sym =? 17); [right; apply Q; lia |]. destruct (sym =? 18); [right; apply Q; lia |].
      destruct (sym =? 19); [right; apply Q; lia | now left]. }
    destruct Ht1 as [-> | (times & s2 & -> & H4 & G2)]; cbn [bind]; [now left |].
    match goal with |- context [bind ?m _] => assert (Ht2 : m = Err \/ exists v s3, m = Ok (v, s3) /\ G data o z O s3) end.
    { destruct (negb (sym =? 19)); [right; eauto |].
      destruct (G_symbol _ _ _ _ _ _ _ Hwf Ht G2) as [E3 | (sym3 & s3 & E3 & _ & G3)]; rewrite E3; cbn [bind]; [now left |].
      destruct (sym3 <=? 17); cbn [check bind]; [| now left]. rewrite (idx_ok l i 0) by lia. cbn [bind]. right. eauto. }
    destruct Ht2 as [-> | (v & s3 & -> & G3)]; cbn [bind]; [now left |].
    unfold sub_chk. destruct (N.leb_spec i number); [| lia]. cbn [bind].
    set (t := if number - i <? times then number - i else times).
    assert (Hts : 1 <= t /\ i + t <= number) by (unfold t; destruct (N.ltb_spec (number - i) times); lia).
    destruct (repeat_size_any v (N.to_nat t) l i) as (l' & E' & L'); [lia |]. rewrite E'. cbn [bind].
    apply IH; [unfold len; rewrite L'; exact Hl | exact G3 | lia].
Qed.

Lemma build_zeros l : length l = 20%nat -> Forall (fun v => v = 0) l -> huffman_build (huffman_new 20 15) l = Err.
Proof.
  intros L F. replace l with (repeat 0 20); [reflexivity |]. rewrite <- L.
  clear L. induction F as [| x l -> F IH]; [reflexivity |]. cbn [length repeat]. now rewrite IH.
Qed.
Lemma code_sizes_any data o z m l number s : wf_bytes data -> (m <= 80)%nat -> len l = number -> G data o z m s ->
  lzx_code_sizes data l number s = Err \/
  exists l' s', lzx_code_sizes data l number s = Ok (l', s') /\ len l' = number /\ G data o z O s' /\
    (z = true -> m <> O) /\ (x_offset s + 2 <= len data -> x_offset s < x_offset s').
Proof.
  intros Hwf Hm Hl Hs. unfold lzx_code_sizes.
  destruct (values_G data 4 Hwf ltac:(lia) 20 s o z m Hs) as (p & s1 & E1 & L1 & G1 & Z1 & O1 & P1). rewrite E1. cbn [bind].
  replace (m - 20 * N.to_nat 4)%nat with O in G1 by lia.
  destruct (build_any 20 15 p) as [E | (t & E & T)]; [lia | unfold len; lia | |]; rewrite E; cbn [bind]; [now left |].
  assert (Hgo : G data (x_offset s1) z O s1) by (split; [apply G1 | split; [lia | apply G1]]).
  destruct (decode_sizes_any data _ z p t number Hwf T (S (N.to_nat number)) l 0 s1 Hl Hgo ltac:(lia)) as [E2 | (l' & s2 & E2 & L2 & G2)]; [now left |].
  right. exists l', s2. split; [exact E2 |]. split; [exact L2 |]. pose proof G2 as (I2 & O2 & Z2).
  split; [split; [exact I2 | split; [destruct G1 as (_ & ? & _); lia | exact Z2]] |]. split.
  - intros Ez ->. rewrite (build_zeros p L1 (Z1 Ez eq_refl)) in E. discriminate E.
  - intros Hd. destruct (N.lt_ge_cases (x_offset s) (x_offset s2)); [assumption |]. exfalso.
    assert (Eo : x_offset s1 = x_offset s) by lia. rewrite Eo in P1. specialize (P1 Hd). unfold place in P1. rewrite Eo in P1.
    destruct Hs as ((_ & Hc & _) & _). lia.
Qed.

(** ** Distances *)
Definition recents_ok (l : list N) : Prop := exists a b c, l = [a; b; c] /\ 1 <= a /\ 1 <= b /\ 1 <= c.
Definition aligned_any (t : option huffman_tree) : Prop :=
  match t with Some t => exists cs, len cs = 8 /\ tree_for cs 16 t | None => True end.
Lemma distance_any data o z at_ slot l s : wf_bytes data -> aligned_any at_ -> slot < 30 -> recents_ok l -> G data o z O s ->
  lzx_distance data at_ slot l s = Err \/
  exists d l' s', lzx_distance data at_ slot l s = Ok (d, l', s') /\ 1 <= d /\ recents_ok l' /\ G data o z O s'.
Proof.
  intros Hwf Ha Hslot (a & b & c & -> & H1 & H2 & H3) Hs. unfold lzx_distance. destruct (N.ltb_spec slot 3).
  - right. assert (C : slot = 0 \/ slot = 1 \/ slot = 2) by lia.
    destruct C as [-> | [-> | ->]]; (eexists _, _, _; split; [reflexivity |]; split; [assumption |]; split; [| exact Hs];
      eexists _, _, _; split; [reflexivity |]; auto).
  - destruct (slot_tables slot ltac:(lia)) as (T1 & T2 & T3 & T4 & T5). rewrite T1, T2, T5. cbn [bind].
    assert (Main : forall v s1, v < 65536 -> G data o z O s1 ->
      (base <- Ok (Z.of_N (slot_base slot)) ;;
       let sum := (to_signed 4 v + base)%Z in
       assert ((-2 ^ 31 <=? sum) && (sum <? 2 ^ 31))%Z ;;;
       let distance := Z.to_N (sum mod 2 ^ 32) in
       second <- idx [a; b; c] 1 ;;
       recent <- upd [a; b; c] 2 second ;;
       first <- idx recent 0 ;;
       recent <- upd recent 1 first ;;
       recent <- upd recent 0 distance ;;
       Ok (distance, recent, s1)) = Ok (v + slot_base slot, [v + slot_base slot; a; b], s1)).
    { intros v s1 Hv _. cbn [bind]. cbv zeta.
      unfold to_signed. change (2 ^ (8 * 4 - 1)) with 2147483648. destruct (N.ltb_spec v 2147483648); [| lia].
      rewrite <- N2Z.inj_add.
      change (- 2 ^ 31)%Z with (-2147483648)%Z. change (2 ^ 31)%Z with 2147483648%Z. change (2 ^ 32)%Z with 4294967296%Z.
      destruct (Z.leb_spec (-2147483648) (Z.of_N (v + slot_base slot))); [| lia].
      destruct (Z.ltb_spec (Z.of_N (v + slot_base slot)) 2147483648); [| lia]. cbn [andb assert bind].
      rewrite Z.mod_small by lia. rewrite N2Z.id. reflexivity. }
    assert (Fin : forall v s1, v < 65536 -> G data o z O s1 -> exists d l' s',
      Ok (v + slot_base slot, [v + slot_base slot; a; b], s1) = Ok (d, l', s') /\ 1 <= d /\ recents_ok l' /\ G data o z O s').
    { intros v s1 _ G1. eexists _, _, _. split; [reflexivity |]. split; [lia |]. split; [| exact G1].
      eexists _, _, _. split; [reflexivity |]. repeat split; auto; lia. }
    assert (Small : forall k v, k <= 13 -> v < 2 ^ k -> v < 8192).
    { intros k v Hk Hv. eapply N.lt_le_trans; [exact Hv |]. change 8192 with (2 ^ 13). apply N.pow_le_mono_r; lia. }
    destruct at_ as [at_ |].
    + destruct Ha as (cs & L8 & Ta). destruct (N.leb_spec 3 (slot_extra slot)) as [H8 | H8].
      * unfold sub_chk. destruct (N.leb_spec 3 (slot_extra slot)); [| lia]. cbn [bind].
        destruct (G_get data o z O (slot_extra slot - 3) s Hwf ltac:(lia) Hs) as (v & s1 & E1 & V1 & _ & G1 & _). rewrite E1. cbn [bind].
        destruct (G_symbol data o z _ _ _ _ Hwf Ta G1) as [E2 | (sym & s2 & E2 & S2 & G2)]; rewrite E2; cbn [bind]; [now left |].
        unfold shl_chk. change (3 <? 32) with true. cbv iota. cbn [bind].
        apply (Small (slot_extra slot - 3) v ltac:(lia)) in V1.
        rewrite N.mod_small by (rewrite N.shiftl_mul_pow2; change (2 ^ 3) with 8; change (2 ^ 32) with 4294967296; lia).
        rewrite lor_add by (change (2 ^ 3) with 8; lia). change (2 ^ 3) with 8.
        right. destruct (Fin (v * 8 + sym) s2 ltac:(lia) G2) as (d & l' & s' & E & R). exists d, l', s'.
        split; [| exact R]. rewrite <- E. apply (Main (v * 8 + sym) s2); [lia | exact G2].
      * cbn [bind]. destruct (G_get data o z O (slot_extra slot) s Hwf ltac:(lia) Hs) as (v & s1 & E1 & V1 & _ & G1 & _). rewrite E1. cbn [bind].
        apply Small in V1; [| lia]. right. destruct (Fin v s1 ltac:(lia) G1) as (d & l' & s' & E & R). exists d, l', s'.
        split; [| exact R]. rewrite <- E. apply (Main v s1); [lia | exact G1].
    + cbn [bind]. destruct (G_get data o z O (slot_extra slot) s Hwf ltac:(lia) Hs) as (v & s1 & E1 & V1 & _ & G1 & _). rewrite E1. cbn [bind].
      apply Small in V1; [| lia]. right. destruct (Fin v s1 ltac:(lia) G1) as (d & l' & s' & E & R). exists d, l', s'.
        split; [| exact R]. rewrite <- E. apply (Main v s1); [lia | exact G1].
Qed.
