(** * Proofs about ext inodes, directories and the file system *)
From Coq Require Import Permutation Sorted.
From Verif Require Import Base BaseLemmas Bytes_model Checksums_model Checksums_spec Checksums_proofs Strings_model Strings_spec Strings_proofs.
From Verif Require Import Streams_model Streams_spec Streams_proofs BlockTree_model BlockTree_spec BlockTree_proofs Blocks_model Blocks_proofs.
From Verif Require Import Part_spec Part_model Part_proofs Ext_model Ext_spec Ext_proofs Headers_model Headers_spec Headers_proofs ExtFs_model ExtFs_spec.
Ltac Zify.zify_post_hook ::= idtac.

(** ** Inodes *)
Lemma join16_ok l u : l < 2 ^ 16 -> join16 l u = l + 2 ^ 16 * u.
Proof. intros H. unfold join16. rewrite lor_disjoint by exact H. lia. Qed.
Lemma join32_ok l u : l < 2 ^ 32 -> join32 l u = l + 2 ^ 32 * u.
Proof. intros H. unfold join32. rewrite lor_disjoint by exact H. lia. Qed.
Lemma field2_lt data o : buffer data -> field data o 2 < 2 ^ 16.
Proof. intros H. exact (field_lt data H o 2). Qed.
Lemma field4_lt data o : buffer data -> field data o 4 < 2 ^ 32.
Proof. intros H. exact (field_lt data H o 4). Qed.

Definition first_inode (version : N) (data : list N) : ext_inode :=
  {| xi_mode := field data 0 2; xi_owner := field data 2 2 + 2 ^ 16 * field data 120 2;
     xi_group := field data 24 2 + 2 ^ 16 * field data 122 2;
     xi_size := field data 4 4 + (if version =? 4 then 2 ^ 32 * field data 108 4 else 0);
     xi_access_stamp := stamp_at version data 8; xi_access := posix32 (stamp_at version data 8);
     xi_change_stamp := stamp_at version data 12; xi_change := posix32 (stamp_at version data 12);
     xi_modification_stamp := stamp_at version data 16; xi_modification := posix32 (stamp_at version data 16);
     xi_deletion := posix32 (stamp_at version data 20);
     xi_links := field data 26 2;
     xi_blocks := field data 28 4 + (if version =? 4 then 2 ^ 32 * field data 116 2 else 0);
     xi_flags := field data 32 4; xi_reference := bytes_at data 40 60;
     xi_checksum := (if version =? 4 then field data 124 2 else 0);
     xi_creation := None; xi_attributes := 0 |}.

Lemma first_inode_ok version data : buffer data -> 128 <= len data ->
  (if version =? 4 then ext4_inode_read data else ext2_inode_read data) = Ok (first_inode version data).
Proof.
  intros Hb Hl. destruct (version =? 4) eqn:Ev.
  - unfold ext4_inode_read. replace (128 <=? len data) with true by (symmetry; apply N.leb_le; lia). cbn [check bind]. reads Hb. change 0x200000 with (2 ^ 21). rewrite land_flag.
    unfold first_inode, stamp_at. rewrite Ev. cbn [andb].
    fold (holds_value data). destruct (holds_value data); cbn [negb bind].
    + reads Hb. do 2 f_equal; first [apply join16_ok, field2_lt, Hb|apply join32_ok, field4_lt, Hb|reflexivity].
    + rewrite !(i32_at data) by room. cbn [bind]. reads Hb.
      do 2 f_equal; first [apply join16_ok, field2_lt, Hb|apply join32_ok, field4_lt, Hb|reflexivity].
  - unfold ext2_inode_read. replace (128 <=? len data) with true by (symmetry; apply N.leb_le; lia). cbn [check bind]. reads Hb. rewrite !(i32_at data) by room. cbn [bind]. reads Hb.
    unfold first_inode, stamp_at. rewrite Ev. cbn [andb]. rewrite !N.add_0_r.
    do 2 f_equal; first [apply join16_ok, field2_lt, Hb|reflexivity].
Qed.

Lemma u_le_outside n data o : len data < o + n -> bytes_to_uint_le n data o = Panic.
Proof.
  intros H. unfold bytes_to_uint_le, add_chk. destruct (o + n <? two64); [|reflexivity]. cbn [bind].
  unfold slice. destruct (N.leb_spec o (o + n)); [|lia]. destruct (N.leb_spec (o + n) (len data)); [lia|]. reflexivity.
Qed.

Lemma same_iff a b : same a b = true <-> a = b.
Proof. unfold same. destruct (list_eq_dec N.eq_dec a b); split; congruence. Qed.
Lemma has_iff data o s : has data o s = true <-> bytes_at data o (len s) = s.
Proof. unfold has. destruct (list_eq_dec N.eq_dec _ s); split; congruence. Qed.

Lemma byte_part data o n a : a < n -> byte (bytes_at data o n) a = byte data (o + a).
Proof.
  intros H. unfold byte, bytes_at.
  assert (F : forall k (l : list N) m, (m < k)%nat -> nth m (firstn k l) 0 = nth m l 0).
  { induction k as [|k IH]; intros [|x l] [|m] Hm; cbn [firstn nth]; try lia; auto. apply IH. lia. }
  assert (S : forall k (l : list N) m, nth m (skipn k l) 0 = nth (k + m) l 0).
  { induction k as [|k IH]; intros [|x l] m; cbn [skipn nth Nat.add]; auto. now destruct m. }
  rewrite F by lia. rewrite S. f_equal. lia.
Qed.

Lemma attributes_inv data o k : attributes_at data o k -> o + 16 < len data -> bytes_at data o 4 <> [0; 0; 0; 0] ->
  o + 16 + byte data o <= len data /\ one_of [0; 1; 2; 3; 4; 6; 7; 8] (byte data (o + 1)) = true /\
  exists next k', o + 16 + byte data o <= next < o + 16 + byte data o + 4 /\ next mod 4 = 0 /\ attributes_at data next k'.
Proof.
  intros A H1 H2. destruct A as [o H|o H _|o H|o next k H H0 H3 H4 H5 H6 H7]; [lia|congruence|lia|].
  split; [exact H3|]. split; [exact H4|]. exists next, k. auto.
Qed.

Lemma extra_ok base extra : extra_precision_timestamp (signed32 base) extra = (seconds base extra, nanoseconds extra).
Proof.
  unfold extra_precision_timestamp, seconds, nanoseconds. change 3 with (N.ones 2). rewrite N.land_ones, N.shiftr_div_pow2.
  change (2 ^ 2) with 4. destruct (N.ltb_spec 0 extra) as [H|H].
  - f_equal. destruct (N.eqb_spec (extra mod 4) 0) as [->|E]; [cbn [Z.of_N]; lia|]. reflexivity.
  - assert (extra = 0) as -> by lia. f_equal. change (0 mod 4) with 0. cbn [Z.of_N]. lia.
Qed.

Section Extension.
  Variable data : list N.
  Hypothesis Hb : buffer data.
  Hypothesis Hl : 128 < len data.
  Let D := bytes_at data 128 (len data - 128).
  Lemma D_len : len D = len data - 128.
  Proof. unfold D. rewrite len_bytes_at. lia. Qed.
  Lemma D_buffer : buffer D.
  Proof. apply buffer_part, Hb. Qed.
  Lemma D_field o n : o + n <= len D -> field D o n = field data (128 + o) n.
  Proof. intros H. rewrite D_len in H. unfold D. apply field_part. exact H. Qed.
  Lemma D_bytes o n : o + n <= len D -> bytes_at D o n = bytes_at data (128 + o) n.
  Proof. intros H. rewrite D_len in H. unfold D. apply bytes_at_bytes_at. exact H. Qed.
  Lemma D_byte o : o < len D -> byte D o = byte data (128 + o).
  Proof. intros H. rewrite D_len in H. unfold D. apply byte_part. exact H. Qed.

  Lemma attributes_ok fuel : forall o c, len D <= N.of_nat fuel + o ->
    (exists k, attributes_at data (128 + o) k /\ attributes_read (S fuel) D o c = Ok (c + k)) \/
    ((forall k, ~ attributes_at data (128 + o) k) /\ attributes_read (S fuel) D o c = Err).
  Proof using Hb Hl.
    pose proof D_len as LD. pose proof D_buffer as BD. clearbody D.
    induction fuel as [|fuel IH]; intros o c Hf; [|remember (S fuel) as f eqn:Ef]; cbn [attributes_read];
      (destruct (N.ltb_spec o (len D)) as [Ho|Ho]; cbn [negb];
       [|left; exists 0; split; [apply attributes_end; lia|now rewrite N.add_0_r]]); [lia|].
    destruct (N.leb_spec (len D) (o + 8)) as [H8|H8].
    { left. exists 0. split; [apply attributes_end; lia|now rewrite N.add_0_r]. }
    rewrite slice_at by lia. cbn [bind]. replace (o + 4 - o) with 4 by lia.
    destruct (same (bytes_at D o 4) [0; 0; 0; 0]) eqn:Ez.
    { apply same_iff in Ez. rewrite D_bytes in Ez by lia. left. exists 0.
      split; [apply attributes_mark; [exact Ez|lia]|now rewrite N.add_0_r]. }
    assert (Ez' : bytes_at data (128 + o) 4 <> [0; 0; 0; 0]).
    { rewrite <- D_bytes by lia. intros E. apply same_iff in E. congruence. }
    destruct (N.leb_spec (len D) (o + 16)) as [H16|H16].
    { left. exists 0. split; [apply attributes_no_room; lia|now rewrite N.add_0_r]. }
    rewrite slice_at by lia. cbn [bind]. replace (o + 16 - o) with 16 by lia.
    rewrite (ext_attributes_entry_ok' _ (buffer_part D o 16 BD) I).
    assert (L16 : 16 <= len (bytes_at D o 16)) by (rewrite len_bytes_at; lia).
    destruct (N.leb_spec 16 (len (bytes_at D o 16))); [|lia]. cbn [bind].
    rewrite slice_at by lia. cbn [bind]. unfold attribute_name_check, ext_attributes_entry_of. cbn [ea_name_size ea_name_index].
    rewrite !byte_part by lia. rewrite N.add_0_r. rewrite !D_byte by lia. rewrite N.add_assoc.
    rewrite len_bytes_at.
    set (n := byte data (128 + o)) in *.
    destruct (N.leb_spec n (N.min (len D - (o + 16)) (len D - (o + 16)))) as [Hn|Hn]; cbn [check bind].
    2:{ right. split; [|reflexivity]. intros k A. apply attributes_inv in A; [|lia|exact Ez']. fold n in A. lia. }
    change (contains [0; 1; 2; 3; 4; 6; 7; 8] (byte data (128 + o + 1))) with (one_of [0; 1; 2; 3; 4; 6; 7; 8] (byte data (128 + o + 1))).
    destruct (one_of [0; 1; 2; 3; 4; 6; 7; 8] (byte data (128 + o + 1))) eqn:Ei; cbn [check bind].
    2:{ right. split; [|reflexivity]. intros k A. apply attributes_inv in A; [|lia|exact Ez']. destruct A as (_ & A & _). congruence. }
    rewrite slice_at by (rewrite ?len_bytes_at; lia). cbn [bind].
    set (e := o + 16 + n). set (pad := if e mod 4 =? 0 then 0 else 4 - e mod 4).
    assert (Hp : e <= e + pad < e + 4 /\ (128 + (e + pad)) mod 4 = 0).
    { unfold pad. pose proof (N.mod_lt e 4 ltac:(lia)). pose proof (N.div_mod e 4 ltac:(lia)) as Ee.
      destruct (N.eqb_spec (e mod 4) 0).
      - split; [lia|]. apply N.mod_divide; [lia|]. exists (32 + e / 4). lia.
      - split; [lia|]. apply N.mod_divide; [lia|]. exists (32 + e / 4 + 1). lia. }
    destruct Hp as [Hp Hm]. unfold e in Hp at 1 3.
    destruct (IH (e + pad) (c + 1)) as [(k & A & R)|(A & R)]; [lia| |].
    - left. exists (k + 1). split; [|rewrite R; f_equal; lia].
      eapply attributes_entry; [lia|exact Ez'|fold n; lia|exact Ei| |exact Hm|exact A]. fold n. lia.
    - right. split; [|exact R]. intros k A'. apply attributes_inv in A'; [|lia|exact Ez'].
      destruct A' as (_ & _ & next & k' & B & Hm' & A'). fold n in B.
      assert (En : next = 128 + (e + pad)); [|rewrite En in A'; eapply A; eassumption].
      pose proof (N.div_mod next 4 ltac:(lia)) as E1. pose proof (N.div_mod (128 + (e + pad)) 4 ltac:(lia)) as E2.
      assert (next / 4 = (128 + (e + pad)) / 4); [|lia].
      clearbody pad. assert (Ee : e = o + 16 + n) by reflexivity. clearbody e n. clear - E1 E2 Hm Hm' B Ee Hp. lia.
  Qed.

  Let X := field data 128 2.
  Lemma precision_ok v base o : o + 4 <= 24 ->
    with_precision D X (o + 4) o (field data 32 4) (stamp_at v data base) (posix32 (stamp_at v data base)) =
      Ok (time_at v data base (128 + o)) \/
    (len D < 24 /\ with_precision D X (o + 4) o (field data 32 4) (stamp_at v data base) (posix32 (stamp_at v data base)) = Panic).
  Proof using Hb Hl.
    intros Ho. unfold with_precision, time_at. change 0x200000 with (2 ^ 21). rewrite land_flag. fold (holds_value data).
    unfold stamp_at. destruct (holds_value data); cbn [negb andb].
    { left. destruct (v =? 4); reflexivity. }
    rewrite andb_false_r. cbn [andb].
    assert (Er : reaches data (128 + o + 4) = (o + 4 <=? X)).
    { unfold reaches. fold X. destruct (N.ltb_spec 128 (len data)); [|lia]. cbn [andb].
      destruct (N.leb_spec (128 + o + 4) (128 + X)), (N.leb_spec (o + 4) X); try reflexivity; lia. }
    rewrite Er. destruct (N.leb_spec (o + 4) X) as [Hx|Hx]; [|left; reflexivity].
    destruct (N.le_gt_cases (o + 4) (len D)) as [Hr|Hr].
    - left. rewrite (u32_at D D_buffer) by exact Hr. cbn [bind]. rewrite extra_ok. rewrite D_field by exact Hr.
      unfold precise_time, posix32.
      destruct (Z.ltb_spec 0 (seconds (field data base 4) (field data (128 + o) 4))) as [Hs|Hs]; [reflexivity|].
      destruct (Z.ltb_spec 0 (signed32 (field data base 4))) as [Hs'|Hs']; [|reflexivity].
      exfalso. unfold seconds in Hs. lia.
    - right. split; [lia|]. unfold u32_le. rewrite u_le_outside by exact Hr. reflexivity.
  Qed.

  Lemma extension_ok v :
    (len D < 24 /\ ext_extension_read (first_inode v data) D = Panic) \/
    (exists k, inode_attributes data k /\ ext_extension_read (first_inode v data) D = Ok (ext_inode_of v data k)) \/
    ((forall k, ~ inode_attributes data k) /\ ext_extension_read (first_inode v data) D = Err).
  Proof using Hb Hl.
    pose proof D_len as LD. pose proof D_buffer as BD.
    remember (ext_extension_read (first_inode v data) D) as R eqn:ER. unfold ext_extension_read in ER. destruct (N.le_gt_cases 2 (len D)) as [H2|H2].
    2:{ left. split; [lia|]. unfold u16_le in ER. rewrite u_le_outside in ER by lia. exact ER. }
    rewrite (u16_at D BD) in ER by lia. cbn [bind] in ER. rewrite D_field in ER by lia. change (128 + 0) with 128 in ER. fold X in ER.
    change (xi_flags (first_inode v data)) with (field data 32 4) in ER. change (xi_checksum (first_inode v data)) with (if v =? 4 then field data 124 2 else 0) in ER.
    change (xi_change_stamp (first_inode v data)) with (stamp_at v data 12) in ER. change (xi_change (first_inode v data)) with (posix32 (stamp_at v data 12)) in ER.
    change (xi_modification_stamp (first_inode v data)) with (stamp_at v data 16) in ER. change (xi_modification (first_inode v data)) with (posix32 (stamp_at v data 16)) in ER.
    change (xi_access_stamp (first_inode v data)) with (stamp_at v data 8) in ER. change (xi_access (first_inode v data)) with (posix32 (stamp_at v data 8)) in ER.
    change (xi_creation (first_inode v data)) with (@None ext_time) in ER. change (xi_attributes (first_inode v data)) with 0 in ER.
    set (low := if v =? 4 then field data 124 2 else 0) in *.
    assert (Bl : low < 2 ^ 16) by (unfold low; destruct (v =? 4); [apply field2_lt, Hb|reflexivity]).
    assert (C : (if 4 <=? X then upper <- u16_le D 2 ;; Ok (N.lor low (N.shiftl upper 16)) else Ok low) =
        Ok (low + (if reaches data 132 then 2 ^ 16 * field data 130 2 else 0)) \/
      (len D < 24 /\ (if 4 <=? X then upper <- u16_le D 2 ;; Ok (N.lor low (N.shiftl upper 16)) else Ok low) = Panic)).
    { assert (Er : reaches data 132 = (4 <=? X)).
      { unfold reaches. fold X. destruct (N.ltb_spec 128 (len data)); [|lia]. cbn [andb].
        destruct (N.leb_spec 132 (128 + X)), (N.leb_spec 4 X); try reflexivity; lia. }
      rewrite Er. destruct (4 <=? X); [|left; now rewrite N.add_0_r].
      destruct (N.le_gt_cases (2 + 2) (len D)) as [H4|H4].
      - left. rewrite (u16_at D BD) by lia. cbn [bind]. f_equal. rewrite D_field by lia. change (128 + 2) with 130.
        rewrite N.lor_comm, lor_disjoint by exact Bl. lia.
      - right. split; [lia|]. unfold u16_le. rewrite u_le_outside by lia. reflexivity. }
    destruct C as [C|(C1 & C2)]; [|left; split; [exact C1|now rewrite C2 in ER]]. rewrite C in ER. cbn [bind] in ER. clear C.
    destruct (precision_ok v 12 4 ltac:(lia)) as [P|(P1 & P2)]; [|left; split; [exact P1|change (4 + 4) with 8 in P2; now rewrite P2 in ER]].
    change (4 + 4) with 8 in P. rewrite P in ER. cbn [bind] in ER. clear P.
    destruct (precision_ok v 16 8 ltac:(lia)) as [P|(P1 & P2)]; [|left; split; [exact P1|change (8 + 4) with 12 in P2; now rewrite P2 in ER]].
    change (8 + 4) with 12 in P. rewrite P in ER. cbn [bind] in ER. clear P.
    destruct (precision_ok v 8 12 ltac:(lia)) as [P|(P1 & P2)]; [|left; split; [exact P1|change (12 + 4) with 16 in P2; now rewrite P2 in ER]].
    change (12 + 4) with 16 in P. rewrite P in ER. cbn [bind] in ER. clear P.
    match type of ER with context [bind (if 24 <=? X then ?a else ?b) _] => set (cr := if 24 <=? X then a else b) in * end.
    assert (C : cr = Ok (creation_at data) \/ (len D < 24 /\ cr = Panic)).
    { assert (Er : reaches data 152 = (24 <=? X)).
      { unfold reaches. fold X. destruct (N.ltb_spec 128 (len data)); [|lia]. cbn [andb].
        destruct (N.leb_spec 152 (128 + X)), (N.leb_spec 24 X); try reflexivity; lia. }
      unfold cr, creation_at. rewrite Er. destruct (24 <=? X); cbn [andb]; [|left; reflexivity].
      destruct (N.le_gt_cases 24 (len D)) as [H4|H4].
      - left. rewrite (i32_at D) by (try exact BD; lia). cbn [bind]. rewrite (u32_at D BD) by lia. cbn [bind].
        rewrite extra_ok. rewrite !D_field by lia. reflexivity.
      - right. split; [exact H4|]. unfold i32_le, bytes_to_int_le.
        destruct (N.le_gt_cases 20 (len D)) as [H5|H5].
        + change (bytes_to_uint_le 4 D 16) with (u32_le D 16). rewrite (u32_at D BD) by lia. cbn [bind].
          unfold u32_le. rewrite u_le_outside by lia. reflexivity.
        + rewrite u_le_outside by lia. reflexivity. }
    destruct C as [C|(C1 & C2)]; [|left; split; [exact C1|now rewrite C2 in ER]]. rewrite C in ER. cbn [bind] in ER. clear C cr.
    assert (A : (exists k, inode_attributes data k /\
        (if X + 4 <? len D then signature <- slice D X (X + 4) ;;
           if same signature [0x00; 0x00; 0x02; 0xea] then attributes_read (S (length D)) D (X + 4) 0 else Ok 0 else Ok 0) = Ok k) \/
      ((forall k, ~ inode_attributes data k) /\
        (if X + 4 <? len D then signature <- slice D X (X + 4) ;;
           if same signature [0x00; 0x00; 0x02; 0xea] then attributes_read (S (length D)) D (X + 4) 0 else Ok 0 else Ok 0) = Err)).
    { unfold inode_attributes. fold X. cbv zeta. destruct (N.ltb_spec 128 (len data)); [|lia]. cbn [andb].
      destruct (N.ltb_spec (X + 4) (len D)) as [Hx|Hx].
      - destruct (N.ltb_spec (128 + X + 4) (len data)); [|lia]. cbn [andb].
        rewrite slice_at by lia. cbn [bind]. replace (X + 4 - X) with 4 by lia.
        assert (Es : same (bytes_at D X 4) [0; 0; 2; 234] = has data (128 + X) [0; 0; 2; 234]).
        { rewrite D_bytes by lia. apply has_same. reflexivity. }
        rewrite Es. destruct (has data (128 + X) [0; 0; 2; 234]); [|left; exists 0; auto].
        destruct (attributes_ok (length D) (X + 4) 0) as [(k & A & A')|(A & A')]; [unfold len; lia| |].
        + left. exists k. rewrite N.add_assoc in A. split; [exact A|]. rewrite A'. now rewrite N.add_0_l.
        + right. rewrite N.add_assoc in A. auto.
      - destruct (N.ltb_spec (128 + X + 4) (len data)); [lia|]. cbn [andb]. left. exists 0. auto. }
    destruct A as [(k & A & A')|(A & A')]; rewrite A' in ER; cbn [bind] in ER.
    - right. left. exists k. split; [exact A|]. rewrite ER. unfold first_inode, ext_inode_of.
      cbn [xi_mode xi_owner xi_group xi_size xi_access_stamp xi_change_stamp xi_modification_stamp xi_deletion xi_links xi_blocks xi_flags xi_reference].
      f_equal. f_equal.
      unfold stamp_at, posix32, coarse_time. destruct ((v =? 4) && holds_value data); reflexivity.
    - right. right. auto.
  Qed.
End Extension.

Lemma inode_128 v data : buffer data -> len data = 128 -> first_inode v data = ext_inode_of v data 0.
Proof.
  intros Hb Hl. unfold first_inode, ext_inode_of, time_at, creation_at, reaches. rewrite Hl. cbn [andb N.ltb N.compare Pos.compare].
  change (128 <? 128) with false. cbn [andb]. rewrite N.add_0_r.
  unfold stamp_at, posix32, coarse_time. destruct (holds_value data), (v =? 4); reflexivity.
Qed.
(** What reading an inode answers. *)
Lemma inode_read_ok v data : buffer data ->
  (len data < 128 -> ext_inode_read v data = Err) /\
  (128 <= len data ->
    (128 < len data < 152 /\ ext_inode_read v data = Panic) \/
    (exists k, inode_attributes data k /\ ext_inode_read v data = Ok (ext_inode_of v data k)) \/
    ((forall k, ~ inode_attributes data k) /\ ext_inode_read v data = Err)).
Proof.
  intros Hb. unfold ext_inode_read. split.
  - intros H. unfold ext4_inode_read, ext2_inode_read. destruct (N.leb_spec 128 (len data)); [lia|]. now destruct (v =? 4).
  - intros H. rewrite first_inode_ok by assumption. cbn [bind]. destruct (N.ltb_spec 128 (len data)) as [Hl|Hl].
    + rewrite slice_at by lia. cbn [bind]. destruct (extension_ok data Hb Hl v) as [(A & R)|[A|A]]; [|right; left; exact A|right; right; exact A].
      left. split; [|exact R]. rewrite D_len in A by assumption. lia.
    + right. left. exists 0. split; [|rewrite inode_128 by (try assumption; lia); reflexivity].
      unfold inode_attributes. destruct (N.ltb_spec 128 (len data)); [lia|]. reflexivity.
Qed.
Lemma inode_exact : forall version data, buffer data -> len data = 128 \/ 152 <= len data ->
  (forall k, inode_attributes data k -> ext_inode_read version data = Ok (ext_inode_of version data k)) /\
  ((forall k, ~ inode_attributes data k) -> ext_inode_read version data = Err).
Proof.
  intros v data Hb Hl. destruct (inode_read_ok v data Hb) as [_ H]. destruct H as [H|[H|H]]; [lia|lia| |].
  - destruct H as (k & A & R). split; [|intros N; now destruct (N k)].
    intros k' A'. rewrite R. do 2 f_equal. unfold inode_attributes in A, A'. cbv zeta in A, A'.
    destruct ((128 <? len data) && (128 + field data 128 2 + 4 <? len data) && has data (128 + field data 128 2) [0; 0; 2; 234]);
      [|congruence].
    clear - A A'. revert k' A'. induction A as [o H|o H H1|o H|o next k H H0 H3 H4 H5 H6 H7 IH]; intros k' A'; inversion A'; subst; try reflexivity; try lia; try congruence.
    assert (En : next0 = next).
    { pose proof (N.div_mod next 4 ltac:(lia)) as E1. pose proof (N.div_mod next0 4 ltac:(lia)) as E2.
      rewrite H6, N.add_0_r in E1.
      match goal with K : next0 mod 4 = 0 |- _ => rewrite K, N.add_0_r in E2 end.
      match goal with K : _ <= next0 < _ |- _ => clear - E1 E2 H5 K end. lia. }
    subst next0. f_equal. now apply IH.
  - destruct H as (A & R). split; [|auto]. intros k K. now destruct (A k).
Qed.
