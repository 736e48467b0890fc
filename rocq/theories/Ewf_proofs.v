From Verif Require Import Base BaseLemmas Bytes_model Checksums_model Checksums_spec Checksums_proofs Streams_model Streams_spec Streams_proofs
  BlockTree_model BlockTree_spec BlockTree_proofs Blocks_model Blocks_proofs Lru_model Lru_spec Lru_proofs Part_spec Part_proofs Vhd_model Vhd_proofs
  Paths_model Paths_spec Deflate_model Deflate_spec Udif_proofs P_C11 P_C41 Ewf_model Ewf_spec.
Ltac Zify.zify_post_hook ::= idtac.

(** ** Structures *)
Lemma ewf_adler_ok d : wf_bytes d -> ewf_adler d = Ok (adler32 1 d).
Proof.
  intros H. unfold ewf_adler. destruct (adler_update_ok (adler_new 1) d) as (c & -> & _ & _ & E); [reflexivity|assumption|].
  cbn [bind]. unfold adler_finalize. cbn [fst]. rewrite E. reflexivity.
Qed.
Lemma wf_bytes_at file o n : wf_bytes file -> wf_bytes (bytes_at file o n).
Proof. intros H. unfold bytes_at. apply wf_bytes_firstn. apply wf_bytes_skipn. assumption. Qed.
Lemma slice_at file o m a b : a <= b -> b <= m -> o + m <= len file ->
  slice (bytes_at file o m) a b = Ok (bytes_at file (o + a) (b - a)).
Proof.
  intros H1 H2 H3. rewrite slice_ok by (rewrite ?len_bytes_at; lia). f_equal.
  fold (bytes_at (bytes_at file o m) a (b - a)). apply bytes_at_bytes_at. lia.
Qed.
Lemma u_at n file o m e : e + n <= m -> o + m <= len file -> len file < two64 ->
  bytes_to_uint_le n (bytes_at file o m) e = Ok (field file (o + e) n).
Proof. intros H1 H2 H3. apply Fat_proofs.u_le_bytes_at; lia. Qed.

Lemma field_bound file o n : wf_bytes file -> field file o n < 256 ^ n.
Proof.
  intros H. unfold field. eapply N.lt_le_trans; [apply le_value_bound; apply wf_bytes_at; assumption|].
  apply N.pow_le_mono_r; [discriminate|]. rewrite len_bytes_at. lia.
Qed.

Section File.
  Variables (file : list N).
  Hypotheses (Hwf : wf_bytes file) (Hlen : len file < two64).

  Lemma check_at o m n : n + 4 <= m -> o + m <= len file ->
    ewf_check (bytes_at file o m) n = check (field file (o + n) 4 =? adler32 1 (bytes_at file o n)).
  Proof.
    intros H1 H2. unfold ewf_check. rewrite len_bytes_at. destruct (N.ltb_spec (N.min m (len file - o)) (n + 4)); [lia|]. cbn [negb check bind].
    unfold u32_le. rewrite u_at by lia. cbn [bind]. rewrite slice_at by lia. cbn [bind]. rewrite N.sub_0_r, N.add_0_r.
    rewrite ewf_adler_ok by (apply wf_bytes_at; assumption). reflexivity.
  Qed.
  Lemma checked_ok o m n : ewf_checked file o n -> n + 4 <= m -> o + m <= len file -> ewf_check (bytes_at file o m) n = Ok tt.
  Proof. intros [_ E] H1 H2. rewrite check_at by assumption. rewrite E, N.eqb_refl. reflexivity. Qed.

  Lemma section_ok o type next size : ewf_header_at file o type next size ->
    read_exact_at file o 76 = Ok (bytes_at file o 76) /\
    ewf_section_read (bytes_at file o 76) = Ok {| es_type := type; es_next := next; es_size := size |}.
  Proof.
    intros (Hc & H1 & H2 & H3). assert (Ho := proj1 Hc). split.
    - destruct (read_exact_shape file o 76) as [[-> _]|[_ H]]; [reflexivity|lia].
    - unfold ewf_section_read. rewrite (checked_ok o 76 72) by (assumption || lia). cbn [bind].
      rewrite slice_at by lia. cbn [bind]. unfold u64_le. rewrite !u_at by lia. cbn [bind].
      rewrite N.add_0_r. change (16 - 0) with 16. rewrite H1, H2, H3. reflexivity.
  Qed.

  Lemma same_refl a : same_bytes a a = true.
  Proof. apply same_bytes_true. reflexivity. Qed.
  Lemma same_false a b : a <> b -> same_bytes a b = false.
  Proof. intros H. destruct (same_bytes a b) eqn:E; [|reflexivity]. apply same_bytes_true in E. contradiction. Qed.

  Definition sect (x : list N * N * N) : ewf_section :=
    let '(t, s, e) := x in
    {| es_type := t; es_next := if same_bytes t name_done || same_bytes t name_next then s else e; es_size := e - s |}.
  Fixpoint contiguous (o : N) (l : list (list N * N * N)) : Prop :=
    match l with [] => True | (_, s, e) :: l => s = o /\ s + 76 <= e <= len file /\ contiguous e l end.

  Lemma layout_bounds o l : ewf_layout file o l -> o < len file /\ contiguous o l.
  Proof.
    induction 1 as [o type size Ht Hh Hs He|o type next size l H1 H2 Hh Hs He Hl [IH1 IH2]]; cbn [contiguous].
    - split; [lia|]. repeat split; lia.
    - split; [lia|]. repeat split; [lia|lia|assumption].
  Qed.

  Lemma layout_ok o l : ewf_layout file o l -> forall fuel, (N.to_nat (len file - o) < fuel)%nat ->
    ewf_sections_read fuel file o = Ok (map sect l, len file).
  Proof.
    induction 1 as [o type size Ht Hh Hs He|o type next size l H1 H2 Hh Hs He Hl IH]; intros fuel Hf; (destruct fuel as [|fuel]; [lia|]);
      cbn [ewf_sections_read]; destruct (section_ok _ _ _ _ Hh) as [-> E]; cbn [bind]; rewrite E; cbn [bind es_type es_next es_size].
    - destruct (N.ltb_spec o (len file)); [|lia].
      change ewf_type_done with name_done. change ewf_type_next with name_next.
      assert (Es : same_bytes type name_done || same_bytes type name_next = true)
        by (destruct Ht as [->| ->]; rewrite same_refl; [reflexivity|apply orb_true_r]).
      rewrite Es. assert (Ez : (size =? 0) || (size =? 76) = true) by (destruct Hs as [->| ->]; reflexivity). rewrite Ez. cbn [check bind].
      rewrite N.eqb_refl. cbn [check bind]. unfold add_chk. destruct (N.ltb_spec (o + 76) two64); [|lia]. cbn [bind].
      cbn [map sect]. rewrite Es. replace (o + 76 - o) with 76 by lia. rewrite He. reflexivity.
    - destruct (layout_bounds _ _ Hl) as [Hb _]. destruct (N.ltb_spec o (len file)); [|lia].
      change ewf_type_done with name_done. change ewf_type_next with name_next.
      rewrite !same_false by assumption. cbn [orb].
      destruct (N.leb_spec next o); [lia|]. cbn [negb check bind].
      assert (Ez : (size =? 0) || (size =? next - o) = true) by (destruct Hs as [->| ->]; [reflexivity|rewrite N.eqb_refl; apply orb_true_r]).
      rewrite Ez. cbn [check bind]. destruct (N.ltb_spec (next - o) 76); [lia|]. cbn [negb check bind].
      unfold add_chk. replace (o + (next - o)) with next by lia. destruct (N.ltb_spec next two64); [|lia]. cbn [bind].
      rewrite IH by lia. cbn [bind map sect]. rewrite !same_false by assumption. reflexivity.
  Qed.

  Lemma bytes_at_prefix o n m : m <= n -> bytes_at (bytes_at file o n) 0 m = bytes_at file o m.
  Proof. intros H. rewrite bytes_at_bytes_at by lia. f_equal; lia. Qed.

  Lemma file_read_ok n l : ewf_file_at file n -> ewf_layout file 13 l -> ewf_file_read file = Ok (n, map sect l).
  Proof.
    intros (H13 & Hs & Hn & He) Hl. unfold ewf_file_read.
    destruct (read_exact_shape file 0 13) as [[-> _]|[_ H]]; [|lia]. cbn [bind].
    assert (E8 : bytes_at file 0 8 = ewf_signature).
    { rewrite <- (bytes_at_prefix 0 9 8) by lia. rewrite Hs. reflexivity. }
    assert (Ei : idx (bytes_at file 0 13) 8 = Ok 1).
    { change 13 with (9 + 4). rewrite bytes_at_split, Hs. reflexivity. }
    unfold ewf_file_header_read. rewrite len_bytes_at. destruct (N.ltb_spec (N.min 13 (len file - 0)) 13); [lia|]. cbn [negb check bind].
    rewrite slice_at by lia. cbn [bind]. change (0 + 0) with 0. change (8 - 0) with 8. rewrite E8, same_refl. cbn [check bind].
    rewrite Ei. cbn [bind check N.eqb Pos.eqb]. rewrite slice_at by lia. cbn [bind]. change (0 + 11) with 11. change (13 - 11) with 2.
    rewrite He, same_refl. cbn [check bind]. unfold u16_le. rewrite u_at by lia. cbn [bind]. change (0 + 9) with 9. rewrite Hn.
    rewrite (layout_ok 13 l) by (assumption || (unfold len; lia)). cbn [bind]. rewrite N.eqb_refl. reflexivity.
  Qed.

  (** *** Tables *)
  Lemma entries_ok o m k : forall i j, o + m <= len file -> i + 4 * j + 4 * N.of_nat k <= m ->
    ewf_entries_read k (bytes_at file o m) (i + 4 * j) = Ok (map (fun j => field file (o + i + 4 * j) 4) (seqN j k)).
  Proof.
    induction k as [|k IH]; intros i j H1 H2; [reflexivity|]. cbn [ewf_entries_read].
    rewrite slice_at by lia. cbn [bind]. replace (i + 4 * j + 4 - (i + 4 * j)) with 4 by lia. unfold u32_le. rewrite u_at by lia. cbn [bind].
    replace (i + 4 * j + 4) with (i + 4 * (j + 1)) by lia. rewrite IH by lia. cbn [bind].
    change (seqN j (S k)) with (j :: seqN (j + 1) k). cbn [map]. rewrite N.add_0_r. rewrite N.add_assoc. reflexivity.
  Qed.
  Lemma table_ok o size base es : ewf_table_at file o size base es -> ewf_table_read_at file size o = Ok (base, es).
  Proof.
    intros (Hs & Hl & Hc & Hn & Hb & He & Hf). unfold ewf_table_read_at.
    destruct (N.ltb_spec size 28); [lia|]. destruct (N.ltb_spec 16777216 size); [lia|]. cbn [orb negb check bind].
    destruct (read_exact_shape file o size) as [[-> _]|[_ H']]; [|lia]. cbn [bind].
    unfold ewf_table_read, ewf_table_header_read. rewrite (checked_ok o size 20) by (assumption || lia). cbn [bind].
    unfold u32_le, u64_le. rewrite !u_at by lia. cbn [bind]. rewrite N.add_0_r, Hn, Hb.
    rewrite slice_at by lia. cbn [bind]. rewrite u_at by lia. cbn [bind]. rewrite slice_at by lia. cbn [bind].
    rewrite ewf_adler_ok by (apply wf_bytes_at; assumption). cbn [bind]. destruct Hf as [_ Hf].
    replace (24 + len es * 4 - 24) with (4 * len es) by lia.
    replace (o + (24 + len es * 4) + 0) with (o + 24 + 4 * len es) by lia. rewrite Hf, N.eqb_refl. cbn [check bind].
    change (ewf_entries_read (N.to_nat (len es)) (bytes_at file o size) 24) with (ewf_entries_read (N.to_nat (len es)) (bytes_at file o size) (24 + 4 * 0)).
    rewrite entries_ok by (unfold len in *; lia). cbn [bind]. f_equal. f_equal.
    replace (N.to_nat (len es)) with (length es) by (unfold len; lia). symmetry. exact He.
  Qed.

  Lemma volume_at_ok o size v : ewf_volume_at file o size v ->
    let u := {| ev_chunks := v_chunks v; ev_sectors_per_chunk := v_sectors_per_chunk v; ev_bytes_per_sector := v_bytes_per_sector v;
                ev_sectors := v_sectors v; ev_identifier := v_identifier v |} in
    (if size =? 170 then data <- read_exact_at file o 94 ;; ewf_volume_s01_read data
     else if size =? 1128 then data <- read_exact_at file o 1052 ;; ewf_volume_e01_read data
     else Err) = Ok u.
  Proof.
    intros (H1 & H2 & H3 & H4 & H5) u. unfold u. rewrite H1, H2, H3, H4. destruct H5 as [(-> & Hc & ->)|(-> & Hc & ->)]; cbn [N.eqb Pos.eqb];
      assert (Hl := proj1 Hc).
    - destruct (read_exact_shape file o 94) as [[-> _]|[_ H']]; [|lia]. cbn [bind]. unfold ewf_volume_s01_read.
      rewrite (checked_ok o 94 90) by (assumption || lia). cbn [bind]. unfold u32_le. rewrite !u_at by lia. reflexivity.
    - destruct (read_exact_shape file o 1052) as [[-> _]|[_ H']]; [|lia]. cbn [bind]. unfold ewf_volume_e01_read.
      rewrite (checked_ok o 1052 1048) by (assumption || lia). cbn [bind]. unfold u32_le. rewrite !u_at by lia. cbn [bind].
      rewrite slice_at by lia. reflexivity.
  Qed.
End File.

(** ** The chunks in the block tree *)
Definition chunk_range (o : N) (c : ewf_chunk) : ewf_range :=
  {| er_media_offset := o; er_segment := ec_segment c; er_data_offset := ec_offset c; er_data_size := ec_size c; er_compressed := ec_compressed c |}.
Fixpoint chunk_inserts (bs o : N) (cs : list ewf_chunk) : list (N * N * ewf_range) :=
  match cs with [] => [] | c :: cs => (o, bs, chunk_range o c) :: chunk_inserts bs (o + bs) cs end.
Lemma chunk_inserts_app bs a : forall o b, chunk_inserts bs o (a ++ b) = chunk_inserts bs o a ++ chunk_inserts bs (o + bs * len a) b.
Proof.
  induction a as [|c a IH]; intros o b; cbn [app chunk_inserts]; [f_equal; rewrite len_nil; lia|].
  rewrite IH. do 3 f_equal. rewrite len_cons. lia.
Qed.
Lemma insert_app {V} a : forall (t : block_tree V) b, insert_ranges t (a ++ b) = (t' <- insert_ranges t a ;; insert_ranges t' b).
Proof.
  induction a as [|[[o s] v] a IH]; intros t b; [reflexivity|]. cbn [app insert_ranges].
  destruct (bt_insert t o s v) as [t1 [| |]]; [apply IH|reflexivity|reflexivity].
Qed.

Lemma entry_mask o c : o < two32 -> (c = true -> o < 0x80000000) ->
  N.land (ewf_entry (o, c)) 0x7fffffff = o mod 0x80000000 /\
  (o < 0x80000000 -> negb (N.land (ewf_entry (o, c)) 0x80000000 =? 0) = c).
Proof.
  intros Ho Hc. split.
  - change 0x7fffffff with (N.ones 31). rewrite N.land_ones. change (2 ^ 31) with 0x80000000. unfold ewf_entry. cbn [fst snd].
    destruct c; [|reflexivity]. specialize (Hc eq_refl). clear - Hc. rewrite <- N.add_mod_idemp_r by discriminate. rewrite N.mod_same by discriminate. now rewrite N.add_0_r.
  - intros H. rewrite land_bit31, N.testbit_eqb. change (2 ^ 31) with 0x80000000. unfold ewf_entry. cbn [fst snd]. destruct c.
    + replace (o + 0x80000000) with (o + 1 * 0x80000000) by lia. rewrite N.div_add by discriminate. rewrite N.div_small by assumption. reflexivity.
    + rewrite N.div_small by assumption. reflexivity.
Qed.

Lemma offsets_bound base last l : forall o c, ewf_offsets_ok base last ((o, c) :: l) -> base + o <= last.
Proof.
  induction l as [|[o' c'] l IH]; intros o c H; cbn [ewf_offsets_ok] in H.
  - lia.
  - destruct H as (_ & _ & H1 & H2). specialize (IH o' c' H2). lia.
Qed.

Lemma read_entries_ok n bs base last l : last < two64 -> forall o c t t' offset,
  ewf_offsets_ok base last ((o, c) :: l) ->
  insert_ranges t (chunk_inserts bs offset (ewf_table_chunks n base last ((o, c) :: l))) = Ok t' ->
  offset + bs * (len l + 1) < two64 ->
  ewf_read_entries n bs base last (0x80000000 <=? o) (ewf_entry (o, c)) (map ewf_entry l) t offset = Ok (t', offset + bs * (len l + 1)).
Proof.
  intros Hlast. induction l as [|[o' c'] l IH]; intros o c t t' offset Hok Hins Hoff.
  - pose proof (offsets_bound _ _ _ _ _ Hok) as Hb. cbn [ewf_offsets_ok] in Hok. destruct Hok as (H1 & H2 & H3).
    cbn [ewf_table_chunks chunk_inserts insert_ranges] in Hins. unfold chunk_range in Hins. cbn [ec_segment ec_offset ec_size ec_compressed] in Hins.
    cbn [map ewf_read_entries]. destruct (entry_mask o c H1 H2) as [M1 M2].
    assert (Eo : (if 0x80000000 <=? o then ewf_entry (o, c) else N.land (ewf_entry (o, c)) 0x7fffffff) = o).
    { destruct (N.leb_spec 0x80000000 o) as [H|H].
      - unfold ewf_entry. cbn [fst snd]. destruct c; [specialize (H2 eq_refl); lia|reflexivity].
      - rewrite M1. apply N.mod_small. assumption. }
    assert (Ec : (if 0x80000000 <=? o then false else negb (N.land (ewf_entry (o, c)) 0x80000000 =? 0)) = c).
    { destruct (N.leb_spec 0x80000000 o) as [H|H]; [|auto]. destruct c; [specialize (H2 eq_refl); lia|reflexivity]. }
    rewrite Eo, Ec. unfold add_chk. destruct (N.ltb_spec (base + o) two64); [|lia]. cbn [bind].
    unfold sub_chk. destruct (N.leb_spec (base + o) last); [|lia]. cbn [bind].
    rewrite N.mod_small by lia.
    destruct (bt_insert t offset bs _) as [t1 [| |]] eqn:Ei; try discriminate. injection Hins as <-. cbn [bind].
    rewrite len_nil in *. destruct (N.ltb_spec (offset + bs) two64); [|lia]. cbn [bind]. do 2 f_equal. lia.
  - pose proof (offsets_bound _ _ _ _ _ Hok) as Hb. cbn [ewf_offsets_ok] in Hok. destruct Hok as (H1 & H2 & H3 & H4).
    assert (H4' := H4). cbn [ewf_offsets_ok] in H4'. destruct H4' as (H5 & H6 & _).
    cbn [ewf_table_chunks] in Hins. fold (ewf_table_chunks n base last ((o', c') :: l)) in Hins. cbn [chunk_inserts insert_ranges] in Hins.
    unfold chunk_range in Hins at 1. cbn [ec_segment ec_offset ec_size ec_compressed] in Hins.
    cbn [map]. cbn [ewf_read_entries]. destruct (entry_mask o c H1 H2) as [M1 M2]. destruct (entry_mask o' c' H5 H6) as [M3 M4].
    assert (Eo : (if 0x80000000 <=? o then ewf_entry (o, c) else N.land (ewf_entry (o, c)) 0x7fffffff) = o).
    { destruct (N.leb_spec 0x80000000 o) as [H|H].
      - unfold ewf_entry. cbn [fst snd]. destruct c; [specialize (H2 eq_refl); lia|reflexivity].
      - rewrite M1. apply N.mod_small. assumption. }
    assert (Ec : (if 0x80000000 <=? o then false else negb (N.land (ewf_entry (o, c)) 0x80000000 =? 0)) = c).
    { destruct (N.leb_spec 0x80000000 o) as [H|H]; [|auto]. destruct c; [specialize (H2 eq_refl); lia|reflexivity]. }
    rewrite Eo, Ec.
    assert (Es : (if o <? (if 0x80000000 <=? o then ewf_entry (o', c') else N.land (ewf_entry (o', c')) 0x7fffffff)
         then sub_chk (if 0x80000000 <=? o then ewf_entry (o', c') else N.land (ewf_entry (o', c')) 0x7fffffff) o
         else if o <? ewf_entry (o', c') then sub_chk (ewf_entry (o', c')) o else Panic) = Ok (o' - o)).
    { assert (Hbig : 0x80000000 <= o' -> ewf_entry (o', c') = o').
      { intros H. unfold ewf_entry. cbn [fst snd]. destruct c'; [specialize (H6 eq_refl); lia|reflexivity]. }
      unfold sub_chk. rewrite M3. destruct (N.leb_spec 0x80000000 o) as [H|H].
      - rewrite Hbig by lia. destruct (N.ltb_spec o o'); [|lia]. destruct (N.leb_spec o o'); [reflexivity|lia].
      - destruct (N.ltb_spec o' 0x80000000) as [H'|H'].
        + rewrite N.mod_small by assumption. destruct (N.ltb_spec o o'); [|lia]. destruct (N.leb_spec o o'); [reflexivity|lia].
        + rewrite Hbig by lia. assert (Em : o' mod 0x80000000 = o' - 0x80000000).
          { symmetry. apply N.mod_unique with 1; unfold two32 in *; lia. }
          rewrite Em. destruct (N.ltb_spec o (o' - 0x80000000)); [lia|]. destruct (N.ltb_spec o o'); [|lia]. destruct (N.leb_spec o o'); [reflexivity|lia]. }
    rewrite Es. cbn [bind]. unfold add_chk at 1 2. destruct (N.ltb_spec (base + o) two64); [|lia]. cbn [bind].
    destruct (bt_insert t offset bs _) as [t1 [| |]] eqn:Ei; try discriminate. cbn [bind].
    rewrite len_cons in Hoff. destruct (N.ltb_spec (offset + bs) two64); [|lia]. cbn [bind].
    assert (Ef : (if 0x80000000 <=? o then Ok 0 else add_chk two32 o (o' - o)) = Ok (if 0x80000000 <=? o then 0 else o')).
    { destruct (0x80000000 <=? o); [reflexivity|]. unfold add_chk. replace (o + (o' - o)) with o' by lia. destruct (N.ltb_spec o' two32); [reflexivity|lia]. }
    rewrite Ef. cbn [bind].
    assert (Eb : (0x80000000 <=? o) || (0x7fffffff <? (if 0x80000000 <=? o then 0 else o')) = (0x80000000 <=? o')).
    { destruct (N.leb_spec 0x80000000 o), (N.leb_spec 0x80000000 o'); cbn [orb]; try reflexivity; try lia;
        destruct (N.ltb_spec 0x7fffffff o'); try reflexivity; lia. }
    rewrite Eb. rewrite (IH o' c' t1 t' (offset + bs) H4 Hins) by lia. do 2 f_equal. rewrite len_cons. lia.
Qed.

Fixpoint indexed (bs i : N) (cs : list ewf_chunk) : list (N * ewf_range) :=
  match cs with [] => [] | c :: cs => (i, chunk_range (i * bs) c) :: indexed bs (i + 1) cs end.
Lemma indexed_inserts bs cs : forall i, chunk_inserts bs (i * bs) cs = block_inserts bs (indexed bs i cs).
Proof.
  induction cs as [|c cs IH]; intros i; [reflexivity|]. cbn [chunk_inserts indexed]. unfold block_inserts. cbn [map fst snd].
  f_equal. fold (block_inserts bs (indexed bs (i + 1) cs)). rewrite <- IH. f_equal. lia.
Qed.
Lemma indexed_results bs k cs : forall i before, Forall (fun e : N * ewf_range => fst e < i) before -> i + len cs <= k ->
  Forall (fun b => b = true) (block_results k before (indexed bs i cs)).
Proof.
  induction cs as [|c cs IH]; intros i before Hb Hk; [constructor|]. rewrite len_cons in Hk. cbn [indexed block_results].
  constructor.
  - destruct (N.ltb_spec i k); [|lia]. cbn [andb]. apply negb_true_iff. apply not_true_is_false. intros Hex. apply existsb_exists in Hex as (e & He & Ee).
    rewrite Forall_forall in Hb. specialize (Hb e He). apply N.eqb_eq in Ee. lia.
  - apply IH; [|lia]. apply Forall_app. split; [eapply Forall_impl; [|exact Hb]; cbn beta; intros; lia|repeat constructor; cbn [fst]; lia].
Qed.
Lemma indexed_find bs cs : forall i x, i <= x -> x < i + len cs ->
  exists c, nth_error cs (N.to_nat (x - i)) = Some c /\ find (fun e => fst e =? x) (indexed bs i cs) = Some (x, chunk_range (x * bs) c).
Proof.
  induction cs as [|c cs IH]; intros i x H1 H2; [rewrite len_nil in H2; lia|]. rewrite len_cons in H2. cbn [indexed find fst].
  destruct (N.eqb_spec i x) as [->|Hne].
  - exists c. rewrite N.sub_diag. auto.
  - destruct (IH (i + 1) x) as (c' & E1 & E2); [lia|lia|]. exists c'. split; [|assumption].
    replace (N.to_nat (x - i)) with (S (N.to_nat (x - (i + 1)))) by lia. exact E1.
Qed.

Definition volume_tree (v : volume) : block_tree ewf_range :=
  bt_new (v_chunks v * v_chunk_size v) (v_sectors_per_chunk v) (v_bytes_per_sector v).
Lemma tree_ok v cs : volume_ok v -> len cs <= v_chunks v ->
  exists t, insert_ranges (volume_tree v) (chunk_inserts (v_chunk_size v) 0 cs) = Ok t /\
    forall x, x < v_chunk_size v * len cs -> exists c, nth_error cs (N.to_nat (x / v_chunk_size v)) = Some c /\
      bt_get t x = Ok (Some (chunk_range (x / v_chunk_size v * v_chunk_size v) c)).
Proof.
  intros (Hb & Hm & Hk) Hl. unfold volume_tree. set (bs := v_chunk_size v) in *. set (s := v_sectors_per_chunk v). set (l := v_bytes_per_sector v).
  assert (Ebs : l * s ^ 1 = bs) by (unfold bs, v_chunk_size; rewrite N.pow_1_r; fold s l; lia).
  assert (Hsl : s * l = bs) by reflexivity. assert (Hl0 : 0 < l).
  { clear - Hsl Hb. clearbody l bs. destruct (N.eq_dec l 0) as [->|E]; [rewrite N.mul_0_r in Hsl; lia|lia]. }
  assert (Hs0 : 1 <= s).
  { clear - Hsl Hb. clearbody s bs. destruct (N.eq_dec s 0) as [->|E]; [rewrite N.mul_0_l in Hsl; lia|lia]. }
 
  destruct (blocks_ok (V := ewf_range) s l 1 (v_chunks v) (indexed bs 0 cs)) as (t & E1 & E2); auto; rewrite ?Ebs; auto.
  { rewrite Hsl. unfold two32, two64 in *. lia. }
  { assert (G : forall cs i, (i + len cs) <= v_chunks v -> Forall (fun e : N * ewf_range => fst e * bs + bs < two64) (indexed bs i cs)).
    { clear -Hk. induction cs as [|c cs IH]; intros i H; [constructor|]. rewrite len_cons in H. cbn [indexed]. constructor; [|apply IH; lia].
      cbn [fst]. assert ((i + 1) * bs <= v_chunks v * bs) by (apply N.mul_le_mono_r; lia). lia. }
    apply G. lia. }
  rewrite Ebs in E1, E2. exists t. split.
  - change 0 with (0 * bs) at 1. rewrite indexed_inserts. rewrite insert_ranges_inserts; rewrite E1; [reflexivity|]. cbn [snd].
    apply Forall_map. eapply Forall_impl; [|apply indexed_results; [constructor|lia]]. intros b ->. reflexivity.
  - intros x Hx. assert (Hd : x / bs < len cs) by (apply N.div_lt_upper_bound; lia).
    destruct (indexed_find bs cs 0 (x / bs)) as (c & F1 & F2); [apply N.le_0_l|rewrite N.add_0_l; exact Hd|]. rewrite N.sub_0_r in F1. exists c. split; [assumption|].
    rewrite E2 by nia. unfold offered. destruct (N.ltb_spec (x / bs) (v_chunks v)); [|lia]. rewrite F2. reflexivity.
Qed.

(** ** The sections *)
Lemma sections_keep ho ho2 n file last v l v' cs : ewf_sections ho ho2 n file last v l v' cs -> forall w, v = Some w -> v' = Some w.
Proof. induction 1; intros w Hw; try discriminate; auto. Qed.

Definition image_of (v : option volume) (t : block_tree ewf_range) : ewf_image :=
  match v with
  | None => ewf_image_new
  | Some v => {| ei_block_size := v_chunk_size v; ei_media_size := v_media_size v; ei_identifier := v_identifier v; ei_tree := t |}
  end.
(** The chunks so far are in the tree *)
Definition chunks_in (v : option volume) (cs : list ewf_chunk) (t : block_tree ewf_range) : Prop :=
  match v with
  | None => cs = []
  | Some v => volume_ok v /\ insert_ranges (volume_tree v) (chunk_inserts (v_chunk_size v) 0 cs) = Ok t
  end.
Definition media_end (v : option volume) (cs : list ewf_chunk) : N :=
  match v with None => 0 | Some v => v_chunk_size v * len cs end.
Definition ends_with (l : list (list N * N * N)) (b : bool) : bool :=
  fold_left (fun b x => if same_bytes (fst (fst x)) name_done then true else if same_bytes (fst (fst x)) name_next then false else b) l b.

Section Sections.
  Variables (header header2 : list N -> res unit) (n : N) (file : list N).
  Hypotheses (Hwf : wf_bytes file) (Hlen : len file < two64).
  Let header_ok d := header d = Ok tt.
  Let header2_ok d := header2 d = Ok tt.

  Lemma sections_none last v l v' cs : ewf_sections header_ok header2_ok n file last v l v' cs -> v = None -> v' = None -> cs = [].
  Proof.
    induction 1; intros E E'; try discriminate; auto. subst v'. exfalso.
    pose proof (sections_keep _ _ _ _ _ _ _ _ _ H3 _ eq_refl). discriminate.
  Qed.

  Ltac types := repeat match goal with |- context [same_bytes ?a ?b] =>
    let r := eval vm_compute in (same_bytes a b) in
    match r with true => change (same_bytes a b) with true | false => change (same_bytes a b) with false end end.

  Lemma go_next o e k : o + 76 <= e -> e < two64 -> (file_offset <- add_chk two64 o (e - o) ;; k file_offset) = (k e : res (ewf_image * N * bool)).
  Proof. intros H1 H2. unfold add_chk. replace (o + (e - o)) with e by lia. destruct (N.ltb_spec e two64); [reflexivity|lia]. Qed.

  Lemma sections_ok last v l v' cs : ewf_sections header_ok header2_ok n file last v l v' cs ->
    (forall e, last = Some e -> e < two64) ->
    forall o cs0 t b, contiguous file o l -> chunks_in v cs0 t ->
    (forall w, v' = Some w -> len (cs0 ++ cs) <= v_chunks w) ->
    exists t', ewf_read_sections header header2 n file (map sect l) o last (image_of v t) (media_end v cs0) b =
      Ok (image_of v' t', media_end v' (cs0 ++ cs), ends_with l b) /\ chunks_in v' (cs0 ++ cs) t'.
  Proof.
    induction 1 as [last v|last type o e l v v' cs Hn Ht Hv Hvok Hs IH|last o e l v v' cs Hs IH|last o e l v v' cs base entries offset Htab Hhd Hoff Hok Hs IH
      |last o e l v v' cs base entries Htab Hs IH|last o e l v v' cs Hc Hid Hs IH|last o e l v v' cs Hc Hs IH|last o e l v v' cs Hc Hs IH
      |last o e l v v' cs k Hc Hk Hc2 Hsz He2 Hs IH|last type o e l v v' cs Hn Ht Hsz He2 Hs IH|last type o e l v v' cs Ht Hs IH|last type o e l v v' cs Ht Ht2 Hs IH];
      intros Hlast o0 cs0 t b Hcon Hin Hmax; cbn [contiguous] in Hcon; cbn [map sect ends_with fold_left fst];
      try (destruct Hcon as (-> & He & Hcon); assert (He' : e < two64) by lia).
    - exists t. rewrite app_nil_r. split; [reflexivity|assumption].
    - (* volume *)
      cbn [chunks_in] in Hin. subst cs0 n. cbn [app] in *.
      assert (Hmax' : forall w, v' = Some w -> len ([] ++ cs) <= v_chunks w) by exact Hmax.
      destruct (IH Hlast e [] (volume_tree v) b Hcon) as (t' & E & F); [split; [assumption|reflexivity]|exact Hmax|].
      exists t'. split; [|exact F]. cbn [app] in E. cbn [ewf_read_sections es_type es_size].
      assert (Em : media_end (Some v) [] = media_end None []) by (cbn [media_end]; apply N.mul_0_r). rewrite Em in E.
      assert (Ev : ewf_read_volume 1 file o0 {| es_type := type; es_next := e; es_size := e - o0 |} (image_of None t) = Ok (image_of (Some v) (volume_tree v))).
      { unfold ewf_read_volume. cbn [N.eqb Pos.eqb check bind image_of ewf_image_new ei_block_size ei_media_size negb orb es_size].
        pose proof (volume_at_ok file Hwf Hlen _ _ _ Hv) as Eu. cbv zeta in Eu. rewrite Eu. cbn [bind ev_sectors_per_chunk ev_bytes_per_sector ev_sectors ev_chunks ev_identifier].
        destruct Hvok as (Hb & Hm & Hcs). unfold mul_chk. fold (v_chunk_size v). destruct (N.ltb_spec (v_chunk_size v) two32); [|lia]. cbn [bind].
        assert (Hmm : v_media_size v < two64).
        { destruct Hv as (_ & _ & V3 & V4 & _). unfold v_media_size. rewrite V3, V4.
          pose proof (field_bound file (o0 + 76 + 12) 4 Hwf). pose proof (field_bound file (o0 + 76 + 16) 4 Hwf).
          change (256 ^ 4) with two32 in *. replace two64 with (two32 * two32) by reflexivity. apply N.mul_lt_mono; assumption. }
        fold (v_media_size v). destruct (N.ltb_spec (v_media_size v) two64); [|lia]. cbn [bind].
        destruct (N.ltb_spec (v_chunks v * v_chunk_size v) two64); [|lia]. cbn [bind]. unfold volume_tree. do 2 f_equal.
        destruct Hv as (_ & _ & _ & _ & [(-> & _ & ->)|(-> & _ & ->)]); reflexivity. }
      destruct Ht as [-> | ->]; types; cbn [orb]; cbv iota; rewrite Ev; cbn [bind]; rewrite go_next by lia; exact E.
    - (* sectors *)
      destruct (IH ltac:(intros e0 [= <-]; assumption) e cs0 t b Hcon Hin Hmax) as (t' & E & F). exists t'. split; [|exact F].
      cbn [ewf_read_sections es_type es_size es_next]. types; cbn [orb]; cbv iota. rewrite go_next by lia. exact E.
    - (* table *)
      destruct Hin as [Hvok Hin]. pose proof (sections_keep _ _ _ _ _ _ _ _ _ Hs _ eq_refl) as ->.
      set (end_ := match last with Some last => last | None => e end) in *.
      assert (Hend : end_ < two64) by (unfold end_; destruct last; auto).
      set (new := ewf_table_chunks n base end_ entries) in *.
      specialize (Hmax v eq_refl) as Hm. rewrite !len_app in Hm.
      destruct (tree_ok v (cs0 ++ new) Hvok) as (t1 & T1 & _); [rewrite len_app; lia|].
      assert (T1' := T1). rewrite chunk_inserts_app, insert_app, Hin in T1. cbn [bind] in T1. rewrite N.add_0_l in T1.
      rewrite app_assoc in Hmax |- *.
      destruct (IH Hlast e (cs0 ++ new) t1 b Hcon) as (t' & E & F); [split; assumption|exact Hmax|].
      exists t'. split; [|exact F]. cbn [ewf_read_sections es_type es_size es_next]. types; cbn [orb]; cbv iota.
      assert (Er : ewf_read_table n file o0 {| es_type := name_table; es_next := e; es_size := e - o0 |} last (image_of (Some v) t) (media_end (Some v) cs0) =
        Ok (image_of (Some v) t1, media_end (Some v) (cs0 ++ new))).
      { unfold ewf_read_table. cbn [image_of ei_block_size ei_media_size ei_identifier ei_tree es_size es_next].
        destruct Hvok as (Hb & Hmz & Hcs). destruct (N.eqb_spec (v_chunk_size v) 0); [lia|]. destruct (N.eqb_spec (v_media_size v) 0); [lia|]. cbn [orb negb check bind].
        unfold sub_chk. destruct (N.leb_spec 76 (e - o0)); [|lia]. cbn [bind]. replace (e - o0 - 76) with (e - (o0 + 76)) by lia.
        rewrite (table_ok file Hwf Hlen _ _ _ _ Htab). cbn [bind].
        destruct entries as [|[oe ce] entries]; [contradiction|]. cbn [map hd_error fst] in Hhd. injection Hhd as ->. cbn [map].
        fold end_. assert (Ef : false = (0x80000000 <=? offset)) by (symmetry; apply N.leb_gt; assumption). rewrite Ef.
        assert (Hnl : len new = len entries + 1).
        { unfold new. clear. generalize (offset, ce) as x. revert base. induction entries as [|y entries IH]; intros base [o c]; [reflexivity|].
          change (ewf_table_chunks n base end_ ((o, c) :: y :: entries)) with
            ({| ec_segment := n; ec_offset := base + o; ec_compressed := c; ec_size := let (o', _) := y in o' - o |} :: ewf_table_chunks n base end_ (y :: entries)).
          rewrite !len_cons, IH. reflexivity. }
        assert (Hlim : v_chunk_size v * len cs0 + v_chunk_size v * (len entries + 1) < two64).
        { rewrite <- Hnl. eapply N.le_lt_trans; [|exact Hcs]. rewrite <- N.mul_add_distr_l, (N.mul_comm (v_chunks v)). apply N.mul_le_mono_l. lia. }
        rewrite (read_entries_ok n (v_chunk_size v) base end_ entries Hend offset ce t t1 (media_end (Some v) cs0) Hok T1 Hlim). cbn [bind].
        do 2 f_equal. cbn [media_end]. rewrite len_app, Hnl. lia. }
      rewrite Er. cbn [bind]. rewrite go_next by lia. exact E.
    - (* table2 *)
      destruct (IH Hlast e cs0 t b Hcon Hin Hmax) as (t' & E & F). exists t'. split; [|exact F].
      cbn [ewf_read_sections es_type es_size]. types; cbn [orb]; cbv iota. unfold sub_chk. destruct (N.leb_spec 76 (e - o0)); [|lia]. cbn [bind].
      replace (e - o0 - 76) with (e - (o0 + 76)) by lia. rewrite (table_ok file Hwf Hlen _ _ _ _ Htab). cbn [bind]. rewrite go_next by lia. exact E.
    - (* data *)
      destruct (IH Hlast e cs0 t b Hcon Hin Hmax) as (t' & E & F). exists t'. split; [|exact F].
      cbn [ewf_read_sections es_type es_size]. change (same_bytes name_data ewf_type_data) with true. cbv iota. assert (Hl := proj1 Hc).
      destruct (read_exact_shape file (o0 + 76) 1052) as [[-> _]|[_ H']]; [|lia]. cbn [bind]. unfold ewf_volume_e01_read.
      rewrite (checked_ok file Hwf Hlen (o0 + 76) 1052 1048) by (assumption || lia). cbn [bind]. unfold u32_le. rewrite !u_at by lia. cbn [bind].
      rewrite slice_at by lia. cbn [bind ev_identifier]. change (80 - 64) with 16. rewrite Hid. cbn [image_of ei_identifier]. rewrite same_refl. cbn [check bind].
      change (same_bytes name_data name_done) with false. change (same_bytes name_data name_next) with false. rewrite go_next by lia. exact E.
    - (* digest *)
      destruct (IH Hlast e cs0 t b Hcon Hin Hmax) as (t' & E & F). exists t'. split; [|exact F].
      cbn [ewf_read_sections es_type es_size]. types; cbn [orb]; cbv iota. assert (Hl := proj1 Hc). unfold ewf_digest_read_at.
      destruct (read_exact_shape file (o0 + 76) 80) as [[-> _]|[_ H']]; [|lia]. cbn [bind].
      rewrite (checked_ok file Hwf Hlen (o0 + 76) 80 76) by (assumption || lia). cbn [bind]. rewrite go_next by lia. exact E.
    - (* hash *)
      destruct (IH Hlast e cs0 t b Hcon Hin Hmax) as (t' & E & F). exists t'. split; [|exact F].
      cbn [ewf_read_sections es_type es_size]. types; cbn [orb]; cbv iota. assert (Hl := proj1 Hc). unfold ewf_hash_read_at.
      destruct (read_exact_shape file (o0 + 76) 36) as [[-> _]|[_ H']]; [|lia]. cbn [bind].
      rewrite (checked_ok file Hwf Hlen (o0 + 76) 36 32) by (assumption || lia). cbn [bind]. rewrite go_next by lia. exact E.
    - (* error2 *)
      destruct (IH Hlast e cs0 t b Hcon Hin Hmax) as (t' & E & F). exists t'. split; [|exact F].
      cbn [ewf_read_sections es_type es_size]. types; cbn [orb]; cbv iota. rewrite go_next by lia. exact E.
    - (* header *)
      destruct (IH Hlast e cs0 t b Hcon Hin Hmax) as (t' & E & F). exists t'. split; [|exact F]. subst n.
      cbn [ewf_read_sections es_type es_size].
      destruct Ht as [[-> Hh]|[-> Hh]]; types; cbn [orb]; cbv iota; cbn [N.eqb Pos.eqb check bind]; unfold sub_chk;
        (destruct (N.leb_spec 76 (e - o0)); [|lia]); cbn [bind]; replace (e - o0 - 76) with (e - (o0 + 76)) by lia;
        (destruct (N.ltb_spec (e - (o0 + 76)) 2); [lia|]); (destruct (N.ltb_spec 16777216 (e - (o0 + 76))); [lia|]); cbn [orb negb check bind];
        (destruct (read_exact_shape file (o0 + 76) (e - (o0 + 76))) as [[-> _]|[_ H']]; [|lia]); cbn [bind];
        [unfold header_ok in Hh|unfold header2_ok in Hh]; rewrite Hh; cbn [bind]; rewrite go_next by lia; exact E.
    - (* end *)
      destruct Ht as [-> | ->]; types; cbv iota.
      + destruct (IH Hlast e cs0 t true Hcon Hin Hmax) as (t' & E & F). exists t'. split; [|exact F].
        cbn [ewf_read_sections es_type es_size]. types; cbn [orb]; cbv iota. rewrite go_next by lia. exact E.
      + destruct (IH Hlast e cs0 t false Hcon Hin Hmax) as (t' & E & F). exists t'. split; [|exact F].
        cbn [ewf_read_sections es_type es_size]. types; cbn [orb]; cbv iota. rewrite go_next by lia. exact E.
    - (* other *)
      destruct (IH Hlast e cs0 t b Hcon Hin Hmax) as (t' & E & F).
      assert (Hno : forall x, In x ewf_names -> same_bytes type x = false) by (intros x Hx; apply same_false; intros ->; contradiction).
      assert (Hes : same_bytes type ewf_type_error2 = false) by (apply same_false; exact Ht2).
      exists t'. split; [|exact F]. cbn [ewf_read_sections es_type es_size]. rewrite Hes.
      change ewf_type_data with name_data. change ewf_type_digest with name_digest. change ewf_type_disk with name_disk. change ewf_type_volume with name_volume.
      change ewf_type_done with name_done. change ewf_type_hash with name_hash. change ewf_type_header with name_header. change ewf_type_header2 with name_header2.
      change ewf_type_next with name_next. change ewf_type_sectors with name_sectors. change ewf_type_table with name_table. change ewf_type_table2 with name_table2.
      rewrite !Hno by (cbn [ewf_names In]; tauto). cbn [orb]. rewrite go_next by lia. exact E.
  Qed.
End Sections.

(** ** The segment files *)
Fixpoint numbered_files (n : N) (files : list (list N)) : list (N * option (list N)) :=
  match files with [] => [] | f :: files => (n, Some f) :: numbered_files (n + 1) files end.
Lemma numbered_app a : forall n b, numbered_files n (a ++ b) = numbered_files n a ++ numbered_files (n + len a) b.
Proof.
  induction a as [|f a IH]; intros n b; cbn [app numbered_files]; [f_equal; rewrite len_nil; lia|]. rewrite IH. do 3 f_equal. rewrite len_cons. lia.
Qed.
Lemma numbered_length files : forall n, length (numbered_files n files) = length files.
Proof. induction files as [|f files IH]; intros n; [reflexivity|]. cbn [numbered_files length]. now rewrite IH. Qed.
Lemma numbered_keys files : forall n e, In e (numbered_files n files) -> n <= fst e < n + len files.
Proof.
  induction files as [|f files IH]; intros n e H; [destruct H|]. rewrite len_cons. cbn [numbered_files In] in H. destruct H as [<-|H]; [cbn [fst]; lia|].
  specialize (IH _ _ H). lia.
Qed.
Lemma numbered_skip files : forall n j, (j <= length files)%nat -> skipn j (numbered_files n files) = numbered_files (n + N.of_nat j) (skipn j files).
Proof.
  induction files as [|f files IH]; intros n j H; cbn [length] in H.
  - destruct j; [|lia]. cbn. reflexivity.
  - destruct j as [|j]; [cbn [skipn]; f_equal; lia|]. cbn [skipn numbered_files]. rewrite IH by lia. f_equal. lia.
Qed.
Lemma skipn_nth {A} (l : list A) : forall n i, nth_error (skipn n l) i = nth_error l (n + i).
Proof. induction l as [|a l IH]; intros [|n] i; cbn; try reflexivity; [destruct i; reflexivity|apply IH]. Qed.
Lemma numbered_find files : forall n k, find_entry (numbered_files n files) k =
  if k <? n then None else option_map Some (nth_error files (N.to_nat (k - n))).
Proof.
  induction files as [|f files IH]; intros n k.
  - cbn. destruct (k <? n); [reflexivity|]. destruct (N.to_nat (k - n)); reflexivity.
  - unfold find_entry in *. cbn [numbered_files find fst]. destruct (N.eqb_spec n k) as [->|Hne].
    + rewrite N.ltb_irrefl, N.sub_diag. reflexivity.
    + rewrite IH. destruct (N.ltb_spec k n), (N.ltb_spec k (n + 1)); try lia; auto.
      replace (N.to_nat (k - n)) with (S (N.to_nat (k - (n + 1)))) by lia. reflexivity.
Qed.

(** The segment files that are in the cache once [files] were put in it. *)
Definition cached_files (files : list (list N)) : list (N * option (list N)) := skipn (length files - 16) (numbered_files 1 files).
Lemma cached_files_add files f : fifo_fill 16 (cached_files files) (1 + len files, Some f) = cached_files (files ++ [f]).
Proof.
  unfold fifo_fill, cached_files. cbn [fst].
  assert (En : find_entry (skipn (length files - 16) (numbered_files 1 files)) (1 + len files) = None).
  { apply find_entry_not_in. intros H. apply in_map_iff in H as (e & Ee & He).
    assert (He' : In e (numbered_files 1 files)) by (rewrite <- (firstn_skipn (length files - 16) (numbered_files 1 files)); apply in_or_app; right; exact He).
    apply numbered_keys in He'. lia. }
  rewrite En. rewrite app_length. cbn [length]. rewrite numbered_app. cbn [numbered_files].
  unfold len at 1. rewrite skipn_length, numbered_length.
  destruct (N.eqb_spec (N.of_nat (length files - (length files - 16))) 16) as [H|H].
  - replace (length files + 1 - 16)%nat with (S (length files - 16)) by lia.
    rewrite skipn_app, numbered_length.
    replace (S (length files - 16) - length files)%nat with 0%nat by lia. change (skipn 0 [(1 + len files, Some f)]) with [(1 + len files, Some f)]. f_equal.
    replace (S (length files - 16)) with (1 + (length files - 16))%nat by lia. rewrite <- skipn_skipn. destruct (skipn (length files - 16) (numbered_files 1 files)); reflexivity.
  - replace (length files + 1 - 16)%nat with 0%nat by lia. replace (length files - 16)%nat with 0%nat by lia. reflexivity.
Qed.
Lemma cached_find files k : find_entry (cached_files files) k =
  if k <=? len files - 16 then None else if k =? 0 then None else option_map Some (nth_error files (N.to_nat (k - 1))).
Proof.
  unfold cached_files. rewrite numbered_skip by lia. rewrite numbered_find. unfold len. destruct (N.ltb_spec k (1 + N.of_nat (length files - 16))) as [H|H].
  - destruct (N.leb_spec k (N.of_nat (length files) - 16)); [reflexivity|]. destruct (N.eqb_spec k 0); [reflexivity|lia].
  - destruct (N.leb_spec k (N.of_nat (length files) - 16)); [lia|]. destruct (N.eqb_spec k 0); [lia|]. f_equal.
    rewrite skipn_nth. f_equal. lia.
Qed.

Lemma ends_done l b : l <> [] -> ewf_last_type l = name_done -> ends_with l b = true.
Proof.
  intros Hl H. destruct (exists_last Hl) as (l' & x & ->). unfold ewf_last_type in H. rewrite last_last in H.
  unfold ends_with. rewrite fold_left_app. cbn [fold_left]. rewrite H. reflexivity.
Qed.
Lemma ends_next l b : l <> [] -> ewf_last_type l = name_next -> ends_with l b = false.
Proof.
  intros Hl H. destruct (exists_last Hl) as (l' & x & ->). unfold ewf_last_type in H. rewrite last_last in H.
  unfold ends_with. rewrite fold_left_app. cbn [fold_left]. rewrite H. reflexivity.
Qed.
Lemma layout_nonempty file o l : ewf_layout file o l -> l <> [].
Proof. destruct 1; discriminate. Qed.

Definition schema_names (schema : naming_schema) : list (list N) := extensions (schema_base schema) (schema_first schema).
Lemma schema_name_ok schema n e : 1 <= n -> nth_error (schema_names schema) (N.to_nat (n - 1)) = Some e ->
  get_segment_file_extension n schema = Ok e /\ n < 14972.
Proof.
  intros Hn H. pose proof (C41_follows_the_sequence schema n) as E. destruct (N.eqb_spec n 0); [lia|]. unfold schema_names in H. rewrite H in E. cbn [of_option] in E.
  split; [assumption|]. destruct (C41_limits schema n) as [_ L]. destruct (N.ltb_spec n 14972); [assumption|]. exfalso.
  assert (get_segment_file_extension n schema = Err); [|congruence]. apply L. right. destruct schema; lia.
Qed.

Section Segments.
  Variables (header header2 : list N -> res unit) (resolve : list N -> res (option (list N))) (find : list N -> option (list N)) (schema : naming_schema).
  Hypothesis Hres : forall e f, find e = Some f -> resolve e = Ok (Some f).

  Lemma segments_bound n v v' files cs : ewf_segments (fun d => header d = Ok tt) (fun d => header2 d = Ok tt) find (schema_names schema) n v v' files cs ->
    1 <= n -> n + len files <= 14972.
  Proof.
    induction 1 as [n e file l v v' cs He Hf Hwf Hl Hat Hlay Hend Hsec|n e file l v v1 v' cs files cs' He Hf Hwf Hl Hat Hlay Hend Hsec Hseg IH]; intros Hn;
      destruct (schema_name_ok schema n e Hn He) as [_ Hb]; rewrite len_cons.
    - rewrite len_nil. lia.
    - specialize (IH ltac:(lia)). lia.
  Qed.

  Lemma segments_keep n v v' files cs : ewf_segments (fun d => header d = Ok tt) (fun d => header2 d = Ok tt) find (schema_names schema) n v v' files cs ->
    forall w, v = Some w -> v' = w.
  Proof.
    induction 1 as [n e file l v v' cs He Hf Hwf Hl Hat Hlay Hend Hsec|n e file l v v1 v' cs files cs' He Hf Hwf Hl Hat Hlay Hend Hsec Hseg IH]; intros w ->;
      pose proof (sections_keep _ _ _ _ _ _ _ _ _ Hsec _ eq_refl) as E; [congruence|]. auto.
  Qed.

  Lemma segments_ok n v v' files cs : ewf_segments (fun d => header d = Ok tt) (fun d => header2 d = Ok tt) find (schema_names schema) n v v' files cs ->
    forall before cs0 t cache fuel, n = 1 + len before -> (length files <= fuel)%nat -> chunks_in v cs0 t -> len (cs0 ++ cs) <= v_chunks v' ->
    lru_size cache = 16 -> fifo_rel cache (cached_files before) ->
    exists t' cache', ewf_read_segments header header2 fuel resolve schema n (image_of v t) (media_end v cs0) cache = Ok (image_of (Some v') t', cache') /\
      chunks_in (Some v') (cs0 ++ cs) t' /\ lru_size cache' = 16 /\ fifo_rel cache' (cached_files (before ++ files)).
  Proof.
    induction 1 as [n e file l v v' cs He Hf Hwf Hl Hat Hlay Hend Hsec|n e file l v v1 v' cs files cs' He Hf Hwf Hl Hat Hlay Hend Hsec Hseg IH];
      intros before cs0 t cache fuel Hn Hfuel Hin Hmax Hsz Hrel; (destruct fuel as [|fuel]; [cbn in Hfuel; lia|]); cbn [ewf_read_segments];
      destruct (schema_name_ok schema n e ltac:(lia) He) as [Ee Hb]; rewrite Ee; cbn [bind]; rewrite (Hres e file Hf); cbn [bind of_option];
      rewrite (file_read_ok file Hwf Hl n l Hat Hlay); cbn [bind]; rewrite N.eqb_refl; cbn [check bind].
    - destruct (sections_ok header header2 n file Hwf Hl _ _ _ _ _ Hsec ltac:(discriminate) 13 cs0 t false (proj2 (layout_bounds file Hl 13 l Hlay)) Hin) as (t' & E & F).
      { intros w [= <-]. assumption. }
      rewrite E. cbn [bind]. rewrite (ends_done l false (layout_nonempty file 13 l Hlay) Hend).
      destruct (fill_refines cache (cached_files before) (n, Some file)) as (cache' & C1 & C2 & C3); [lia|assumption|]. cbn [fst snd] in C1.
      assert (Hc : lru_contains cache n = false).
      { unfold lru_contains. destruct Hrel as (_ & _ & _ & ->). rewrite cached_find. rewrite Hn.
        destruct (_ <=? _); [reflexivity|]. destruct (_ =? 0); [reflexivity|]. rewrite (proj2 (nth_error_None before _)); [reflexivity|unfold len; lia]. }
      unfold lru_fill in C1. rewrite Hc in C1. rewrite C1. cbn [bind]. unfold add_chk. destruct (N.ltb_spec (n + 1) two16); [|unfold two16 in *; lia]. cbn [bind].
      exists t', cache'. split; [reflexivity|]. split; [assumption|]. split; [congruence|]. rewrite Hsz in C3. rewrite <- cached_files_add, <- Hn. exact C3.
    - assert (Hv1 : forall w, v1 = Some w -> v' = w) by (intros w ->; eapply segments_keep; [exact Hseg|reflexivity]).
      destruct (sections_ok header header2 n file Hwf Hl _ _ _ _ _ Hsec ltac:(discriminate) 13 cs0 t false (proj2 (layout_bounds file Hl 13 l Hlay)) Hin) as (t' & E & F).
      { intros w Hw. rewrite <- (Hv1 w Hw). rewrite !len_app in *. lia. }
      rewrite E. cbn [bind]. rewrite (ends_next l false (layout_nonempty file 13 l Hlay) Hend).
      destruct (fill_refines cache (cached_files before) (n, Some file)) as (cache' & C1 & C2 & C3); [lia|assumption|]. cbn [fst snd] in C1.
      assert (Hc : lru_contains cache n = false).
      { unfold lru_contains. destruct Hrel as (_ & _ & _ & ->). rewrite cached_find. rewrite Hn.
        destruct (_ <=? _); [reflexivity|]. destruct (_ =? 0); [reflexivity|]. rewrite (proj2 (nth_error_None before _)); [reflexivity|unfold len; lia]. }
      unfold lru_fill in C1. rewrite Hc in C1. rewrite C1. cbn [bind]. unfold add_chk. destruct (N.ltb_spec (n + 1) two16); [|unfold two16 in *; lia]. cbn [bind].
      rewrite Hsz in C3. rewrite Hn, cached_files_add in C3. rewrite app_assoc in Hmax.
      destruct (IH (before ++ [file]) (cs0 ++ cs) t' cache' fuel) as (t'' & cache'' & E' & F' & G' & R'); try assumption.
      { rewrite len_app, len_cons, len_nil. lia. }
      { cbn [length] in Hfuel. lia. }
      { congruence. }
      exists t'', cache''. split; [exact E'|]. rewrite <- !app_assoc in *. cbn [app] in *. auto.
  Qed.
End Segments.

(** ** Reads *)
Lemma full_nth bs : 0 < bs -> forall datas, ewf_full bs datas -> Forall (fun d => len d <= bs) datas ->
  forall x, x < len (concat datas) -> exists d, nth_error datas (N.to_nat (x / bs)) = Some d /\
  bytes_at (concat datas) (x / bs * bs) (len d) = d /\ (x / bs * bs + len d = len (concat datas) \/ len d = bs).
Proof.
  intros Hbs. induction datas as [|d datas IH]; intros Hf Hle x Hx; [cbn in Hx; lia|].
  apply Forall_cons_iff in Hle as [Hd Hle]. cbn [concat] in *. destruct datas as [|d' datas].
  - cbn [concat] in *. rewrite app_nil_r in *. rewrite (N.div_small x bs) by lia. exists d. split; [reflexivity|]. rewrite N.mul_0_l.
    split; [|left; lia]. unfold bytes_at. cbn [skipn N.to_nat]. rewrite <- (firstn_all d) at 3. unfold len. now rewrite Nat2N.id.
  - unfold ewf_full in *. change (removelast (d :: d' :: datas)) with (d :: removelast (d' :: datas)) in Hf. apply Forall_cons_iff in Hf as [Ed Hf].
    rewrite len_app in *. destruct (N.ltb_spec x bs).
    + rewrite (N.div_small x bs) by lia. exists d. split; [reflexivity|]. rewrite N.mul_0_l. split; [|right; assumption].
      unfold bytes_at. cbn [skipn N.to_nat]. unfold len. rewrite Nat2N.id, firstn_app, Nat.sub_diag, firstn_all. cbn. apply app_nil_r.
    + destruct (IH Hf Hle (x - bs)) as (d0 & E1 & E2 & E3); [lia|].
      assert (Ex : x / bs = (x - bs) / bs + 1). { replace x with (x - bs + 1 * bs) at 1 by lia. rewrite N.div_add by lia. reflexivity. }
      rewrite Ex. exists d0. split; [rewrite N.add_1_r, N2Nat.inj_succ; exact E1|]. split.
      * rewrite <- E2 at 2. unfold bytes_at. f_equal. rewrite skipn_app.
        assert (length d = N.to_nat bs) by (unfold len in Ed; lia).
        assert (Hge : (length d <= N.to_nat (((x - bs) / bs + 1) * bs))%nat) by (clear - H0; generalize ((x - bs) / bs); intros; rewrite N.mul_add_distr_r; lia).
        rewrite skipn_all2 by assumption. cbn [app]. f_equal. rewrite H0. clear. generalize ((x - bs) / bs). intros. rewrite N.mul_add_distr_r. lia.
      * destruct E3 as [E3|E3]; [left|right; assumption]. rewrite N.mul_add_distr_r. lia.
Qed.

Lemma forall2_nth {A B} (P : A -> B -> Prop) l l' : Forall2 P l l' -> forall i b, nth_error l' i = Some b -> exists a, nth_error l i = Some a /\ P a b.
Proof.
  induction 1 as [|a b0 l l' H Hs IH]; intros [|i] b E; try discriminate.
  - injection E as ->. exists a. auto.
  - exact (IH _ _ E).
Qed.
Lemma skipn_repeat_N {A} (a : A) n : forall m, skipn n (repeat a m) = repeat a (m - n).
Proof. induction n as [|n IH]; intros [|m]; cbn; auto. Qed.

Section Reads.
  Variables (files : list (list N)) (v : volume) (cs : list ewf_chunk) (datas : list (list N)) (t : block_tree ewf_range) (segments : ewf_cache).
  Hypotheses (Hfiles : Forall (fun f => wf_bytes f /\ len f < two64) files) (Hv : volume_ok v).
  Hypothesis Htree : forall x, x < v_chunk_size v * len cs ->
    exists c, nth_error cs (N.to_nat (x / v_chunk_size v)) = Some c /\ bt_get t x = Ok (Some (chunk_range (x / v_chunk_size v * v_chunk_size v) c)).
  Hypothesis Hholds : Forall2 (ewf_chunk_holds files (v_chunk_size v)) cs datas.
  Hypotheses (Hfull : ewf_full (v_chunk_size v) datas) (Hdiff : ewf_offsets_differ cs datas) (Hmedia : v_media_size v <= len (concat datas)).

  Let bs := v_chunk_size v.
  Definition padded (d : list N) : list N := d ++ repeat 0 (N.to_nat (bs - len d)).
  Definition of_chunk (k : N) (data : list N) : Prop :=
    exists i c d, nth_error cs i = Some c /\ nth_error datas i = Some d /\ ec_compressed c = true /\ ec_offset c = k /\ data = padded d.


  Lemma bs_pos : 0 < bs < two32.
  Proof. exact (proj1 Hv). Qed.
  Lemma len_padded d : len d <= bs -> len (padded d) = bs.
  Proof. intros H. unfold padded. rewrite len_app, len_repeat. lia. Qed.
  Lemma padded_at d o n : o + n <= len d -> bytes_at (padded d) o n = bytes_at d o n.
  Proof.
    intros H. unfold padded, bytes_at. rewrite skipn_app, firstn_app. rewrite skipn_length.
    replace (N.to_nat n - (length d - N.to_nat o))%nat with 0%nat by (unfold len in H; lia). apply app_nil_r.
  Qed.

  Lemma chunk_decompressed c d : ewf_chunk_holds files bs c d -> ec_compressed c = true -> exists file,
    nth_error files (N.to_nat (ec_segment c - 1)) = Some file /\ ec_offset c + ec_size c <= len file /\
    exists n, zlib_decompress (bytes_at file (ec_offset c) (ec_size c)) (repeat 0 (N.to_nat bs)) = Ok (padded d, n).
  Proof.
    intros (_ & file & Hfile & Hlen & H) Ec. rewrite Ec in H. destruct H as (H1 & header & body & trailer & following & blocks & E & Hz & Ed & Hend).
    exists file. split; [assumption|]. split; [assumption|].
    assert (Hw : wf_bytes (repeat 0 (N.to_nat bs))) by (apply Forall_forall; intros x Hx; apply repeat_spec in Hx as ->; reflexivity).
    assert (Hb : len (repeat 0 (N.to_nat bs)) = bs) by (rewrite len_repeat; lia).
    rewrite E. subst d. destruct Hend as [->|[Hfull' Had]].
    - rewrite app_nil_r. rewrite (C11_checksum_ignored_at_the_end _ _ _ _ _ Hz Hw) by lia. eexists. repeat f_equal. unfold padded. f_equal.
      clear - Hlen. rewrite skipn_repeat_N. f_equal. unfold len in *. lia.
    - destruct following as [|f following].
      + rewrite app_nil_r. rewrite (C11_checksum_ignored_at_the_end _ _ _ _ _ Hz Hw) by lia. eexists. repeat f_equal. unfold padded. f_equal.
        clear - Hlen. rewrite skipn_repeat_N. f_equal. unfold len in *. lia.
      + rewrite (C11_checksum_with_following_data_partial _ _ _ _ _ _ Hz ltac:(discriminate) Hw) by lia. rewrite Had, N.eqb_refl. eexists. repeat f_equal.
        unfold padded. rewrite Hfull', N.sub_diag. symmetry. apply app_nil_r.
  Qed.

  Variable (Hseg : forall k f, 1 <= k -> nth_error files (N.to_nat (k - 1)) = Some f -> lru_get segments k = Some (Some f)).

  Lemma ewf_step_exact : exact_step (fun s => fst s = segments /\ cache_ok of_chunk 64 (snd s)) (v_media_size v) (concat datas) (ewf_step (image_of (Some v) t)).
  Proof.
    intros [seg c] o n [Hseg' Hc] Ho Hn Hon. cbn [fst snd] in *. subst seg. pose proof bs_pos as Hbs.
    assert (Hle : Forall (fun d => len d <= bs) datas).
    { apply Forall_forall. intros d Hd. apply In_nth_error in Hd as (i & Hi). destruct (forall2_nth _ _ _ Hholds _ _ Hi) as (c0 & _ & _ & f & _ & H & _). exact H. }
    destruct (full_nth bs ltac:(lia) datas Hfull Hle o ltac:(lia)) as (d & Hd & Hdat & Hend).
    destruct (forall2_nth _ _ _ Hholds _ _ Hd) as (ch & Hch & Hcd). fold bs in Hcd.
    assert (Hoc : o < bs * len cs).
    { assert (Hl : (N.to_nat (o / bs) < length cs)%nat) by (apply nth_error_Some; congruence). pose proof (N.mul_succ_div_gt o bs ltac:(lia)) as G.
      eapply N.lt_le_trans; [exact G|]. apply N.mul_le_mono_l. unfold len. lia. }
    destruct (Htree o Hoc) as (ch' & Hch' & Hget). fold bs in Hch', Hget. rewrite Hch in Hch'. injection Hch' as <-.
    unfold ewf_step, image_of. cbn [ei_tree ei_block_size]. rewrite Hget. cbn [bind of_option chunk_range er_segment er_media_offset er_data_offset er_data_size er_compressed].
    destruct Hcd as (Hs1 & file & Hfile & Hlen & Hkind) eqn:Ehc. clear Ehc.
    pose proof (Hseg _ _ Hs1 Hfile) as Hg. assert (Hcon : lru_contains segments (ec_segment ch) = true) by (unfold lru_contains, lru_get in *; rewrite Hg; reflexivity).
    rewrite Hcon. cbn [bind chunk_range er_segment er_media_offset er_data_offset er_data_size er_compressed]. rewrite Hg. cbn [of_option bind].
    pose proof (N.div_mod o bs ltac:(lia)) as Dm. pose proof (N.mod_lt o bs ltac:(lia)) as Dl. rewrite (N.mul_comm bs) in Dm.
    set (b := o / bs * bs) in *. set (rel := o mod bs) in *. clearbody b rel.
    unfold sub_chk. destruct (N.leb_spec b o); [|lia]. cbn [bind]. fold bs. destruct (N.leb_spec (o - b) bs); [|lia]. cbn [bind].
    replace (o - b) with rel by lia. set (k := N.min n (bs - rel)). assert (Hk : 0 < k <= n /\ k <= bs - rel) by (unfold k; lia). clearbody k.
    assert (Hrk : rel + k <= len d) by lia.
    assert (Ec : bytes_at (concat datas) o k = bytes_at d rel k) by (rewrite <- Hdat, bytes_at_bytes_at by lia; f_equal; lia).
    destruct (ec_compressed ch) eqn:Ecm.
    - assert (Hch2 : ewf_chunk_holds files bs ch d) by (split; [assumption|]; exists file; rewrite Ecm; auto).
      assert (Hcach : exists c', ewf_cached {| ei_block_size := v_chunk_size v; ei_media_size := v_media_size v; ei_identifier := v_identifier v; ei_tree := t |}
                (Some file) c (chunk_range b ch) = (c', Ok (padded d)) /\ cache_ok of_chunk 64 c').
      { unfold ewf_cached. cbn [chunk_range er_data_offset er_data_size ei_block_size]. destruct (lru_contains c (ec_offset ch)) eqn:Ect.
        - unfold lru_contains in Ect. destruct (hm_get (lru_values c) (ec_offset ch)) as [data|] eqn:Eh; [|discriminate].
          exists c. unfold lru_get. rewrite Eh. cbn [of_option]. split; [|assumption]. do 2 f_equal.
          destruct Hc as (_ & _ & Hc). destruct (Hc _ _ Eh) as (i & ch' & d' & G1 & G2 & G3 & G4 & ->). f_equal.
          exact (Hdiff _ _ _ _ _ _ G1 Hch G2 Hd G3 Ecm G4).
        - destruct (chunk_decompressed ch d Hch2 Ecm) as (file' & F1 & F2 & m & F3). rewrite Hfile in F1. injection F1 as <-.
          unfold ewf_segment_read. cbn [of_option bind]. destruct (read_exact_shape file (ec_offset ch) (ec_size ch)) as [[-> _]|[_ H']]; [|lia]. cbn [bind].
          fold bs. rewrite F3. cbn [bind].
          destruct (cache_ok_insert of_chunk 64 c (ec_offset ch) (padded d)) as (c' & I1 & I2 & I3); [lia|assumption| |].
          { exists (N.to_nat (o / bs)), ch, d. auto. }
          exists c'. rewrite I1, I3. cbn [of_option]. auto. }
      fold bs in Hcach. destruct Hcach as (c' & -> & Hc'). cbn [bind]. exists (segments, c'), k. split; [|split; [split; [reflexivity|assumption]|lia]].
      rewrite slice_bytes_at by (rewrite ?len_padded; lia). replace (rel + k - rel) with k by lia. rewrite padded_at, Ec by lia. reflexivity.
    - destruct Hkind as [K1 K2]. exists (segments, c), k. split; [|split; [split; [reflexivity|assumption]|lia]].
      rewrite Forall_forall in Hfiles. destruct (Hfiles file (nth_error_In _ _ Hfile)) as [_ Hf64].
      unfold add_chk. destruct (N.ltb_spec (ec_offset ch + rel) two64); [|lia]. cbn [bind]. unfold ewf_segment_read. cbn [of_option bind].
      destruct (read_exact_shape file (ec_offset ch + rel) k) as [[-> _]|[_ H']]; [|lia].
      rewrite Ec, K2, bytes_at_bytes_at by lia. reflexivity.
  Qed.
End Reads.
