From Verif Require Import Base BaseLemmas Bytes_model Checksums_model Checksums_spec Checksums_proofs Uuid_model
  Strings_model Streams_spec Streams_proofs Blocks_model Part_model Part_spec Fat_proofs Uuid_proofs Strings_proofs.
Ltac Zify.zify_post_hook ::= idtac.

(** ** Fields *)
Lemma le_field n data e : e + n <= len data -> len data < two64 ->
  bytes_to_uint_le n data e = Ok (field data e n).
Proof.
  intros H1 H2. unfold bytes_to_uint_le, add_chk. destruct (N.ltb_spec (e + n) two64); [|lia].
  cbn [bind]. rewrite slice_ok by lia. cbn [bind]. unfold field, bytes_at. do 3 f_equal. lia.
Qed.
Lemma be_field n data e : e + n <= len data -> len data < two64 ->
  bytes_to_uint_be n data e = Ok (field_be data e n).
Proof.
  intros H1 H2. unfold bytes_to_uint_be, add_chk. destruct (N.ltb_spec (e + n) two64); [|lia].
  cbn [bind]. rewrite slice_ok by lia. cbn [bind]. unfold field_be, bytes_at. do 3 f_equal. lia.
Qed.
Lemma slice_bytes_at (data : list N) a b : a <= b -> b <= len data -> slice data a b = Ok (bytes_at data a (b - a)).
Proof. intros H1 H2. now rewrite slice_ok. Qed.
Lemma idx_field data i : i < len data -> idx data i = Ok (field data i 1).
Proof.
  intros H. rewrite (idx_ok _ _ 0) by assumption. f_equal. unfold field, bytes_at. unfold len in H.
  change (N.to_nat 1) with 1%nat. set (k := N.to_nat i). assert (Hk : (k < length data)%nat) by lia. clearbody k. clear H.
  revert k Hk. induction data as [|x data IH]; intros k Hk; [cbn in Hk; lia|].
  destruct k; cbn [nth skipn firstn]; [cbn [le_value]; lia|]. apply IH. cbn in Hk. lia.
Qed.
Lemma field_inner data o m e n : e + n <= m -> field (bytes_at data o m) e n = field data (o + e) n.
Proof. intros H. unfold field. now rewrite bytes_at_bytes_at by assumption. Qed.
Lemma field_be_inner data o m e n : e + n <= m -> field_be (bytes_at data o m) e n = field_be data (o + e) n.
Proof. intros H. unfold field_be. now rewrite bytes_at_bytes_at by assumption. Qed.
Lemma field_bound data o n : wf_bytes data -> field data o n < 2 ^ (8 * n).
Proof.
  intros Hw. unfold field. pose proof (le_value_bound (bytes_at data o n) (wf_bytes_at _ _ _ Hw)) as B.
  eapply N.lt_le_trans; [exact B|]. rewrite <- pow2_8. apply N.pow_le_mono_r; [lia|].
  rewrite len_bytes_at. lia.
Qed.
Lemma same_true a b : same a b = true <-> a = b.
Proof. unfold same. destruct (list_eq_dec _ _ _); intuition; discriminate. Qed.
Lemma read_exact_shape volume o n :
  (read_exact_at volume o n = Ok (bytes_at volume o n) /\ o + n <= len volume) \/
  (read_exact_at volume o n = Err /\ len volume < o + n).
Proof. unfold read_exact_at, read_at. destruct (N.leb_spec (o + n) (len volume)); [left|right]; auto. Qed.

(** ** MBR *)
Definition raw_entry (e : table_entry) : mbr_entry :=
  {| me_index := 0; me_flags := te_flags e; me_type := te_type e; me_start := te_start e; me_sectors := te_sectors e |}.

Lemma mbr_entry_decode data : len data = 16 ->
  mbr_entry_read data = Ok (raw_entry (entry_at data 0)).
Proof.
  intros Hl. unfold mbr_entry_read. rewrite Hl. change (16 =? 16) with true. cbn [check bind].
  rewrite !idx_field by lia. unfold u32_le. rewrite !le_field by (rewrite Hl; unfold two64; lia). reflexivity.
Qed.
Lemma entry_at_inner data o m e : e + 16 <= m -> entry_at (bytes_at data o m) e = entry_at data (o + e).
Proof.
  intros H. unfold entry_at. rewrite !field_inner by lia. f_equal; f_equal; lia.
Qed.
Lemma boot_record_shape volume o :
  (boot_record volume o /\ exists id, boot_record_at volume o = Ok (id, map raw_entry (table_entries volume o))) \/
  (~ boot_record volume o /\ boot_record_at volume o = Err).
Proof.
  unfold boot_record_at, boot_record. destruct (read_exact_shape volume o 512) as [[-> H]|[-> H]]; cbn [bind].
  2: { right. split; [|reflexivity]. lia. }
  assert (L : len (bytes_at volume o 512) = 512) by (rewrite len_bytes_at; lia).
  unfold boot_record_read. rewrite L. change (512 =? 512) with true. cbn [check bind].
  rewrite slice_bytes_at by lia. cbn [bind]. change (512 - 510) with 2. rewrite bytes_at_bytes_at by lia.
  destruct (same (bytes_at volume (o + 510) 2) [0x55; 0xaa]) eqn:Es; cbn [check bind].
  - left. apply same_true in Es. split; [auto|]. unfold u32_le. rewrite le_field by (rewrite L; unfold two64; lia). cbn [bind].
    eexists. cbn [mbr_entries_read].
    rewrite !slice_bytes_at by lia. cbn [bind].
    rewrite !mbr_entry_decode by (rewrite len_bytes_at; lia). cbn [bind].
    rewrite !(entry_at_inner (bytes_at volume o 512)) by lia. rewrite !entry_at_inner by lia. rewrite !N.add_0_r.
    unfold table_entries. cbn [map]. do 3 f_equal; [|f_equal; [|f_equal; [|f_equal]]]; do 2 f_equal; lia.
  - right. split; [|reflexivity]. intros [_ E]. apply same_true in E. congruence.
Qed.

Definition te_ok (e : table_entry) : Prop := te_start e < two32 /\ te_sectors e < two32.
Lemma table_entries_ok volume o : wf_bytes volume -> Forall te_ok (table_entries volume o).
Proof.
  intros Hw. unfold table_entries. apply Forall_map. apply Forall_forall. intros i _.
  split; unfold entry_at; cbn [te_start te_sectors]; apply (field_bound volume _ 4 Hw).
Qed.
Lemma filter_ok {A} (P : A -> Prop) f l : Forall P l -> Forall P (filter f l).
Proof.
  intros H. rewrite Forall_forall in *. intros x Hx. apply filter_In in Hx as [Hx _]. auto.
Qed.

(** What is kept of entries: all but the index. *)
Definition unraw (e : mbr_entry) : table_entry :=
  {| te_flags := me_flags e; te_type := me_type e; te_start := me_start e; te_sectors := me_sectors e |}.

Lemma mbr_primary_ok bps : 0 < bps -> forall es i x, Forall te_ok es ->
  match filter extended es with
  | [] => exists kept, mbr_primary bps (map raw_entry es) i x = Ok (kept, x) /\
            map unraw kept = filter (fun e => used e && negb (extended e)) es /\
            Forall (fun e => i <= me_index e < i + len es) kept
  | [e] => x = 0 -> exists kept, mbr_primary bps (map raw_entry es) i x = Ok (kept, te_start e * bps) /\
            map unraw kept = filter (fun e => used e && negb (extended e)) es /\
            Forall (fun e => i <= me_index e < i + len es) kept
  | e :: _ => x = 0 -> te_start e <> 0 -> mbr_primary bps (map raw_entry es) i x = Err
  end.
Proof.
  intros Hb. induction es as [|e es IH]; intros i x Hok.
  - cbn. exists []. split; [reflexivity|]. split; [reflexivity|constructor].
  - apply Forall_cons_iff in Hok as [_ Hok]. cbn [map mbr_primary filter].
    assert (Ee : is_extended (raw_entry e) = extended e) by reflexivity. rewrite Ee.
    assert (Hw : forall kept, Forall (fun e => i + 1 <= me_index e < i + 1 + len es) kept ->
      Forall (fun e0 => i <= me_index e0 < i + len (e :: es)) kept).
    { intros kept. apply Forall_impl. intros a. rewrite len_cons. lia. }
    destruct (extended e) eqn:Ex.
    + assert (Hu : used e && negb true = false) by (rewrite andb_false_r; reflexivity). rewrite Hu.
      change (me_start (raw_entry e)) with (te_start e).
      specialize (IH (i + 1) (te_start e * bps) Hok).
      destruct (filter extended es) as [|e2 rest] eqn:Ef.
      * intros ->. destruct (N.eqb_spec bps 0); [lia|]. cbn [negb check bind]. change (0 =? 0) with true. cbn [check bind].
        destruct IH as (kept & E & H1 & H2). exists kept. auto.
      * intros -> Hs. destruct (N.eqb_spec bps 0); [lia|]. cbn [negb check bind]. change (0 =? 0) with true. cbn [check bind].
        clear IH Hw Hok. revert i. induction es as [|e3 es IH]; intros i; [discriminate|].
        cbn [filter] in Ef. cbn [map mbr_primary]. change (is_extended (raw_entry e3)) with (extended e3).
        destruct (extended e3).
        -- destruct (N.eqb_spec bps 0); [lia|]. cbn [negb check bind]. destruct (N.eqb_spec (te_start e * bps) 0); [nia|]. reflexivity.
        -- specialize (IH Ef (i + 1)). rewrite IH. reflexivity.
    + cbn [negb]. rewrite andb_true_r. specialize (IH (i + 1) x Hok).
      change (me_type (raw_entry e)) with (te_type e).
      set (own := {| me_index := i; me_flags := me_flags (raw_entry e); me_type := te_type e;
                     me_start := me_start (raw_entry e); me_sectors := me_sectors (raw_entry e) |}).
      assert (K : forall kept, map unraw kept = filter (fun e => used e && negb (extended e)) es ->
         Forall (fun e => i + 1 <= me_index e < i + 1 + len es) kept ->
         map unraw (if te_type e =? 0 then kept else own :: kept) =
           (if used e then e :: filter (fun e => used e && negb (extended e)) es
            else filter (fun e => used e && negb (extended e)) es) /\
         Forall (fun e0 => i <= me_index e0 < i + len (e :: es)) (if te_type e =? 0 then kept else own :: kept)).
      { intros kept H1 H2. unfold used. destruct (te_type e =? 0); cbn [negb]; [split; auto|].
        split; [cbn [map]; rewrite H1; f_equal; destruct e; reflexivity|].
        constructor; [|now apply Hw]. cbn [me_index own]. rewrite len_cons. lia. }
      destruct (filter extended es) as [|e1 [|e2 rest]].
      * destruct IH as (kept & E & H1 & H2). rewrite E. cbn [bind]. eexists. split; [reflexivity|]. now apply K.
      * intros Hx. destruct (IH Hx) as (kept & E & H1 & H2). rewrite E. cbn [bind]. eexists. split; [reflexivity|]. now apply K.
      * intros Hx Hs. rewrite (IH Hx Hs). reflexivity.
Qed.

Lemma mbr_logical_ok first bps fi : 0 < first -> first < two63 -> bps <= 65536 -> forall es k x, Forall te_ok es ->
  match filter link es with
  | [] => exists kept, mbr_logical first bps fi (map raw_entry es) k x = Ok (kept, x) /\
            map unraw kept = filter (fun e => used e && negb (link e)) es /\
            Forall (fun e => fi + k <= me_index e) kept
  | [e] => x = 0 -> exists kept, mbr_logical first bps fi (map raw_entry es) k x = Ok (kept, first + te_start e * bps) /\
            map unraw kept = filter (fun e => used e && negb (link e)) es /\
            Forall (fun e => fi + k <= me_index e) kept
  | _ => x = 0 -> mbr_logical first bps fi (map raw_entry es) k x = Err
  end.
Proof.
  intros Hf Hf2 Hb. induction es as [|e es IH]; intros k x Hok.
  - cbn. exists []. split; [reflexivity|]. split; [reflexivity|constructor].
  - apply Forall_cons_iff in Hok as [[Hs _] Hok]. cbn [map mbr_logical filter].
    change (me_type (raw_entry e)) with (te_type e). change (me_start (raw_entry e)) with (te_start e).
    assert (Hw : forall kept, Forall (fun e => fi + (k + 1) <= me_index e) kept ->
      Forall (fun e0 => fi + k <= me_index e0) kept).
    { intros kept. apply Forall_impl. intros a. lia. }
    assert (El : link e = (te_type e =? 5)) by reflexivity.
    assert (Eu : used e = negb (te_type e =? 0)) by reflexivity. rewrite El, Eu.
    destruct (N.eqb_spec (te_type e) 0) as [E0|E0].
    + rewrite E0. change (0 =? 5) with false. cbn [negb andb]. apply IH. assumption.
    + destruct (N.eqb_spec (te_type e) 5) as [E5|E5]; cbn [negb andb].
      * assert (Ea : add_chk two64 first (te_start e * bps) = Ok (first + te_start e * bps)).
        { unfold add_chk. destruct (N.ltb_spec (first + te_start e * bps) two64) as [|Hge]; [reflexivity|].
          exfalso. unfold two32, two63, two64 in *. nia. }
        destruct (filter link es) as [|e2 rest] eqn:Ef.
        -- intros ->. change (0 =? 0) with true. cbn [check bind]. rewrite Ea. cbn [bind].
           specialize (IH (k + 1) (first + te_start e * bps) Hok).
           destruct IH as (kept & E & H1 & H2). exists kept. auto.
        -- intros ->. change (0 =? 0) with true. cbn [check bind]. rewrite Ea. cbn [bind].
           assert (Q : forall k, mbr_logical first bps fi (map raw_entry es) k (first + te_start e * bps) = Err).
           { clear IH Hw Hok. induction es as [|e3 es IH]; intros k'; [discriminate|].
             cbn [filter] in Ef. cbn [map mbr_logical]. change (me_type (raw_entry e3)) with (te_type e3).
             unfold link at 1 in Ef. destruct (N.eqb_spec (te_type e3) 0) as [Z|Z].
             - rewrite Z in Ef. apply (IH Ef).
             - destruct (N.eqb_spec (te_type e3) 5).
               + destruct (N.eqb_spec (first + te_start e * bps) 0); [lia|]. reflexivity.
               + rewrite (IH Ef). reflexivity. }
           apply Q.
      * set (own := {| me_index := fi + k; me_flags := me_flags (raw_entry e); me_type := te_type e;
                     me_start := te_start e; me_sectors := me_sectors (raw_entry e) |}).
        assert (K : forall kept, map unraw kept = filter (fun e => used e && negb (link e)) es ->
           Forall (fun e => fi + (k + 1) <= me_index e) kept ->
           map unraw (own :: kept) = e :: filter (fun e => used e && negb (link e)) es /\
           Forall (fun e0 => fi + k <= me_index e0) (own :: kept)).
        { intros kept H1 H2. split; [cbn [map]; rewrite H1; f_equal; destruct e; reflexivity|].
          constructor; [cbn [own me_index]; lia|now apply Hw]. }
        specialize (IH (k + 1) x Hok). destruct (filter link es) as [|e1 [|e2 rest]].
        -- destruct IH as (kept & E & H1 & H2). rewrite E. cbn [bind]. eexists. split; [reflexivity|]. now apply K.
        -- intros Hx. destruct (IH Hx) as (kept & E & H1 & H2). rewrite E. cbn [bind]. eexists. split; [reflexivity|]. now apply K.
        -- intros Hx. rewrite (IH Hx). reflexivity.
Qed.

Lemma mbr_extended_ok volume bps first : wf_bytes volume -> 0 < first -> first < two63 -> bps <= 65536 ->
  forall o ebrs, ebr_chain volume bps first o ebrs -> forall fuel fi,
  (length ebrs <= fuel)%nat -> 4 <= fi -> fi + 4 * len ebrs < 1028 ->
  exists kept, mbr_extended fuel volume first bps o fi = Ok kept /\
    map unraw kept = flat_map (logical_entries volume) ebrs /\ Forall (fun e => 4 <= me_index e) kept.
Proof.
  intros Hw Hf Hf2 Hb o ebrs H. induction H as [o Hr Hl|o e rest Hr Hl Hc IH]; intros fuel fi Hfu H4 Hfi;
    (destruct fuel as [|fuel]; [cbn in Hfu; lia|]); rewrite len_cons in Hfi; cbn [mbr_extended];
    (destruct (N.leb_spec 1024 fi); [lia|]); cbn [negb check bind];
    (destruct (boot_record_shape volume o) as [[_ (id & Eb)]|[Hn _]]; [|contradiction]); rewrite Eb; cbn [bind];
    pose proof (mbr_logical_ok first bps fi Hf Hf2 Hb (table_entries volume o) 0 0 (table_entries_ok volume o Hw)) as Q;
    fold (links volume o) in Q; rewrite Hl in Q.
  - destruct Q as (kept & E & H1 & H2). rewrite E. cbn [bind]. change (0 =? 0) with true. cbv iota.
    exists kept. split; [reflexivity|]. split; [cbn [flat_map]; rewrite app_nil_r; exact H1|].
    eapply Forall_impl; [|exact H2]. cbv beta. intros a. lia.
  - destruct (Q eq_refl) as (kept & E & H1 & H2). rewrite E. cbn [bind].
    destruct (N.eqb_spec (first + te_start e * bps) 0); [lia|].
    destruct (IH fuel (fi + 4)) as (kept' & E' & H1' & H2'); [cbn in Hfu; lia|lia|lia|].
    rewrite E'. cbn [bind]. exists (kept ++ kept'). split; [reflexivity|]. split.
    + rewrite map_app, H1, H1'. reflexivity.
    + apply Forall_app. split; [|assumption]. eapply Forall_impl; [|exact H2]. cbv beta. intros a. lia.
Qed.

Lemma mbr_logical_panic first bps fi : first < two63 -> bps <= 65536 -> forall es k x, Forall te_ok es ->
  mbr_logical first bps fi (map raw_entry es) k x <> Panic.
Proof.
  intros Hf Hb. induction es as [|e es IH]; intros k x Hok; [discriminate|].
  apply Forall_cons_iff in Hok as [[Hs _] Hok]. cbn [map mbr_logical].
  change (me_type (raw_entry e)) with (te_type e). change (me_start (raw_entry e)) with (te_start e).
  destruct (te_type e =? 0); [auto|]. destruct (te_type e =? 5).
  - destruct (x =? 0); cbn [check bind]; [|discriminate]. unfold add_chk.
    destruct (N.ltb_spec (first + te_start e * bps) two64) as [|Hge]; [cbn [bind]; auto|].
    exfalso. unfold two32, two63, two64 in *. nia.
  - specialize (IH (k + 1) x Hok). destruct (mbr_logical _ _ _ _ _ _) as [[a b]| |]; cbn [bind]; try discriminate. congruence.
Qed.

Lemma mbr_extended_panic volume bps first : wf_bytes volume -> first < two63 -> bps <= 65536 ->
  forall fuel o fi, fi < 1028 -> 1028 <= fi + 4 * N.of_nat fuel ->
  mbr_extended fuel volume first bps o fi <> Panic.
Proof.
  intros Hw Hf Hb. induction fuel as [|fuel IH]; intros o fi H1 H2; [lia|]. cbn [mbr_extended].
  destruct (N.leb_spec 1024 fi); cbn [negb check bind]; [discriminate|].
  destruct (boot_record_shape volume o) as [[_ (id & ->)]|[_ ->]]; cbn [bind]; [|discriminate].
  pose proof (mbr_logical_panic first bps fi Hf Hb (table_entries volume o) 0 0 (table_entries_ok volume o Hw)) as Q.
  destruct (mbr_logical _ _ _ _ _ _) as [[kept x]| |]; cbn [bind]; [|discriminate|congruence].
  destruct (x =? 0); [discriminate|]. specialize (IH x (fi + 4) ltac:(lia) ltac:(lia)).
  destruct (mbr_extended _ _ _ _ _ _); cbn [bind]; [discriminate..|congruence].
Qed.

Lemma mbr_extended_path volume bps first : wf_bytes volume -> 0 < first -> first < two63 -> bps <= 65536 ->
  forall o n, ebr_path volume bps first o n -> forall fuel fi, (n < fuel)%nat -> 1024 <= fi + 4 * N.of_nat n ->
  mbr_extended fuel volume first bps o fi = Err.
Proof.
  intros Hw Hf Hf2 Hb o n H. induction H as [o|o e n Hr Hl Hp IH]; intros fuel fi Hfu Hfi;
    (destruct fuel as [|fuel]; [lia|]); cbn [mbr_extended].
  - destruct (N.leb_spec 1024 fi); [reflexivity|lia].
  - destruct (N.leb_spec 1024 fi); cbn [negb check bind]; [reflexivity|].
    destruct (boot_record_shape volume o) as [[_ (id & Eb)]|[Hn _]]; [|contradiction]. rewrite Eb; cbn [bind].
    pose proof (mbr_logical_ok first bps fi Hf Hf2 Hb (table_entries volume o) 0 0 (table_entries_ok volume o Hw)) as Q.
    fold (links volume o) in Q. rewrite Hl in Q. destruct (Q eq_refl) as (kept & E & _ & _). rewrite E. cbn [bind].
    destruct (N.eqb_spec (first + te_start e * bps) 0); [lia|].
    rewrite (IH fuel (fi + 4)) by lia. reflexivity.
Qed.

Lemma mbr_primary_panic bps : forall es i x, mbr_primary bps es i x <> Panic.
Proof.
  induction es as [|e es IH]; intros i x; [discriminate|]. cbn [mbr_primary].
  destruct (is_extended e).
  - destruct (bps =? 0); cbn [negb check bind]; [discriminate|]. destruct (x =? 0); cbn [check bind]; [|discriminate]. apply IH.
  - specialize (IH (i + 1) x). destruct (mbr_primary bps es (i + 1) x) as [[a b]| |]; cbn [bind]; try discriminate. congruence.
Qed.
Lemma mbr_primary_bound bps : bps <= 65536 -> forall es i x kept x', Forall te_ok es ->
  mbr_primary bps (map raw_entry es) i x = Ok (kept, x') -> x < two63 -> x' < two63.
Proof.
  intros Hb. induction es as [|e es IH]; intros i x kept x' Hok E Hx.
  - injection E as _ <-. assumption.
  - apply Forall_cons_iff in Hok as [[Hs _] Hok]. cbn [map mbr_primary] in E.
    destruct (is_extended (raw_entry e)).
    + apply bind_Ok_inv in E as (? & _ & E). apply bind_Ok_inv in E as (? & _ & E).
      eapply IH; [exact Hok|exact E|]. change (me_start (raw_entry e)) with (te_start e). unfold two32, two63 in *. nia.
    + apply bind_Ok_inv in E as ([kept1 x1] & E & E'). injection E' as _ <-. eapply IH; eassumption.
Qed.

Lemma mbr_detect_bound volume s : forall sizes sig, Forall (fun b => b <= 65536) sizes ->
  mbr_detect volume s sizes sig <= 65536.
Proof.
  induction sizes as [|b sizes IH]; intros sig H; [cbn; lia|]. apply Forall_cons_iff in H as [Hb H].
  cbn [mbr_detect]. destruct (same _ _); [assumption|]. apply IH, H.
Qed.

Lemma mbr_read_panic volume bps : wf_bytes volume -> bps <= 65536 -> mbr_read volume bps <> Panic.
Proof.
  intros Hw Hb. unfold mbr_read.
  destruct (boot_record_shape volume 0) as [[_ (id & ->)]|[_ ->]]; cbn [bind]; [|discriminate].
  set (b := if bps =? 0 then _ else bps).
  assert (Hb' : b <= 65536).
  { unfold b. destruct (bps =? 0); [|assumption]. destruct (find _ _); [|lia]. apply mbr_detect_bound.
    unfold mbr_sector_sizes. repeat constructor; lia. }
  clearbody b. pose proof (mbr_primary_panic b (map raw_entry (table_entries volume 0)) 0 0) as P.
  pose proof (mbr_primary_bound b Hb' (table_entries volume 0) 0 0) as B.
  destruct (mbr_primary _ _ _ _) as [[kept x]| |]; cbn [bind]; [|discriminate|congruence].
  specialize (B kept x (table_entries_ok volume 0 Hw) eq_refl ltac:(unfold two63; lia)).
  destruct (x =? 0); cbn [bind]; [discriminate|].
  pose proof (mbr_extended_panic volume b x Hw B Hb' 256 x 4 ltac:(lia) ltac:(lia)) as Q.
  destruct (mbr_extended _ _ _ _ _ _); cbn [bind]; [discriminate..|congruence].
Qed.

(** The partitions of entries. *)
Definition as_partition (p : mbr_partition) : partition :=
  {| p_offset := mp_offset p; p_size := mp_size p; p_type := mp_type p; p_flags := mp_flags p |}.
Lemma mbr_partition_at_ok system i e : 0 < ms_bytes_per_sector system <= 65536 -> ms_first_extended system < two63 ->
  nth_error (ms_entries system) (N.to_nat i) = Some e -> te_ok (unraw e) ->
  exists p, mbr_partition_at system i = Ok p /\
    as_partition p = partition_of (ms_bytes_per_sector system)
      (if 4 <=? me_index e then ms_first_extended system else 0) (unraw e).
Proof.
  intros Hb Hf En [H1 H2]. unfold mbr_partition_at. rewrite En. cbn [of_option bind].
  destruct (N.eqb_spec (ms_bytes_per_sector system) 0); [lia|]. cbn [negb check bind].
  cbn [unraw te_start te_sectors] in *. set (b := ms_bytes_per_sector system) in *.
  assert (M1 : mul_chk two64 (me_start e) b = Ok (me_start e * b)).
  { unfold mul_chk. destruct (N.ltb_spec (me_start e * b) two64) as [|Hge]; [reflexivity|]. exfalso. unfold two32, two64 in *. nia. }
  assert (M2 : mul_chk two64 (me_sectors e) b = Ok (me_sectors e * b)).
  { unfold mul_chk. destruct (N.ltb_spec (me_sectors e * b) two64) as [|Hge]; [reflexivity|]. exfalso. unfold two32, two64 in *. nia. }
  rewrite M1, M2. cbn [bind]. destruct (4 <=? me_index e).
  - unfold add_chk. destruct (N.ltb_spec (me_start e * b + ms_first_extended system) two64) as [|Hge].
    + cbn [bind]. eexists. split; [reflexivity|]. unfold as_partition, partition_of. cbn. f_equal. lia.
    + exfalso. unfold two32, two63, two64 in *. nia.
  - cbn [bind]. eexists. split; [reflexivity|]. reflexivity.
Qed.

Lemma mbr_gives system es_primary es_logical : 0 < ms_bytes_per_sector system <= 65536 -> ms_first_extended system < two63 ->
  ms_entries system = es_primary ++ es_logical ->
  Forall (fun e => me_index e < 4) es_primary -> Forall (fun e => 4 <= me_index e) es_logical ->
  Forall (fun e => te_ok (unraw e)) (ms_entries system) ->
  exists parts, gives (mbr_partition_at system) parts /\
    map as_partition parts =
      map (partition_of (ms_bytes_per_sector system) 0) (map unraw es_primary) ++
      map (partition_of (ms_bytes_per_sector system) (ms_first_extended system)) (map unraw es_logical).
Proof.
  intros Hb Hf He Hp Hl Hok.
  set (want e := partition_of (ms_bytes_per_sector system) (if 4 <=? me_index e then ms_first_extended system else 0) (unraw e)).
  assert (G : forall es, Forall (fun e => te_ok (unraw e)) es -> (forall i e, nth_error es i = Some e ->
      te_ok (unraw e)) -> exists parts, map as_partition parts = map want es /\
      forall i e, nth_error es i = Some e -> exists p, nth_error parts i = Some p /\
        forall system' j, ms_bytes_per_sector system' = ms_bytes_per_sector system ->
          ms_first_extended system' = ms_first_extended system ->
          nth_error (ms_entries system') (N.to_nat j) = Some e -> mbr_partition_at system' j = Ok p).
  { induction es as [|e es IH]; intros Hes Hn.
    - exists []. split; [reflexivity|]. intros [|i] e; discriminate.
    - apply Forall_cons_iff in Hes as [H0 Hes]. destruct IH as (parts & E & IH); [assumption|intros i e'; apply (Hn (S i))|].
      destruct (mbr_partition_at_ok {| ms_bytes_per_sector := ms_bytes_per_sector system;
          ms_first_extended := ms_first_extended system; ms_disk_identity := 0; ms_entries := [e] |} 0 e Hb Hf eq_refl H0)
        as (p & Ep & Ap). exists (p :: parts). split; [cbn [map]; rewrite E; f_equal; exact Ap|].
      intros [|i] e' En; [|apply IH, En]. injection En as <-. exists p. split; [reflexivity|].
      intros system' j S1 S2 S3. unfold mbr_partition_at in *. rewrite S1, S2, S3. exact Ep. }
  destruct (G (ms_entries system) Hok) as (parts & E & N').
  { intros i e En. rewrite Forall_forall in Hok. apply Hok. eapply nth_error_In, En. }
  exists parts. split.
  - intros i. destruct (nth_error (ms_entries system) (N.to_nat i)) as [e|] eqn:En.
    + destruct (N' _ _ En) as (p & Ep & Hsys). rewrite Ep. cbn [of_option]. apply Hsys; auto.
    + unfold mbr_partition_at. rewrite En. cbn [of_option bind].
      assert (length parts = length (ms_entries system)) as L.
      { rewrite <- (map_length as_partition), E, map_length. reflexivity. }
      apply nth_error_None in En. rewrite <- L in En. apply nth_error_None in En. now rewrite En.
  - rewrite E, He, map_app, !map_map. f_equal; apply map_ext_in; intros e Hin; unfold want.
    + rewrite Forall_forall in Hp. specialize (Hp e Hin). destruct (N.leb_spec 4 (me_index e)); [lia|reflexivity].
    + rewrite Forall_forall in Hl. specialize (Hl e Hin). destruct (N.leb_spec 4 (me_index e)); [reflexivity|lia].
Qed.

Lemma mbr_detect_found volume s b post : forall pre sig, length sig = 2%nat ->
  (forall b', In b' pre -> b' <= b /\ bytes_at volume (s * b' + 510) 2 <> [0x55; 0xaa]) ->
  bytes_at volume (s * b + 510) 2 = [0x55; 0xaa] -> mbr_detect volume s (pre ++ b :: post) sig = b.
Proof.
  intros pre sig Hs Hpre Hb.
  assert (Hlen : s * b + 512 <= len volume).
  { pose proof (len_bytes_at volume (s * b + 510) 2) as L. rewrite Hb in L. change (len [0x55; 0xaa]) with 2 in L. lia. }
  assert (F : forall b' sig, b' <= b -> length sig = 2%nat ->
     read_at volume (s * b' + 510) 2 ++ skipn (length (read_at volume (s * b' + 510) 2)) sig = bytes_at volume (s * b' + 510) 2
     /\ length (bytes_at volume (s * b' + 510) 2) = 2%nat).
  { intros b' sig' Hle Hs'. pose proof (len_bytes_at volume (s * b' + 510) 2) as L.
    assert (s * b' <= s * b) by nia. unfold len in L, Hlen. unfold read_at.
    rewrite skipn_all2, app_nil_r by lia. split; [reflexivity|lia]. }
  clear Hlen. revert sig Hs. induction pre as [|b' pre IH]; intros sig Hs.
  - cbn [app mbr_detect]. destruct (F b sig) as [-> _]; [lia|assumption|]. rewrite Hb. reflexivity.
  - cbn [app mbr_detect]. destruct (Hpre b') as [Hle Hne]; [left; reflexivity|].
    destruct (F b' sig) as [-> Hl]; [assumption..|].
    destruct (same _ _) eqn:E; [apply same_true in E; contradiction|].
    apply IH; [|assumption]. intros b'' Hin. apply Hpre. right. assumption.
Qed.

Lemma find_filter {A} f : forall (l : list A), find f l = match filter f l with [] => None | x :: _ => Some x end.
Proof. induction l as [|x l IH]; [reflexivity|]. cbn. destruct (f x); [reflexivity|assumption]. Qed.

Lemma filter_raw es : filter is_extended (map raw_entry es) = map raw_entry (filter extended es).
Proof.
  induction es as [|e es IH]; [reflexivity|]. cbn [map filter].
  change (is_extended (raw_entry e)) with (extended e). destruct (extended e); cbn [map]; congruence.
Qed.

Lemma mbr_read_ok volume b first ebrs : wf_bytes volume -> 0 < b <= 65536 -> boot_record volume 0 ->
  extended_at volume b first ebrs -> (length ebrs <= 255)%nat ->
  exists system parts, mbr_read volume b = Ok system /\ gives (mbr_partition_at system) parts /\
    map as_partition parts = map (partition_of b 0) (primary_entries volume) ++
      flat_map (fun o => map (partition_of b first) (logical_entries volume o)) ebrs.
Proof.
  intros Hw Hb Hr Hx Hn. unfold mbr_read.
  destruct (boot_record_shape volume 0) as [[_ (id & Eb)]|[Hn' _]]; [|contradiction]. rewrite Eb. cbn [bind].
  assert (Hb0 : (b =? 0) = false) by (apply N.eqb_neq; lia). rewrite Hb0.
  pose proof (mbr_primary_ok b ltac:(lia) (table_entries volume 0) 0 0 (table_entries_ok volume 0 Hw)) as P.
  unfold extended_at in Hx. pose proof (table_entries_ok volume 0 Hw) as Hte.
  assert (Hprim : forall kept, map unraw kept = primary_entries volume -> Forall (fun e => te_ok (unraw e)) kept).
  { intros kept Hk. rewrite <- (Forall_map unraw te_ok), Hk. apply filter_ok, Hte. }
  assert (M : forall l, flat_map (fun o => map (partition_of b first) (logical_entries volume o)) l =
     map (partition_of b first) (flat_map (logical_entries volume) l)).
  { induction l as [|o l IH]; [reflexivity|]. cbn [flat_map]. rewrite map_app, IH. reflexivity. }
  assert (L4 : len (table_entries volume 0) = 4) by reflexivity.
  destruct (filter extended (table_entries volume 0)) as [|e [|? ?]] eqn:Ef; [| |contradiction].
  - destruct Hx as [-> ->]. destruct P as (kept & E & H1 & H2). rewrite E. cbn [bind].
    change (0 =? 0) with true. cbv iota. cbn [bind]. rewrite app_nil_r, Hb0.
    eexists. edestruct mbr_gives as (parts & G & Q); cycle -1.
    { exists parts. split; [reflexivity|]. split; [exact G|]. rewrite Q. cbn [ms_bytes_per_sector ms_first_extended].
      instantiate (1 := []). instantiate (1 := kept). rewrite H1. reflexivity. }
    + assumption. + cbn. unfold two63. lia. + cbn. rewrite app_nil_r. reflexivity.
    + eapply Forall_impl; [|exact H2]. cbv beta. intros a. rewrite L4. lia.
    + constructor.
    + cbn. apply Hprim, H1.
  - destruct Hx as (Hs & Hf & Hc). destruct (P eq_refl) as (kept & E & H1 & H2). rewrite E. cbn [bind].
    assert (He : te_ok e).
    { assert (In e (filter extended (table_entries volume 0))) as Hin by (rewrite Ef; left; reflexivity).
      apply filter_In in Hin as [Hin _]. rewrite Forall_forall in Hte. apply Hte, Hin. }
    rewrite <- Hf. destruct (N.eqb_spec first 0) as [|Hf0]; [nia|].
    assert (Hf63 : first < two63). { destruct He. subst first. unfold two32, two63 in *. nia. }
    destruct (mbr_extended_ok volume b first Hw ltac:(lia) Hf63 ltac:(lia) first ebrs Hc 256%nat 4)
      as (kept' & E' & H1' & H2'); [lia|lia|unfold len; lia|].
    rewrite E'. cbn [bind]. rewrite Hb0. eexists. edestruct mbr_gives as (parts & G & Q); cycle -1.
    { exists parts. split; [reflexivity|]. split; [exact G|]. rewrite Q. cbn [ms_bytes_per_sector ms_first_extended].
      instantiate (1 := kept'). instantiate (1 := kept). rewrite H1, H1', M. reflexivity. }
    + assumption. + assumption. + reflexivity.
    + eapply Forall_impl; [|exact H2]. cbv beta. intros a. rewrite L4. lia.
    + assumption.
    + cbn. apply Forall_app. split; [apply Hprim, H1|]. rewrite <- (Forall_map unraw te_ok), H1'.
      clear - Hw. induction ebrs as [|o l IH]; [constructor|]. cbn [flat_map]. apply Forall_app. split; [|assumption].
      apply filter_ok, table_entries_ok, Hw.
Qed.

(** ** GPT *)
Definition uuid_parts (u : uuid) : N * N * N * N * N := (part1 u, part2 u, part3 u, part4 u, part5 u).
Lemma uuid_decode data : wf_bytes data -> len data = 16 ->
  exists u, uuid_from_le_bytes data = Ok u /\ uuid_parts u = guid data 0.
Proof.
  intros Hw Hl. unfold uuid_from_le_bytes, u16_be, u32_be, u16_le, u32_le.
  rewrite !be_field, !le_field by (unfold two64 in *; lia). cbn [bind]. eexists. split; [reflexivity|].
  unfold uuid_parts, guid. cbn [part1 part2 part3 part4 part5]. do 2 f_equal.
  rewrite N.shiftl_mul_pow2.
  assert (E : bytes_at data (0 + 10) 6 = bytes_at data 10 2 ++ bytes_at data 12 4).
  { change (0 + 10) with 10. exact (bytes_at_split data 10 2 4). }
  unfold field_be. rewrite E, be_value_app2. rewrite len_bytes_at, Hl. change (N.min 4 (16 - 12)) with 4.
  rewrite lor_disjoint; [reflexivity|].
  eapply N.lt_le_trans; [apply be_value_bound, wf_bytes_at, Hw|]. rewrite len_bytes_at, Hl. vm_compute. discriminate.
Qed.
Lemma le_value_zero l : le_value l = 0 <-> forallb (N.eqb 0) l = true.
Proof.
  induction l as [|b l IH]; [split; reflexivity|]. cbn [le_value forallb]. rewrite andb_true_iff, <- IH, N.eqb_eq. lia.
Qed.
Lemma forallb_rev {A} f (l : list A) : forallb f (rev l) = forallb f l.
Proof.
  induction l as [|x l IH]; [reflexivity|]. cbn [rev]. rewrite forallb_app, IH. cbn. rewrite andb_true_r. apply andb_comm.
Qed.
Lemma be_value_zero l : be_value l = 0 <-> forallb (N.eqb 0) l = true.
Proof. rewrite be_value_rev, le_value_zero, forallb_rev. reflexivity. Qed.
Lemma bool_iff a b : (a = true <-> b = true) -> a = b.
Proof. destruct a, b; intuition; exfalso; intuition discriminate. Qed.
Lemma uuid_nil u data : uuid_parts u = guid data 0 -> uuid_is_nil u = forallb (N.eqb 0) (bytes_at data 0 16).
Proof.
  unfold uuid_parts, guid. intros [= H1 H2 H3 H4 H5]. unfold uuid_is_nil. rewrite H1, H2, H3, H4, H5.
  apply bool_iff. rewrite !andb_true_iff, !N.eqb_eq. unfold field, field_be. rewrite !le_value_zero, !be_value_zero.
  change 16 with (4 + (2 + (2 + (2 + 6)))). rewrite !bytes_at_split.
  change (0 + 4 + 2 + 2 + 2) with (0 + 10). change (0 + 4 + 2 + 2) with (0 + 8). change (0 + 4 + 2) with (0 + 6).
  rewrite !forallb_app, !andb_true_iff. intuition.
Qed.

Definition crc_at (chunks : list (list N)) (c : crc_ctx) : Prop :=
  Forall wf_bytes chunks /\ crc_updates rcrc_update (crc_new gpt_polynomial 0) chunks = Ok c.
Lemma crc_updates_snoc u d : forall chunks c, crc_updates u c (chunks ++ [d]) = (c' <- crc_updates u c chunks ;; u c' d).
Proof.
  induction chunks as [|x chunks IH]; intros c; cbn [app crc_updates bind].
  - destruct (u c d); reflexivity.
  - destruct (u c x); cbn [bind]; auto.
Qed.
Lemma crc_at_new : crc_at [] (crc_new gpt_polynomial 0).
Proof. split; [constructor|reflexivity]. Qed.
Lemma crc_at_step chunks c d : crc_at chunks c -> wf_bytes d -> exists c', rcrc_update c d = Ok c' /\ crc_at (chunks ++ [d]) c'.
Proof.
  intros [Hw E] Hd. assert (Hw' : Forall wf_bytes (chunks ++ [d])) by (apply Forall_app; auto).
  destruct (crc_reflected_ok gpt_polynomial 0 (chunks ++ [d]) ltac:(vm_compute; reflexivity) ltac:(vm_compute; reflexivity) Hw')
    as (c' & c'' & E' & _). exists c'. split; [|split; assumption].
  rewrite crc_updates_snoc, E in E'. exact E'.
Qed.
Lemma crc_at_value chunks c : crc_at chunks c -> fst (crc_finalize c) = crc32 (concat chunks).
Proof.
  intros [Hw E]. destruct (crc_reflected_ok gpt_polynomial 0 chunks ltac:(vm_compute; reflexivity) ltac:(vm_compute; reflexivity) Hw)
    as (c' & c'' & E' & F & _). rewrite E in E'. injection E' as <-. rewrite F. reflexivity.
Qed.

(** The header is decoded, or rejected. *)
Definition gpt_header_of (h : list N) (r : gpt_header) : Prop :=
  gh_backup r = field h 32 8 /\ gh_area_start r = field h 40 8 /\ gh_area_end r = field h 48 8 /\
  uuid_parts (gh_disk r) = guid h 56 /\ gh_entries_start r = field h 72 8 /\ gh_number r = field h 80 4 /\
  gh_entry_size r = field h 84 4 /\ gh_checksum r = field h 88 4.

Lemma guid_inner data o m : 16 <= m -> guid (bytes_at data o m) 0 = guid data o.
Proof.
  intros H. unfold guid. rewrite !field_inner, !field_be_inner by lia. rewrite N.add_0_r. repeat (f_equal; try lia).
Qed.

Lemma gpt_header_shape volume o : wf_bytes volume -> 
  (gpt_header_in volume o /\ exists r, gpt_header_at volume o = Ok r /\ gpt_header_of (gpt_header_bytes volume o) r) \/
  (~ gpt_header_in volume o /\ gpt_header_at volume o = Err).
Proof.
  intros Hw. unfold gpt_header_at, gpt_header_in, gpt_header_bytes, gpt_header_form.
  destruct (read_exact_shape volume o 92) as [[-> Hl]|[-> Hl]]; cbn [bind].
  2:{ right. split; [|reflexivity]. intros [H _]. lia. }
  assert (Lh : len (bytes_at volume o 92) = 92) by (rewrite len_bytes_at; lia).
  assert (Hwh : wf_bytes (bytes_at volume o 92)) by (apply wf_bytes_at, Hw).
  set (h := bytes_at volume o 92) in *. clearbody h.
  unfold gpt_header_read. rewrite Lh. change (92 =? 92) with true. cbn [check bind].
  rewrite slice_bytes_at by lia. cbn [bind].
  change (8 - 0) with 8. destruct (same (bytes_at h 0 8) _) eqn:Es; cbn [check bind].
  2:{ right. split; [|reflexivity]. intros (_ & (E & _) & _). apply same_true in E. congruence. }
  apply same_true in Es. unfold u32_le, u64_le.
  rewrite le_field by (unfold two64; lia). cbn [bind].
  destruct (N.eqb_spec (field h 8 4) 0x00010000) as [Ev|Ev]; cbn [check bind].
  2:{ right. split; [|reflexivity]. intros (_ & (_ & E & _) & _). congruence. }
  rewrite le_field by (unfold two64; lia). cbn [bind].
  destruct (N.eqb_spec (field h 12 4) 92) as [Ez|Ez]; cbn [check bind].
  2:{ right. split; [|reflexivity]. intros (_ & (_ & _ & E) & _). congruence. }
  rewrite le_field by (unfold two64; lia). cbn [bind]. rewrite slice_bytes_at by lia. cbn [bind]. change (16 - 0) with 16.
  destruct (crc_at_step [] (crc_new gpt_polynomial 0) (bytes_at h 0 16) crc_at_new (wf_bytes_at _ _ _ Hwh)) as (c1 & E1 & A1).
  destruct (crc_at_step _ c1 [0; 0; 0; 0] A1 ltac:(repeat constructor)) as (c2 & E2 & A2).
  destruct (crc_at_step _ c2 (bytes_at h 20 72) A2 (wf_bytes_at _ _ _ Hwh)) as (c3 & E3 & A3).
  rewrite E1. cbn [bind]. rewrite E2. cbn [bind]. rewrite Ez, slice_bytes_at by lia. cbn [bind]. change (92 - 20) with 72.
  rewrite E3. cbn [bind]. rewrite (crc_at_value _ _ A3). cbn [app concat]. rewrite app_nil_r.
  change (crc32 (bytes_at h 0 16 ++ 0 :: 0 :: 0 :: 0 :: bytes_at h 20 72)) with (gpt_header_checksum h).
  destruct (N.eqb_spec (field h 16 4) 0) as [Z|Z]; [|destruct (N.eqb_spec (field h 16 4) (gpt_header_checksum h)) as [C|C]];
    cbn [orb check bind].
  3:{ right. split; [|reflexivity]. intros (_ & _ & [E|E]); congruence. }
  all: left; (split; [auto 6|]); rewrite !le_field, slice_bytes_at by (unfold two64; lia); cbn [bind]; change (72 - 56) with 16;
    (destruct (uuid_decode (bytes_at h 56 16)) as (u & -> & Eu); [apply wf_bytes_at, Hwh|rewrite len_bytes_at; lia|]);
    cbn [bind]; eexists; (split; [reflexivity|]);
    (unfold gpt_header_of; cbn; rewrite Eu, guid_inner by lia; auto 10).
Qed.

(** Entries *)
Definition gpt_described (e : gpt_entry) :=
  (ge_index e, uuid_parts (ge_type e), uuid_parts (ge_identifier e), ge_start e, ge_end e, ge_flags e).
Lemma gpt_entry_decode i data : wf_bytes data -> len data = 128 ->
  exists e, gpt_entry_read i data = Ok e /\
    gpt_described e = (i, guid data 0, guid data 16, field data 32 8, field data 40 8, field data 48 8) /\
    u16string_from_le_bytes (bytes_at data 56 72) = Ok (ge_name e).
Proof.
  intros Hw Hl. unfold gpt_entry_read. rewrite Hl. change (128 =? 128) with true. cbn [check bind].
  unfold u64_le. rewrite !le_field, !slice_bytes_at by (unfold two64; lia). cbn [bind].
  change (16 - 0) with 16. change (32 - 16) with 16. change (128 - 56) with 72.
  destruct (uuid_decode (bytes_at data 0 16)) as (u1 & E1 & U1); [apply wf_bytes_at, Hw|rewrite len_bytes_at; lia|].
  destruct (uuid_decode (bytes_at data 16 16)) as (u2 & E2 & U2); [apply wf_bytes_at, Hw|rewrite len_bytes_at; lia|].
  destruct (read_even false (bytes_at data 56 72)) as (l & p & _ & _ & E3).
  { rewrite len_bytes_at. unfold two64. lia. } { rewrite len_bytes_at, Hl. reflexivity. }
  rewrite guid_inner in U1, U2 by lia.
  rewrite E1. cbn [bind]. rewrite E2. cbn [bind]. cbv beta iota in E3. rewrite E3. cbn [bind].
  eexists. split; [reflexivity|]. split; [|reflexivity]. unfold gpt_described. cbn. rewrite U1, U2. reflexivity.
Qed.

Lemma guid_inner2 data o m e : e + 16 <= m -> guid (bytes_at data o m) e = guid data (o + e).
Proof.
  intros H. unfold guid. rewrite !field_inner, !field_be_inner by lia. repeat (f_equal; try lia).
Qed.

Definition vol_used (volume : list N) (base j : N) : bool := negb (forallb (N.eqb 0) (bytes_at volume (base + 128 * j) 16)).
Definition vol_entry (volume : list N) (base j : N) :=
  (j, guid volume (base + 128 * j), guid volume (base + 128 * j + 16), field volume (base + 128 * j + 32) 8,
   field volume (base + 128 * j + 40) 8, field volume (base + 128 * j + 48) 8).

Lemma gpt_entries_ok volume area base : wf_bytes volume -> len volume < two64 ->
  forall n i c chunks, crc_at chunks c ->
  let good := len (bytes_at volume (base + 128 * i) (128 * N.of_nat n)) = 128 * N.of_nat n /\
     forall j, i <= j < i + N.of_nat n -> vol_used volume base j = true ->
       area <= field volume (base + 128 * j + 32) 8 <= field volume (base + 128 * j + 40) 8 in
  (good /\ exists kept c' chunks', gpt_entries n volume area 128 (base + 128 * i) i c = Ok (kept, c') /\
     crc_at chunks' c' /\ concat chunks' = concat chunks ++ bytes_at volume (base + 128 * i) (128 * N.of_nat n) /\
     map gpt_described kept = map (vol_entry volume base) (filter (vol_used volume base) (seqN i n))) \/
  (~ good /\ gpt_entries n volume area 128 (base + 128 * i) i c = Err).
Proof.
  intros Hw Hlv. induction n as [|n IH]; intros i c chunks Hc good.
  - left. unfold good. change (128 * N.of_nat 0) with 0. split.
    { split; [rewrite len_bytes_at; lia|intros j Hj; lia]. }
    exists [], c, chunks. split; [reflexivity|]. split; [assumption|]. split; [|reflexivity].
    unfold bytes_at. cbn [N.to_nat firstn]. now rewrite app_nil_r.
  - cbn [gpt_entries]. destruct (read_exact_shape volume (base + 128 * i) 128) as [[-> Hl]|[-> Hl]]; cbn [bind].
    2:{ right. split; [|reflexivity]. intros [H _]. rewrite len_bytes_at in H. lia. }
    assert (Ea : add_chk two64 (base + 128 * i) 128 = Ok (base + 128 * i + 128)).
    { unfold add_chk. destruct (N.ltb_spec (base + 128 * i + 128) two64); [reflexivity|lia]. }
    rewrite Ea. cbn [bind].
    set (d := bytes_at volume (base + 128 * i) 128).
    assert (Hd : wf_bytes d) by (apply wf_bytes_at, Hw). assert (Ld : len d = 128) by (unfold d; rewrite len_bytes_at; lia).
    destruct (crc_at_step chunks c d Hc Hd) as (c1 & -> & A1). cbn [bind].
    destruct (gpt_entry_decode i d Hd Ld) as (e & -> & De & _). cbn [bind].
    assert (Ue : uuid_is_nil (ge_type e) = negb (vol_used volume base i)).
    { rewrite (uuid_nil (ge_type e) d). { unfold vol_used, d. rewrite negb_involutive, bytes_at_bytes_at, N.add_0_r by lia. reflexivity. }
      exact (f_equal (fun x => snd (fst (fst (fst (fst x))))) De). }
    assert (De' : gpt_described e = vol_entry volume base i).
    { rewrite De. unfold vol_entry, d. rewrite !guid_inner2, !field_inner, N.add_0_r by lia. reflexivity. }
    assert (Se : ge_start e = field volume (base + 128 * i + 32) 8 /\ ge_end e = field volume (base + 128 * i + 40) 8).
    { split; [exact (f_equal (fun x => snd (fst (fst x))) De')|exact (f_equal (fun x => snd (fst x)) De')]. }
    destruct Se as [Ss Se].
    replace (base + 128 * i + 128) with (base + 128 * (i + 1)) by lia.
    specialize (IH (i + 1) c1 (chunks ++ [d]) A1). cbv zeta in IH.
    assert (Split : bytes_at volume (base + 128 * i) (128 * N.of_nat (S n)) =
      d ++ bytes_at volume (base + 128 * (i + 1)) (128 * N.of_nat n)).
    { replace (128 * N.of_nat (S n)) with (128 + 128 * N.of_nat n) by lia. rewrite bytes_at_split. unfold d. do 2 f_equal. lia. }
    assert (G : good <-> (vol_used volume base i = true -> area <= ge_start e <= ge_end e) /\
       len (bytes_at volume (base + 128 * (i + 1)) (128 * N.of_nat n)) = 128 * N.of_nat n /\
       (forall j, i + 1 <= j < i + 1 + N.of_nat n -> vol_used volume base j = true ->
         area <= field volume (base + 128 * j + 32) 8 <= field volume (base + 128 * j + 40) 8)).
    { unfold good. rewrite Split, len_app, Ld, Ss, Se. clear. split.
      - intros [H1 H2]. split; [apply (H2 i); lia|]. split; [lia|]. intros j Hj. apply H2. lia.
      - intros (H1 & H2 & H3). split; [lia|]. intros j Hj. destruct (N.eq_dec j i) as [->|]; [assumption|]. apply H3. lia. }
    rewrite Ue. cbn [seqN filter]. 
    destruct (vol_used volume base i) eqn:Eu; cbn [negb].
    + destruct (N.ltb_spec (ge_start e) area); cbn [negb check bind].
      { right. split; [|reflexivity]. intros Hg. apply G in Hg as [Hg _]. specialize (Hg eq_refl). lia. }
      destruct (N.ltb_spec (ge_end e) (ge_start e)); cbn [negb check bind].
      { right. split; [|reflexivity]. intros Hg. apply G in Hg as [Hg _]. specialize (Hg eq_refl). lia. }
      destruct IH as [[Hg (kept & c' & chunks' & E & A' & Ch & Mk)]|[Hg E]]; rewrite E; cbn [bind].
      * left. split; [apply G; split; [intros _; lia|assumption]|]. exists (e :: kept), c', chunks'. split; [reflexivity|].
        split; [assumption|]. split.
        { rewrite Ch, concat_app, Split. cbn [concat]. rewrite app_nil_r, app_assoc. reflexivity. }
        cbn [map]. rewrite De'. f_equal. rewrite Mk. reflexivity.
      * right. split; [|reflexivity]. intros Hg'. apply G in Hg' as [_ Hg']. contradiction.
    + cbn [bind]. destruct IH as [[Hg (kept & c' & chunks' & E & A' & Ch & Mk)]|[Hg E]]; rewrite E; cbn [bind].
      * left. split; [apply G; split; [discriminate|assumption]|]. exists kept, c', chunks'. split; [reflexivity|].
        split; [assumption|]. split.
        { rewrite Ch, concat_app, Split. cbn [concat]. rewrite app_nil_r, app_assoc. reflexivity. }
        rewrite Mk. reflexivity.
      * right. split; [|reflexivity]. intros Hg'. apply G in Hg' as [_ Hg']. contradiction.
Qed.

Lemma table_used volume base number i : i < number ->
  gpt_used (bytes_at volume base (128 * number)) i = vol_used volume base i.
Proof. intros H. unfold gpt_used, vol_used. rewrite bytes_at_bytes_at by lia. reflexivity. Qed.
Lemma table_entry_eq volume base number i : i < number ->
  gpt_partition_entry (bytes_at volume base (128 * number)) i = vol_entry volume base i.
Proof.
  intros H. unfold gpt_partition_entry, vol_entry, gpt_start, gpt_end.
  rewrite !guid_inner2, !field_inner by lia. rewrite !N.add_assoc. reflexivity.
Qed.
Lemma table_start volume base number i : i < number ->
  gpt_start (bytes_at volume base (128 * number)) i = field volume (base + 128 * i + 32) 8 /\
  gpt_end (bytes_at volume base (128 * number)) i = field volume (base + 128 * i + 40) 8.
Proof. intros H. unfold gpt_start, gpt_end. rewrite !field_inner by lia. rewrite !N.add_assoc. auto. Qed.

Lemma filter_ext_in' {A} (f g : A -> bool) l : (forall x, In x l -> f x = g x) -> filter f l = filter g l.
Proof.
  induction l as [|x l IH]; intros H; [reflexivity|]. cbn. rewrite (H x) by (left; reflexivity).
  rewrite IH; [reflexivity|]. intros y Hy. apply H. right. assumption.
Qed.

Lemma mul_chk_shape a b : (mul_chk two64 a b = Ok (a * b) /\ a * b < two64) \/ (mul_chk two64 a b = Panic /\ two64 <= a * b).
Proof. unfold mul_chk. destruct (N.ltb_spec (a * b) two64); [left|right]; auto. Qed.

Lemma gpt_read_shape volume b : wf_bytes volume -> len volume < two64 -> 0 < b ->
  let h := gpt_header_bytes volume b in
  (gpt_accepts volume b /\ exists system, gpt_read volume b = Ok system /\ gs_bytes_per_sector system = b /\
     uuid_parts (gs_disk system) = guid h 56 /\
     map gpt_described (gs_entries system) = gpt_used_entries (gpt_table volume b h) (field h 80 4)) \/
  (~ gpt_accepts volume b /\ forall system, gpt_read volume b <> Ok system).
Proof.
  intros Hw Hlv Hb h. unfold gpt_accepts. fold h. unfold gpt_read.
  assert (Hb0 : (b =? 0) = false) by (apply N.eqb_neq; lia). rewrite Hb0.
  destruct (gpt_header_shape volume b Hw) as [[Hh (r & Er & Hr)]|[Hh Er]]; rewrite Er; cbn [bind].
  2:{ right. split; [tauto|discriminate]. }
  fold h in Hr. destruct Hr as (R1 & R2 & R3 & R4 & R5 & R6 & R7 & R8). rewrite R1, R2, R5, R6, R7, R8.
  destruct (mul_chk_shape (field h 32 8) b) as [[-> Hm]|[-> Hm]]; cbn [bind].
  2:{ right. split; [|discriminate]. intros (_ & H & _). lia. }
  set (backup := if 0 <? field h 32 8 * b then _ else _ : res unit).
  assert (B : (backup = Ok tt /\ (field h 32 8 = 0 \/ gpt_header_in volume (field h 32 8 * b) \/
       gpt_header_in volume (len volume - b))) \/
     (backup = Err /\ ~ (field h 32 8 = 0 \/ gpt_header_in volume (field h 32 8 * b) \/
       gpt_header_in volume (len volume - b)))).
  { unfold backup. destruct (N.ltb_spec 0 (field h 32 8 * b)).
    2:{ left. split; [reflexivity|]. left. nia. }
    destruct (gpt_header_shape volume (field h 32 8 * b) Hw) as [[H1 (r1 & E1 & _)]|[H1 E1]]; rewrite E1.
    { left. auto. }
    unfold sub_chk. destruct (N.leb_spec b (len volume)) as [|Hge].
    2:{ exfalso. destruct Hh as [Hh _]. lia. }
    cbn [bind]. destruct (gpt_header_shape volume (len volume - b) Hw) as [[H2 (r2 & E2 & _)]|[H2 E2]]; rewrite E2; cbn [bind].
    { left. auto. }
    right. split; [reflexivity|]. intros [H3|[H3|H3]]; [rewrite H3 in *; lia|contradiction..]. }
  clearbody backup. destruct B as [[-> B]|[-> B]]; cbn [bind].
  2:{ right. split; [tauto|discriminate]. }
  destruct (N.eqb_spec (field h 84 4) 128) as [E84|E84]; cbn [check bind].
  2:{ right. split; [tauto|discriminate]. }
  rewrite E84. destruct (N.leb_spec (field h 80 4) (32 * b / 128)) as [Hn|Hn]; cbn [check bind].
  2:{ right. split; [|discriminate]. intros (_ & _ & _ & _ & H & _). apply N.lt_nge in Hn. apply Hn.
      apply N.div_le_lower_bound; lia. }
  assert (Hn' : 128 * field h 80 4 <= 32 * b).
  { transitivity (128 * (32 * b / 128)); [lia|]. apply N.mul_div_le. lia. }
  destruct (mul_chk_shape (field h 72 8) b) as [[-> Hm2]|[-> Hm2]]; cbn [bind].
  2:{ right. split; [|discriminate]. intros (_ & _ & _ & _ & _ & H & _). lia. }
  set (number := field h 80 4) in *. set (base := field h 72 8 * b) in *.
  pose proof (gpt_entries_ok volume (field h 40 8) base Hw Hlv (N.to_nat number) 0 _ _ crc_at_new) as Q.
  cbv zeta in Q. rewrite N2Nat.id, N.mul_0_r, !N.add_0_r, N.add_0_l in Q.
  unfold gpt_table. fold base number. set (t := bytes_at volume base (128 * number)) in *.
  assert (Hin : gpt_entries_in h t number <-> (forall j, 0 <= j < number -> vol_used volume base j = true ->
      field h 40 8 <= field volume (base + 128 * j + 32) 8 <= field volume (base + 128 * j + 40) 8)).
  { unfold gpt_entries_in, t. split; intros H j Hj Hu.
    - destruct (table_start volume base number j ltac:(lia)) as [<- <-]. apply H; [lia|]. rewrite table_used by lia. assumption.
    - destruct (table_start volume base number j Hj) as [-> ->]. apply H; [lia|]. rewrite <- (table_used volume base number) by lia. assumption. }
  destruct Q as [[[G1 G2] (kept & c' & chunks' & E & A & Ch & Mk)]|[G E]].
  - rewrite E. cbn [bind]. rewrite (crc_at_value _ _ A), Ch. cbn [concat app].
    assert (Dec : (field h 88 4 =? 0) || (field h 88 4 =? crc32 t) = true <-> field h 88 4 = 0 \/ field h 88 4 = crc32 t).
    { rewrite orb_true_iff, !N.eqb_eq. reflexivity. }
    destruct ((field h 88 4 =? 0) || _) eqn:Ec; cbn [check bind].
    + left. split; [tauto|]. eexists. split; [reflexivity|]. cbn [gs_bytes_per_sector gs_disk gs_entries].
      split; [reflexivity|]. split; [assumption|]. rewrite Mk. unfold gpt_used_entries.
      assert (Hs : forall i, In i (seqN 0 (N.to_nat number)) -> i < number).
      { intros i Hi. apply in_seqN in Hi. lia. }
      rewrite (filter_ext_in' (gpt_used t) (vol_used volume base)).
      2:{ intros i Hi. apply table_used, Hs, Hi. }
      apply map_ext_in. intros i Hi. apply filter_In in Hi as [Hi _]. symmetry. apply table_entry_eq, Hs, Hi.
    + right. split; [|discriminate]. intros (_ & _ & _ & _ & _ & _ & _ & _ & H). apply Dec in H. discriminate.
  - rewrite E. cbn [bind]. right. split; [|discriminate]. intros (_ & _ & _ & _ & _ & _ & H1 & H2 & _).
    apply G. split; [assumption|]. apply Hin, H2.
Qed.

Lemma gpt_read_detect volume : wf_bytes volume ->
  (gpt_header_in volume 512 /\ gpt_read volume 0 = gpt_read volume 512) \/
  (~ gpt_header_in volume 512 /\ gpt_header_in volume 4096 /\ gpt_read volume 0 = gpt_read volume 4096) \/
  (~ gpt_header_in volume 512 /\ ~ gpt_header_in volume 4096 /\ gpt_read volume 0 = Err).
Proof.
  intros Hw. unfold gpt_read. change (0 =? 0) with true. change (512 =? 0) with false. change (4096 =? 0) with false.
  cbv iota. cbn [gpt_detect].
  destruct (gpt_header_shape volume 512 Hw) as [[H1 (r1 & -> & _)]|[H1 ->]]; [left; auto|].
  destruct (gpt_header_shape volume 4096 Hw) as [[H2 (r2 & -> & _)]|[H2 ->]]; [right; left; auto|].
  right; right. auto.
Qed.

Lemma gpt_partition_at_ok system i e : nth_error (gs_entries system) (N.to_nat i) = Some e ->
  ge_start e <= ge_end e -> (ge_end e + 1) * gs_bytes_per_sector system < two64 -> 0 < gs_bytes_per_sector system ->
  gpt_partition_at system i = Ok {| gp_index := ge_index e; gp_offset := ge_start e * gs_bytes_per_sector system;
    gp_size := (ge_end e - ge_start e + 1) * gs_bytes_per_sector system; gp_type := ge_type e; gp_identifier := ge_identifier e |}.
Proof.
  intros En Hs He Hb. unfold gpt_partition_at. rewrite En. cbn [of_option bind].
  set (b := gs_bytes_per_sector system) in *.
  assert (M1 : mul_chk two64 (ge_start e) b = Ok (ge_start e * b)).
  { unfold mul_chk. destruct (N.ltb_spec (ge_start e * b) two64); [reflexivity|nia]. }
  assert (M2 : mul_chk two64 (ge_end e - ge_start e + 1) b = Ok ((ge_end e - ge_start e + 1) * b)).
  { unfold mul_chk. destruct (N.ltb_spec ((ge_end e - ge_start e + 1) * b) two64) as [|Hge]; [reflexivity|].
    assert ((ge_end e - ge_start e + 1) * b <= (ge_end e + 1) * b) by (apply N.mul_le_mono_r; lia). lia. }
  rewrite M1. cbn [bind]. unfold sub_chk. destruct (N.leb_spec (ge_start e) (ge_end e)); [|lia]. cbn [bind].
  assert (A : add_chk two64 (ge_end e - ge_start e) 1 = Ok (ge_end e - ge_start e + 1)).
  { unfold add_chk. destruct (N.ltb_spec (ge_end e - ge_start e + 1) two64); [reflexivity|nia]. }
  rewrite A. cbn [bind]. rewrite M2. reflexivity.
Qed.

(** ** APM *)
Lemma text_ok l : string_from_slice l = text l.
Proof.
  unfold string_from_slice. induction l as [|b l IH]; [reflexivity|]. cbn [position0 text].
  destruct (b =? 0); [reflexivity|]. destruct (position0 l); cbn [option_map firstn] in *; f_equal; exact IH.
Qed.
Lemma field_be_bound data o n : wf_bytes data -> field_be data o n < 2 ^ (8 * n).
Proof.
  intros Hw. unfold field_be. pose proof (be_value_bound (bytes_at data o n) (wf_bytes_at _ _ _ Hw)) as B.
  eapply N.lt_le_trans; [exact B|]. rewrite <- pow2_8. apply N.pow_le_mono_r; [lia|].
  rewrite len_bytes_at. lia.
Qed.
Definition apm_fields (s : list N) : apm_entry :=
  {| ae_number := field_be s 4 4; ae_start := field_be s 8 4; ae_sectors := field_be s 12 4;
     ae_name := text (bytes_at s 16 32); ae_type := text (bytes_at s 48 32); ae_flags := field_be s 88 4 |}.
Lemma apm_entry_decode data : len data = 512 ->
  (bytes_at data 0 2 = [0x50; 0x4d] /\ apm_entry_read data = Ok (apm_fields data)) \/
  (bytes_at data 0 2 <> [0x50; 0x4d] /\ apm_entry_read data = Err).
Proof.
  intros Hl. unfold apm_entry_read. rewrite Hl. change (512 =? 512) with true. cbn [check bind].
  rewrite slice_bytes_at by lia. cbn [bind]. change (2 - 0) with 2.
  destruct (same (bytes_at data 0 2) _) eqn:E; cbn [check bind].
  - left. apply same_true in E. split; [assumption|]. unfold u32_be.
    rewrite !be_field, !slice_bytes_at by (unfold two64; lia). cbn [bind]. rewrite !text_ok.
    change (48 - 16) with 32. change (80 - 48) with 32. reflexivity.
  - right. split; [|reflexivity]. intros H. apply same_true in H. congruence.
Qed.

Lemma apm_step volume i : (exists n, apm_entry_ok volume n i /\
    (data <- read_exact_at volume ((i + 1) * 512) 512 ;; apm_entry_read data) = Ok (apm_fields (apm_sector volume i)) /\
    n = field_be (apm_sector volume i) 4 4) \/
  ((forall n, ~ apm_entry_ok volume n i) /\ (data <- read_exact_at volume ((i + 1) * 512) 512 ;; apm_entry_read data) = Err).
Proof.
  destruct (read_exact_shape volume ((i + 1) * 512) 512) as [[-> Hl]|[-> Hl]]; cbn [bind].
  2:{ right. split; [|reflexivity]. intros n [H _]. lia. }
  fold (apm_sector volume i).
  destruct (apm_entry_decode (apm_sector volume i)) as [[H1 H2]|[H1 H2]].
  - unfold apm_sector. rewrite len_bytes_at. lia.
  - left. exists (field_be (apm_sector volume i) 4 4). split; [|auto]. split; [lia|auto].
  - right. split; [|assumption]. intros n (_ & H & _). contradiction.
Qed.

Lemma bind_assoc {A B C} (m : res A) (f : A -> res B) (g : B -> res C) :
  (y <- (x <- m ;; f x) ;; g y) = (x <- m ;; y <- f x ;; g y).
Proof. destruct m; reflexivity. Qed.

Lemma apm_entries_ok volume : len volume < two64 -> forall fuel number i, 0 < i -> i < number -> number < two32 ->
  len volume / 512 + 1 <= N.of_nat fuel + i -> (exists n, apm_entry_ok volume n (i - 1)) ->
  ((forall j, i <= j < number -> apm_entry_ok volume number j) /\
   apm_entries fuel volume number i ((i + 1) * 512) =
     Ok (map (fun j => apm_fields (apm_sector volume j)) (seqN i (N.to_nat (number - i))))) \/
  (~ (forall j, i <= j < number -> apm_entry_ok volume number j) /\
   apm_entries fuel volume number i ((i + 1) * 512) = Err).
Proof.
  intros Hlv. induction fuel as [|fuel IH]; intros number i Hi Hn H32 Hf (n0 & Hp & _).
  { exfalso. assert (i + 1 <= len volume / 512) by (apply N.div_le_lower_bound; lia). lia. }
  cbn [apm_entries]. rewrite <- bind_assoc.
  destruct (apm_step volume i) as [(n & Hok & E & En)|[Hno E]]; rewrite E; cbn [bind].
  2:{ right. split; [|reflexivity]. intros H. apply (Hno number), H. lia. }
  destruct (N.eqb_spec i 0); [lia|]. change (ae_number (apm_fields (apm_sector volume i))) with (field_be (apm_sector volume i) 4 4).
  destruct (N.eqb_spec (field_be (apm_sector volume i) 4 4) number) as [Hnum|Hnum]; cbn [check bind].
  2:{ right. split; [|reflexivity]. intros H. specialize (H i ltac:(lia)). destruct H as (_ & _ & H). contradiction. }
  assert (Hend : (i + 2) * 512 <= len volume) by apply Hok.
  assert (A1 : add_chk two32 i 1 = Ok (i + 1)) by (unfold add_chk; destruct (N.ltb_spec (i + 1) two32); [reflexivity|lia]).
  assert (A2 : add_chk two64 ((i + 1) * 512) 512 = Ok ((i + 1 + 1) * 512)).
  { unfold add_chk. destruct (N.ltb_spec ((i + 1) * 512 + 512) two64); [f_equal; lia|lia]. }
  rewrite A1. cbn [bind]. rewrite A2. cbn [bind].
  assert (Hok' : apm_entry_ok volume number i) by (destruct Hok as (? & ? & _); repeat split; assumption).
  destruct (N.leb_spec number (i + 1)) as [Hle|Hlt].
  - left. split; [intros j Hj; replace j with i by lia; assumption|].
    replace (N.to_nat (number - i)) with 1%nat by lia. reflexivity.
  - destruct (IH number (i + 1)) as [[Hall E']|[Hall E']]; [lia|lia|lia|lia|..]; rewrite ?E'; cbn [bind].
    + replace (i + 1 - 1) with i by lia. eauto.
    + left. split.
      { intros j Hj. destruct (N.eq_dec j i) as [->|]; [assumption|]. apply Hall. lia. }
      replace (N.to_nat (number - i)) with (S (N.to_nat (number - (i + 1)))) by lia. reflexivity.
    + right. split; [|reflexivity]. intros H. apply Hall. intros j Hj. apply H. lia.
Qed.

Lemma apm_read_ok volume : wf_bytes volume -> len volume < two64 ->
  let n := field_be (apm_sector volume 0) 4 4 in
  (apm_map volume n /\ apm_read volume = Ok (map (fun j => apm_fields (apm_sector volume j)) (seqN 1 (N.to_nat (n - 1))))) \/
  ((forall n, ~ apm_map volume n) /\ apm_read volume = Err).
Proof.
  intros Hw Hlv n. unfold apm_read. cbn [apm_entries]. rewrite <- bind_assoc.
  assert (Hn : n < two32).
  { unfold n. eapply N.lt_le_trans; [apply field_be_bound, wf_bytes_at, Hw|]. vm_compute. discriminate. }
  pose proof (apm_step volume 0) as St. change ((0 + 1) * 512) with 512 in St.
  destruct St as [(n' & Hok & E & En)|[Hno E]]; rewrite E; cbn [bind].
  2:{ right. split; [|reflexivity]. intros m [H _]. exact (Hno _ H). }
  fold n in En. subst n'. change (0 =? 0) with true. cbv iota.
  change (ae_type (apm_fields (apm_sector volume 0))) with (text (bytes_at (apm_sector volume 0) 48 32)).
  destruct (same _ apm_map_type) eqn:Es; cbn [check bind].
  2:{ right. split; [|reflexivity]. intros m (_ & H & _). rewrite H in Es. discriminate. }
  apply same_true in Es.
  change (ae_number (apm_fields (apm_sector volume 0))) with n. change (add_chk two32 0 1) with (Ok 1). cbn [bind].
  change (add_chk two64 512 512) with (Ok ((1 + 1) * 512)). cbn [bind].
  assert (Hm : forall m, apm_map volume m -> m = n). { intros m [(_ & _ & H) _]. symmetry. exact H. }
  destruct (N.leb_spec n 1) as [Hle|Hlt].
  - left. split.
    { split; [assumption|]. split; [assumption|]. intros i Hi. replace i with 0 by lia. assumption. }
    replace (N.to_nat (n - 1)) with 0%nat by lia. reflexivity.
  - destruct (apm_entries_ok volume Hlv (N.to_nat (len volume / 512)) n 1) as [[Hall E']|[Hall E']]; [lia|lia|lia|lia|exists n; exact Hok|..];
      rewrite E'; cbn [bind].
    + left. split; [|reflexivity]. split; [assumption|]. split; [assumption|]. intros i Hi.
      destruct (N.eq_dec i 0) as [->|]; [assumption|]. apply Hall. lia.
    + right. split; [|reflexivity]. intros m H. pose proof (Hm m H). subst m. apply Hall. intros j Hj. apply H. lia.
Qed.
