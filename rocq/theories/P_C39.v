(** * C39: the signature scanner *)
From Coq Require Import Lia String.
From Verif Require Import Base BaseLemmas Lru_model Lru_proofs Sigscan_model Sigscan_spec Sigscan_proofs Sigscan_scan_proofs.
Open Scope N_scope.
Open Scope list_scope.
Ltac Zify.zify_post_hook ::= idtac.

(** Soundness: for every set of signatures, every data and every way to cut it in buffers,
    each signature reported is one of the set and is present in the data. One with a fixed
    place is at the place reported; one without is reported with the start of the buffer it
    stands in. *)
Theorem C39_reported_signatures_are_present : forall fuel l sc data buffers rest c,
  scanner_build fuel l = Ok sc -> data = concat buffers ++ rest ->
  scan_buffers (context_new sc (len data)) buffers = Ok c ->
  forall o s, In (o, s) (results c) ->
    In s l
    /\ (s_type s <> Unbound -> present data s o)
    /\ (s_type s = Unbound -> exists before b after o', buffers = before ++ b :: after /\ o = len (concat before)
          /\ o <= o' /\ o' + len (pattern s) <= o + len b /\ occurs (pattern s) data o').
Proof.
  intros fuel l sc data buffers rest c B Ed E o s H. pose proof (scanner_build_ok _ _ _ B) as S.
  pose proof (scan_buffers_inv l data buffers [] buffers rest (context_new sc (len data)) c S eq_refl eq_refl Ed eq_refl E) as R.
  destruct (R ltac:(intros k x []) o s H) as (R1 & R2). split; [exact R1|]. split.
  - intros Hu. destruct (s_type s); [exact R2|exact R2|congruence].
  - intros Hu. rewrite Hu in R2. exact R2.
Qed.
Print Assumptions C39_reported_signatures_are_present.

(** No panic: patterns and buffers of two bytes or more, and data as large as the places of
    the signatures at its end. *)
Theorem C39_scan_total_partial : forall fuel l sc data buffers rest,
  scanner_build fuel l = Ok sc -> data = concat buffers ++ rest -> 2 <= len data < two64 ->
  Forall (fun s => 2 <= len (pattern s)) l -> Forall (fun b => len b <> 1) buffers ->
  (forall s, In s l -> s_type s = BoundToEnd -> s_offset s <= len data) ->
  exists c, scan_buffers (context_new sc (len data)) buffers = Ok c.
Proof.
  intros fuel l sc data buffers rest B Ed [H1 H2] Z HF F. pose proof (scanner_build_ok _ _ _ B) as S. rewrite Forall_forall in Z.
  apply (scan_buffers_total l data buffers [] rest (context_new sc (len data)) S Z eq_refl Ed eq_refl H2 H1 HF F).
Qed.
Print Assumptions C39_scan_total_partial.

(** Completeness, for signatures with a fixed place and distinct patterns that a buffer shows
    in whole: the first buffer for those at the start, a buffer with the whole range of the
    signatures at the end for those. When one is present, one of them is reported. *)
Theorem C39_some_present_signature_is_reported_partial : forall fuel l sc data buffers rest c s o,
  scanner_build fuel l = Ok sc -> distinct_patterns l -> data = concat buffers ++ rest ->
  scan_buffers (context_new sc (len data)) buffers = Ok c ->
  In s l -> pattern s <> [] -> present data s o -> seen l data buffers s o ->
  exists s' o', In (o', s') (results c) /\ In s' l.
Proof.
  intros fuel l sc data buffers rest c s o B D Ed E Hs Hne P V. pose proof (scanner_build_ok _ _ _ B) as S. pose proof S as (T1 & T2 & _).
  destruct (seen_found l data buffers rest sc c s o S Ed) as (s' & o' & X1 & X2 & X3 & X4); try assumption.
  - destruct (s_type s) eqn:Hty; [right; discriminate|left; apply (tr_covers _ _ _ T1 D s Hs Hty)|right; discriminate].
  - destruct (s_type s) eqn:Hty; [left; apply (tr_covers _ _ _ T2 D s Hs Hty)|right; discriminate|right; discriminate].
  - destruct (hm_get_In _ _ X4) as (s2 & H2). exists s2, o'. split; [exact H2|]. apply (C39_reported_signatures_are_present fuel l sc data buffers rest c B Ed E _ _ H2).
Qed.
Print Assumptions C39_some_present_signature_is_reported_partial.
(** The one signature of its kind and at its place that is present is reported. *)
Theorem C39_present_signature_is_reported_partial : forall fuel l sc data buffers rest c s o,
  scanner_build fuel l = Ok sc -> distinct_patterns l -> Forall bound l -> data = concat buffers ++ rest ->
  scan_buffers (context_new sc (len data)) buffers = Ok c ->
  In s l -> pattern s <> [] -> present data s o -> seen l data buffers s o ->
  (forall s' o', In s' l -> present data s' o' -> s_type s' = s_type s \/ o' = o -> s' = s) ->
  In (o, s) (results c).
Proof.
  intros fuel l sc data buffers rest c s o B D Bd Ed E Hs Hne P V U. pose proof (scanner_build_ok _ _ _ B) as S. pose proof S as (T1 & T2 & _).
  destruct (seen_found l data buffers rest sc c s o S Ed) as (s' & o' & X1 & X2 & X3 & X4); try assumption.
  - destruct (s_type s) eqn:Hty; [right; discriminate|left; apply (tr_covers _ _ _ T1 D s Hs Hty)|right; discriminate].
  - destruct (s_type s) eqn:Hty; [left; apply (tr_covers _ _ _ T2 D s Hs Hty)|right; discriminate|right; discriminate].
  - assert (s' = s) by (apply (U s' o' X1 X3); left; exact X2). subst s'.
    assert (Eo : o' = o).
    { rewrite Forall_forall in Bd. specialize (Bd s Hs). unfold bound, present in *. destruct P as [P _], X3 as [Q _]. destruct (s_type s); [lia|lia|congruence]. }
    subst o'. destruct (hm_get_In _ _ X4) as (s2 & H2). destruct (C39_reported_signatures_are_present fuel l sc data buffers rest c B Ed E _ _ H2) as (Y1 & Y2 & _).
    rewrite Forall_forall in Bd. rewrite <- (U s2 o Y1 (Y2 (Bd s2 Y1)) (or_intror eq_refl)). exact H2.
Qed.
Print Assumptions C39_present_signature_is_reported_partial.
(** The only signature of a scanner, without a place, is found in every buffer it stands in. *)
Theorem C39_single_unbound_signature_is_reported_partial : forall fuel s sc data buffers rest c before b after i,
  s_type s = Unbound -> 2 <= len (pattern s) -> scanner_build fuel [s] = Ok sc -> data = concat buffers ++ rest ->
  scan_buffers (context_new sc (len data)) buffers = Ok c ->
  buffers = before ++ b :: after -> occurs (pattern s) b i -> In (len (concat before), s) (results c).
Proof.
  intros fuel s sc data buffers rest c before b after i Hty Hsz B Ed E Eb Ho. pose proof E as E0. rewrite Eb in E. apply scan_buffers_app in E.
  destruct E as (c1 & _ & E & A3 & A4 & A5). cbn [context_new sc_scanner data_size data_offset] in A3, A4, A5. cbn [scan_buffers] in E. apply bind_Ok_inv in E. destruct E as (c2 & E1 & E).
  assert (Eo : data_offset c1 = len (concat before)) by (rewrite A5; unfold start_of; lia).
  assert (Hle : data_offset c1 + len b <= data_size c1) by (rewrite A4, Eo, Ed, Eb, concat_app; cbn [concat]; rewrite !len_app; lia).
  pose proof (single_found fuel s sc c1 b c2 i Hty Hsz B A3 Hle E1 Ho) as X. apply (scan_buffers_keeps _ _ _ _ E) in X. rewrite Eo in X.
  destruct (hm_get_In _ _ X) as (s2 & H2). destruct (C39_reported_signatures_are_present fuel [s] sc data buffers rest c B Ed E0 _ _ H2) as ([<-|[]] & _). exact H2.
Qed.
Print Assumptions C39_single_unbound_signature_is_reported_partial.

(** The scanners that are shipped: they are built, and for every content of more than 520
    bytes the scan of a stream reports only signatures that are present, and the one that is
    present of its kind and place, but for those of partition tables with sectors of more
    than 512 bytes. *)
Theorem C39_format_scanners : forall l content, In l shipped -> 520 < len content < two64 ->
  exists sc r, scanner_build 100 l = Ok sc /\ scan_data_stream sc content = Ok r
  /\ (forall o s, In (o, s) r -> In s l /\ present content s o)
  /\ (forall s o, In s l -> late s = false -> present content s o ->
        (forall s' o', In s' l -> present content s' o' -> s_type s' = s_type s \/ o' = o -> s' = s) -> In (o, s) r).
Proof.
  intros l content Hl [H1 H2]. pose proof shipped_checked as K. rewrite forallb_forall in K. specialize (K l Hl). unfold shipped_check in K.
  destruct (scanner_build 100 l) as [sc| |] eqn:B; [|discriminate|discriminate]. pose proof (scanner_build_ok _ _ _ B) as S.
  apply Bool.andb_true_iff in K. destruct K as [K K3]. apply Bool.andb_true_iff in K. destruct K as [K1 K2]. apply N.ltb_lt in K1. apply N.leb_le in K2. rewrite forallb_forall in K3.
  assert (Z : sizes_ok l) by (intros s Hs; specialize (K3 s Hs); apply Bool.andb_true_iff in K3; destruct K3 as [K3 _]; apply Bool.andb_true_iff in K3; destruct K3 as [K3 _]; apply N.leb_le in K3; exact K3).
  assert (Bd : forall s, In s l -> bound s).
  { intros s Hs. specialize (K3 s Hs). apply Bool.andb_true_iff in K3. destruct K3 as [K3 _]. apply Bool.andb_true_iff in K3. destruct K3 as [_ K3]. intros Hu. rewrite Hu in K3. discriminate. }
  destruct (stream_scan l sc content S Z) as (r & E & R & C); [apply Forall_forall; exact Bd|exact K1|lia|lia|exact H2|].
  exists sc, r. split; [reflexivity|]. split; [exact E|].
  assert (R' : forall o s, In (o, s) r -> In s l /\ present content s o).
  { intros o s H. destruct (R o s H) as (A1 & A2). split; [exact A1|]. specialize (Bd s A1). unfold bound in Bd. destruct (s_type s); [exact A2|exact A2|congruence]. }
  split; [exact R'|]. intros s o Hs HL P U. specialize (K3 s Hs). apply Bool.andb_true_iff in K3. destruct K3 as [_ K3]. rewrite HL in K3. cbn [orb] in K3.
  destruct (C s o Hs P K3) as (s' & o' & X1 & X2 & X3 & X4).
  assert (s' = s) by (apply (U s' o' X1 X3); left; exact X2). subst s'.
  assert (Eo : o' = o).
  { specialize (Bd s Hs). unfold bound, present in *. destruct P as [P _], X3 as [Q _]. destruct (s_type s); [lia|lia|congruence]. }
  subst o'. destruct (hm_get_In _ _ X4) as (s2 & H3). destruct (R' _ _ H3) as (Y1 & Y2). rewrite <- (U s2 o Y1 Y2 (or_intror eq_refl)). exact H3.
Qed.
Print Assumptions C39_format_scanners.

(** ** Cases *)
Definition word (s : string) : list N := map Ascii.N_of_ascii (list_ascii_of_string s).
Definition scan (l : list signature) (buffers : list (list N)) (size : N) : res (list (N * string)) :=
  sc <- scanner_build 20 l ;; c <- scan_buffers (context_new sc size) buffers ;; Ok (map (fun e => (fst e, identifier (snd e))) (results c)).
Definition scan_stream (l : list signature) (content : list N) : res (list (N * string)) :=
  sc <- scanner_build 100 l ;; r <- scan_data_stream sc content ;; Ok (map (fun e => (fst e, identifier (snd e))) r).
Definition start_ id o p := sig id BoundToStart o (word p).
Definition any_ id p := sig id Unbound 0 (word p).
Definition end_ id o p := sig id BoundToEnd o (word p).
(** A header, a footer and the buffers they stand in: the hypotheses are met. *)
Example C39_found : 
  let l := [start_ "a" 0 "head"; start_ "b" 2 "xy"; end_ "c" 6 "foot"; end_ "d" 3 "ab"] in
  let buffers := [word "head."; word "....foot.."] in
  scan l buffers 15 = Ok [(9, "c"); (0, "a")]%string
  /\ distinct_patterns l /\ Forall bound l /\ seen l (concat buffers) buffers (start_ "a" 0 "head") 0 /\ seen l (concat buffers) buffers (end_ "c" 6 "foot") 9
  /\ present (concat buffers) (end_ "c" 6 "foot") 9.
Proof.
  cbv zeta. split; [vm_compute; reflexivity|]. split.
  - intros s s' Hs Hs' _ Ep. cbn in Hs, Hs'. repeat (destruct Hs as [<-|Hs]; [repeat (destruct Hs' as [<-|Hs']; [first [reflexivity|discriminate Ep]|]); destruct Hs'|]). destruct Hs.
  - split; [repeat constructor; discriminate|]. split; [exists (word "head."), [word "....foot.."]; split; [reflexivity|vm_compute; discriminate]|]. split.
    + exists [word "head."], (word "....foot.."), []. split; [reflexivity|]. split; [|vm_compute; discriminate].
      intros s Hs Hty. cbn in Hs. destruct Hs as [<-|[<-|[<-|[<-|[]]]]]; try discriminate; vm_compute; discriminate.
    + split; [reflexivity|]. exists (word "head....."), (word ".."). split; reflexivity.
Qed.
Example C39_found_anywhere : scan [any_ "u" "abab"] [word "xxabxabab"; word "none"; word "abab"] 17 = Ok [(13, "u"); (0, "u")]%string.
Proof. vm_compute. reflexivity. Qed.
Example C39_found_gpt : scan_stream volume_signatures1 (repeat 0 512 ++ word "EFI PART" ++ repeat 0 512) = Ok [(512, "gpt1")]%string.
Proof. vm_compute. reflexivity. Qed.
Example C39_found_images : map (scan_stream image_signatures) [word "vhdxfile" ++ repeat 0 600; repeat 0 100 ++ word "koly" ++ repeat 0 508; word "conectix" ++ repeat 0 100 ++ word "conectix" ++ repeat 0 504]
  = [Ok [(0, "vhdx1")]; Ok [(100, "udif1")]; Ok [(108, "vhd1")]]%string.
Proof. vm_compute. reflexivity. Qed.

(** ** What does not hold *)
(** Building does not end: two signatures without common bytes and not at the start. *)
Definition stuck := [sig "a" BoundToStart 4 [0x80; 0x81]; sig "b" BoundToStart 8 [0x82; 0x83]].
Definition stuck_table : signature_table := match table_fill stuck [] 10 (table_new BoundToStart) with Ok t => t | _ => table_new BoundToStart end.
Lemma zeros_not o ignore : Forall (eq 0) ignore -> 0 < o -> existsb (N.eqb o) ignore = false.
Proof. induction 1 as [|x r <- _ IH]; [reflexivity|]. intros H. cbn [existsb]. rewrite (IH H). destruct (N.eqb_spec o 0); [lia|reflexivity]. Qed.
Lemma zeros_bytes ignore s bytes : Forall (eq 0) ignore -> forall o t, 0 < o -> table_bytes ignore o bytes s t = table_bytes [] o bytes s t.
Proof.
  intros H. induction bytes as [|b bytes IH]; intros o t Ho; [reflexivity|]. cbn [table_bytes existsb]. rewrite (zeros_not _ _ H Ho). apply IH. lia.
Qed.
Lemma stuck_fill ignore : Forall (eq 0) ignore -> table_fill stuck ignore 10 (table_new BoundToStart) = Ok stuck_table.
Proof.
  intros H. unfold stuck. cbn [table_fill sig s_type table_new t_type type_eq negb table_offset bind s_offset pattern].
  rewrite (zeros_bytes ignore _ [0x80; 0x81] H) by reflexivity. 
  match goal with |- context [table_bytes [] 4 ?p ?s ?t] => let v := eval vm_compute in (table_bytes [] 4 p s t) in change (table_bytes [] 4 p s t) with v end.
  cbn [s_type t_type type_eq negb table_offset bind s_offset pattern].
  rewrite (zeros_bytes ignore _ [0x82; 0x83] H) by reflexivity. vm_compute. reflexivity.
Qed.
Theorem C39_build_ends_refuted : forall fuel, scanner_build fuel stuck = Panic.
Proof.
  assert (X : forall fuel ignore, Forall (eq 0) ignore -> node_build fuel stuck_table ignore 10 = Panic).
  { induction fuel as [|fuel IH]; intros ignore H; [reflexivity|]. cbn [node_build].
    change (most_significant_offset stuck_table) with (Some 0). cbn [of_option bind].
    change (groups_at stuck_table 0) with (@nil (N * list signature)). cbn [mapM bind].
    change (filter (fun s => negb (contains (signatures_at stuck_table 0) s)) (t_signatures stuck_table)) with stuck.
    assert (H' : Forall (eq 0) (ignore ++ [0])) by (apply Forall_app; split; [exact H|repeat constructor]).
    unfold stuck at 1. change (t_type stuck_table) with BoundToStart. rewrite (stuck_fill _ H'). cbn [bind]. rewrite (IH _ H'). reflexivity. }
  intros fuel. unfold scanner_build, tree_build. change (spanning BoundToStart stuck 0 0) with (Ok (10, 2)). cbn [bind N.ltb N.compare].
  rewrite (stuck_fill [] (Forall_nil _)). cbn [bind]. rewrite (X fuel [] (Forall_nil _)). reflexivity.
Qed.
Print Assumptions C39_build_ends_refuted.
(** Patterns that each start with the one before are not accepted. *)
Theorem C39_build_prefixes_refuted : scanner_build 20 [start_ "a" 0 "ab"; start_ "b" 0 "abc"; start_ "c" 0 "abcd"] = Err.
Proof. vm_compute. reflexivity. Qed.
Print Assumptions C39_build_prefixes_refuted.
(** One-byte patterns and one-byte buffers panic, and so does the end of data that is smaller
    than the place of a signature. *)
Theorem C39_scan_total_refuted :
  scan [start_ "a" 0 "h"] [word "xx"] 2 = Panic
  /\ scan [start_ "a" 0 "head"] [word "h"; word "ead"] 4 = Panic
  /\ scan [end_ "a" 10 "foot"] [word "....foot"] 8 = Panic
  /\ scan_stream volume_signatures1 [] = Panic /\ scan_stream volume_signatures1 [0] = Panic.
Proof. vm_compute. repeat split. Qed.
Print Assumptions C39_scan_total_refuted.
(** Of two signatures with the same pattern one is lost: the partition table of a disk with
    sectors of 1024 bytes is not found. *)
Theorem C39_equal_patterns_refuted : scan_stream volume_signatures1 (repeat 0 1024 ++ word "EFI PART" ++ repeat 0 512) = Ok []
  /\ scan_stream volume_signatures3 (repeat 0 1022 ++ [0x55; 0xaa] ++ repeat 0 512) = Ok [].
Proof. vm_compute. auto. Qed.
Print Assumptions C39_equal_patterns_refuted.
(** Of two signatures that are present one is reported. *)
Theorem C39_all_present_refuted : scan [start_ "a" 0 "head"; start_ "b" 4 "tail"] [word "headtail"] 8 = Ok [(0, "a")]%string.
Proof. vm_compute. reflexivity. Qed.
Print Assumptions C39_all_present_refuted.
(** What is found depends on the buffers. *)
Theorem C39_buffers_refuted :
  scan [start_ "a" 1 "head"] [word "xheadx"] 6 = Ok [(1, "a")]%string /\ scan [start_ "a" 1 "head"] [word "xhe"; word "adx"] 6 = Ok [].
Proof. vm_compute. auto. Qed.
Print Assumptions C39_buffers_refuted.
(** A pattern without a place is reported at the start of the buffer, not where it stands;
    with several, one can be missed. *)
Theorem C39_unbound_refuted :
  scan [any_ "u" "abab"] [word "xxabab"] 6 = Ok [(0, "u")]%string
  /\ (let l := [any_ "u" "abc"; any_ "v" "ade"; any_ "w" "bcd"] in
      scan l [word "bcd"] 3 = Ok [(0, "w")]%string /\ scan l [word "a...bcd"] 7 = Ok []).
Proof. vm_compute. auto. Qed.
Print Assumptions C39_unbound_refuted.
(** Streams of 520 bytes or less: the info tool's scanner reports NTFS for a file with the
    signature one byte before its place, and panics on a small file with a "k" at offset 8. *)
Theorem C39_small_stream_refuted :
  (sc <- scanner_build 100 info_signatures ;;
   r <- scan_data_stream sc (word "..NTFS    " ++ repeat 0 509) ;;
   Ok (map (fun e => (fst e, identifier (snd e))) r, scan_data_stream sc (word "........k"))) = Ok ([(3, "ntfs1")]%string, Panic).
Proof. vm_compute. reflexivity. Qed.
Print Assumptions C39_small_stream_refuted.
