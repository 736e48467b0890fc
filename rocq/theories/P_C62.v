(** * C62: digests, copies, timestamps and sizes of the tools *)
From Coq Require Import Lia String ZArith Znumtheory.
From Verif Require Import Base BaseLemmas Hash_model Hash_spec Hash_proofs P_C05 Uuid_model Uuid_spec Formatters_model Formatters_spec Formatters_proofs P_C22
  Datetime_model Datetime_spec Datetime_proofs Streams_model Streams_spec Tools_model Tools_spec.
Open Scope N_scope.
Open Scope list_scope.
Ltac Zify.zify_post_hook ::= idtac.

Lemma len_zero (l : list N) : (len l =? 0) = true -> l = [].
Proof. destruct l; [reflexivity|]. cbn. discriminate. Qed.
Lemma len_nonzero (l : list N) : l <> [] -> (len l =? 0) = false.
Proof. destruct l; [congruence|]. reflexivity. Qed.

Lemma add_chk_ok m a b : a + b < m -> add_chk m a b = Ok (a + b).
Proof. intros H. unfold add_chk. destruct (N.ltb_spec (a + b) m); [reflexivity|lia]. Qed.

Section Proof.
Context {St : Type}.
Variable read : St -> N -> res (list N) * St.

(** The pieces, and what the loop does with them *)
Lemma pieces_of st content e : gives read read_buffer_size st content e ->
  exists chunks, concat chunks = content /\
  forall a c, (forall n, exists c', hash_updates a c (firstn n chunks) = Ok c') ->
  exists n, forall fuel, (n <= fuel)%nat ->
  digest_loop read a fuel st c = Some (match e with Done => hash_updates a c chunks | Failed => Err end).
Proof.
  induction 1 as [st st' E|st st' E|st st' piece content e E Hne Hle G IH].
  - exists []. split; [reflexivity|]. intros a c _. exists 1%nat. intros [|fuel] Hf; [lia|]. cbn [digest_loop]. rewrite E. reflexivity.
  - exists []. split; [reflexivity|]. intros a c _. exists 1%nat. intros [|fuel] Hf; [lia|]. cbn [digest_loop]. rewrite E. reflexivity.
  - destruct IH as (chunks & <- & IH). exists (piece :: chunks). split; [reflexivity|]. intros a c Hc.
    destruct (Hc 1%nat) as [c1 E1]. cbn [firstn hash_updates] in E1. destruct (hash_update a c piece) as [c1'| |] eqn:Eu; cbn [bind] in E1; try discriminate.
    destruct (IH a c1') as [n Hn].
    { intros n. destruct (Hc (S n)) as [c' E']. cbn [firstn hash_updates] in E'. rewrite Eu in E'. cbn [bind] in E'. now exists c'. }
    exists (S n). intros [|fuel] Hf; [lia|]. cbn [digest_loop]. rewrite E, (len_nonzero _ Hne).
    destruct (N.ltb_spec read_buffer_size (len piece)); [lia|]. rewrite Eu. rewrite Hn by lia. cbn [hash_updates]. rewrite Eu. reflexivity.
Qed.
End Proof.

Lemma updates_fine t chunks n : len (concat chunks) < 2 ^ 61 -> exists c', hash_updates (digest_alg t) (hash_new (digest_alg t)) (firstn n chunks) = Ok c'.
Proof.
  intros H. assert (H' : len (concat (firstn n chunks)) < 2 ^ 61).
  { rewrite <- (firstn_skipn n chunks), concat_app, len_app in H. lia. }
  destruct (C05_digests_are_standard _ H') as (A1 & A2 & A3 & A4 & A5). cbv zeta in *. unfold hash_run in *.
  destruct t; cbn [digest_alg]; match goal with |- exists _, ?x = _ => destruct x as [c'| |]; [now exists c'|discriminate|discriminate] end.
Qed.
Lemma be_bytes_wf n v : wf_bytes (be_bytes n v).
Proof. unfold be_bytes, wf_bytes. apply Forall_rev, le_bytes_wf. Qed.
Lemma wf_map n l : wf_bytes (concat (map (be_bytes n) l)).
Proof. induction l as [|x l IH]; [constructor|]. cbn [map concat]. apply Forall_app. split; [apply be_bytes_wf|exact IH]. Qed.

(** The digest of a type, as published *)
Definition digest_of (t : digest_hash_type) : list N -> list N :=
  match t with Md5 => MD5 | Sha1 => SHA1 | Sha224 => SHA224 | Sha256 => SHA256 | Sha512 => SHA512 end.
Lemma digest_wf t m : wf_bytes (digest_of t m).
Proof.
  destruct t; cbn [digest_of].
  - unfold MD5. destruct (fold_left md5_compress _ _) as [[[a b] c] d]. rewrite !wf_bytes_app; repeat split; apply le_bytes_wf.
  - unfold SHA1. destruct (fold_left sha1_compress _ _) as [[[[a b] c] d] e]. rewrite !wf_bytes_app; repeat split; apply be_bytes_wf.
  - apply wf_map.
  - apply wf_map.
  - apply wf_map.
Qed.

(** ** Digests *)
(** The text is the hexadecimal digits of the published digest of all that the reader gives,
    whatever the sizes of the pieces; when reading fails, so does the call. *)
Theorem C62_digest_of_the_content :
  forall St (read : St -> N -> res (list N) * St) st content e t, gives read 65536 st content e -> len content < 2 ^ 61 ->
  exists n, forall fuel, (n <= fuel)%nat ->
  calculate_hash read t fuel st = Some (match e with Done => Ok (bytes_text (digest_of t content)) | Failed => Err end) /\
  calculate_md5 read fuel st = calculate_hash read Md5 fuel st.
Proof.
  intros St read st content e t G Hl. destruct (pieces_of read st content e G) as (chunks & <- & H).
  destruct (H (digest_alg t) (hash_new (digest_alg t))) as [n Hn]; [intros n; now apply updates_fine|].
  exists n. intros fuel Hf. split; [|reflexivity]. unfold calculate_hash, digest_text. rewrite (Hn fuel Hf). destruct e; [|reflexivity].
  assert (R : (r <- hash_run (digest_alg t) (hash_new (digest_alg t)) chunks ;; Ok (fst r)) = Ok (digest_of t (concat chunks))).
  { destruct (C05_digests_are_standard chunks Hl) as (A1 & A2 & A3 & A4 & A5). cbv zeta in *. destruct t; assumption. }
  unfold hash_run in R. f_equal. destruct (hash_updates (digest_alg t) (hash_new (digest_alg t)) chunks) as [c| |]; cbn [bind] in R |- *; try discriminate.
  destruct (hash_finalize (digest_alg t) c) as [[d c']| |]; cbn [bind fst] in R |- *; try discriminate. injection R as ->.
  now rewrite (C22_format_as_string _ (digest_wf t _)).
Qed.
Print Assumptions C62_digest_of_the_content.

(** A data stream that answers reads as a file does gives the rest of the file. *)
Lemma file_gives size c : forall k p, (N.to_nat (len c - p) <= k)%nat -> 0 < size ->
  gives (stream_reader (file_step (len c) c)) size p (skipn (N.to_nat p) c) Done.
Proof.
  induction k as [|k IH]; intros p Hk Hs.
  - assert (E : skipn (N.to_nat p) c = []) by (apply skipn_all2; unfold len in Hk; lia). rewrite E. apply gives_done with p.
    unfold stream_reader. cbn [file_step]. unfold bytes_at. rewrite E, firstn_nil. cbn. now rewrite N.add_0_r.
  - destruct (skipn (N.to_nat p) c) as [|x r] eqn:E.
    + apply gives_done with p. unfold stream_reader. cbn [file_step]. unfold bytes_at. rewrite E, firstn_nil. cbn. now rewrite N.add_0_r.
    + rewrite <- (firstn_skipn (N.to_nat size) (x :: r)). set (d := firstn (N.to_nat size) (x :: r)).
      assert (Ld : 0 < len d) by (unfold d; destruct (N.to_nat size) eqn:Es; [lia|]; cbn; lia).
      apply gives_piece with (p + len d).
      * unfold stream_reader. cbn [file_step]. unfold bytes_at. rewrite E. reflexivity.
      * intros Ed. rewrite Ed in Ld. cbn in Ld. lia.
      * unfold d, len. rewrite firstn_length. lia.
      * replace (skipn (N.to_nat size) (x :: r)) with (skipn (N.to_nat (p + len d)) c).
        { apply IH; [|exact Hs]. assert (len c - p > 0). { unfold len. apply (f_equal (@length N)) in E. rewrite skipn_length in E. cbn in E. lia. } lia. }
        rewrite <- E. rewrite skipn_skipn. unfold d. rewrite <- E. unfold len. rewrite firstn_length, skipn_length.
        destruct (Nat.le_gt_cases (length c - N.to_nat p) (N.to_nat size)) as [Hc|Hc].
        -- rewrite !skipn_all2; [reflexivity|lia|lia].
        -- f_equal. lia.
Qed.
Lemma same_gives {St} (step : St -> stream_op -> St * stream_out) size c content e : forall p, gives (stream_reader (file_step (len c) c)) size p content e ->
  forall st, (forall ops, Forall (fun op => exists n, op = Read n) ops -> snd (run step st ops) = snd (run (file_step (len c) c) p ops)) ->
  gives (stream_reader step) size st content e.
Proof.
  intros p G. induction G as [p p' E|p p' E|p p' piece content e E Hne Hle G IH]; intros st H.
  all: pose proof (H [Read size] ltac:(repeat constructor; eexists; reflexivity)) as H1; cbn [run] in H1; unfold stream_reader in E;
    destruct (step st (Read size)) as [st1 o1] eqn:Es; destruct (file_step (len c) c p (Read size)) as [p1 [r1|r1]] eqn:Ef; try discriminate E; cbn [snd] in H1; injection H1 as ->; injection E as -> ->.
  - apply gives_done with st1. unfold stream_reader. now rewrite Es.
  - apply gives_failed with st1. unfold stream_reader. now rewrite Es.
  - apply gives_piece with st1; try assumption; [unfold stream_reader; now rewrite Es|]. apply IH. intros ops Ho.
    pose proof (H (Read size :: ops) ltac:(constructor; [eexists; reflexivity|exact Ho])) as H2. cbn [run] in H2. rewrite Es, Ef in H2.
    destruct (run step st1 ops) as [s2 o2]. destruct (run (file_step (len c) c) p' ops) as [p2 o2']. cbn [snd] in *. congruence.
Qed.
(** The streams of the other properties: those whose histories answer as a file with content
    [c] does, from a position [p] on. *)
Theorem C62_digest_of_a_stream :
  forall St (step : St -> stream_op -> St * stream_out) st c p t,
  (forall ops, Forall (fun op => exists n, op = Read n) ops -> snd (run step st ops) = snd (run (file_step (len c) c) p ops)) -> len c < 2 ^ 61 ->
  exists n, forall fuel, (n <= fuel)%nat ->
  calculate_hash (stream_reader step) t fuel st = Some (Ok (bytes_text (digest_of t (skipn (N.to_nat p) c)))).
Proof.
  intros St step st c p t H Hl.
  assert (G : gives (stream_reader step) 65536 st (skipn (N.to_nat p) c) Done).
  { eapply same_gives; [|exact H]. eapply file_gives; [apply le_n|lia]. }
  destruct (C62_digest_of_the_content _ _ _ _ _ t G) as [n Hn].
  { unfold len in *. rewrite skipn_length. lia. }
  exists n. intros fuel Hf. apply (Hn fuel Hf).
Qed.
Print Assumptions C62_digest_of_a_stream.

(** ** Copies *)
Lemma write_loop_ok {St} (read : St -> N -> res (list N) * St) write st content e : gives read read_buffer_size st content e ->
  forall before, exists n, forall fuel, (n <= fuel)%nat -> exists r after, write_loop read write fuel st before = Some (r, after) /\
  (r = Ok tt -> e = Done /\ after = before ++ content) /\
  ((forall c d, write c d = Ok (len d)) -> r = match e with Done => Ok tt | Failed => Err end /\ after = before ++ content).
Proof.
  induction 1 as [st st' E|st st' E|st st' piece content e E Hne Hle G IH]; intros before.
  - exists 1%nat. intros [|fuel] Hf; [lia|]. exists (Ok tt), before. cbn [write_loop]. rewrite E. cbn. rewrite app_nil_r. auto.
  - exists 1%nat. intros [|fuel] Hf; [lia|]. exists Err, before. cbn [write_loop]. rewrite E. rewrite app_nil_r. split; [reflexivity|]. split; [discriminate|auto].
  - destruct (write before piece) as [count| |] eqn:Ew.
    + destruct (N.eqb_spec count (len piece)) as [->|Hc].
      * destruct (IH (before ++ piece)) as [n Hn]. exists (S n). intros [|fuel] Hf; [lia|]. destruct (Hn fuel ltac:(lia)) as (r & after & A1 & A2 & A3).
        exists r, after. cbn [write_loop]. rewrite E, (len_nonzero _ Hne). destruct (N.ltb_spec read_buffer_size (len piece)); [lia|].
        rewrite Ew, N.eqb_refl, A1, app_assoc. auto.
      * exists 1%nat. intros [|fuel] Hf; [lia|]. eexists Err, _. cbn [write_loop]. rewrite E, (len_nonzero _ Hne). destruct (N.ltb_spec read_buffer_size (len piece)); [lia|].
        rewrite Ew. destruct (N.eqb_spec count (len piece)); [contradiction|]. split; [reflexivity|]. split; [discriminate|]. intros W. rewrite W in Ew. congruence.
    + exists 1%nat. intros [|fuel] Hf; [lia|]. exists Err, before. cbn [write_loop]. rewrite E, (len_nonzero _ Hne). destruct (N.ltb_spec read_buffer_size (len piece)); [lia|].
      rewrite Ew. split; [reflexivity|]. split; [discriminate|]. intros W. rewrite W in Ew. congruence.
    + exists 1%nat. intros [|fuel] Hf; [lia|]. exists Panic, before. cbn [write_loop]. rewrite E, (len_nonzero _ Hne). destruct (N.ltb_spec read_buffer_size (len piece)); [lia|].
      rewrite Ew. split; [reflexivity|]. split; [discriminate|]. intros W. rewrite W in Ew. congruence.
Qed.

(** The call returns, and if it succeeds then the reader ended without error, the file has
    exactly what it gave, and it is counted; without a success nothing is counted. If the file
    can be created and takes all that is written then it succeeds iff reading does. *)
Theorem C62_copy_is_exact :
  forall St (read : St -> N -> res (list N) * St) st content e, gives read 65536 st content e ->
  forall write created w, w_number w < two64 - 1 ->
  exists n, forall fuel, (n <= fuel)%nat -> exists r w', write_data_stream read write created fuel w st = Some (r, w') /\
  (r = Ok tt -> e = Done /\ w_file w' = Some content /\ w_number w' = w_number w + 1) /\
  (r <> Ok tt -> w_number w' = w_number w) /\
  (created = true -> (forall c d, write c d = Ok (len d)) -> r = match e with Done => Ok tt | Failed => Err end).
Proof.
  intros St read st content e G write created w Hw. destruct created.
  - destruct (write_loop_ok read write st content e G []) as [n Hn]. exists n. intros fuel Hf. destruct (Hn fuel Hf) as (r & after & E & A & B).
    unfold write_data_stream. rewrite E. destruct r as [[]| |].
    + destruct (A eq_refl) as [-> ->]. rewrite add_chk_ok by (change two64 with 18446744073709551616 in *; lia). eexists _, _. split; [reflexivity|]. cbn [w_file w_number].
      repeat split; try congruence. 
    + eexists _, _. split; [reflexivity|]. split; [discriminate|]. split; [reflexivity|]. intros _ W. exact (proj1 (B W)).
    + eexists _, _. split; [reflexivity|]. split; [discriminate|]. split; [reflexivity|]. intros _ W. exact (proj1 (B W)).
  - exists O. intros fuel _. eexists _, _. split; [reflexivity|]. split; [discriminate|]. split; [reflexivity|discriminate].
Qed.
Print Assumptions C62_copy_is_exact.

(** Every stream goes to the same file: after the second, nothing of the first is left, although
    both calls succeeded and two are counted. *)
Definition case_reader : list (list N) -> N -> res (list N) * list (list N) :=
  fun pieces _ => match pieces with [] => (Ok [], []) | d :: rest => (Ok d, rest) end.
Theorem C62_streams_are_kept_refuted :
  forall first second write, first <> [] -> second <> [] -> len first <= 65536 -> len second <= 65536 -> first <> second ->
  (forall c d, write c d = Ok (len d)) ->
  exists w1, write_data_stream case_reader write true 2 {| w_file := None; w_number := 0 |} [first] = Some (Ok tt, w1) /\ w_file w1 = Some first /\
  exists w2, write_data_stream case_reader write true 2 w1 [second] = Some (Ok tt, w2) /\ w_file w2 = Some second /\ w_number w2 = 2.
Proof.
  intros first second write H1 H2 L1 L2 _ W.
  assert (K : forall d w, d <> [] -> len d <= 65536 -> w_number w < 100 -> write_data_stream case_reader write true 2 w [d] = Some (Ok tt, {| w_file := Some d; w_number := w_number w + 1 |})).
  { intros d w Hd Ld Hw. unfold write_data_stream. cbn [write_loop case_reader]. rewrite (len_nonzero _ Hd). destruct (N.ltb_spec read_buffer_size (len d)) as [X|_]; [unfold read_buffer_size in X; lia|].
    rewrite W, N.eqb_refl. cbn [len length N.of_nat N.eqb app]. rewrite add_chk_ok by (change two64 with 18446744073709551616; lia). reflexivity. }
  eexists. rewrite K by (cbn; auto; lia). split; [reflexivity|]. split; [reflexivity|]. eexists. rewrite K by (cbn; auto; lia). repeat split.
Qed.
Print Assumptions C62_streams_are_kept_refuted.

(** ** Timestamps *)
Lemma decimal_ok fuel : forall v, v < 10 ^ N.of_nat (S fuel) -> decimal_text v (decimal fuel v).
Proof.
  induction fuel as [|fuel IH]; intros v Hv.
  - cbn in Hv. cbn [decimal]. rewrite N.mod_small by exact Hv. split; [repeat constructor; lia|]. split; [cbn [fold_left]; lia|]. exists (48 + v), []. split; [reflexivity|reflexivity].
  - cbn [decimal]. destruct (N.ltb_spec v 10) as [H|H].
    + split; [repeat constructor; lia|]. split; [cbn [fold_left]; lia|]. exists (48 + v), []. split; [reflexivity|reflexivity].
    + destruct (IH (v / 10)) as (A1 & A2 & c & t & A3 & A4).
      { apply N.div_lt_upper_bound; [lia|]. rewrite (Nat2N.inj_succ (S fuel)), N.pow_succ_r' in Hv. exact Hv. }
      pose proof (N.mod_lt v 10 ltac:(lia)). pose proof (N.div_mod v 10 ltac:(lia)) as Dm.
      split; [apply Forall_app; split; [exact A1|repeat constructor; lia]|]. split; [rewrite fold_left_app, A2; cbn [fold_left]; lia|].
      rewrite A3. exists c, (t ++ [48 + v mod 10]). split; [reflexivity|]. intros ->. exfalso. rewrite (A4 eq_refl) in A3. rewrite A3 in A2. cbn in A2.
      assert (1 <= v / 10) by (apply N.div_le_lower_bound; lia). lia.
Qed.
Lemma fmt0 v : (Z.abs v < 10 ^ 20)%Z -> exists text, decimal_text (Z.abs_N v) text /\ fmt 0 v = (if (v <? 0)%Z then [45] else []) ++ text.
Proof.
  intros H. exists (decimal 19 (Z.abs_N v)). split; [|reflexivity]. apply decimal_ok. change (N.of_nat 20) with 20. change (10 ^ 20)%Z with 100000000000000000000%Z in H. change (10 ^ 20) with 100000000000000000000. lia.
Qed.
Lemma as_i64_small n : n < 2 ^ 63 -> u64_as_i64 n = Z.of_N n.
Proof.
  intros H. unfold u64_as_i64, Bytes_model.to_signed. change (8 * 8 - 1) with 63. destruct (N.ltb_spec n (2 ^ 63)); [reflexivity|lia].
Qed.

(** FILETIME: the number of seconds from 1970 on, with seven places, for every time but those
    within the second before 1970. *)
Theorem C62_filetime_partial :
  forall timestamp, timestamp < 2 ^ 64 -> ~ (filetime_of_1970 - 10000000 < Z.of_N timestamp < filetime_of_1970)%Z ->
  exists text, format_as_timestamp (Some (DFiletime timestamp)) = Ok text /\
  decimal_fraction_text 7 (Z.of_N timestamp - filetime_of_1970) text.
Proof.
  intros ts H Hx. unfold filetime_of_1970 in *. change (134774 * 86400 * 10000000)%Z with 116444736000000000%Z in *. change (2 ^ 64) with 18446744073709551616 in H.
  unfold format_as_timestamp. cbv zeta. set (s := ts / 10000000). set (f := ts mod 10000000).
  pose proof (N.div_mod ts 10000000 ltac:(lia)) as Dm. pose proof (N.mod_lt ts 10000000 ltac:(lia)) as Fl. fold s in Dm. fold f in Dm, Fl.
  clearbody s f. destruct (N.ltb_spec s 11644473600) as [Hs|Hs]; destruct (N.ltb_spec 0 f) as [Hf|Hf]; cbn [andb].
  - rewrite add_chk_ok by (change two64 with 18446744073709551616; lia). unfold sub_chk. destruct (N.leb_spec f 10000000); [|lia]. cbn [bind].
    rewrite as_i64_small by (change (2 ^ 63) with 9223372036854775808; lia). eexists. split; [reflexivity|].
    destruct (fmt0 (Z.of_N (s + 1) - 11644473600)) as (t & T1 & T2). { change (10 ^ 20)%Z with 100000000000000000000%Z. lia. }
    rewrite T2, fmt_digits by (try change (10 ^ N.of_nat 7) with 10000000; lia). rewrite N2Z.id.
    exists (Z.abs_N (Z.of_N (s + 1) - 11644473600)), (10000000 - f), t. change (10 ^ N.of_nat 7) with 10000000.
    split; [lia|]. split; [lia|]. split; [exact T1|].
    destruct (Z.ltb_spec (Z.of_N (s + 1) - 11644473600) 0), (Z.ltb_spec (Z.of_N ts - 116444736000000000) 0); try lia; now rewrite <- ?app_assoc.
  - cbn [bind]. rewrite as_i64_small by (change (2 ^ 63) with 9223372036854775808; lia). eexists. split; [reflexivity|].
    destruct (fmt0 (Z.of_N s - 11644473600)) as (t & T1 & T2). { change (10 ^ 20)%Z with 100000000000000000000%Z. lia. }
    rewrite T2, fmt_digits by (try change (10 ^ N.of_nat 7) with 10000000; lia). rewrite N2Z.id.
    exists (Z.abs_N (Z.of_N s - 11644473600)), f, t. change (10 ^ N.of_nat 7) with 10000000.
    split; [lia|]. split; [lia|]. split; [exact T1|].
    destruct (Z.ltb_spec (Z.of_N s - 11644473600) 0), (Z.ltb_spec (Z.of_N ts - 116444736000000000) 0); try lia; now rewrite <- ?app_assoc.
  - cbn [bind]. rewrite as_i64_small by (change (2 ^ 63) with 9223372036854775808; lia). eexists. split; [reflexivity|].
    destruct (fmt0 (Z.of_N s - 11644473600)) as (t & T1 & T2). { change (10 ^ 20)%Z with 100000000000000000000%Z. lia. }
    rewrite T2, fmt_digits by (try change (10 ^ N.of_nat 7) with 10000000; lia). rewrite N2Z.id.
    exists (Z.abs_N (Z.of_N s - 11644473600)), f, t. change (10 ^ N.of_nat 7) with 10000000.
    split; [lia|]. split; [lia|]. split; [exact T1|].
    destruct (Z.ltb_spec (Z.of_N s - 11644473600) 0), (Z.ltb_spec (Z.of_N ts - 116444736000000000) 0); try lia; now rewrite <- ?app_assoc.
  - cbn [bind]. rewrite as_i64_small by (change (2 ^ 63) with 9223372036854775808; lia). eexists. split; [reflexivity|].
    destruct (fmt0 (Z.of_N s - 11644473600)) as (t & T1 & T2). { change (10 ^ 20)%Z with 100000000000000000000%Z. lia. }
    rewrite T2, fmt_digits by (try change (10 ^ N.of_nat 7) with 10000000; lia). rewrite N2Z.id.
    exists (Z.abs_N (Z.of_N s - 11644473600)), f, t. change (10 ^ N.of_nat 7) with 10000000.
    split; [lia|]. split; [lia|]. split; [exact T1|].
    destruct (Z.ltb_spec (Z.of_N s - 11644473600) 0), (Z.ltb_spec (Z.of_N ts - 116444736000000000) 0); try lia; now rewrite <- ?app_assoc.
Qed.
Print Assumptions C62_filetime_partial.

(** Half a second before and half a second after 1970 have the same text. *)
Theorem C62_filetime_refuted :
  format_as_timestamp (Some (DFiletime 116444735995000000)) = format_as_timestamp (Some (DFiletime 116444736005000000)).
Proof. reflexivity. Qed.
Print Assumptions C62_filetime_refuted.

(** POSIX times in seconds, and with nanoseconds from 1970 on or in whole seconds *)
Theorem C62_posix :
  forall timestamp, (- 2 ^ 31 <= timestamp < 2 ^ 31)%Z -> exists text, format_as_timestamp (Some (DPosixTime32 timestamp)) = Ok text /\ integer_text timestamp text.
Proof.
  intros v H. eexists. split; [reflexivity|]. apply fmt0. change (2 ^ 31)%Z with 2147483648%Z in H. change (10 ^ 20)%Z with 100000000000000000000%Z. lia.
Qed.
Print Assumptions C62_posix.
Theorem C62_posix_ns_partial :
  forall timestamp fraction, (- 2 ^ 63 <= timestamp < 2 ^ 63)%Z -> fraction < 1000000000 -> (0 <= timestamp)%Z \/ fraction = 0 ->
  exists text, format_as_timestamp (Some (DPosixTime64Ns timestamp fraction)) = Ok text /\
  decimal_fraction_text 9 (timestamp * 1000000000 + Z.of_N fraction) text.
Proof.
  intros v f Hv Hf Hc. change (2 ^ 63)%Z with 9223372036854775808%Z in Hv. eexists. split; [reflexivity|].
  destruct (fmt0 v) as (t & T1 & T2). { change (10 ^ 20)%Z with 100000000000000000000%Z. lia. }
  rewrite T2, fmt_digits by (try change (10 ^ N.of_nat 9) with 1000000000; lia). rewrite N2Z.id.
  exists (Z.abs_N v), f, t. change (10 ^ N.of_nat 9) with 1000000000. split; [lia|]. split; [lia|]. split; [exact T1|].
  destruct (Z.ltb_spec v 0), (Z.ltb_spec (v * 1000000000 + Z.of_N f) 0); try lia; now rewrite <- ?app_assoc.
Qed.
Print Assumptions C62_posix_ns_partial.

(** A quarter of a second after one second before 1970, -0.75, has the text -1.25. *)
Theorem C62_posix_ns_refuted :
  format_as_timestamp (Some (DPosixTime64Ns (-1) 250000000)) = Ok (text "-1.250000000") /\
  decimal_fraction_text 9 (-1250000000) (text "-1.250000000") /\ (-1 * 1000000000 + 250000000 = -750000000)%Z.
Proof.
  split; [reflexivity|]. split; [|reflexivity]. exists 1, 250000000, [49]. split; [reflexivity|]. split; [reflexivity|]. split; [|reflexivity].
  split; [repeat constructor; lia|]. split; [reflexivity|]. exists 49, []. auto.
Qed.
Print Assumptions C62_posix_ns_refuted.

(** There is no text for the times of FAT volumes: the line of such a file is an error. *)
Theorem C62_fat_times_refuted :
  format_as_timestamp (Some DFatDate) = Err /\ format_as_timestamp (Some DFatTimeDate) = Err /\ format_as_timestamp (Some DFatTimeDate10Ms) = Err.
Proof. repeat split. Qed.
Print Assumptions C62_fat_times_refuted.

(** ** Sizes *)
Lemma bytesize_loop_ok base value m fuel : forall k, 2 <= base -> base ^ k <= value \/ k = 0 -> value < base ^ m ->
  base ^ m < two64 -> k <= m -> m - k < N.of_nat fuel ->
  exists i, bytesize_loop fuel value base (base ^ k) (base ^ (k + 1)) k = Some (Ok (base ^ i, i)) /\ (i < m \/ i = 0) /\ (base ^ i <= value \/ i = 0) /\ value < base ^ (i + 1).
Proof.
  induction fuel as [|fuel IH]; intros k Hb Hk Hv Hm Hkm Hf; [lia|].
  cbn [bytesize_loop]. destruct (N.leb_spec (base ^ (k + 1)) value) as [Hn|Hn].
  - assert (Lt : k + 1 < m) by (apply (N.pow_lt_mono_r_iff base); lia).
    assert (Le : base ^ (k + 1 + 1) <= base ^ m) by (apply N.pow_le_mono_r; lia).
    unfold mul_chk. rewrite (N.mul_comm _ base), <- N.pow_succ_r', <- N.add_1_r. destruct (N.ltb_spec (base ^ (k + 1 + 1)) two64); [|lia].
    apply IH; auto; lia.
  - exists k. split; [reflexivity|]. split; [|auto]. destruct (N.eq_dec k m) as [->|]; [|lia]. destruct Hk as [Hk|Hk]; [lia|auto].
Qed.

(** A size is shown in the largest unit that does not exceed it: base 1024 with the names of
    ISO/IEC 80000 up to 2^60, base 1000 up to 10^18. *)
Theorem C62_bytesize_partial :
  forall quotient value base, (base = 1024 /\ value < 2 ^ 60) \/ (base = 1000 /\ value < 10 ^ 18) ->
  exists n, forall fuel, (n <= fuel)%nat ->
  (value < base -> exists t, decimal_text value t /\ format_as_bytesize quotient fuel value base = Some (Ok (t ++ text " B"))) /\
  (forall i letter, base ^ (N.of_nat i + 1) <= value < base ^ (N.of_nat i + 2) -> get i unit_letters = Some letter ->
   format_as_bytesize quotient fuel value base =
   Some (Ok (quotient value (base ^ (N.of_nat i + 1)) ++ text " " ++ text (String letter EmptyString) ++ text (if base =? 1024 then "iB" else "B")))).
Proof.
  intros q value base H. exists 8%nat. intros fuel Hf.
  assert (Hb : 1000 <= base <= 1024) by lia.
  assert (H1 : value < base ^ 6) by (destruct H as [[-> H]|[-> H]]; exact H).
  assert (H2 : base ^ 6 < two64) by (destruct H as [[-> _]|[-> _]]; reflexivity).
  destruct (bytesize_loop_ok base value 6 fuel 0) as (i & E & I1 & I2 & I3); auto; [lia|lia|lia|].
  change (base ^ 0) with 1 in E. change (0 + 1) with 1 in E. rewrite N.pow_1_r in E. unfold format_as_bytesize. rewrite E. cbn [bind].
  split.
  - intros Hv. assert (i = 0). { destruct I2 as [I2|]; [|assumption]. destruct (N.eq_dec i 0); [assumption|]. exfalso.
      assert (base ^ 1 <= base ^ i) by (apply N.pow_le_mono_r; lia). rewrite N.pow_1_r in *. lia. }
    subst i. exists (number_text value). split; [apply number_text_ok; change (10 ^ 20) with 100000000000000000000; lia|reflexivity].
  - intros j letter [J1 J2] L. assert (Ei : i = N.of_nat j + 1).
    { assert (i < N.of_nat j + 2). { destruct I2 as [I2| ->]; [|lia]. apply (N.pow_lt_mono_r_iff base); lia. }
      assert (N.of_nat j + 1 < i + 1) by (apply (N.pow_lt_mono_r_iff base); lia). lia. }
    subst i. destruct (N.ltb_spec 0 (N.of_nat j + 1)); [|lia].
    assert (Hj : (j < 5)%nat) by lia.
    do 5 (destruct j as [|j]; [cbn in L; injection L as <-; destruct (base =? 1024); reflexivity|]). lia.
Qed.
Print Assumptions C62_bytesize_partial.

(** Larger sizes panic, also those that have a unit: 2^60 is 1 EiB. *)
Theorem C62_bytesize_refuted :
  forall quotient value, 2 ^ 60 <= value -> forall fuel, (7 <= fuel)%nat -> format_as_bytesize quotient fuel value 1024 = Some Panic.
Proof.
  intros q value H fuel Hf. change (2 ^ 60) with 1152921504606846976 in H. unfold format_as_bytesize.
  do 7 (destruct fuel as [|fuel]; [lia|]). cbn [bytesize_loop].
  assert (L : forall x, x <= 1152921504606846976 -> (x <=? value) = true) by (intros; apply N.leb_le; lia).
  rewrite (L 1024) by lia. change (mul_chk two64 1024 1024) with (Ok 1048576). cbv iota. rewrite (L 1048576) by lia.
  change (mul_chk two64 1048576 1024) with (Ok 1073741824). cbv iota. rewrite (L 1073741824) by lia.
  change (mul_chk two64 1073741824 1024) with (Ok 1099511627776). cbv iota. rewrite (L 1099511627776) by lia.
  change (mul_chk two64 1099511627776 1024) with (Ok 1125899906842624). cbv iota. rewrite (L 1125899906842624) by lia.
  change (mul_chk two64 1125899906842624 1024) with (Ok 1152921504606846976). cbv iota. rewrite (L 1152921504606846976) by lia.
  change (mul_chk two64 1152921504606846976 1024) with (@Panic N). reflexivity.
Qed.
Print Assumptions C62_bytesize_refuted.

(** ** Cases *)
Example C62_case_reader : gives case_reader 65536 [[1; 2; 3]; [4]; [5; 6]] [1; 2; 3; 4; 5; 6] Done.
Proof.
  eapply (gives_piece _ _ _ _ [1; 2; 3]); [reflexivity|discriminate|cbn; lia|]. eapply (gives_piece _ _ _ _ [4]); [reflexivity|discriminate|cbn; lia|].
  eapply (gives_piece _ _ _ _ [5; 6] []); [reflexivity|discriminate|cbn; lia|]. eapply gives_done. reflexivity.
Qed.
Example C62_case_times :
  format_as_timestamp (Some (DFiletime 0x01cb3a623d0a17ce)) = Ok (text "1281647191.5468750") /\
  format_as_timestamp (Some (DFiletime 0)) = Ok (text "-11644473600.0000000") /\
  format_as_timestamp (Some (DFiletime 5000000)) = Ok (text "-11644473599.5000000") /\
  format_as_timestamp (Some (DPosixTime64Ns 1281643591 987654321)) = Ok (text "1281643591.987654321").
Proof. repeat split. Qed.
Example C62_case_size : exists n, forall fuel, (n <= fuel)%nat -> format_as_bytesize (fun a b => Formatters_model.number_text (a / b)) fuel 3221225472 1024 = Some (Ok (text "3 GiB")).
Proof.
  destruct (C62_bytesize_partial (fun a b => Formatters_model.number_text (a / b)) 3221225472 1024) as [n H]; [left; split; [reflexivity|lia]|].
  exists n. intros fuel Hf. destruct (H fuel Hf) as [_ K]. rewrite (K 2%nat _ ltac:(cbn; lia) eq_refl). reflexivity.
Qed.
