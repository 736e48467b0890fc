From Verif Require Import Base BaseLemmas Bytes_model Fields Streams_model Streams_spec Streams_proofs
  Lz_proofs BlockTree_model BlockTree_spec BlockTree_proofs Blocks_model Blocks_proofs Ntfs_model Ntfs_spec.
Ltac Zify.zify_post_hook ::= idtac.

(** ** Data runs *)
Lemma shift_in_value bytes : wf_bytes bytes -> forall v,
  shift_in v bytes mod two64 = (v * 256 ^ len bytes + le_value bytes) mod two64 /\
  (bytes <> [] -> shift_in v bytes < two64).
Proof.
  unfold shift_in. induction 1 as [|b bytes Hb _ IH]; intros v.
  - cbn. rewrite N.mul_1_r, N.add_0_r. split; [reflexivity|congruence].
  - destruct (IH v) as [E _]. cbn [rev]. rewrite fold_left_app. cbn [fold_left].
    set (x := fold_left _ (rev bytes) v) in *.
    assert (El : N.lor (N.shiftl x 8 mod two64) b = (x * 256) mod two64 + b).
    { change two64 with (2 ^ 56 * 2 ^ 8) at 1. rewrite N.shiftl_mul_pow2.
      rewrite N.mul_mod_distr_r by discriminate.
      rewrite <- (N.shiftl_mul_pow2 _ 8). rewrite lor_shl8 by exact Hb.
      change two64 with (2 ^ 56 * 256). rewrite N.mul_mod_distr_r by discriminate. reflexivity. }
    rewrite El. rewrite len_cons, N.pow_add_r. change (256 ^ 1) with 256. cbn [le_value].
    unfold byte_ok in Hb.
    assert (Hm : (x * 256) mod two64 = 256 * (x mod 2 ^ 56)).
    { change two64 with (2 ^ 56 * 256). rewrite N.mul_mod_distr_r by discriminate. apply N.mul_comm. }
    split.
    + rewrite N.add_mod_idemp_l by discriminate.
      rewrite <- (N.add_mod_idemp_l (x * 256)) by discriminate.
      rewrite <- (N.mul_mod_idemp_l x) by discriminate. rewrite E.
      rewrite N.mul_mod_idemp_l, N.add_mod_idemp_l by discriminate. f_equal. lia.
    + intros _. rewrite Hm. pose proof (N.mod_lt x (2 ^ 56) ltac:(discriminate)).
      change (2 ^ 56) with 72057594037927936 in *. unfold two64. lia.
Qed.

Lemma shift_in_small bytes v : wf_bytes bytes -> bytes <> [] ->
  shift_in v bytes = (v * 256 ^ len bytes + le_value bytes) mod two64.
Proof.
  intros H Hn. destruct (shift_in_value bytes H v) as [E L]. rewrite <- E.
  symmetry. apply N.mod_small. auto.
Qed.

Lemma land_high x : x < 256 -> (N.land x 0x80 =? 0) = (x <? 128).
Proof.
  intros H.
  assert (G : forallb (fun x => Bool.eqb (N.land x 0x80 =? 0) (x <? 128)) (seqN 0 256) = true)
    by (vm_compute; reflexivity).
  rewrite forallb_forall in G. apply Bool.eqb_prop, G, in_seqN. lia.
Qed.

Lemma sizes_low h : N.land h 0x0f = h mod 16.
Proof. change 0x0f with (N.ones 4). apply N.land_ones. Qed.
Lemma sizes_high h : N.shiftr h 4 = h / 16.
Proof. apply N.shiftr_div_pow2. Qed.

Lemma idx_app_mid {A} (a : list A) x b i : i = len a -> idx (a ++ x :: b) i = Ok x.
Proof.
  intros ->. unfold idx. replace (N.to_nat (len a)) with (length a) by (unfold len; lia).
  rewrite nth_error_app2, Nat.sub_diag by lia. reflexivity.
Qed.

Lemma read_hole (ls : nat) a rest last :
  (1 <= ls <= 8)%nat -> length a = ls -> wf_bytes a ->
  data_run_read (N.of_nat ls :: a ++ rest) last =
    Ok ({| block_number := 0; number_of_blocks := le_value a; run_kind := Sparse |}, 1 + N.of_nat ls).
Proof.
  intros Hl Ha Hw. unfold data_run_read. rewrite len_cons, len_app.
  destruct (N.leb_spec 1 (len a + len rest + 1)); [|lia]. cbn [check bind idx N.to_nat nth_error].
  rewrite sizes_low, sizes_high. rewrite N.mod_small, N.div_small by lia.
  assert (Hla : len a = N.of_nat ls) by (unfold len; lia).
  destruct (N.leb_spec (1 + N.of_nat ls + 0) (len a + len rest + 1)); [|lia].
  destruct (N.leb_spec (N.of_nat ls) 8); [|lia]. cbn [check bind N.leb N.compare].
  destruct (N.eqb_spec (N.of_nat ls) 0); [lia|].
  pose proof (slice_app [N.of_nat ls] a rest 1 (1 + N.of_nat ls) eq_refl) as Es.
  cbn [app] in Es. rewrite Es by (change (len [N.of_nat ls]) with 1; lia). cbn [bind N.eqb].
  rewrite shift_in_small, N.mul_0_l, N.add_0_l; auto.
  - rewrite N.mod_small; [reflexivity|]. pose proof (le_value_bound a Hw).
    assert (256 ^ len a <= 256 ^ 8) by (apply N.pow_le_mono_r; lia).
    change (256 ^ 8) with two64 in *. lia.
  - destruct a; [cbn in Ha; lia|discriminate].
Qed.

Lemma read_allocated (ls os : nat) a b x rest last :
  (1 <= ls <= 8)%nat -> (1 <= os <= 8)%nat -> length a = ls -> S (length b) = os ->
  wf_bytes a -> wf_bytes (b ++ [x]) ->
  data_run_read ((16 * N.of_nat os + N.of_nat ls) :: a ++ (b ++ [x]) ++ rest) last =
    (block <- add_i64 (as_i64 (((if negb (last =? 0) && (128 <=? x) then two64 - 1 else 0) * 256 ^ N.of_nat os +
                         le_value (b ++ [x])) mod two64)) (as_i64 last) ;;
     Ok ({| block_number := as_u64 block; number_of_blocks := le_value a; run_kind := InFile |},
         1 + N.of_nat ls + N.of_nat os)).
Proof.
  intros Hl Ho Ha Hb Hwa Hwb. unfold data_run_read. rewrite len_cons, !len_app.
  change (len [x]) with 1.
  assert (Hla : len a = N.of_nat ls) by (unfold len; lia).
  assert (Hlb : len b + 1 = N.of_nat os) by (unfold len; lia).
  set (h := 16 * N.of_nat os + N.of_nat ls).
  destruct (N.leb_spec 1 (len a + (len b + 1 + len rest) + 1)); [|lia].
  cbn [check bind idx N.to_nat nth_error].
  rewrite sizes_low, sizes_high.
  assert (E1 : h mod 16 = N.of_nat ls).
  { unfold h. rewrite N.add_comm, N.mul_comm, N.mod_add by lia. apply N.mod_small. lia. }
  assert (E2 : h / 16 = N.of_nat os).
  { unfold h. rewrite N.add_comm, N.mul_comm, N.div_add by lia. rewrite N.div_small by lia. lia. }
  rewrite E1, E2.
  destruct (N.leb_spec (1 + N.of_nat ls + N.of_nat os) (len a + (len b + 1 + len rest) + 1)); [|lia].
  destruct (N.leb_spec (N.of_nat ls) 8); [|lia]. destruct (N.leb_spec (N.of_nat os) 8); [|lia].
  cbn [check bind].
  destruct (N.eqb_spec (N.of_nat ls) 0); [lia|]. destruct (N.eqb_spec (N.of_nat os) 0); [lia|].
  pose proof (slice_app [h] a ((b ++ [x]) ++ rest) 1 (1 + N.of_nat ls) eq_refl) as Es.
  cbn [app] in Es. rewrite Es by (change (len [h]) with 1; lia). cbn [bind].
  rewrite shift_in_small, N.mul_0_l, N.add_0_l; auto.
  2: { destruct a; [cbn in Ha; lia|discriminate]. }
  assert (Ei : idx (h :: a ++ (b ++ [x]) ++ rest) (1 + N.of_nat ls + N.of_nat os - 1) = Ok x).
  { replace (h :: a ++ (b ++ [x]) ++ rest) with ((h :: a ++ b) ++ x :: rest)
      by (cbn [app]; rewrite <- !app_assoc; reflexivity).
    apply idx_app_mid. rewrite len_cons, len_app. lia. }
  rewrite Ei. cbn [bind].
  assert (Es2 : slice (h :: a ++ (b ++ [x]) ++ rest) (1 + N.of_nat ls) (1 + N.of_nat ls + N.of_nat os) = Ok (b ++ [x])).
  { change (h :: a ++ (b ++ [x]) ++ rest) with ((h :: a) ++ (b ++ [x]) ++ rest).
    apply slice_app; rewrite len_cons, ?len_app; change (len [x]) with 1; lia. }
  rewrite Es2. cbn [bind].
  apply wf_bytes_app in Hwb as [Hwb Hx]. apply wf_bytes_cons in Hx as [Hx _].
  rewrite land_high by exact Hx.
  rewrite shift_in_small.
  2: { apply wf_bytes_app. split; [assumption|]. constructor; [assumption|constructor]. }
  2: { destruct b; discriminate. }
  rewrite len_app. change (len [x]) with 1. rewrite Hlb.
  replace (negb (x <? 128)) with (128 <=? x) by (destruct (N.ltb_spec x 128), (N.leb_spec 128 x); lia).
  rewrite (N.mod_small (le_value a)).
  - reflexivity.
  - pose proof (le_value_bound a Hwa).
    assert (256 ^ len a <= 256 ^ 8) by (apply N.pow_le_mono_r; lia).
    change (256 ^ 8) with two64 in *. lia.
Qed.

(** The value of a signed field, sign extended to 64 bits. *)
Lemma signed_field (m : nat) d :
  (m < 8)%nat -> (- 2 ^ (8 * Z.of_nat (S m) - 1) <= d < 2 ^ (8 * Z.of_nat (S m) - 1))%Z ->
  let v := Z.to_N (d mod 2 ^ (8 * Z.of_nat (S m))) in
  v < 256 ^ N.of_nat (S m) /\
  as_i64 (((if 128 <=? v / 256 ^ N.of_nat m then two64 - 1 else 0) * 256 ^ N.of_nat (S m) + v) mod two64) = d /\
  (128 <= v / 256 ^ N.of_nat m <-> (d < 0)%Z).
Proof.
  intros Hm Hd. cbv zeta.
  assert (C : forall p : positive, (- Z.pos p <= d < Z.pos p)%Z ->
    (d < 0 -> d mod (2 * Z.pos p) = d + 2 * Z.pos p)%Z /\ (0 <= d -> d mod (2 * Z.pos p) = d)%Z).
  { intros p H. split; intros H'.
    - symmetry. apply Z.mod_unique with (-1)%Z; lia.
    - apply Z.mod_small. lia. }
  assert (D : forall v q, 0 < q -> (128 <=? v / q) = (128 * q <=? v)).
  { intros v q Hq. destruct (N.leb_spec (128 * q) v) as [H|H].
    - apply N.leb_le. apply N.div_le_lower_bound; lia.
    - apply N.leb_gt. apply N.div_lt_upper_bound; lia. }
  assert (D' : forall v q, 0 < q -> (128 <= v / q <-> 128 * q <= v)).
  { intros v q Hq. rewrite <- !N.leb_le, D by assumption. reflexivity. }
  do 8 (destruct m as [|m]; [
    clear Hm; match goal with |- context [256 ^ N.of_nat (S ?k)] =>
      let p := eval vm_compute in (256 ^ N.of_nat (S k)) in
      let q := eval vm_compute in (256 ^ N.of_nat k) in
      let z := eval vm_compute in (2 ^ (8 * Z.of_nat (S k) - 1))%Z in
      let w := eval vm_compute in (2 ^ (8 * Z.of_nat (S k)))%Z in
      change (256 ^ N.of_nat (S k)) with p; change (256 ^ N.of_nat k) with q;
      change (2 ^ (8 * Z.of_nat (S k) - 1))%Z with z in Hd;
      change (2 ^ (8 * Z.of_nat (S k)))%Z with w;
      match z with Z.pos ?zp => destruct (C zp Hd) as [C1 C2]; change (2 * Z.pos zp)%Z with w in C1, C2 end
    end;
    rewrite D, D' by lia; clear C D D';
    destruct (Z.ltb_spec d 0) as [Hs|Hs]; [rewrite C1 by assumption|rewrite C2 by assumption];
    (split; [lia|]);
    match goal with |- context [128 * ?q <=? ?v] => destruct (N.leb_spec (128 * q) v); [|try lia] end;
    try lia;
    (split; [|lia]);
    unfold as_i64, two64, two63;
    [ match goal with |- context [(?a mod ?b)] =>
        replace (a mod b) with (Z.to_N (18446744073709551616 + d));
          [|match goal with |- context [(18446744073709551616 - 1) * ?p + _] =>
              apply N.mod_unique with (p - 1); lia end] end
    | rewrite N.mul_0_l, N.add_0_l, N.mod_small by lia ];
    match goal with |- context [?a <? ?b] => destruct (N.ltb_spec a b) end; lia
  |]). lia.
Qed.

Lemma slice_tail {A} (pre s : list A) o e : o = len pre -> e = len (pre ++ s) -> slice (pre ++ s) o e = Ok s.
Proof.
  intros -> ->. rewrite <- (app_nil_r s) at 1. apply slice_app; [reflexivity|apply len_app].
Qed.

Lemma encoded_length previous runs bytes : encoded previous runs bytes -> (length runs <= length bytes)%nat.
Proof. induction 1; cbn [length app]; rewrite ?app_length; lia. Qed.

Lemma loop_encoded runs : forall previous bytes pre rest acc fuel,
  encoded previous runs bytes -> previous < two63 -> (length runs < fuel)%nat -> rest = [] \/ hd 1 rest = 0 ->
  data_runs_loop fuel (pre ++ bytes ++ rest) (len pre) previous acc =
    Ok (acc ++ map as_data_run runs,
        len pre + len bytes + match rest with [] => 0 | _ => 1 end).
Proof.
  induction runs as [|r runs IH]; intros previous bytes pre rest acc fuel He Hp Hf Hr;
    (destruct fuel as [|fuel]; [lia|]); cbn [data_runs_loop].
  - inversion He; subst. cbn [app map]. rewrite app_nil_r. change (len (@nil N)) with 0. rewrite N.add_0_r.
    rewrite len_app. destruct rest as [|x rest].
    + change (len (@nil N)) with 0. destruct (N.ltb_spec (len pre) (len pre + 0)); [lia|].
      f_equal. f_equal. lia.
    + destruct Hr as [Hr|Hr]; [discriminate|]. cbn [hd] in Hr. subst x.
      destruct (N.ltb_spec (len pre) (len pre + len (0 :: rest))); [|rewrite len_cons in *; lia].
      rewrite slice_tail; [|reflexivity|now rewrite len_app]. cbn [bind].
      unfold data_run_read. rewrite len_cons. destruct (N.leb_spec 1 (len rest + 1)); [|lia].
      cbn [check bind idx nth_error N.to_nat]. change (N.land 0 15) with 0. change (N.shiftr 0 4) with 0.
      change (1 + 0 + 0) with 1. destruct (N.leb_spec 1 (len rest + 1)); [|lia]. reflexivity.
  - inversion He as [| p count cluster ls os rs bs H1 H2 H3 H4 H5 H6 | p count ls rs bs H1 H2 H3]; subst.
    + set (h := 16 * N.of_nat os + N.of_nat ls).
      set (a := le_bytes ls count). set (d := (Z.of_N cluster - Z.of_N previous)%Z) in *.
      set (b := signed_le_bytes os d).
      destruct os as [|m]; [lia|].
      set (v := Z.to_N (d mod 2 ^ (8 * Z.of_nat (S m)))) in *.
      destruct (signed_field m d ltac:(lia) H5) as (V1 & V2 & V3). fold v in V1, V2, V3.
      assert (Eb : b = le_bytes m v ++ [v / 256 ^ N.of_nat m mod 256]).
      { unfold b, signed_le_bytes. fold v. replace (S m) with (m + 1)%nat by lia.
        rewrite le_bytes_app. reflexivity. }
      assert (Hx : v / 256 ^ N.of_nat m < 256).
      { apply N.div_lt_upper_bound; [apply N.pow_nonzero; lia|].
        rewrite Nat2N.inj_succ, N.pow_succ_r' in V1. lia. }
      rewrite N.mod_small in Eb by exact Hx.
      assert (La : length a = ls) by apply le_bytes_length.
      assert (Lb : length b = S m) by (unfold b, signed_le_bytes; apply le_bytes_length).
      assert (Elen : len (([h] ++ a ++ b ++ bs) ++ rest) = 1 + N.of_nat ls + N.of_nat (S m) + len bs + len rest).
      { rewrite !len_app. change (len [h]) with 1. unfold len at 1 2. rewrite La, Lb. lia. }
      rewrite (len_app pre), Elen.
      destruct (N.ltb_spec (len pre) (len pre + (1 + N.of_nat ls + N.of_nat (S m) + len bs + len rest))); [|lia].
      rewrite slice_tail; [|reflexivity|now rewrite len_app, Elen]. cbn [bind].
      replace (([h] ++ a ++ b ++ bs) ++ rest) with (h :: a ++ (le_bytes m v ++ [v / 256 ^ N.of_nat m]) ++ bs ++ rest)
        by (rewrite <- Eb; cbn [app]; rewrite <- !app_assoc; reflexivity).
      unfold h at 1. rewrite read_allocated; auto.
      2: { rewrite le_bytes_length. reflexivity. }
      2: { apply le_bytes_wf. }
      2: { rewrite <- Eb. apply le_bytes_wf. }
      rewrite <- Eb. unfold b at 1. unfold signed_le_bytes. fold v.
      rewrite le_value_le_bytes, (N.mod_small v) by exact V1.
      assert (Esign : negb (previous =? 0) && (128 <=? v / 256 ^ N.of_nat m) = (128 <=? v / 256 ^ N.of_nat m)).
      { destruct (N.leb_spec 128 (v / 256 ^ N.of_nat m)) as [Hn|]; [|now rewrite andb_false_r].
        apply V3 in Hn. destruct (N.eqb_spec previous 0); [unfold d in Hn; lia|reflexivity]. }
      rewrite Esign, V2.
      assert (Ep : as_i64 previous = Z.of_N previous).
      { unfold as_i64. destruct (N.ltb_spec previous two63); [reflexivity|lia]. }
      rewrite Ep. unfold add_i64. replace (d + Z.of_N previous)%Z with (Z.of_N cluster) by (unfold d; lia).
      replace ((- Z.of_N two63 <=? Z.of_N cluster) && (Z.of_N cluster <? Z.of_N two63))%Z with true by lia.
      cbn [bind].
      assert (Eu : as_u64 (Z.of_N cluster) = cluster).
      { unfold as_u64. rewrite Z.mod_small; [apply N2Z.id|]. unfold two63, two64 in *. lia. }
      rewrite Eu. assert (Ea : le_value a = count) by (unfold a; rewrite le_value_le_bytes; apply N.mod_small, H3).
      rewrite Ea.
      cbn [run_kind block_number].
      specialize (IH cluster bs (pre ++ [h] ++ a ++ b) rest
        (acc ++ [{| block_number := cluster; number_of_blocks := count; run_kind := InFile |}]) fuel H6 H4
        ltac:(cbn [length] in Hf; lia) Hr).
      replace (pre ++ h :: a ++ b ++ bs ++ rest) with ((pre ++ [h] ++ a ++ b) ++ bs ++ rest)
        by (rewrite <- !app_assoc; reflexivity).
      assert (Epre : len pre + (1 + N.of_nat ls + N.of_nat (S m)) = len (pre ++ [h] ++ a ++ b)).
      { rewrite !len_app. change (len [h]) with 1. unfold len at 3 4. rewrite La, Lb. lia. }
      rewrite Epre, IH. cbn [map as_data_run]. rewrite <- !app_assoc. f_equal. f_equal.
      rewrite !len_app. change (len [h]) with 1. lia.
    + set (a := le_bytes ls count).
      assert (La : length a = ls) by apply le_bytes_length.
      assert (Elen : len (([N.of_nat ls] ++ a ++ bs) ++ rest) = 1 + N.of_nat ls + len bs + len rest).
      { rewrite !len_app. change (len [N.of_nat ls]) with 1. unfold len at 1. rewrite La. lia. }
      rewrite (len_app pre), Elen.
      destruct (N.ltb_spec (len pre) (len pre + (1 + N.of_nat ls + len bs + len rest))); [|lia].
      rewrite slice_tail; [|reflexivity|now rewrite len_app, Elen]. cbn [bind].
      replace (([N.of_nat ls] ++ a ++ bs) ++ rest) with (N.of_nat ls :: a ++ bs ++ rest)
        by (cbn [app]; rewrite <- !app_assoc; reflexivity).
      rewrite read_hole; auto; [|apply le_bytes_wf]. cbn [bind].
      assert (Ea : le_value a = count) by (unfold a; rewrite le_value_le_bytes; apply N.mod_small, H2).
      rewrite Ea. cbn [run_kind].
      specialize (IH previous bs (pre ++ [N.of_nat ls] ++ a) rest
        (acc ++ [{| block_number := 0; number_of_blocks := count; run_kind := Sparse |}]) fuel H3 Hp
        ltac:(cbn [length] in Hf; lia) Hr).
      replace (pre ++ N.of_nat ls :: a ++ bs ++ rest) with ((pre ++ [N.of_nat ls] ++ a) ++ bs ++ rest)
        by (rewrite <- !app_assoc; reflexivity).
      assert (Epre : len pre + (1 + N.of_nat ls) = len (pre ++ [N.of_nat ls] ++ a)).
      { rewrite !len_app. change (len [N.of_nat ls]) with 1. unfold len at 3. rewrite La. lia. }
      rewrite Epre, IH. cbn [map as_data_run]. rewrite <- !app_assoc. f_equal. f_equal.
      rewrite !len_app. change (len [N.of_nat ls]) with 1. lia.
Qed.

(** What remains of a panic: the sum of the relative and the previous cluster number. *)
Lemma data_run_read_cases data last :
  wf_bytes data ->
  (exists r n, data_run_read data last = Ok (r, n) /\ 1 <= n <= len data) \/
  data_run_read data last = Err \/
  (data_run_read data last = Panic /\ last <> 0 /\
   exists relative, (- Z.of_N two63 <= relative < Z.of_N two63)%Z /\
     ~ (- Z.of_N two63 <= relative + as_i64 last < Z.of_N two63)%Z).
Proof.
  intros Hw. unfold data_run_read.
  destruct (N.leb_spec 1 (len data)); cbn [check bind]; [|auto].
  rewrite (idx_ok data 0 0) by lia. cbn [bind].
  set (h := nth _ data 0). set (ls := N.land h 15). set (os := N.shiftr h 4). clearbody ls os.
  destruct (N.leb_spec (1 + ls + os) (len data)); cbn [check bind]; [|auto].
  destruct (N.leb_spec ls 8); cbn [check bind]; [|auto].
  destruct (N.leb_spec os 8); cbn [check bind]; [|auto].
  destruct (N.eqb_spec ls 0); [left; do 2 eexists; split; [reflexivity|lia]|].
  rewrite slice_ok by lia. cbn [bind].
  destruct (N.eqb_spec os 0); [left; do 2 eexists; split; [reflexivity|lia]|].
  rewrite (idx_ok data _ 0) by lia. cbn [bind]. rewrite slice_ok by lia. cbn [bind].
  set (bytes := firstn (N.to_nat (1 + ls + os - (1 + ls))) _).
  assert (Hb : wf_bytes bytes) by (apply wf_bytes_firstn, wf_bytes_skipn, Hw).
  assert (Hn : bytes <> []).
  { intros E. assert (Hl : length bytes = 0%nat) by (rewrite E; reflexivity).
    unfold bytes in Hl. rewrite firstn_length, skipn_length in Hl. unfold len in *. lia. }
  set (w := shift_in _ bytes).
  assert (Hlt : w < two64) by (apply shift_in_value; assumption).
  assert (Hi : (- Z.of_N two63 <= as_i64 w < Z.of_N two63)%Z).
  { unfold as_i64. destruct (N.ltb_spec w two63); unfold two63, two64 in *; lia. }
  clearbody w. unfold add_i64.
  destruct ((- Z.of_N two63 <=? as_i64 w + as_i64 last) && (as_i64 w + as_i64 last <? Z.of_N two63))%Z eqn:E;
    cbn [bind].
  - left. do 2 eexists. split; [reflexivity|lia].
  - right. right. split; [reflexivity|]. split.
    + intros ->. change (as_i64 0) with 0%Z in E. rewrite Z.add_0_r in E. lia.
    + exists (as_i64 w). split; [assumption|]. lia.
Qed.

Lemma loop_panic data : wf_bytes data -> forall fuel o last acc,
  (N.to_nat (len data - o) < fuel)%nat ->
  data_runs_loop fuel data o last acc = Panic ->
  exists o' last', data_run_read (skipn (N.to_nat o') data) last' = Panic.
Proof.
  intros Hw. induction fuel as [|fuel IH]; intros o last acc Hf; [lia|]. cbn [data_runs_loop].
  destruct (N.ltb_spec o (len data)); [|discriminate].
  rewrite slice_ok by lia. cbn [bind].
  set (rest := firstn _ (skipn (N.to_nat o) data)).
  assert (Er : rest = skipn (N.to_nat o) data).
  { unfold rest. apply firstn_all2. rewrite skipn_length. unfold len in *. lia. }
  rewrite Er. destruct (data_run_read_cases (skipn (N.to_nat o) data) last) as [(r & n & E & Hn)|[E|[E _]]].
  - apply wf_bytes_skipn, Hw.
  - rewrite E. cbn [bind].
    assert (N.to_nat (len data - (o + n)) < fuel)%nat by lia.
    destruct (run_kind r); [discriminate| |]; apply IH; assumption.
  - rewrite E. discriminate.
  - intros _. eauto.
Qed.
Lemma loop_offset data : forall fuel o last acc l e,
  data_runs_loop fuel data o last acc = Ok (l, e) -> o <= e.
Proof.
  induction fuel as [|fuel IH]; intros o last acc l e; [discriminate|]. cbn [data_runs_loop].
  destruct (o <? len data); [|intros [= _ <-]; lia].
  intros H. apply bind_Ok_inv in H as (rest & _ & H). apply bind_Ok_inv in H as ([r n] & _ & H).
  destruct (run_kind r); [injection H as _ <-; lia| |]; apply IH in H; lia.
Qed.

(** ** Fix-up values *)
Lemma copy_two_ok buffer from to : from + 2 <= len buffer -> to + 2 <= len buffer ->
  exists b, copy_two buffer from to = Ok b /\ len b = len buffer /\
    forall i, nth (N.to_nat i) b 0 =
      if i =? to then nth (N.to_nat from) buffer 0
      else if i =? to + 1 then nth (N.to_nat (from + 1)) buffer 0 else nth (N.to_nat i) buffer 0.
Proof.
  intros H1 H2. unfold copy_two. rewrite (idx_ok buffer from 0), (idx_ok buffer (from + 1) 0) by lia.
  cbn [bind]. rewrite upd_ok by lia. cbn [bind].
  rewrite upd_ok by (unfold len in *; rewrite set_nth_length; lia).
  eexists. split; [reflexivity|]. split.
  - unfold len. now rewrite !set_nth_length.
  - intros i. destruct (N.eqb_spec i (to + 1)) as [->|Hi].
    + rewrite nth_set_nth_eq by (rewrite set_nth_length; unfold len in *; lia).
      destruct (N.eqb_spec (to + 1) to); [lia|reflexivity].
    + rewrite nth_set_nth_neq by lia. destruct (N.eqb_spec i to) as [->|Hj].
      * rewrite nth_set_nth_eq; [reflexivity|unfold len in *; lia].
      * now rewrite nth_set_nth_neq by lia.
Qed.

Lemma slice_two buffer o : o + 2 <= len buffer ->
  slice buffer o (o + 2) = Ok [nth (N.to_nat o) buffer 0; nth (N.to_nat (o + 1)) buffer 0].
Proof.
  intros H. rewrite slice_ok by lia. f_equal. replace (N.to_nat (o + 2 - o)) with 2%nat by lia.
  replace (N.to_nat (o + 1)) with (S (N.to_nat o)) by lia.
  unfold len in H. assert (Hl : (N.to_nat o + 2 <= length buffer)%nat) by lia.
  revert Hl. generalize (N.to_nat o). clear. intros o.
  revert o. induction buffer as [|x buffer IH]; intros [|o] H; cbn [length] in H; try lia.
  - destruct buffer as [|y buffer]; [cbn in H; lia|]. reflexivity.
  - cbn [skipn nth]. rewrite IH by lia. reflexivity.
Qed.

(** The sectors from [j] on, [n] of them, that are complete. *)
Definition complete (buffer : list N) (j : N) (n : nat) (k : N) : Prop :=
  j <= k < j + N.of_nat n /\ 512 * k + 512 <= len buffer.

Lemma fixup_step_div i k : i / 512 = k /\ 510 <= i mod 512 <-> i = 512 * k + 510 \/ i = 512 * k + 511.
Proof.
  pose proof (N.div_mod i 512 ltac:(lia)) as E. pose proof (N.mod_lt i 512 ltac:(lia)) as L. split.
  - intros [<- H]. lia.
  - intros H. assert (i / 512 = k).
    { symmetry. destruct H as [->| ->].
      - apply N.div_unique with 510; lia.
      - apply N.div_unique with 511; lia. }
    lia.
Qed.

Lemma fixup_loop_ok p0 p1 o : forall n j buffer,
  o + 2 + 2 * (j + N.of_nat n) <= 510 -> o + 2 + 2 * (j + N.of_nat n) <= len buffer ->
  (forall k, complete buffer j n k ->
     nth (N.to_nat (512 * k + 510)) buffer 0 = p0 /\ nth (N.to_nat (512 * k + 511)) buffer 0 = p1) ->
  exists b, fixup_loop n buffer [p0; p1] (o + 2 + 2 * j) (510 + 512 * j) = (b, Ok tt) /\
    len b = len buffer /\
    (forall k x, complete buffer j n k -> x < 2 ->
       nth (N.to_nat (512 * k + 510 + x)) b 0 = nth (N.to_nat (o + 2 + 2 * k + x)) buffer 0) /\
    (forall i, (forall k, complete buffer j n k -> i <> 512 * k + 510 /\ i <> 512 * k + 511) ->
       nth (N.to_nat i) b 0 = nth (N.to_nat i) buffer 0).
Proof.
  induction n as [|n IH]; intros j buffer Ho Hl Hp.
  - exists buffer. cbn [fixup_loop]. repeat split; auto. intros k x [H _]. lia.
  - cbn [fixup_loop]. destruct (N.leb_spec (510 + 512 * j + 2) (len buffer)) as [Hc|Hc].
    + assert (Cj : complete buffer j (S n) j) by (split; lia).
      rewrite slice_two by lia.
      destruct (Hp j Cj) as [P0 P1].
      replace (510 + 512 * j + 1) with (512 * j + 511) by lia.
      replace (510 + 512 * j) with (512 * j + 510) by lia. rewrite P0, P1.
      destruct (list_eq_dec N.eq_dec [p0; p1] [p0; p1]); [|congruence].
      destruct (copy_two_ok buffer (o + 2 + 2 * j) (512 * j + 510)) as (b1 & E1 & L1 & N1); [lia..|].
      rewrite E1. replace (o + 2 + 2 * j + 2) with (o + 2 + 2 * (j + 1)) by lia.
      replace (512 * j + 510 + 512) with (510 + 512 * (j + 1)) by lia.
      destruct (IH (j + 1) b1) as (b & E & L & F1 & F2); [lia|rewrite L1; lia| |].
      * intros k [Ck1 Ck2]. rewrite L1 in Ck2. rewrite !N1.
        destruct (N.eqb_spec (512 * k + 510) (512 * j + 510)); [lia|].
        destruct (N.eqb_spec (512 * k + 510) (512 * j + 510 + 1)); [lia|].
        destruct (N.eqb_spec (512 * k + 511) (512 * j + 510)); [lia|].
        destruct (N.eqb_spec (512 * k + 511) (512 * j + 510 + 1)); [lia|].
        apply Hp. split; lia.
      * exists b. rewrite E. split; [reflexivity|]. split; [congruence|]. split.
        -- intros k x [Ck1 Ck2] Hx. destruct (N.eq_dec k j) as [->|Hk].
           ++ rewrite F2.
              ** rewrite N1. destruct (N.eqb_spec (512 * j + 510 + x) (512 * j + 510)).
                 --- replace x with 0 by lia. now rewrite !N.add_0_r.
                 --- replace x with 1 by lia. now rewrite N.eqb_refl.
              ** intros k' [Ck' _]. lia.
           ++ rewrite F1; [|split; [lia|rewrite L1; lia]|assumption].
              rewrite N1. destruct (N.eqb_spec (o + 2 + 2 * k + x) (512 * j + 510)); [lia|].
              destruct (N.eqb_spec (o + 2 + 2 * k + x) (512 * j + 510 + 1)); [lia|]. reflexivity.
        -- intros i Hi. rewrite F2.
           ++ rewrite N1. destruct (Hi j Cj) as [H1 H2].
              destruct (N.eqb_spec i (512 * j + 510)); [lia|].
              destruct (N.eqb_spec i (512 * j + 510 + 1)); [lia|]. reflexivity.
           ++ intros k [Ck1 Ck2]. apply Hi. split; [lia|rewrite <- L1; lia].
    + replace (o + 2 + 2 * j + 2) with (o + 2 + 2 * (j + 1)) by lia.
      replace (510 + 512 * j + 512) with (510 + 512 * (j + 1)) by lia.
      destruct (IH (j + 1) buffer) as (b & E & L & F1 & F2); [lia|lia| |].
      * intros k [Ck1 Ck2]. apply Hp. split; lia.
      * exists b. rewrite E. repeat split; auto.
        -- intros k x [Ck1 Ck2] Hx. apply F1; [split; lia|assumption].
        -- intros i Hi. apply F2. intros k [Ck1 Ck2]. apply Hi. split; lia.
Qed.

Lemma list2_inv (a b c d : N) : [a; b] = [c; d] -> a = c /\ b = d.
Proof. intros [= -> ->]. auto. Qed.

Lemma fixup_loop_torn p0 p1 o : forall n j buffer k,
  o + 2 + 2 * (j + N.of_nat n) <= 510 -> o + 2 + 2 * (j + N.of_nat n) <= len buffer ->
  complete buffer j n k ->
  nth (N.to_nat (512 * k + 510)) buffer 0 <> p0 \/ nth (N.to_nat (512 * k + 511)) buffer 0 <> p1 ->
  exists b, fixup_loop n buffer [p0; p1] (o + 2 + 2 * j) (510 + 512 * j) = (b, Err).
Proof.
  induction n as [|n IH]; intros j buffer k Ho Hl [Ck1 Ck2] Hp; [lia|].
  cbn [fixup_loop]. destruct (N.leb_spec (510 + 512 * j + 2) (len buffer)) as [Hc|Hc].
  - rewrite slice_two by lia.
    replace (510 + 512 * j + 1) with (512 * j + 511) by lia.
    replace (510 + 512 * j) with (512 * j + 510) by lia.
    set (found := [_; _]). destruct (list_eq_dec N.eq_dec found [p0; p1]) as [E|E].
    + apply list2_inv in E as [E1 E2].
      assert (k <> j) by (intros ->; destruct Hp as [Hp|Hp]; [exact (Hp E1)|exact (Hp E2)]).
      destruct (copy_two_ok buffer (o + 2 + 2 * j) (512 * j + 510)) as (b1 & F1 & L1 & N1); [lia..|].
      rewrite F1. replace (o + 2 + 2 * j + 2) with (o + 2 + 2 * (j + 1)) by lia.
      replace (512 * j + 510 + 512) with (510 + 512 * (j + 1)) by lia.
      apply IH with k; [lia|lia|split; lia|].
      rewrite !N1.
      destruct (N.eqb_spec (512 * k + 510) (512 * j + 510)); [lia|].
      destruct (N.eqb_spec (512 * k + 510) (512 * j + 510 + 1)); [lia|].
      destruct (N.eqb_spec (512 * k + 511) (512 * j + 510)); [lia|].
      destruct (N.eqb_spec (512 * k + 511) (512 * j + 510 + 1)); [lia|]. exact Hp.
    + unfold u16_le, bytes_to_uint_le, add_chk. change (2 ^ 1) with 2.
      destruct (_ <? two64) eqn:Et.
      * cbn [bind]. rewrite slice_ok by lia. cbn [bind]. eauto.
      * exfalso. unfold two64 in Et. lia.
  - replace (o + 2 + 2 * j + 2) with (o + 2 + 2 * (j + 1)) by lia.
    replace (510 + 512 * j + 512) with (510 + 512 * (j + 1)) by lia.
    apply IH with k; [lia|lia|split; lia|assumption].
Qed.

Lemma fixup_loop_no_panic placeholder : forall n fo bo buffer,
  fo + 2 * N.of_nat n <= len buffer -> len buffer < two64 ->
  snd (fixup_loop n buffer placeholder fo bo) <> Panic /\
  len (fst (fixup_loop n buffer placeholder fo bo)) = len buffer.
Proof.
  induction n as [|n IH]; intros fo bo buffer H Hl; [split; [discriminate|reflexivity]|].
  cbn [fixup_loop]. destruct (N.leb_spec (bo + 2) (len buffer)).
  - rewrite slice_ok by lia. destruct (list_eq_dec _ _ _).
    + destruct (copy_two_ok buffer fo bo) as (b & E & L & _); [lia..|]. rewrite E.
      destruct (IH (fo + 2) (bo + 512) b) as [I1 I2]; [lia..|]. split; [assumption|lia].
    + unfold u16_le, bytes_to_uint_le, add_chk. destruct (N.ltb_spec (fo + 2) two64); [|lia].
      cbn [bind]. rewrite slice_ok by lia. cbn [bind]. split; [discriminate|reflexivity].
  - apply IH; lia.
Qed.

(** ** Block streams *)
Definition range_of (offset : N) (r : run) : block_range :=
  match r with
  | Allocated count cluster =>
      {| virtual_cluster_offset := offset; cluster_block_number := cluster; range_blocks := count;
         range_sparse := false |}
  | Hole count =>
      {| virtual_cluster_offset := offset; cluster_block_number := 0; range_blocks := count;
         range_sparse := true |}
  end.
Fixpoint ranges_of (cs offset : N) (runs : list run) : list (N * block_range) :=
  match runs with
  | [] => []
  | r :: runs => (run_count r * cs, range_of offset r) :: ranges_of cs (offset + run_count r * cs) runs
  end.
Lemma ranges_of_app cs a b : forall o,
  ranges_of cs o (a ++ b) = ranges_of cs o a ++ ranges_of cs (o + clusters a * cs) b.
Proof.
  induction a as [|r a IH]; intros o.
  - cbn. now rewrite N.add_0_r.
  - cbn [app ranges_of clusters fold_right]. fold (clusters a). rewrite IH. cbn [app].
    do 3 f_equal. lia.
Qed.
Lemma clusters_app a b : clusters (a ++ b) = clusters a + clusters b.
Proof.
  unfold clusters. induction a as [|r a IH]; [reflexivity|]. cbn [fold_right app] in *. lia.
Qed.
Lemma total_ranges cs runs : forall o, total (ranges_of cs o runs) = clusters runs * cs.
Proof.
  induction runs as [|r runs IH]; intros o; [reflexivity|].
  cbn [ranges_of total fold_right fst clusters]. fold (total (ranges_of cs (o + run_count r * cs) runs)).
  rewrite IH. fold (clusters runs). lia.
Qed.

Lemma insert_runs_ranges cs runs : forall t vcn o t',
  0 < cs -> vcn + clusters runs < two64 -> o + clusters runs * cs < two64 ->
  insert_ranges t (consecutive o (ranges_of cs o runs)) = Ok t' ->
  ntfs_insert_runs cs (map as_data_run runs) t vcn o = Ok (t', vcn + clusters runs, o + clusters runs * cs).
Proof.
  induction runs as [|r runs IH]; intros t vcn o t' Hcs Hv Ho H.
  - injection H as <-. cbn. now rewrite !N.add_0_r.
  - cbn [clusters fold_right] in *. fold (clusters runs) in *.
    rewrite N.mul_add_distr_r in *.
    cbn [ranges_of consecutive insert_ranges] in H. cbn [map ntfs_insert_runs].
    assert (E : number_of_blocks (as_data_run r) = run_count r) by (destruct r; reflexivity).
    rewrite E. unfold mul_chk at 1. destruct (N.ltb_spec (run_count r * cs) two64); [|lia]. cbn [bind].
    assert (E2 : forall k : bool -> res (block_tree block_range * N * N),
      bind (match run_kind (as_data_run r) with InFile => Ok false | Sparse => Ok true | EndOfList => Err end) k =
      k (match r with Allocated _ _ => false | Hole _ => true end)) by (destruct r; reflexivity).
    rewrite E2. clear E2.
    assert (E3 : {| virtual_cluster_offset := o; cluster_block_number := block_number (as_data_run r);
             range_blocks := run_count r; range_sparse := match r with Allocated _ _ => false | Hole _ => true end |}
           = range_of o r) by (destruct r; reflexivity).
    rewrite E3. destruct (bt_insert t o (run_count r * cs) (range_of o r)) as [t1 [[]| |]]; try discriminate.
    unfold add_chk. destruct (N.ltb_spec (vcn + run_count r) two64); [|lia]. cbn [bind].
    destruct (N.ltb_spec (o + run_count r * cs) two64); [|lia]. cbn [bind].
    rewrite (IH t1 (vcn + run_count r) (o + run_count r * cs) t'); auto; try lia.
    rewrite !N.add_assoc. reflexivity.
Qed.

Lemma insert_ranges_app {V} a b : forall t : block_tree V,
  insert_ranges t (a ++ b) = (t1 <- insert_ranges t a ;; insert_ranges t1 b).
Proof.
  induction a as [|[[o s] v] a IH]; intros t; [reflexivity|]. cbn [app insert_ranges].
  destruct (bt_insert t o s v) as [t1 [[]| |]]; [apply IH|reflexivity..].
Qed.

Lemma insert_groups_ranges cs : forall vcn runs groups,
  grouped vcn runs groups -> forall t t',
  0 < cs -> vcn + clusters runs < two64 -> (vcn + clusters runs) * cs < two64 ->
  insert_ranges t (consecutive (vcn * cs) (ranges_of cs (vcn * cs) runs)) = Ok t' ->
  ntfs_insert_groups cs groups t vcn (vcn * cs) = Ok t'.
Proof.
  induction 1 as [vcn|vcn runs runs' last groups Hl _ IH]; intros t t' Hcs Hv Ho H.
  - exact H.
  - cbn [ntfs_insert_groups first_vcn last_vcn data_runs]. rewrite N.eqb_refl. cbn [check bind].
    rewrite clusters_app in *. rewrite ranges_of_app, consecutive_app, insert_ranges_app, total_ranges in H.
    apply bind_Ok_inv in H as (t1 & H1 & H2).
    rewrite (insert_runs_ranges cs runs t vcn (vcn * cs) t1); auto; [|lia..]. cbn [bind].
    replace (vcn * cs + clusters runs * cs) with ((vcn + clusters runs) * cs) in * by lia.
    assert (E : (if last =? two64 - 1 then Ok tt
      else last0 <- add_chk two64 last 1 ;; check (last0 =? vcn + clusters runs)) = Ok tt).
    { destruct (N.eqb_spec last (two64 - 1)); [reflexivity|]. destruct Hl as [|Hl]; [contradiction|].
      unfold add_chk. destruct (N.ltb_spec (last + 1) two64); [|lia]. cbn [bind]. rewrite Hl, N.eqb_refl. reflexivity. }
    rewrite E. cbn [bind]. apply IH; auto; [lia|]. rewrite <- N.add_assoc. exact Ho.
Qed.

Definition run_inside (volume : list N) (cs : N) (r : run) : Prop :=
  0 < run_count r /\
  match r with Allocated count cluster => (cluster + count) * cs <= len volume | Hole _ => True end.

Lemma div_ceil_ok a b : 0 < b -> exists q, div_ceil a b = Ok q /\ a <= q * b < a + b /\ (a mod b = 0 -> q * b = a).
Proof.
  intros Hb. unfold div_ceil, div_chk. destruct (N.eqb_spec b 0); [lia|]. cbn [bind].
  pose proof (N.div_mod a b ltac:(lia)). pose proof (N.mod_lt a b ltac:(lia)).
  rewrite (N.mul_comm b) in *.
  destruct (N.eqb_spec (a mod b) 0); eexists; (split; [reflexivity|]); rewrite ?N.mul_add_distr_r; lia.
Qed.

Lemma in_ranges_of cs runs : forall o o' s v, In (o', s, v) (consecutive o (ranges_of cs o runs)) ->
  exists r, In r runs /\ s = run_count r * cs /\ v = range_of o' r.
Proof.
  induction runs as [|r runs IH]; intros o o' s v H; [destruct H|].
  cbn [ranges_of consecutive] in H. destruct H as [[= <- <- <-]|H].
  - exists r. repeat split; auto. now left.
  - apply IH in H as (r' & H1 & H2 & H3). exists r'. repeat split; auto. now right.
Qed.

Lemma len_repeat {A} (x : A) n : len (repeat x n) = N.of_nat n.
Proof. unfold len. now rewrite repeat_length. Qed.

Lemma run_content_len volume cs r : run_inside volume cs r ->
  len (run_content volume cs r) = run_count r * cs.
Proof.
  intros [_ H]. destruct r; cbn [run_content run_count].
  - rewrite len_bytes_at. lia.
  - rewrite len_repeat. lia.
Qed.

Lemma content_at volume cs runs o s v :
  Forall (run_inside volume cs) runs -> In (o, s, v) (consecutive 0 (ranges_of cs 0 runs)) ->
  exists r, In r runs /\ s = run_count r * cs /\ v = range_of o r /\
    bytes_at (flat_map (run_content volume cs) runs) o s = run_content volume cs r.
Proof.
  intros Hin. 
  assert (G : forall pre base, len pre = base -> In (o, s, v) (consecutive base (ranges_of cs base runs)) ->
    exists r, In r runs /\ s = run_count r * cs /\ v = range_of o r /\
    bytes_at (pre ++ flat_map (run_content volume cs) runs) o s = run_content volume cs r).
  { induction Hin as [|r runs Hr _ IH]; intros pre base Hb H; [destruct H|].
    cbn [ranges_of consecutive] in H. pose proof (run_content_len volume cs r Hr) as Hlen.
    destruct H as [[= <- <- <-]|H].
    - exists r. split; [now left|]. repeat split; auto. cbn [flat_map]. unfold bytes_at.
      replace (N.to_nat base) with (length pre) by (unfold len in Hb; lia).
      rewrite skipn_app, skipn_all, Nat.sub_diag. cbn [app skipn].
      replace (N.to_nat (run_count r * cs)) with (length (run_content volume cs r)) by (unfold len in Hlen; lia).
      rewrite firstn_app, firstn_all, Nat.sub_diag. cbn [firstn]. apply app_nil_r.
    - destruct (IH (pre ++ run_content volume cs r) (base + run_count r * cs)) as (r' & R1 & R2 & R3 & R4); auto.
      { rewrite len_app. lia. }
      exists r'. split; [now right|]. repeat split; auto. cbn [flat_map]. rewrite app_assoc. exact R4. }
  intros H. exact (G [] 0 eq_refl H).
Qed.

Lemma len_contents volume cs runs : Forall (run_inside volume cs) runs ->
  len (flat_map (run_content volume cs) runs) = clusters runs * cs.
Proof.
  induction 1 as [|r runs H _ IH]; [reflexivity|]. cbn [flat_map clusters fold_right]. fold (clusters runs).
  rewrite len_app, IH, (run_content_len volume cs r H). lia.
Qed.

Lemma open_ranges cs runs groups alloc :
  0 < cs -> Forall (fun r => 0 < run_count r) runs -> grouped 0 runs groups ->
  clusters runs * cs <= alloc -> alloc + cs <= two64 ->
  exists q t, div_ceil alloc cs = Ok q /\ mul_chk two64 q cs = Ok (q * cs) /\
    (if 0 <? alloc then ntfs_insert_groups cs groups (bt_new (q * cs) 0 cs) 0 0 else Ok (bt_new (q * cs) 0 cs)) = Ok t /\
    forall x, x < clusters runs * cs -> exists o s v, bt_get t x = Ok (Some v) /\
      In (o, s, v) (consecutive 0 (ranges_of cs 0 runs)) /\ o <= x < o + s.
Proof.
  intros Hcs Hpos Hg Ha Hb. destruct (div_ceil_ok alloc cs Hcs) as (q & Eq & Hq & _).
  assert (T := total_ranges cs runs 0).
  destruct (consecutive_tree (q * cs) cs (ranges_of cs 0 runs)) as (t & E & G); auto; [lia| |lia|].
  { clear - Hpos Hcs. revert Hpos.
    enough (Q : forall o, Forall (fun r => 0 < run_count r) runs ->
      Forall (fun e => 0 < fst e /\ fst e mod cs = 0) (ranges_of cs o runs)) by apply Q.
    induction runs as [|r runs IH]; intros o Hpos; [constructor|].
    apply Forall_cons_iff in Hpos as [H1 H2]. cbn [ranges_of]. constructor; [|apply IH, H2].
    cbn [fst]. split; [apply N.mul_pos_pos; assumption|]. apply N.mod_mul. lia. }
  rewrite T in G. exists q, t. split; [assumption|].
  unfold mul_chk. destruct (N.ltb_spec (q * cs) two64); [|lia]. split; [reflexivity|]. split; [|exact G].
  destruct (N.ltb_spec 0 alloc).
  - replace 0 with (0 * cs) at 3 by lia. apply insert_groups_ranges with runs; auto; rewrite ?N.add_0_l.
    + assert (clusters runs * 1 <= clusters runs * cs) by (apply N.mul_le_mono_l; lia). lia.
    + lia.
  - assert (Hz : clusters runs * cs = 0) by lia. assert (runs = []).
    { destruct runs as [|r runs]; [reflexivity|]. apply Forall_cons_iff in Hpos as [Hr _].
      cbn [clusters fold_right] in Hz. apply N.eq_mul_0 in Hz. lia. }
    subst runs. exact E.
Qed.

Lemma block_step_exact volume cs runs t size valid :
  0 < cs -> Forall (run_inside volume cs) runs -> clusters runs * cs < two64 ->
  len volume < two64 -> valid <= size -> valid <= clusters runs * cs ->
  (forall x, x < clusters runs * cs -> exists o s v, bt_get t x = Ok (Some v) /\
      In (o, s, v) (consecutive 0 (ranges_of cs 0 runs)) /\ o <= x < o + s) ->
  exact_step (fun _ => True) size (attribute_content volume cs runs size valid)
    (ntfs_block_step volume {| ns_cluster_block_size := cs; ns_tree := t; ns_size := size;
       ns_valid_data_size := valid |}).
Proof.
  intros Hcs Hin Htot Hvol Hvs Hvt G u o r _ Ho Hr Hor.
  pose proof (len_contents volume cs runs Hin) as Hlen.
  unfold ntfs_block_step. cbn [ns_cluster_block_size ns_tree ns_size ns_valid_data_size].
  set (X := flat_map (run_content volume cs) runs) in *.
  assert (HlX : len (bytes_at X 0 valid) = valid) by (rewrite len_bytes_at; lia).
  destruct (N.leb_spec valid o) as [Hv|Hv].
  - exists u, r. unfold sub_chk. destruct (N.leb_spec o size); [|lia]. cbn [bind].
    rewrite N.min_l by lia. split; [|auto with *]. f_equal. f_equal.
    unfold attribute_content. fold X. rewrite bytes_at_padded_zero by lia. reflexivity.
  - destruct (G o ltac:(lia)) as (ro & s & v & E & Hi & Hc). rewrite E. cbn [bind of_option].
    assert (Hro : ro + s <= clusters runs * cs).
    { rewrite <- (total_ranges cs runs 0). clear - Hi.
      assert (Q : forall base l, In (ro, s, v) (consecutive base l) -> ro + s <= base + total l).
      { intros base l. revert base. induction l as [|[s' v'] l IH]; intros base H; [destruct H|].
        cbn [consecutive] in H. cbn [total fold_right fst]. fold (total l).
        destruct H as [[= <- <- <-]|H]; [lia|]. apply IH in H. lia. }
      apply Q in Hi. lia. }
    destruct (content_at volume cs runs ro s v Hin Hi) as (r0 & R1 & -> & -> & R4). fold X in R4.
    assert (Ev : virtual_cluster_offset (range_of ro r0) = ro /\ range_blocks (range_of ro r0) = run_count r0)
      by (destruct r0; auto).
    destruct Ev as [-> ->]. unfold mul_chk at 1. destruct (N.ltb_spec (run_count r0 * cs) two64); [|lia].
    cbn [bind]. unfold add_chk at 1. destruct (N.ltb_spec (ro + run_count r0 * cs) two64); [|lia]. cbn [bind].
    set (e := if valid <? ro + run_count r0 * cs then valid else ro + run_count r0 * cs).
    assert (He : o < e /\ e <= valid /\ e <= ro + run_count r0 * cs).
    { unfold e. destruct (N.ltb_spec valid (ro + run_count r0 * cs)); lia. }
    unfold sub_chk. destruct (N.leb_spec ro o); [|lia]. cbn [bind].
    destruct (N.leb_spec ro e); [|lia]. cbn [bind]. destruct (N.leb_spec (o - ro) (e - ro)); [|lia]. cbn [bind].
    set (k := N.min r (e - ro - (o - ro))).
    assert (Hk : 0 < k <= r /\ o + k <= e) by (unfold k; lia).
    assert (EX : bytes_at (attribute_content volume cs runs size valid) o k =
                 bytes_at (run_content volume cs r0) (o - ro) k).
    { unfold attribute_content. fold X. rewrite bytes_at_padded_data by lia.
      rewrite bytes_at_bytes_at by lia. rewrite N.add_0_l.
      rewrite <- R4, bytes_at_bytes_at by lia. f_equal. lia. }
    exists u, k. split; [|split; [exact I|lia]]. f_equal. rewrite EX.
    assert (Hr0 : run_inside volume cs r0) by (rewrite Forall_forall in Hin; auto).
    destruct r0 as [count cluster|count]; cbn [range_of range_sparse cluster_block_number run_content run_count] in *.
    + destruct Hr0 as [_ Hr0]. rewrite N.mul_add_distr_r in Hr0.
      unfold mul_chk. destruct (N.ltb_spec (cluster * cs) two64); [|lia]. cbn [bind].
      unfold add_chk. destruct (N.ltb_spec (cluster * cs + (o - ro)) two64); [|lia]. cbn [bind].
      unfold read_at. rewrite bytes_at_bytes_at by lia. reflexivity.
    + f_equal. unfold bytes_at. rewrite skipn_repeat, firstn_repeat. f_equal. lia.
Qed.
