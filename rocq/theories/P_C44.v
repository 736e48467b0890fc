(** * C44: paths, splitting and joining *)
From Verif Require Import Base BaseLemmas Strings_model Strings_spec Strings_proofs Utf8_spec Utf8_model Utf8_proofs
  Paths_model Paths_spec Paths_proofs.

(** Converting a string to a path and back. Missing from the property: the empty string,
    which comes back as "/". *)
Theorem C44_string_round_trip_partial :
  forall s, s <> [] -> string_path_to_string (string_path_from s) = s.
Proof.
  intros s Hs. unfold string_path_from.
  destruct (match s with [c] => c =? 0x2f | _ => false end) eqn:E.
  - destruct s as [|c [|]]; try discriminate. apply N.eqb_eq in E. subst. reflexivity.
  - rewrite <- (join_split 0x2f s) at 2. unfold string_path_to_string.
    destruct (split 0x2f s) as [|[|c w] [|w' ws]] eqn:Es; try reflexivity.
    exfalso. assert (G := join_split 0x2f s). rewrite Es in G. cbn in G. congruence.
Qed.
Print Assumptions C44_string_round_trip_partial.

Theorem C44_empty_string_refuted : string_path_to_string (string_path_from []) = [0x2f].
Proof. reflexivity. Qed.
Print Assumptions C44_empty_string_refuted.

(** The string of a path converts back to the path: any components without a separator,
    other than no component and two empty ones (the string "/" is the root). *)
Theorem C44_path_round_trip :
  forall components, components <> [] -> components <> [[]; []] ->
  Forall (fun w => ~ In 0x2f w) components ->
  string_path_from (string_path_to_string components) = components.
Proof.
  intros ws Hne Hne2 H. unfold string_path_to_string.
  assert (G : ws = [[]] \/ ws <> [[]]).
  { destruct ws as [|[|? ?] [|? ?]]; auto; right; discriminate. }
  destruct G as [->|Hr]; [reflexivity|].
  replace (match ws with [[]] => [0x2f] | _ => join 0x2f ws end) with (join 0x2f ws)
    by (destruct ws as [|[|? ?] [|? ?]]; congruence).
  unfold string_path_from.
  replace (match join 0x2f ws with [c] => c =? 0x2f | _ => false end) with false.
  - now apply split_join.
  - destruct (join 0x2f ws) as [|c [|c' s]] eqn:E; try reflexivity.
    destruct (N.eqb_spec c 0x2f) as [->|]; [|reflexivity]. exfalso.
    assert (Es := split_join 0x2f ws Hne H). rewrite E in Es. cbn in Es. congruence.
Qed.
Print Assumptions C44_path_round_trip.

(** The parent of a path joined with its file name is the path, for every kind of path
    (string, ext, FAT, NTFS); a path has a file name when it has more than one component. *)
Theorem C44_parent_and_file_name :
  forall {A} (components : list A),
  file_name components <> Panic /\ file_name components <> Err /\
  (forall name, file_name components = Ok (Some name) ->
     new_with_join (parent_directory components) [name] = components) /\
  (file_name components = Ok None <-> (length components <= 1)%nat) /\
  ((length components <= 1)%nat -> parent_directory components = components).
Proof.
  intros A l. unfold file_name, parent_directory, new_with_join.
  destruct l as [|a l] using rev_ind.
  - cbn. repeat split; try discriminate; auto.
  - clear IHl. rewrite len_app, app_length. cbn [length len]. change (len [a]) with 1.
    destruct (N.ltb_spec 1 (len l + 1)) as [H|H].
    + unfold sub_chk. destruct (N.leb_spec 1 (len l + 1)); [|lia]. cbn [bind].
      replace (len l + 1 - 1) with (len l) by lia.
      assert (Ei : idx (l ++ [a]) (len l) = Ok a).
      { unfold idx. replace (N.to_nat (len l)) with (length l) by (unfold len; lia).
        rewrite nth_error_app2, Nat.sub_diag by lia. reflexivity. }
      rewrite Ei. cbn [bind]. unfold len in H.
      replace (1 <? length l + 1)%nat with true by lia.
      replace (length l + 1 - 1)%nat with (length l) by lia.
      rewrite firstn_app, firstn_all, Nat.sub_diag, firstn_O, app_nil_r.
      repeat split; try discriminate; try lia. intros name [= <-]. reflexivity.
    + assert (l = []) by (destruct l; [reflexivity|rewrite len_cons in H; lia]). subst l.
      cbn. repeat split; try discriminate; auto.
Qed.
Print Assumptions C44_parent_and_file_name.

Lemma fs_round_trip sep of_str to_str s :
  (forall w, incl w s -> ~ In sep w -> to_str (of_str w) = Ok w) ->
  (forall w, incl w s -> of_str w = [] -> w = []) ->
  fs_path_to_string sep to_str (fs_path_from sep of_str s) = Ok s.
Proof.
  intros H H0. destruct s as [|c s]; [reflexivity|].
  assert (F : (c :: s = [sep] /\ fs_path_from sep of_str (c :: s) = [[]]) \/
    fs_path_from sep of_str (c :: s) = map of_str (split sep (c :: s))).
  { unfold fs_path_from. destruct s; [|auto]. destruct (N.eqb_spec c sep) as [->|]; auto. }
  remember (c :: s) as t eqn:Et. destruct F as [(-> & ->)| ->].
  - reflexivity.
  - pose proof (split_parts sep t) as Hp. pose proof (join_split sep t) as Hj.
    assert (Em : map_res to_str (map of_str (split sep t)) = Ok (split sep t)).
    { clear Hj Et. induction Hp as [|w ws [H1 H2] _ IH]; [reflexivity|].
      cbn [map map_res]. rewrite H by auto. cbn [bind]. now rewrite IH. }
    unfold fs_path_to_string. rewrite Em.
    destruct (map of_str (split sep t)) as [|[|? ?] [|? ?]] eqn:Es; cbn [bind]; rewrite ?Hj; auto.
    exfalso. destruct (split sep t) as [|w [|? ?]] eqn:Es'; try discriminate.
    cbn [map] in Es. injection Es as Es. apply Forall_cons_iff in Hp as [[_ Hw] _].
    apply H0 in Es; [|assumption]. subst w. cbn in Hj. subst t. discriminate.
Qed.

Lemma utf8_no_zero c : c <> 0 -> Forall (fun b => b <> 0) (utf8 c).
Proof.
  intros H. unfold utf8. repeat match goal with |- context [if ?b then _ else _] => destruct b end;
    repeat constructor; lia.
Qed.

(** ext paths: every string without backslashes and zero characters. A backslash comes back
    doubled, and a zero character ends its component. *)
Theorem C44_ext_round_trip_partial :
  forall s, Forall (fun c => scalar c /\ c <> 0x5c /\ c <> 0) s ->
  ext_path_to_string (ext_path_from s) = Ok s.
Proof.
  intros s Hs. apply fs_round_trip.
  - intros w Hw _. assert (Hf : Forall (fun c => scalar c /\ c <> 0x5c /\ c <> 0) w).
    { rewrite Forall_forall in *. auto. }
    clear Hs Hw. unfold bytestring_from_str.
    assert (E : string_from_slice (flat_map utf8 w) = flat_map utf8 w).
    { eapply before_nul_unique; [apply from_slice_ok|]. split; [|now left].
      induction Hf as [|c w (H1 & H2 & H3) _ IH]; [constructor|].
      cbn [flat_map]. apply Forall_app. split; [|assumption]. now apply utf8_no_zero. }
    rewrite E. unfold utf8_bytestring_to_string, utf8_decode.
    assert (Hf' : Forall scalar w) by (eapply Forall_impl; [|exact Hf]; intros ? Hx; exact (proj1 Hx)).
    rewrite (decode_encoded w _ Hf' (le_n _)).
    f_equal. clear E Hf'. induction Hf as [|c w (H1 & H2 & H3) _ IH]; [reflexivity|].
    unfold ucs2_to_string in *. cbn [flat_map]. rewrite IH. unfold ucs2_char, char_from_u32.
    replace ((c <? 55296) || ((57344 <=? c) && (c <? 1114112))) with true
      by (unfold scalar in H1; lia).
    destruct (N.eqb_spec c 0x5c); [contradiction|]. reflexivity.
  - intros w Hw Hb. destruct w as [|c w]; [reflexivity|]. exfalso.
    assert (Hc : scalar c /\ c <> 0x5c /\ c <> 0).
    { rewrite Forall_forall in Hs. apply Hs, Hw. now left. }
    unfold bytestring_from_str in Hb.
    pose proof (from_slice_ok (flat_map utf8 (c :: w))) as [_ [G|(r & G)]]; rewrite Hb in G.
    + pose proof (utf8_len_pos c). cbn [flat_map] in G.
      destruct (utf8 c); [cbn in H; lia|discriminate].
    + cbn [flat_map app] in G. destruct Hc as (Hc1 & _ & Hc2).
      pose proof (utf8_len_pos c). pose proof (utf8_no_zero c Hc2) as H1.
      destruct (utf8 c) as [|b l]; [cbn in H; lia|].
      apply Forall_cons_iff in H1 as [H1 _]. cbn [app] in G. congruence.
Qed.
Print Assumptions C44_ext_round_trip_partial.

(** FAT and NTFS paths: every string of characters of the basic plane; of NTFS paths also
    with backslashes, which separate the components. Characters beyond the basic plane
    come back as two escaped surrogates. *)
Theorem C44_fat_ntfs_round_trip_partial :
  forall s, Forall (fun c => scalar c /\ c < 0x10000) s ->
  (~ In 0x5c s -> fat_path_to_string (fat_path_from s) = Ok s) /\
  ntfs_path_to_string (ntfs_path_from s) = Ok s.
Proof.
  intros s Hs.
  assert (G : forall w, incl w s -> ~ In 0x5c w -> ucs2_to_string (ucs2_from_str w) = w).
  { intros w Hw Hn. assert (Hf : Forall (fun c => scalar c /\ c < 0x10000) w).
    { rewrite Forall_forall in *. auto. }
    clear Hs Hw. induction Hf as [|c w (H1 & H2) _ IH]; [reflexivity|].
    unfold ucs2_to_string, ucs2_from_str in *. cbn [flat_map].
    unfold encode_utf16_char at 1. destruct (N.ltb_spec c 0x10000); [|lia].
    cbn [flat_map app]. rewrite IH by (intros Hx; apply Hn; now right).
    unfold ucs2_char, char_from_u32.
    replace ((c <? 55296) || ((57344 <=? c) && (c <? 1114112))) with true
      by (unfold scalar in H1; lia).
    destruct (N.eqb_spec c 0x5c) as [->|]; [exfalso; apply Hn; now left|]. reflexivity. }
  assert (G0 : forall w, incl w s -> ucs2_from_str w = [] -> w = []).
  { intros w _ H. destruct w as [|c w]; [reflexivity|]. unfold ucs2_from_str in H.
    cbn [flat_map] in H. unfold encode_utf16_char in H. destruct (c <? _); discriminate. }
  split.
  - intros Hn. apply fs_round_trip; [|assumption]. intros w Hw _. rewrite G; auto.
  - apply fs_round_trip; [|assumption]. intros w Hw H. rewrite G; auto.
Qed.
Print Assumptions C44_fat_ntfs_round_trip_partial.

(** The property as stated is false of the file system paths. *)
Theorem C44_round_trip_refuted :
  (* a backslash in the name of an ext file *)
  ext_path_to_string (ext_path_from [0x61; 0x5c; 0x62]) = Ok [0x61; 0x5c; 0x5c; 0x62] /\
  (* U+1F600 in the name of an NTFS file: \{d83d}\{de00} *)
  ntfs_path_to_string (ntfs_path_from [0x1f600]) =
    Ok [92; 123; 100; 56; 51; 100; 125; 92; 123; 100; 101; 48; 48; 125].
Proof. vm_compute. auto. Qed.
Print Assumptions C44_round_trip_refuted.

(** "/usr/lib" is three components, parent "/usr" *)
Example C44_case :
  string_path_from [47; 117; 115; 114; 47; 108] = [[]; [117; 115; 114]; [108]] /\
  string_path_to_string (parent_directory (string_path_from [47; 117; 115; 114; 47; 108])) =
    [47; 117; 115; 114] /\
  file_name (string_path_from [47; 117; 115; 114; 47; 108]) = Ok (Some [108]).
Proof. vm_compute. auto. Qed.
