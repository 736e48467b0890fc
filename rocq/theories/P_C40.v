(** * C40: file name splitting *)
From Verif Require Import Base BaseLemmas Strings_model Strings_spec Strings_proofs Utf8_spec Utf8_model
  Paths_model Paths_spec Paths_proofs.

(** Names whose first character and extension are ASCII: name = stem + '.' + extension,
    with the last dot. Missing from the property: names that begin with, or have an
    extension with, a character that is not ASCII, see below. *)
Theorem C40_splits_partial :
  forall name stem extension,
  splits name stem extension -> ascii (hd 0 name) -> Forall ascii extension ->
  component_file_stem name = Ok (Some stem) /\
  component_extension name = Ok (Some extension).
Proof.
  intros name stem ext H Hc He. apply splits_tail in H as (c & a & -> & -> & Hn).
  cbn [hd] in Hc. unfold component_file_stem, component_extension.
  rewrite str_from_1 by assumption. cbn [bind]. rewrite position_rev by assumption.
  unfold sub_chk. change (c :: a ++ [0x2e] ++ ext) with ((c :: a) ++ [0x2e] ++ ext).
  rewrite !str_len_app, (str_len_ascii ext) by assumption.
  change (str_len [0x2e]) with 1. set (n := str_len (c :: a)).
  destruct (N.leb_spec (len ext) (n + (1 + len ext))); [|lia]. cbn [bind].
  replace (n + (1 + len ext) - len ext) with (n + 1) by lia.
  destruct (N.leb_spec 1 (n + 1)); [|lia]. cbn [bind].
  replace (n + 1 - 1) with n by lia. unfold str_from, str_to.
  unfold n. rewrite (str_split_at_app (c :: a) ([0x2e] ++ ext)). cbn [bind]. split; [reflexivity|].
  replace (str_len (c :: a) + 1) with (str_len ((c :: a) ++ [0x2e])) by (rewrite str_len_app; reflexivity).
  rewrite (app_assoc (c :: a)). rewrite str_split_at_app. reflexivity.
Qed.
Print Assumptions C40_splits_partial.

(** Names without an extension (no dot, or only one in front) are their own stem. *)
Theorem C40_no_extension_partial :
  forall name, no_extension name -> name <> [] -> ascii (hd 0 name) ->
  component_file_stem name = Ok (Some name) /\ component_extension name = Ok None.
Proof.
  intros [|c a] H Hne Hc; [congruence|]. cbn [hd] in Hc. unfold no_extension in H. cbn [tl] in H.
  unfold component_file_stem, component_extension. rewrite str_from_1 by assumption. cbn [bind].
  assert (E : position 0x2e (rev a) = None) by (apply position_none; now rewrite <- in_rev).
  rewrite E. auto.
Qed.
Print Assumptions C40_no_extension_partial.

(** Every name is covered by one of these two cases or has a character that is not ASCII. *)
Theorem C40_ascii_names :
  forall name, Forall ascii name -> name <> [] ->
  (component_file_stem name = Ok (Some name) /\ component_extension name = Ok None) \/
  exists stem extension, name = stem ++ [0x2e] ++ extension /\
    component_file_stem name = Ok (Some stem) /\ component_extension name = Ok (Some extension).
Proof.
  intros name H Hne.
  assert (Hh : ascii (hd 0 name)) by (destruct H; [reflexivity|assumption]).
  destruct (splits_or_not name) as [Hn|(stem & ext & Hs)].
  - left. now apply C40_no_extension_partial.
  - right. exists stem, ext. pose proof Hs as (E & _ & _). split; [exact E|].
    apply C40_splits_partial; auto. subst name.
    apply Forall_app in H as [_ H]. now apply Forall_app in H as [_ H].
Qed.
Print Assumptions C40_ascii_names.

(** A name that begins with a character that is not ASCII always panics. *)
Theorem C40_non_ascii_first_panics :
  forall c rest, ~ ascii c ->
  component_file_stem (c :: rest) = Panic /\ component_extension (c :: rest) = Panic.
Proof.
  intros c rest H. unfold component_file_stem, component_extension.
  rewrite str_from_1_panic by assumption. auto.
Qed.
Print Assumptions C40_non_ascii_first_panics.

(** An extension with a character that is not ASCII is never reported. *)
Theorem C40_non_ascii_extension_wrong :
  forall name stem extension,
  splits name stem extension -> ~ Forall ascii extension ->
  component_extension name <> Ok (Some extension) /\ component_file_stem name <> Ok (Some stem).
Proof.
  intros name stem ext H He. apply splits_tail in H as (c & a & -> & -> & Hn).
  apply str_len_not_ascii in He. unfold component_file_stem, component_extension.
  destruct (N.ltb_spec c 0x80) as [Hc|Hc].
  2: { rewrite str_from_1_panic by (unfold ascii; lia). split; discriminate. }
  rewrite str_from_1 by assumption. cbn [bind]. rewrite position_rev by assumption.
  unfold sub_chk. change (c :: a ++ [0x2e] ++ ext) with ((c :: a) ++ [0x2e] ++ ext).
  assert (El : str_len ((c :: a) ++ [0x2e] ++ ext) = str_len (c :: a) + (1 + str_len ext)).
  { rewrite !str_len_app. reflexivity. }
  rewrite El.
  destruct (N.leb_spec (len ext) (str_len (c :: a) + (1 + str_len ext))); [|lia]. cbn [bind].
  destruct (N.leb_spec 1 (str_len (c :: a) + (1 + str_len ext) - len ext)); [|lia]. cbn [bind].
  unfold str_from, str_to. split.
  - destruct (str_split_at _ _) as [[x y]| |] eqn:E; try discriminate.
    apply str_split_at_inv in E as [E1 E2]. cbn [bind]. intros [= ->].
    assert (str_len ((c :: a) ++ [0x2e] ++ ext) = str_len x + str_len ext)
      by (rewrite E1; apply str_len_app). lia.
  - destruct (str_split_at _ (_ - 1)) as [[x y]| |] eqn:E; try discriminate.
    apply str_split_at_inv in E as [E1 E2]. cbn [bind]. intros [= ->]. lia.
Qed.
Print Assumptions C40_non_ascii_extension_wrong.

(** The property as stated is false: "é.txt" and "a.é" panic, the extension of "a.éé" is
    reported as "é". *)
Theorem C40_no_panic_refuted :
  component_extension [0xe9; 0x2e; 0x74; 0x78; 0x74] = Panic /\
  component_extension [0x61; 0x2e; 0xe9] = Panic /\
  component_extension [0x61; 0x2e; 0xe9; 0xe9] = Ok (Some [0xe9]).
Proof. vm_compute. auto. Qed.
Print Assumptions C40_no_panic_refuted.

(** The names of ext, FAT and NTFS files, split by their elements: every name without a
    zero element, with any characters. *)
Theorem C40_file_system_names :
  forall name, Forall (fun e => e <> 0) name ->
  (no_extension name -> elements_file_stem name = Ok (Some name) /\
                        elements_extension name = Ok None) /\
  (forall stem extension, splits name stem extension ->
     elements_file_stem name = Ok (Some stem) /\ elements_extension name = Ok (Some extension)).
Proof.
  intros name Hz. unfold elements_file_stem, elements_extension.
  assert (Hid : forall l, Forall (fun e => e <> 0) l -> string_from_slice l = l).
  { intros l Hl. eapply before_nul_unique; [apply from_slice_ok|]. split; auto. }
  split.
  - intros H. unfold no_extension in H.
    assert (E : position 0x2e (rev (skipn 1 name)) = None).
    { apply position_none. rewrite <- in_rev. destruct name; auto. }
    rewrite E. auto.
  - intros stem ext H. apply splits_tail in H as (c & a & -> & -> & Hn).
    cbn [skipn]. rewrite position_rev by assumption. unfold sub_chk.
    change (c :: a ++ [0x2e] ++ ext) with ((c :: a) ++ [0x2e] ++ ext) in *.
    assert (El : len ((c :: a) ++ [0x2e] ++ ext) = len (c :: a) + (1 + len ext)).
    { rewrite !len_app. reflexivity. }
    rewrite El. set (n := len (c :: a)) in *.
    destruct (N.leb_spec (len ext) (n + (1 + len ext))); [|lia]. cbn [bind].
    replace (n + (1 + len ext) - len ext) with (n + 1) by lia.
    destruct (N.leb_spec 1 (n + 1)); [|lia]. cbn [bind].
    replace (n + 1 - 1) with n by lia. rewrite !slice_ok by lia. cbn [bind].
    apply Forall_app in Hz as [Hz1 Hz2]. apply Forall_app in Hz2 as [_ Hz2].
    replace (N.to_nat (n - 0)) with (length (c :: a)) by (unfold n, len; lia).
    change (N.to_nat 0) with 0%nat. rewrite skipn_O, firstn_app, firstn_all, Nat.sub_diag.
    rewrite firstn_O, app_nil_r, Hid by assumption. split; [reflexivity|].
    rewrite (app_assoc (c :: a)).
    replace (N.to_nat (n + 1)) with (length ((c :: a) ++ [0x2e]))
      by (rewrite app_length; unfold n, len; cbn [length]; lia).
    rewrite skipn_app, skipn_all, Nat.sub_diag, skipn_O. cbn [app].
    rewrite firstn_all2 by (unfold n, len; lia). now rewrite Hid.
Qed.
Print Assumptions C40_file_system_names.

(** and splitting them never panics. *)
Theorem C40_file_system_names_no_panic :
  forall name, elements_file_stem name <> Panic /\ elements_extension name <> Panic.
Proof.
  intros name. unfold elements_file_stem, elements_extension.
  destruct (position 0x2e (rev (skipn 1 name))) as [k|] eqn:E; [|split; discriminate].
  apply position_rev_inv in E as (a & b & E & _ & <-).
  assert (Hl : len b + 1 <= len name).
  { destruct name as [|c name]; cbn [skipn] in E; [destruct a; discriminate|].
    subst name. rewrite len_cons, !len_app. lia. }
  unfold sub_chk. destruct (N.leb_spec (len b) (len name)); [|lia]. cbn [bind].
  destruct (N.leb_spec 1 (len name - len b)); [|lia]. cbn [bind].
  rewrite !slice_ok by lia. split; discriminate.
Qed.
Print Assumptions C40_file_system_names_no_panic.

(** "archive.tar.gz" and ".bashrc" *)
Example C40_case :
  splits [97; 46; 116; 97; 114; 46; 103; 122] [97; 46; 116; 97; 114] [103; 122] /\
  component_file_stem [97; 46; 116; 97; 114; 46; 103; 122] = Ok (Some [97; 46; 116; 97; 114]) /\
  component_extension [46; 98; 97; 115; 104] = Ok None.
Proof.
  split; [|vm_compute; auto]. split; [reflexivity|]. split; [discriminate|].
  intros [H|[H|[]]]; discriminate.
Qed.
