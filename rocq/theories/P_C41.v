(** * C41: names of the segment files of an EWF image *)
From Verif Require Import Base BaseLemmas Paths_model Paths_spec Paths_proofs.

(** The base letter and the first letter of a schema *)
Definition schema_base (s : naming_schema) : N :=
  match s with E01UpperCase | S01UpperCase => 0x41 | _ => 0x61 end.
Definition schema_first (s : naming_schema) : N :=
  match s with E01UpperCase => 0x45 | S01UpperCase => 0x53 | E01LowerCase => 0x65 | S01LowerCase => 0x73 end.

Lemma nth_seqN s n i : nth_error (seqN s n) i = if (i <? n)%nat then Some (s + N.of_nat i) else None.
Proof.
  destruct (Nat.ltb_spec i n); [now apply nth_error_seqN|].
  apply nth_error_None. now rewrite seqN_length.
Qed.

(** Segment [n] has the [n]-th extension of the sequence E01 .. E99, EAA .. EZZ, FAA .. ZZZ
    of its schema; segment 0 and the numbers behind the sequence are rejected. *)
Theorem C41_follows_the_sequence :
  forall schema n,
  get_segment_file_extension n schema =
    if n =? 0 then Err
    else of_option (nth_error (extensions (schema_base schema) (schema_first schema))
                      (N.to_nat (n - 1))).
Proof.
  intros schema n. unfold get_segment_file_extension.
  destruct (N.eqb_spec n 0) as [->|Hn]; [reflexivity|]. cbn [negb check bind].
  unfold extensions, numbered, lettered.
  assert (Ll : forall base, length (letters base) = 26%nat) by (intros; apply seqN_length).
  destruct (N.ltb_spec n 100) as [Hlt|Hge].
  - rewrite nth_error_app1 by (rewrite map_length, seqN_length; lia).
    rewrite nth_error_map, nth_seqN.
    replace (N.to_nat (n - 1) <? 99)%nat with true by lia. cbn [option_map of_option bind].
    replace (1 + N.of_nat (N.to_nat (n - 1))) with n by lia. unfold digit, idx.
    destruct schema; reflexivity.
  - rewrite nth_error_app2 by (rewrite map_length, seqN_length; lia).
    rewrite map_length, seqN_length.
    replace (N.to_nat (n - 1) - 99)%nat with (N.to_nat (n - 100)) by lia.
    rewrite (nth_error_flat_map_uniform _ (26 * 26)).
    2: lia.
    2: { intros x _.
         enough (G : forall l, length (flat_map (fun c1 => map (fun c2 => [x; c1; c2])
                                 (letters (schema_base schema))) l) = (length l * 26)%nat)
           by (rewrite G, Ll; reflexivity).
         induction l as [|y l IH]; [reflexivity|].
         cbn [flat_map length]. rewrite app_length, IH, map_length, Ll. lia. }
    rewrite nth_seqN. unfold sub_chk. destruct (N.leb_spec 100 n); [|lia]. cbn [bind].
    set (m := n - 100).
    assert (E1 : (N.to_nat m / (26 * 26))%nat = N.to_nat (m / 26 / 26)).
    { rewrite N.div_div by lia. change (26 * 26) with 676. change (26 * 26)%nat with 676%nat. lia. }
    rewrite E1. unfold idx. cbn [nth_error N.to_nat bind].
    set (k := m / 26 / 26). set (f := schema_first schema). set (b := schema_base schema).
    assert (Hf : match schema with E01UpperCase => 69 | S01UpperCase => 83 | E01LowerCase => 101
                   | S01LowerCase => 115 end = f) by (destruct schema; reflexivity).
    assert (Hb : match schema with E01UpperCase | S01UpperCase => 65 | _ => 97 end = b)
      by (destruct schema; reflexivity).
    assert (Hl : match schema with E01UpperCase | S01UpperCase => 90 | _ => 122 end = b + 25)
      by (destruct schema; reflexivity).
    rewrite Hf, Hb, Hl.
    assert (Hfb : f <= b + 25) by (destruct schema; cbn; lia).
    destruct (Nat.ltb_spec (N.to_nat k) (N.to_nat (b + 26 - f))) as [Hk|Hk].
    + replace (b + 25 <? f + k) with false by lia. cbn [negb check bind].
      rewrite (nth_error_flat_map_uniform _ 26);
        [|lia|intros; now rewrite map_length, Ll].
      unfold letters. rewrite nth_seqN.
      assert (E2 : (N.to_nat m mod (26 * 26) / 26)%nat = N.to_nat (m / 26 mod 26)).
      { change (26 * 26)%nat with 676%nat. clear. lia. }
      assert (E3 : ((N.to_nat m mod (26 * 26)) mod 26)%nat = N.to_nat (m mod 26)).
      { change (26 * 26)%nat with 676%nat. clear. lia. }
      rewrite E2, E3.
      replace (N.to_nat ((m / 26) mod 26) <? 26)%nat with true by (clear; lia).
      rewrite nth_error_map, nth_seqN.
      replace (N.to_nat (m mod 26) <? 26)%nat with true by (clear; lia).
      cbn [option_map of_option]. rewrite !N2Nat.id. reflexivity.
    + replace (b + 25 <? f + k) with true by lia. reflexivity.
Qed.
Print Assumptions C41_follows_the_sequence.

Lemma list3_inv (a b c a' b' c' : N) : [a; b; c] = [a'; b'; c'] -> a = a' /\ b = b' /\ c = c'.
Proof. intros [= -> -> ->]. auto. Qed.

(** Different segments of an image have different extensions. *)
Theorem C41_distinct :
  forall schema n m extension,
  get_segment_file_extension n schema = Ok extension ->
  get_segment_file_extension m schema = Ok extension -> n = m.
Proof.
  intros schema n m e. unfold get_segment_file_extension.
  destruct (N.eqb_spec n 0) as [->|Hn]; [discriminate|].
  destruct (N.eqb_spec m 0) as [->|Hm]; [discriminate|]. cbn [negb check bind].
  set (f := match schema with E01UpperCase => 69 | S01UpperCase => 83 | E01LowerCase => 101
                   | S01LowerCase => 115 end).
  set (b := match schema with E01UpperCase | S01UpperCase => 65 | _ => 97 end).
  set (l := match schema with E01UpperCase | S01UpperCase => 90 | _ => 122 end).
  assert (Hb : 65 <= b) by (destruct schema; cbn; lia). clearbody f b l.
  assert (R : forall n, n <> 0 -> forall e,
    (extension <- (if n <? 100 then Ok [f; 48 + n / 10; 48 + n mod 10]
      else extension_segment_number <- sub_chk n 100 ;;
        Ok [f + extension_segment_number / 26 / 26; b + (extension_segment_number / 26) mod 26;
            b + extension_segment_number mod 26]) ;;
      c0 <- idx extension 0 ;; check (negb (l <? c0)) ;;; Ok extension) = Ok e ->
    (n < 100 /\ e = [f; 48 + n / 10; 48 + n mod 10]) \/
    (100 <= n /\ e = [f + (n - 100) / 26 / 26; b + ((n - 100) / 26) mod 26; b + (n - 100) mod 26])).
  { clear. intros n Hn e. destruct (N.ltb_spec n 100).
    - cbn [bind idx nth_error N.to_nat]. destruct (l <? f); [discriminate|]. intros [= <-]. left. auto.
    - unfold sub_chk. destruct (N.leb_spec 100 n); [|lia]. cbn [bind idx nth_error N.to_nat].
      destruct (l <? _); [discriminate|]. intros [= <-]. right. auto. }
  intros H1 H2. apply R in H1; [|assumption]. apply R in H2; [|assumption].
  destruct H1 as [[L1 ->]|[L1 ->]], H2 as [[L2 E]|[L2 E]].
  - apply list3_inv in E as (_ & E2 & E3). clear - E2 E3 L1 L2. lia.
  - apply list3_inv in E as (E1 & E2 & E3). clear - E2 Hb L1. lia.
  - apply list3_inv in E as (E1 & E2 & E3). clear - E2 Hb L2. lia.
  - apply list3_inv in E as (E1 & E2 & E3). clear R l. revert E1 E2 E3. set (x := n - 100). set (y := m - 100).
    assert (x = y -> n = m) by (unfold x, y; clear - L1 L2; lia). intros. apply H.
    clear - E1 E2 E3. lia.
Qed.
Print Assumptions C41_distinct.

(** The number of segments each schema can name: 14971 for E01, 5507 for S01. *)
Theorem C41_limits :
  forall schema n,
  get_segment_file_extension n schema <> Panic /\
  (get_segment_file_extension n schema = Err <->
   n = 0 \/ match schema with E01UpperCase | E01LowerCase => 14972 | _ => 5508 end <= n).
Proof.
  intros schema n. rewrite C41_follows_the_sequence. destruct (N.eqb_spec n 0) as [->|Hn].
  - split; [discriminate|]. split; auto.
  - assert (L : len (extensions (schema_base schema) (schema_first schema)) =
      match schema with E01UpperCase | E01LowerCase => 14971 | _ => 5507 end)
      by (destruct schema; vm_compute; reflexivity). unfold len in L.
    destruct (nth_error _ _) eqn:E; cbn [of_option].
    + split; [discriminate|]. split; [discriminate|]. intros [H|H]; [contradiction|].
      assert (Hs : nth_error (extensions (schema_base schema) (schema_first schema)) (N.to_nat (n - 1)) <> None)
        by congruence.
      apply nth_error_Some in Hs. destruct schema; lia.
    + split; [discriminate|]. split; auto. intros _. right.
      apply nth_error_None in E. destruct schema; lia.
Qed.
Print Assumptions C41_limits.

(** E01, E99, EAA, EBA, FAA, ZZZ *)
Example C41_case :
  map (fun n => get_segment_file_extension n E01UpperCase) [1; 99; 100; 126; 776; 14971] =
  map Ok [[69; 48; 49]; [69; 57; 57]; [69; 65; 65]; [69; 66; 65]; [70; 65; 65]; [90; 90; 90]].
Proof. vm_compute. reflexivity. Qed.
