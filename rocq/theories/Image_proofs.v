From Verif Require Import Base BaseLemmas Streams_model Streams_spec Streams_proofs Image_spec.
Ltac Zify.zify_post_hook ::= idtac.

Lemma len_map_seqN {A} (f : N -> A) o n : len (map f (seqN o n)) = N.of_nat n.
Proof. unfold len. rewrite map_length, seqN_length. reflexivity. Qed.
Lemma len_disk f size : len (disk_content f size) = size.
Proof. unfold disk_content. rewrite len_map_seqN. lia. Qed.

Lemma firstn_seqN k : forall n o, firstn k (seqN o n) = seqN o (Nat.min k n).
Proof.
  induction k as [|k IH]; intros n o; [reflexivity|]. destruct n as [|n]; [reflexivity|].
  cbn [seqN firstn Nat.min]. now rewrite IH.
Qed.
Lemma skipn_seqN k : forall n o, skipn k (seqN o n) = seqN (o + N.of_nat k) (n - k).
Proof.
  induction k as [|k IH]; intros n o.
  - cbn [skipn]. rewrite N.add_0_r, Nat.sub_0_r. reflexivity.
  - destruct n as [|n]; [reflexivity|]. cbn [seqN skipn Nat.sub]. rewrite IH. f_equal. lia.
Qed.
Lemma bytes_at_disk f size o n : o + n <= size -> bytes_at (disk_content f size) o n = map f (seqN o (N.to_nat n)).
Proof.
  intros H. unfold disk_content, bytes_at. rewrite skipn_map, firstn_map, skipn_seqN, firstn_seqN.
  f_equal. f_equal; lia.
Qed.
Lemma disk_ext f g size : (forall x, x < size -> f x = g x) -> disk_content f size = disk_content g size.
Proof. intros H. apply map_ext_in. intros x Hx. apply in_seqN in Hx. apply H. lia. Qed.

Lemma nth_skipn_N (l : list N) k i : nth i (skipn k l) 0 = nth (k + i) l 0.
Proof. revert l. induction k as [|k IH]; intros l; [reflexivity|]. destruct l; [destruct i; reflexivity|]. apply IH. Qed.
Lemma map_seqN_shift {A} (f : N -> A) d : forall n o, map f (seqN (d + o) n) = map (fun x => f (d + x)) (seqN o n).
Proof. induction n as [|n IH]; intros o; [reflexivity|]. cbn [seqN map]. rewrite <- IH. do 3 f_equal. lia. Qed.
Lemma bytes_at_file file o n : o + n <= len file -> bytes_at file o n = map (file_byte file) (seqN o (N.to_nat n)).
Proof.
  intros H. unfold bytes_at, file_byte. unfold len in H.
  replace (seqN o (N.to_nat n)) with (seqN (o + 0) (N.to_nat n)) by (f_equal; lia). rewrite map_seqN_shift.
  assert (E : forall m k, (k + m <= length file)%nat -> firstn m (skipn k file) = map (fun x => nth (N.to_nat (N.of_nat k + x)) file 0) (seqN 0 m)).
  { induction m as [|m IH]; intros k Hk; [reflexivity|].
    destruct (skipn k file) as [|b l] eqn:Es.
    { apply (f_equal (@length _)) in Es. rewrite skipn_length in Es. cbn in Es. lia. }
    cbn [firstn seqN map]. f_equal.
    - replace (N.to_nat (N.of_nat k + 0)) with (k + 0)%nat by lia. rewrite <- nth_skipn_N, Es. reflexivity.
    - assert (l = skipn (S k) file) as ->. { rewrite <- (Nat.add_1_l k), <- skipn_skipn, Es. reflexivity. }
      rewrite IH by lia. change (0 + 1) with (1 + 0). rewrite map_seqN_shift. apply map_ext. intros x. f_equal. lia. }
  rewrite E by lia. apply map_ext. intros x. f_equal. lia.
Qed.
Lemma seqN_split o a b : seqN o (a + b) = seqN o a ++ seqN (o + N.of_nat a) b.
Proof.
  revert o. induction a as [|a IH]; intros o; [cbn; now rewrite N.add_0_r|]. cbn [seqN app Nat.add]. rewrite IH.
  do 3 f_equal. lia.
Qed.
