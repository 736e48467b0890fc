(** * C52: an ext file system shows its directories, paths and files *)
From Coq Require Import Permutation Sorted.
From Verif Require Import Base BaseLemmas Bytes_model Streams_model Streams_spec Streams_proofs Blocks_model.
From Verif Require Import Strings_model Strings_spec Part_model Part_spec Checksums_spec Ext_model Ext_spec Headers_model Headers_spec Headers_proofs.
From Verif Require Import ExtFs_model ExtFs_spec ExtFs_proofs ExtFs2_proofs.
Ltac Zify.zify_post_hook ::= idtac.

Lemma open_opened volume fs : ext_volume volume -> ext_open volume = Ok fs -> opened volume fs.
Proof. intros HV E. destruct (open_ok volume HV) as (fs' & E' & HO & _). rewrite E in E'. now injection E' as <-. Qed.

(** A volume whose superblock, features and tables of group descriptors are right is opened, and
    its label is the one in the superblock. Missing: volumes whose checksums have a seed of
    their own (refuted below), and those with meta groups. *)
Theorem C52_open_partial :
  forall volume, ext_volume volume ->
  exists fs, ext_open volume = Ok fs /\
    xf_label fs = match es_label (superblock volume) with [] => None | l => Some l end.
Proof. intros volume HV. destruct (open_ok volume HV) as (fs & E & _ & L). eauto. Qed.
Print Assumptions C52_open_partial.

(** The file of an inode number is the one of that inode; other numbers are errors. *)
Theorem C52_identifier_partial :
  forall volume fs, ext_volume volume -> ext_open volume = Ok fs ->
  (forall i inode blocks, file_at volume i inode blocks -> i <= es_inodes (superblock volume) ->
    exists e, ext_by_identifier volume fs i = Ok e /\ xe_number e = i /\ xe_name e = None /\ xe_inode e = inode) /\
  (forall i, i = 0 \/ es_inodes (superblock volume) < i -> ext_by_identifier volume fs i = Err) /\
  (forall inode blocks, file_at volume 2 inode blocks -> 2 <= es_inodes (superblock volume) ->
    exists e, ext_root volume fs = Ok (Some e) /\ xe_number e = 2 /\ xe_name e = None /\ xe_inode e = inode).
Proof.
  intros volume fs HV E. pose proof (open_opened volume fs HV E) as HO. split; [|split].
  - intros i inode blocks HF Hi. destruct (by_identifier_ok volume fs i inode blocks HV HO HF Hi) as (e & Ee & A1 & A2). exists e.
    repeat match goal with |- _ /\ _ => split end; trivial.
    rewrite <- A1 in HF. apply (entry_values volume fs e inode blocks HV HO); [|exact HF]. apply (obtained_ok volume fs HV HO). now apply from_identifier with i.
  - intros i Hi. unfold ext_by_identifier. rewrite (opened_superblock _ _ HO), unsupported_ok by apply HV. cbn [negb check bind].
    destruct (N.eqb_spec i 0); [reflexivity|]. destruct (N.ltb_spec (es_inodes (superblock volume)) i); [reflexivity|lia].
  - intros inode blocks HF H2. destruct (root_ok volume fs HV HO inode blocks HF H2) as (e & Ee & (A1 & A2) & OK). exists e.
    repeat match goal with |- _ /\ _ => split end; trivial. rewrite <- A1 in HF. now apply (entry_values volume fs e inode blocks HV HO).
Qed.
Print Assumptions C52_identifier_partial.

(** A directory shows the records that are in use, whatever was asked before: their number, each
    of them by index in the order of the names, and each of them by its name. Missing: names in
    another encoding than that of the volume, and those directories of [C52_holes_refuted] and
    [C52_inline_refuted]. *)
Theorem C52_directory_partial :
  forall volume fs e rs, ext_volume volume -> ext_open volume = Ok fs ->
  obtained volume fs e -> directory volume (xe_number e) rs ->
  snd (ext_number_of_entries volume (xf_table fs) e) = Ok (len (filter listed rs)) /\
  (exists order, Permutation order (filter listed rs) /\ StronglySorted before order /\
    forall k, match nth_error order (N.to_nat k) with
      | Some r => forall inode blocks, file_at volume (rc_inode r) inode blocks ->
          exists e', snd (ext_entry_by_index volume (xf_table fs) e k) = Ok e' /\
            xe_number e' = rc_inode r /\ xe_name e' = Some (rc_name r)
      | None => snd (ext_entry_by_index volume (xf_table fs) e k) = Err
      end) /\
  (forall name, match named rs name with
    | Some r => forall inode blocks, file_at volume (rc_inode r) inode blocks ->
        exists e', snd (ext_entry_by_name volume (xf_table fs) e name) = Ok (Some e') /\
          xe_number e' = rc_inode r /\ xe_name e' = Some name
    | None => snd (ext_entry_by_name volume (xf_table fs) e name) = Ok None
    end).
Proof.
  intros volume fs e rs HV E HE HD. pose proof (open_opened volume fs HV E) as HO. pose proof (obtained_ok volume fs HV HO e HE) as OK.
  split; [|split].
  - now apply count_ok.
  - now apply order_ok.
  - intros name. now apply name_ok.
Qed.
Print Assumptions C52_directory_partial.

(** A path leads to the file that its names lead to from inode 2 on, and to nothing if one of them
    is missing or asked of something that is no directory. *)
Theorem C52_paths_partial :
  forall volume fs path to, ext_volume volume -> ext_open volume = Ok fs ->
  2 <= es_inodes (superblock volume) -> leads volume 2 path to ->
  match to with
  | Some j => exists e, ext_by_path volume fs ([] :: path) = Ok (Some e) /\ xe_number e = j /\
      xe_name e = match path with [] => None | _ => Some (last path []) end
  | None => ext_by_path volume fs ([] :: path) = Ok None
  end.
Proof.
  intros volume fs path to HV E H2 HL. pose proof (by_path_ok volume fs path to HV (open_opened volume fs HV E) H2 HL) as Q.
  assert (X : forall p a, last_name a p = match p with [] => a | _ => Some (last p []) end).
  { induction p as [|x p IH]; intros a; [reflexivity|]. cbn [last_name fold_left]. fold (last_name (Some x) p). rewrite IH. now destruct p. }
  destruct to as [j|]; [|exact Q]. destruct Q as (e & Ee & A1 & A2). exists e. split; [exact Ee|]. split; [exact A1|]. rewrite A2. apply X.
Qed.
Print Assumptions C52_paths_partial.

(** Paths that do not start at the root lead to nothing. *)
Theorem C52_relative_paths :
  forall volume fs name path, name <> [] -> ext_by_path volume fs (name :: path) = Ok None /\ ext_by_path volume fs [] = Ok None.
Proof. intros volume fs [|a name] path H; [contradiction|]. split; reflexivity. Qed.
Print Assumptions C52_relative_paths.

(** The kind, size and device number of a file are those of its inode, and its content, read in any
    order, is that of its blocks, zeros for the holes, cut at its size; content in the inode is
    that of the inode. Missing: content in the inode of more than 60 bytes (refuted below). *)
Theorem C52_file_partial :
  forall volume fs e inode blocks, ext_volume volume -> ext_open volume = Ok fs ->
  obtained volume fs e -> file_at volume (xe_number e) inode blocks ->
  let size := xi_size inode in
  let inside := Forall (fun b => b = 0 \/ b * block_size volume + block_size volume <= len volume) blocks in
  let content := if is_inline inode then bytes_at (xi_reference inode) 0 size else blocks_content volume (block_size volume) blocks size in
  xe_inode e = inode /\ ext_is_directory e = is_directory inode /\
  ext_size e = (if is_regular inode || is_link inode then size else 0) /\
  ext_device e = (if is_device inode then if size <=? 2 then Ok (Some (field (xi_reference inode) 0 2)) else Err else Ok None) /\
  ((if is_inline inode then size <= 60 else inside) ->
    if is_regular inode
    then exists data, ext_data_stream (xf_table fs) e = Ok (Some data) /\
      forall ops, seeks_ok size content 0 ops ->
      snd (run (ext_data_step volume data) (tt, 0) ops) = snd (run (file_step size content) 0 ops)
    else ext_data_stream (xf_table fs) e = Ok None) /\
  (inside \/ size < 60 ->
    ext_link_target volume (xf_table fs) e =
      if is_link inode then if size <=? block_size volume then Ok (Some (link_text volume inode blocks)) else Err else Ok None).
Proof.
  intros volume fs e inode blocks HV E HE HF. cbv zeta. pose proof (open_opened volume fs HV E) as HO. pose proof (obtained_ok volume fs HV HO e HE) as OK.
  destruct (entry_values volume fs e inode blocks HV HO OK HF) as (V1 & V2 & V3 & V4).
  repeat match goal with |- _ /\ _ => split end; trivial.
  - now apply (data_ok volume fs e inode blocks).
  - now apply (link_ok volume fs e inode blocks).
Qed.
Print Assumptions C52_file_partial.

(** ** A volume *)
Definition fill (n : nat) (l : list N) : list N := firstn n (l ++ repeat 0 n).
Definition put (o : nat) (l data : list N) : list N := firstn o data ++ l ++ skipn (o + length l) data.
Definition super (incompatible read_only inode_size : N) : list N :=
  put 0 (le_bytes 4 8) (put 4 (le_bytes 4 7) (put 32 (le_bytes 4 8192) (put 40 (le_bytes 4 8) (put 56 [0x53; 0xef]
  (put 76 (le_bytes 4 1) (put 88 (le_bytes 2 inode_size) (put 96 (le_bytes 4 incompatible) (put 100 (le_bytes 4 read_only)
  (put 120 [0x68; 0x6f; 0x6d; 0x65] (repeat 0 1024)))))))))).
Definition descriptors (checksum : N) : list N := fill 1024 (repeat 0 8 ++ le_bytes 4 3 ++ repeat 0 18 ++ le_bytes 2 checksum).
Definition inode_of (mode size sectors flags : N) (reference : list N) : list N :=
  fill 128 (le_bytes 2 mode ++ repeat 0 2 ++ le_bytes 4 size ++ repeat 0 16 ++ le_bytes 2 0 ++ le_bytes 2 1 ++
    le_bytes 4 sectors ++ le_bytes 4 flags ++ repeat 0 4 ++ reference).
Definition record_of (inode size type : N) (name : list N) : list N :=
  fill (N.to_nat size) (le_bytes 4 inode ++ le_bytes 2 size ++ [len name; type] ++ name).
(** Blocks of 1024 bytes: the superblock is in block 1, its descriptor in block 2, eight inodes in
    block 3. Inode 2 is the root directory (block 4), inode 3 a file of 2500 bytes (block 5, then a
    hole, then block 4 again), inode 4 a directory (block 6), 5 a link and 6 a device. *)
Definition inode_table : list N :=
  fill 128 [] ++ inode_of 0x41ed 1024 2 0 (le_bytes 4 4) ++ inode_of 0x81a4 2500 6 0 (le_bytes 4 5 ++ le_bytes 4 0 ++ le_bytes 4 4) ++
  inode_of 0x41ed 1024 2 0 (le_bytes 4 6) ++ inode_of 0xa1ff 3 0 0 [0x62; 0x2f; 0x61] ++ inode_of 0x21a4 0 0 0 (le_bytes 2 0x103) ++ repeat 0 256.
Definition root_block : list N :=
  record_of 2 12 2 [0x2e] ++ record_of 2 12 2 [0x2e; 0x2e] ++ record_of 5 16 7 [0x6c] ++ record_of 0 16 1 [0x78] ++
  record_of 4 12 2 [0x62] ++ record_of 3 956 1 [0x61].
Definition sub_block : list N := record_of 4 12 2 [0x2e] ++ record_of 2 12 2 [0x2e; 0x2e] ++ record_of 3 1000 1 [0x61].
Definition home : list N := Eval vm_compute in
  repeat 0 1024 ++ super 2 1 128 ++ descriptors 0 ++ inode_table ++ root_block ++ repeat 7 1024 ++ sub_block.
Lemma home_volume : ext_volume home.
Proof.
  split; [split; [apply wf_bytesb_iff; vm_compute; reflexivity|vm_compute; reflexivity]|].
  repeat match goal with |- _ /\ _ => split end.
  - split; vm_compute; [discriminate|reflexivity].
  - intros bit. replace (es_incompatible (superblock home)) with (2 ^ 1) by (vm_compute; reflexivity). unfold flag.
    rewrite N.pow2_bits_eqb. intros H. apply N.eqb_eq in H. subst. now left.
  - vm_compute; discriminate.
  - vm_compute; discriminate.
  - vm_compute; discriminate.
  - left. vm_compute; reflexivity.
  - vm_compute; reflexivity.
  - vm_compute; reflexivity.
  - vm_compute; reflexivity.
  - intros g Hg _. replace (groups home) with 1 in Hg by (vm_compute; reflexivity). assert (g = 0) as -> by lia. split; [vm_compute; discriminate|].
    intros k Hk. replace (groups home) with 1 in Hk by (vm_compute; reflexivity). assert (k = 0) as -> by lia. split; [vm_compute; discriminate|].
    replace (checksums home) with false by (vm_compute; reflexivity). discriminate.
Qed.
Definition node (i : N) : ext_inode := ext_inode_of 2 (inode_bytes home i) 0.
Lemma mapped_direct volume bs n reference : n <= 12 -> 12 <= len (words reference) ->
  mapped_blocks volume bs n reference = firstn (N.to_nat n) (words reference).
Proof.
  intros Hn Hl. unfold mapped_blocks. cbv zeta. rewrite firstn_app, firstn_firstn, firstn_length_le by (unfold len in Hl; lia).
  replace (N.to_nat n - 12)%nat with O by lia. cbn [firstn]. rewrite app_nil_r. f_equal. lia.
Qed.
Lemma home_file i blocks : In i [2; 3; 4; 5; 6] -> blocks = (if is_device (node i) then [] else firstn (N.to_nat (blocks_total home (node i))) (words (xi_reference (node i)))) ->
  file_at home i (node i) blocks.
Proof.
  intros Hi ->. assert (H : (1 <=? i) && ((i - 1) / es_inodes_per_group (superblock home) <? groups home) && (i <? 2 ^ 32) &&
    (inode_offset home i + es_inode_size (superblock home) <=? len home) && (len (inode_bytes home i) =? 128) &&
    (blocks_total home (node i) * block_size home <? 2 ^ 63) && (blocks_total home (node i) <=? 12) && (12 <=? len (words (xi_reference (node i)))) = true).
  { cbn [In] in Hi. repeat (destruct Hi as [<-|Hi]; [vm_compute; reflexivity|]). contradiction. }
  repeat (apply andb_prop in H as [H ?H]). unfold file_at.
  repeat match goal with |- _ /\ _ => split end; try (now apply N.leb_le); try (now apply N.ltb_lt).
  - exists 0. split; [|reflexivity]. unfold inode_attributes. apply N.eqb_eq in H3. rewrite H3. reflexivity.
  - replace (checksums home) with false by (vm_compute; reflexivity). discriminate.
  - unfold file_blocks. split; [now apply N.ltb_lt|]. destruct (is_device (node i)); [reflexivity|].
    replace (version home) with 2 by (vm_compute; reflexivity). cbn [N.eqb Pos.eqb andb]. apply N.leb_le in H0, H1. split; [lia|].
    symmetry. now apply mapped_direct.
Qed.
Definition rec (i size type : N) (name : list N) : record := {| rc_inode := i; rc_size := size; rc_type := type; rc_name := name |}.
Definition root_records : list record := [rec 2 12 2 [0x2e]; rec 2 12 2 [0x2e; 0x2e]; rec 5 16 7 [0x6c]; rec 0 16 1 [0x78]; rec 4 12 2 [0x62]; rec 3 956 1 [0x61]].
Definition sub_records : list record := [rec 4 12 2 [0x2e]; rec 2 12 2 [0x2e; 0x2e]; rec 3 1000 1 [0x61]].
Fixpoint records_b (data : list N) (o : N) (rs : list record) : bool :=
  match rs with
  | [] => o =? len data
  | r :: rs =>
      (rc_inode r =? field data o 4) && (rc_size r =? field data (o + 4) 2) && (rc_type r =? byte data (o + 7)) &&
      (if list_eq_dec N.eq_dec (rc_name r) (bytes_at data (o + 8) (byte data (o + 6))) then true else false) &&
      (8 + byte data (o + 6) <=? rc_size r) && (o + rc_size r <=? len data) && forallb (fun c => negb (c =? 0)) (rc_name r) &&
      records_b data (o + rc_size r) rs
  end.
Lemma records_b_ok data : forall rs o, records_b data o rs = true -> records data o rs.
Proof.
  induction rs as [|r rs IH]; intros o H; cbn [records_b] in H.
  - apply N.eqb_eq in H. subst. constructor.
  - repeat (apply andb_prop in H as [H ?H]). constructor; [|now apply IH].
    destruct (list_eq_dec _ _ _) as [E|] in *; [|discriminate].
    repeat match goal with |- record_at _ _ _ => unfold record_at | |- _ /\ _ => split end; try (now apply N.eqb_eq); try (now apply N.leb_le); trivial.
    right. intros X. rewrite forallb_forall in H1. specialize (H1 0 X). discriminate.
Qed.
Lemma home_root : directory home 2 root_records.
Proof.
  exists (node 2), [4; 0]. split; [apply home_file; [now left|vm_compute; reflexivity]|]. split; [vm_compute; reflexivity|]. split.
  - vm_compute. repeat constructor; cbn [In]; intuition discriminate.
  - replace (is_inline (node 2)) with false by (vm_compute; reflexivity). exists [4], 1%nat. split; [reflexivity|]. split; [cbn [In]; intuition discriminate|].
    rewrite <- (app_nil_r root_records). constructor; [vm_compute; discriminate| |constructor]. apply records_b_ok. vm_compute; reflexivity.
Qed.
Lemma home_sub : directory home 4 sub_records.
Proof.
  exists (node 4), [6; 0]. split; [apply home_file; [cbn [In]; tauto|vm_compute; reflexivity]|]. split; [vm_compute; reflexivity|]. split.
  - vm_compute. repeat constructor; cbn [In]; intuition discriminate.
  - replace (is_inline (node 4)) with false by (vm_compute; reflexivity). exists [6], 1%nat. split; [reflexivity|]. split; [cbn [In]; intuition discriminate|].
    rewrite <- (app_nil_r sub_records). constructor; [vm_compute; discriminate| |constructor]. apply records_b_ok. vm_compute; reflexivity.
Qed.
(** The volume meets what the theorems ask: /b/a leads to inode 3 and is read through its hole,
    /l is a link to b/a, /b/x and /a/a lead to nothing. *)
Example C52_example :
  ext_volume home /\ directory home 2 root_records /\ map rc_name (filter listed root_records) = [[0x6c]; [0x62]; [0x61]] /\
  leads home 2 [[0x62]; [0x61]] (Some 3) /\ leads home 2 [[0x62]; [0x78]] None /\ leads home 2 [[0x61]; [0x61]] None /\
  file_at home 3 (node 3) [5; 0; 4; 0; 0; 0] /\ is_regular (node 3) = true /\ xi_size (node 3) = 2500 /\
  file_at home 5 (node 5) [0x612f62] /\ link_text home (node 5) [0x612f62] = [0x62; 0x2f; 0x61] /\
  exists fs, ext_open home = Ok fs /\ xf_label fs = Some [0x68; 0x6f; 0x6d; 0x65] /\
    (exists e, ext_by_path home fs [[]; [0x62]; [0x61]] = Ok (Some e) /\ xe_number e = 3 /\ xe_name e = Some [0x61] /\
      exists data, ext_data_stream (xf_table fs) e = Ok (Some data) /\
        snd (run (ext_data_step home data) (tt, 0) [Seek (SeekStart 1020); Read 8]) = [Position (Ok 1020); Data (Ok [7; 7; 7; 7; 0; 0; 0; 0])]).
Proof.
  pose proof home_volume as HV. pose proof home_root as HR. pose proof home_sub as HS.
  assert (F3 : file_at home 3 (node 3) [5; 0; 4; 0; 0; 0]) by (apply home_file; [cbn [In]; tauto|vm_compute; reflexivity]).
  assert (L : leads home 2 [[0x62]; [0x61]] (Some 3)).
  { apply leads_inside with root_records (rec 4 12 2 [0x62]); [exact HR|reflexivity|]. apply leads_inside with sub_records (rec 3 1000 1 [0x61]); [exact HS|reflexivity|].
    now apply leads_here with (node 3) [5; 0; 4; 0; 0; 0]. }
  split; [exact HV|]. split; [exact HR|]. split; [reflexivity|]. split; [exact L|]. split.
  { apply leads_inside with root_records (rec 4 12 2 [0x62]); [exact HR|reflexivity|]. now apply leads_missing with sub_records. }
  split.
  { apply leads_inside with root_records (rec 3 956 1 [0x61]); [exact HR|reflexivity|].
    apply leads_no_directory with (node 3) [5; 0; 4; 0; 0; 0]; [exact F3|vm_compute; reflexivity]. }
  split; [exact F3|]. split; [vm_compute; reflexivity|]. split; [vm_compute; reflexivity|].
  split; [apply home_file; [cbn [In]; tauto|vm_compute; reflexivity]|]. split; [vm_compute; reflexivity|].
  destruct (C52_open_partial home HV) as (fs & E & Lb). exists fs. split; [exact E|]. split; [rewrite Lb; vm_compute; reflexivity|].
  destruct (C52_paths_partial home fs _ _ HV E ltac:(vm_compute; discriminate) L) as (e & Ee & N1 & N2). exists e.
  split; [exact Ee|]. split; [exact N1|]. split; [exact N2|]. assert (F : file_at home (xe_number e) (node 3) [5; 0; 4; 0; 0; 0]) by (rewrite N1; exact F3).
  destruct (C52_file_partial home fs e _ _ HV E (from_path _ _ _ _ Ee) F) as (_ & _ & _ & _ & D & _).
  replace (is_inline (node 3)) with false in D by (vm_compute; reflexivity). replace (is_regular (node 3)) with true in D by (vm_compute; reflexivity).
  cbv iota in D. destruct D as (data & D1 & D2).
  { apply Forall_cons; [right; vm_compute; discriminate|]. apply Forall_cons; [left; reflexivity|]. apply Forall_cons; [right; vm_compute; discriminate|].
    repeat (apply Forall_cons; [left; reflexivity|]). apply Forall_nil. }
  exists data. split; [exact D1|]. rewrite D2; [vm_compute; reflexivity|].
  split; [split; [discriminate|reflexivity]|]. split; exact I.
Qed.

(** ** What is wrong *)
Definition variant (superblock descriptors table root : list N) : list N :=
  repeat 0 1024 ++ superblock ++ descriptors ++ table ++ root ++ repeat 7 1024 ++ sub_block.
Definition opens {A} (volume : list N) (ask : ext_fs -> res A) : res A := fs <- ext_open volume ;; ask fs.
Definition root_names (volume : list N) : res (list (list N)) :=
  opens volume (fun fs => e <- ext_by_identifier volume fs 2 ;;
    let '(e, r) := ext_number_of_entries volume (xf_table fs) e in r ;;; Ok (map fst (xe_entries e))).

(** The seed of the checksums is in the superblock if a feature says so, for volumes whose
    identifier was changed. The reader takes that of the identifier all the same, and does not
    open this volume, whose only checksum is right. *)
Definition reseeded : list N := Eval vm_compute in
  variant (put 373 [1] (put 624 (le_bytes 4 5) (super 0x2002 0x401 128)))
    (descriptors (seeded (2 ^ 32 - 1 - 5) (le_bytes 4 0 ++ bytes_at (descriptors 0) 0 32) mod 2 ^ 16)) inode_table root_block.
Theorem C52_seed_refuted :
  superblock_ok reseeded /\ checksums reseeded = true /\ flag (es_incompatible (superblock reseeded)) 13 = true /\
  (exists seed, es_seed (superblock reseeded) = Some seed /\
    let d := descriptor reseeded 0 0 in
    field d 30 2 = seeded seed (le_bytes 4 0 ++ bytes_at d 0 30 ++ [0; 0]) mod 2 ^ 16 /\ field d 30 2 <> 0) /\
  groups reseeded = 1 /\ ext_open reseeded = Err.
Proof.
  split; [split; vm_compute; [discriminate|reflexivity]|]. split; [vm_compute; reflexivity|]. split; [vm_compute; reflexivity|].
  split; [|split; vm_compute; reflexivity]. eexists. split; [vm_compute; reflexivity|]. vm_compute. split; [reflexivity|discriminate].
Qed.
Print Assumptions C52_seed_refuted.

(** Inodes of revision 0 have 128 bytes, and the superblock does not say so: no such volume is
    opened, if its superblock has zeros there: the reader panics. *)
Definition revision0 : list N := Eval vm_compute in
  variant (put 76 (le_bytes 4 0) (super 0 0 0)) (descriptors 0) inode_table root_block.
Theorem C52_revision0_refuted :
  superblock_ok revision0 /\ es_revision (superblock revision0) = 0 /\ es_inode_size (superblock revision0) = 0 /\
  firstn 1024 (skipn 3072 revision0) = firstn 1024 (skipn 3072 home) /\ ext_open revision0 = Panic.
Proof. split; [split; vm_compute; [discriminate|reflexivity]|]. repeat split; vm_compute; reflexivity. Qed.
Print Assumptions C52_revision0_refuted.

(** A damaged copy of the group descriptors keeps a volume from being opened, though the first
    superblock and the descriptors behind it, of both groups, are right. *)
Definition damaged_copy : list N := Eval vm_compute in
  variant (put 373 [1] (put 32 (le_bytes 4 4) (super 2 0x400 128))) (fill 1024 (firstn 32 (descriptors 0) ++ firstn 32 (descriptors 0))) inode_table root_block.
Theorem C52_copies_refuted :
  superblock_ok damaged_copy /\ groups damaged_copy = 2 /\ table_ok damaged_copy 0 /\
  has_backup damaged_copy 1 /\ ext_open damaged_copy = Err.
Proof.
  split; [split; vm_compute; [discriminate|reflexivity]|]. split; [vm_compute; reflexivity|]. split.
  { split; [vm_compute; discriminate|]. intros k Hk. replace (groups damaged_copy) with 2 in Hk by (vm_compute; reflexivity).
    assert (k = 0 \/ k = 1) as [-> | ->] by lia; (split; [vm_compute; discriminate|]); intros _; left; vm_compute; reflexivity. }
  split; [|vm_compute; reflexivity]. right. left. vm_compute. reflexivity.
Qed.
Print Assumptions C52_copies_refuted.

(** The blocks of a directory after a hole are not read: the root directory of this volume has its
    records in block 4, a hole, and more in block 6. *)
Definition hole_inside : list N := Eval vm_compute in
  variant (super 2 1 128) (descriptors 0)
    (fill 128 [] ++ inode_of 0x41ed 3072 4 0 (le_bytes 4 6 ++ le_bytes 4 0 ++ le_bytes 4 4) ++ skipn 256 inode_table) root_block.
Theorem C52_holes_refuted :
  ext_inode_read 2 (inode_bytes hole_inside 2) = Ok (ext_inode_of 2 (inode_bytes hole_inside 2) 0) /\
  firstn 3 (words (xi_reference (ext_inode_of 2 (inode_bytes hole_inside 2) 0))) = [6; 0; 4] /\
  xi_size (ext_inode_of 2 (inode_bytes hole_inside 2) 0) = 3 * block_size hole_inside /\
  records (block_at hole_inside 1024 4) 0 root_records /\ root_names hole_inside = Ok [[0x61]].
Proof.
  split; [vm_compute; reflexivity|]. split; [vm_compute; reflexivity|]. split; [vm_compute; reflexivity|]. split; [|vm_compute; reflexivity].
  apply records_b_ok. vm_compute. reflexivity.
Qed.
Print Assumptions C52_holes_refuted.

(** A name may be longer than the record has room for: it then runs on into the next record, and
    is listed. *)
Definition long_name : list N := Eval vm_compute in
  variant (super 2 1 128) (descriptors 0) inode_table
    (le_bytes 4 3 ++ le_bytes 2 12 ++ [8; 1] ++ [0x61; 0x62; 0x63; 0x64] ++ record_of 0x01020304 1012 2 [0x62]).
Theorem C52_name_sizes_refuted :
  field long_name 4100 2 = 12 /\ byte long_name 4102 = 8 /\
  root_names long_name = Ok [[0x61; 0x62; 0x63; 0x64; 4; 3; 2; 1]; [0x62]].
Proof. repeat split; vm_compute; reflexivity. Qed.
Print Assumptions C52_name_sizes_refuted.

(** Data in inodes: the part after the first 60 bytes, which is the value of the attribute
    system.data, is not read. The root directory of this volume has a record there. Inode 3 is
    a file of 72 bytes, of which the last 12 are its first again instead of those there. *)
Definition inode256 (mode size flags : N) (reference value : list N) : list N :=
  fill 160 (firstn 100 (inode_of mode size 0 flags reference) ++ repeat 0 28 ++ le_bytes 2 32) ++
  [0; 0; 2; 0xea] ++ [4; 7] ++ le_bytes 2 80 ++ le_bytes 4 0 ++ le_bytes 4 12 ++ le_bytes 4 0 ++ [0x64; 0x61; 0x74; 0x61] ++
  repeat 0 60 ++ value.
Definition inline : list N := Eval vm_compute in
  variant (super 0x8002 1 256) (descriptors 0)
    (repeat 0 256 ++ inode256 0x41ed 72 0x10000000 (le_bytes 4 2 ++ record_of 3 56 1 [0x61]) (record_of 4 12 1 [0x62]) ++
     inode256 0x81a4 72 0x10000000 (seqN 1 60) (seqN 61 12) ++ repeat 0 256) root_block.
Theorem C52_inline_refuted :
  bytes_at (inode_bytes inline 2) 244 12 = record_of 4 12 1 [0x62] /\ root_names inline = Ok [[0x61]] /\
  bytes_at (inode_bytes inline 3) 40 60 ++ bytes_at (inode_bytes inline 3) 244 12 = seqN 1 72 /\
  opens inline (fun fs => e <- ext_by_identifier inline fs 3 ;;
    data <- ext_data_stream (xf_table fs) e ;;
    match data with Some d => Ok (snd (run (ext_data_step inline d) (tt, 0) [Read 72])) | None => Err end) =
  Ok [Data (Ok (seqN 1 60 ++ seqN 1 12))].
Proof. repeat split; vm_compute; reflexivity. Qed.
Print Assumptions C52_inline_refuted.

(** Device numbers beyond 255 are in the second word: all of them are shown as 0. *)
Theorem C52_devices_refuted :
  forall e, buffer (xi_reference (xe_inode e)) -> 8 <= len (xi_reference (xe_inode e)) -> xi_mode (xe_inode e) < 2 ^ 16 ->
  is_device (xe_inode e) = true -> xi_size (xe_inode e) = 0 ->
  field (xi_reference (xe_inode e)) 0 4 = 0 -> ext_device e = Ok (Some 0).
Proof.
  intros e Hb Hl Hm Hd Hz Hf. unfold ext_device. change 0x2000 with (2 * 4096). change 0x6000 with (6 * 4096).
  rewrite !kind_ok by (assumption || reflexivity). fold (is_device (xe_inode e)). rewrite Hd, Hz. cbn [N.leb N.compare check bind].
  rewrite (u16_at _ Hb) by lia. cbn [bind]. do 2 f_equal.
  unfold field in *. assert (L : len (bytes_at (xi_reference (xe_inode e)) 0 4) = 4) by (rewrite len_bytes_at; lia).
  replace (bytes_at (xi_reference (xe_inode e)) 0 2) with (firstn 2 (bytes_at (xi_reference (xe_inode e)) 0 4)) by (unfold bytes_at; now rewrite firstn_firstn).
  destruct (bytes_at (xi_reference (xe_inode e)) 0 4) as [|a [|b l]]; [discriminate..|]. cbn [le_value firstn] in *. unfold two8 in *. lia.
Qed.
Print Assumptions C52_devices_refuted.
