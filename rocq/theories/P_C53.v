(** * C53: NTFS MFT entries, their attributes and data *)
From Coq Require Import Permutation Sorted.
From Verif Require Import Base BaseLemmas Streams_model Streams_spec Streams_proofs Part_spec Part_model
  Headers_model Headers_spec Headers_proofs Ntfs_model Ntfs_spec Ntfs_proofs NtfsCompressed_model NtfsCompressed_spec
  NtfsFs_model NtfsFs_spec NtfsFs_proofs P_C33.
From Verif Require P_C32 P_C34.
Ltac Zify.zify_post_hook ::= idtac.

(** ** Entries *)
(** An entry, with the bytes that its fix-up values stand for. *)
Theorem C53_entry : forall data, buffer data -> entry_ok data -> mft_entry_read data = Ok (entry_value data).
Proof. exact mft_entry_ok. Qed.
Print Assumptions C53_entry.

(** Not an entry: another signature, another size, or a sector that was not written. *)
Theorem C53_entry_rejected : forall data, buffer data -> 42 <= len data ->
  has data 0 [0; 0; 0; 0] = false -> has data 0 [0x42; 0x41; 0x41; 0x44] = false ->
  has data 0 [0x46; 0x49; 0x4c; 0x45] = false \/ field data 28 4 <> len data \/
  (let offset := field data 4 2 in let n := sectors data in
   field data 6 2 = n + 1 /\ offset + 2 + 2 * n <= 510 /\
   exists k, k < n /\ (byte data (512 * k + 510) <> byte data offset \/ byte data (512 * k + 511) <> byte data (offset + 1))) ->
  mft_entry_read data = Err.
Proof.
  intros data Hb Hl H0 HB H. unfold mft_entry_read. rewrite slice_at by lia. cbn [bind].
  change (4 - 0) with 4.
  rewrite (has_same data 0 [0; 0; 0; 0]) by reflexivity. rewrite H0.
  rewrite (has_same data 0 [0x42; 0x41; 0x41; 0x44]) by reflexivity. rewrite HB.
  rewrite (mft_entry_header_ok' data Hb I). unfold mft_entry_header_ok.
  destruct (N.leb_spec 42 (len data)); [|lia]. cbn [andb]. destruct (has data 0 [0x46; 0x49; 0x4c; 0x45]) eqn:E; [|reflexivity].
  cbn [bind]. unfold mft_entry_header_of. cbn [mh_size mh_fixup_offset mh_attributes_offset mh_fixups mh_sequence mh_base mh_journal].
  destruct (N.eqb_spec (field data 28 4) (len data)) as [E2|E2]; [|reflexivity]. cbn [check bind].
  destruct (negb ((field data 4 2 <? 42) || (len data <? field data 4 2))); [|reflexivity]. cbn [check bind].
  destruct (negb ((field data 20 2 <? (if field data 4 2 =? 42 then 42 else 48)) || (len data <? field data 20 2))); [|reflexivity]. cbn [check bind].
  destruct (field data 4 2 <? field data 20 2); [|reflexivity]. cbn [check bind].
  destruct H as [H|[H|(T1 & T2 & k & T3 & T4)]]; [discriminate|contradiction|].
  rewrite T1. pose proof (P_C32.C32_torn_records_rejected data (field data 4 2) (sectors data) k) as T.
  destruct (apply_fixup_values data (field data 4 2) (sectors data + 1)) as [b r]. cbn [snd] in T. rewrite T; auto.
  unfold sectors. apply N.mul_div_le. lia.
Qed.
Print Assumptions C53_entry_rejected.

(** ** Attributes *)
(** What every buffer says as a resident and as a non-resident attribute. *)
Theorem C53_attribute : forall data, buffer data ->
  mft_attribute_read data =
  if flag (byte data 8) 0 then
    if non_resident_ok data then
      '(runs, _) <- read_data_runs data (field data 32 2) ;; Ok (non_resident_of data runs)
    else Err
  else if resident_ok data then Ok (resident_of data) else Err.
Proof.
  intros data Hb. destruct (flag (byte data 8) 0) eqn:E.
  - now apply mft_attribute_non_resident.
  - now apply mft_attribute_resident.
Qed.
Print Assumptions C53_attribute.

(** The attributes of an entry, in whatever number, and what they show. *)
Theorem C53_attributes : forall data l, buffer data -> entry_ok data ->
  attributes_from (entry_record data) (field data 20 2) l -> sound l ->
  exists e s, mft_entry_read data = Ok e /\ ends (fun fuel => read_attributes fuel e no_attributes) (Ok s) /\ shows l s.
Proof.
  intros data l Hb He Ha Hs. exists (entry_value data). 
  destruct (attributes_loop (entry_record data) (buffer_record _ _ Hb) _ l Ha [] no_attributes collected_none Hs) as (U & s & E & C).
  exists s. split; [now apply mft_entry_ok|]. split; [exact E|]. now apply collected_shows.
Qed.
Print Assumptions C53_attributes.

(** ** Data *)
(** A file is not one of the Windows overlay filter, or another data stream of it is asked
    for. *)
Definition no_overlay (l : list mft_attribute) (name : option (list N)) : Prop :=
  name <> None \/ forall m, option_map reparse_value (content_of_type 0xc0 l) <> Some (Overlay m).
Lemma by_name_open l s cs name a : shows l s -> no_overlay l name -> get_attribute s name 0x80 = Some a ->
  data_stream_by_name s cs name =
  (d <- (if ma_is_resident a then Ok (FakeStream (ma_resident_data a) (ma_data_size a))
         else if ma_is_compressed a then c <- ntfs_compressed_open cs (ma_stream a) ;; Ok (CompressedStream c)
         else b <- ntfs_block_stream_open cs (ma_stream a) ;; Ok (BlockStream b)) ;; Ok (Some d)).
Proof.
  intros S O E. unfold data_stream_by_name. rewrite E. rewrite (shows_reparse _ _ S). destruct O as [O|O].
  - destruct name; [|contradiction]. destruct option_map as [[]|]; reflexivity.
  - destruct option_map as [[]|]; try reflexivity. now elim (O method).
Qed.
Theorem C53_no_data : forall l s cluster_size name, shows l s -> pieces name 0x80 l = [] ->
  data_stream_by_name s cluster_size name = Ok None.
Proof.
  intros l s cs name S E. unfold data_stream_by_name. pose proof (shows_attribute _ _ S name 0x80 ltac:(discriminate)) as G.
  rewrite E in G. destruct get_attribute; [destruct G|reflexivity].
Qed.
Print Assumptions C53_no_data.

(** Data in the entry. *)
Theorem C53_resident_data : forall volume cluster_size l s name p,
  shows l s -> pieces name 0x80 l = [p] -> resident p -> no_overlay l name -> len (ma_resident_data p) < two63 ->
  exists d, data_stream_by_name s cluster_size name = Ok (Some d) /\
    reads_as volume d (len (ma_resident_data p)) (ma_resident_data p).
Proof.
  intros volume cs l s name p S E R O L. pose proof (shows_attribute _ _ S name 0x80 ltac:(discriminate)) as G.
  rewrite E in G. destruct (get_attribute s name 0x80) as [a|] eqn:Eg; [|discriminate]. cbn [assembled] in G. subst a.
  assert (Hp : In p l). { apply (in_pieces name 0x80 l p). rewrite E. now left. }
  pose proof (shows_sizes _ _ S) as Z. rewrite Forall_forall in Z. specialize (Z p Hp R).
  exists (FakeStream (ma_resident_data p) (len (ma_resident_data p))). split.
  - rewrite (by_name_open l s cs name p S O Eg). unfold ma_is_resident. rewrite land_one, R. cbn [negb bind]. now rewrite Z.
  - intros ops Hops. cbn [stream_answers]. f_equal. unfold fake_step.
    destruct (run_exact (fun _ => True) (len (ma_resident_data p)) (ma_resident_data p) (fake_rd (ma_resident_data p)))
      with (ops := ops) (s := tt) (p := 0) as (u & E' & _); auto.
    + apply fake_exact_open.
    + lia.
    + unfold two63. lia.
    + rewrite E'. reflexivity.
Qed.
Print Assumptions C53_resident_data.

Lemma whole_attribute l s name ps p q groups runs :
  shows l s -> pieces name 0x80 l = ps -> nth_error ps 0 = Some p -> In q ps -> starts q ->
  Permutation groups (flat_map ma_groups ps) -> NoDup (map first_vcn groups) -> grouped 0 runs groups ->
  exists a, get_attribute s name 0x80 = Some a /\ ma_non_resident a = ma_non_resident p /\ ma_flags a = ma_flags p /\
    ma_groups a = groups /\ sizes a = sizes q.
Proof.
  intros S E Hp Hq Hs P D G.
  pose proof (shows_attribute _ _ S name 0x80 ltac:(discriminate)) as Ha. rewrite E in Ha.
  destruct (get_attribute s name 0x80) as [a|] eqn:Eg; [|rewrite Ha in Hp; discriminate].
  exists a. split; [reflexivity|].
  destruct ps as [|p' [|p'' ps]]; [discriminate|..]; injection Hp as ->.
  - cbn [assembled] in Ha. subst a. destruct Hq as [->|[]]. repeat split; auto. cbn [flat_map] in P. rewrite app_nil_r in P.
    destruct Hs as (g & Hg & _). rewrite Hg in *. apply Permutation_sym, Permutation_length_1_inv in P. congruence.
  - destruct Ha as (_ & _ & B1 & B2 & _ & B3 & B4 & B5). repeat split; auto.
    apply sorted_unique; auto; [apply (grouped_sorted _ _ _ G)|]. now rewrite B3, P.
Qed.
(** Data in clusters: the attribute may be in pieces, in any order, each with the runs of a
    part of the file; the piece with the first cluster has the sizes. *)
Theorem C53_data : forall volume cluster_size l s name ps p q groups runs,
  shows l s -> pieces name 0x80 l = ps -> no_overlay l name ->
  nth_error ps 0 = Some p -> flag (ma_non_resident p) 0 = true -> ma_flags p mod 256 = 0 ->
  In q ps -> starts q ->
  Permutation groups (flat_map ma_groups ps) -> NoDup (map first_vcn groups) -> grouped 0 runs groups ->
  0 < cluster_size -> runs_inside volume cluster_size runs -> len volume < two64 ->
  clusters runs * cluster_size <= ma_allocated q -> ma_allocated q + cluster_size <= two64 ->
  ma_valid q <= clusters runs * cluster_size -> ma_valid q <= ma_data_size q -> ma_data_size q < two63 ->
  exists d, data_stream_by_name s cluster_size name = Ok (Some d) /\
    reads_as volume d (ma_data_size q) (attribute_content volume cluster_size runs (ma_data_size q) (ma_valid q)).
Proof.
  intros volume cs l s name ps p q groups runs S E O Hp Rp Fp Hq Hs P D G Hcs Hin Hvol A1 A2 V1 V2 Z.
  destruct (whole_attribute l s name ps p q groups runs S E Hp Hq Hs P D G) as (a & Eg & K1 & K2 & K3 & K4).
  unfold sizes in K4. injection K4 as Z1 Z2 Z3 Z4 Z5.
  destruct (C33_reads_are_the_content volume cs runs groups (ma_allocated q) (ma_data_size q) (ma_valid q) (ma_unit q)) as (st & E1 & E2); auto.
  exists (BlockStream st). split.
  - rewrite (by_name_open l s cs name a S O Eg). unfold ma_is_resident, ma_is_compressed. rewrite land_one, K1, Rp, land_low, K2, Fp. cbn [negb N.eqb].
    unfold ma_stream, ma_is_compressed. rewrite land_low, K2, Fp, K3, Z1, Z2, Z3, Z4. cbn [negb N.eqb]. rewrite E1. reflexivity.
  - intros ops Hops. cbn [stream_answers]. f_equal. rewrite (E2 ops Hops). reflexivity.
Qed.
Print Assumptions C53_data.

(** Compressed data. Missing: as in C34, reads that cross compressed units and data with less
    valid data than its size. *)
Theorem C53_compressed_data_partial : forall volume cluster_size l s name ps p q groups runs,
  shows l s -> pieces name 0x80 l = ps -> no_overlay l name ->
  nth_error ps 0 = Some p -> flag (ma_non_resident p) 0 = true -> ma_flags p mod 256 = 1 ->
  In q ps -> starts q ->
  Permutation groups (flat_map ma_groups ps) -> NoDup (map first_vcn groups) -> grouped 0 runs groups ->
  0 < cluster_size -> runs_inside volume cluster_size runs -> len volume < two64 ->
  0 < ma_unit q -> 2 <= ma_unit q * cluster_size ->
  units_ok runs (ma_unit q) -> clusters runs mod ma_unit q = 0 -> units_decompress volume cluster_size runs (ma_unit q) ->
  clusters runs * cluster_size = ma_allocated q -> ma_allocated q + ma_unit q * cluster_size <= two64 ->
  ma_valid q <= clusters runs * cluster_size -> ma_valid q < two63 ->
  exists d, data_stream_by_name s cluster_size name = Ok (Some d) /\
    forall ops, let content := compressed_content volume cluster_size runs (ma_unit q) (ma_valid q) in
    seeks_ok (ma_valid q) content 0 ops -> reads_ok (read_ok cluster_size runs (ma_unit q)) (ma_valid q) content 0 ops ->
    stream_answers volume d ops = Some (snd (Streams_model.run (file_step (ma_valid q) content) 0 ops)).
Proof.
  intros volume cs l s name ps p q groups runs S E O Hp Rp Fp Hq Hs P D G Hcs Hin Hvol U1 U2 U3 U4 U5 A1 A2 V1 V2.
  destruct (whole_attribute l s name ps p q groups runs S E Hp Hq Hs P D G) as (a & Eg & K1 & K2 & K3 & K4).
  unfold sizes in K4. injection K4 as Z1 Z2 Z3 Z4 Z5. rewrite <- A1 in *.
  destruct (P_C34.C34_reads_are_the_content_partial volume cs runs groups (ma_unit q) (ma_data_size q) (ma_valid q)) as (st & E1 & _ & E2); auto.
  exists (CompressedStream st). split.
  - rewrite (by_name_open l s cs name a S O Eg). unfold ma_is_resident, ma_is_compressed. rewrite land_one, K1, Rp, land_low, K2, Fp. cbn [negb N.eqb Pos.eqb].
    unfold ma_stream, ma_is_compressed. rewrite land_low, K2, Fp, K3, Z1, Z2, Z3, Z4. cbn [negb N.eqb Pos.eqb]. rewrite E1. reflexivity.
  - intros ops content Hops Hr. cbn [stream_answers]. f_equal. apply E2; assumption.
Qed.
Print Assumptions C53_compressed_data_partial.

(** ** A case *)
(** An entry of 512 bytes with the times, a name, data of 5 bytes and a data stream s in two
    pieces, the second run of which comes in a piece of its own. The entry is not in use. *)
Definition entry : list N :=
  [70; 73; 76; 69; 48; 0; 2; 0; 7; 0; 0; 0; 0; 0; 0; 0; 3; 0; 1; 0; 56; 0; 0; 0; 0; 0; 0; 0; 0; 2; 0; 0; 0;
   0; 0; 0; 0; 0; 0; 0; 0; 0; 0; 0; 0; 0; 0; 0; 17; 34; 0; 0; 0; 0; 0; 0; 16; 0; 0; 0; 72; 0; 0; 0; 0; 0; 0;
   0; 0; 0; 0; 0; 48; 0; 0; 0; 24; 0; 0; 0; 1; 0; 0; 0; 0; 0; 0; 0; 2; 0; 0; 0; 0; 0; 0; 0; 3; 0; 0; 0; 0; 0;
   0; 0; 4; 0; 0; 0; 0; 0; 0; 0; 32; 0; 0; 0; 0; 0; 0; 0; 0; 0; 0; 0; 0; 0; 0; 0; 48; 0; 0; 0; 96; 0; 0; 0;
   0; 0; 0; 0; 0; 0; 0; 0; 68; 0; 0; 0; 24; 0; 0; 0; 5; 0; 0; 0; 0; 0; 0; 0; 1; 0; 0; 0; 0; 0; 0; 0; 2; 0; 0;
   0; 0; 0; 0; 0; 3; 0; 0; 0; 0; 0; 0; 0; 4; 0; 0; 0; 0; 0; 0; 0; 0; 0; 0; 0; 0; 0; 0; 0; 5; 0; 0; 0; 0; 0;
   0; 0; 32; 0; 0; 0; 0; 0; 0; 0; 1; 1; 97; 0; 0; 0; 0; 0; 128; 0; 0; 0; 32; 0; 0; 0; 0; 0; 0; 0; 0; 0; 0; 0;
   5; 0; 0; 0; 24; 0; 0; 0; 104; 101; 108; 108; 111; 0; 0; 0; 128; 0; 0; 0; 80; 0; 0; 0; 1; 1; 64; 0; 0; 0;
   0; 0; 0; 0; 0; 0; 0; 0; 0; 0; 1; 0; 0; 0; 0; 0; 0; 0; 72; 0; 0; 0; 0; 0; 0; 0; 12; 0; 0; 0; 0; 0; 0; 0; 7;
   0; 0; 0; 0; 0; 0; 0; 6; 0; 0; 0; 0; 0; 0; 0; 115; 0; 0; 0; 0; 0; 0; 0; 17; 2; 5; 0; 0; 0; 0; 0; 128; 0; 0;
   0; 80; 0; 0; 0; 1; 1; 64; 0; 0; 0; 0; 0; 2; 0; 0; 0; 0; 0; 0; 0; 2; 0; 0; 0; 0; 0; 0; 0; 72; 0; 0; 0; 0;
   0; 0; 0; 0; 0; 0; 0; 0; 0; 0; 0; 0; 0; 0; 0; 0; 0; 0; 0; 0; 0; 0; 0; 0; 0; 0; 0; 115; 0; 0; 0; 0; 0; 0; 0;
   17; 1; 9; 0; 0; 0; 0; 0; 255; 255; 255; 255; 0; 0; 0; 0; 0; 0; 0; 0; 0; 0; 0; 0; 0; 0; 0; 0; 0; 0; 0; 0;
   0; 0; 0; 0; 0; 0; 0; 0; 0; 0; 0; 0; 0; 0; 0; 0; 0; 0; 0; 0; 0; 0; 0; 0; 0; 0; 0; 0; 0; 0; 0; 0; 0; 0; 0;
   0; 0; 0; 0; 0; 0; 0; 0; 0; 0; 0; 0; 0; 0; 0; 0; 0; 0; 0; 0; 0; 0; 0; 0; 0; 0; 0; 0; 0; 0; 0; 0; 0; 0; 0;
   17; 34].
Lemma entry_sound : buffer entry /\ entry_ok entry.
Proof.
  split; [split; [apply wf_bytesb_iff; vm_compute; reflexivity|vm_compute; reflexivity]|].
  unfold entry_ok, record_ok. repeat match goal with |- _ /\ _ => split end; try (vm_compute; (reflexivity || discriminate)).
  change (sectors entry) with 1. intros k Hk. assert (k = 0) as -> by lia. split; vm_compute; reflexivity.
Qed.
Ltac next_resident := eapply attributes_more; [vm_compute; discriminate|vm_compute; discriminate|apply attribute_resident; vm_compute; reflexivity|].
Ltac next_runs runs bytes := eapply attributes_more; [vm_compute; discriminate|vm_compute; discriminate|
  apply (attribute_non_resident _ runs bytes); [vm_compute; reflexivity|vm_compute; reflexivity| |vm_compute; reflexivity]|].
Definition first_attributes : list mft_attribute := Eval vm_compute in
  map (fun o => resident_of (skipn o (entry_record entry))) [56; 128; 224]%nat ++
  map (fun o => non_resident_of (skipn (fst o) (entry_record entry)) (map as_data_run [snd o])) [(256%nat, Allocated 2 5); (336%nat, Allocated 1 9)].
Example C53_case_attributes : attributes_from (entry_record entry) (field entry 20 2) first_attributes /\ sound first_attributes /\
  map ma_type first_attributes = [0x10; 0x30; 0x80; 0x80; 0x80] /\ map ma_name first_attributes = [None; None; None; Some [115]; Some [115]].
Proof.
  assert (E1 : encoded 0 [Allocated 2 5] [0x11; 2; 5]).
  { apply (encoded_allocated 0 2 5 1 1 [] []); [lia|lia|reflexivity|unfold two63; lia|cbn; lia|constructor]. }
  assert (E2 : encoded 0 [Allocated 1 9] [0x11; 1; 9]).
  { apply (encoded_allocated 0 1 9 1 1 [] []); [lia|lia|reflexivity|unfold two63; lia|cbn; lia|constructor]. }
  split; [|split; [|split; reflexivity]].
  - assert (H : exists l, attributes_from (entry_record entry) (field entry 20 2) l /\ l = first_attributes).
    { eexists. split.
      - next_resident. next_resident. next_resident. next_runs [Allocated 2 5] [0x11; 2; 5]; [exact E1|].
        next_runs [Allocated 1 9] [0x11; 1; 9]; [exact E2|]. apply attributes_end; vm_compute; (reflexivity || discriminate).
      - vm_compute. reflexivity. }
    destruct H as (l & H & <-). exact H.
  - split.
    + unfold first_attributes. repeat (apply FOP_cons; [repeat apply Forall_cons; try apply Forall_nil|]); try apply FOP_nil;
        unfold compatible; cbn [ma_type ma_name ma_non_resident]; intros H1 H2 H3; try discriminate; try congruence.
      split; [reflexivity|split; [reflexivity|]]. intros [_ (g & [= <-] & Hg)]. discriminate.
    + unfold first_attributes, resident. repeat apply Forall_cons; try apply Forall_nil;
        cbn [ma_type ma_name ma_non_resident ma_resident_data]; (split; [|split]); intros E; try discriminate.
      split; [reflexivity|split; [reflexivity|]]. vm_compute. discriminate.
Qed.
(** The two streams, on a volume of clusters of 4 bytes: 5 bytes in the entry, and 7 bytes in
    the clusters 5, 6 and 9, the last of which is not valid. *)
Example C53_case :
  match mft_entry_read entry with
  | Ok e => match read_attributes 6 e no_attributes with
    | Some (Ok s) => map (fun name => match data_stream_by_name s 4 name with
        | Ok (Some d) => stream_answers (seqN 100 40) d [Seek (SeekStart 1); Read 9]
        | _ => None
        end) [None; Some [115]]
    | _ => []
    end
  | _ => []
  end = [Some [Position (Ok 1); Data (Ok [101; 108; 108; 111])];
         Some [Position (Ok 1); Data (Ok [121; 122; 123; 124; 125; 0])]].
Proof. vm_compute. reflexivity. Qed.
Example C53_case_whole : exists s, ends (fun fuel => read_attributes fuel (entry_value entry) no_attributes) (Ok s) /\
  shows first_attributes s /\ data_names first_attributes = [None; Some [115]].
Proof.
  destruct C53_case_attributes as (H1 & H2 & _).
  destruct (C53_attributes entry first_attributes (proj1 entry_sound) (proj2 entry_sound) H1 H2) as (e & s & E & R).
  rewrite (C53_entry entry (proj1 entry_sound) (proj2 entry_sound)) in E. injection E as <-. exists s. split; [apply R|]. split; [apply R|].
  vm_compute. reflexivity.
Qed.

(** ** What does not hold *)
(** An entry that is not in use, as the flags of [entry] say, is allocated for the API: every
    entry is. *)
Theorem C53_in_use_refuted : field entry 22 2 = 0 /\
  forall data, buffer data -> entry_ok data -> exists e, mft_entry_read data = Ok e /\ me_is_allocated e = true.
Proof.
  split; [vm_compute; reflexivity|]. intros data Hb He. eexists. split; [now apply C53_entry|]. reflexivity.
Qed.
Print Assumptions C53_in_use_refuted.

(** A file name attribute whose size is zero: reading the attributes of the entry never ends. *)
Theorem C53_empty_attribute_never_ends : forall data, buffer data -> entry_ok data ->
  let o := field data 20 2 in let a := skipn (N.to_nat o) (entry_record data) in
  o + 24 <= len data -> field a 0 4 = 0x30 -> field a 4 4 = 0 -> flag (byte a 8) 0 = false -> resident_ok a = true ->
  never_ends (fun fuel => read_attributes fuel (entry_value data) no_attributes).
Proof.
  intros data Hb He o a Ho Ht Hs Hf Hr. unfold read_attributes, entry_value. cbn [me_data me_attributes_offset]. fold o.
  set (record := entry_record data) in *.
  assert (Hrec : buffer record) by (apply buffer_record, Hb).
  assert (Hl : len record = len data) by apply len_record.
  assert (Q : forall fuel s, index_of s (ma_name (resident_of a)) 0x30 = None -> read_attributes_loop fuel record o s = None).
  { induction fuel as [|fuel IH]; intros s Hi; [reflexivity|]. cbn [read_attributes_loop]. unfold sub_chk.
    destruct (N.leb_spec 4 (len record)); [|lia]. cbn [now obind]. destruct (N.ltb_spec (len record - 4) o); [lia|].
    rewrite slice_at by lia. cbn [obind]. replace (o + 4 - o) with 4 by lia. rewrite end_marker by (auto; lia).
    assert (E0 : field record o 4 = 0x30) by (rewrite <- Ht; unfold a; rewrite field_skip; f_equal; lia).
    rewrite E0. cbn [N.eqb Pos.eqb]. rewrite slice_rest by lia. cbn [obind]. fold a.
    rewrite (mft_attribute_resident a (buffer_skip _ _ Hrec) Hf), Hr. cbn [obind].
    unfold add_attribute. assert (Et : ma_type (resident_of a) = 0x30) by exact Ht.
    assert (Es : ma_size (resident_of a) = 0) by exact Hs. rewrite Et, Hi, Es. cbn [N.eqb Pos.eqb bind obind].
    rewrite N.add_0_r. apply IH. exact Hi. }
  intros fuel. apply Q. reflexivity.
Qed.
Print Assumptions C53_empty_attribute_never_ends.
(** The content of an attribute may lie in the attributes after it: this attribute has 24 of
    32 bytes, and its content is the 8 that follow. *)
Theorem C53_content_outside_refuted :
  let data := [0x80; 0; 0; 0; 24; 0; 0; 0; 0; 0; 0; 0; 0; 0; 0; 0; 8; 0; 0; 0; 24; 0; 0; 0; 1; 2; 3; 4; 5; 6; 7; 8] in
  field data 4 4 = 24 /\ (a <- mft_attribute_read data ;; Ok (ma_resident_data a)) = Ok [1; 2; 3; 4; 5; 6; 7; 8].
Proof. vm_compute. auto. Qed.
Print Assumptions C53_content_outside_refuted.
(** An entry of zeros is one that was never used. Reading it succeeds, reading its attributes
    fails. *)
Theorem C53_empty_entry_refuted : forall n, 42 <= n -> n < two64 ->
  exists e, mft_entry_read (repeat 0 (N.to_nat n)) = Ok e /\ me_is_empty e = true /\
  ends (fun fuel => read_attributes fuel e no_attributes) Err.
Proof.
  intros n H1 H2. set (data := repeat 0 (N.to_nat n)).
  assert (Hl : len data = n) by (unfold data; rewrite len_repeat; lia).
  assert (Hb : buffer data).
  { split; [|rewrite Hl; exact H2]. unfold wf_bytes, data. apply Forall_forall. intros x Hx. apply repeat_spec in Hx. subst x. reflexivity. }
  assert (Z : forall o k, bytes_at data o k = repeat 0 (length (bytes_at data o k))).
  { intros o k. unfold bytes_at, data. rewrite skipn_repeat, firstn_repeat, repeat_length. reflexivity. }
  assert (F : forall o k, field data o k = 0).
  { intros o k. unfold field. rewrite Z. induction (length (bytes_at data o k)) as [|x IH]; [reflexivity|]. cbn [repeat le_value]. lia. }
  assert (B : forall o, byte data o = 0).
  { intros o. unfold byte, data. destruct (nth_in_or_default (N.to_nat o) (repeat 0 (N.to_nat n)) 0) as [I|I]; [|exact I].
    apply repeat_spec in I. exact I. }
  assert (S : bytes_at data 0 4 = [0; 0; 0; 0]).
  { rewrite Z. replace (length (bytes_at data 0 4)) with 4%nat; [reflexivity|].
    assert (len (bytes_at data 0 4) = 4) by (rewrite len_bytes_at; lia). unfold len in *. lia. }
  unfold mft_entry_read. rewrite slice_at by lia. change (4 - 0) with 4. rewrite S. cbn [bind].
  change (same [0; 0; 0; 0] [0; 0; 0; 0]) with true. cbn iota. eexists. split; [reflexivity|]. split; [reflexivity|].
  assert (R : resident_ok data = true).
  { unfold resident_ok, method_ok, name_ok. rewrite !F, B, Hl. cbn. rewrite !andb_true_r. apply N.leb_le. lia. }
  exists 2%nat. intros [|[|m]] Hm; [lia|lia|]. unfold read_attributes. cbn [me_data me_attributes_offset].
  assert (Step : forall k s, read_attributes_loop (Datatypes.S k) data 0 s =
    (s <~ now (add_attribute s (resident_of data)) ;; read_attributes_loop k data 0 s)).
  { intros k s. cbn [read_attributes_loop]. unfold sub_chk. destruct (N.leb_spec 4 (len data)); [|lia]. cbn [now obind].
    destruct (N.ltb_spec (len data - 4) 0); [lia|]. rewrite slice_at by lia. change (0 + 4 - 0) with 4. rewrite S. cbn [obind].
    change (same [0; 0; 0; 0] [255; 255; 255; 255]) with false. cbn iota. rewrite slice_rest by lia. cbn [obind N.to_nat skipn].
    rewrite (mft_attribute_resident data Hb) by (rewrite B; reflexivity). rewrite R. cbn [obind].
    unfold resident_of at 2. cbn [ma_size]. rewrite F. reflexivity. }
  rewrite Step. set (x := resident_of data) in *.
  assert (X1 : ma_type x = 0) by apply F.
  assert (X2 : ma_name x = None) by (unfold x, resident_of, name_of; cbn [ma_name]; now rewrite B).
  assert (X3 : ma_non_resident x = 0) by apply B.
  unfold add_attribute at 1. rewrite X1, X2. cbn [index_of no_attributes as_index find N.eqb bind now obind as_attributes as_list as_data
    as_reparse as_standard as_groups length app has_group existsb].
  rewrite Step. unfold add_attribute at 1. rewrite X1, X2. cbn [index_of as_index find name_eqb fst snd N.eqb andb as_attributes nth_error
    of_option bind]. unfold merge, ma_is_resident. rewrite X3. reflexivity.
Qed.
Print Assumptions C53_empty_entry_refuted.
