(** * C38: GUID Partition Tables *)
From Verif Require Import Base BaseLemmas Streams_spec Blocks_model Uuid_model Part_model Part_spec Part_proofs.
Ltac Zify.zify_post_hook ::= idtac.

(** Every disk and sector size, set or, with 0, found: if the tables are accepted then they
    meet [gpt_accepts] with the sector size used, and the entries are the used entries of the
    table in order, with the fields of the format. *)
Theorem C38_accepted :
  forall volume b system, wf_bytes volume -> len volume < two64 ->
  gpt_read volume b = Ok system ->
  let s := gs_bytes_per_sector system in
  let h := gpt_header_bytes volume s in
  (if b =? 0 then s = 512 \/ s = 4096 else s = b) /\ gpt_accepts volume s /\
  uuid_parts (gs_disk system) = guid h 56 /\
  map gpt_described (gs_entries system) = gpt_used_entries (gpt_table volume s h) (field h 80 4).
Proof.
  intros volume b system Hw Hl E.
  assert (G : forall b', 0 < b' -> gpt_read volume b' = Ok system -> gs_bytes_per_sector system = b' /\ gpt_accepts volume b' /\
     uuid_parts (gs_disk system) = guid (gpt_header_bytes volume b') 56 /\
     map gpt_described (gs_entries system) =
       gpt_used_entries (gpt_table volume b' (gpt_header_bytes volume b')) (field (gpt_header_bytes volume b') 80 4)).
  { intros b' Hb' E'. destruct (gpt_read_shape volume b' Hw Hl Hb') as [[Ha (sys & Es & H1 & H2 & H3)]|[_ Hn]].
    - rewrite E' in Es. injection Es as <-. auto.
    - exfalso. exact (Hn _ E'). }
  destruct (N.eqb_spec b 0) as [->|Hb].
  - destruct (gpt_read_detect volume Hw) as [[_ D]|[(_ & _ & D)|(_ & _ & D)]]; rewrite D in E; [| |discriminate];
      (apply G in E; [|lia]); destruct E as (E1 & E2); cbv zeta; rewrite E1; auto.
  - apply G in E; [|lia]. destruct E as (E1 & E2). cbv zeta. rewrite E1. auto.
Qed.
Print Assumptions C38_accepted.

(** A stored checksum that is not zero matches. Missing: a stored checksum of zero is not
    verified; see [C38_zero_checksum_refuted]. *)
Theorem C38_checksums_partial :
  forall volume b system, wf_bytes volume -> len volume < two64 ->
  gpt_read volume b = Ok system ->
  let s := gs_bytes_per_sector system in
  let h := gpt_header_bytes volume s in
  (field h 16 4 <> 0 -> field h 16 4 = gpt_header_checksum h) /\
  (field h 88 4 <> 0 -> field h 88 4 = crc32 (gpt_table volume s h)).
Proof.
  intros volume b system Hw Hl E. destruct (C38_accepted volume b system Hw Hl E) as (_ & A & _).
  cbv zeta in *. destruct A as ((_ & _ & Hc) & _ & _ & _ & _ & _ & _ & _ & Ht). split; intros; intuition.
Qed.
Print Assumptions C38_checksums_partial.

(** All that is meant to be accepted is accepted. *)
Theorem C38_accepts :
  forall volume b, wf_bytes volume -> len volume < two64 -> 0 < b -> gpt_accepts volume b ->
  exists system, gpt_read volume b = Ok system /\ gs_bytes_per_sector system = b.
Proof.
  intros volume b Hw Hl Hb Ha. destruct (gpt_read_shape volume b Hw Hl Hb) as [[_ (sys & Es & H1 & _)]|[Hn _]]; [eauto|contradiction].
Qed.
Print Assumptions C38_accepts.

(** The sector size is found: 512 if there is a header in the second sector of that size,
    otherwise 4096. *)
Theorem C38_sector_size :
  forall volume, wf_bytes volume ->
  (gpt_header_in volume 512 -> gpt_read volume 0 = gpt_read volume 512) /\
  (~ gpt_header_in volume 512 -> gpt_header_in volume 4096 -> gpt_read volume 0 = gpt_read volume 4096) /\
  (~ gpt_header_in volume 512 -> ~ gpt_header_in volume 4096 -> gpt_read volume 0 = Err).
Proof.
  intros volume Hw. destruct (gpt_read_detect volume Hw) as [[H D]|[(H & H' & D)|(H & H' & D)]]; rewrite D; tauto.
Qed.
Print Assumptions C38_sector_size.

(** Every partition of accepted tables starts at or after the first usable sector, and has
    the bytes of its first to its last sector, if its end is a 64-bit offset. Missing: it
    can end after the last usable sector; see [C38_outside_area_refuted]. *)
Theorem C38_partitions_partial :
  forall volume b system i, wf_bytes volume -> len volume < two64 ->
  gpt_read volume b = Ok system ->
  let s := gs_bytes_per_sector system in
  let h := gpt_header_bytes volume s in
  let t := gpt_table volume s h in
  match nth_error (gpt_used_entries t (field h 80 4)) (N.to_nat i) with
  | None => gpt_partition_at system i = Err
  | Some (k, type, identifier, start, last, _) =>
      field h 40 8 <= start <= last /\
      ((last + 1) * s < two64 ->
       exists p, gpt_partition_at system i = Ok p /\ gp_index p = k /\ uuid_parts (gp_type p) = type /\
         uuid_parts (gp_identifier p) = identifier /\ gp_offset p = start * s /\
         gp_offset p + gp_size p = (last + 1) * s)
  end.
Proof.
  intros volume b system i Hw Hl E. destruct (C38_accepted volume b system Hw Hl E) as (Hb & A & _ & Es).
  cbv zeta in *. set (s := gs_bytes_per_sector system) in *. set (h := gpt_header_bytes volume s) in *.
  set (t := gpt_table volume s h) in *. rewrite <- Es. rewrite nth_error_map.
  destruct (nth_error (gs_entries system) (N.to_nat i)) as [e|] eqn:En; cbn [option_map].
  2:{ unfold gpt_partition_at. rewrite En. reflexivity. }
  unfold gpt_described. cbv beta iota.
  assert (Hs : 0 < s).
  { destruct (N.eqb_spec b 0); [lia|]. lia. }
  assert (Hin : field h 40 8 <= ge_start e <= ge_end e).
  { destruct A as (_ & _ & _ & _ & _ & _ & _ & Hin & _). fold h in Hin. fold t in Hin.
    assert (In (gpt_described e) (gpt_used_entries t (field h 80 4))) as Hd.
    { rewrite <- Es. apply in_map. eapply nth_error_In, En. }
    unfold gpt_used_entries in Hd. apply in_map_iff in Hd as (j & Ej & Hj). apply filter_In in Hj as [Hj Hu].
    apply in_seqN in Hj. specialize (Hin j ltac:(lia) Hu).
    pose proof (f_equal (fun x => snd (fst (fst x))) Ej) as E1. pose proof (f_equal (fun x => snd (fst x)) Ej) as E2.
    cbn in E1, E2. rewrite <- E1, <- E2. assumption. }
  split; [assumption|]. intros Hend. rewrite (gpt_partition_at_ok system i e En) by (fold s; lia).
  eexists. split; [reflexivity|]. cbn. fold s. repeat split. rewrite <- N.mul_add_distr_r. f_equal. lia.
Qed.
Print Assumptions C38_partitions_partial.

(** ** Cases *)
Definition pad n (l : list N) : list N := l ++ repeat 0 (n - length l).
Definition header_bytes (checksum backup last number table_checksum : N) : list N :=
  [0x45; 0x46; 0x49; 0x20; 0x50; 0x41; 0x52; 0x54] ++ le_bytes 4 0x10000 ++ le_bytes 4 92 ++ le_bytes 4 checksum ++
  le_bytes 4 0 ++ le_bytes 8 1 ++ le_bytes 8 backup ++ le_bytes 8 3 ++ le_bytes 8 last ++ seqN 0 16 ++
  le_bytes 8 2 ++ le_bytes 4 number ++ le_bytes 4 128 ++ le_bytes 4 table_checksum.
Definition entry_bytes (start last : N) : list N :=
  pad 128 (seqN 1 32 ++ le_bytes 8 start ++ le_bytes 8 last ++ le_bytes 8 0 ++ [0x61; 0]).
Definition disk (header : list N) (table : list N) : list N := repeat 0 512 ++ pad 512 header ++ table.
Definition good_disk : list N := disk (header_bytes 0x53241f36 0 6 1 0x16bcb41b) (entry_bytes 3 4).

Example C38_case : wf_bytes good_disk /\ gpt_accepts good_disk 512 /\
  gpt_used_entries (gpt_table good_disk 512 (gpt_header_bytes good_disk 512)) 1 =
    [(0, (0x04030201, 0x0605, 0x0807, 0x090a, 0x0b0c0d0e0f10), (0x14131211, 0x1615, 0x1817, 0x191a, 0x1b1c1d1e1f20), 3, 4, 0)].
Proof.
  split; [apply wf_bytesb_iff; vm_compute; reflexivity|]. split; [|vm_compute; reflexivity].
  unfold gpt_accepts. split.
  - split; [vm_compute; discriminate|]. split; [repeat split; vm_compute; reflexivity|]. right. vm_compute. reflexivity.
  - split; [vm_compute; reflexivity|]. split; [left; vm_compute; reflexivity|]. split; [vm_compute; reflexivity|].
    split; [vm_compute; discriminate|]. split; [vm_compute; reflexivity|]. split; [vm_compute; reflexivity|].
    split; [|right; vm_compute; reflexivity]. intros i Hi _.
    assert (i < 1) as Hi' by exact Hi. replace i with 0 by lia. vm_compute. split; discriminate.
Qed.
Example C38_case_read : exists system, gpt_read good_disk 512 = Ok system /\ gs_bytes_per_sector system = 512.
Proof. destruct C38_case as (W & A & _). apply C38_accepts; auto; vm_compute; reflexivity. Qed.

(** A checksum field with zero turns the verification off: any header and any table is
    accepted. *)
Theorem C38_zero_checksum_refuted :
  exists volume system, wf_bytes volume /\ gpt_read volume 512 = Ok system /\ len (gs_entries system) = 1 /\
    let h := gpt_header_bytes volume 512 in
    field h 16 4 <> gpt_header_checksum h /\ field h 88 4 <> crc32 (gpt_table volume 512 h).
Proof.
  exists (disk (header_bytes 0 0 6 1 0) (entry_bytes 3 4)). eexists.
  split; [apply wf_bytesb_iff; vm_compute; reflexivity|].
  split; [vm_compute; reflexivity|]. split; [vm_compute; reflexivity|]. split; vm_compute; discriminate.
Qed.
Print Assumptions C38_zero_checksum_refuted.

(** The last usable sector is not looked at: with 6 as the last usable sector, a partition
    up to sector 1000 is given out. *)
Theorem C38_outside_area_refuted :
  exists volume system p, wf_bytes volume /\ gpt_read volume 512 = Ok system /\ gpt_partition_at system 0 = Ok p /\
    (field (gpt_header_bytes volume 512) 48 8 + 1) * 512 < gp_offset p + gp_size p.
Proof.
  exists (disk (header_bytes 0 0 6 1 0) (entry_bytes 3 1000)). do 2 eexists.
  split; [apply wf_bytesb_iff; vm_compute; reflexivity|].
  split; [vm_compute; reflexivity|]. split; vm_compute; reflexivity.
Qed.
Print Assumptions C38_outside_area_refuted.

(** Block numbers whose offset does not fit overflow: the backup header, and the last sector
    of a partition. *)
Definition far_backup : list N := disk (header_bytes 0 0xffffffffffffffff 6 1 0) (entry_bytes 3 4).
Definition far_end : list N := disk (header_bytes 0 0 6 1 0) (entry_bytes 3 0xffffffffffffffff).
Theorem C38_no_panic_refuted :
  wf_bytes far_backup /\ gpt_read far_backup 512 = Panic /\
  wf_bytes far_end /\ (system <- gpt_read far_end 512 ;; gpt_partition_at system 0) = Panic /\
  gpt_read far_end 512 <> Panic.
Proof.
  split; [apply wf_bytesb_iff; vm_compute; reflexivity|]. split; [vm_compute; reflexivity|].
  split; [apply wf_bytesb_iff; vm_compute; reflexivity|]. split; [vm_compute; reflexivity|vm_compute; discriminate].
Qed.
Print Assumptions C38_no_panic_refuted.
