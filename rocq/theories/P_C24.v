(** * C24: the block tree is a map from offsets to the range inserted over them *)
From Verif Require Import Base BlockTree_model BlockTree_spec BlockTree_proofs.

(** In a flat geometry, for every history: each insert is accepted exactly when the
    slot map accepts it, and every lookup below the data size returns what the slot
    map holds. No step panics. *)
Theorem C24_flat_is_slot_map :
  forall (V : Type) data_size elements slot (h : list (N * N * V)),
  flat_geometry data_size elements slot h ->
  exists t,
    bt_inserts (bt_new data_size elements slot) h =
      (t, map accepted (snd (spec_inserts data_size slot nothing h))) /\
    forall x, x < data_size ->
      bt_get t x = Ok (fst (spec_inserts data_size slot nothing h) (x / slot)).
Proof. exact (@flat_map_ok). Qed.
Print Assumptions C24_flat_is_slot_map.

(** The same in a tree of any depth, for histories of inserts of one level. Missing
    for the full property: histories that mix levels or cross node boundaries, for
    which it is false (below). *)
Theorem C24_levelled_is_slot_map_partial :
  forall (V : Type) data_size elements slot r (h : list (N * N * V)),
  levelled_geometry data_size elements slot r h ->
  exists t,
    bt_inserts (bt_new data_size elements slot) h =
      (t, map accepted (snd (spec_inserts data_size slot nothing h))) /\
    forall x, x < data_size ->
      bt_get t x = Ok (fst (spec_inserts data_size slot nothing h) (x / slot)).
Proof. exact (@levelled_map_ok). Qed.
Print Assumptions C24_levelled_is_slot_map_partial.

(** When every insert was accepted, a lookup finds exactly the inserts that cover
    the offset. *)
Theorem C24_lookup_after_accepted_inserts_partial :
  forall (V : Type) data_size elements slot r (h : list (N * N * V)) t rs,
  flat_geometry data_size elements slot h \/ levelled_geometry data_size elements slot r h ->
  bt_inserts (bt_new data_size elements slot) h = (t, rs) ->
  Forall (fun x => x = Ok tt) rs ->
  forall x v, x < data_size ->
  (bt_get t x = Ok (Some v) <-> exists e, In e h /\ covers e x /\ snd e = v).
Proof. exact (@accepted_ok). Qed.
Print Assumptions C24_lookup_after_accepted_inserts_partial.

(** The way the image readers use it: [k] blocks of [slot * elements ^ r] bytes, each
    inserted whole. Any order, any repetition, any out of range block number. *)
Theorem C24_whole_blocks :
  forall (V : Type) elements slot r k (h : list (N * V)),
  0 < slot -> 1 <= elements -> elements * slot < two64 -> k * (slot * elements ^ r) < two64 ->
  Forall (fun e => fst e * (slot * elements ^ r) + slot * elements ^ r < two64) h ->
  exists t,
    bt_inserts (bt_new (k * (slot * elements ^ r)) elements slot)
      (block_inserts (slot * elements ^ r) h) = (t, map accepted (block_results k [] h)) /\
    forall x, x < k * (slot * elements ^ r) ->
      bt_get t x = Ok (offered k h (x / (slot * elements ^ r))).
Proof. exact (@blocks_ok). Qed.
Print Assumptions C24_whole_blocks.

(** Not a map in general. An accepted insert of [2, 6) after one of [4, 8) is stored
    over [0, 4): offset 0 finds a value never inserted there and the overlap is not
    detected. *)
Theorem C24_misplaced_insert_refuted :
  exists t, bt_inserts (bt_new 8 2 1) [(4, 4, 10); (2, 4, 20)] = (t, [Ok tt; Ok tt]) /\
    bt_get t 0 = Ok (Some 20) /\ bt_get t 5 = Ok (Some 10).
Proof. eexists; vm_compute; auto. Qed.
Print Assumptions C24_misplaced_insert_refuted.

(** Acceptance depends on the order: the same two disjoint aligned inserts. *)
Theorem C24_order_dependence_refuted :
  snd (bt_inserts (bt_new 8 2 1) [(0, 4, 10); (4, 2, 20)]) = [Ok tt; Err] /\
  snd (bt_inserts (bt_new 8 2 1) [(4, 2, 20); (0, 4, 10)]) = [Ok tt; Ok tt].
Proof. vm_compute. auto. Qed.
Print Assumptions C24_order_dependence_refuted.

(** Panics: an insert that crosses a node boundary, a lookup past the end in a tree
    with branches, and a first insert of size 0 with no elements per node. *)
Theorem C24_no_panic_refuted :
  snd (bt_inserts (bt_new 8 2 1) [(0, 2, 10); (2, 4, 20)]) = [Ok tt; Panic] /\
  bt_get (fst (bt_inserts (bt_new 8 2 1) [(0, 2, 10)])) 8 = Panic /\
  snd (bt_inserts (bt_new 8 0 1) [(0, 0, 10)]) = [Panic].
Proof. vm_compute. auto. Qed.
Print Assumptions C24_no_panic_refuted.

(** Concrete histories that meet the hypotheses. *)
Example C24_flat_example :
  flat_geometry 4096 0 512 [(512, 1024, 1); (0, 512, 2); (1024, 512, 3); (3584, 1024, 4)] /\
  (let t := fst (bt_inserts (bt_new 4096 0 512) [(512, 1024, 1); (0, 512, 2); (1024, 512, 3)]) in
   map (bt_get t) [0; 511; 512; 1535; 1536] = [Ok (Some 2); Ok (Some 2); Ok (Some 1); Ok (Some 1); Ok None]) /\
  snd (bt_inserts (bt_new 4096 0 512) [(512, 1024, 1); (0, 512, 2); (1024, 512, 3); (3584, 1024, 4)]) =
    [Ok tt; Ok tt; Err; Err].
Proof.
  split; [|vm_compute; auto]. unfold flat_geometry, two64.
  split; [lia|]. split; [lia|]. split; [lia|]. split; [left; lia|].
  repeat constructor.
Qed.
Example C24_levelled_example :
  levelled_geometry 24 3 1 0 [(4, 2, 1); (21, 1, 2); (9, 2, 3)] /\
  bt_create_root (V := N) (bt_new 24 3 1) 2 = Ok (Branch 0 9 [None; None; None]) /\
  (let t := fst (bt_inserts (bt_new 24 3 1) [(4, 2, 1); (21, 1, 2); (9, 2, 3)]) in
   map (bt_get t) [3; 4; 5; 6; 9; 21; 23] =
     [Ok None; Ok (Some 1); Ok (Some 1); Ok None; Ok (Some 3); Ok (Some 2); Ok None]).
Proof.
  split; [|vm_compute; auto]. unfold levelled_geometry, unit_size. cbv zeta.
  unfold two64. split; [lia|]. split; [lia|]. split; [lia|]. split; [lia|].
  repeat constructor.
Qed.
Example C24_blocks_example :
  (let t := fst (bt_inserts (bt_new (5 * (512 * 2 ^ 1)) 2 512) (block_inserts (512 * 2 ^ 1) [(4, 7); (0, 8); (4, 9)])) in
   map (bt_get t) [0; 1023; 1024; 4096; 5119] = [Ok (Some 8); Ok (Some 8); Ok None; Ok (Some 7); Ok (Some 7)]) /\
  block_results 5 [] [(4, 7); (0, 8); (4, 9)] = [true; true; false].
Proof. vm_compute. auto. Qed.
