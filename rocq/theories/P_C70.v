(** * C70: Exporting a path writes its data stream of each file system of the image *)
From Verif Require Import Base BaseLemmas Export_model.
Open Scope N_scope. Open Scope list_scope.

(** ** Specification *)

(** The file systems of an image, in order: the places in which nothing further was found *)
Inductive places {L} : export_node L -> list L -> Prop :=
| places_leaf : forall l, places (ExportNode l []) [l]
| places_inner : forall l node nodes ls, all_places (node :: nodes) ls ->
    places (ExportNode l (node :: nodes)) ls
with all_places {L} : list (export_node L) -> list L -> Prop :=
| all_none : all_places [] []
| all_some : forall node nodes ls ls', places node ls -> all_places nodes ls' ->
    all_places (node :: nodes) (ls ++ ls').

(** Writing the streams of the places one after the other, up to the first failure *)
Inductive exported {L D W} (get : L -> res (option D)) (write : W -> D -> res unit * W)
  : W -> list L -> res unit -> W -> Prop :=
| exported_end : forall w, exported get write w [] (Ok tt) w
| exported_none : forall w l ls r w', get l = Ok None ->
    exported get write w ls r w' -> exported get write w (l :: ls) r w'
| exported_stream : forall w l ls d w1 r w', get l = Ok (Some d) -> write w d = (Ok tt, w1) ->
    exported get write w1 ls r w' -> exported get write w (l :: ls) r w'
| exported_no_write : forall w l ls d r w', get l = Ok (Some d) -> write w d = (r, w') ->
    r <> Ok tt -> exported get write w (l :: ls) r w'
| exported_no_stream : forall w l ls r, get l = r -> (forall o, r <> Ok o) ->
    exported get write w (l :: ls) (match r with Panic => Panic | _ => Err end) w.

Scheme places_mind := Minimality for places Sort Prop
  with all_places_mind := Minimality for all_places Sort Prop.
Combined Scheme places_both from places_mind, all_places_mind.

(** ** Proofs *)
Fixpoint export_all {L D W} (get : L -> res (option D)) (write : W -> D -> res unit * W)
    (w : W) (nodes : list (export_node L)) : res unit * W :=
  match nodes with
  | [] => (Ok tt, w)
  | node :: nodes =>
    match export_data_stream get write w node with
    | (Ok _, w) => export_all get write w nodes
    | failed => failed
    end
  end.

Lemma export_inner : forall {L D W} (get : L -> res (option D)) (write : W -> D -> res unit * W)
    w l node nodes,
  export_data_stream get write w (ExportNode l (node :: nodes)) =
  export_all get write w (node :: nodes).
Proof.
  intros. change (export_data_stream get write w (ExportNode l (node :: nodes))) with
    (match export_data_stream get write w node with
     | (Ok _, w) =>
       (fix loop (w : W) (nodes : list (export_node L)) : res unit * W :=
          match nodes with
          | [] => (Ok tt, w)
          | node :: nodes =>
            match export_data_stream get write w node with
            | (Ok _, w) => loop w nodes
            | failed => failed
            end
          end) w nodes
     | failed => failed
     end).
  cbn [export_all]. destruct (export_data_stream get write w node) as [[u| |] w1]; try reflexivity.
  revert w1. induction nodes as [|n nodes IH]; intros w1; [reflexivity|]. cbn [export_all].
  destruct (export_data_stream get write w1 n) as [[u'| |] w2]; try reflexivity. apply IH.
Qed.

Lemma exported_app : forall {L D W} (get : L -> res (option D)) (write : W -> D -> res unit * W)
    w ls r w1, exported get write w ls r w1 -> forall ls' r' w2,
  (r = Ok tt -> exported get write w1 ls' r' w2) ->
  (r <> Ok tt -> r' = r /\ w2 = w1) ->
  exported get write w (ls ++ ls') r' w2.
Proof.
  intros L D W get write w ls r w1 H.
  induction H as [w|w l ls r w' G H IH|w l ls d w1 r w' G E H IH|w l ls d r w' G E N|w l ls r G N];
    intros ls' r' w2 H1 H2; cbn [app].
  - apply H1. reflexivity.
  - apply exported_none; [assumption|]. apply IH; assumption.
  - eapply exported_stream; [eassumption..|]. apply IH; assumption.
  - destruct (H2 N) as [-> ->]. eapply exported_no_write; eassumption.
  - assert (N' : (match r with Panic => @Panic unit | _ => Err end) <> Ok tt)
      by (destruct r; discriminate).
    destruct (H2 N') as [-> ->]. apply exported_no_stream; assumption.
Qed.

Lemma export_places : forall {L D W} (get : L -> res (option D)) (write : W -> D -> res unit * W),
  (forall node ls, places node ls -> forall w,
     exported get write w ls (fst (export_data_stream get write w node))
       (snd (export_data_stream get write w node))) /\
  (forall nodes ls, all_places nodes ls -> forall w,
     exported get write w ls (fst (export_all get write w nodes))
       (snd (export_all get write w nodes))).
Proof.
  intros L D W get write. apply places_both.
  - intros l w. cbn [export_data_stream].
    destruct (get l) as [[d|]| |] eqn:G; cbn [fst snd].
    + destruct (write w d) as [[[]| |] w1] eqn:E; cbn [fst snd].
      * eapply exported_stream; [eassumption..|apply exported_end].
      * eapply exported_no_write; [eassumption..|discriminate].
      * eapply exported_no_write; [eassumption..|discriminate].
    + apply exported_none; [assumption|apply exported_end].
    + apply (exported_no_stream get write w l [] Err); [assumption|discriminate].
    + apply (exported_no_stream get write w l [] Panic); [assumption|discriminate].
  - intros l node nodes ls _ IH w. rewrite export_inner. apply IH.
  - intros w. apply exported_end.
  - intros node nodes ls ls' _ IH1 _ IH2 w. cbn [export_all]. specialize (IH1 w).
    destruct (export_data_stream get write w node) as [[[]| |] w1]; cbn [fst snd] in *;
      (eapply exported_app; [exact IH1| |]).
    + intros _. apply IH2.
    + congruence.
    + discriminate.
    + split; reflexivity.
    + discriminate.
    + split; reflexivity.
Qed.

Lemma places_total : forall {L} (node : export_node L), exists ls, places node ls.
Proof.
  intros L. fix IH 1. intros [l nodes]. destruct nodes as [|node nodes].
  - exists [l]. constructor.
  - assert (H : exists ls, all_places (node :: nodes) ls).
    { generalize (node :: nodes). fix IHl 1. intros [|n ns].
      - exists []. constructor.
      - destruct (IH n) as [ls H1]. destruct (IHl ns) as [ls' H2].
        exists (ls ++ ls'). constructor; assumption. }
    destruct H as [ls H]. exists ls. constructor. exact H.
Qed.

(** ** Theorems *)

(** Every image, of any depth: the streams of its file systems are written in their order, up
    to the first failure. *)
Theorem C70_export_partial :
  forall {L D W} (get : L -> res (option D)) (write : W -> D -> res unit * W) w node,
  exists ls, places node ls /\
    exported get write w ls (fst (export_data_stream get write w node))
      (snd (export_data_stream get write w node)).
Proof.
  intros L D W get write w node. destruct (places_total node) as [ls H].
  exists ls. split; [exact H|]. apply (proj1 (export_places get write)). exact H.
Qed.
Print Assumptions C70_export_partial.

(** Where nothing fails, it succeeds, and the writer gets the streams that there are. *)
Theorem C70_all_streams :
  forall {L D} (get : L -> res (option D)) node ls, places node ls ->
  (forall l, In l ls -> exists o, get l = Ok o) ->
  forall written,
  export_data_stream get (fun w d => (Ok tt, w ++ [d])) written node =
  (Ok tt, written ++ flat_map (fun l => match get l with Ok (Some d) => [d] | _ => [] end) ls).
Proof.
  intros L D get node ls H Hg written.
  pose proof (proj1 (export_places get (fun w d => (Ok tt, w ++ [d]))) node ls H written) as E.
  assert (K : forall w (r : res unit) w', exported get (fun w d => (Ok tt, w ++ [d])) w ls r w' ->
    r = Ok tt /\ w' = w ++ flat_map (fun l => match get l with Ok (Some d) => [d] | _ => [] end) ls).
  { clear - Hg. intros w r w' E.
    induction E as [w|w l ls r w' G E IH|w l ls d w1 r w' G Ew E IH|w l ls d r w' G Ew N|w l ls r G N];
      cbn [flat_map].
    - now rewrite app_nil_r.
    - rewrite G. apply IH. intros x Hx. apply Hg. right. exact Hx.
    - rewrite G. injection Ew as <-. destruct IH as [-> ->].
      + intros x Hx. apply Hg. right. exact Hx.
      + split; [reflexivity|]. now rewrite <- app_assoc.
    - injection Ew as <- <-. congruence.
    - exfalso. destruct (Hg l (or_introl eq_refl)) as [o Ho]. rewrite G in Ho. exact (N o Ho). }
  destruct (K _ _ _ E) as [E1 E2].
  destruct (export_data_stream get (fun w d => (Ok tt, w ++ [d])) written node) as [r w'].
  cbn [fst snd] in E1, E2. now subst.
Qed.
Print Assumptions C70_all_streams.

(** Missing: a file system that cannot be asked keeps those after it from being exported. *)
Theorem C70_first_error_refuted :
  forall {L D W} (get : L -> res (option D)) (write : W -> D -> res unit * W) w image bad nodes,
  get bad = Err ->
  export_data_stream get write w (ExportNode image (ExportNode bad [] :: nodes)) = (Err, w).
Proof.
  intros L D W get write w image bad nodes G. rewrite export_inner.
  cbn [export_all export_data_stream]. rewrite G. reflexivity.
Qed.
Print Assumptions C70_first_error_refuted.

(** Missing: of several file systems that have the path only the stream of the last is left,
    although all are counted. *)
Theorem C70_only_last_refuted :
  forall {L} (get : L -> res (option (list N))) image first second data1 data2 number,
  get first = Ok (Some data1) -> get second = Ok (Some data2) ->
  export_data_stream get write_file (None, number)
    (ExportNode image [ExportNode first []; ExportNode second []]) =
  (Ok tt, (Some data2, number + 2)).
Proof.
  intros L get image first second data1 data2 number G1 G2. rewrite export_inner.
  cbn [export_all export_data_stream]. rewrite G1. cbn [write_file snd]. rewrite G2.
  unfold write_file. cbn [snd]. rewrite <- N.add_assoc. reflexivity.
Qed.
Print Assumptions C70_only_last_refuted.

(** ** A concrete case: an image with partitions 1 and 2, of which 2 has two layers, 3 and 4;
    the path is in 1 and 4. *)
Definition some_image : export_node N :=
  ExportNode 0 [ExportNode 1 []; ExportNode 2 [ExportNode 3 []; ExportNode 4 []]].
Definition some_streams (l : N) : res (option (list N)) :=
  if l =? 3 then Ok None else Ok (Some [l]).
Example C70_case : places some_image [1; 3; 4] /\
  export_data_stream some_streams (fun w d => (Ok tt, w ++ [d])) [] some_image =
  (Ok tt, [[1]; [4]]).
Proof.
  split; [|reflexivity]. apply places_inner.
  apply (all_some _ _ [1] [3; 4]); [constructor|].
  apply (all_some _ _ [3; 4] []); [|constructor]. apply places_inner.
  apply (all_some _ _ [3] [4]); [constructor|].
  apply (all_some _ _ [4] []); constructor; constructor.
Qed.
