(** * Model of the export of data streams, keramics-tools/src/export_tool.rs *)
From Verif Require Import Base.
Open Scope N_scope. Open Scope list_scope.

(** What was found in an image, keramics-vfs/src/scanner/scan_node.rs 18-24: a place, of any
    kind [L], and what was found in it. *)
Inductive export_node (L : Type) := ExportNode (location : L) (sub_nodes : list (export_node L)).
Arguments ExportNode {L}.

(** export_tool.rs 78-135 [export_data_stream_from_scan_node]. [get_data_stream] is what the
    resolver has in a place under the path and name that are asked for, export_tool.rs 87-100;
    [write] is the writer (modelled in Tools_model), with a state of any kind [W] that it also
    leaves when it fails. The loop of lines 116-132 ends with the first error. *)
Fixpoint export_data_stream {L D W} (get_data_stream : L -> res (option D))
    (write : W -> D -> res unit * W) (w : W) (node : export_node L) : res unit * W :=
  match node with
  | ExportNode location [] =>
    match get_data_stream location with
    | Ok (Some data_stream) => write w data_stream
    | Ok None => (Ok tt, w)
    | Err => (Err, w)
    | Panic => (Panic, w)
    end
  | ExportNode _ sub_nodes =>
    (fix loop (w : W) (nodes : list (export_node L)) : res unit * W :=
       match nodes with
       | [] => (Ok tt, w)
       | node :: nodes =>
         match export_data_stream get_data_stream write w node with
         | (Ok _, w) => loop w nodes
         | failed => failed
         end
       end) w sub_nodes
  end.

(** writer.rs 41-101 [write_data_stream] where it succeeds: the file keramics.bin of the target
    is made anew, with the data (C62 is about the writer itself). *)
Definition write_file (w : option (list N) * N) (data : list N) : res unit * (option (list N) * N) :=
  (Ok tt, (Some data, snd w + 1)).
