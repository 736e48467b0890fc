(** * Model of the VFS scanner

    keramics-vfs/src/scanner/scanner.rs and scan_node.rs. *)
From Coq Require Import String Ascii.
From Verif Require Import Base Formatters_model VfsContext_model.
Open Scope N_scope.
Open Scope list_scope.

(** keramics-formats/src/enums.rs [FormatIdentifier], those of the VFS scanner *)
Inductive format := FApm | FExt | FEwf | FFat | FGpt | FMbr | FNtfs | FQcow | FSparseImage | FUdif | FVhd | FVhdx.
(** enums.rs 15-26 [VfsFileType]; the types that are treated alike are taken together *)
Inductive file_type := DeviceType | FileType | OtherType.

(** scan_node.rs 18-24 [VfsScanNode] *)
Inductive scan_node := Node (l : location) (sub_nodes : list scan_node).

(** path.rs 38-55 [from_path]: the variant and the text *)
Definition from_path (t : vfs_type) (s : list N) : vpath :=
  (match t with TExt => 0 | TFat => 1 | TNtfs => 2 | TOs => 3 | _ => 4 end, s).
(** location.rs 43-49 [new_with_layer] *)
Definition new_with_layer (l : location) (t : vfs_type) (path : vpath) : location := LLayer path l t.
(** file_system.rs [PATH_PREFIX] of apm, ewf, gpt, mbr, qcow, sparseimage, udif, vhd and vhdx *)
Definition path_prefix_of (t : vfs_type) : list N :=
  chars (match t with
         | TApm => "/apm" | TEwf => "/ewf" | TGpt => "/gpt" | TMbr => "/mbr" | TQcow => "/qcow"
         | TSparseImage => "/sparseimage" | TUdif => "/udif" | TVhd => "/vhd" | TVhdx => "/vhdx" | _ => "" end)%string.
(** scanner.rs 312-315, 475-478, 738-741, 765-768 *)
Definition root_path (t : vfs_type) : list N := match t with TNtfs => [92] | _ => [47] end.

Section Scanner.
Context {D : Type}.
(** What the signature scanners find in a data stream (C39): a set, as a list without
    duplicates *)
Variables image_scanner phase1_scanner phase2_scanner phase3_scanner file_system_scanner : D -> res (list format).
(** [open_file_system] of the resolver: whether it succeeds *)
Variable resolve : location -> res unit.
(** The type of the file entry at a location, if there is one, and its data stream *)
Variable type_at : location -> res (option file_type).
Variable stream_at : location -> res (option D).
(** [open_volume_system], [open_image] and [open_file] of a type with the file at a location:
    the number of partitions or layers *)
Variable number_at : vfs_type -> location -> res N.

(** scanner.rs 216-247 [scan_for_file_system_format] *)
Definition scan_for_file_system_format (d : D) : res (option vfs_type) :=
  scan_results <- file_system_scanner d ;;
  if 1 <? len scan_results then Err
  else
    match scan_results with
    | FExt :: _ => Ok (Some TExt)
    | FFat :: _ => Ok (Some TFat)
    | FNtfs :: _ => Ok (Some TNtfs)
    | _ :: _ => Err
    | [] => Ok None
    end.
(** scanner.rs 250-287 [scan_for_storage_media_image_format] *)
Definition scan_for_storage_media_image_format (d : D) : res (option vfs_type) :=
  scan_results <- image_scanner d ;;
  if 1 <? len scan_results then Err
  else
    match scan_results with
    | FEwf :: _ => Ok (Some TEwf)
    | FQcow :: _ => Ok (Some TQcow)
    | FSparseImage :: _ => Ok (Some TSparseImage)
    | FUdif :: _ => Ok (Some TUdif)
    | FVhd :: _ => Ok (Some TVhd)
    | FVhdx :: _ => Ok (Some TVhdx)
    | _ :: _ => Err
    | [] => Ok None
    end.
(** scanner.rs 638-727 [scan_for_volume_system_format] *)
Definition scan_for_volume_system_format (d : D) : res (option vfs_type) :=
  scan_results <- phase1_scanner d ;;
  if 1 <? len scan_results then Err
  else
    match scan_results with
    | FApm :: _ => Ok (Some TApm)
    | FGpt :: _ => Ok (Some TGpt)
    | _ :: _ => Err
    | [] =>
      scan_results <- phase2_scanner d ;;
      if 1 <? len scan_results then Err
      else
        match scan_results with
        | FFat :: _ => Ok None
        | FNtfs :: _ => Ok None
        | _ :: _ => Err
        | [] =>
          scan_results <- phase3_scanner d ;;
          if 1 <? len scan_results then Err
          else
            match scan_results with
            | FMbr :: _ => Ok (Some TMbr)
            | _ :: _ => Err
            | [] => Ok None
            end
        end
    end.

(** scanner.rs 163-213 [scan_for_format] *)
Definition scan_for_format (l : location) : res (option vfs_type) :=
  stream <- stream_at l ;;
  match stream with
  | None => Err
  | Some d =>
    match location_type l with
    | TApm | TGpt | TMbr => scan_for_file_system_format d
    | TEwf | TQcow | TVhd | TVhdx =>
      result <- scan_for_volume_system_format d ;;
      match result with Some t => Ok (Some t) | None => scan_for_file_system_format d end
    | TFake | TOs =>
      result <- scan_for_storage_media_image_format d ;;
      match result with
      | Some t => Ok (Some t)
      | None =>
        result <- scan_for_volume_system_format d ;;
        match result with Some t => Ok (Some t) | None => scan_for_file_system_format d end
      end
    | _ => Err
    end
  end.

(** The type found in the stream at a location, and the node for it with what [sub] finds:
    scanner.rs 310-331, 473-492, 763-784 *)
Definition node_for_format (sub : location -> location -> res (list scan_node)) (l : location) : res (list scan_node) :=
  found <- scan_for_format l ;;
  match found with
  | Some t =>
    let node := new_with_layer l t (from_path t (root_path t)) in
    sub_nodes <- sub l node ;;
    Ok [Node node sub_nodes]
  | None => Ok []
  end.
(** scanner.rs 753-788: the loop over the volumes from an index on *)
Fixpoint volume_nodes (sub : location -> location -> res (list scan_node)) (l : location) (t : vfs_type) (count : nat) (volume_index : N) : res (list scan_node) :=
  match count with
  | O => Ok []
  | S count =>
    let volume := new_with_layer l t (from_path t (path_prefix_of t ++ number_text (volume_index + 1))) in
    sub_nodes <- node_for_format sub volume ;;
    rest <- volume_nodes sub l t count (volume_index + 1) ;;
    Ok (Node volume sub_nodes :: rest)
  end.
(** scanner.rs 730-790 [scan_for_volume_system_sub_nodes] *)
Definition volume_system_sub_nodes (sub : location -> location -> res (list scan_node)) (l : location) (t : vfs_type) (number_of_volumes : N) : res (list scan_node) :=
  resolve (new_with_layer l t (from_path t (root_path t))) ;;;
  volume_nodes sub l t (N.to_nat number_of_volumes) 0.
(** scanner.rs 290-333 [scan_for_storage_media_image_sub_nodes] *)
Definition image_sub_nodes (sub : location -> location -> res (list scan_node)) (l : location) (t : vfs_type) (number_of_layers : N) : res (list scan_node) :=
  if number_of_layers =? 0 then Ok []
  else
    let layer := new_with_layer l t (from_path t (path_prefix_of t ++ number_text number_of_layers)) in
    resolve layer ;;;
    node_for_format sub layer.
(** scanner.rs 336-635 [scan_for_sub_nodes]: the sub nodes of a node whose data is at [l]. Without
    fuel it is [Panic]. *)
Fixpoint scan_for_sub_nodes (fuel : nat) (l node : location) : res (list scan_node) :=
  match fuel with
  | O => Panic
  | S fuel =>
    match location_type node with
    | TApm | TGpt | TMbr =>
      n <- number_at (location_type node) l ;;
      volume_system_sub_nodes (scan_for_sub_nodes fuel) l (location_type node) n
    | TExt | TFat | TNtfs => Ok []
    | TEwf | TSparseImage | TUdif =>
      number_at (location_type node) l ;;;
      image_sub_nodes (scan_for_sub_nodes fuel) l (location_type node) 1
    | TQcow | TVhd | TVhdx =>
      n <- number_at (location_type node) l ;;
      image_sub_nodes (scan_for_sub_nodes fuel) l (location_type node) n
    | TOs => node_for_format (scan_for_sub_nodes fuel) l
    | TFake => Err
    end
  end.
(** scanner.rs 126-160 [scan]: the root node *)
Definition scan (fuel : nat) (l : location) : res scan_node :=
  resolve l ;;;
  entry <- type_at l ;;
  match entry with
  | Some FileType => sub_nodes <- scan_for_sub_nodes fuel l l ;; Ok (Node l sub_nodes)
  | _ => Err
  end.
End Scanner.
