(** * Model of keramics-sigscan/src and keramics-formats/src/scanner.rs *)
From Coq Require Import String.
From Verif Require Import Base Lru_model.
Open Scope N_scope.
Open Scope list_scope.

(** enums.rs 14-20 *)
Inductive pattern_type := BoundToEnd | BoundToStart | Unbound.
Definition type_eq (a b : pattern_type) : bool :=
  match a, b with BoundToEnd, BoundToEnd | BoundToStart, BoundToStart | Unbound, Unbound => true | _, _ => false end.
(** signature.rs 21-55; the pattern size is the length of the pattern *)
Record signature := { identifier : string; s_type : pattern_type; s_offset : N; pattern : list N }.
Definition size_of (s : signature) : N := len (pattern s).
Fixpoint bytes_eq (a b : list N) : bool :=
  match a, b with
  | [], [] => true
  | x :: a, y :: b => (x =? y) && bytes_eq a b
  | _, _ => false
  end.
(** signature.rs 103-108 [PartialEq]: signatures with the same pattern are equal *)
Definition signature_eq (a b : signature) : bool := bytes_eq (pattern a) (pattern b).
Definition contains (l : list signature) (s : signature) : bool := existsb (fun s' => signature_eq s' s) l.

(** signature.rs 57-100 [scan_buffer]. The sum of an offset in the buffer and the size of
    a pattern does not overflow: both are lengths of vectors. *)
Definition signature_scan (s : signature) (data_offset data_size : N) (buffer : list N) (buffer_offset buffer_size : N) : res bool :=
  pattern_offset <- match s_type s with
                    | BoundToEnd => sub_chk data_size (s_offset s)
                    | BoundToStart => Ok (s_offset s)
                    | Unbound => Ok data_offset
                    end ;;
  if pattern_offset <? data_offset then Ok false
  else
    let scan_offset := match s_type s with Unbound => buffer_offset | _ => pattern_offset - data_offset end in
    let scan_end_offset := scan_offset + size_of s in
    if (buffer_size <? scan_end_offset) || (data_size <? scan_end_offset) then Ok false
    else
      found <- slice buffer scan_offset scan_end_offset ;;
      Ok (bytes_eq found (pattern s) && match s_type s with Unbound => true | _ => data_offset + scan_offset =? pattern_offset end).

(** constants.rs 14-273 *)
Definition common_byte (b : N) : bool :=
  existsb (fun '(first, last) => (first <=? b) && (b <=? last))
    [(0x00, 0x01); (0x09, 0x0a); (0x0d, 0x0d); (0x20, 0x20); (0x30, 0x39); (0x41, 0x5a); (0x61, 0x7a); (0xff, 0xff)].

(** groups.rs 20-50, 78-101: the signatures by byte value. The code uses a [HashMap]; the
    order of its entries has no effect on the weights, on the membership of signatures or on
    the objects of a node, which are looked up by key. *)
Definition byte_groups := list (N * list signature).
Fixpoint byte_insert (groups : byte_groups) (b : N) (s : signature) : byte_groups :=
  match groups with
  | [] => [(b, [s])]
  | (b', l) :: groups => if b =? b' then (b', l ++ [s]) :: groups else (b', l) :: byte_insert groups b s
  end.
(** signature_table.rs 26-51. [byte_value_groups] is a [BTreeMap], in the order of the
    offsets. *)
Record signature_table := { t_type : pattern_type; t_groups : list (N * byte_groups); t_smallest : N; t_signatures : list signature }.
Definition table_new (ty : pattern_type) : signature_table := {| t_type := ty; t_groups := []; t_smallest := 0; t_signatures := [] |}.
Fixpoint offset_insert (groups : list (N * byte_groups)) (o b : N) (s : signature) : list (N * byte_groups) :=
  match groups with
  | [] => [(o, [(b, [s])])]
  | (o', g) :: rest =>
      if o =? o' then (o', byte_insert g b s) :: rest
      else if o <? o' then (o, [(b, [s])]) :: groups
      else (o', g) :: offset_insert rest o b s
  end.
Fixpoint offset_get (groups : list (N * byte_groups)) (o : N) : option byte_groups :=
  match groups with
  | [] => None
  | (o', g) :: rest => if o =? o' then Some g else offset_get rest o
  end.
(** signature_table.rs 386-407 [insert_signature] *)
Definition table_insert (t : signature_table) (o b : N) (s : signature) : signature_table :=
  {| t_type := t_type t; t_groups := offset_insert (t_groups t) o b s;
     t_smallest := match offset_get (t_groups t) o with Some _ => t_smallest t | None => N.min o (t_smallest t) end;
     t_signatures := t_signatures t |}.
(** signature_table.rs 115-125: the bytes of the pattern that are not at an offset to ignore *)
Fixpoint table_bytes (ignore : list N) (o : N) (bytes : list N) (s : signature) (t : signature_table) : signature_table :=
  match bytes with
  | [] => t
  | b :: bytes => table_bytes ignore (o + 1) bytes s (if existsb (N.eqb o) ignore then t else table_insert t o b s)
  end.
(** signature_table.rs 93-128 [fill] *)
Definition table_offset (ty : pattern_type) (largest : N) (s : signature) : res N :=
  match ty with BoundToEnd => sub_chk largest (s_offset s) | BoundToStart => Ok (s_offset s) | Unbound => Ok 0 end.
Fixpoint table_fill (signatures : list signature) (ignore : list N) (largest : N) (t : signature_table) : res signature_table :=
  match signatures with
  | [] => Ok t
  | s :: signatures =>
      if negb (type_eq (s_type s) (t_type t)) then table_fill signatures ignore largest t
      else
        o <- table_offset (t_type t) largest s ;;
        table_fill signatures ignore largest
          (table_bytes ignore o (pattern s) s
             {| t_type := t_type t; t_groups := t_groups t; t_smallest := t_smallest t; t_signatures := t_signatures t ++ [s] |})
  end.

(** pattern_weights.rs 19-60 *)
Record pattern_weights := { offset_groups : list (N * list N); weights : list (N * N); largest_weight : N }.
Definition weights_new : pattern_weights := {| offset_groups := []; weights := []; largest_weight := 0 |}.
Definition append_weight (w : pattern_weights) (o weight : N) : pattern_weights :=
  {| offset_groups := hm_insert (offset_groups w) weight (match hm_get (offset_groups w) weight with Some l => l ++ [o] | None => [o] end);
     weights := hm_insert (weights w) o weight; largest_weight := N.max weight (largest_weight w) |}.
Definition get_weight (w : pattern_weights) (o : N) : N := match hm_get (weights w) o with Some v => v | None => 0 end.
(** signature_table.rs 67-90 [calculate_pattern_weights]: byte value, occurrence and
    similarity weights *)
Definition occurrence_weights (t : signature_table) : pattern_weights :=
  fold_left (fun w '(o, g) => if 1 <? len g then append_weight w o (len g) else w) (t_groups t) weights_new.
Definition similarity_weights (t : signature_table) : pattern_weights :=
  fold_left (fun w '(o, g) => fold_left (fun w '(_, l) => if 1 <? len l then append_weight w o (len l) else w) g w) (t_groups t) weights_new.
Definition byte_value_weights (t : signature_table) : pattern_weights :=
  fold_left (fun w '(o, g) => fold_left (fun w '(b, _) => if common_byte b then append_weight w o 1 else w) g w) (t_groups t) weights_new.
(** signature_table.rs 155-195 *)
Definition heaviest (w : pattern_weights) : option (list N) := hm_get (offset_groups w) (largest_weight w).
Definition offset_by_byte_value (t : signature_table) : option N :=
  match heaviest (byte_value_weights t) with Some (o :: _) => Some o | _ => None end.
(** signature_table.rs 197-265. [offsets[0]] and the loop are over lists that have an
    element. *)
Definition offset_by_occurrence (t : signature_table) : option N :=
  match heaviest (occurrence_weights t) with
  | Some offsets =>
      let bw := byte_value_weights t in
      let '(_, _, o) := fold_left (fun '(first, largest, best) o =>
        if first || (largest <? get_weight bw o) then (false, get_weight bw o, o) else (false, largest, best)) offsets (true, 0, 0) in
      Some o
  | None => offset_by_byte_value t
  end.
(** signature_table.rs 267-353 *)
Definition offset_by_similarity (t : signature_table) : option N :=
  match heaviest (similarity_weights t) with
  | Some offsets =>
      let bw := byte_value_weights t in
      let ow := occurrence_weights t in
      let '(_, _, _, o) := fold_left (fun '(first, largest_byte, largest_occurrence, best) o =>
        let largest_occurrence :=
          if (0 <? largest_occurrence) && (get_weight ow o =? largest_occurrence) && (largest_byte <? get_weight bw o) then 0 else largest_occurrence in
        if first || (largest_occurrence <? get_weight ow o) then (false, get_weight bw o, get_weight ow o, o)
        else (false, largest_byte, largest_occurrence, best)) offsets (true, 0, 0, 0) in
      Some o
  | None => offset_by_occurrence t
  end.
(** signature_table.rs 130-153 *)
Definition most_significant_offset (t : signature_table) : option N :=
  let result :=
    match t_signatures t with
    | [] => None
    | [_] => offset_by_byte_value t
    | [_; _] => offset_by_occurrence t
    | _ => offset_by_similarity t
    end in
  match result with
  | Some o => Some o
  | None => match t_groups t with [] => None | _ => Some (t_smallest t) end
  end.
(** signature_table.rs 355-383 *)
Definition groups_at (t : signature_table) (o : N) : byte_groups := match offset_get (t_groups t) o with Some g => g | None => [] end.
Definition signatures_at (t : signature_table) (o : N) : list signature :=
  fold_left (fun acc s => if contains acc s then acc else acc ++ [s]) (flat_map snd (groups_at t o)) [].

(** scan_tree.rs 29-44; the default object has the key [None] *)
Inductive scan_object := ONode (offset : N) (objects : list (option N * scan_object)) | OSignature (s : signature).
Definition node := (N * list (option N * scan_object))%type.
Fixpoint object_get (objects : list (option N * scan_object)) (k : option N) : option scan_object :=
  match objects with
  | [] => None
  | (k', o) :: rest =>
      if match k, k' with Some a, Some b => a =? b | None, None => true | _, _ => false end then Some o else object_get rest k
  end.
Fixpoint mapM {A B} (f : A -> res B) (l : list A) : res (list B) :=
  match l with
  | [] => Ok []
  | x :: l => y <- f x ;; ys <- mapM f l ;; Ok (y :: ys)
  end.
(** scan_tree.rs 55-159 [build]; [fuel] bounds the depth of the recursion, which is on the
    call stack in the code: out of fuel, [Panic], stands for its exhaustion. *)
Fixpoint node_build (fuel : nat) (t : signature_table) (ignore : list N) (largest : N) : res node :=
  match fuel with
  | O => Panic
  | S fuel =>
      o <- of_option (most_significant_offset t) ;;
      let in_node := signatures_at t o in
      let remaining := filter (fun s => negb (contains in_node s)) (t_signatures t) in
      let ignore := ignore ++ [o] in
      objects <- mapM (fun '(b, group) =>
        match group with
        | [] => Err
        | [s] => Ok (Some b, OSignature s)
        | _ =>
            sub <- table_fill group ignore largest (table_new (t_type t)) ;;
            sub <- table_fill remaining ignore largest sub ;;
            '(o, objects) <- node_build fuel sub ignore largest ;;
            Ok (Some b, ONode o objects)
        end) (groups_at t o) ;;
      rest <- match remaining with
              | [] => Ok []
              | [s] => Ok [(None, OSignature s)]
              | _ =>
                  sub <- table_fill remaining ignore largest (table_new (t_type t)) ;;
                  '(o, objects) <- node_build fuel sub ignore largest ;;
                  Ok [(None, ONode o objects)]
              end ;;
      Ok (o, objects ++ rest)
  end.

(** scan_result.rs *)
Inductive scan_result := RNone | RNode (n : node) | RSignature (s : signature).
(** scan_tree.rs 161-238 [scan_buffer]; the last match, at 218-237 *)
Definition object_scan (object : option scan_object) (data_offset data_size : N) (buffer : list N) (buffer_offset buffer_size : N) : res scan_result :=
  match object with
  | Some (ONode o objects) => Ok (RNode (o, objects))
  | Some (OSignature s) =>
      found <- signature_scan s data_offset data_size buffer buffer_offset buffer_size ;;
      Ok (if found then RSignature s else RNone)
  | None => Ok RNone
  end.
Definition node_scan (n : node) (data_offset data_size : N) (buffer : list N) (buffer_offset buffer_size : N) : res scan_result :=
  let '(offset, objects) := n in
  if data_size <=? data_offset then Ok RNone
  else
    let scan_offset := buffer_offset + offset in
    found <- (if (scan_offset <? buffer_size) && (scan_offset <? data_size - data_offset) then
                b <- idx buffer scan_offset ;; Ok (object_get objects (Some b))
              else Ok None) ;;
    match found with
    | Some (OSignature s) =>
        m <- signature_scan s data_offset data_size buffer buffer_offset buffer_size ;;
        if m then Ok (RSignature s) else object_scan (object_get objects None) data_offset data_size buffer buffer_offset buffer_size
    | Some object => object_scan (Some object) data_offset data_size buffer buffer_offset buffer_size
    | None => object_scan (object_get objects None) data_offset data_size buffer buffer_offset buffer_size
    end.

(** skip_table.rs 20-78 *)
Record skip_table := { smallest_pattern_size : N; skip_values : list (N * N); smallest_skip_value : N }.
Definition skip_empty : skip_table := {| smallest_pattern_size := 0; skip_values := []; smallest_skip_value := 0 |}.
Definition skip_step (state : N * list (N * N) * N) (b : N) : N * list (N * N) * N :=
  let '(skip, values, least) := state in
  let skip := skip - 1 in
  let insert := match hm_get values b with Some v => skip <? v | None => true end in
  (skip, if insert then hm_insert values b skip else values, if insert && (0 <? skip) then N.min skip least else least).
Definition skip_bytes (smallest : N) (bytes : list N) (values : list (N * N)) (least : N) : list (N * N) * N :=
  let '(_, values, least) := fold_left skip_step bytes (smallest, values, least) in (values, least).
Fixpoint skip_fill (smallest : N) (signatures : list signature) (values : list (N * N)) (least : N) : res skip_table :=
  match signatures with
  | [] => Ok {| smallest_pattern_size := smallest; skip_values := values; smallest_skip_value := least |}
  | s :: signatures =>
      bytes <- slice (pattern s) 0 smallest ;;
      let '(values, least) := skip_bytes smallest bytes values least in
      skip_fill smallest signatures values least
  end.
Definition smallest_size (signatures : list signature) : N :=
  fold_left (fun m s => if m =? 0 then size_of s else N.min (size_of s) m) signatures 0.
Definition skip_of (signatures : list signature) : res skip_table :=
  let smallest := smallest_size signatures in skip_fill smallest signatures [] smallest.
Definition skip_value (t : skip_table) (b : N) : N := match hm_get (skip_values t) b with Some v => v | None => 0 end.

(** scan_tree.rs 241-302. [range_start_offset] stays 0. *)
Record scan_tree := { st_type : pattern_type; range_end : N; root : node; skips : skip_table }.
Fixpoint spanning (ty : pattern_type) (signatures : list signature) (range_end n : N) : res (N * N) :=
  match signatures with
  | [] => Ok (range_end, n)
  | s :: signatures =>
      if type_eq (s_type s) ty then
        e <- add_chk two64 (s_offset s) (size_of s) ;; spanning ty signatures (N.max e range_end) (n + 1)
      else spanning ty signatures range_end n
  end.
Definition tree_build (fuel : nat) (ty : pattern_type) (signatures : list signature) : res scan_tree :=
  '(e, n) <- spanning ty signatures 0 0 ;;
  if 0 <? n then
    t <- table_fill signatures [] e (table_new ty) ;;
    r <- node_build fuel t [] e ;;
    s <- skip_of signatures ;;
    Ok {| st_type := ty; range_end := e; root := r; skips := s |}
  else Ok {| st_type := ty; range_end := e; root := (0, []); skips := skip_empty |}.
(** scanner.rs 21-60 *)
Record scanner := { header_tree : scan_tree; footer_tree : scan_tree; unbound_tree : scan_tree }.
Definition scanner_build (fuel : nat) (signatures : list signature) : res scanner :=
  h <- tree_build fuel BoundToStart signatures ;;
  f <- tree_build fuel BoundToEnd signatures ;;
  u <- tree_build fuel Unbound signatures ;;
  Ok {| header_tree := h; footer_tree := f; unbound_tree := u |}.

(** scan_context.rs 25-48 *)
Record scan_context := { sc_scanner : scanner; data_offset : N; data_size : N; results : list (N * signature) }.
Definition context_new (s : scanner) (size : N) : scan_context := {| sc_scanner := s; data_offset := 0; data_size := size; results := [] |}.
Definition header_range_size (s : scanner) : N := range_end (header_tree s).
Definition footer_range_size (s : scanner) : N := range_end (footer_tree s).

(** scan_context.rs 112-133: the loop that finds the skip value *)
Fixpoint skip_loop (fuel : nat) (t : scan_tree) (buffer : list N) (buffer_offset o : N) : res N :=
  match fuel with
  | O => Panic
  | S fuel =>
      b <- idx buffer o ;;
      let v := skip_value (skips t) b in
      let v := if v =? 0 then match st_type t with Unbound => smallest_skip_value (skips t) | _ => smallest_pattern_size (skips t) end else v in
      o <- sub_chk o 1 ;;
      if (o <=? buffer_offset) || negb (v =? 0) then Ok v else skip_loop fuel t buffer buffer_offset o
  end.
(** scan_context.rs 74-140 [scan_buffer_with_scan_tree]. The loop goes down the tree and
    forward in the buffer; [fuel] is never used up when the skip values are not 0. *)
Fixpoint tree_scan (fuel : nat) (t : scan_tree) (data_offset data_size : N) (buffer : list N) (n : node) (buffer_offset : N)
    (results : list (N * signature)) : res (list (N * signature)) :=
  match fuel with
  | O => Panic
  | S fuel =>
      let buffer_size := len buffer in
      if buffer_offset <? buffer_size then
        r <- node_scan n data_offset data_size buffer buffer_offset buffer_size ;;
        match r with
        | RNode n => tree_scan fuel t data_offset data_size buffer n buffer_offset results
        | RSignature s =>
            o <- match s_type s with
                 | BoundToEnd => sub_chk data_size (s_offset s)
                 | BoundToStart => Ok (s_offset s)
                 | Unbound => Ok data_offset
                 end ;;
            let results := hm_insert results o s in
            match st_type t with
            | Unbound => tree_scan fuel t data_offset data_size buffer n (buffer_offset + size_of s) results
            | _ => Ok results
            end
        | RNone =>
            o <- sub_chk (buffer_offset + N.min buffer_size (smallest_pattern_size (skips t))) 1 ;;
            v <- skip_loop (S (length buffer)) t buffer buffer_offset (N.min o (buffer_size - 1)) ;;
            match st_type t with
            | Unbound => tree_scan fuel t data_offset data_size buffer n (buffer_offset + v) results
            | _ => Ok results
            end
        end
      else Ok results
  end.
Fixpoint depth (o : scan_object) : nat :=
  match o with
  | OSignature _ => O
  | ONode _ objects => S ((fix go l := match l with [] => O | (_, o) :: l => Nat.max (depth o) (go l) end) objects)
  end.
Definition node_depth (n : node) : nat := depth (ONode (fst n) (snd n)).
Definition scan_with_tree (t : scan_tree) (data_offset data_size : N) (buffer : list N) (buffer_offset : N) (results : list (N * signature))
    : res (list (N * signature)) :=
  tree_scan (S (node_depth (root t) + length buffer)) t data_offset data_size buffer (root t) buffer_offset results.
(** scan_context.rs 143-188 [scan_buffer] *)
Definition scan_buffer (c : scan_context) (buffer : list N) : res scan_context :=
  let buffer_size := len buffer in
  if buffer_size =? 0 then Ok c
  else
    let s := sc_scanner c in
    r <- (if data_offset c <? header_range_size s then scan_with_tree (header_tree s) (data_offset c) (data_size c) buffer 0 (results c)
          else Ok (results c)) ;;
    next <- add_chk two64 (data_offset c) buffer_size ;;
    let footer_start := if footer_range_size s <=? data_size c then data_size c - footer_range_size s else 0 in
    r <- (if footer_start <=? next then
            let remaining := next - footer_start in
            let start := if remaining <? buffer_size then buffer_size - remaining else 0 in
            scan_with_tree (footer_tree s) (data_offset c) (data_size c) buffer start r
          else Ok r) ;;
    r <- (if 0 <? range_end (unbound_tree s) then scan_with_tree (unbound_tree s) (data_offset c) (data_size c) buffer 0 r else Ok r) ;;
    Ok {| sc_scanner := s; data_offset := next; data_size := data_size c; results := r |}.
(** A sequence of calls. *)
Fixpoint scan_buffers (c : scan_context) (buffers : list (list N)) : res scan_context :=
  match buffers with
  | [] => Ok c
  | b :: buffers => c <- scan_buffer c b ;; scan_buffers c buffers
  end.

(** ** keramics-formats/src/scanner.rs *)
Definition sig (id : string) (ty : pattern_type) (o : N) (p : list N) : signature := {| identifier := id; s_type := ty; s_offset := o; pattern := p |}.
(** scanner.rs 36-251: all [add_..._signatures] *)
Definition format_signatures : list signature :=
  [sig "apm1" BoundToStart 560 ([0x41; 0x70; 0x70; 0x6c; 0x65; 0x5f; 0x70; 0x61; 0x72; 0x74; 0x69; 0x74; 0x69; 0x6f; 0x6e; 0x5f; 0x6d; 0x61; 0x70] ++ repeat 0 13);
   sig "ext1" BoundToStart 1080 [0x53; 0xef];
   sig "ewf1" BoundToStart 0 [0x45; 0x56; 0x46; 0x09; 0x0d; 0x0a; 0xff; 0x00];
   sig "fat1" BoundToStart 54 [0x46; 0x41; 0x54; 0x31; 0x32; 0x20; 0x20; 0x20];
   sig "fat2" BoundToStart 54 [0x46; 0x41; 0x54; 0x31; 0x36; 0x20; 0x20; 0x20];
   sig "fat3" BoundToStart 82 [0x46; 0x41; 0x54; 0x33; 0x32; 0x20; 0x20; 0x20];
   sig "gpt1" BoundToStart 512 [0x45; 0x46; 0x49; 0x20; 0x50; 0x41; 0x52; 0x54];
   sig "gpt2" BoundToStart 1024 [0x45; 0x46; 0x49; 0x20; 0x50; 0x41; 0x52; 0x54];
   sig "gpt3" BoundToStart 2048 [0x45; 0x46; 0x49; 0x20; 0x50; 0x41; 0x52; 0x54];
   sig "gpt4" BoundToStart 4096 [0x45; 0x46; 0x49; 0x20; 0x50; 0x41; 0x52; 0x54];
   sig "mbr1" BoundToStart 510 [0x55; 0xaa];
   sig "mbr2" BoundToStart 1022 [0x55; 0xaa];
   sig "mbr3" BoundToStart 2046 [0x55; 0xaa];
   sig "mbr4" BoundToStart 4094 [0x55; 0xaa];
   sig "ntfs1" BoundToStart 3 [0x4e; 0x54; 0x46; 0x53; 0x20; 0x20; 0x20; 0x20];
   sig "qcow1" BoundToStart 0 [0x51; 0x46; 0x49; 0xfb; 0x00; 0x00; 0x00; 0x01];
   sig "qcow2" BoundToStart 0 [0x51; 0x46; 0x49; 0xfb; 0x00; 0x00; 0x00; 0x02];
   sig "qcow3" BoundToStart 0 [0x51; 0x46; 0x49; 0xfb; 0x00; 0x00; 0x00; 0x03];
   sig "sparseimage1" BoundToStart 0 [0x73; 0x70; 0x72; 0x73];
   sig "udif1" BoundToEnd 512 [0x6b; 0x6f; 0x6c; 0x79];
   sig "vhd1" BoundToEnd 512 [0x63; 0x6f; 0x6e; 0x65; 0x63; 0x74; 0x69; 0x78];
   sig "vhdx1" BoundToStart 0 [0x76; 0x68; 0x64; 0x78; 0x66; 0x69; 0x6c; 0x65]].
(** scanner.rs 259-322 [scan_data_stream] of a stream with the given content, up to the
    signatures found; their formats are named by their identifiers. A read gives what is
    left of the content, the rest of the vector keeps its zeros. *)
Definition vec_read (n : N) (at_ : N) (content : list N) (o : N) : list N :=
  let d := firstn (N.to_nat (n - at_)) (skipn (N.to_nat o) content) in
  repeat 0 (N.to_nat at_) ++ d ++ repeat 0 (N.to_nat (n - at_ - len d)).
Definition scan_data_stream (s : scanner) (content : list N) : res (list (N * signature)) :=
  let size := len content in
  c <- scan_buffer (context_new s size) (vec_read (header_range_size s) 0 content 0) ;;
  let f := footer_range_size s in
  let at_ := if f <? size then 0 else f - size in
  let o := if f <? size then size - f else 0 in
  c <- scan_buffer {| sc_scanner := s; data_offset := o; data_size := size; results := results c |} (vec_read f at_ content o) ;;
  Ok (results c).
(** The sets the tools and the virtual file system build scanners for:
    keramics-vfs/src/scanner/scanner.rs 88-96 and keramics-tools/src/image_tool.rs 1033-1041
    (storage media images), 106-108, 110-112, 114-115 (volume systems, phase 1 to 3),
    117-120 (file systems); keramics-tools/src/info_tool.rs 96-108 (all but MBR). *)
Definition only (ids : list string) : list signature := filter (fun s => existsb (String.eqb (identifier s)) ids) format_signatures.
Definition image_signatures : list signature := only ["ewf1"; "qcow1"; "qcow2"; "qcow3"; "sparseimage1"; "udif1"; "vhd1"; "vhdx1"]%string.
Definition volume_signatures1 : list signature := only ["apm1"; "gpt1"; "gpt2"; "gpt3"; "gpt4"]%string.
Definition volume_signatures2 : list signature := only ["fat1"; "fat2"; "fat3"; "ntfs1"]%string.
Definition volume_signatures3 : list signature := only ["mbr1"; "mbr2"; "mbr3"; "mbr4"]%string.
Definition file_system_signatures : list signature := only ["ext1"; "fat1"; "fat2"; "fat3"; "ntfs1"]%string.
Definition info_signatures : list signature :=
  filter (fun s => negb (existsb (String.eqb (identifier s)) ["mbr1"; "mbr2"; "mbr3"; "mbr4"]%string)) format_signatures.
Definition shipped : list (list signature) :=
  [image_signatures; volume_signatures1; volume_signatures2; volume_signatures3; file_system_signatures; info_signatures].
