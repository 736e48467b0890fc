(** * keramics-formats/src/block_tree.rs and block_tree_node.rs *)
From Verif Require Import Base.

(** [u64::div_ceil] *)
Definition div_ceil (a b : N) : res N :=
  q <- div_chk a b ;; Ok (if a mod b =? 0 then q else q + 1).

Section BlockTree.
  Context {V : Type}.

  (** block_tree_node.rs:26-41 [BlockTreeNode]: [offset], [element_size] and the
      [sub_nodes] of a branch or the [values] of a leaf; the other vector of a
      node is always empty. *)
  Inductive bt_node :=
  | Branch (offset element_size : N) (sub_nodes : list (option bt_node))
  | Leaf (offset element_size : N) (values : list (option V)).

  (** block_tree.rs:20-32 [BlockTree] *)
  Record block_tree := {
    bt_data_size : N;
    bt_elements_per_node : N;
    bt_leaf_value_size : N;
    bt_root : option bt_node
  }.

  (** block_tree.rs:36-43 [new] *)
  Definition bt_new (data_size elements_per_node leaf_value_size : N) : block_tree :=
    {| bt_data_size := data_size; bt_elements_per_node := elements_per_node;
       bt_leaf_value_size := leaf_value_size; bt_root := None |}.

  (** [while size / element_size > elements_per_node { element_size *= elements_per_node }]
      of block_tree.rs:50-52 and block_tree_node.rs:74-76. 66 rounds are more than
      a 64-bit value allows; not ending by then is a panic here. *)
  Fixpoint bt_grow (fuel : nat) (size elements_per_node element_size : N) : res N :=
    match fuel with
    | O => Panic
    | S fuel' =>
        q <- div_chk size element_size ;;
        if elements_per_node <? q then
          element_size <- mul_chk two64 element_size elements_per_node ;;
          bt_grow fuel' size elements_per_node element_size
        else Ok element_size
    end.

  (** block_tree.rs:46-72 [create_root_node] *)
  Definition bt_create_root (t : block_tree) (size : N) : res bt_node :=
    product <- mul_chk two64 (bt_elements_per_node t) (bt_leaf_value_size t) ;;
    element_size <-
      (if bt_leaf_value_size t <? product
       then bt_grow 66 (bt_data_size t) (bt_elements_per_node t) (bt_leaf_value_size t)
       else Ok (bt_leaf_value_size t)) ;;
    elements_per_node <- div_ceil (bt_data_size t) element_size ;;
    Ok (if element_size <=? size
        then Leaf 0 element_size (repeat None (N.to_nat elements_per_node))
        else Branch 0 element_size (repeat None (N.to_nat elements_per_node))).

  (** block_tree.rs:75-95 [get_value]; a branch indexes [sub_nodes] unchecked *)
  Fixpoint bt_node_get (fuel : nat) (n : bt_node) (offset : N) : res (option V) :=
    match fuel with
    | O => Panic
    | S fuel' =>
        match n with
        | Branch node_offset element_size sub_nodes =>
            relative <- sub_chk offset node_offset ;;
            sub_node_index <- div_chk relative element_size ;;
            sub_node <- idx sub_nodes sub_node_index ;;
            match sub_node with
            | None => Ok None
            | Some n' => bt_node_get fuel' n' offset
            end
        | Leaf node_offset element_size values =>
            relative <- sub_chk offset node_offset ;;
            value_index <- div_chk relative element_size ;;
            if len values <=? value_index then Ok None else idx values value_index
        end
    end.

  Definition bt_get (t : block_tree) (offset : N) : res (option V) :=
    match bt_root t with
    | None => Ok None
    | Some n => bt_node_get 70 n offset
    end.

  (** block_tree_node.rs:115-120: the values set before an error stay set *)
  Fixpoint bt_set_values (n : nat) (value_index : N) (values : list (option V)) (v : V)
    : list (option V) * res unit :=
    match n with
    | O => (values, Ok tt)
    | S n' =>
        match idx values value_index with
        | Ok (Some _) => (values, Err)
        | Ok None =>
            bt_set_values n' (value_index + 1) (set_nth values (N.to_nat value_index) (Some v)) v
        | _ => (values, Panic)
        end
    end.

  Section Loop.
    Context (insert : bt_node -> bt_node * res unit) (fresh : N -> bt_node) (element_size : N).
    (** block_tree_node.rs:84-100: the loop over sub nodes *)
    Fixpoint bt_insert_subs (n : nat) (sub_node_index sub_node_offset : N)
        (sub_nodes : list (option bt_node)) : list (option bt_node) * res unit :=
      match n with
      | O => (sub_nodes, Ok tt)
      | S n' =>
          match idx sub_nodes sub_node_index with
          | Ok s =>
              let sub_node := match s with Some x => x | None => fresh sub_node_offset end in
              let '(sub_node, r) := insert sub_node in
              let sub_nodes := set_nth sub_nodes (N.to_nat sub_node_index) (Some sub_node) in
              match r with
              | Ok _ => bt_insert_subs n' (sub_node_index + 1) (sub_node_offset + element_size) sub_nodes
              | _ => (sub_nodes, r)
              end
          | _ => (sub_nodes, Panic)
          end
      end.
  End Loop.

  (** Runs [k] on an [Ok] value and keeps the node as it is otherwise. *)
  Definition keep {A} (n : bt_node) (r : res A) (k : A -> bt_node * res unit) : bt_node * res unit :=
    match r with Ok a => k a | Err => (n, Err) | Panic => (n, Panic) end.

  (** block_tree_node.rs:56-123 [insert_value]: the node after the call and the
      result. Fuel bounds the depth; running out is a panic here. The additions of
      line 70, 82 and 99 are not checked for overflow: they stay below
      [data_size] rounded up to the element size. *)
  Fixpoint bt_node_insert (fuel : nat) (elements_per_node leaf_value_size offset size : N) (v : V)
      (n : bt_node) : bt_node * res unit :=
    match fuel with
    | O => (n, Panic)
    | S fuel' =>
        match n with
        | Branch node_offset element_size sub_nodes =>
            let sub_nodes :=
              match sub_nodes with [] => repeat None (N.to_nat elements_per_node) | _ => sub_nodes end in
            keep n (count <- div_ceil size element_size ;;
                    relative <- sub_chk offset node_offset ;;
                    first_index <- div_chk relative element_size ;;
                    sub_size <- bt_grow 66 element_size elements_per_node leaf_value_size ;;
                    Ok (count, first_index, sub_size))
              (fun x =>
                 let '(count, first_index, sub_size) := x in
                 let fresh o := if sub_size <=? size then Leaf o sub_size [] else Branch o sub_size [] in
                 let '(sub_nodes, r) :=
                   bt_insert_subs
                     (bt_node_insert fuel' elements_per_node leaf_value_size offset size v)
                     fresh element_size (N.to_nat count) first_index
                     (node_offset + first_index * element_size) sub_nodes in
                 (Branch node_offset element_size sub_nodes, r))
        | Leaf node_offset element_size values =>
            keep n (m <- mod_chk size element_size ;; check (m =? 0))
              (fun _ =>
                 let values :=
                   match values with [] => repeat None (N.to_nat elements_per_node) | _ => values end in
                 keep (Leaf node_offset element_size values)
                   (count <- div_chk size element_size ;;
                    relative <- sub_chk offset node_offset ;;
                    first_index <- div_chk relative element_size ;;
                    Ok (count, first_index))
                   (fun x =>
                      let '(values, r) := bt_set_values (N.to_nat (fst x)) (snd x) values v in
                      (Leaf node_offset element_size values, r)))
        end
    end.

  (** block_tree.rs:98-130 [insert_value] *)
  Definition bt_insert (t : block_tree) (offset size : N) (v : V) : block_tree * res unit :=
    let guard :=
      last <- add_chk two64 offset size ;;
      check (last <=? bt_data_size t) ;;;
      m <- mod_chk offset (bt_leaf_value_size t) ;;
      check (m =? 0) ;;;
      m <- mod_chk size (bt_leaf_value_size t) ;;
      check (m =? 0) ;;;
      match bt_root t with Some n => Ok n | None => bt_create_root t size end in
    match guard with
    | Ok root =>
        let '(root, r) :=
          bt_node_insert 70 (bt_elements_per_node t) (bt_leaf_value_size t) offset size v root in
        ({| bt_data_size := bt_data_size t; bt_elements_per_node := bt_elements_per_node t;
            bt_leaf_value_size := bt_leaf_value_size t; bt_root := Some root |}, r)
    | Err => (t, Err)
    | Panic => (t, Panic)
    end.

  (** A history of inserts: the tree after it and the result of each. *)
  Fixpoint bt_inserts (t : block_tree) (h : list (N * N * V)) : block_tree * list (res unit) :=
    match h with
    | [] => (t, [])
    | (o, s, v) :: rest =>
        let '(t, r) := bt_insert t o s v in
        let '(t, rs) := bt_inserts t rest in
        (t, r :: rs)
    end.
End BlockTree.
Arguments bt_node : clear implicits.
Arguments block_tree : clear implicits.
