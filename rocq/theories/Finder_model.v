(** * Model of the finder and of the file entries iterator

    keramics-vfs/src/finder/finder.rs and iterators/file_entries.rs, over any kind of file
    entry: the type [E], with its name and the retrieval of its sub file entries, each
    giving the same answer whenever it is asked ([&mut self] is there for caches). *)
From Verif Require Import Base.

Section Finder.
Context {E : Type}.
(** [VfsFileEntry::get_name], [get_number_of_sub_file_entries] and
    [get_sub_file_entry_by_index]; [None] as a name becomes [VfsString::Empty]. *)
Variable entry_name : E -> option (list N).
Variable number_of_subs : E -> res N.
Variable sub_entry : E -> N -> res E.

(** finder.rs 21-41 [VfsFinderState]: file entry, number of sub file entries and index of
    the next one *)
Definition finder_level := (E * N * N)%type.
(** finder.rs 44-56 [VfsFinder]; the last state of the vector is the first of the list, and
    the path components are in the order of the vector. *)
Record finder := {
  fd_components : list (option (list N));
  fd_states : list finder_level;
  fd_started : bool }.
(** finder.rs 61-69 [new] *)
Definition finder_new : finder := {| fd_components := []; fd_states := []; fd_started := false |}.

(** What a call of [next] gives: a file entry and its path, or an error. *)
Inductive finding := Found (entry : E) (components : list (option (list N))) | Failed.

(** finder.rs 97-139: one round of the [while]: goes on, or returns. *)
Inductive round := GoOn (f : finder) | Return (item : option finding) (f : finder) | Crash.
Definition finder_round (f : finder) : round :=
  match fd_states f with
  | [] => Return None f
  | (entry, number, index) :: states =>
    if number <=? index then
      Return (Some (Found entry (fd_components f)))
        {| fd_components := removelast (fd_components f); fd_states := states; fd_started := fd_started f |}
    else
      match add_chk two64 index 1 with
      | Ok index1 =>
        let f1 := {| fd_components := fd_components f; fd_states := (entry, number, index1) :: states;
                     fd_started := fd_started f |} in
        match sub_entry entry index with
        | Ok sub =>
          match number_of_subs sub with
          | Ok n =>
            GoOn {| fd_components := fd_components f ++ [entry_name sub];
                    fd_states := (sub, n, 0) :: (entry, number, index1) :: states;
                    fd_started := fd_started f |}
          | Err => Return (Some Failed) f1
          | Panic => Crash
          end
        | Err => Return (Some Failed) f1
        | Panic => Crash
        end
      | _ => Crash
      end
  end.
(** The [while] of finder.rs 97-140: [None] when it takes more rounds than [rounds]. *)
Fixpoint finder_loop (rounds : nat) (f : finder) : option (res (option finding * finder)) :=
  match rounds with
  | O => None
  | S rounds =>
    match finder_round f with
    | GoOn f => finder_loop rounds f
    | Return item f => Some (Ok (item, f))
    | Crash => Some Panic
    end
  end.
(** finder.rs 75-96, the start of [next]: [root] is what [get_root_file_entry] gives. *)
Definition finder_start (root : res (option E)) : round :=
  match root with
  | Ok (Some entry) =>
    match number_of_subs entry with
    | Ok n => GoOn {| fd_components := [entry_name entry]; fd_states := [(entry, n, 0)]; fd_started := true |}
    | Err => Return (Some Failed) {| fd_components := []; fd_states := []; fd_started := true |}
    | Panic => Crash
    end
  | Ok None => Return None {| fd_components := []; fd_states := []; fd_started := true |}
  | Err => Return (Some Failed) {| fd_components := []; fd_states := []; fd_started := true |}
  | Panic => Crash
  end.
(** finder.rs 75-142 [next] *)
Definition finder_next (rounds : nat) (root : res (option E)) (f : finder) : option (res (option finding * finder)) :=
  if fd_started f then finder_loop rounds f
  else match finder_start root with
       | GoOn f => finder_loop rounds f
       | Return item f => Some (Ok (item, f))
       | Crash => Some Panic
       end.
(** What the first [calls] calls of [next] give. *)
Fixpoint finder_calls (rounds : nat) (root : res (option E)) (calls : nat) (f : finder) : option (res (list (option finding))) :=
  match calls with
  | O => Some (Ok [])
  | S calls =>
    match finder_next rounds root f with
    | Some (Ok (item, f)) =>
      match finder_calls rounds root calls f with
      | Some (Ok items) => Some (Ok (item :: items))
      | other => other
      end
    | Some Err => Some Err
    | Some Panic => Some Panic
    | None => None
    end
  end.

(** iterators/file_entries.rs 44-54 [next]: [number] and [index] are the state. *)
Definition entries_next (entry : E) (number index : N) : res (option (res E) * N) :=
  if number <=? index then Ok (None, index)
  else match sub_entry entry index with
       | Panic => Panic
       | item => index1 <- add_chk two64 index 1 ;; Ok (Some item, index1)
       end.
Fixpoint entries_calls (calls : nat) (entry : E) (number index : N) : res (list (option (res E))) :=
  match calls with
  | O => Ok []
  | S calls =>
    '(item, index) <- entries_next entry number index ;;
    items <- entries_calls calls entry number index ;;
    Ok (item :: items)
  end.
End Finder.
Arguments finder : clear implicits.
Arguments finding : clear implicits.
