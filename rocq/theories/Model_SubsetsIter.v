(** Loops over collections of cores that are still running while the collections and their
    subsets change: every next() and every call is a step of its own. *)
From Verif Require Import Model_Py Model_Subsets Model_Iter.
Open Scope list_scope.
Open Scope Z_scope.

(** A call on the objects (core_subsets.py:36-68, core_subset.py:39-45,
    frozen_core_subsets.py:37-47 and all others of [step]) *)
Definition call (w : world) (o : op) : res world :=
  match step w o with
  | (w', Ok _) => Ok w'
  | (_, Err e) => Err e
  end.

(** The dict of the collection [k]: core_subsets.py:25 _core_subsets *)
Definition entries_of (k : nat) (w : world) : subsets :=
  match nth_error (w_colls w) k with Some (_, s) => s | None => [] end.

(** core_subsets.py:98-106 core_subsets, core_subsets.py:122-128 __iter__: the iterator of
    the values of the dict; and that of the view of core_subsets.py:189-193 values *)
Definition subsets_iter (k : nat) (w : world) : dict_iter := iter_of (entries_of k w).
Definition subsets_next (k : nat) (w : world) : dict_iter -> dict_iter * answer ref :=
  dict_next snd (entries_of k w).

(** core_subset.py:68-75 processor_ids: the iterator of an OrderedSet, which is that of the
    dict it holds (spinn_utilities, not in this repository) *)
Definition ids_iter (r : ref) (w : world) : dict_iter := iter_of (cs_ids (deref (w_heap w) r)).
Definition ids_next (r : ref) (w : world) : dict_iter -> dict_iter * answer Z :=
  dict_next (fun p => p) (cs_ids (deref (w_heap w) r)).

(** core_subsets.py:36-45 add_core_subset, as the loop that it is, over the live iterator *)
Definition live_add_core_subset (k : nat) (r : ref) (w : world) : world -> option exn -> list Z -> Prop :=
  let x := cs_x (deref (w_heap w) r) in
  let y := cs_y (deref (w_heap w) r) in
  for_loop (ids_next r) (fun w p => call w (AddProcessor k x y p)) w (ids_iter r w).

(** core_subsets.py:47-54 add_core_subsets with a
    collection [j] as argument, as the loop that it is, over the live iterator of [j] *)
Definition live_add_core_subsets (k j : nat) (w : world) : world -> option exn -> list ref -> Prop :=
  for_loop (subsets_next j) (fun w r => call w (AddSubset k r)) w (subsets_iter j w).

(** If the OrderedSet holds an OrderedDict rather than a dict (Lib/collections, in C:
    odictiter_nextkey of Objects/odictobject.c): the number of entries when the iterator was
    made and the place of the entry that comes next, None once it has raised anything.  The
    end is seen before the size is looked at.  It looks at a count of changes as well, which
    goes up when a key is added: as keys are only added here, the size tells the same. *)
Definition ordered_iter : Type := option (nat * nat).
Definition ordered_iter_of {A} (entries : list A) : ordered_iter := Some (List.length entries, 0%nat).
Definition ordered_next {A} (entries : list A) (it : ordered_iter) : ordered_iter * answer A :=
  match it with
  | None => (None, Stops)
  | Some (n, i) =>
      if Nat.eqb i n then (None, Stops)
      else if Nat.eqb n (List.length entries) then
        match nth_error entries i with
        | Some a => (Some (n, S i), Gives a)
        | None => (None, Stops)
        end
      else (None, Raises RuntimeErr)
  end.

(** core_subset.py:68-75 processor_ids again, for an OrderedDict *)
Definition ids_iter_ordered (r : ref) (w : world) : ordered_iter := ordered_iter_of (cs_ids (deref (w_heap w) r)).
Definition ids_next_ordered (r : ref) (w : world) : ordered_iter -> ordered_iter * answer Z :=
  ordered_next (cs_ids (deref (w_heap w) r)).

(** core_subsets.py:36-45 add_core_subset again, for an OrderedDict *)
Definition live_add_core_subset_ordered (k : nat) (r : ref) (w : world) : world -> option exn -> list Z -> Prop :=
  let x := cs_x (deref (w_heap w) r) in
  let y := cs_y (deref (w_heap w) r) in
  for_loop (ids_next_ordered r) (fun w p => call w (AddProcessor k x y p)) w (ids_iter_ordered r w).
