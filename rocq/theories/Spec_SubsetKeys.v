(** Words for C102: CoreSubset objects as keys *)
From Verif Require Import Model_Py Model_Subsets Model_SubsetKeys.
Open Scope list_scope.
Open Scope Z_scope.

(** The same chip and the same cores, in whatever order *)
Definition same_cores (a b : core_subset) : Prop :=
  cs_x a = cs_x b /\ cs_y a = cs_y b /\ forall p, In p (cs_ids a) <-> In p (cs_ids b).

(** The calls among the events *)
Definition calls_of {V} (evs : list (key_event V)) : list op :=
  flat_map (fun e => match e with Do o => [o] | SetKey _ _ => [] end) evs.

(** Every key was there when it was used as a key, and no core has been added to it since. *)
Definition keys_unchanged {V} (evs : list (key_event V)) : Prop :=
  forall before q v rest, evs = before ++ SetKey q v :: rest ->
    (q < List.length (w_heap (run (calls_of before))))%nat /\
    same_cores (deref (w_heap (run (calls_of before))) q) (deref (w_heap (run (calls_of evs))) q).

(** [v] is the value last set under a key with the chip and the cores of [c] (none if [None]) *)
Definition last_under {V} (h : heap) (evs : list (key_event V)) (c : core_subset) (v : option V) : Prop :=
  match v with
  | Some a => exists before q rest, evs = before ++ SetKey q a :: rest /\ same_cores (deref h q) c /\
      forall q' b, In (SetKey q' b) rest -> ~ same_cores (deref h q') c
  | None => forall q b, In (SetKey q b) evs -> ~ same_cores (deref h q) c
  end.

(** No two of these objects have the same chip and cores. *)
Definition pairwise_unequal (h : heap) (refs : list ref) : Prop :=
  forall i j a b, nth_error refs i = Some a -> nth_error refs j = Some b -> i <> j ->
    ~ same_cores (deref h a) (deref h b).
