(** CoreSubset, CoreSubsets and FrozenCoreSubsets, with object identity: a CoreSubset
    is a mutable object on a heap and may be reached from several places. *)
From Verif Require Import Model_Py.
Open Scope list_scope.
Open Scope Z_scope.

(** core_subset.py:23-25 __slots__; the ids are an OrderedSet, in its order *)
Record core_subset : Type := mkSubset { cs_x : Z; cs_y : Z; cs_ids : list Z }.

(** The CoreSubset objects; a reference is the number of the object. *)
Definition heap : Type := list core_subset.
Definition ref : Type := nat.
Definition deref (h : heap) (r : ref) : core_subset := nth r h (mkSubset 0 0 []).

(** Assigning to the object [r] *)
Fixpoint put (h : heap) (r : ref) (c : core_subset) : heap :=
  match h, r with
  | [], _ => []
  | _ :: h', O => c :: h'
  | a :: h', S r' => a :: put h' r' c
  end.

(** core_subset.py:39-45 add_processor *)
Definition cs_add_processor (h : heap) (r : ref) (p : Z) : heap :=
  let c := deref h r in put h r (mkSubset (cs_x c) (cs_y c) (oset_add (cs_ids c) p)).

(** core_subset.py:27-37 __init__ *)
Definition new_core_subset (h : heap) (x y : Z) (processor_ids : list Z) : heap * ref :=
  let r := List.length h in
  (fold_left (fun h p => cs_add_processor h r p) processor_ids (h ++ [mkSubset x y []]), r).

(** core_subset.py:47-48 __contains__ *)
Definition cs_contains (h : heap) (r : ref) (p : Z) : bool := zmem (cs_ids (deref h r)) p.

(** core_subset.py:93-97 __len__ *)
Definition cs_len (h : heap) (r : ref) : Z := Z.of_nat (List.length (cs_ids (deref h r))).

(** core_subset.py:99-113 intersect *)
Definition cs_intersect (h : heap) (r other : ref) : heap * ref :=
  let c := deref h r in
  let '(h, result) := new_core_subset h (cs_x c) (cs_y c) [] in
  (fold_left (fun h p => if cs_contains h other p then cs_add_processor h result p else h)
     (cs_ids c) h, result).

(** core_subsets.py:25 __slots__ *)
Definition subsets : Type := dict XY ref.

(** core_subsets.py:56-68 add_processor *)
Definition s_add_processor (h : heap) (s : subsets) (x y p : Z) : heap * subsets :=
  match dget xy_eqb s (x, y) with
  | None => let '(h, r) := new_core_subset h x y [p] in (h, dset xy_eqb s (x, y) r)
  | Some r => (cs_add_processor h r p, s)
  end.

(** core_subsets.py:36-45 add_core_subset.  The ids are read once at the start:
    the code iterates over the live set, but when the argument is one of the
    subsets of this object all its ids are in it, so it does not change
    (proved about the live loop in Prop_SubsetsIter: C101_adding_a_subset). *)
Definition s_add_core_subset (h : heap) (s : subsets) (r : ref) : heap * subsets :=
  let c := deref h r in
  fold_left (fun hs p => s_add_processor (fst hs) (snd hs) (cs_x c) (cs_y c) p) (cs_ids c) (h, s).

(** core_subsets.py:47-54 add_core_subsets *)
Definition s_add_core_subsets (h : heap) (s : subsets) (rs : list ref) : heap * subsets :=
  fold_left (fun hs r => s_add_core_subset (fst hs) (snd hs) r) rs (h, s).

(** core_subsets.py:27-34 __init__ *)
Definition new_subsets (h : heap) (rs : list ref) : heap * subsets :=
  fold_left (fun hs r => s_add_core_subset (fst hs) (snd hs) r) rs (h, []).

(** core_subsets.py:70-79 is_chip *)
Definition s_is_chip (s : subsets) (x y : Z) : bool := dmem xy_eqb s (x, y).

(** core_subsets.py:81-96 is_core *)
Definition s_is_core (h : heap) (s : subsets) (x y p : Z) : bool :=
  match dget xy_eqb s (x, y) with
  | None => false
  | Some r => cs_contains h r p
  end.

(** core_subsets.py:98-106 core_subsets, 122-128 __iter__, 189-193 values *)
Definition s_values (s : subsets) : list ref := dvalues s.

(** core_subsets.py:108-120 get_core_subset_for_chip *)
Definition s_for_chip (h : heap) (s : subsets) (x y : Z) : heap * ref :=
  match dget xy_eqb s (x, y) with
  | None => new_core_subset h x y []
  | Some r => (h, r)
  end.

(** core_subsets.py:130-136 __len__ *)
Definition s_len (h : heap) (s : subsets) : Z := zsum (map (cs_len h) (s_values s)).

(** core_subsets.py:138-150 __contains__, for a pair and for a triple *)
Definition s_contains_xy (s : subsets) (xy : XY) : bool := s_is_chip s (fst xy) (snd xy).
Definition s_contains_xyp (h : heap) (s : subsets) (c : Z * Z * Z) : bool :=
  let '(x, y, p) := c in s_is_core h s x y p.

(** core_subsets.py:152-159 __getitem__ *)
Definition s_getitem (s : subsets) (xy : XY) : res ref := dgetitem xy_eqb s xy.

(** core_subsets.py:172-187 intersect; [other[xy]] is only read after [xy in other].
    The objects of the two sides do not change, so the loop works on [a] and [b] as
    they are. *)
Definition s_intersect (h : heap) (a b : subsets) : heap * subsets :=
  fold_left (fun hs xr =>
      let '(h, result) := hs in
      let '(xy, r) := xr in
      if s_contains_xy b xy then
        match s_getitem b xy with
        | Err _ => hs
        | Ok other =>
            let '(h, subset) := cs_intersect h r other in
            if cs_len h subset =? 0 then (h, result) else s_add_core_subset h result subset
        end
      else hs) a (h, []).

(** frozen_core_subsets.py:29-35 __init__ *)
Definition new_frozen (h : heap) (rs : list ref) : heap * subsets :=
  fold_left (fun hs r =>
      let c := deref (fst hs) r in
      fold_left (fun hs p => s_add_processor (fst hs) (snd hs) (cs_x c) (cs_y c) p) (cs_ids c) hs)
    rs (h, []).

(** ** What a program can do with these objects *)

(** A collection is a CoreSubsets or a FrozenCoreSubsets. *)
Inductive kind : Type := Plain | Frozen.

Record world : Type := mkWorld { w_heap : heap; w_colls : list (kind * subsets) }.

Inductive op : Type :=
| NewSubset (x y : Z) (ps : list Z)          (* CoreSubset(x, y, ps) *)
| SubsetAdd (r : ref) (p : Z)                (* subset.add_processor(p) *)
| SubsetIntersect (r other : ref)            (* subset.intersect(other) *)
| NewSubsets (rs : list ref)                 (* CoreSubsets(rs) *)
| NewFrozen (rs : list ref)                  (* FrozenCoreSubsets(rs) *)
| AddProcessor (k : nat) (x y p : Z)         (* k.add_processor(x, y, p) *)
| AddSubset (k : nat) (r : ref)              (* k.add_core_subset(r) *)
| AddSubsets (k : nat) (rs : list ref)       (* k.add_core_subsets(rs) *)
| ForChip (k : nat) (x y : Z)                (* k.get_core_subset_for_chip(x, y) *)
| Intersect (a b : nat).                     (* a.intersect(b) *)

(** Replacing the collection number [k] *)
Fixpoint put_coll (l : list (kind * subsets)) (k : nat) (c : kind * subsets) : list (kind * subsets) :=
  match l, k with
  | [], _ => []
  | _ :: l', O => c :: l'
  | a :: l', S k' => a :: put_coll l' k' c
  end.

(** An add method of the collection [k]: core_subsets.py:36-68 for a CoreSubsets,
    frozen_core_subsets.py:37-47 for a frozen one, where all three raise.  The
    collections that do not exist do nothing. *)
Definition add_to (w : world) (k : nat) (f : heap -> subsets -> heap * subsets) : world * res unit :=
  match nth_error (w_colls w) k with
  | Some (Plain, s) =>
      let '(h, s) := f (w_heap w) s in (mkWorld h (put_coll (w_colls w) k (Plain, s)), Ok tt)
  | Some (Frozen, s) => (w, Err RuntimeErr)
  | None => (w, Ok tt)
  end.

(** One call: the objects afterwards and what it raised. *)
Definition step (w : world) (o : op) : world * res unit :=
  let h := w_heap w in
  let cs := w_colls w in
  match o with
  | NewSubset x y ps => (mkWorld (fst (new_core_subset h x y ps)) cs, Ok tt)
  | SubsetAdd r p => (mkWorld (cs_add_processor h r p) cs, Ok tt)
  | SubsetIntersect r other => (mkWorld (fst (cs_intersect h r other)) cs, Ok tt)
  | NewSubsets rs => let '(h, s) := new_subsets h rs in (mkWorld h (cs ++ [(Plain, s)]), Ok tt)
  | NewFrozen rs => let '(h, s) := new_frozen h rs in (mkWorld h (cs ++ [(Frozen, s)]), Ok tt)
  | AddProcessor k x y p => add_to w k (fun h s => s_add_processor h s x y p)
  | AddSubset k r => add_to w k (fun h s => s_add_core_subset h s r)
  | AddSubsets k rs => add_to w k (fun h s => s_add_core_subsets h s rs)
  | ForChip k x y =>
      match nth_error cs k with
      | Some (_, s) => (mkWorld (fst (s_for_chip h s x y)) cs, Ok tt)
      | None => (w, Ok tt)
      end
  | Intersect a b =>
      match nth_error cs a, nth_error cs b with
      | Some (_, sa), Some (_, sb) =>
          let '(h, s) := s_intersect h sa sb in (mkWorld h (cs ++ [(Plain, s)]), Ok tt)
      | _, _ => (w, Ok tt)
      end
  end.

(** A program goes on after an exception with the objects as they are. *)
Definition run (ops : list op) : world :=
  fold_left (fun w o => fst (step w o)) ops (mkWorld [] []).
