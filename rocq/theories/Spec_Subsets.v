(** What a collection of cores should hold: the cores in the order in which they
    were added, seen chip by chip. *)
From Verif Require Import Model_Py Model_Subsets.
Open Scope list_scope.
Open Scope Z_scope.

Definition core : Type := (Z * Z * Z)%type.
Definition core_dec (a b : core) : {a = b} + {a <> b}.
Proof. repeat decide equality. Defined.
Definition chip_dec (a b : XY) : {a = b} + {a <> b}.
Proof. repeat decide equality. Defined.
Definition chip_of (c : core) : XY := fst c.

(** The distinct elements in the order of their first occurrence. *)
Definition firsts {A} (dec : forall a b : A, {a = b} + {a <> b}) (l : list A) : list A :=
  rev (nodup dec (rev l)).

(** The cores of one chip among those added *)
Definition on_chip (xy : XY) (l : list core) : list Z :=
  map snd (filter (fun c => xy_eqb (chip_of c) xy) l).

(** One entry per chip, chips and cores in the order of first addition *)
Definition grouped (l : list core) : list (XY * list Z) :=
  map (fun xy => (xy, firsts Z.eq_dec (on_chip xy l))) (firsts chip_dec (map chip_of l)).

(** All cores in that order *)
Definition listing (l : list core) : list core :=
  flat_map (fun g => map (fun p => (fst g, p)) (snd g)) (grouped l).

(** The cores of a subset object, and of several *)
Definition cores_of (h : heap) (r : ref) : list core :=
  let c := deref h r in map (fun p => (cs_x c, cs_y c, p)) (cs_ids c).

(** The cores which a call adds to the collections.  [logs] is the list of cores
    added to each collection so far.  Adding to a subset that a collection hands out
    adds to the collection. *)
Definition upd (logs : list (list core)) (k : nat) (new : list core) : list (list core) :=
  map (fun il => if Nat.eqb (fst il) k then snd il ++ new else snd il)
      (combine (seq 0 (List.length logs)) logs).
Definition handed_out (w : world) (k : nat) (r : ref) : list XY :=
  match nth_error (w_colls w) k with
  | Some (_, s) => map fst (filter (fun xr => Nat.eqb (snd xr) r) s)
  | None => []
  end.
Definition is_plain (w : world) (k : nat) : bool :=
  match nth_error (w_colls w) k with Some (Plain, _) => true | _ => false end.
Definition exists_coll (w : world) (k : nat) : bool :=
  match nth_error (w_colls w) k with Some _ => true | None => false end.
Definition in_log (l : list core) (c : core) : bool := if in_dec core_dec c l then true else false.

Definition log_step (w : world) (logs : list (list core)) (o : op) : list (list core) :=
  let h := w_heap w in
  match o with
  | NewSubset _ _ _ | SubsetIntersect _ _ | ForChip _ _ _ => logs
  | SubsetAdd r p =>
      map (fun il => snd il ++ map (fun xy => (xy, p)) (handed_out w (fst il) r))
          (combine (seq 0 (List.length logs)) logs)
  | NewSubsets rs | NewFrozen rs => logs ++ [flat_map (cores_of h) rs]
  | AddProcessor k x y p => if is_plain w k then upd logs k [(x, y, p)] else logs
  | AddSubset k r => if is_plain w k then upd logs k (cores_of h r) else logs
  | AddSubsets k rs => if is_plain w k then upd logs k (flat_map (cores_of h) rs) else logs
  | Intersect a b =>
      if exists_coll w a && exists_coll w b then
        logs ++ [filter (in_log (nth b logs [])) (listing (nth a logs []))]
      else logs
  end.

(** The cores added to each collection over a history *)
Definition logs_of (ops : list op) : list (list core) :=
  snd (fold_left (fun wl o => (fst (step (fst wl) o), log_step (fst wl) (snd wl) o)) ops
         (mkWorld [] [], [])).

(** What can be seen of a collection by iterating over it *)
Definition contents (h : heap) (s : subsets) : list (XY * list Z) :=
  map (fun r => ((cs_x (deref h r), cs_y (deref h r)), cs_ids (deref h r))) (s_values s).
