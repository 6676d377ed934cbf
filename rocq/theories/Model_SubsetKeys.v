(** Comparing CoreSubset objects, their hashes and texts, and a dict (or set) of a program
    with CoreSubset objects as keys. *)
From Coq Require Import String.
From Verif Require Import Model_Py Model_Virtual Model_Text Model_Routing Model_Subsets Model_Repr.
Open Scope string_scope.
Open Scope list_scope.
Open Scope Z_scope.

(** core_subset.py:80-84 __eq__, for another CoreSubset.  The ids of the one are an OrderedSet,
    those of the other an iterator: OrderedSet (spinn_utilities, not in this repository)
    compares itself with anything but an OrderedSet as set(self) == set(other). *)
Definition same_subset (a b : core_subset) : bool :=
  (cs_x a =? cs_x b) && (cs_y a =? cs_y b) &&
  (forallb (zmem (cs_ids b)) (cs_ids a) && forallb (zmem (cs_ids a)) (cs_ids b)).

(** core_subset.py:80-84 __eq__; [None] is an object that is not a CoreSubset *)
Definition cs_eq (h : heap) (r : ref) (other : option ref) : bool :=
  match other with
  | Some q => same_subset (deref h r) (deref h q)
  | None => false
  end.

(** core_subset.py:86-87 __ne__ *)
Definition cs_ne (h : heap) (r : ref) (other : option ref) : bool := negb (cs_eq h r other).

(** core_subset.py:89-91 __hash__: [hash] is the hash of a tuple of the two ints and the
    frozenset, any function at all; the frozenset is given by its sorted elements. *)
Definition content_hash (hash : Z * Z * list Z -> Z) (c : core_subset) : Z :=
  hash (cs_x c, cs_y c, zsorted (frozenset (cs_ids c))).
Definition cs_hash (hash : Z * Z * list Z -> Z) (h : heap) (r : ref) : Z := content_hash hash (deref h r).

(** core_subset.py:77-78 __repr__.  The text of an OrderedSet with elements is as in
    unittests/test_coresubset.py; [empty] is the text of one without. *)
Definition cs_repr (empty : string) (c : core_subset) : string :=
  cat [dec (cs_x c); ":"; dec (cs_y c); ":";
       match cs_ids c with
       | [] => empty
       | ids => cat ["OrderedSet(["; comma_join (map dec ids); "])"]
       end].

(** ** A dict of the program with CoreSubset keys *)

(** An entry: the hash that was taken when the key was put in, the key object, the value *)
Record entry (V : Type) : Type := mkEntry { k_hash : Z; k_ref : ref; k_value : V }.
Arguments mkEntry {V} _ _ _.
Arguments k_hash {V} _.
Arguments k_ref {V} _.
Arguments k_value {V} _.

Section Keys.
  Context {V : Type}.
  Variable hash : Z * Z * list Z -> Z.
  (** Whether the table, looking for a key object of an entry under another hash than the one
      kept, happens to come by this entry: CPython compares the objects before the hashes
      (Objects/dictobject.c), so this depends on the table.  Any answers at all. *)
  Variable comes_by : ref -> bool.

  (** Whether a lookup of the object [q] takes the entry: the same object, or the same hash
      and == (which is asked of the key: core_subset.py:80-84) *)
  Definition takes (h : heap) (q : ref) (e : entry V) : bool :=
    ((k_hash e =? cs_hash hash h q) && (Nat.eqb (k_ref e) q || cs_eq h (k_ref e) (Some q))) ||
    (Nat.eqb (k_ref e) q && comes_by q).

  (** d[q] and d.get(q): the first entry that is taken; there is at most one unless a key has
      been changed *)
  Definition key_get (h : heap) (d : list (entry V)) (q : ref) : option V :=
    option_map k_value (find (takes h q) d).

  (** d[q] = v: the old key object stays *)
  Fixpoint key_set (h : heap) (d : list (entry V)) (q : ref) (v : V) : list (entry V) :=
    match d with
    | [] => [mkEntry (cs_hash hash h q) q v]
    | e :: r => if takes h q e then mkEntry (k_hash e) (k_ref e) v :: r else e :: key_set h r q v
    end.

  (** What the program does: any call on the objects, or d[q] = v *)
  Inductive key_event : Type := Do (o : op) | SetKey (q : ref) (v : V).

  Definition key_step (s : world * list (entry V)) (e : key_event) : world * list (entry V) :=
    match e with
    | Do o => (fst (step (fst s) o), snd s)
    | SetKey q v => (fst s, key_set (w_heap (fst s)) (snd s) q v)
    end.

  Definition key_run (evs : list key_event) : world * list (entry V) :=
    fold_left key_step evs (mkWorld [] [], []).
End Keys.
Arguments key_event : clear implicits.
