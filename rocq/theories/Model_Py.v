(** Python substrate used by the model: exceptions as values, insertion ordered
    dictionaries, ranges, list indexing.  Nothing here is specific to
    SpiNNMachine; it fixes the meaning of the Python constructs that the
    modelled code uses. *)
From Coq Require Export List ZArith String Ascii Bool.
Export ListNotations.
Open Scope Z_scope.

(** The exception classes raised by the modelled code.  The SpiNNMachine
    classes are those of spinn_machine/exceptions.py:18-98.  Messages are
    dropped.  [OutOfFuel] is not a Python exception: it marks exhaustion of the
    fuel of an unbounded loop and is proved to be unreachable. *)
Inductive exn : Type :=
| AlreadyExists        (* SpinnMachineAlreadyExistsException, exceptions.py:24 *)
| InvalidParameter     (* SpinnMachineInvalidParameterException, exceptions.py:57 *)
| MachineExc           (* SpinnMachineException itself, exceptions.py:18 *)
| KeyError
| IndexError
| ValueError
| TypeError
| AttributeError
| AssertionError
| NotImplementedErr
| RuntimeErr
| ZeroDivision
| ConfigExc            (* spinn_utilities.exceptions.ConfigException *)
| DataNotAvailable     (* spinn_utilities DataNotYetAvialable & co *)
| OverflowErr
| FileNotFound         (* FileNotFoundError *)
| OutOfFuel.

Inductive res (A : Type) : Type :=
| Ok  : A -> res A
| Err : exn -> res A.
Arguments Ok {A} _.
Arguments Err {A} _.

Definition bind {A B} (m : res A) (f : A -> res B) : res B :=
  match m with Ok a => f a | Err e => Err e end.
Notation "'do' x <- m ; k" := (bind m (fun x => k))
  (at level 200, x pattern, m at level 100, k at level 200, right associativity).

Definition is_ok {A} (m : res A) : bool :=
  match m with Ok _ => true | Err _ => false end.

(** [for x in l: body] with a state and possible exceptions: stops at the first
    exception (the state reached so far is lost; where the caller can still see
    the partially updated object the model says so and keeps the state). *)
Fixpoint fold_res {S A} (f : S -> A -> res S) (l : list A) (s : S) : res S :=
  match l with
  | [] => Ok s
  | a :: l' => do s' <- f s a ; fold_res f l' s'
  end.

Fixpoint map_res {A B} (f : A -> res B) (l : list A) : res (list B) :=
  match l with
  | [] => Ok []
  | a :: l' => do b <- f a ; do bs <- map_res f l' ; Ok (b :: bs)
  end.

(** Coordinates: spinn_utilities.typing.coords.XY is Tuple[int, int]. *)
Definition XY : Type := (Z * Z)%type.

Definition xy_eqb (a b : XY) : bool :=
  (fst a =? fst b) && (snd a =? snd b).

(** ** Dictionaries

    A Python [dict] keeps insertion order; assigning to an existing key keeps
    the position of the key.  [eqb] is the equality of the keys. *)
Section Dict.
  Context {K V : Type} (eqb : K -> K -> bool).

  Definition dict := list (K * V).

  (** [d.get(k)] *)
  Fixpoint dget (d : dict) (k : K) : option V :=
    match d with
    | [] => None
    | (k', v) :: d' => if eqb k' k then Some v else dget d' k
    end.

  (** [k in d] *)
  Definition dmem (d : dict) (k : K) : bool :=
    match dget d k with Some _ => true | None => false end.

  (** [d[k]] *)
  Definition dgetitem (d : dict) (k : K) : res V :=
    match dget d k with Some v => Ok v | None => Err KeyError end.

  (** [d[k] = v] *)
  Fixpoint dset (d : dict) (k : K) (v : V) : dict :=
    match d with
    | [] => [(k, v)]
    | (k', v') :: d' =>
        if eqb k' k then (k', v) :: d' else (k', v') :: dset d' k v
    end.

  Definition dkeys (d : dict) : list K := map fst d.
  Definition dvalues (d : dict) : list V := map snd d.
End Dict.
Arguments dict : clear implicits.

(** [collections.Counter] with integer keys: [c[k] += 1]. *)
Definition counter := dict Z Z.
Definition cincr (c : counter) (k : Z) : counter :=
  match dget Z.eqb c k with
  | Some n => dset Z.eqb c k (n + 1)
  | None => dset Z.eqb c k 1
  end.
(** [sum(n * count for n, count in c.items())] *)
Definition ctotal (c : counter) : Z :=
  fold_right (fun kv acc => fst kv * snd kv + acc) 0 c.

Definition zmem (l : list Z) (x : Z) : bool := existsb (Z.eqb x) l.
Definition xymem (l : list XY) (p : XY) : bool := existsb (xy_eqb p) l.

Definition zsum (l : list Z) : Z := fold_right Z.add 0 l.

(** [range(lo, hi)] *)
Definition zrange (lo hi : Z) : list Z :=
  map (fun i => lo + Z.of_nat i) (seq 0 (Z.to_nat (hi - lo))).

(** [range(lo, hi, step)] for a positive step. *)
Definition zrange_step (lo hi step : Z) : list Z :=
  map (fun i => lo + Z.of_nat i * step)
      (seq 0 (Z.to_nat ((hi - lo + step - 1) / step))).

(** [l[i]] including Python's negative indices. *)
Definition py_index {A} (l : list A) (i : Z) : res A :=
  let n := Z.of_nat (List.length l) in
  let j := if i <? 0 then i + n else i in
  if (j <? 0) || (n <=? j) then Err IndexError
  else match nth_error l (Z.to_nat j) with
       | Some a => Ok a
       | None => Err IndexError
       end.

(** [enumerate(l)] *)
Definition enumerate {A} (l : list A) : list (Z * A) :=
  combine (zrange 0 (Z.of_nat (List.length l))) l.

(** [spinn_utilities.ordered_set.OrderedSet]: add keeps the first position. *)
Definition oset_add (l : list Z) (x : Z) : list Z :=
  if zmem l x then l else l ++ [x].
Definition oset_of (l : list Z) : list Z := fold_left oset_add l [].

(** [sorted(l)] on integers: insertion sort, the result is the sorted
    permutation whatever the algorithm. *)
Fixpoint zinsert (x : Z) (l : list Z) : list Z :=
  match l with
  | [] => [x]
  | y :: l' => if x <=? y then x :: y :: l' else y :: zinsert x l'
  end.
Definition zsorted (l : list Z) : list Z := fold_right zinsert [] l.
