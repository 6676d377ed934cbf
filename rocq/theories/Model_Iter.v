(** Iterators and generators that are still running while the object they walk
    over changes.  [Model_Machine] and [Model_Core] give what a caller gets who
    reads such an iterator to its end at once; here every call of next() and
    every change of the object is a step of its own, in any order. *)
From Verif Require Import Model_Py Model_Wrap Model_Version Model_Core Model_Machine
  Model_Mutate.

(** What one call of next() does: it gives an item, it raises StopIteration, or
    it raises another exception *)
Inductive answer (A : Type) : Type :=
| Gives : A -> answer A
| Stops : answer A
| Raises : exn -> answer A.
Arguments Gives {A} _.
Arguments Stops {A}.
Arguments Raises {A} _.

(** What the caller does, step by step: next() on the iterator, or a call that
    changes the object.  A change that raises is caught by the caller. *)
Inductive event (C : Type) : Type :=
| Next : event C
| Change : C -> event C.
Arguments Next {C}.
Arguments Change {C} _.

Section Runs.
  Context {O C S A : Type}.
  Variable change : O -> C -> res O.      (* the calls that change the object *)
  Variable next : O -> S -> S * answer A.

  (** The methods add_chip (machine.py:546-570) and add_link (router.py:61-72)
      raise before they write anything. *)
  Definition changed (o : O) (c : C) : O :=
    match change o c with Ok o' => o' | Err _ => o end.

  (** The object after the steps *)
  Fixpoint after (o : O) (evs : list (event C)) : O :=
    match evs with
    | [] => o
    | Next :: r => after o r
    | Change c :: r => after (changed o c) r
    end.

  (** The answers of the next() calls among the steps, in order *)
  Fixpoint answers (o : O) (s : S) (evs : list (event C)) : list (answer A) :=
    match evs with
    | [] => []
    | Next :: r => let '(s', a) := next o s in a :: answers o s' r
    | Change c :: r => answers (changed o c) s r
    end.

  (** The iterator after the steps *)
  Fixpoint left_at (o : O) (s : S) (evs : list (event C)) : S :=
    match evs with
    | [] => s
    | Next :: r => left_at o (fst (next o s)) r
    | Change c :: r => left_at (changed o c) s r
    end.
End Runs.

(** [for a in iterator: body], as add_chips has it (machine.py:581-582); the loop
    ends with the object as it is then, the exception if there is one and the
    items the body was run with. *)
Inductive for_loop {O S A} (next : O -> S -> S * answer A) (body : O -> A -> res O)
  : O -> S -> O -> option exn -> list A -> Prop :=
| for_ends : forall o s s', next o s = (s', Stops) -> for_loop next body o s o None []
| for_iter_raises : forall o s s' e, next o s = (s', Raises e) ->
    for_loop next body o s o (Some e) []
| for_body_raises : forall o s s' a e, next o s = (s', Gives a) -> body o a = Err e ->
    for_loop next body o s o (Some e) [a]
| for_goes_on : forall o s s' a o' o'' x l, next o s = (s', Gives a) -> body o a = Ok o' ->
    for_loop next body o' s' o'' x l -> for_loop next body o s o'' x (a :: l).

(** ** Changes of a machine *)

(** machine.add_chip(chip), and machine[x, y].router.add_link(link).  A chip object is
    told by its place among the chips of the machine: no chip is ever taken out, and
    add_link changes the object the iterators have, not only the machine's. *)
Inductive grow : Type :=
| AddChip (c : chip)
| AddLink (p : XY) (l : link).

(** machine.py:546-570 add_chip; machine.py:637-647 __getitem__ with chip.py:183-190
    router and router.py:61-72 add_link *)
Definition grow_machine (m : machine) (g : grow) : res machine :=
  match g with
  | AddChip c => add_chip m c
  | AddLink p l => add_link_later m p l
  end.

(** ** Iterators of a dict *)

(** CPython's iterator of a dict: alive until it has said StopIteration, the
    number of entries it was made for (None once it has raised) and the place of
    the entry that comes next *)
Record dict_iter : Type := mkIter {
  it_live : bool;
  it_used : option nat;
  it_pos : nat
}.

Definition iter_of {E} (entries : list E) : dict_iter :=
  mkIter true (Some (List.length entries)) 0.

Definition dict_next {E A} (view : E -> A) (entries : list E) (it : dict_iter)
  : dict_iter * answer A :=
  if it_live it then
    match it_used it with
    | Some n =>
        if Nat.eqb n (List.length entries) then
          match nth_error entries (it_pos it) with
          | Some e => (mkIter true (Some n) (S (it_pos it)), Gives (view e))
          | None => (mkIter false (Some n) (it_pos it), Stops)
          end
        else (mkIter true None (it_pos it), Raises RuntimeErr)
    | None => (it, Raises RuntimeErr)
    end
  else (it, Stops).

(** machine.py:584-591 chips *)
Definition chips_iter (m : machine) : dict_iter := iter_of (m_chips m).
Definition chips_next (m : machine) : dict_iter -> dict_iter * answer chip :=
  dict_next snd (m_chips m).
(** machine.py:593-600 chip_coordinates *)
Definition coordinates_iter (m : machine) : dict_iter := iter_of (m_chips m).
Definition coordinates_next (m : machine) : dict_iter -> dict_iter * answer XY :=
  dict_next fst (m_chips m).
(** machine.py:602-613 __iter__ *)
Definition items_iter (m : machine) : dict_iter := iter_of (m_chips m).
Definition items_next (m : machine) : dict_iter -> dict_iter * answer (XY * chip) :=
  dict_next (fun e => e) (m_chips m).
(** router.py:108-115 links *)
Definition links_iter (r : router) : dict_iter := iter_of (r_links r).
Definition links_next (r : router) : dict_iter -> dict_iter * answer link :=
  dict_next snd (r_links r).
(** router.py:117-126 __iter__ *)
Definition link_items_iter (r : router) : dict_iter := iter_of (r_links r).
Definition link_items_next (r : router) : dict_iter -> dict_iter * answer (Z * link) :=
  dict_next (fun e => e) (r_links r).

(** ** The list of the Ethernet chips *)

(** machine.py:711-718 ethernet_connected_chips gives the list itself, to which
    add_chip (machine.py:568) appends.  CPython's iterator of a list: None once it
    has said StopIteration, else the place of the item that comes next. *)
Definition eth_iter (m : machine) : option nat := Some 0%nat.
Definition eth_next (m : machine) (it : option nat) : option nat * answer chip :=
  match it with
  | Some i =>
      match nth_error (m_eth m) i with
      | Some c => (Some (S i), Gives c)
      | None => (None, Stops)
      end
  | None => (None, Stops)
  end.

(** ** Generators over a board *)

(** The place on the machine of a local place of the board:
    no_wrap_machine.py:48 and 56, horizontal_wrap_machine.py:49-50 and 58-59,
    vertical_wrap_machine.py:49-50 and 58-59, full_wrap_machine.py:49-50 and 58-59 *)
Definition on_machine (m : machine) (ex ey : Z) (p : XY) : XY :=
  match m_kind m with
  | NoWrap => (fst p + ex, snd p + ey)
  | HorWrap => ((fst p + ex) mod m_width m, snd p + ey)
  | VerWrap => (fst p + ex, (snd p + ey) mod m_height m)
  | FullWrap => ((fst p + ex) mod m_width m, (snd p + ey) mod m_height m)
  end.

(** The state of the three generators: the local places still to come.  The dict
    they walk over, self._chip_core_map, is never changed. *)
Definition board_iter (m : machine) : list XY := dkeys (m_ccm m).

(** get_existing_xys_by_ethernet, one next(): no_wrap_machine.py:44-50,
    horizontal_wrap_machine.py:45-52, vertical_wrap_machine.py:45-52,
    full_wrap_machine.py:45-52 *)
Fixpoint existing_next (ex ey : Z) (m : machine) (todo : list XY)
  : list XY * answer XY :=
  match todo with
  | [] => ([], Stops)
  | p :: r =>
      if contains m (on_machine m ex ey p) then (r, Gives (on_machine m ex ey p))
      else existing_next ex ey m r
  end.

(** get_down_xys_by_ethernet, one next(): no_wrap_machine.py:52-58,
    horizontal_wrap_machine.py:54-61, vertical_wrap_machine.py:54-61,
    full_wrap_machine.py:54-61 *)
Fixpoint down_next (ex ey : Z) (m : machine) (todo : list XY)
  : list XY * answer XY :=
  match todo with
  | [] => ([], Stops)
  | p :: r =>
      if contains m (on_machine m ex ey p) then down_next ex ey m r
      else (r, Gives (on_machine m ex ey p))
  end.

(** get_chips_by_ethernet, one next(): machine.py:228-230.  A generator that has
    raised is at its end. *)
Definition board_chips_next (ex ey : Z) (m : machine) (todo : list XY)
  : list XY * answer chip :=
  match existing_next ex ey m todo with
  | (r, Gives p) =>
      match getitem m p with
      | Ok c => (r, Gives c)
      | Err e => ([], Raises e)
      end
  | (r, Stops) => (r, Stops)
  | (r, Raises e) => ([], Raises e)
  end.

(** ** The generator one_way_links *)

(** machine.py:1153-1164: not started yet, at the chip that the iterator gave last
    with some of the link checks still to do, or at its end.  self.chips is read at
    the first next(). *)
Inductive owl : Type :=
| OwlNew
| OwlAt (it : dict_iter) (checks : list (Z * Z))
| OwlEnd.

(** machine.py:1159-1164: the inner loop up to the next yield *)
Fixpoint owl_checks (m : machine) (c : chip) (checks : list (Z * Z))
  : option ((Z * Z * Z * Z) * list (Z * Z)) :=
  match checks with
  | [] => None
  | (out, back) :: r =>
      match get_link (c_router c) out with
      | Some l =>
          if is_link_at m (l_destination_x l) (l_destination_y l) back
          then owl_checks m c r
          else Some ((c_x c, c_y c, out, back), r)
      | None => owl_checks m c r
      end
  end.

(** machine.py:1158: the outer loop up to the next yield; [cs] are the chips that
    the iterator [it] has still to give *)
Fixpoint owl_chips (m : machine) (it : dict_iter) (cs : list chip)
  : owl * answer (Z * Z * Z * Z) :=
  match cs with
  | [] => (OwlEnd, Stops)
  | c :: r =>
      let it' := mkIter true (it_used it) (S (it_pos it)) in
      match owl_checks m c LINK_CHECKS with
      | Some (q, checks) => (OwlAt it' checks, Gives q)
      | None => owl_chips m it' r
      end
  end.

(** machine.py:1158: next() on self.chips fails when the dict has changed its size *)
Definition owl_for (m : machine) (it : dict_iter) : owl * answer (Z * Z * Z * Z) :=
  match it_used it with
  | Some n =>
      if Nat.eqb n (List.length (m_chips m))
      then owl_chips m it (skipn (it_pos it) (chips m))
      else (OwlEnd, Raises RuntimeErr)
  | None => (OwlEnd, Raises RuntimeErr)
  end.

(** machine.py:1153-1164, one next().  The chip that the iterator gave last is always
    there. *)
Definition owl_next (m : machine) (s : owl) : owl * answer (Z * Z * Z * Z) :=
  match s with
  | OwlNew => owl_for m (chips_iter m)
  | OwlAt it checks =>
      match nth_error (chips m) (pred (it_pos it)) with
      | Some c =>
          match owl_checks m c checks with
          | Some (q, checks') => (OwlAt it checks', Gives q)
          | None => owl_for m it
          end
      | None => owl_for m it
      end
  | OwlEnd => (OwlEnd, Stops)
  end.
