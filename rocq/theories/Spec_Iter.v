(** Words for C98: iterators that run while the object they walk over changes *)
From Verif Require Import Model_Py Model_Wrap Model_Core Model_Machine Model_Mutate Model_Iter.

(** StopIteration has been raised already *)
Definition stopped {A} (past : list (answer A)) : Prop := In Stops past.

(** The items given so far, in order *)
Definition given {A} (past : list (answer A)) : list A :=
  flat_map (fun a => match a with Gives x => [x] | _ => [] end) past.

(** The n-th item (from 0) of a list, as an answer of next() *)
Definition item_or_stop {A} (items : list A) (n : nat) : answer A :=
  match nth_error items n with Some x => Gives x | None => Stops end.

(** [a] is the right answer of next() on an iterator that was made when there were
    [size] items, after the answers [past], when the items are [items]: one by one
    while there are as many, RuntimeError as soon as there are more, and
    StopIteration for ever once it has been said. *)
Definition answers_rightly {A} (size : Z) (items : list A) (past : list (answer A))
  (a : answer A) : Prop :=
  (stopped past -> a = Stops) /\
  (~ stopped past -> Z.of_nat (List.length items) = size ->
     a = item_or_stop items (List.length past)) /\
  (~ stopped past -> Z.of_nat (List.length items) <> size -> a = Raises RuntimeErr).

(** [l] can be had from [k] by leaving items out *)
Inductive picked {A} : list A -> list A -> Prop :=
| picked_none : picked [] []
| picked_left_out : forall x l k, picked l k -> picked l (x :: k)
| picked_taken : forall x l k, picked l k -> picked (x :: l) (x :: k).

(** next() was not called *)
Definition no_next {C} (evs : list (event C)) : Prop := ~ In Next evs.

(** What a caller does who wants to mend the machine, in the loop
    [for x, y, out, back in machine.one_way_links():]
      link = machine[x, y].router.get_link(out)
      machine[link.destination_x, link.destination_y].router.add_link(
          Link(link.destination_x, link.destination_y, back, x, y)) *)
Definition mend (m : machine) (q : Z * Z * Z * Z) : res machine :=
  let '(x, y, out, back) := q in
  do c <- getitem m (x, y) ;
  match get_link (c_router c) out with
  | Some l =>
      add_link_later m (l_destination_x l, l_destination_y l)
        (mkLink (l_destination_x l) (l_destination_y l) back x y)
  | None => Err AttributeError
  end.

(** Every link with an id from 0 to 5 leads to a chip of the machine. *)
Definition links_lead_to_chips (m : machine) : Prop :=
  forall x y c out l, get_chip_at m x y = Some c -> 0 <= out < 6 ->
    get_link (c_router c) out = Some l ->
    is_chip_at m (l_destination_x l) (l_destination_y l) = true.

(** The link [i] of the chip at (x, y), if both are there *)
Definition link_from (m : machine) (x y i : Z) : option link :=
  match get_chip_at m x y with Some c => get_link (c_router c) i | None => None end.
