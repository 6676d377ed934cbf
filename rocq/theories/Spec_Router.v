(** Specification of a router and of the neighbours of a chip. *)
From Verif Require Import Model_Py Model_Wrap Model_Core Model_Machine Spec_Hops.

(** Adding links one after the other, going on after an exception. *)
Fixpoint router_history (r : router) (ls : list link) : router * list (option exn) :=
  match ls with
  | [] => (r, [])
  | l :: rest =>
      let '(r1, e) := match router_add_link r l with
                      | Ok r' => (r', None) | Err e => (r, Some e) end in
      let '(r2, es) := router_history r1 rest in (r2, e :: es)
  end.

(** The links that are kept: the first with each id, in order. *)
Fixpoint first_links (seen : list link) (ls : list link) : list link * list (option exn) :=
  match ls with
  | [] => (seen, [])
  | l :: rest =>
      if existsb (fun l' => l_source_link_id l' =? l_source_link_id l) seen
      then let '(s, es) := first_links seen rest in (s, Some AlreadyExists :: es)
      else let '(s, es) := first_links (seen ++ [l]) rest in (s, None :: es)
  end.

(** The chip next to (x, y) over link l when coordinates do not wrap. *)
Definition flat_neighbour (x y l : Z) (q : XY) : Prop :=
  0 <= l < 6 /\ xy_over_link NoWrap 0 0 x y l = Ok q.

(** The chip next to a chip over link l on the machine. *)
Definition neighbour (m : machine) (x y l : Z) (q : XY) : Prop :=
  0 <= l < 6 /\ m_over m x y l = Ok q.

(** There is a chip at (x, y) and it has link [l]. *)
Definition link_at (m : machine) (x y l : Z) : Prop :=
  exists c k, get_chip_at m x y = Some c /\ get_link (c_router c) l = Some k.

(** Some neighbour given by [next] has a link towards (x, y). *)
Definition linked_from (next : Z -> Z -> Z -> XY -> Prop) (m : machine) (x y : Z) : Prop :=
  exists l q, next x y l q /\ link_at m (fst q) (snd q) ((l + 3) mod 6).

(** The same from a chip of the same board. *)
Definition linked_from_board (next : Z -> Z -> Z -> XY -> Prop) (m : machine) (c : chip)
  : Prop :=
  exists l q n, next (c_x c) (c_y c) l q /\ get_chip_at m (fst q) (snd q) = Some n /\
    is_link (c_router n) ((l + 3) mod 6) = true /\
    (c_eth_x n, c_eth_y n) = (c_eth_x c, c_eth_y c).

(** The chip has a link towards a chip of the same board. *)
Definition linked_to_board (next : Z -> Z -> Z -> XY -> Prop) (m : machine) (c : chip)
  : Prop :=
  exists l q n, next (c_x c) (c_y c) l q /\ is_link (c_router c) l = true /\
    get_chip_at m (fst q) (snd q) = Some n /\
    (c_eth_x n, c_eth_y n) = (c_eth_x c, c_eth_y c).
