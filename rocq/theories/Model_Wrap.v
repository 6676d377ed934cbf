(** The coordinate methods of the four Machine classes.  The width and height
    of the machine are the arguments [w] and [h]; the board map
    [self._chip_core_map] is [ccm] and membership in [self._chips] is the
    predicate [ex].

    Python's [%] raises ZeroDivisionError for a zero width or height; such
    machines are rejected by [verify_size] (abstract_version.py:280-283) and the
    theorems assume a positive size in the wrapping dimensions. *)
From Verif Require Import Model_Py.

(** Which subclass of Machine: no_wrap_machine.py:21, horizontal_wrap_machine.py:21,
    vertical_wrap_machine.py:21, full_wrap_machine.py:21. *)
Inductive wrap : Type := NoWrap | HorWrap | VerWrap | FullWrap.

(** machine.py:49 LINK_ADD_TABLE *)
Definition LINK_ADD_TABLE : list XY :=
  [(1, 0); (1, 1); (0, 1); (-1, 0); (-1, -1); (0, -1)].

(** ** xy_over_link *)

(** no_wrap_machine.py:60-65 *)
Definition nw_xy_over_link (x y link : Z) : res XY :=
  do (add_x, add_y) <- py_index LINK_ADD_TABLE link ;
  Ok (x + add_x, y + add_y).

(** horizontal_wrap_machine.py:63-68 *)
Definition hw_xy_over_link (w : Z) (x y link : Z) : res XY :=
  do (add_x, add_y) <- py_index LINK_ADD_TABLE link ;
  Ok ((x + add_x + w) mod w, y + add_y).

(** vertical_wrap_machine.py:63-68 *)
Definition vw_xy_over_link (h : Z) (x y link : Z) : res XY :=
  do (add_x, add_y) <- py_index LINK_ADD_TABLE link ;
  Ok (x + add_x, (y + add_y + h) mod h).

(** full_wrap_machine.py:63-68 *)
Definition fw_xy_over_link (w h : Z) (x y link : Z) : res XY :=
  do (add_x, add_y) <- py_index LINK_ADD_TABLE link ;
  Ok ((x + add_x + w) mod w, (y + add_y + h) mod h).

Definition xy_over_link (k : wrap) (w h x y link : Z) : res XY :=
  match k with
  | NoWrap => nw_xy_over_link x y link
  | HorWrap => hw_xy_over_link w x y link
  | VerWrap => vw_xy_over_link h x y link
  | FullWrap => fw_xy_over_link w h x y link
  end.

(** ** get_local_xy: takes the coordinates of the chip and of its nearest
    Ethernet chip, the only attributes used. *)

(** no_wrap_machine.py:67-71 *)
Definition nw_get_local_xy (x y ex ey : Z) : XY := (x - ex, y - ey).
(** horizontal_wrap_machine.py:70-75 *)
Definition hw_get_local_xy (w x y ex ey : Z) : XY := ((x - ex + w) mod w, y - ey).
(** vertical_wrap_machine.py:70-75 *)
Definition vw_get_local_xy (h x y ex ey : Z) : XY := (x - ex, (y - ey + h) mod h).
(** full_wrap_machine.py:70-76 *)
Definition fw_get_local_xy (w h x y ex ey : Z) : XY :=
  ((x - ex + w) mod w, (y - ey + h) mod h).

Definition get_local_xy (k : wrap) (w h x y ex ey : Z) : XY :=
  match k with
  | NoWrap => nw_get_local_xy x y ex ey
  | HorWrap => hw_get_local_xy w x y ex ey
  | VerWrap => vw_get_local_xy h x y ex ey
  | FullWrap => fw_get_local_xy w h x y ex ey
  end.

(** ** get_global_xy *)

(** no_wrap_machine.py:73-79 *)
Definition nw_get_global_xy (lx ly ex ey : Z) : XY := (lx + ex, ly + ey).
(** horizontal_wrap_machine.py:77-83 *)
Definition hw_get_global_xy (w lx ly ex ey : Z) : XY := ((lx + ex) mod w, ly + ey).
(** vertical_wrap_machine.py:77-83 *)
Definition vw_get_global_xy (h lx ly ex ey : Z) : XY := (lx + ex, (ly + ey) mod h).
(** full_wrap_machine.py:78-84 *)
Definition fw_get_global_xy (w h lx ly ex ey : Z) : XY :=
  ((lx + ex) mod w, (ly + ey) mod h).

Definition get_global_xy (k : wrap) (w h lx ly ex ey : Z) : XY :=
  match k with
  | NoWrap => nw_get_global_xy lx ly ex ey
  | HorWrap => hw_get_global_xy w lx ly ex ey
  | VerWrap => vw_get_global_xy h lx ly ex ey
  | FullWrap => fw_get_global_xy w h lx ly ex ey
  end.

(** ** get_vector_length *)

(** no_wrap_machine.py:81-121 *)
Definition nw_get_vector_length (s d : XY) : Z :=
  let x := fst d - fst s in
  let y := snd d - snd s in
  if x >? 0 then
    if y >? 0 then (if x >? y then x else y)
    else x - y
  else
    if y >? 0 then y - x
    else (if x >? y then - y else - x).

(** horizontal_wrap_machine.py:85-113 *)
Definition hw_get_vector_length (w : Z) (s d : XY) : Z :=
  let x_right := (fst d - fst s) mod w in
  let x_left := x_right - w in
  let y := snd d - snd s in
  let '(len_right, len_left) :=
    if y >? 0 then
      ((if x_right >? y then x_right else y), y - x_left)
    else
      (x_right - y, (if x_left >? y then - y else - x_left)) in
  if len_right <? len_left then len_right else len_left.

(** vertical_wrap_machine.py:85-113 *)
Definition vw_get_vector_length (h : Z) (s d : XY) : Z :=
  let x := fst d - fst s in
  let y_up := (snd d - snd s) mod h in
  let y_down := y_up - h in
  let '(len_up, len_down) :=
    if x >? 0 then
      ((if x >? y_up then x else y_up), x - y_down)
    else
      (y_up - x, (if x >? y_down then - y_down else - x)) in
  if len_up <? len_down then len_up else len_down.

(** full_wrap_machine.py:86-117 *)
Definition fw_get_vector_length (w h : Z) (s d : XY) : Z :=
  let x_up := (fst d - fst s) mod w in
  let x_down := x_up - w in
  let y_right := (snd d - snd s) mod h in
  let y_left := y_right - h in
  let length := if x_up >? y_right then x_up else y_right in
  let negative_x := y_right - x_down in
  let length := if negative_x <? length then negative_x else length in
  let negative_y := x_up - y_left in
  let length := if negative_y <? length then negative_y else length in
  let negative_xy := if x_down >? y_left then - y_left else - x_down in
  if negative_xy <? length then negative_xy else length.

Definition get_vector_length (k : wrap) (w h : Z) (s d : XY) : Z :=
  match k with
  | NoWrap => nw_get_vector_length s d
  | HorWrap => hw_get_vector_length w s d
  | VerWrap => vw_get_vector_length h s d
  | FullWrap => fw_get_vector_length w h s d
  end.

(** ** get_vector *)

(** machine.py:1166-1204 _minimize_vector *)
Definition minimize_vector (x y : Z) : Z * Z * Z :=
  if x >? 0 then
    if y >? 0 then
      if x >? y then (x - y, 0, - y) else (0, y - x, - x)
    else (x, y, 0)
  else
    if y >? 0 then (x, y, 0)
    else
      if x >? y then (0, y - x, - x) else (x - y, 0, - y).

(** no_wrap_machine.py:123-126 *)
Definition nw_get_vector (s d : XY) : Z * Z * Z :=
  minimize_vector (fst d - fst s) (snd d - snd s).

(** horizontal_wrap_machine.py:115-143 *)
Definition hw_get_vector (w : Z) (s d : XY) : Z * Z * Z :=
  let x_right := (fst d - fst s) mod w in
  let x_left := x_right - w in
  let y := snd d - snd s in
  let '(len_right, len_left) :=
    if y >? 0 then
      ((if x_right >? y then x_right else y), y - x_left)
    else
      (x_right - y, (if x_left >? y then - y else - x_left)) in
  if len_right <? len_left then minimize_vector x_right y
  else minimize_vector x_left y.

(** vertical_wrap_machine.py:115-143 *)
Definition vw_get_vector (h : Z) (s d : XY) : Z * Z * Z :=
  let x := fst d - fst s in
  let y_up := (snd d - snd s) mod h in
  let y_down := y_up - h in
  let '(len_up, len_down) :=
    if x >? 0 then
      ((if x >? y_up then x else y_up), x - y_down)
    else
      (y_up - x, (if x >? y_down then - y_down else - x)) in
  if len_up <? len_down then minimize_vector x y_up
  else minimize_vector x y_down.

(** full_wrap_machine.py:119-155 *)
Definition fw_get_vector (w h : Z) (s d : XY) : Z * Z * Z :=
  let x_up := (fst d - fst s) mod w in
  let x_down := x_up - w in
  let y_right := (snd d - snd s) mod h in
  let y_left := y_right - h in
  let '(length, dx, dy) :=
    ((if x_up >? y_right then x_up else y_right), x_up, y_right) in
  let negative_x := y_right - x_down in
  let '(length, dx, dy) :=
    if negative_x <? length then (negative_x, x_down, dy)
    else (length, dx, dy) in
  let negative_y := x_up - y_left in
  let '(length, dx, dy) :=
    if negative_y <? length then (negative_y, x_up, y_left)
    else (length, dx, dy) in
  let negative_xy := if x_down >? y_left then - y_left else - x_down in
  if negative_xy <? length then minimize_vector x_down y_left
  else minimize_vector dx dy.

Definition get_vector (k : wrap) (w h : Z) (s d : XY) : Z * Z * Z :=
  match k with
  | NoWrap => nw_get_vector s d
  | HorWrap => hw_get_vector w s d
  | VerWrap => vw_get_vector h s d
  | FullWrap => fw_get_vector w h s d
  end.

(** ** concentric_xys *)

(** machine.py:1251-1271 _basic_concentric_xys.  The generator is the list of
    the yielded pairs.  [walk_line] is the innermost loop
    [for _ in range(r): yield (x, y); x += dx; y += dy]; it returns the yielded
    pairs and the final position. *)
Fixpoint walk_line (n : nat) (dx dy : Z) (p : XY) : list XY * XY :=
  match n with
  | O => ([], p)
  | S n' =>
      let '(ys, p') := walk_line n' dx dy (fst p + dx, snd p + dy) in
      (p :: ys, p')
  end.

(** machine.py:1267 *)
Definition RING_MOVES : list XY :=
  [(1, 1); (0, 1); (-1, 0); (-1, -1); (0, -1); (1, 0)].

(** machine.py:1267-1271: the loop over the six directions *)
Fixpoint walk_sides (moves : list XY) (r : nat) (p : XY) : list XY * XY :=
  match moves with
  | [] => ([], p)
  | (dx, dy) :: moves' =>
      let '(ys, p') := walk_line r dx dy p in
      let '(ys', p'') := walk_sides moves' r p' in
      (ys ++ ys', p'')
  end.

(** machine.py:1263-1271: [n] more rings, the next one being ring [r] *)
Fixpoint walk_rings (n : nat) (r : nat) (p : XY) : list XY :=
  match n with
  | O => []
  | S n' =>
      let p := (fst p, snd p - 1) in
      let '(ys, p') := walk_sides RING_MOVES r p in
      ys ++ walk_rings n' (S r) p'
  end.

Definition basic_concentric_xys (radius : Z) (start : XY) : list XY :=
  start :: walk_rings (Z.to_nat radius) 1 start.

(** no_wrap_machine.py:128-131, horizontal_wrap_machine.py:145-150,
    vertical_wrap_machine.py:145-150, full_wrap_machine.py:157-162 *)
Definition concentric_xys (k : wrap) (w h radius : Z) (start : XY) : list XY :=
  match k with
  | NoWrap => basic_concentric_xys radius start
  | HorWrap => map (fun p => (fst p mod w, snd p)) (basic_concentric_xys radius start)
  | VerWrap => map (fun p => (fst p, snd p mod h)) (basic_concentric_xys radius start)
  | FullWrap => map (fun p => (fst p mod w, snd p mod h)) (basic_concentric_xys radius start)
  end.

(** ** The boards *)
Section Boards.
  Variable ccm : dict XY Z.        (* self._chip_core_map *)
  Variable ex : XY -> bool.        (* chip_xy in self._chips *)

  (** get_xys_by_ethernet: no_wrap_machine.py:30-34,
      horizontal_wrap_machine.py:30-36, vertical_wrap_machine.py:30-36,
      full_wrap_machine.py:29-35 *)
  Definition get_xys_by_ethernet (k : wrap) (w h ex0 ey0 : Z) : list XY :=
    match k with
    | NoWrap => map (fun p => (fst p + ex0, snd p + ey0)) (dkeys ccm)
    | HorWrap => map (fun p => ((fst p + ex0) mod w, snd p + ey0)) (dkeys ccm)
    | VerWrap => map (fun p => (fst p + ex0, (snd p + ey0) mod h)) (dkeys ccm)
    | FullWrap =>
        map (fun p => ((fst p + ex0) mod w, (snd p + ey0) mod h)) (dkeys ccm)
    end.

  (** get_xy_cores_by_ethernet: no_wrap_machine.py:36-42,
      horizontal_wrap_machine.py:38-43, vertical_wrap_machine.py:38-43,
      full_wrap_machine.py:37-43 *)
  Definition get_xy_cores_by_ethernet (k : wrap) (w h ex0 ey0 : Z) : list (XY * Z) :=
    match k with
    | NoWrap =>
        map (fun e => ((fst (fst e) + ex0, snd (fst e) + ey0), snd e)) ccm
    | HorWrap =>
        map (fun e => (((fst (fst e) + ex0) mod w, snd (fst e) + ey0), snd e)) ccm
    | VerWrap =>
        map (fun e => ((fst (fst e) + ex0, (snd (fst e) + ey0) mod h), snd e)) ccm
    | FullWrap =>
        map (fun e => (((fst (fst e) + ex0) mod w, (snd (fst e) + ey0) mod h), snd e)) ccm
    end.

  (** get_existing_xys_by_ethernet: no_wrap_machine.py:44-50,
      horizontal_wrap_machine.py:45-52, vertical_wrap_machine.py:45-52,
      full_wrap_machine.py:45-52.  The loop with [if ... in self._chips: yield]
      is a [flat_map]. *)
  Definition get_existing_xys_by_ethernet (k : wrap) (w h ex0 ey0 : Z) : list XY :=
    match k with
    | NoWrap => flat_map (fun p =>
        let c := (fst p + ex0, snd p + ey0) in if ex c then [c] else []) (dkeys ccm)
    | HorWrap => flat_map (fun p =>
        let c := ((fst p + ex0) mod w, snd p + ey0) in if ex c then [c] else []) (dkeys ccm)
    | VerWrap => flat_map (fun p =>
        let c := (fst p + ex0, (snd p + ey0) mod h) in if ex c then [c] else []) (dkeys ccm)
    | FullWrap => flat_map (fun p =>
        let c := ((fst p + ex0) mod w, (snd p + ey0) mod h) in
        if ex c then [c] else []) (dkeys ccm)
    end.

  (** get_down_xys_by_ethernet: no_wrap_machine.py:52-58,
      horizontal_wrap_machine.py:54-61, vertical_wrap_machine.py:54-61,
      full_wrap_machine.py:54-61 *)
  Definition get_down_xys_by_ethernet (k : wrap) (w h ex0 ey0 : Z) : list XY :=
    match k with
    | NoWrap => flat_map (fun p =>
        let c := (fst p + ex0, snd p + ey0) in if negb (ex c) then [c] else []) (dkeys ccm)
    | HorWrap => flat_map (fun p =>
        let c := ((fst p + ex0) mod w, snd p + ey0) in
        if negb (ex c) then [c] else []) (dkeys ccm)
    | VerWrap => flat_map (fun p =>
        let c := (fst p + ex0, (snd p + ey0) mod h) in
        if negb (ex c) then [c] else []) (dkeys ccm)
    | FullWrap => flat_map (fun p =>
        let c := ((fst p + ex0) mod w, (snd p + ey0) mod h) in
        if negb (ex c) then [c] else []) (dkeys ccm)
    end.
End Boards.

(** router.py:215-228 opposite *)
Definition LINK_OPPOSITE : Z := 3.          (* router.py:39 *)
Definition MAX_LINKS_PER_ROUTER : Z := 6.   (* router.py:36 *)
Definition MAX_CORES_PER_ROUTER : Z := 18.  (* router.py:41 *)
Definition opposite (link_id : Z) : Z :=
  (link_id + LINK_OPPOSITE) mod MAX_LINKS_PER_ROUTER.
