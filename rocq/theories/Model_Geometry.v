(** SpiNNakerTriadGeometry (spinnaker_triad_geometry.py).  The constructor is
    executed with the same binary64 arithmetic as the interpreter. *)
From Verif Require Import Model_Py Model_Float.

(** spinnaker_triad_geometry.py:33-39 __slots__ *)
Record geometry : Type := mkGeometry {
  g_triad_width : Z;
  g_triad_height : Z;
  g_board_width : Z;
  g_board_height : Z;
  g_roots : list XY;
  g_ethernet_offset : list (list XY)   (* indexed [y][x] *)
}.

(** spinnaker_triad_geometry.py:108-138 __hexagonal_metric_distance *)
Definition hexagonal_metric_distance (xy : XY) (centre : spec_float * spec_float)
  : spec_float :=
  let dx := f_sub (f_of_Z (fst xy)) (fst centre) in
  let dy := f_sub (f_of_Z (snd xy)) (snd centre) in
  f_max3 (SFabs dx) (SFabs dy) (SFabs (f_sub dx dy)).

(** spinnaker_triad_geometry.py:156-158 measure *)
Definition measure (xy : XY) (centre : spec_float * spec_float) (xy0 : XY)
  : spec_float :=
  hexagonal_metric_distance xy
    (f_add (f_of_Z (fst xy0)) (fst centre), f_add (f_of_Z (snd xy0)) (snd centre)).

(** [min(l, key=f)]: the first element with the smallest key; ValueError on an
    empty sequence *)
Fixpoint min_by {A} (f : A -> spec_float) (best : A) (l : list A) : A :=
  match l with
  | [] => best
  | a :: l' => min_by f (if SFltb (f a) (f best) then a else best) l'
  end.

(** spinnaker_triad_geometry.py:140-164 __locate_nearest_ethernet *)
Definition locate_nearest_ethernet (xy : XY) (ethernet_chips : list XY)
  (centre : spec_float * spec_float) : res XY :=
  match ethernet_chips with
  | [] => Err ValueError
  | e :: es => Ok (min_by (measure xy centre) e es)
  end.

(** spinnaker_triad_geometry.py:85-89 *)
Definition extended_ethernet_chips (tw th : Z) (roots : list XY) : list XY :=
  flat_map (fun r => flat_map (fun x1 => map (fun y1 =>
    (fst r + x1, snd r + y1)) [- th; 0; th]) [- tw; 0; tw]) roots.

(** spinnaker_triad_geometry.py:59-106 __init__ *)
Definition new_geometry (tw th bw bh : Z) (roots : list XY)
  (centre : spec_float * spec_float) : res geometry :=
  let ext := extended_ethernet_chips tw th roots in
  do offsets <- map_res (fun y =>
       map_res (fun x =>
         do v <- locate_nearest_ethernet (x, y) ext centre ;
         Ok (x - fst v, y - snd v)) (zrange 0 tw)) (zrange 0 th) ;
  Ok (mkGeometry tw th bw bh roots offsets).

(** The literals 3.6 and 3.4 as doubles (0x1.ccccccccccccdp+1,
    0x1.b333333333333p+1). *)
Definition F3_6 : spec_float := S754_finite false 8106479329266893 (-51).
Definition F3_4 : spec_float := S754_finite false 7656119366529843 (-51).

(** spinnaker_triad_geometry.py:44-57 get_spinn5_geometry; the cache does not
    change the value. *)
Definition get_spinn5_geometry : res geometry :=
  new_geometry 12 12 8 8 [(0, 0); (4, 8); (8, 4)] (F3_6, F3_4).

(** spinnaker_triad_geometry.py:198-216 get_local_chip_coordinate *)
Definition get_local_chip_coordinate (g : geometry) (x y root_x root_y : Z) : res XY :=
  let dx := (x - root_x) mod g_triad_width g in
  let dy := (y - root_y) mod g_triad_height g in
  do row <- py_index (g_ethernet_offset g) dy ;
  py_index row dx.

(** spinnaker_triad_geometry.py:167-196 get_ethernet_chip_coordinates *)
Definition get_ethernet_chip_coordinates (g : geometry)
  (x y width height root_x root_y : Z) : res XY :=
  do (dx, dy) <- get_local_chip_coordinate g x y root_x root_y ;
  if (width =? 0) || (height =? 0) then Err ZeroDivision
  else Ok ((x - dx) mod width, (y - dy) mod height).

(** spinnaker_triad_geometry.py:218-242 get_potential_ethernet_chips *)
Definition geo_potential_ethernet_chips (g : geometry) (width height : Z) : list XY :=
  let eth_width := if width mod g_triad_width g =? 0 then width
                   else width - g_board_width g + 1 in
  let eth_height := if height mod g_triad_height g =? 0 then height
                    else height - g_board_height g + 1 in
  if (eth_width <=? 0) || (eth_height <=? 0) then [(0, 0)]
  else
    flat_map (fun start =>
      flat_map (fun y =>
        map (fun x => (x, y)) (zrange_step (fst start) eth_width (g_triad_width g)))
      (zrange_step (snd start) eth_height (g_triad_height g)))
    (g_roots g).
