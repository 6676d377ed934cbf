(** virtual_machine.py.  The version that the code gets from
    MachineDataView.get_machine_version() and the cfg are arguments. *)
From Coq Require Import DecimalString.
From Verif Require Import Model_Py Model_Wrap Model_Float Model_Version Model_Core Model_Machine
  Model_Ignore.
Open Scope Z_scope.

(** An integer in a format string: its decimal digits, with a sign if negative. *)
Definition dec (n : Z) : string := NilZero.string_of_int (Z.to_int n).

(** virtual_machine.py:217-218: f"127.0.{x}.{y}" *)
Definition virtual_ip (x y : Z) : string :=
  String.append "127.0." (String.append (dec x) (String.append "." (dec y))).

(** virtual_machine.py:158-161 _4_chip_down_links *)
Definition FOUR_CHIP_DOWN_LINKS : list (Z * Z * Z) :=
  [(0, 0, 3); (0, 0, 4); (0, 1, 3); (0, 1, 4);
   (1, 0, 0); (1, 0, 1); (1, 1, 0); (1, 1, 1)].

(** Membership of a set of (x, y, link) *)
Definition link_mem (s : list (Z * Z * Z)) (t : Z * Z * Z) : bool := existsb (qqq_eqb t) s.

(** [l.remove(x)] when [x] is in [l]: the first occurrence goes *)
Fixpoint list_remove (l : list Z) (x : Z) : list Z :=
  match l with
  | [] => []
  | y :: l' => if y =? x then l' else y :: list_remove l' x
  end.

(** virtual_machine.py:174-178: the down chips that apply to every board *)
Definition virtual_unused_chips (items : list ignore_chip) : list XY :=
  flat_map (fun c => match ich_ip c with
                     | None => [(ich_x c, ich_y c)]
                     | Some _ => []
                     end) items.

(** virtual_machine.py:180-185: the down cores; a defaultdict of sets.  The order
    in which the items come out of their set only matters for which of several
    KeyErrors is raised. *)
Definition virtual_unused_cores (items : list ignore_core) : res (dict XY (list Z)) :=
  fold_res (fun d c =>
    match ico_ip c with
    | None =>
        do p <- virtual_p c ;
        let old := match dget xy_eqb d (ico_x c, ico_y c) with Some s => s | None => [] end in
        Ok (dset xy_eqb d (ico_x c, ico_y c) (set_add Z.eqb old p))
    | Some _ => Ok d
    end) items [].

(** virtual_machine.py:187-195: the down links, with those of a 4 chip board *)
Definition virtual_unused_links (items : list ignore_link) (width : Z) : list (Z * Z * Z) :=
  flat_map (fun l => match ili_ip l with
                     | None => [(ili_x l, ili_y l, ili_link l)]
                     | Some _ => []
                     end) items ++
  (if width =? 2 then FOUR_CHIP_DOWN_LINKS else []).

(** virtual_machine.py:203-207: one board of configured_chips *)
Definition configure_board (m : machine) (unused : list XY) (max_cores : Z)
  (d : dict XY (XY * Z)) (eth : XY) : dict XY (XY * Z) :=
  fold_left (fun d e =>
    let '(xy, n) := e in
    if xymem unused xy then d else dset xy_eqb d xy (eth, Z.min n max_cores))
    (m_xy_cores m (fst eth) (snd eth)) d.

(** virtual_machine.py:202-207 configured_chips *)
Definition configured_chips (m : machine) (unused : list XY) (max_cores : Z)
  (eths : list XY) : dict XY (XY * Z) :=
  fold_left (configure_board m unused max_cores) eths [].

(** virtual_machine.py:253-270 _calculate_links *)
Definition calculate_links (m : machine) (unused : list (Z * Z * Z))
  (conf : dict XY (XY * Z)) (xy : XY) : res (list link) :=
  fold_res (fun links l =>
    if link_mem unused (fst xy, snd xy, l) then Ok links
    else
      do d <- m_over m (fst xy) (snd xy) l ;
      if dmem xy_eqb conf d
      then Ok (links ++ [mkLink (fst xy) (snd xy) l (fst d) (snd d)])
      else Ok links) (zrange 0 6) [].

(** virtual_machine.py:237-251 _create_chip *)
Definition create_chip (V : version) (m : machine) (unused_cores : dict XY (list Z))
  (unused_links : list (Z * Z * Z)) (conf : dict XY (XY * Z)) (xy : XY)
  (ip : option string) : res chip :=
  do links <- calculate_links m unused_links conf xy ;
  do r <- new_router links (n_router_entries (v_id V)) ;
  do (eth, n) <- dgetitem xy_eqb conf xy ;
  let down := match dget xy_eqb unused_cores xy with Some s => s | None => [] end in
  let cores := fold_left (fun cores p => if zmem cores p then list_remove cores p else cores)
                 down (zrange 1 n) in
  Ok (new_chip (fst xy) (snd xy) [0] cores r (max_sdram_per_chip V) (fst eth) (snd eth)
        ip None None).

(** virtual_machine.py:165-225 _VirtualMachine.__init__, and 31-43 virtual_machine *)
Definition virtual_machine (c : config) (V : version) (w h : Z) (check : bool) : res machine :=
  let v := v_id V in
  do _ <- verify_size v (Some w) (Some h) ;
  do m0 <- create_machine v (Some w) (Some h) (Some "Virtual"%string) ;
  do down_chips <- parse_chips (cfg_down_chips c) ;
  let unused_chips := virtual_unused_chips down_chips in
  do down_cores <- parse_cores v (cfg_down_cores c) ;
  do unused_cores <- virtual_unused_cores down_cores ;
  do down_links <- parse_links (cfg_down_links c) ;
  let unused_links := virtual_unused_links down_links w in
  do eths <- get_potential_ethernet_chips v w h ;
  let conf := configured_chips m0 unused_chips (max_cores_per_chip V) eths in
  do m1 <- fold_res (fun m xy =>
      do ch <- create_chip V m unused_cores unused_links conf xy
                 (if xymem eths xy then Some (virtual_ip (fst xy) (snd xy)) else None) ;
      add_chip m ch) (dkeys conf) m0 ;
  do m2 <- add_spinnaker_links v m1 ;
  do m3 <- add_fpga_links v m2 ;
  if check then do _ <- validate v m3 ; Ok m3 else Ok m3.

(** virtual_machine.py:46-67 virtual_machine_by_min_size: the size *)
Definition min_size (v : vid) (width height : Z) : res (Z * Z) :=
  let '(w_board, h_board) := board_shape v in
  let width := if (width <=? w_board) && (height >? h_board) then w_board * 2 else width in
  let height := if (height <=? h_board) && (width >? w_board) then h_board * 2 else height in
  do qw <- py_truediv width w_board ;
  do cw <- f_ceil qw ;
  do qh <- py_truediv height h_board ;
  do ch <- f_ceil qh ;
  Ok (w_board * cw, h_board * ch).

Definition virtual_machine_by_min_size (c : config) (V : version) (w h : Z) (check : bool)
  : res machine :=
  do (w', h') <- min_size (v_id V) w h ; virtual_machine c V w' h' check.

(** virtual_machine.py:70-92 virtual_machine_by_cores *)
Definition virtual_machine_by_cores (c : config) (V : version) (eth_monitors all_monitors n : Z)
  (check : bool) : res machine :=
  do (w, h) <- size_from_n_cores (v_id V) eth_monitors all_monitors n ;
  virtual_machine c V w h check.

(** virtual_machine.py:95-117 virtual_machine_by_chips *)
Definition virtual_machine_by_chips (c : config) (V : version) (n : Z) (check : bool)
  : res machine :=
  do (w, h) <- size_from_n_chips (v_id V) n ; virtual_machine c V w h check.

(** virtual_machine.py:120-142 virtual_machine_by_boards *)
Definition virtual_machine_by_boards (c : config) (V : version) (n : Z) (check : bool)
  : res machine :=
  do (w, h) <- size_from_n_boards (v_id V) n ; virtual_machine c V w h check.
