(** The Machine object (machine.py).  The version that the code gets from
    MachineDataView.get_machine_version() is an argument. *)
From Verif Require Import Model_Py Model_Wrap Model_Version Model_Core.

(** The first component of the keys of the two link dictionaries: a board
    address or chip coordinates (machine.py:32-33). *)
Inductive place : Type := Board (a : string) | AtXY (p : XY).
Definition place_eqb (a b : place) : bool :=
  match a, b with
  | Board s, Board s' => String.eqb s s'
  | AtXY p, AtXY p' => xy_eqb p p'
  | _, _ => false
  end.
Definition spin_key : Type := (place * Z)%type.
Definition spin_key_eqb (a b : spin_key) : bool :=
  place_eqb (fst a) (fst b) && (snd a =? snd b).
Definition fpga_key : Type := (place * Z * Z)%type.
Definition fpga_key_eqb (a b : fpga_key) : bool :=
  let '(p, i, j) := a in let '(p', i', j') := b in
  place_eqb p p' && (i =? i') && (j =? j').

(** machine.py:51-78 __slots__; [m_kind] is the class of the object *)
Record machine : Type := mkMachine {
  m_kind : wrap;
  m_width : Z;
  m_height : Z;
  m_ccm : dict XY Z;
  m_eth : list chip;                          (* _ethernet_connected_chips *)
  m_spin : dict spin_key spin_link_data;      (* _spinnaker_links *)
  m_fpga : dict fpga_key fpga_link_data;      (* _fpga_links *)
  m_boot : option string;                     (* _boot_ethernet_address *)
  m_chips : dict XY chip;
  m_origin : string;
  m_cores_counter : counter;
  m_links_counter : counter;
  m_entries_counter : counter;
  m_sdram_counter : counter
}.

(** machine.py:80-120 __init__ *)
Definition new_machine (k : wrap) (w h : Z) (ccm : dict XY Z) (origin : string) : machine :=
  mkMachine k w h ccm [] [] [] None [] origin [] [] [] [].

(** abstract_version.py:298-316 create_machine, with _create_machine of
    version_3.py:71-73, version_48_chips.py:70-84, version_201.py:70-72 *)
Definition create_machine (v : vid) (w h : option Z) (origin : option string)
  : res machine :=
  do _ <- verify_size v w h ;
  let w := match w with Some n => n | None => 0 end in
  let h := match h with Some n => n | None => 0 end in
  let o := match origin with Some s => s | None => EmptyString end in
  Ok (new_machine (machine_class v w h) w h (chip_core_map v) o).

(** machine.py:546-570 add_chip *)
Definition add_chip (m : machine) (c : chip) : res machine :=
  if dmem xy_eqb (m_chips m) (c_xy c) then Err AlreadyExists
  else
    let chips := dset xy_eqb (m_chips m) (c_xy c) c in
    let cores := cincr (m_cores_counter m) (n_processors c) in
    let links := cincr (m_links_counter m) (router_len (c_router c)) in
    let entries := cincr (m_entries_counter m) (r_entries (c_router c)) in
    let sdram := cincr (m_sdram_counter m) (c_sdram c) in
    let '(eth, boot) :=
      match c_ip c with
      | Some ip =>
          (m_eth m ++ [c],
           if xy_eqb (c_xy c) (0, 0) then Some ip else m_boot m)
      | None => (m_eth m, m_boot m)
      end in
    Ok (mkMachine (m_kind m) (m_width m) (m_height m) (m_ccm m) eth (m_spin m)
          (m_fpga m) boot chips (m_origin m) cores links entries sdram).

(** machine.py:572-582 add_chips.  When a chip is rejected the machine keeps the
    chips added before: the machine reached is returned with the exception. *)
Fixpoint add_chips (m : machine) (cs : list chip) : machine * option exn :=
  match cs with
  | [] => (m, None)
  | c :: cs' =>
      match add_chip m c with
      | Ok m' => add_chips m' cs'
      | Err e => (m, Some e)
      end
  end.

(** machine.py:584-591 chips, 593-600 chip_coordinates, 602-613 __iter__ *)
Definition chips (m : machine) : list chip := dvalues (m_chips m).
Definition chip_coordinates (m : machine) : list XY := dkeys (m_chips m).
Definition machine_iter (m : machine) : list (XY * chip) := m_chips m.

(** machine.py:615-622 __len__, 702-709 n_chips *)
Definition n_chips (m : machine) : Z := Z.of_nat (List.length (m_chips m)).

(** machine.py:624-635 get_chip_at *)
Definition get_chip_at (m : machine) (x y : Z) : option chip :=
  dget xy_eqb (m_chips m) (x, y).

(** machine.py:637-647 __getitem__ *)
Definition getitem (m : machine) (p : XY) : res chip := dgetitem xy_eqb (m_chips m) p.

(** machine.py:649-659 is_chip_at, 671-682 __contains__ *)
Definition is_chip_at (m : machine) (x y : Z) : bool := dmem xy_eqb (m_chips m) (x, y).
Definition contains (m : machine) (p : XY) : bool := dmem xy_eqb (m_chips m) p.

(** machine.py:661-669 is_link_at; [self._chips[x, y]] cannot fail here *)
Definition is_link_at (m : machine) (x y l : Z) : bool :=
  match dget xy_eqb (m_chips m) (x, y) with
  | Some c => is_link (c_router c) l
  | None => false
  end.

(** machine.py:711-718 ethernet_connected_chips *)
Definition ethernet_connected_chips (m : machine) : list chip := m_eth m.

(** machine.py:1007-1014 boot_chip *)
Definition boot_chip (m : machine) : res chip := dgetitem xy_eqb (m_chips m) (0, 0).

(** ** By board *)

Definition m_xys (m : machine) (ex ey : Z) : list XY :=
  get_xys_by_ethernet (m_ccm m) (m_kind m) (m_width m) (m_height m) ex ey.
Definition m_xy_cores (m : machine) (ex ey : Z) : list (XY * Z) :=
  get_xy_cores_by_ethernet (m_ccm m) (m_kind m) (m_width m) (m_height m) ex ey.
Definition m_existing (m : machine) (ex ey : Z) : list XY :=
  get_existing_xys_by_ethernet (m_ccm m) (contains m) (m_kind m) (m_width m)
    (m_height m) ex ey.
Definition m_down (m : machine) (ex ey : Z) : list XY :=
  get_down_xys_by_ethernet (m_ccm m) (contains m) (m_kind m) (m_width m)
    (m_height m) ex ey.
Definition m_over (m : machine) (x y l : Z) : res XY :=
  xy_over_link (m_kind m) (m_width m) (m_height m) x y l.
Definition m_local (m : machine) (c : chip) : XY :=
  get_local_xy (m_kind m) (m_width m) (m_height m) (c_x c) (c_y c) (c_eth_x c) (c_eth_y c).
Definition m_global (m : machine) (lx ly ex ey : Z) : XY :=
  get_global_xy (m_kind m) (m_width m) (m_height m) lx ly ex ey.

(** machine.py:211-230 get_chips_by_ethernet: [self._chips[chip_xy]] may raise
    KeyError as far as the code is concerned *)
Definition get_chips_by_ethernet (m : machine) (ex ey : Z) : res (list chip) :=
  map_res (fun p => getitem m p) (m_existing m ex ey).

(** machine.py:1016-1025 get_existing_xys_on_board *)
Definition get_existing_xys_on_board (m : machine) (c : chip) : list XY :=
  m_existing m (c_eth_x c) (c_eth_y c).

(** machine.py:1206-1220 local_xys *)
Definition local_xys (m : machine) : list XY := dkeys (m_ccm m).

(** ** Validation *)

(** machine.py:498-534: the body of the loop for one chip *)
Definition validate_chip (v : vid) (m : machine) (c : chip) : res unit :=
  if c_x c <? 0 then Err MachineExc
  else if c_y c <? 0 then Err MachineExc
  else if c_x c >=? m_width m then Err MachineExc
  else if c_y c >=? m_height m then Err MachineExc
  else if n_processors c <? minimum_cores_expected v then Err MachineExc
  else if ip_truthy (c_ip c) then
    if illegal_ethernet_message v (c_x c) (c_y c) then Err MachineExc else Ok tt
  else
    if negb (is_chip_at m (c_eth_x c) (c_eth_y c)) then Err MachineExc
    else if negb (dmem xy_eqb (m_ccm m) (m_local m c)) then Err MachineExc
    else Ok tt.

(** machine.py:463-534 validate *)
Definition validate (v : vid) (m : machine) : res unit :=
  match m_boot m with
  | None => Err MachineExc
  | Some _ =>
      if (Z.of_nat (List.length (m_eth m)) >? 1) && negb (supports_multiple_boards v)
      then Err MachineExc
      else fold_res (fun _ c => validate_chip v m c) (chips m) tt
  end.

(** ** SpiNNaker and FPGA links *)

(** machine.py:863-869 _add_spinnaker_link *)
Definition add_spinnaker_link (m : machine) (id x y l : Z) (addr : string) : machine :=
  let data := mkSpinLink id x y l addr in
  let d := dset spin_key_eqb (m_spin m) (Board addr, id) data in
  let d := dset spin_key_eqb d (AtXY (x, y), id) data in
  mkMachine (m_kind m) (m_width m) (m_height m) (m_ccm m) (m_eth m) d (m_fpga m)
    (m_boot m) (m_chips m) (m_origin m) (m_cores_counter m) (m_links_counter m)
    (m_entries_counter m) (m_sdram_counter m).

(** machine.py:854-861: one link of one board *)
Definition add_spinnaker_step (ip : string) (e : chip) (m : machine)
  (s : Z * (Z * Z * Z)) : machine :=
  let '(s_id, (local_x, local_y, l)) := s in
  let '(gx, gy) := m_global m local_x local_y (c_x e) (c_y e) in
  match get_chip_at m gx gy with
  | Some c => if negb (is_link (c_router c) l)
              then add_spinnaker_link m s_id gx gy l ip else m
  | None => m
  end.

(** machine.py:845-861 add_spinnaker_links *)
Definition add_spinnaker_links (v : vid) (m : machine) : res machine :=
  fold_res (fun m e =>
    match c_ip e with
    | None => Err AssertionError
    | Some ip => Ok (fold_left (add_spinnaker_step ip e) (enumerate (spinnaker_links v)) m)
    end) (m_eth m) m.

(** machine.py:889-901 _add_fpga_link *)
Definition add_fpga_link (m : machine) (fpga_id fpga_link x y l : Z) (addr : string)
  (ex ey : Z) : machine :=
  let data := mkFpgaLink fpga_link fpga_id x y l addr in
  let d := dset fpga_key_eqb (m_fpga m) (Board addr, fpga_id, fpga_link) data in
  let d := dset fpga_key_eqb d (AtXY (x, y), fpga_id, fpga_link) data in
  let d := dset fpga_key_eqb d (AtXY (ex, ey), fpga_id, fpga_link) data in
  mkMachine (m_kind m) (m_width m) (m_height m) (m_ccm m) (m_eth m) (m_spin m) d
    (m_boot m) (m_chips m) (m_origin m) (m_cores_counter m) (m_links_counter m)
    (m_entries_counter m) (m_sdram_counter m).

(** machine.py:880-887: one link of one board *)
Definition add_fpga_step (ip : string) (e : chip) (m : machine)
  (s : Z * Z * Z * Z * Z) : machine :=
  let '(local_x, local_y, l, fpga_id, fpga_link) := s in
  let '(gx, gy) := m_global m local_x local_y (c_x e) (c_y e) in
  match get_chip_at m gx gy with
  | Some c => add_fpga_link m fpga_id fpga_link (c_x c) (c_y c) l ip (c_x e) (c_y e)
  | None => m
  end.

(** machine.py:871-887 add_fpga_links *)
Definition add_fpga_links (v : vid) (m : machine) : res machine :=
  fold_res (fun m e =>
    match c_ip e with
    | None => Err AssertionError
    | Some ip => Ok (fold_left (add_fpga_step ip e) (fpga_links v) m)
    end) (m_eth m) m.

(** machine.py:731-777 get_spinnaker_link_with_id *)
Definition get_spinnaker_link_with_id (m : machine) (id : Z)
  (board_address : option string) (chip_coords : option XY) : res spin_link_data :=
  match chip_coords with
  | Some p =>
      if negb (contains m p) then Err KeyError
      else match dget spin_key_eqb (m_spin m) (AtXY p, id) with
           | Some d => Ok d
           | None => Err KeyError
           end
  | None =>
      let addr := match board_address with Some a => Some a | None => m_boot m end in
      match addr with
      | None => Err AssertionError
      | Some a => dgetitem spin_key_eqb (m_spin m) (Board a, id)
      end
  end.

(** machine.py:779-834 get_fpga_link_with_id *)
Definition get_fpga_link_with_id (m : machine) (fpga_id fpga_link_id : Z)
  (board_address : option string) (chip_coords : option XY) : res fpga_link_data :=
  match chip_coords with
  | Some p =>
      if negb (contains m p) then Err KeyError
      else match dget fpga_key_eqb (m_fpga m) (AtXY p, fpga_id, fpga_link_id) with
           | Some d => Ok d
           | None => Err KeyError
           end
  | None =>
      let addr := match board_address with Some a => Some a | None => m_boot m end in
      match addr with
      | None => Err AssertionError
      | Some a => dgetitem fpga_key_eqb (m_fpga m) (Board a, fpga_id, fpga_link_id)
      end
  end.

(** machine.py:836-843 n_fpga_links *)
Definition n_fpga_links (m : machine) : Z := Z.of_nat (List.length (m_fpga m)).

(** ** Counts *)

(** machine.py:916-923 get_cores_count *)
Definition get_cores_count (m : machine) : Z := ctotal (m_cores_counter m).

(** machine.py:925-937 get_links_count.  The code returns the float
    [sum / 2]; the model returns the sum, that is twice the count. *)
Definition get_links_count_doubled (m : machine) : Z := ctotal (m_links_counter m).

(** machine.py:939-947 min_n_router_enteries *)
Definition min_n_router_enteries (m : machine) : res Z :=
  py_index (zsorted (dkeys (m_entries_counter m))) (-1).

(** machine.py:1027-1035 total_available_user_cores *)
Definition total_available_user_cores (m : machine) : Z :=
  zsum (map n_placable_processors (chips m)).

(** machine.py:1037-1044 total_cores *)
Definition total_cores (m : machine) : Z := zsum (map n_processors (chips m)).

(** ** Reports *)

(** machine.py:1046-1064 unreachable_outgoing_chips.  A [for ... break ... else]
    loop is a [filter] by [negb (existsb ...)]. *)
Definition unreachable_outgoing_chips (m : machine) : list XY :=
  filter (fun p => negb (existsb (fun l => is_link_at m (fst p) (snd p) l) (zrange 0 6)))
    (chip_coordinates m).

(** machine.py:1079 and 1103: moves and the test of one neighbour *)
Definition MOVES : list XY := [(1, 0); (1, 1); (0, 1); (-1, 0); (-1, -1); (0, -1)].

(** machine.py:1066-1088 unreachable_incoming_chips *)
Definition unreachable_incoming_chips (m : machine) : list XY :=
  filter (fun p => negb (existsb (fun lm =>
      let '(l, mv) := lm in
      let opp := (l + 3) mod 6 in
      is_link_at m (fst p + fst mv) (snd p + snd mv) opp) (enumerate MOVES)))
    (chip_coordinates m).

Definition same_ethernet (a b : chip) : bool :=
  (c_eth_x a =? c_eth_x b) && (c_eth_y a =? c_eth_y b).

(** machine.py:1090-1119 unreachable_outgoing_local_chips *)
Definition unreachable_outgoing_local_chips (m : machine) : list XY :=
  map c_xy (filter (fun c => negb (existsb (fun lm =>
      let '(l, mv) := lm in
      if is_link (c_router c) l then
        match dget xy_eqb (m_chips m) (c_x c + fst mv, c_y c + snd mv) with
        | Some n => same_ethernet n c
        | None => false
        end
      else false) (enumerate MOVES))) (chips m)).

(** machine.py:1138: the moves of the incoming local report *)
Definition MOVES_IN : list XY := [(-1, 0); (-1, -1); (0, -1); (1, 0); (1, 1); (0, 1)].

(** machine.py:1121-1151 unreachable_incoming_local_chips *)
Definition unreachable_incoming_local_chips (m : machine) : list XY :=
  map c_xy (filter (fun c => negb (existsb (fun om =>
      let '(opp, mv) := om in
      match dget xy_eqb (m_chips m) (c_x c + fst mv, c_y c + snd mv) with
      | Some n => if is_link (c_router n) opp then same_ethernet n c else false
      | None => false
      end) (enumerate MOVES_IN))) (chips m)).

(** machine.py:1157 link_checks *)
Definition LINK_CHECKS : list (Z * Z) := [(0, 3); (1, 4); (2, 5); (3, 0); (4, 1); (5, 2)].

(** machine.py:1153-1164 one_way_links *)
Definition one_way_links (m : machine) : list (Z * Z * Z * Z) :=
  flat_map (fun c => flat_map (fun ob =>
    let '(out, back) := ob in
    match get_link (c_router c) out with
    | Some l => if negb (is_link_at m (l_destination_x l) (l_destination_y l) back)
                then [(c_x c, c_y c, out, back)] else []
    | None => []
    end) LINK_CHECKS) (chips m).

(** ** get_unused_xy *)

(** machine.py:1244-1249: the loop over columns; [used] stands for the two
    membership tests *)
Fixpoint unused_search (used : XY -> bool) (height : Z) (fuel : nat) (x : Z) : res XY :=
  match fuel with
  | O => Err OutOfFuel
  | S fuel' =>
      match find (fun y => negb (used (x, y))) (zrange 0 height) with
      | Some y => Ok (x, y)
      | None => unused_search used height fuel' (x + 1)
      end
  end.

(** machine.py:1222-1249 get_unused_xy.  The [while True] loop has fuel for one
    column more than there are used coordinates; C23 shows it is enough whenever
    the height is positive (with height <= 0 the code does not terminate). *)
Definition get_unused_xy (m : machine) : res XY :=
  let xys := flat_map (fun e => m_xys m (c_x e) (c_y e)) (m_eth m) in
  let used := fun p => contains m p || xymem xys p in
  unused_search used (m_height m)
    (S (List.length (m_chips m) + List.length xys)) 0.
