(** The board versions (spinn_machine/version).  A version object is its class
    ([vid]) and the two limits set by its constructor.  Properties that do not
    depend on the limits are functions of the class. *)
From Verif Require Import Model_Py Model_Wrap Model_Float Model_Geometry.

(** The values of the cfg that the modelled code reads, already converted by
    spinn_utilities.config_holder (get_config_int_or_none and so on), see
    spinn_machine.cfg. *)
Record config : Type := mkConfig {
  cfg_version : option Z;
  cfg_versions : option string;
  cfg_width : option Z;
  cfg_height : option Z;
  cfg_max_sdram : option Z;
  cfg_max_machine_core : option Z;
  cfg_repair_machine : bool;
  cfg_down_cores : option string;
  cfg_down_chips : option string;
  cfg_down_links : option string;
  cfg_remote_spinnaker_url : option string;
  cfg_spalloc_server : option string;
  cfg_machine_name : option string;
  cfg_virtual_board : bool
}.

Inductive vid : Type := V3 | V5 | V201 | V248.

Definition vid_eqb (a b : vid) : bool :=
  match a, b with
  | V3, V3 | V5, V5 | V201, V201 | V248, V248 => true
  | _, _ => false
  end.

(** ** Tables *)

(** version/version_3.py:24-24 CHIPS_PER_BOARD *)
Definition V3_CHIPS : dict XY Z :=
  [
   ((0, 0), 18); ((0, 1), 18); ((1, 0), 18); ((1, 1), 18)].

(** version/version_5.py:23-32 CHIPS_PER_BOARD *)
Definition V5_CHIPS : dict XY Z :=
  [
   ((0, 0), 18); ((0, 1), 18); ((0, 2), 18); ((0, 3), 18); ((1, 0), 18);
   ((1, 1), 17); ((1, 2), 18); ((1, 3), 17); ((1, 4), 18); ((2, 0), 18);
   ((2, 1), 18); ((2, 2), 18); ((2, 3), 18); ((2, 4), 18); ((2, 5), 18);
   ((3, 0), 18); ((3, 1), 17); ((3, 2), 18); ((3, 3), 17); ((3, 4), 18);
   ((3, 5), 17); ((3, 6), 18); ((4, 0), 18); ((4, 1), 18); ((4, 2), 18);
   ((4, 3), 18); ((4, 4), 18); ((4, 5), 18); ((4, 6), 18); ((4, 7), 18);
   ((5, 1), 18); ((5, 2), 17); ((5, 3), 18); ((5, 4), 17); ((5, 5), 18);
   ((5, 6), 17); ((5, 7), 18); ((6, 2), 18); ((6, 3), 18); ((6, 4), 18);
   ((6, 5), 18); ((6, 6), 18); ((6, 7), 18); ((7, 3), 18); ((7, 4), 18);
   ((7, 5), 18); ((7, 6), 18); ((7, 7), 18)].

(** version/version_201.py:27-27 CHIPS_PER_BOARD *)
Definition V201_CHIPS : dict XY Z :=
  [
   ((0, 0), 153)].

(** version/version_248.py:25-36 CHIPS_PER_BOARD *)
Definition V248_CHIPS : dict XY Z :=
  [
   ((0, 0), 153); ((0, 1), 153); ((0, 2), 153); ((0, 3), 153); ((1, 0), 153);
   ((1, 1), 152); ((1, 2), 153); ((1, 3), 152); ((1, 4), 153); ((2, 0), 153);
   ((2, 1), 153); ((2, 2), 153); ((2, 3), 153); ((2, 4), 153); ((2, 5), 153);
   ((3, 0), 153); ((3, 1), 152); ((3, 2), 153); ((3, 3), 152); ((3, 4), 153);
   ((3, 5), 151); ((3, 6), 153); ((4, 0), 153); ((4, 1), 153); ((4, 2), 153);
   ((4, 3), 151); ((4, 4), 153); ((4, 5), 153); ((4, 6), 153); ((4, 7), 153);
   ((5, 1), 153); ((5, 2), 152); ((5, 3), 153); ((5, 4), 152); ((5, 5), 153);
   ((5, 6), 152); ((5, 7), 153); ((6, 2), 152); ((6, 3), 152); ((6, 4), 153);
   ((6, 5), 153); ((6, 6), 153); ((6, 7), 153); ((7, 3), 153); ((7, 4), 153);
   ((7, 5), 153); ((7, 6), 153); ((7, 7), 153)].

(** version/version_spin2.py:27-65 QUAD_MAP *)
Definition QUAD_MAP : dict Z (Z * Z * Z) :=
  [
   (0, (0, 0, 0)); (1, (7, 6, 0)); (2, (7, 6, 1)); (3, (7, 6, 2));
   (4, (7, 6, 3)); (5, (7, 5, 0)); (6, (7, 5, 1)); (7, (7, 5, 2));
   (8, (7, 5, 3)); (9, (6, 6, 0)); (10, (6, 6, 1)); (11, (6, 6, 2));
   (12, (6, 6, 3)); (13, (6, 5, 0)); (14, (6, 5, 1)); (15, (6, 5, 2));
   (16, (6, 5, 3)); (17, (6, 4, 0)); (18, (6, 4, 1)); (19, (6, 4, 2));
   (20, (6, 4, 3)); (21, (5, 4, 0)); (22, (5, 4, 1)); (23, (5, 4, 2));
   (24, (5, 4, 3)); (25, (5, 6, 0)); (26, (5, 6, 1)); (27, (5, 6, 2));
   (28, (5, 6, 3)); (29, (3, 6, 0)); (30, (3, 6, 1)); (31, (3, 6, 2));
   (32, (3, 6, 3)); (33, (4, 6, 0)); (34, (4, 6, 1)); (35, (4, 6, 2));
   (36, (4, 6, 3)); (37, (5, 5, 0)); (38, (5, 5, 1)); (39, (5, 5, 2));
   (40, (5, 5, 3)); (41, (3, 5, 0)); (42, (3, 5, 1)); (43, (3, 5, 2));
   (44, (3, 5, 3)); (45, (4, 5, 0)); (46, (4, 5, 1)); (47, (4, 5, 2));
   (48, (4, 5, 3)); (49, (1, 6, 0)); (50, (1, 6, 1)); (51, (1, 6, 2));
   (52, (1, 6, 3)); (53, (2, 6, 0)); (54, (2, 6, 1)); (55, (2, 6, 2));
   (56, (2, 6, 3)); (57, (1, 5, 0)); (58, (1, 5, 1)); (59, (1, 5, 2));
   (60, (1, 5, 3)); (61, (2, 5, 0)); (62, (2, 5, 1)); (63, (2, 5, 2));
   (64, (2, 5, 3)); (65, (1, 4, 0)); (66, (1, 4, 1)); (67, (1, 4, 2));
   (68, (1, 4, 3)); (69, (2, 4, 0)); (70, (2, 4, 1)); (71, (2, 4, 2));
   (72, (2, 4, 3)); (73, (3, 4, 0)); (74, (3, 4, 1)); (75, (3, 4, 2));
   (76, (3, 4, 3)); (77, (1, 1, 0)); (78, (1, 1, 1)); (79, (1, 1, 2));
   (80, (1, 1, 3)); (81, (2, 1, 0)); (82, (2, 1, 1)); (83, (2, 1, 2));
   (84, (2, 1, 3)); (85, (1, 2, 0)); (86, (1, 2, 1)); (87, (1, 2, 2));
   (88, (1, 2, 3)); (89, (2, 2, 0)); (90, (2, 2, 1)); (91, (2, 2, 2));
   (92, (2, 2, 3)); (93, (1, 3, 0)); (94, (1, 3, 1)); (95, (1, 3, 2));
   (96, (1, 3, 3)); (97, (2, 3, 0)); (98, (2, 3, 1)); (99, (2, 3, 2));
   (100, (2, 3, 3)); (101, (3, 3, 0)); (102, (3, 3, 1)); (103, (3, 3, 2));
   (104, (3, 3, 3)); (105, (5, 1, 0)); (106, (5, 1, 1)); (107, (5, 1, 2));
   (108, (5, 1, 3)); (109, (3, 1, 0)); (110, (3, 1, 1)); (111, (3, 1, 2));
   (112, (3, 1, 3)); (113, (4, 1, 0)); (114, (4, 1, 1)); (115, (4, 1, 2));
   (116, (4, 1, 3)); (117, (5, 2, 0)); (118, (5, 2, 1)); (119, (5, 2, 2));
   (120, (5, 2, 3)); (121, (3, 2, 0)); (122, (3, 2, 1)); (123, (3, 2, 2));
   (124, (3, 2, 3)); (125, (4, 2, 0)); (126, (4, 2, 1)); (127, (4, 2, 2));
   (128, (4, 2, 3)); (129, (7, 1, 0)); (130, (7, 1, 1)); (131, (7, 1, 2));
   (132, (7, 1, 3)); (133, (6, 1, 0)); (134, (6, 1, 1)); (135, (6, 1, 2));
   (136, (6, 1, 3)); (137, (7, 2, 0)); (138, (7, 2, 1)); (139, (7, 2, 2));
   (140, (7, 2, 3)); (141, (6, 2, 0)); (142, (6, 2, 1)); (143, (6, 2, 2));
   (144, (6, 2, 3)); (145, (6, 3, 0)); (146, (6, 3, 1)); (147, (6, 3, 2));
   (148, (6, 3, 3)); (149, (5, 3, 0)); (150, (5, 3, 1)); (151, (5, 3, 2));
   (152, (5, 3, 3))].

(** version/version_5.py:85-108 fpga_links *)
Definition V5_FPGA_LINKS : list (Z * Z * Z * Z * Z) :=
  [
   (0, 0, 3, 1, 1); (0, 0, 4, 1, 0); (0, 0, 5, 0, 15); (0, 1, 3, 1, 3);
   (0, 1, 4, 1, 2); (0, 2, 3, 1, 5); (0, 2, 4, 1, 4); (0, 3, 2, 1, 8);
   (0, 3, 3, 1, 7); (0, 3, 4, 1, 6); (1, 0, 4, 0, 14); (1, 0, 5, 0, 13);
   (1, 4, 2, 1, 10); (1, 4, 3, 1, 9); (2, 0, 4, 0, 12); (2, 0, 5, 0, 11);
   (2, 5, 2, 1, 12); (2, 5, 3, 1, 11); (3, 0, 4, 0, 10); (3, 0, 5, 0, 9);
   (3, 6, 2, 1, 14); (3, 6, 3, 1, 13); (4, 0, 0, 0, 6); (4, 0, 4, 0, 8);
   (4, 0, 5, 0, 7); (4, 7, 1, 2, 1); (4, 7, 2, 2, 0); (4, 7, 3, 1, 15);
   (5, 1, 0, 0, 4); (5, 1, 5, 0, 5); (5, 7, 1, 2, 3); (5, 7, 2, 2, 2);
   (6, 2, 0, 0, 2); (6, 2, 5, 0, 3); (6, 7, 1, 2, 5); (6, 7, 2, 2, 4);
   (7, 3, 0, 0, 0); (7, 3, 1, 2, 15); (7, 3, 5, 0, 1); (7, 4, 0, 2, 14);
   (7, 4, 1, 2, 13); (7, 5, 0, 2, 12); (7, 5, 1, 2, 11); (7, 6, 0, 2, 10);
   (7, 6, 1, 2, 9); (7, 7, 0, 2, 8); (7, 7, 1, 2, 7); (7, 7, 2, 2, 6)].

(** ** Properties of the classes *)

(** version_3.py:44-47, version_5.py:71-74, version_201.py:43-46,
    version_248.py:52-55 number (SPIN2_1CHIP, SPIN2_48CHIP: version_factory.py:36-37) *)
Definition v_number (v : vid) : Z :=
  match v with V3 => 3 | V5 => 5 | V201 => 201 | V248 => 248 end.

(** version_3.py:49-52, version_48_chips.py:38-41, version_201.py:48-51 board_shape *)
Definition board_shape (v : vid) : Z * Z :=
  match v with V3 => (2, 2) | V201 => (1, 1) | V5 | V248 => (8, 8) end.

(** version_3.py:54-57, version_5.py:76-79, version_201.py:53-56,
    version_248.py:57-60 chip_core_map *)
Definition chip_core_map (v : vid) : dict XY Z :=
  match v with
  | V3 => V3_CHIPS | V5 => V5_CHIPS | V201 => V201_CHIPS | V248 => V248_CHIPS
  end.

(** version_spin1.py:72-75, version_spin2.py:82-85 n_scamp_cores *)
Definition n_scamp_cores (v : vid) : Z := 1.

(** version_spin1.py:77-80, version_spin2.py:87-90 n_router_entries *)
Definition n_router_entries (v : vid) : Z :=
  match v with V3 | V5 => 1023 | V201 | V248 => 16384 end.

(** version_spin1.py:82-85, version_spin2.py:92-95 minimum_cores_expected *)
Definition minimum_cores_expected (v : vid) : Z :=
  match v with V3 | V5 => 5 | V201 | V248 => 100 end.

(** version_spin1.py:87-90, version_spin2.py:97-100 clock_speeds_hz *)
Definition clock_speeds_hz (v : vid) : list Z :=
  match v with V3 | V5 => [200] | V201 | V248 => [150; 300] end.

(** version_spin1.py:92-95, version_spin2.py:102-105 dtcm_bytes *)
Definition dtcm_bytes (v : vid) : res Z :=
  match v with V3 | V5 => Ok (2 ^ 16) | V201 | V248 => Err NotImplementedErr end.

(** abstract_version.py:183-192 n_chips_per_board *)
Definition n_chips_per_board (v : vid) : Z := Z.of_nat (List.length (chip_core_map v)).

(** abstract_version.py:207-216 expected_xys *)
Definition expected_xys (v : vid) : list XY := dkeys (chip_core_map v).

(** version_3.py:81-84, version_48_chips.py:106-109, version_201.py:80-83 *)
Definition supports_multiple_boards (v : vid) : bool :=
  match v with V3 | V201 => false | V5 | V248 => true end.

(** version_3.py:86-88, version_5.py:81-83, version_201.py:85-87,
    version_248.py:62-65 spinnaker_links *)
Definition spinnaker_links (v : vid) : list (Z * Z * Z) :=
  match v with
  | V3 => [(0, 0, 3); (1, 0, 0)]
  | V5 => [(0, 0, 4)]
  | V201 | V248 => []
  end.

(** version_3.py:90-92, version_5.py:85-108, version_201.py:89-91,
    version_248.py:67-70 fpga_links *)
Definition fpga_links (v : vid) : list (Z * Z * Z * Z * Z) :=
  match v with V5 => V5_FPGA_LINKS | V3 | V201 | V248 => [] end.

(** version_3.py:75-79, version_48_chips.py:86-93, version_201.py:74-78
    illegal_ethernet_message; [true] stands for a message, [false] for None *)
Definition illegal_ethernet_message (v : vid) (x y : Z) : bool :=
  match v with
  | V3 | V201 => negb (x =? 0) || negb (y =? 0)
  | V5 | V248 =>
      if negb (x mod 4 =? 0) then true
      else if negb ((x + y) mod 12 =? 0) then true else false
  end.

(** version_3.py:59-62, version_48_chips.py:43-47, version_201.py:58-61
    get_potential_ethernet_chips *)
Definition get_potential_ethernet_chips (v : vid) (width height : Z) : res (list XY) :=
  match v with
  | V3 | V201 => Ok [(0, 0)]
  | V5 | V248 =>
      do g <- get_spinn5_geometry ;
      Ok (geo_potential_ethernet_chips g width height)
  end.

(** ** Sizes *)

(** version_3.py:64-69, version_48_chips.py:49-68, version_201.py:63-68 _verify_size *)
Definition verify_size_impl (v : vid) (width height : Z) : res unit :=
  match v with
  | V3 => if negb (width =? 2) then Err MachineExc
          else if negb (height =? 2) then Err MachineExc else Ok tt
  | V201 => if negb (width =? 1) then Err MachineExc
            else if negb (height =? 1) then Err MachineExc else Ok tt
  | V5 | V248 =>
      if width <=? 8 then
        if (width =? 8) && (height =? 8) then Ok tt else Err MachineExc
      else if height <=? 8 then Err MachineExc
      else if negb (width mod 4 =? 0) then Err MachineExc
      else if negb (height mod 4 =? 0) then Err MachineExc
      else Ok tt
  end.

(** abstract_version.py:268-284 verify_size *)
Definition verify_size (v : vid) (width height : option Z) : res unit :=
  match width with
  | None => Err MachineExc
  | Some w =>
      match height with
      | None => Err MachineExc
      | Some h =>
          if w <=? 0 then Err MachineExc
          else if h <=? 0 then Err MachineExc
          else verify_size_impl v w h
      end
  end.

(** The Machine class chosen by _create_machine: version_3.py:71-73,
    version_48_chips.py:70-84, version_201.py:70-72 *)
Definition machine_class (v : vid) (width height : Z) : wrap :=
  match v with
  | V3 => FullWrap
  | V201 => NoWrap
  | V5 | V248 =>
      if width mod 12 =? 0 then
        if height mod 12 =? 0 then FullWrap else HorWrap
      else
        if height mod 12 =? 0 then VerWrap else NoWrap
  end.

(** abstract_version.py:406-421 size_from_n_boards, overridden in
    version_48_chips.py:95-104 *)
Definition size_from_n_boards (v : vid) (n_boards : Z) : res (Z * Z) :=
  match v with
  | V3 | V201 =>
      if n_boards =? 1 then Ok (board_shape v)
      else if supports_multiple_boards v then Err NotImplementedErr
      else Err MachineExc
  | V5 | V248 =>
      if n_boards <=? 1 then Ok (8, 8)
      else
        do q <- py_truediv n_boards 3 ;
        do triads <- f_ceil q ;
        do s <- py_sqrt triads ;
        do width <- f_ceil s ;
        do q2 <- py_truediv triads width ;
        do height <- f_ceil q2 ;
        Ok (width * 12 + 4, height * 12 + 4)
  end.

(** [a // b] *)
Definition py_floordiv (a b : Z) : res Z :=
  if b =? 0 then Err ZeroDivision else Ok (a / b).

(** abstract_version.py:369-388 size_from_n_cores.  The monitor core counts come
    from MachineDataView (machine_data_view.py:349-357, 373-385). *)
Definition size_from_n_cores (v : vid) (eth_monitors all_monitors n_cores : Z)
  : res (Z * Z) :=
  let cores_per_board := zsum (dvalues (chip_core_map v)) in
  let cores_per_board := cores_per_board - eth_monitors in
  let cores_per_board := cores_per_board -
        (all_monitors + n_scamp_cores v) * n_chips_per_board v in
  do q <- py_floordiv (- n_cores) cores_per_board ;
  size_from_n_boards v (- q).

(** abstract_version.py:390-404 size_from_n_chips *)
Definition size_from_n_chips (v : vid) (n_chips : Z) : res (Z * Z) :=
  do q <- py_floordiv (- n_chips) (n_chips_per_board v) ;
  size_from_n_boards v (- q).

(** ** Version objects *)

(** abstract_version.py:53-56 __slots__ *)
Record version : Type := mkVersion {
  v_id : vid;
  max_cores_per_chip : Z;
  max_sdram_per_chip : Z
}.

(** abstract_version.py:63-83 __verify_config_width_height *)
Definition verify_config_width_height (c : config) (v : vid) : res unit :=
  match cfg_width c with
  | None => match cfg_height c with None => Ok tt | Some _ => Err MachineExc end
  | Some w =>
      match cfg_height c with
      | None => Err MachineExc
      | Some h => verify_size v (Some w) (Some h)
      end
  end.

(** abstract_version.py:85-100 __set_max_cores_per_chip *)
Definition set_max_cores_per_chip (c : config) (default : Z) : Z :=
  match cfg_max_machine_core c with
  | None => default
  | Some m => if m <? default then m else default
  end.

(** abstract_version.py:102-118 __set_max_sdram_per_chip *)
Definition set_max_sdram_per_chip (c : config) (default : Z) : Z :=
  match cfg_max_sdram c with
  | None => default
  | Some m => if m <? default then m else default
  end.

(** version_spin1.py:69-70, version_spin2.py:76-80: the defaults *)
Definition default_max_cores (v : vid) : Z :=
  match v with V3 | V5 => 18 | V201 | V248 => 153 end.
Definition default_max_sdram (v : vid) : Z :=
  match v with V3 | V5 => 123469792 | V201 | V248 => 1073741824 end.

(** abstract_version.py:58-61 __init__ *)
Definition new_version (c : config) (v : vid) : res version :=
  do _ <- verify_config_width_height c v ;
  Ok (mkVersion v (set_max_cores_per_chip c (default_max_cores v))
                  (set_max_sdram_per_chip c (default_max_sdram v))).

(** ** Quads *)

Definition qqq_eqb (a b : Z * Z * Z) : bool :=
  let '(x, y, p) := a in let '(x', y', p') := b in
  (x =? x') && (y =? y') && (p =? p').

(** version_spin2.py:79-80 _reverse_quad_map *)
Definition reverse_quad_map : dict (Z * Z * Z) Z :=
  fold_left (fun d kv => dset qqq_eqb d (snd kv) (fst kv)) QUAD_MAP [].

(** version_spin1.py:97-99, version_spin2.py:107-109 quads_maps *)
Definition quads_maps (v : vid) : option (dict Z (Z * Z * Z)) :=
  match v with V3 | V5 => None | V201 | V248 => Some QUAD_MAP end.

(** version_spin1.py:101-103, version_spin2.py:111-113 qx_qy_qp_to_id *)
Definition qx_qy_qp_to_id (v : vid) (qx qy qp : Z) : res Z :=
  match v with
  | V3 | V5 => Err MachineExc
  | V201 | V248 => dgetitem qqq_eqb reverse_quad_map (qx, qy, qp)
  end.

(** version_spin1.py:105-107, version_spin2.py:115-117 id_to_qx_qy_qp *)
Definition id_to_qx_qy_qp (v : vid) (core_id : Z) : res (Z * Z * Z) :=
  match v with
  | V3 | V5 => Err MachineExc
  | V201 | V248 => dgetitem Z.eqb QUAD_MAP core_id
  end.
