(** MachineDataView and MachineDataWriter: the singleton data and every way to reach it. *)
From Coq Require Import String.
From Verif Require Import Model_Py Model_Version Model_Core Model_Machine Model_Factory Model_Virtual Model_Text.
Open Scope string_scope.
Open Scope list_scope.
Open Scope Z_scope.

(** A machine generator: a function of the user, known by a number, or
    MachineDataWriter._mock_machine *)
Inductive generator : Type := UserGen (g : Z) | MockGen.

(** data/machine_data_view.py:44-54 __slots__ of _MachineDataModel *)
Record data : Type := mkData {
  d_all_monitors : Z;
  d_eth_monitors : Z;
  d_machine : option machine;
  d_generator : option generator;
  d_version : option version;
  d_quad_map : option (dict Z (Z * Z * Z));
  d_user_accessed : bool;
  d_v_to_p : option (dict XY (list Z))        (* the bytes as a list of ints *)
}.

(** data/machine_data_view.py:74-85 _hard_reset; 87-90 _soft_reset does nothing *)
Definition data_hard_reset (d : data) : data :=
  mkData 0 0 None (d_generator d) (d_version d) (d_quad_map d) false None.

(** data/machine_data_view.py:65-72 _clear *)
Definition data_clear (d : data) : data :=
  let d := data_hard_reset d in
  mkData (d_all_monitors d) (d_eth_monitors d) (d_machine d) None None None (d_user_accessed d) (d_v_to_p d).

(** data/machine_data_view.py:56-63 __new__ *)
Definition data_new : data := data_clear (mkData 0 0 None None None None false None).

(** What a call finds around it: the configuration, sys.version_info.minor, and the
    status of UtilsDataView (is_user_mode, is_soft_reset, _is_mocked).  They may be
    different for every call. *)
Record env : Type := mkEnv {
  e_config : config; e_minor : Z; e_user_mode : bool; e_soft_reset : bool; e_mocked : bool
}.

(** An object as argument where the code checks the type: None is of another type. *)
Inductive op : Type :=
| HasMachine | HasExistingMachine | GetMachine | GetChipAt (x y : Z)
| GetNearestEthernet (x y : Z) | WhereIsXY (x y : Z) | WhereIsChip (c : chip)
| GetMachineVersion | SetVtoP (map : dict XY (list Z))
| GetPhysicalCoreId (xy : XY) (p : Z) | GetPhysicalQuad (p : Z) | GetPhysicalString (xy : XY) (p : Z)
| GetAllMonitorCores | GetEthernetMonitorCores
(* MachineDataWriter *)
| Mock | Setup | HardReset | SoftReset | GetUserAccessedMachine
| SetMachine (m : option machine) | ClearMachine | SetMachineGenerator (g : option Z)
| AddMonitorCore (all_chips : bool).

Inductive value : Type :=
| VNone | VBool (b : bool) | VInt (n : Z) | VMachine (m : machine) | VChip (c : chip) | VXY (p : XY)
| VStr (s : string) | VVersion (v : version) | VQuad (q : Z * Z * Z).

Definition set_d_machine (d : data) (m : option machine) : data :=
  mkData (d_all_monitors d) (d_eth_monitors d) m (d_generator d) (d_version d) (d_quad_map d)
    (d_user_accessed d) (d_v_to_p d).
Definition set_d_generator (d : data) (g : option generator) : data :=
  mkData (d_all_monitors d) (d_eth_monitors d) (d_machine d) g (d_version d) (d_quad_map d)
    (d_user_accessed d) (d_v_to_p d).

(** The truth of a dict or None *)
Definition dict_true {K V} (d : option (dict K V)) : bool :=
  match d with Some (_ :: _) => true | _ => false end.

(** data/machine_data_view.py:261-277 get_machine_version.  The version and the map are
    stored before the check. *)
Definition get_machine_version (e : env) (d : data) : data * res version :=
  match d_version d with
  | Some v => (d, Ok v)
  | None =>
      match version_factory (e_config e) (e_minor e) with
      | Err x => (d, Err x)
      | Ok v =>
          let d := mkData (d_all_monitors d) (d_eth_monitors d) (d_machine d) (d_generator d) (Some v)
                     (quads_maps (v_id v)) (d_user_accessed d) (d_v_to_p d) in
          if dict_true (d_quad_map d) && dict_true (d_v_to_p d) then (d, Err MachineExc) else (d, Ok v)
      end
  end.

(** data/machine_data_view.py:297-314 get_physical_core_id *)
Definition get_physical_core_id (d : data) (xy : XY) (p : Z) : res Z :=
  match d_v_to_p d with
  | None => Err DataNotAvailable
  | Some m => do l <- dgetitem xy_eqb m xy ; py_index l p
  end.

(** data/machine_data_view.py:316-334 get_physical_quad *)
Definition get_physical_quad (e : env) (d : data) (p : Z) : data * res (Z * Z * Z) :=
  match d_quad_map d with
  | Some q => (d, dgetitem Z.eqb q p)
  | None =>
      let '(d, r) := get_machine_version e d in
      match r with
      | Err x => (d, Err x)
      | Ok _ =>
          match d_quad_map d with
          | None => (d, Err DataNotAvailable)
          | Some q => (d, dgetitem Z.eqb q p)
          end
      end
  end.

(** data/machine_data_view.py:336-356 get_physical_string; get_physical_quad is only
    called when there is a map, so it changes nothing *)
Definition get_physical_string (d : data) (xy : XY) (p : Z) : string :=
  match d_v_to_p d with
  | Some _ =>
      match get_physical_core_id d xy p with
      | Ok n => cat [" (ph: "; dec n; ")"]
      | Err _ => ""
      end
  | None =>
      match d_quad_map d with
      | Some q =>
          match dgetitem Z.eqb q p with
          | Ok (qx, qy, qp) => cat [" (qpe:"; dec qx; ", "; dec qy; ", "; dec qp; ")"]
          | Err _ => ""
          end
      | None => ""
      end
  end.

(** data/machine_data_view.py:279-295 set_v_to_p_map *)
Definition set_v_to_p_map (d : data) (m : dict XY (list Z)) : data * res unit :=
  if dict_true (d_quad_map d) then (d, Err MachineExc)
  else match d_v_to_p d with
       | None => (mkData (d_all_monitors d) (d_eth_monitors d) (d_machine d) (d_generator d) (d_version d)
                    (d_quad_map d) (d_user_accessed d) (Some m), Ok tt)
       | Some _ => (d, Err MachineExc)
       end.

(** data/machine_data_view.py:179-205 get_nearest_ethernet *)
Definition get_nearest_ethernet (d : data) (x y : Z) : XY :=
  match d_machine d with
  | Some m => match getitem m (x, y) with Ok c => (c_eth_x c, c_eth_y c) | Err _ => (x, y) end
  | None => (x, y)
  end.

(** data/machine_data_view.py:207-233 where_is_xy: Machine.where_is_xy never raises *)
Definition where_is_xy (d : data) (x y : Z) : string :=
  match d_machine d with
  | Some m => m_where_is_xy m x y
  | None => "No Machine created yet"
  end.

(** data/machine_data_view.py:235-259 where_is_chip *)
Definition where_is_chip (d : data) (c : chip) : string :=
  match d_machine d with
  | Some m => m_where_is_chip m c
  | None => "Chip is from a previous machine"
  end.

Definition vmap {A} (f : A -> value) (r : res A) : res value :=
  match r with Ok a => Ok (f a) | Err x => Err x end.

(** Every call that does not run a generator.  The methods of UtilsDataWriter that
    _mock, _setup and the resets call first only change the status (see [env]). *)
Definition plain_step (e : env) (d : data) (o : op) : option (data * res value) :=
  match o with
  | GetMachine | GetChipAt _ _ => None
  (* data/machine_data_view.py:110-120 has_machine *)
  | HasMachine => Some (d, Ok (VBool (match d_machine d with Some _ => true | None => e_mocked e end)))
  (* data/machine_data_view.py:122-132 has_existing_machine *)
  | HasExistingMachine => Some (d, Ok (VBool (match d_machine d with Some _ => true | None => false end)))
  | GetNearestEthernet x y => Some (d, Ok (VXY (get_nearest_ethernet d x y)))
  | WhereIsXY x y => Some (d, Ok (VStr (where_is_xy d x y)))
  | WhereIsChip c => Some (d, Ok (VStr (where_is_chip d c)))
  | GetMachineVersion => let '(d, r) := get_machine_version e d in Some (d, vmap VVersion r)
  | SetVtoP m => let '(d, r) := set_v_to_p_map d m in Some (d, vmap (fun _ => VNone) r)
  | GetPhysicalCoreId xy p => Some (d, vmap VInt (get_physical_core_id d xy p))
  | GetPhysicalQuad p => let '(d, r) := get_physical_quad e d p in Some (d, vmap VQuad r)
  | GetPhysicalString xy p => Some (d, Ok (VStr (get_physical_string d xy p)))
  (* data/machine_data_view.py:358-370 get_all_monitor_cores *)
  | GetAllMonitorCores => Some (d, Ok (VInt (d_all_monitors d)))
  (* data/machine_data_view.py:372-385 get_ethernet_monitor_cores *)
  | GetEthernetMonitorCores => Some (d, Ok (VInt (d_eth_monitors d)))
  (* data/machine_data_writer.py:40-44 _mock *)
  | Mock => Some (set_d_generator (data_clear d) (Some MockGen), Ok VNone)
  (* data/machine_data_writer.py:52-55 _setup *)
  | Setup => Some (data_clear d, Ok VNone)
  (* data/machine_data_writer.py:57-60 _hard_reset *)
  | HardReset => Some (data_hard_reset d, Ok VNone)
  (* data/machine_data_writer.py:62-65 _soft_reset *)
  | SoftReset => Some (d, Ok VNone)
  (* data/machine_data_writer.py:67-73 get_user_accessed_machine *)
  | GetUserAccessedMachine => Some (d, Ok (VBool (d_user_accessed d)))
  (* data/machine_data_writer.py:75-84 set_machine *)
  | SetMachine None => Some (d, Err TypeError)
  | SetMachine (Some m) => Some (set_d_machine d (Some m), Ok VNone)
  (* data/machine_data_writer.py:86-95 clear_machine *)
  | ClearMachine => Some (set_d_machine d None, Ok VNone)
  (* data/machine_data_writer.py:97-108 set_machine_generator *)
  | SetMachineGenerator None => Some (d, Err TypeError)
  | SetMachineGenerator (Some g) => Some (set_d_generator d (Some (UserGen g)), Ok VNone)
  (* data/machine_data_writer.py:110-127 add_monitor_core *)
  | AddMonitorCore all => Some (mkData (if all then d_all_monitors d + 1 else d_all_monitors d)
        (d_eth_monitors d + 1) (d_machine d) (d_generator d) (d_version d) (d_quad_map d)
        (d_user_accessed d) (d_v_to_p d), Ok VNone)
  end.

(** data/machine_data_view.py:145-148: the start of get_machine *)
Definition touch (e : env) (d : data) : data :=
  if e_user_mode e then
    mkData (d_all_monitors d) (d_eth_monitors d) (if e_soft_reset e then None else d_machine d)
      (d_generator d) (d_version d) (d_quad_map d) true (d_v_to_p d)
  else d.

(** One entry for each call, in the order in which the calls started. *)
Definition trace : Type := list (env * op * res value).

(** A call of the API from the state [d]: the calls it was made of (itself first,
    then those of a generator), the state after it and what it returned or raised. *)
Inductive call : env -> data -> op -> trace -> data -> res value -> Prop :=
| CPlain e d o d' r : plain_step e d o = Some (d', r) -> call e d o [(e, o, r)] d' r
(** data/machine_data_view.py:134-158 get_machine *)
| CGet e d tr d' r : get_run e d tr d' r ->
    call e d GetMachine ((e, GetMachine, vmap VMachine r) :: tr) d' (vmap VMachine r)
(** data/machine_data_view.py:160-177 get_chip_at *)
| CChip e d x y tr d' r res : get_run e d tr d' r ->
    res = (match r with Ok m => vmap VChip (getitem m (x, y)) | Err ex => Err ex end) ->
    call e d (GetChipAt x y) ((e, GetChipAt x y, res) :: tr) d' res
with get_run : env -> data -> trace -> data -> res machine -> Prop :=
| GHave e d m : d_machine (touch e d) = Some m -> get_run e d [] (touch e d) (Ok m)
| GNone e d : d_machine (touch e d) = None -> d_generator (touch e d) = None ->
    get_run e d [] (touch e d) (Err DataNotAvailable)
| GGen e d g tr d' r : d_machine (touch e d) = None -> d_generator (touch e d) = Some g ->
    gen_run e g (touch e d) tr d' r ->
    get_run e d tr d'
      (match r with
       | Err x => Err x
       | Ok _ => match d_machine d' with None => Err MachineExc | Some m => Ok m end
       end)
with gen_run : env -> generator -> data -> trace -> data -> res unit -> Prop :=
(** A generator of the user makes any calls and then returns or raises. *)
| RUser e g d tr d' r : runs d tr d' -> gen_run e (UserGen g) d tr d' r
(** data/machine_data_writer.py:46-50 _mock_machine with virtual_machine.py:120-142;
    the later reads of the version (virtual_machine.py:166, machine.py:489 and others)
    give the version stored by the first *)
| RMock e d d1 rv r d' tr :
    get_machine_version e d = (d1, rv) ->
    mock_rest e d1 rv tr d' r ->
    gen_run e MockGen d ((e, GetMachineVersion, vmap VVersion rv) :: tr) d' r
with mock_rest : env -> data -> res version -> trace -> data -> res unit -> Prop :=
| MVersion e d x : mock_rest e d (Err x) [] d (Err x)
| MMachine e d v x : virtual_machine_by_boards (e_config e) v 1 true = Err x ->
    mock_rest e d (Ok v) [] d (Err x)
| MSet e d v m : virtual_machine_by_boards (e_config e) v 1 true = Ok m ->
    mock_rest e d (Ok v) [(e, SetMachine (Some m), Ok VNone)] (set_d_machine d (Some m)) (Ok tt)
(** Calls one after the other *)
with runs : data -> trace -> data -> Prop :=
| runs_nil d : runs d [] d
| runs_cons e d o tr d' r tr' d'' : call e d o tr d' r -> runs d' tr' d'' -> runs d (tr ++ tr') d''.

(** What a program can reach, with the calls that led to it. *)
Definition reach (tr : trace) (d : data) : Prop := runs data_new tr d.
