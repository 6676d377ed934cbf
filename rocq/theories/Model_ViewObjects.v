(** MachineDataView and MachineDataWriter again, now with objects: the view holds
    references to a Machine and to a map of physical ids, and the program can change
    the objects it gave to the view or got from it.  Everything else is as in Model_View. *)
From Coq Require Import String.
From Verif Require Import Model_Py Model_Version Model_Core Model_Machine Model_Factory Model_Virtual Model_Text Model_View.
Open Scope string_scope.
Open Scope list_scope.
Open Scope Z_scope.

(** A reference is the number of the object. *)
Definition ref : Type := nat.
Notation id_map := (dict XY (list Z)).

(** data/machine_data_view.py:44-54 __slots__ of _MachineDataModel *)
Record odata : Type := mkOData {
  o_all_monitors : Z;
  o_eth_monitors : Z;
  o_machine : option ref;
  o_generator : option generator;
  o_version : option version;
  o_quad_map : option (dict Z (Z * Z * Z));
  o_user_accessed : bool;
  o_v_to_p : option ref
}.

(** The Machine objects, the map objects and the singleton *)
Record objects : Type := mkObjects {
  ob_machines : list machine; ob_maps : list id_map; ob_data : odata
}.

(** Assigning to the object [r] *)
Fixpoint assign {A} (l : list A) (r : ref) (a : A) : list A :=
  match l, r with
  | [], _ => []
  | _ :: l', O => a :: l'
  | b :: l', S r' => b :: assign l' r' a
  end.

Definition with_data (s : objects) (d : odata) : objects := mkObjects (ob_machines s) (ob_maps s) d.

(** data/machine_data_view.py:74-85 _hard_reset *)
Definition odata_hard_reset (d : odata) : odata :=
  mkOData 0 0 None (o_generator d) (o_version d) (o_quad_map d) false None.

(** data/machine_data_view.py:65-72 _clear *)
Definition odata_clear (d : odata) : odata :=
  let d := odata_hard_reset d in
  mkOData (o_all_monitors d) (o_eth_monitors d) (o_machine d) None None None (o_user_accessed d) (o_v_to_p d).

(** data/machine_data_view.py:56-63 __new__ *)
Definition odata_new : odata := odata_clear (mkOData 0 0 None None None None false None).

(** The calls.  [ONewMachine] and [ONewMap] are any way of making such an object;
    [OChangeMachine r m] is any call on the Machine [r] that leaves it as [m], as
    add_chip or add_fpga_links; [OChangeMap] likewise for a map. *)
Inductive oop : Type :=
| OView (o : op)              (* the calls of Model_View without such an object as argument *)
| OSetVtoP (k : ref) | OSetMachine (r : option ref)
| ONewMachine (m : machine) | ONewMap (k : id_map)
| OChangeMachine (r : ref) (m : machine) | OChangeMap (k : ref) (m : id_map).

(** [OMachine r m] is the Machine object [r], which holds [m] when it is returned *)
Inductive ovalue : Type := OMachine (r : ref) (m : machine) | OOther (v : value).

Definition set_o_machine (d : odata) (m : option ref) : odata :=
  mkOData (o_all_monitors d) (o_eth_monitors d) m (o_generator d) (o_version d) (o_quad_map d)
    (o_user_accessed d) (o_v_to_p d).
Definition set_o_generator (d : odata) (g : option generator) : odata :=
  mkOData (o_all_monitors d) (o_eth_monitors d) (o_machine d) g (o_version d) (o_quad_map d)
    (o_user_accessed d) (o_v_to_p d).

(** The object that the view holds, as it is now *)
Definition held_machine (s : objects) : option machine :=
  match o_machine (ob_data s) with Some r => nth_error (ob_machines s) r | None => None end.
Definition held_map (s : objects) : option id_map :=
  match o_v_to_p (ob_data s) with Some k => nth_error (ob_maps s) k | None => None end.

(** data/machine_data_view.py:261-277 get_machine_version *)
Definition o_get_machine_version (e : env) (s : objects) : objects * res version :=
  let d := ob_data s in
  match o_version d with
  | Some v => (s, Ok v)
  | None =>
      match version_factory (e_config e) (e_minor e) with
      | Err x => (s, Err x)
      | Ok v =>
          let d' := mkOData (o_all_monitors d) (o_eth_monitors d) (o_machine d) (o_generator d) (Some v)
                     (quads_maps (v_id v)) (o_user_accessed d) (o_v_to_p d) in
          let s' := with_data s d' in
          if dict_true (o_quad_map d') && dict_true (held_map s') then (s', Err MachineExc) else (s', Ok v)
      end
  end.

(** data/machine_data_view.py:297-314 get_physical_core_id *)
Definition o_get_physical_core_id (s : objects) (xy : XY) (p : Z) : res Z :=
  match held_map s with
  | None => Err DataNotAvailable
  | Some m => do l <- dgetitem xy_eqb m xy ; py_index l p
  end.

(** data/machine_data_view.py:316-334 get_physical_quad *)
Definition o_get_physical_quad (e : env) (s : objects) (p : Z) : objects * res (Z * Z * Z) :=
  match o_quad_map (ob_data s) with
  | Some q => (s, dgetitem Z.eqb q p)
  | None =>
      let '(s, r) := o_get_machine_version e s in
      match r with
      | Err x => (s, Err x)
      | Ok _ =>
          match o_quad_map (ob_data s) with
          | None => (s, Err DataNotAvailable)
          | Some q => (s, dgetitem Z.eqb q p)
          end
      end
  end.

(** data/machine_data_view.py:336-356 get_physical_string *)
Definition o_get_physical_string (s : objects) (xy : XY) (p : Z) : string :=
  match o_v_to_p (ob_data s) with
  | Some _ =>
      match o_get_physical_core_id s xy p with
      | Ok n => cat [" (ph: "; dec n; ")"]
      | Err _ => ""
      end
  | None =>
      match o_quad_map (ob_data s) with
      | Some q =>
          match dgetitem Z.eqb q p with
          | Ok (qx, qy, qp) => cat [" (qpe:"; dec qx; ", "; dec qy; ", "; dec qp; ")"]
          | Err _ => ""
          end
      | None => ""
      end
  end.

(** data/machine_data_view.py:279-295 set_v_to_p_map: the object itself is kept *)
Definition o_set_v_to_p_map (s : objects) (k : ref) : objects * res unit :=
  let d := ob_data s in
  if dict_true (o_quad_map d) then (s, Err MachineExc)
  else match o_v_to_p d with
       | None => (with_data s (mkOData (o_all_monitors d) (o_eth_monitors d) (o_machine d) (o_generator d)
                    (o_version d) (o_quad_map d) (o_user_accessed d) (Some k)), Ok tt)
       | Some _ => (s, Err MachineExc)
       end.

(** data/machine_data_view.py:179-205 get_nearest_ethernet *)
Definition o_get_nearest_ethernet (s : objects) (x y : Z) : XY :=
  match held_machine s with
  | Some m => match getitem m (x, y) with Ok c => (c_eth_x c, c_eth_y c) | Err _ => (x, y) end
  | None => (x, y)
  end.

(** data/machine_data_view.py:207-233 where_is_xy *)
Definition o_where_is_xy (s : objects) (x y : Z) : string :=
  match held_machine s with
  | Some m => m_where_is_xy m x y
  | None => "No Machine created yet"
  end.

(** data/machine_data_view.py:235-259 where_is_chip *)
Definition o_where_is_chip (s : objects) (c : chip) : string :=
  match held_machine s with
  | Some m => m_where_is_chip m c
  | None => "Chip is from a previous machine"
  end.

(** Every call of the view that does not run a generator and has no object as argument;
    [None] for the others *)
Definition view_step (e : env) (s : objects) (o : op) : option (objects * res value) :=
  let d := ob_data s in
  match o with
  | GetMachine | GetChipAt _ _ | SetVtoP _ | SetMachine _ => None
  (* data/machine_data_view.py:110-120 has_machine *)
  | HasMachine => Some (s, Ok (VBool (match o_machine d with Some _ => true | None => e_mocked e end)))
  (* data/machine_data_view.py:122-132 has_existing_machine *)
  | HasExistingMachine => Some (s, Ok (VBool (match o_machine d with Some _ => true | None => false end)))
  | GetNearestEthernet x y => Some (s, Ok (VXY (o_get_nearest_ethernet s x y)))
  | WhereIsXY x y => Some (s, Ok (VStr (o_where_is_xy s x y)))
  | WhereIsChip c => Some (s, Ok (VStr (o_where_is_chip s c)))
  | GetMachineVersion => let '(s, r) := o_get_machine_version e s in Some (s, vmap VVersion r)
  | GetPhysicalCoreId xy p => Some (s, vmap VInt (o_get_physical_core_id s xy p))
  | GetPhysicalQuad p => let '(s, r) := o_get_physical_quad e s p in Some (s, vmap VQuad r)
  | GetPhysicalString xy p => Some (s, Ok (VStr (o_get_physical_string s xy p)))
  (* data/machine_data_view.py:358-370 get_all_monitor_cores *)
  | GetAllMonitorCores => Some (s, Ok (VInt (o_all_monitors d)))
  (* data/machine_data_view.py:372-385 get_ethernet_monitor_cores *)
  | GetEthernetMonitorCores => Some (s, Ok (VInt (o_eth_monitors d)))
  (* data/machine_data_writer.py:40-44 _mock *)
  | Mock => Some (with_data s (set_o_generator (odata_clear d) (Some MockGen)), Ok VNone)
  (* data/machine_data_writer.py:52-55 _setup *)
  | Setup => Some (with_data s (odata_clear d), Ok VNone)
  (* data/machine_data_writer.py:57-60 _hard_reset *)
  | HardReset => Some (with_data s (odata_hard_reset d), Ok VNone)
  (* data/machine_data_writer.py:62-65 _soft_reset *)
  | SoftReset => Some (s, Ok VNone)
  (* data/machine_data_writer.py:67-73 get_user_accessed_machine *)
  | GetUserAccessedMachine => Some (s, Ok (VBool (o_user_accessed d)))
  (* data/machine_data_writer.py:86-95 clear_machine *)
  | ClearMachine => Some (with_data s (set_o_machine d None), Ok VNone)
  (* data/machine_data_writer.py:97-108 set_machine_generator *)
  | SetMachineGenerator None => Some (s, Err TypeError)
  | SetMachineGenerator (Some g) => Some (with_data s (set_o_generator d (Some (UserGen g))), Ok VNone)
  (* data/machine_data_writer.py:110-127 add_monitor_core *)
  | AddMonitorCore all => Some (with_data s (mkOData (if all then o_all_monitors d + 1 else o_all_monitors d)
        (o_eth_monitors d + 1) (o_machine d) (o_generator d) (o_version d) (o_quad_map d)
        (o_user_accessed d) (o_v_to_p d)), Ok VNone)
  end.

(** Every call that does not run a generator; [None] also if there is no such object *)
Definition object_step (e : env) (s : objects) (o : oop) : option (objects * res ovalue) :=
  let d := ob_data s in
  match o with
  | OView o => match view_step e s o with
               | Some (s', Ok v) => Some (s', Ok (OOther v))
               | Some (s', Err x) => Some (s', Err x)
               | None => None
               end
  | OSetVtoP k =>
      if (k <? List.length (ob_maps s))%nat then
        let '(s, r) := o_set_v_to_p_map s k in
        Some (s, match r with Ok _ => Ok (OOther VNone) | Err x => Err x end)
      else None
  (* data/machine_data_writer.py:75-84 set_machine: the object itself is kept *)
  | OSetMachine None => Some (s, Err TypeError)
  | OSetMachine (Some r) =>
      if (r <? List.length (ob_machines s))%nat
      then Some (with_data s (set_o_machine d (Some r)), Ok (OOther VNone)) else None
  | ONewMachine m => Some (mkObjects (ob_machines s ++ [m]) (ob_maps s) d, Ok (OOther VNone))
  | ONewMap k => Some (mkObjects (ob_machines s) (ob_maps s ++ [k]) d, Ok (OOther VNone))
  | OChangeMachine r m =>
      if (r <? List.length (ob_machines s))%nat
      then Some (mkObjects (assign (ob_machines s) r m) (ob_maps s) d, Ok (OOther VNone)) else None
  | OChangeMap k m =>
      if (k <? List.length (ob_maps s))%nat
      then Some (mkObjects (ob_machines s) (assign (ob_maps s) k m) d, Ok (OOther VNone)) else None
  end.

(** data/machine_data_view.py:145-148: the start of get_machine *)
Definition o_touch (e : env) (s : objects) : objects :=
  let d := ob_data s in
  if e_user_mode e then
    with_data s (mkOData (o_all_monitors d) (o_eth_monitors d) (if e_soft_reset e then None else o_machine d)
      (o_generator d) (o_version d) (o_quad_map d) true (o_v_to_p d))
  else s.

(** One entry for each call, in the order in which the calls started: the surroundings,
    the objects before the call, the call, and what it returned or raised. *)
Definition otrace : Type := list (env * objects * oop * res ovalue).

(** As Model_View.call, get_run, gen_run, mock_rest and runs, with the same lines *)
Inductive ocall : env -> objects -> oop -> otrace -> objects -> res ovalue -> Prop :=
| OCPlain e s o s' r : object_step e s o = Some (s', r) -> ocall e s o [(e, s, o, r)] s' r
(** data/machine_data_view.py:134-158 get_machine: the object itself is returned *)
| OCGet e s tr s' r res : oget_run e s tr s' r ->
    res = (match r with Ok (k, m) => Ok (OMachine k m) | Err x => Err x end) ->
    ocall e s (OView GetMachine) ((e, s, OView GetMachine, res) :: tr) s' res
(** data/machine_data_view.py:160-177 get_chip_at *)
| OCChip e s x y tr s' r res : oget_run e s tr s' r ->
    res = (match r with
           | Ok (_, m) => match getitem m (x, y) with Ok c => Ok (OOther (VChip c)) | Err ex => Err ex end
           | Err ex => Err ex
           end) ->
    ocall e s (OView (GetChipAt x y)) ((e, s, OView (GetChipAt x y), res) :: tr) s' res
with oget_run : env -> objects -> otrace -> objects -> res (ref * machine) -> Prop :=
| OGHave e s k m : o_machine (ob_data (o_touch e s)) = Some k -> nth_error (ob_machines s) k = Some m ->
    oget_run e s [] (o_touch e s) (Ok (k, m))
| OGNone e s : o_machine (ob_data (o_touch e s)) = None -> o_generator (ob_data (o_touch e s)) = None ->
    oget_run e s [] (o_touch e s) (Err DataNotAvailable)
| OGGen e s g tr s' r res :
    o_machine (ob_data (o_touch e s)) = None -> o_generator (ob_data (o_touch e s)) = Some g ->
    ogen_run e g (o_touch e s) tr s' r ->
    match r with
    | Err x => res = Err x
    | Ok _ => match o_machine (ob_data s') with
              | None => res = Err MachineExc
              | Some k => exists m, nth_error (ob_machines s') k = Some m /\ res = Ok (k, m)
              end
    end ->
    oget_run e s tr s' res
with ogen_run : env -> generator -> objects -> otrace -> objects -> res unit -> Prop :=
| ORUser e g s tr s' r : oruns s tr s' -> ogen_run e (UserGen g) s tr s' r
(** data/machine_data_writer.py:46-50 _mock_machine *)
| ORMock e s s1 rv r s' tr :
    o_get_machine_version e s = (s1, rv) ->
    omock_rest e s1 rv tr s' r ->
    ogen_run e MockGen s
      ((e, s, OView GetMachineVersion, match rv with Ok v => Ok (OOther (VVersion v)) | Err x => Err x end) :: tr) s' r
with omock_rest : env -> objects -> res version -> otrace -> objects -> res unit -> Prop :=
| OMVersion e s x : omock_rest e s (Err x) [] s (Err x)
| OMMachine e s v x : virtual_machine_by_boards (e_config e) v 1 true = Err x ->
    omock_rest e s (Ok v) [] s (Err x)
(** the new machine is a new object *)
| OMSet e s v m s1 s2 : virtual_machine_by_boards (e_config e) v 1 true = Ok m ->
    s1 = mkObjects (ob_machines s ++ [m]) (ob_maps s) (ob_data s) ->
    s2 = with_data s1 (set_o_machine (ob_data s1) (Some (List.length (ob_machines s)))) ->
    omock_rest e s (Ok v)
      [(e, s, ONewMachine m, Ok (OOther VNone));
       (e, s1, OSetMachine (Some (List.length (ob_machines s))), Ok (OOther VNone))] s2 (Ok tt)
with oruns : objects -> otrace -> objects -> Prop :=
| oruns_nil s : oruns s [] s
| oruns_cons e s o tr s' r tr' s'' : ocall e s o tr s' r -> oruns s' tr' s'' -> oruns s (tr ++ tr') s''.

(** What a program can reach, with the calls that led to it. *)
Definition oreach (tr : otrace) (s : objects) : Prop := oruns (mkObjects [] [] odata_new) tr s.
