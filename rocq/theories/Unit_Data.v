(** Conformance tests: unittests/data/test_data.py.  where_is_chip(None) and the classes that
    are no Machine are outside the model (Model_View). *)
From Verif Require Import Unit_Base Unit_Virtual Unit_Using Model_Str Model_Factory Model_Text Model_View Prop_View.
Open Scope string_scope.
Open Scope list_scope.
Open Scope Z_scope.

(** The state after the calls and whether every result was as wanted; the tests run in the
    mode of the writer of the test: after setup not mocked. *)
Definition wanted : Type := res value -> bool.
Definition test_step (e : env) (d : data) (o : op) : option (data * res value) :=
  match o with
  | GetChipAt x y =>
      match exec_get e d with
      | Some (_, d', r) => Some (d', match r with Ok m => vmap VChip (getitem m (x, y)) | Err ex => Err ex end)
      | None => None
      end
  | _ => match exec e d o with Some (_, d', r) => Some (d', r) | None => None end
  end.
Fixpoint test (e : env) (d : data) (l : list (op * wanted)) : bool :=
  match l with
  | [] => true
  | (o, w) :: l => match test_step e d o with Some (d', r) => w r && test e d' l | None => false end
  end.
Definition setup_env (c : config) : env := mkEnv c 10 false false false.
Definition mock_env (c : config) : env := mkEnv c 10 false false true.

Definition not_yet : wanted := fun r => match r with Err DataNotAvailable => true | _ => false end.
Definition key : wanted := raises_key.
Definition index : wanted := fun r => match r with Err IndexError => true | _ => false end.
Definition wrong_type : wanted := fun r => match r with Err TypeError => true | _ => false end.
Definition ok : wanted := fine.
Definition int (n : Z) : wanted := fun r => match r with Ok (VInt k) => k =? n | _ => false end.
Definition bool_is (b : bool) : wanted := fun r => match r with Ok (VBool k) => Bool.eqb k b | _ => false end.
Definition says (s : string) : wanted := fun r => match r with Ok (VStr t) => String.eqb t s | _ => false end.
Definition machine_with (n : Z) : wanted := fun r => match r with Ok (VMachine m) => n_chips m =? n | _ => false end.
Definition at_least (n : Z) : wanted := fun r => match r with Ok (VMachine m) => n <=? n_chips m | _ => false end.
Definition chip_x (x : Z) : wanted := fun r => match r with Ok (VChip c) => c_x c =? x | _ => false end.
Definition quad (a b c : Z) : wanted :=
  fun r => match r with Ok (VQuad (x, y, z)) => (x =? a) && (y =? b) && (z =? c) | _ => false end.

(** test_setup *)
Example setup_test :
  test (setup_env cfg0) data_new [(Setup, ok); (GetMachine, not_yet); (GetChipAt 1 1, not_yet)] = true.
Proof. vm_compute; reflexivity. Qed.

(** test_mock *)
Example mock_test :
  test (mock_env (with_version cfg0 5)) data_new
    [(Mock, ok); (GetChipAt 3 5, chip_x 3); (GetMachine, machine_with 48)] = true.
Proof. vm_compute; reflexivity. Qed.

(** test_machine *)
Example machine_test :
  gives (vm V3 2 2) (fun m =>
    test (setup_env (with_version cfg0 3)) data_new
      [(Setup, ok); (GetMachine, not_yet); (HasMachine, bool_is false); (SetMachine (Some m), ok);
       (GetMachine, machine_with 4); (GetChipAt 1 0, chip_x 1); (GetChipAt 4 4, key);
       (SetMachine None, wrong_type); (HasMachine, bool_is true)]) = true.
Proof. vm_compute; reflexivity. Qed.

(** test_where_is_mocked, test_where_is_setup *)
Example where_is_test :
  all BIG (fun v => gives (vm v 12 12) (fun m =>
    match get_chip_at m 2 8 with
    | None => false
    | Some c =>
        let rest := [(SetMachine (Some m), ok);
          (WhereIsXY 11 11, says "global chip 11, 11 on 127.0.0.0 is chip 7, 3 on 127.0.4.8");
          (WhereIsXY (-1) 11, says "No chip -1, 11 found");
          (WhereIsChip c, says "global chip 2, 8 on 127.0.0.0 is chip 6, 4 on 127.0.8.4")] in
        let none := says "No Machine created yet" in
        test (mock_env cfg0) data_new ([(Mock, ok); (WhereIsXY 1 0, none); (WhereIsXY 11 11, none)] ++ rest) &&
        test (setup_env cfg0) data_new ([(Setup, ok); (WhereIsXY 1 0, none)] ++ rest)
    end)) = true.
Proof. vm_compute; reflexivity. Qed.

(** test_v_to_p_spin1 *)
Example v_to_p_spin1 :
  test (setup_env (with_version cfg0 5)) data_new
    [(Setup, ok); (GetPhysicalCoreId (1, 2) 3, not_yet); (GetPhysicalString (1, 2) 3, says "");
     (SetVtoP [((1, 2), [10; 11; 12; 13; 14])], ok); (GetPhysicalCoreId (1, 2) 3, int 13);
     (GetPhysicalString (1, 2) 3, says " (ph: 13)"); (GetPhysicalCoreId (1, 4) 3, key);
     (GetPhysicalString (1, 4) 3, says ""); (GetPhysicalCoreId (1, 2) 19, index);
     (GetPhysicalString (1, 2) 19, says "")] = true.
Proof. vm_compute; reflexivity. Qed.

(** test_v_to_p_spin2 *)
Example v_to_p_spin2 :
  test (setup_env (with_version cfg0 248)) data_new
    [(Setup, ok); (GetPhysicalQuad 3, quad 7 6 2); (GetPhysicalString (1, 2) 3, says " (qpe:7, 6, 2)");
     (GetPhysicalQuad 234, key); (GetPhysicalString (1, 2) 234, says "")] = true.
Proof. vm_compute; reflexivity. Qed.

(** test_mock_any, test_mock_4_or_more, test_mock_big, test_mock3, test_mock5, test_mock201; the
    choice among the versions depends on the minor version of Python *)
Example mock_any :
  all [("Any", 1); ("Four plus", 4); ("Big", 48)] (fun t =>
    all (zrange 7 14) (fun minor =>
      test (mkEnv (with_versions cfg0 (fst t)) minor false false true) data_new
        [(Mock, ok); (GetMachine, at_least (snd t))])) &&
  all [3; 5; 201] (fun n =>
    test (mock_env (with_version cfg0 n)) data_new [(Mock, ok); (GetMachine, ok)]) = true.
Proof. vm_compute; reflexivity. Qed.

(** test_get_monitors *)
Example monitors_test :
  test (setup_env cfg0) data_new
    [(Setup, ok); (GetAllMonitorCores, int 0); (GetEthernetMonitorCores, int 0); (AddMonitorCore true, ok);
     (GetAllMonitorCores, int 1); (GetEthernetMonitorCores, int 1); (AddMonitorCore false, ok);
     (AddMonitorCore true, ok); (GetAllMonitorCores, int 2); (GetEthernetMonitorCores, int 3)] = true.
Proof. vm_compute; reflexivity. Qed.

(** test_no_version, without the text of the exception *)
Example no_version :
  test (mock_env (with_urls cfg0 None None (Some "SpiNNaker1M") false)) data_new
    [(Mock, ok); (GetMachineVersion, raises_machine)] = true.
Proof. vm_compute; reflexivity. Qed.
