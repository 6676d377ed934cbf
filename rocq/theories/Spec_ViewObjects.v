(** What a history of calls does to the objects, read off the calls alone, and what the
    history looks like to someone who sees machines and maps as values. *)
From Coq Require Import String.
From Verif Require Import Model_Py Model_Version Model_Core Model_Machine Model_Factory Model_View Spec_View Model_ViewObjects.
Open Scope list_scope.
Open Scope Z_scope.

Definition oenv_of (t : env * objects * oop * res ovalue) : env := fst (fst (fst t)).
Definition before (t : env * objects * oop * res ovalue) : objects := snd (fst (fst t)).
Definition oop_of (t : env * objects * oop * res ovalue) : oop := snd (fst t).
Definition ores_of (t : env * objects * oop * res ovalue) : res ovalue := snd t.

(** The machines and maps after the calls of [tr]: only making one and changing one
    count. *)
Definition machines_after (ms : list machine) (tr : otrace) : list machine :=
  fold_left (fun ms t => match oop_of t with
    | ONewMachine m => ms ++ [m]
    | OChangeMachine r m => assign ms r m
    | _ => ms
    end) tr ms.
Definition maps_after (ks : list id_map) (tr : otrace) : list id_map :=
  fold_left (fun ks t => match oop_of t with
    | ONewMap k => ks ++ [k]
    | OChangeMap r k => assign ks r k
    | _ => ks
    end) tr ks.

(** The Machine object the view holds after the calls: the last one set, unless a later
    call dropped it. *)
Definition object_after (start : option ref) (tr : otrace) : option ref :=
  fold_left (fun cur t =>
    match oop_of t with
    | OSetMachine (Some r) => Some r
    | OView (ClearMachine | HardReset | Setup | Mock) => None
    | OView (GetMachine | GetChipAt _ _) => if stale (oenv_of t) then None else cur
    | _ => cur
    end) tr start.

(** The map object it holds: the last one accepted *)
Definition map_object_after (start : option ref) (tr : otrace) : option ref :=
  fold_left (fun cur t =>
    match oop_of t, ores_of t with
    | OSetVtoP k, Ok _ => Some k
    | OView (HardReset | Setup | Mock), _ => None
    | _, _ => cur
    end) tr start.

(** ** The same history with values *)

Definition value_of (v : ovalue) : value :=
  match v with OMachine _ m => VMachine m | OOther v => v end.
Definition result_of (r : res ovalue) : res value :=
  match r with Ok v => Ok (value_of v) | Err x => Err x end.

(** The singleton with the machine and the map as they are now *)
Definition seen (s : objects) : data :=
  let d := ob_data s in
  mkData (o_all_monitors d) (o_eth_monitors d) (held_machine s) (o_generator d) (o_version d)
    (o_quad_map d) (o_user_accessed d) (held_map s).

(** A change of the machine held looks like setting the changed machine; a change of
    another one cannot be seen. *)
Definition shown (t : env * objects * oop * res ovalue) : trace :=
  let e := oenv_of t in
  let s := before t in
  match oop_of t with
  | OView o => [(e, o, result_of (ores_of t))]
  | OSetMachine None => [(e, SetMachine None, result_of (ores_of t))]
  | OSetMachine (Some r) =>
      match nth_error (ob_machines s) r with
      | Some m => [(e, SetMachine (Some m), result_of (ores_of t))]
      | None => []
      end
  | OSetVtoP k =>
      match nth_error (ob_maps s) k with
      | Some m => [(e, SetVtoP m, result_of (ores_of t))]
      | None => []
      end
  | OChangeMachine r m =>
      match o_machine (ob_data s) with
      | Some r' => if (r' =? r)%nat then [(e, SetMachine (Some m), Ok VNone)] else []
      | None => []
      end
  | ONewMachine _ | ONewMap _ | OChangeMap _ _ => []
  end.

(** The map held by the view is never changed in [tr]. *)
Definition held_map_kept (tr : otrace) : Prop :=
  forall t k m, In t tr -> oop_of t = OChangeMap k m -> o_v_to_p (ob_data (before t)) <> Some k.
