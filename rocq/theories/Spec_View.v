(** What a history of calls leaves behind, read off the calls alone.
    An entry of a history is the surroundings, the call and what it returned. *)
From Coq Require Import String.
From Verif Require Import Model_Py Model_Version Model_Core Model_Machine Model_Factory Model_View.
Open Scope list_scope.
Open Scope Z_scope.

Definition op_of (t : env * op * res value) : op := snd (fst t).
Definition env_of (t : env * op * res value) : env := fst (fst t).
Definition res_of (t : env * op * res value) : res value := snd t.

(** The calls that forget everything (_setup and _mock), and those that forget what
    belongs to one graph (also _hard_reset). *)
Definition forgets_all (o : op) : bool := match o with Setup | Mock => true | _ => false end.
Definition resets (o : op) : bool := match o with HardReset => true | _ => forgets_all o end.

(** The calls that ask for the machine. *)
Definition asks_machine (o : op) : bool := match o with GetMachine | GetChipAt _ _ => true | _ => false end.

(** The user asks for a machine after a soft reset: the old machine must not be used. *)
Definition stale (e : env) : bool := e_user_mode e && e_soft_reset e.

(** The entries after the last one with [f]. *)
Definition since (f : op -> bool) (tr : trace) : trace :=
  fold_left (fun acc t => if f (op_of t) then [] else acc ++ [t]) tr [].

(** The machine that exists after the calls of [tr]: the last one set, unless a later
    call dropped it. *)
Definition machine_after (tr : trace) : option machine :=
  fold_left (fun cur t =>
    match op_of t with
    | SetMachine (Some m) => Some m
    | ClearMachine | HardReset | Setup | Mock => None
    | GetMachine | GetChipAt _ _ => if stale (env_of t) then None else cur
    | _ => cur
    end) tr None.

(** The generator registered *)
Definition generator_after (tr : trace) : option generator :=
  fold_left (fun cur t =>
    match op_of t with
    | SetMachineGenerator (Some g) => Some (UserGen g)
    | Mock => Some MockGen
    | Setup => None
    | _ => cur
    end) tr None.

(** Whether a call clashed: reading the version raised SpinnMachineException *)
Definition reads_version (o : op) : bool :=
  match o with GetMachineVersion | GetPhysicalQuad _ => true | _ => false end.

Definition count (f : op -> bool) (tr : trace) : Z :=
  Z.of_nat (List.length (filter (fun t => f (op_of t)) tr)).

Definition is_add (o : op) : bool := match o with AddMonitorCore _ => true | _ => false end.
Definition is_add_all (o : op) : bool := match o with AddMonitorCore true => true | _ => false end.

(** The version known after the calls of [tr]: that of the first call that found one in its
    configuration since _setup or _mock. *)
Definition version_after (tr : trace) : option version :=
  fold_left (fun cur t =>
    if forgets_all (op_of t) then None
    else match cur with
         | Some v => Some v
         | None =>
             if reads_version (op_of t) then
               match version_factory (e_config (env_of t)) (e_minor (env_of t)) with Ok v => Some v | Err _ => None end
             else None
         end) tr None.

(** The map of physical ids held after the calls of [tr]: the last one accepted. *)
Definition map_after (tr : trace) : option (dict XY (list Z)) :=
  fold_left (fun cur t =>
    match op_of t, res_of t with
    | SetVtoP m, Ok _ => Some m
    | _, _ => if resets (op_of t) then None else cur
    end) tr None.

(** The versions whose cores are in quads *)
Definition has_quads (v : version) : bool := match v_id v with V201 | V248 => true | _ => false end.
