(** Chip objects by identity.  The rest of the model holds chips by value; here a machine holds
    references to chip objects, so that two machines can share one.  A chip object has its own
    router object: Router objects that two chips share are not modelled (virtual_machine.py:240-250,
    json_machine.py:155-159 and machine_factory.py:67-72 make one router for each chip).  Link
    objects have no setter: held by value.  A call that raises is modelled by its exception only. *)
From Verif Require Import Model_Py Model_Wrap Model_Version Model_Core Model_Machine Model_Repair
  Model_Mutate.

(** An object is named by its position in the order of creation; objects are never destroyed. *)
Notation heap := (list chip).
Notation ref := nat.

Definition no_chip : chip := mkChip 0 0 [] [] (mkRouter [] 0) 0 0 0 None [] None.

(** The object as it is now; only used for references to objects that exist. *)
Definition deref (s : heap) (i : ref) : chip := nth i s no_chip.

(** The constructor of Chip (chip.py:61-134) makes a new object. *)
Definition alloc (s : heap) (c : chip) : heap * ref := (s ++ [c], List.length s).

(** Change of the object in place. *)
Fixpoint store (s : heap) (i : ref) (c : chip) : heap :=
  match s, i with
  | [], _ => []
  | _ :: s', O => c :: s'
  | c' :: s', S i' => c' :: store s' i' c
  end.

(** The fields of Machine (machine.py:80-120), with references for the chips. *)
Record hmachine : Type := mkHeapMachine {
  h_kind : wrap;
  h_width : Z;
  h_height : Z;
  h_ccm : dict XY Z;
  h_eth : list ref;
  h_spin : dict spin_key spin_link_data;
  h_fpga : dict fpga_key fpga_link_data;
  h_boot : option string;
  h_chips : dict XY ref;
  h_origin : string;
  h_cores_counter : counter;
  h_links_counter : counter;
  h_entries_counter : counter;
  h_sdram_counter : counter
}.

(** What the methods of the machine see now: a machine of Model_Machine. *)
Definition view (s : heap) (h : hmachine) : machine :=
  mkMachine (h_kind h) (h_width h) (h_height h) (h_ccm h) (map (deref s) (h_eth h)) (h_spin h)
    (h_fpga h) (h_boot h) (map (fun e => (fst e, deref s (snd e))) (h_chips h)) (h_origin h)
    (h_cores_counter h) (h_links_counter h) (h_entries_counter h) (h_sdram_counter h).

(** machine.py:80-120 __init__ *)
Definition hnew_machine (k : wrap) (w h : Z) (ccm : dict XY Z) (origin : string) : hmachine :=
  mkHeapMachine k w h ccm [] [] [] None [] origin [] [] [] [].

(** abstract_version.py:298-316 create_machine, with _create_machine of
    version_3.py:71-73, version_48_chips.py:70-84, version_201.py:70-72 *)
Definition hcreate_machine (v : vid) (w h : option Z) (origin : option string) : res hmachine :=
  do _ <- verify_size v w h ;
  let w := match w with Some n => n | None => 0 end in
  let h := match h with Some n => n | None => 0 end in
  let o := match origin with Some s => s | None => EmptyString end in
  Ok (hnew_machine (machine_class v w h) w h (chip_core_map v) o).

(** machine.py:546-570 add_chip: the machine keeps the object that it is given *)
Definition hadd_chip (s : heap) (m : hmachine) (i : ref) : res hmachine :=
  let c := deref s i in
  if dmem xy_eqb (h_chips m) (c_xy c) then Err AlreadyExists
  else
    let chips := dset xy_eqb (h_chips m) (c_xy c) i in
    let cores := cincr (h_cores_counter m) (n_processors c) in
    let links := cincr (h_links_counter m) (router_len (c_router c)) in
    let entries := cincr (h_entries_counter m) (r_entries (c_router c)) in
    let sdram := cincr (h_sdram_counter m) (c_sdram c) in
    let '(eth, boot) :=
      match c_ip c with
      | Some ip =>
          (h_eth m ++ [i],
           if xy_eqb (c_xy c) (0, 0) then Some ip else h_boot m)
      | None => (h_eth m, h_boot m)
      end in
    Ok (mkHeapMachine (h_kind m) (h_width m) (h_height m) (h_ccm m) eth (h_spin m)
          (h_fpga m) boot chips (h_origin m) cores links entries sdram).

(** machine.py:845-861 add_spinnaker_links: reads the chips, writes the one dictionary *)
Definition hadd_spinnaker_links (v : vid) (s : heap) (h : hmachine) : res hmachine :=
  do m <- add_spinnaker_links v (view s h) ;
  Ok (mkHeapMachine (h_kind h) (h_width h) (h_height h) (h_ccm h) (h_eth h) (m_spin m)
        (h_fpga h) (h_boot h) (h_chips h) (h_origin h) (h_cores_counter h) (h_links_counter h)
        (h_entries_counter h) (h_sdram_counter h)).

(** machine.py:871-887 add_fpga_links: reads the chips, writes the one dictionary *)
Definition hadd_fpga_links (v : vid) (s : heap) (h : hmachine) : res hmachine :=
  do m <- add_fpga_links v (view s h) ;
  Ok (mkHeapMachine (h_kind h) (h_width h) (h_height h) (h_ccm h) (h_eth h) (h_spin h)
        (m_fpga m) (h_boot h) (h_chips h) (h_origin h) (h_cores_counter h) (h_links_counter h)
        (h_entries_counter h) (h_sdram_counter h)).

(** machine_factory.py:61-73: the object that goes to the new machine, which is the same object
    unless links of it are dead *)
Definition hcopy_chip (dead : list (Z * Z * Z * Z)) (s : heap) (i : ref) : res (heap * ref) :=
  if existsb (fun t => let '(x, y, _, _) := t in xy_eqb (x, y) (c_xy (deref s i))) dead then
    do c <- copy_chip dead (deref s i) ;
    Ok (alloc s c)
  else Ok (s, i).

(** machine_factory.py:58-73: one turn of the loop *)
Definition hignore_step (dc : list XY) (dl : list (Z * Z * Z * Z)) (sn : heap * hmachine) (i : ref)
  : res (heap * hmachine) :=
  let '(s, n) := sn in
  if xymem dc (c_xy (deref s i)) then Ok (s, n)
  else
    do sj <- hcopy_chip dl s i ;
    do n' <- hadd_chip (fst sj) n (snd sj) ;
    Ok (fst sj, n').

(** machine_factory.py:28-77 _machine_ignore *)
Definition hmachine_ignore (v : vid) (s : heap) (h : hmachine) (dc : list XY)
  (dl : list (Z * Z * Z * Z)) : res (heap * hmachine) :=
  do n0 <- hcreate_machine v (Some (h_width h)) (Some (h_height h)) (Some "Fixed"%string) ;
  do sn <- fold_res (hignore_step dc dl) (dvalues (h_chips h)) (s, n0) ;
  do n2 <- hadd_spinnaker_links v (fst sn) (snd sn) ;
  do n3 <- hadd_fpga_links v (fst sn) n2 ;
  do _ <- validate v (view (fst sn) n3) ;
  Ok (fst sn, n3).

(** machine_factory.py:141-212: what machine_repair finds, which only reads *)
Definition findings (repair : bool) (m : machine) (removed : list XY) : res repair_state :=
  do s <- report_chips repair m (unreachable_incoming_local_chips m) (mkRepair [] [] false) ;
  do s <- report_chips repair m (unreachable_outgoing_local_chips m) s ;
  do s <- report_links repair m removed s ;
  do s <- report_parents repair m s ;
  if negb repair && has_error s then Err MachineExc else Ok s.

(** machine_factory.py:124-216 machine_repair up to its recursive call *)
Definition hrepair_step (repair : bool) (v : vid) (s : heap) (h : hmachine) (removed : list XY)
  : res (option (heap * hmachine)) :=
  do f <- findings repair (view s h) removed ;
  match dead_chips f, dead_links f with
  | [], [] => Ok None
  | _, _ => do sn <- hmachine_ignore v s h (dead_chips f) (dead_links f) ; Ok (Some sn)
  end.

(** machine_factory.py:124-216 machine_repair with its recursion (line 216) *)
Inductive hrepairs (repair : bool) (v : vid)
  : heap -> hmachine -> list XY -> res (heap * hmachine) -> Prop :=
| hrepairs_raises s h removed e :
    hrepair_step repair v s h removed = Err e -> hrepairs repair v s h removed (Err e)
| hrepairs_done s h removed :
    hrepair_step repair v s h removed = Ok None -> hrepairs repair v s h removed (Ok (s, h))
| hrepairs_again s h removed s' n r :
    hrepair_step repair v s h removed = Ok (Some (s', n)) -> hrepairs repair v s' n [] r ->
    hrepairs repair v s h removed r.

(** [machine[x, y].router.add_link(link)]: machine.py:637-647 __getitem__, chip.py:183-190
    router, router.py:61-72 add_link *)
Definition hadd_link (s : heap) (h : hmachine) (p : XY) (l : link) : res heap :=
  do i <- dgetitem xy_eqb (h_chips h) p ;
  do r <- router_add_link (c_router (deref s i)) l ;
  Ok (store s i (with_router (deref s i) r)).
