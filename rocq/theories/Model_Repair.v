(** machine_factory.py.  The version that the code gets from
    MachineDataView.get_machine_version() and the cfg option repair_machine are
    arguments.  Log messages are dropped, but what is looked up to compose them
    is kept because that may raise. *)
From Verif Require Import Model_Py Model_Wrap Model_Version Model_Core Model_Machine.

(** The locals dead_chips, dead_links and [error_message != ""] of machine_repair
    (machine_factory.py:141-145).  Both sets are only added to and asked for
    membership: lists. *)
Record repair_state : Type := mkRepair {
  dead_chips : list XY;
  dead_links : list (Z * Z * Z * Z);
  has_error : bool
}.

Definition add_dead_chip (repair : bool) (s : repair_state) (xy : XY) : repair_state :=
  if repair then mkRepair (dead_chips s ++ [xy]) (dead_links s) (has_error s)
  else mkRepair (dead_chips s) (dead_links s) true.

Definition add_dead_link (s : repair_state) (t : Z * Z * Z * Z) : repair_state :=
  mkRepair (dead_chips s) (dead_links s ++ [t]) (has_error s).

(** machine_factory.py:147-173: the two loops over the local reports *)
Definition report_chips (repair : bool) (m : machine) (xys : list XY) (s : repair_state)
  : res repair_state :=
  fold_res (fun s xy =>
    do ch <- getitem m xy ;
    do _ <- getitem m (c_eth_x ch, c_eth_y ch) ;
    Ok (add_dead_chip repair s xy)) xys s.

(** machine_factory.py:80-121 _generate_uni_direction_link_error: what may raise *)
Definition uni_direction_message (m : machine) (dest : XY) (src_x src_y : Z) : res unit :=
  let dest_chip := get_chip_at m (fst dest) (snd dest) in
  do src <- getitem m (src_x, src_y) ;
  do _ <- getitem m (c_eth_x src, c_eth_y src) ;
  match dest_chip with
  | None => Ok tt
  | Some d => do _ <- getitem m (c_eth_x d, c_eth_y d) ; Ok tt
  end.

(** machine_factory.py:174-186: the loop over the one way links *)
Definition report_links (repair : bool) (m : machine) (removed : list XY) (s : repair_state)
  : res repair_state :=
  fold_res (fun s t =>
    let '(x, y, out, back) := t in
    do dest <- m_over m x y out ;
    if xymem removed dest then Ok (add_dead_link s t)
    else
      do _ <- uni_direction_message m dest x y ;
      Ok (if repair then add_dead_link s t
          else mkRepair (dead_chips s) (dead_links s) true)) (one_way_links m) s.

(** machine_factory.py:188-207: the loop over the parents *)
Definition report_parents (repair : bool) (m : machine) (s : repair_state) : res repair_state :=
  fold_res (fun s ch =>
    match c_parent ch with
    | None => Ok s
    | Some p =>
        do parent <- m_over m (c_x ch) (c_y ch) p ;
        if is_chip_at m (fst parent) (snd parent) then Ok s
        else
          do _ <- getitem m (c_eth_x ch, c_eth_y ch) ;
          Ok (add_dead_chip repair s (c_xy ch))
    end) (chips m) s.

(** machine_factory.py:59-73: the copy of one chip *)
Definition copy_chip (dead : list (Z * Z * Z * Z)) (ch : chip) : res chip :=
  let gone l := existsb (fun t => let '(x, y, d, _) := t in
      xy_eqb (x, y) (c_xy ch) && (d =? l)) dead in
  if existsb (fun t => let '(x, y, _, _) := t in xy_eqb (x, y) (c_xy ch)) dead then
    do r <- new_router (filter (fun l => negb (gone (l_source_link_id l)))
                          (router_links (c_router ch))) (r_entries (c_router ch)) ;
    Ok (new_chip (c_x ch) (c_y ch) (c_scamp ch) (c_placable ch) r (c_sdram ch)
          (c_eth_x ch) (c_eth_y ch) (c_ip ch) (Some (c_tags ch)) None)
  else Ok ch.

(** machine_factory.py:28-77 _machine_ignore *)
Definition machine_ignore (v : vid) (m : machine) (dc : list XY) (dl : list (Z * Z * Z * Z))
  : res machine :=
  do n0 <- create_machine v (Some (m_width m)) (Some (m_height m)) (Some "Fixed"%string) ;
  do n1 <- fold_res (fun n ch =>
      if xymem dc (c_xy ch) then Ok n
      else do ch' <- copy_chip dl ch ; add_chip n ch') (chips m) n0 ;
  do n2 <- add_spinnaker_links v n1 ;
  do n3 <- add_fpga_links v n2 ;
  do _ <- validate v n3 ;
  Ok n3.

(** machine_factory.py:124-216 machine_repair up to its recursive call: either
    the original is returned (None) or machine_repair is called on another
    machine with no removed chips. *)
Definition repair_step (repair : bool) (v : vid) (m : machine) (removed : list XY)
  : res (option machine) :=
  do s <- report_chips repair m (unreachable_incoming_local_chips m) (mkRepair [] [] false) ;
  do s <- report_chips repair m (unreachable_outgoing_local_chips m) s ;
  do s <- report_links repair m removed s ;
  do s <- report_parents repair m s ;
  if negb repair && has_error s then Err MachineExc
  else match dead_chips s, dead_links s with
       | [], [] => Ok None
       | _, _ => do n <- machine_ignore v m (dead_chips s) (dead_links s) ; Ok (Some n)
       end.

(** machine_factory.py:124-216 machine_repair with its recursion (line 216):
    [repairs repair v m removed r] when the call ends with result [r]. *)
Inductive repairs (repair : bool) (v : vid) : machine -> list XY -> res machine -> Prop :=
| repairs_raises m removed e :
    repair_step repair v m removed = Err e -> repairs repair v m removed (Err e)
| repairs_done m removed :
    repair_step repair v m removed = Ok None -> repairs repair v m removed (Ok m)
| repairs_again m removed n r :
    repair_step repair v m removed = Ok (Some n) -> repairs repair v n [] r ->
    repairs repair v m removed r.
