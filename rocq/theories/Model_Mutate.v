(** A router changed after its chip was added to a machine.  The chip object is shared by the
    dictionary of chips and the list of Ethernet chips, so both show the new link; the counters
    of the machine are not told.  Routers shared by two chips are not modelled. *)
From Verif Require Import Model_Py Model_Wrap Model_Core Model_Machine.

(** chip.py:183-190 router: the same chip object after its router object changed *)
Definition with_router (c : chip) (r : router) : chip :=
  mkChip (c_x c) (c_y c) (c_scamp c) (c_placable c) r (c_sdram c) (c_eth_x c) (c_eth_y c)
    (c_ip c) (c_tags c) (c_parent c).

(** [machine[x, y].router.add_link(link)]: machine.py:637-647 __getitem__, chip.py:183-190
    router, router.py:61-72 add_link *)
Definition add_link_later (m : machine) (p : XY) (l : link) : res machine :=
  do c <- getitem m p ;
  do r <- router_add_link (c_router c) l ;
  Ok (mkMachine (m_kind m) (m_width m) (m_height m) (m_ccm m)
        (map (fun e => if xy_eqb (c_xy e) p then with_router e r else e) (m_eth m))
        (m_spin m) (m_fpga m) (m_boot m)
        (dset xy_eqb (m_chips m) p (with_router c r))
        (m_origin m) (m_cores_counter m) (m_links_counter m) (m_entries_counter m)
        (m_sdram_counter m)).
