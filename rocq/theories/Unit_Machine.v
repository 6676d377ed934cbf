(** Conformance tests: unittests/test_machine.py.  A test that sets "versions" runs on
    one of the versions of the group, by the minor version of Python: all of them are
    tried. *)
From Verif Require Import Unit_Base Model_Str Model_Text Model_Summary Model_SummaryText Model_Invalid.
Open Scope string_scope.
Open Scope list_scope.
Open Scope Z_scope.

Definition ANY : list vid := [V3; V5; V201; V248].
Definition FOUR_PLUS : list vid := [V3; V5; V248].
Definition BIG : list vid := [V5; V248].

Definition four_links : list link :=
  [mkLink 0 0 0 1 1; mkLink 0 1 1 1 0; mkLink 1 1 2 0 0; mkLink 1 0 3 0 1].
(** _create_chip *)
Definition test_chip (V : version) (x y : Z) : res chip :=
  bind (new_router four_links 1024) (fun r =>
    Ok (new_chip x y [0] (zrange 1 (max_cores_per_chip V)) r 123469792 0 0
          (if (x =? 0) && (y =? 0) then Some "192.162.240.253" else None) None None)).
Definition boards (v : vid) (n : Z) : res machine :=
  on_version cfg0 v (fun V => virtual_machine_by_boards cfg0 V n true).
Definition by_size (v : vid) (w h : Z) : res machine :=
  on_version cfg0 v (fun V => virtual_machine_by_min_size cfg0 V w h true).
(** A machine of the shape of a board with the chips at the given places *)
Definition made_with (v : vid) (places : XY -> list XY) : res machine :=
  on_version cfg0 v (fun V =>
    let '(w, h) := board_shape v in
    bind (create_machine v (Some w) (Some h) None) (fun m =>
      fold_res (fun m p => bind (test_chip V (fst p) (snd p)) (add_chip m)) (places (w, h)) m)).
Definition ip_is (c : chip) (s : option string) : bool :=
  match c_ip c, s with
  | None, None => true
  | Some a, Some b => String.eqb a b
  | _, _ => false
  end.

(** test_create_new_machine_version5 *)
Example create_new_machine_version5 :
  gives (boards V5 1) (fun m =>
    checks
     [m_width m =? 8; m_height m =? 8;
      all (chips m) (fun c =>
        ip_is c (if (c_x c =? 0) && (c_y c =? 0) then Some "127.0.0.0" else None) &&
        (c_sdram c =? 123469792));
      total_cores m =? 856; total_available_user_cores m =? 856 - 48;
      gives (boot_chip m) (fun c => ip_is c (Some "127.0.0.0")); n_chips m =? 48;
      match machine_iter m with (_, c) :: _ => ip_is c (Some "127.0.0.0") | [] => false end;
      match chip_coordinates m with p :: _ => xy_is p (0, 0) | [] => false end;
      String.eqb (machine_str m) "[VirtualNoWrapMachine: width=8, height=8, n_chips=48]";
      count (m_spin m) =? 2; gives (min_n_router_enteries m) (Z.eqb 1023)]) = true.
Proof. vm_compute; reflexivity. Qed.

Definition with_counters (m : machine) (entries sdram : counter) : machine :=
  mkMachine (m_kind m) (m_width m) (m_height m) (m_ccm m) (m_eth m) (m_spin m) (m_fpga m)
    (m_boot m) (m_chips m) (m_origin m) (m_cores_counter m) (m_links_counter m) entries sdram.
Definition warned (l : list warning) (w : warning) : bool :=
  existsb (fun a => match a, w with
                    | UnexpectedSdram, UnexpectedSdram | MixedSdram, MixedSdram
                    | UnexpectedRouters, UnexpectedRouters | MixedRouters, MixedRouters => true
                    | _, _ => false
                    end) l.
(** test_summary *)
Example summary :
  gives (new_version cfg0 V5) (fun V => gives (boards V5 1) (fun m =>
    checks
     [gives (summary_string V m) (fun r =>
        String.eqb (fst r)
         ("Machine on 127.0.0.0 with 48 Chips, 856 cores and 120.0 links. " ++
          "Chips have sdram of 123469792 bytes, router table of size 1023, " ++
          "between 17 and 18 cores and between 3 and 6 links.") && (count (snd r) =? 0));
      gives (summary_string V (with_counters m [(456, 1)] [(123, 1)])) (fun r =>
        String.eqb (fst r)
         ("Machine on 127.0.0.0 with 48 Chips, 856 cores and 120.0" ++
          " links. Chips have sdram of 123 bytes, router table of size " ++
          "456, between 17 and 18 cores and between 3 and 6 links.") &&
        warned (snd r) UnexpectedSdram && warned (snd r) UnexpectedRouters);
      forallb (fun p => String.eqb (fst p) (snd p)) (combine (summary_log V (with_counters m [(456, 1)] [(123, 1)]))
        ["The sdram per chip of 123 was different to the expected value of 123469792 for board Version Spin1 48 Chip";
         "The number of router entries per chip of 456 was different to the expected value of 1023 for board Version Spin1 48 Chip"]);
      count (summary_log V (with_counters m [(456, 1)] [(123, 1)])) =? 2;
      gives (summary_string V (with_counters m [(456, 1); (321, 1)] [(123, 1); (789, 1)])) (fun r =>
        String.eqb (fst r)
         ("Machine on 127.0.0.0 with 48 Chips, 856 cores and 120.0 " ++
          "links. Chips have sdram of between 123 and 789 bytes, " ++
          "router table sizes between 321 and 456, " ++
          "between 17 and 18 cores and between 3 and 6 links.") &&
        warned (snd r) MixedSdram && warned (snd r) MixedRouters);
      forallb (fun p => String.eqb (fst p) (snd p))
        (combine (summary_log V (with_counters m [(456, 1); (321, 1)] [(123, 1); (789, 1)]))
        ["Not all Chips have the same sdram. The counts where Counter({123: 1, 789: 1}).";
         "Not all Chips had the same n_router_tables. The counts where Counter({456: 1, 321: 1})."]);
      count (summary_log V (with_counters m [(456, 1); (321, 1)] [(123, 1); (789, 1)])) =? 2])) = true.
Proof. vm_compute; reflexivity. Qed.

(** test_chip_already_exists *)
Example chip_already_exists :
  all ANY (fun v => gives (boards v 1) (fun m => gives (new_router four_links 1024) (fun r =>
    match add_chip m (new_chip 0 0 [0] (zrange 1 18) r 123469792 0 0 (Some "192.162.240.253")
                        None None) with
    | Err AlreadyExists => true
    | _ => false
    end))) = true.
Proof. vm_compute; reflexivity. Qed.

(** test_machine_get_chip_at *)
Example machine_get_chip_at :
  all FOUR_PLUS (fun v => gives (by_size v 2 2) (fun m =>
    all [(1, 0); (0, 1)] (fun p =>
      match get_chip_at m (fst p) (snd p) with
      | Some c => (c_x c =? fst p) && (c_y c =? snd p)
      | None => false
      end))) = true.
Proof. vm_compute; reflexivity. Qed.

(** [a in b] for strings *)
Fixpoint within (a b : string) : bool :=
  String.prefix a b || match b with EmptyString => false | String _ r => within a r end.
(** test_machine_big_x, test_machine_big_y: if validate raises then with this text *)
Definition refusal (v : vid) (m : machine) (text : string) : bool :=
  match invalid_text v m with
  | Some s => raises_machine (validate v m) && within text s
  | None => negb (raised (validate v m))
  end.
Example machine_big :
  all ANY (fun v =>
    let '(w, h) := board_shape v in
    gives (made_with v (fun _ => [(0, 0); (w + 2, h / 2)])) (fun m =>
      refusal v m (cat ["has an x larger than width "; dec w])) &&
    gives (made_with v (fun _ => [(0, 0); (w / 2, h + 2)])) (fun m =>
      refusal v m (cat ["has a y larger than height "; dec h]))) = true.
Proof. vm_compute; reflexivity. Qed.

(** test_machine_get_chip_at_invalid_location, test_machine_is_chip_at_true,
    test_machine_is_chip_at_false *)
Example is_chip_at_tests :
  all ANY (fun v => let '(w, h) := board_shape v in
    gives (boards v 1) (fun m =>
      match get_chip_at m (w + 2) (h / 2) with None => true | Some _ => false end &&
      is_chip_at m (w / 2) (h / 2) && negb (is_chip_at m (w + 2) (h / 2)))) = true.
Proof. vm_compute; reflexivity. Qed.

(** test_machine_get_chips_on_board *)
Example machine_get_chips_on_board :
  all BIG (fun v => gives (boards v 3) (fun m =>
    all (m_eth m) (fun c => count (get_existing_xys_on_board m c) =? n_chips_per_board v) &&
    raises_key (get_spinnaker_link_with_id m 1 None None) &&
    raises_key (get_fpga_link_with_id m 3 3 None None))) = true.
Proof. vm_compute; reflexivity. Qed.

Definition over (v : vid) (w h : Z) (steps : list (Z * Z * Z * XY)) (text : string) : bool :=
  gives (create_machine v (Some w) (Some h) None) (fun m =>
    all steps (fun s => let '(x, y, l, p) := s in gives (m_over m x y l) (xy_is p)) &&
    String.eqb (wrap_text (m_kind m)) text).
(** test_x_y_over_link *)
Example x_y_over_link :
  all BIG (fun v =>
    checks [over v 24 24 [((0, 0, 4), (23, 23)); ((23, 23, 1), (0, 0))] "Wrapped";
            over v 16 16 [((0, 0, 4), (-1, -1)); ((15, 15, 1), (16, 16))] "NoWrap";
            over v 24 16 [((0, 0, 4), (23, -1)); ((23, 15, 1), (0, 16))] "HorWrap";
            over v 16 24 [((0, 0, 4), (-1, 23)); ((15, 23, 1), (16, 0))] "VerWrap"]) = true.
Proof. vm_compute; reflexivity. Qed.

Definition global (v : vid) (w h : Z) (a b : XY) : bool :=
  gives (create_machine v (Some w) (Some h) None) (fun m =>
    xy_is (m_global m 1 4 4 20) a && xy_is (m_global m 5 0 20 4) b).
(** test_get_global_xy *)
Example get_global_xy_all :
  all BIG (fun v =>
    checks [global v 24 24 (5, 0) (1, 4); global v 28 28 (5, 24) (25, 4);
            global v 24 28 (5, 24) (1, 4); global v 28 24 (5, 0) (25, 4)]) = true.
Proof. vm_compute; reflexivity. Qed.

(** test_no_boot, test_negative_x, test_negative_y *)
Example invalid_machines :
  all ANY (fun v => all [[]; [(2, -1)]; [(-1, 3)]] (fun ps =>
    gives (made_with v (fun _ => ps)) (fun m => raises_machine (validate v m)))) = true.
Proof. vm_compute; reflexivity. Qed.

(** The machine after an assignment to an attribute of its first chip that passes [f] *)
Definition hack_chip (m : machine) (f : chip -> bool) (g : chip -> chip) : machine :=
  match find f (chips m) with
  | Some c =>
      mkMachine (m_kind m) (m_width m) (m_height m) (m_ccm m) (m_eth m) (m_spin m) (m_fpga m)
        (m_boot m) (dset xy_eqb (m_chips m) (c_xy c) (g c)) (m_origin m) (m_cores_counter m)
        (m_links_counter m) (m_entries_counter m) (m_sdram_counter m)
  | None => m
  end.
Definition plain (c : chip) : bool := ip_is c None.
Definition refused_after (v : vid) (f : chip -> bool) (g : chip -> chip) : bool :=
  gives (boards v 1) (fun m => fine (validate v m) && raises_machine (validate v (hack_chip m f g))).
(** test_weird_ethernet1, test_bad_ethernet_chip_x, test_bad_ethernet_chip_no_chip *)
Example hacked_chips :
  all FOUR_PLUS (fun v => let '(w, h) := board_shape v in
    checks
     [refused_after v plain (fun c =>
        mkChip (c_x c) (c_y c) (c_scamp c) (c_placable c) (c_router c) (c_sdram c) (c_eth_x c)
          (c_eth_y c) (Some "1.2.3.4") (c_tags c) (c_parent c));
      refused_after v plain (fun c =>
        mkChip (c_x c) (c_y c) (c_scamp c) (c_placable c) (c_router c) (c_sdram c) (w + 1)
          (c_eth_y c) (c_ip c) (c_tags c) (c_parent c));
      refused_after v plain (fun c =>
        mkChip (c_x c) (c_y c) (c_scamp c) (c_placable c) (c_router c) (c_sdram c) (h + 1)
          (c_eth_y c) (c_ip c) (c_tags c) (c_parent c))]) = true.
Proof. vm_compute; reflexivity. Qed.
(** test_too_few_cores *)
Example too_few_cores :
  all ANY (fun v => refused_after v (fun _ => true) (fun c =>
    mkChip (c_x c) (c_y c) (c_scamp c) [1; 2] (c_router c) (c_sdram c) (c_eth_x c)
      (c_eth_y c) (c_ip c) (c_tags c) (c_parent c))) = true.
Proof. vm_compute; reflexivity. Qed.

(** test_concentric_xys *)
Example concentric_xys_5 :
  all BIG (fun v => gives (by_size v 5 5) (fun m =>
    xys_are (concentric_xys (m_kind m) (m_width m) (m_height m) 2 (2, 2))
     [(2, 2);
      (2, 1); (3, 2); (3, 3); (2, 3); (1, 2); (1, 1);
      (2, 0); (3, 1); (4, 2); (4, 3); (4, 4); (3, 4);
      (2, 4); (1, 3); (0, 2); (0, 1); (0, 0); (1, 0)])) = true.
Proof. vm_compute; reflexivity. Qed.
