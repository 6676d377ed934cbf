(** Conformance tests: unittests/test_virtual_machine3.py (its "version 2" is Version3,
    version_factory.py), test_virtual_machine5.py, test_virtual_machine201.py,
    test_virtual_machine248.py and test_virtual_machine_48chips.py, but for the machines of
    more than 1000 chips.  Tests that differ in a name only are one here. *)
From Verif Require Import Unit_Base Model_Str Model_Text Model_Repr Model_Routing.
Open Scope string_scope.
Open Scope list_scope.
Open Scope Z_scope.

Definition BIG : list vid := [V5; V248].
Definition vm_cfg (c : config) (v : vid) (w h : Z) (check : bool) : res machine :=
  on_version c v (fun V => virtual_machine c V w h check).
Definition vm (v : vid) (w h : Z) : res machine := vm_cfg cfg0 v w h true.
Definition by_cores (c : config) (v : vid) (n : Z) : res machine :=
  on_version c v (fun V => virtual_machine_by_cores c V 0 0 n true).
Definition by_boards (v : vid) (n : Z) : res machine :=
  on_version cfg0 v (fun V => virtual_machine_by_boards cfg0 V n true).
Definition by_chips (v : vid) (n : Z) : res machine :=
  on_version cfg0 v (fun V => virtual_machine_by_chips cfg0 V n true).
Definition router_link_count (m : machine) : Z :=
  zsum (map (fun c => count (router_links (c_router c))) (chips m)).
Definition on_board (m : machine) (p : XY) (n : Z) : bool :=
  gives (getitem m p) (fun c => count (get_existing_xys_on_board m c) =? n).
Definition unused (m : machine) (p : XY) : bool := gives (get_unused_xy m) (xy_is p).
Definition cores_in_map (v : vid) : Z := zsum (map snd (chip_core_map v)).
(** The items of spinnaker_links are those of the list, in order *)
Fixpoint spin_items (a b : list (spin_key * spin_link_data)) : bool :=
  match a, b with
  | [], [] => true
  | (k, d) :: a, (k', d') :: b => spin_key_eqb k k' && spin_link_eqb d d' && spin_items a b
  | _, _ => false
  end.

(** test_illegal_vms; None for a size is refused by verify_size (Unit_Version) *)
Example illegal_vms :
  let bad v l := all l (fun p => raises_machine (vm v (fst p) (snd p))) in
  checks [bad V3 [(-1, 2); (2, -1); (15, 15); (8, 8); (1, 1)];
          bad V201 [(-1, 2); (2, -1); (15, 15); (8, 8); (2, 2)];
          all BIG (fun v => bad v [(-1, 2); (2, -1); (15, 15); (5, 7); (61, 84)])] = true.
Proof. vm_compute; reflexivity. Qed.

(** test_version_2, test_iter_chips, test_chips, test_boot_chip, test_ethernet_chips_exist,
    test_get_chips_on_boards, test_fpga_links_single_board, test_n_cores_2_2 *)
Example version_2 :
  gives (vm V3 2 2) (fun m =>
    checks
     [n_chips m =? 4; count (chips m) =? 4; count (m_eth m) =? 1;
      all [(0, 0); (0, 1); (1, 0); (1, 1)] (contains m);
      all [0; 1; 2; 5] (is_link_at m 0 0); negb (existsb (is_link_at m 0 0) [3; 4]);
      all [0; 1; 2; 5] (is_link_at m 0 1); negb (existsb (is_link_at m 0 1) [3; 4]);
      all [2; 3; 4; 5] (is_link_at m 1 0); negb (existsb (is_link_at m 1 0) [0; 1]);
      all [2; 3; 4; 5] (is_link_at m 1 1); negb (existsb (is_link_at m 1 1) [0; 1]);
      router_link_count m =? 16; get_cores_count m =? 72; get_links_count_doubled m =? 2 * 8;
      on_board m (1, 1) 4; unused m (2, 0);
      spin_items (m_spin m)
       [((Board "127.0.0.0", 0), mkSpinLink 0 0 0 3 "127.0.0.0");
        ((AtXY (0, 0), 0), mkSpinLink 0 0 0 3 "127.0.0.0");
        ((Board "127.0.0.0", 1), mkSpinLink 1 1 0 0 "127.0.0.0");
        ((AtXY (1, 0), 1), mkSpinLink 1 1 0 0 "127.0.0.0")];
      n_fpga_links m =? 0; gives (add_fpga_links V3 m) (fun m => n_fpga_links m =? 0);
      gives (boot_chip m) (fun c => xy_is (c_xy c) (0, 0));
      all (m_eth m) (fun c => is_chip_at m (c_x c) (c_y c));
      zsum (map (fun e => snd e) (m_xy_cores m 0 0)) =? 4 * 18; total_cores m =? 4 * 18]) = true.
Proof. vm_compute; reflexivity. Qed.

(** test_version_SPIN2_1CHIP and the others of test_virtual_machine201.py *)
Example version_201 :
  gives (vm V201 1 1) (fun m =>
    checks
     [n_chips m =? 1; is_chip_at m 0 0; negb (is_chip_at m 0 1); count (m_eth m) =? 1;
      negb (existsb (is_link_at m 0 0) (zrange 0 6)); router_link_count m =? 0;
      get_cores_count m =? 153; get_links_count_doubled m =? 0; on_board m (0, 0) 1;
      unused m (1, 0); count (m_spin m) =? 0; n_fpga_links m =? 0;
      gives (boot_chip m) (fun c => xy_is (c_xy c) (0, 0));
      all (m_eth m) (fun c => is_chip_at m (c_x c) (c_y c));
      zsum (map (fun e => snd e) (m_xy_cores m 0 0)) =? 153; total_cores m =? 153]) &&
  (* test_down *)
  gives (qx_qy_qp_to_id V201 2 2 1) (Z.eqb 90) &&
  gives (by_cores (with_down cfg0 (Some "0,0,2.2.1") None None) V201 1) (fun m =>
    gives (getitem m (0, 0)) (fun c => negb (is_processor_with_id c 90))) = true.
Proof. vm_compute; reflexivity. Qed.

(** test_new_vm_with_max_cores *)
Definition max_cores (v : vid) (w h n : Z) (p : XY) : bool :=
  gives (vm_cfg (with_max cfg0 None (Some n)) v w h true) (fun m =>
    gives (getitem m p) (fun c =>
      checks [n_processors c =? n; n_placable_processors c =? n - 1; n_scamp_processors c =? 1;
              total_cores m =? n_chips m * n])).
Example new_vm_with_max_cores :
  checks [max_cores V3 2 2 13 (1, 1); max_cores V201 1 1 105 (0, 0)] = true.
Proof. vm_compute; reflexivity. Qed.

(** test_down_chip, test_size_2_2_hole *)
Example down_chip :
  gives (vm_cfg (with_down cfg0 None (Some "1,1") None) V3 2 2 true) (fun m =>
    checks [n_chips m =? 3; negb (xymem (chip_coordinates m) (1, 1));
            count (chip_coordinates m) =? 3; count (m_xys m 0 0) =? 4;
            gives (get_chips_by_ethernet m 0 0) (fun l =>
              (count l =? 3) && negb (xymem (map c_xy l) (1, 1)));
            count (m_existing m 0 0) =? 3; negb (xymem (m_existing m 0 0) (1, 1))]) = true.
Proof. vm_compute; reflexivity. Qed.

Definition local_global_ok (m : machine) (n per_board : Z) : bool :=
  let globals := map (fun c => let '(x, y) := m_local m c in
                      (m_global m x y (c_eth_x c) (c_eth_y c))) (chips m) in
  checks [xys_are globals (map c_xy (chips m)); distinct globals; count globals =? n;
          count (local_xys m) =? per_board].
(** test_size_2_2 *)
Example size_2_2 :
  gives (vm V3 2 2) (fun m =>
    on_board m (0, 0) 4 && (count (m_existing m 0 0) =? 4) && local_global_ok m 4 4) = true.
Proof. vm_compute; reflexivity. Qed.

Definition size_is (r : res machine) (w h chips : Z) : bool :=
  gives r (fun m => (m_width m =? w) && (m_height m =? h) && (n_chips m =? chips)).
(** test_2_2_by, test_2_2_by_cores_too_many, test_by, test_by_cores_too_many *)
Example by_small :
  checks
   [size_is (by_cores cfg0 V3 40) 2 2 4; size_is (by_boards V3 1) 2 2 4; size_is (by_chips V3 3) 2 2 4;
    gives (by_cores cfg0 V3 40) (fun m => 40 <=? total_available_user_cores m);
    raises_machine (by_cores cfg0 V3 100); raises_machine (by_boards V3 2);
    size_is (by_cores cfg0 V201 40) 1 1 1; size_is (by_boards V201 1) 1 1 1; size_is (by_chips V201 1) 1 1 1;
    gives (by_cores cfg0 V201 40) (fun m => 40 <=? total_available_user_cores m);
    raises_machine (by_cores cfg0 V201 200); raises_machine (by_boards V201 2)] = true.
Proof. vm_compute; reflexivity. Qed.

(** test_version_5, test_version_5_8_by_8, test_version_248_8_by_8 *)
Definition keys_8_by_8 : list fpga_key :=
  [((Board "127.0.0.0", 0), 0); ((AtXY (7, 3), 0), 0); ((AtXY (0, 0), 0), 0);
   ((Board "127.0.0.0", 0), 1); ((AtXY (7, 3), 0), 1); ((AtXY (0, 0), 0), 1);
   ((Board "127.0.0.0", 0), 2); ((AtXY (6, 2), 0), 2); ((AtXY (0, 0), 0), 2);
   ((Board "127.0.0.0", 0), 3); ((AtXY (6, 2), 0), 3); ((AtXY (0, 0), 0), 3);
   ((Board "127.0.0.0", 0), 4); ((AtXY (5, 1), 0), 4); ((AtXY (0, 0), 0), 4);
   ((Board "127.0.0.0", 0), 5); ((AtXY (5, 1), 0), 5); ((AtXY (0, 0), 0), 5);
   ((Board "127.0.0.0", 0), 6); ((AtXY (4, 0), 0), 6); ((AtXY (0, 0), 0), 6);
   ((Board "127.0.0.0", 0), 7); ((AtXY (4, 0), 0), 7); ((AtXY (0, 0), 0), 7);
   ((Board "127.0.0.0", 0), 8); ((AtXY (4, 0), 0), 8); ((AtXY (0, 0), 0), 8);
   ((Board "127.0.0.0", 0), 9); ((AtXY (3, 0), 0), 9); ((AtXY (0, 0), 0), 9);
   ((Board "127.0.0.0", 0), 10); ((AtXY (3, 0), 0), 10); ((AtXY (0, 0), 0), 10);
   ((Board "127.0.0.0", 0), 11); ((AtXY (2, 0), 0), 11); ((AtXY (0, 0), 0), 11);
   ((Board "127.0.0.0", 0), 12); ((AtXY (2, 0), 0), 12); ((AtXY (0, 0), 0), 12);
   ((Board "127.0.0.0", 0), 13); ((AtXY (1, 0), 0), 13); ((AtXY (0, 0), 0), 13);
   ((Board "127.0.0.0", 0), 14); ((AtXY (1, 0), 0), 14); ((AtXY (0, 0), 0), 14);
   ((Board "127.0.0.0", 0), 15); ((AtXY (0, 0), 0), 15); ((Board "127.0.0.0", 1), 0);
   ((AtXY (0, 0), 1), 0); ((Board "127.0.0.0", 1), 1); ((AtXY (0, 0), 1), 1);
   ((Board "127.0.0.0", 1), 2); ((AtXY (0, 1), 1), 2); ((AtXY (0, 0), 1), 2);
   ((Board "127.0.0.0", 1), 3); ((AtXY (0, 1), 1), 3); ((AtXY (0, 0), 1), 3);
   ((Board "127.0.0.0", 1), 4); ((AtXY (0, 2), 1), 4); ((AtXY (0, 0), 1), 4);
   ((Board "127.0.0.0", 1), 5); ((AtXY (0, 2), 1), 5); ((AtXY (0, 0), 1), 5);
   ((Board "127.0.0.0", 1), 6); ((AtXY (0, 3), 1), 6); ((AtXY (0, 0), 1), 6);
   ((Board "127.0.0.0", 1), 7); ((AtXY (0, 3), 1), 7); ((AtXY (0, 0), 1), 7);
   ((Board "127.0.0.0", 1), 8); ((AtXY (0, 3), 1), 8); ((AtXY (0, 0), 1), 8);
   ((Board "127.0.0.0", 1), 9); ((AtXY (1, 4), 1), 9); ((AtXY (0, 0), 1), 9);
   ((Board "127.0.0.0", 1), 10); ((AtXY (1, 4), 1), 10); ((AtXY (0, 0), 1), 10);
   ((Board "127.0.0.0", 1), 11); ((AtXY (2, 5), 1), 11); ((AtXY (0, 0), 1), 11);
   ((Board "127.0.0.0", 1), 12); ((AtXY (2, 5), 1), 12); ((AtXY (0, 0), 1), 12);
   ((Board "127.0.0.0", 1), 13); ((AtXY (3, 6), 1), 13); ((AtXY (0, 0), 1), 13);
   ((Board "127.0.0.0", 1), 14); ((AtXY (3, 6), 1), 14); ((AtXY (0, 0), 1), 14);
   ((Board "127.0.0.0", 1), 15); ((AtXY (4, 7), 1), 15); ((AtXY (0, 0), 1), 15);
   ((Board "127.0.0.0", 2), 0); ((AtXY (4, 7), 2), 0); ((AtXY (0, 0), 2), 0);
   ((Board "127.0.0.0", 2), 1); ((AtXY (4, 7), 2), 1); ((AtXY (0, 0), 2), 1);
   ((Board "127.0.0.0", 2), 2); ((AtXY (5, 7), 2), 2); ((AtXY (0, 0), 2), 2);
   ((Board "127.0.0.0", 2), 3); ((AtXY (5, 7), 2), 3); ((AtXY (0, 0), 2), 3);
   ((Board "127.0.0.0", 2), 4); ((AtXY (6, 7), 2), 4); ((AtXY (0, 0), 2), 4);
   ((Board "127.0.0.0", 2), 5); ((AtXY (6, 7), 2), 5); ((AtXY (0, 0), 2), 5);
   ((Board "127.0.0.0", 2), 6); ((AtXY (7, 7), 2), 6); ((AtXY (0, 0), 2), 6);
   ((Board "127.0.0.0", 2), 7); ((AtXY (7, 7), 2), 7); ((AtXY (0, 0), 2), 7);
   ((Board "127.0.0.0", 2), 8); ((AtXY (7, 7), 2), 8); ((AtXY (0, 0), 2), 8);
   ((Board "127.0.0.0", 2), 9); ((AtXY (7, 6), 2), 9); ((AtXY (0, 0), 2), 9);
   ((Board "127.0.0.0", 2), 10); ((AtXY (7, 6), 2), 10); ((AtXY (0, 0), 2), 10);
   ((Board "127.0.0.0", 2), 11); ((AtXY (7, 5), 2), 11); ((AtXY (0, 0), 2), 11);
   ((Board "127.0.0.0", 2), 12); ((AtXY (7, 5), 2), 12); ((AtXY (0, 0), 2), 12);
   ((Board "127.0.0.0", 2), 13); ((AtXY (7, 4), 2), 13); ((AtXY (0, 0), 2), 13);
   ((Board "127.0.0.0", 2), 14); ((AtXY (7, 4), 2), 14); ((AtXY (0, 0), 2), 14);
   ((Board "127.0.0.0", 2), 15); ((AtXY (7, 3), 2), 15); ((AtXY (0, 0), 2), 15)].
Definition data_8_by_8 : list (Z * Z * Z * Z * Z) :=
  [(7, 3, 0, 0, 0); (7, 3, 5, 0, 1); (6, 2, 0, 0, 2); (6, 2, 5, 0, 3);
   (5, 1, 0, 0, 4); (5, 1, 5, 0, 5); (4, 0, 0, 0, 6); (4, 0, 5, 0, 7);
   (4, 0, 4, 0, 8); (3, 0, 5, 0, 9); (3, 0, 4, 0, 10); (2, 0, 5, 0, 11);
   (2, 0, 4, 0, 12); (1, 0, 5, 0, 13); (1, 0, 4, 0, 14); (0, 0, 5, 0, 15);
   (0, 0, 4, 1, 0); (0, 0, 3, 1, 1); (0, 1, 4, 1, 2); (0, 1, 3, 1, 3);
   (0, 2, 4, 1, 4); (0, 2, 3, 1, 5); (0, 3, 4, 1, 6); (0, 3, 3, 1, 7);
   (0, 3, 2, 1, 8); (1, 4, 3, 1, 9); (1, 4, 2, 1, 10); (2, 5, 3, 1, 11);
   (2, 5, 2, 1, 12); (3, 6, 3, 1, 13); (3, 6, 2, 1, 14); (4, 7, 3, 1, 15);
   (4, 7, 2, 2, 0); (4, 7, 1, 2, 1); (5, 7, 2, 2, 2); (5, 7, 1, 2, 3);
   (6, 7, 2, 2, 4); (6, 7, 1, 2, 5); (7, 7, 2, 2, 6); (7, 7, 1, 2, 7);
   (7, 7, 0, 2, 8); (7, 6, 1, 2, 9); (7, 6, 0, 2, 10); (7, 5, 1, 2, 11);
   (7, 5, 0, 2, 12); (7, 4, 1, 2, 13); (7, 4, 0, 2, 14); (7, 3, 1, 2, 15)].
Definition five_eqb (a b : Z * Z * Z * Z * Z) : bool :=
  let '(a1, a2, a3, a4, a5) := a in let '(b1, b2, b3, b4, b5) := b in
  (a1 =? b1) && (a2 =? b2) && (a3 =? b3) && (a4 =? b4) && (a5 =? b5).
Example version_8_by_8 :
  all [(V5, 856); (V248, 7331)] (fun vc => gives (vm (fst vc) 8 8) (fun m =>
    checks
     [n_chips m =? 48; count (m_eth m) =? 1; is_chip_at m 4 4; negb (is_chip_at m 0 4);
      negb (xymem (chip_coordinates m) (0, 4)); router_link_count m =? 240;
      total_cores m =? snd vc; get_cores_count m =? snd vc;
      get_links_count_doubled m =? 2 * 120; on_board m (1, 1) 48; unused m (0, 4)])) = true.
Proof. vm_compute; reflexivity. Qed.
Example links_8_by_8 :
  gives (vm V5 8 8) (fun m =>
    let keys := map fst (m_fpga m) in
    let data := map (fun e => let '((_, id, l), d) := e in
                       (fl_x d, fl_y d, fl_link d, id, l)) (m_fpga m) in
    checks
     [spin_items (m_spin m)
       [((Board "127.0.0.0", 0), mkSpinLink 0 0 0 4 "127.0.0.0");
        ((AtXY (0, 0), 0), mkSpinLink 0 0 0 4 "127.0.0.0")];
      n_fpga_links m =? 8 * 6 * 3 - 3;
      all keys (fun k => existsb (fpga_key_eqb k) keys_8_by_8);
      all keys_8_by_8 (fun k => existsb (fpga_key_eqb k) keys);
      all data (fun k => existsb (five_eqb k) data_8_by_8);
      all data_8_by_8 (fun k => existsb (five_eqb k) data)]) = true.
Proof. vm_compute; reflexivity. Qed.

(** test_version_5_12_by_12, test_version_5_16_by_16 *)
Example version_12_by_12 :
  all BIG (fun v => gives (vm v 12 12) (fun m =>
    checks
     [n_chips m =? 144; count (m_eth m) =? 3; router_link_count m =? 864; on_board m (1, 1) 48;
      unused m (12, 0); match v with V5 => spin_items (m_spin m) [] | _ => true end;
      match v with V5 => n_fpga_links m =? (8 * 6 * 3 - 3) * 3 | _ => true end])) = true.
Proof. vm_compute; reflexivity. Qed.
Example version_16_by_16 :
  all BIG (fun v => gives (vm v 16 16) (fun m =>
    checks
     [n_chips m =? 144; count (m_eth m) =? 3; router_link_count m =? 768; on_board m (1, 1) 48;
      unused m (0, 4);
      match v with
      | V5 =>
          spin_items (m_spin m)
           [((Board "127.0.0.0", 0), mkSpinLink 0 0 0 4 "127.0.0.0");
            ((AtXY (0, 0), 0), mkSpinLink 0 0 0 4 "127.0.0.0");
            ((Board "127.0.4.8", 0), mkSpinLink 0 4 8 4 "127.0.4.8");
            ((AtXY (4, 8), 0), mkSpinLink 0 4 8 4 "127.0.4.8")] &&
          (n_fpga_links m =? (8 * 6 * 3 - 3) * 3)
      | _ => true
      end])) = true.
Proof. vm_compute; reflexivity. Qed.

(** test_fpga_links_single_board: fpga, fpga link, x, y, link *)
Definition single_board : list (Z * Z * Z * Z * Z) :=
  [(0, 0, 7, 3, 0); (0, 1, 7, 3, 5); (0, 2, 6, 2, 0); (0, 3, 6, 2, 5);
   (0, 4, 5, 1, 0); (0, 5, 5, 1, 5); (0, 6, 4, 0, 0); (0, 7, 4, 0, 5);
   (0, 8, 4, 0, 4); (0, 9, 3, 0, 5); (0, 10, 3, 0, 4); (0, 11, 2, 0, 5);
   (0, 12, 2, 0, 4); (0, 13, 1, 0, 5); (0, 14, 1, 0, 4); (0, 15, 0, 0, 5);
   (1, 0, 0, 0, 4); (1, 1, 0, 0, 3); (1, 2, 0, 1, 4); (1, 3, 0, 1, 3);
   (1, 4, 0, 2, 4); (1, 5, 0, 2, 3); (1, 6, 0, 3, 4); (1, 7, 0, 3, 3);
   (1, 8, 0, 3, 2); (1, 9, 1, 4, 3); (1, 10, 1, 4, 2); (1, 11, 2, 5, 3);
   (1, 12, 2, 5, 2); (1, 13, 3, 6, 3); (1, 14, 3, 6, 2); (1, 15, 4, 7, 3);
   (2, 0, 4, 7, 2); (2, 1, 4, 7, 1); (2, 2, 5, 7, 2); (2, 3, 5, 7, 1);
   (2, 4, 6, 7, 2); (2, 5, 6, 7, 1); (2, 6, 7, 7, 2); (2, 7, 7, 7, 1);
   (2, 8, 7, 7, 0); (2, 9, 7, 6, 1); (2, 10, 7, 6, 0); (2, 11, 7, 5, 1);
   (2, 12, 7, 5, 0); (2, 13, 7, 4, 1); (2, 14, 7, 4, 0); (2, 15, 7, 3, 1)].
Definition fpga_is (m : machine) (ip : option string) (e : Z * Z * Z * Z * Z) : bool :=
  let '(id, l, x, y, d) := e in
  gives (get_fpga_link_with_id m id l ip None) (fun f =>
    (fl_x f =? x) && (fl_y f =? y) && (fl_link f =? d)).
Example fpga_links_single_board :
  gives (vm V5 8 8) (fun m => gives (add_fpga_links V5 m) (fun m =>
    all single_board (fpga_is m None))) = true.
Proof. vm_compute; reflexivity. Qed.
(** test_fpga_links_3_board *)
Definition three_board : list (string * (Z * Z * Z * Z * Z)) :=
  [("127.0.0.0", (0, 5, 5, 1, 5)); ("127.0.0.0", (0, 12, 2, 0, 4));
   ("127.0.0.0", (1, 3, 0, 1, 3)); ("127.0.0.0", (1, 12, 2, 5, 2));
   ("127.0.0.0", (2, 5, 6, 7, 1)); ("127.0.0.0", (2, 12, 7, 5, 0));
   ("127.0.4.8", (0, 2, 10, 10, 0)); ("127.0.4.8", (0, 11, 6, 8, 5));
   ("127.0.4.8", (1, 3, 4, 9, 3)); ("127.0.4.8", (1, 14, 7, 2, 2));
   ("127.0.4.8", (2, 5, 10, 3, 1)); ("127.0.4.8", (2, 12, 11, 1, 0));
   ("127.0.8.4", (0, 5, 1, 5, 5)); ("127.0.8.4", (0, 10, 11, 4, 4));
   ("127.0.8.4", (1, 1, 8, 4, 3)); ("127.0.8.4", (1, 12, 10, 9, 2));
   ("127.0.8.4", (2, 7, 3, 11, 1)); ("127.0.8.4", (2, 12, 3, 9, 0))].
Example fpga_links_3_board :
  let down := String.concat ":" (map (fun e =>
        let '(_, _, x, y, d) := snd e in cat [dec x; ","; dec y; ","; dec d]) three_board) in
  gives (vm_cfg (with_down cfg0 None None (Some down)) V5 12 12 true) (fun m =>
    gives (add_fpga_links V5 m) (fun m =>
      all three_board (fun e => fpga_is m (Some (fst e)) (snd e)))) = true.
Proof. vm_compute; reflexivity. Qed.
(** test_none_triad *)
Example none_triad : checks [fine (vm V5 20 16); fine (vm V5 12 16)] = true.
Proof. vm_compute; reflexivity. Qed.

(** test_version_hole, test_version_hole2 *)
Definition hole (v : vid) (s : string) (no_links : list (Z * Z * Z)) (links : Z) : bool :=
  gives (vm_cfg (with_down cfg0 None (Some s) None) v 8 8 true) (fun m =>
    checks [n_chips m =? 47; count (m_eth m) =? 1;
            negb (existsb (fun t => let '(x, y, l) := t in is_link_at m x y l) no_links);
            router_link_count m =? links; count (local_xys m) =? 48; unused m (0, 4)]).
Example version_hole :
  all BIG (fun v =>
    hole v "3,3" [(3, 3, 2); (3, 2, 2)] 228 && hole v "0,3" [(0, 2, 2); (1, 3, 3)] 234) = true.
Proof. vm_compute; reflexivity. Qed.

(** test_chips, test_boot_chip *)
Example chips_48 :
  all BIG (fun v => gives (vm v 8 8) (fun m => count (chips m) =? 48) &&
    gives (vm v 12 12) (fun m => gives (boot_chip m) (fun c => xy_is (c_xy c) (0, 0)))) = true.
Proof. vm_compute; reflexivity. Qed.

(** test_get_chips_on_boards *)
Example get_chips_on_boards :
  gives (vm V5 24 36) (fun m =>
    let boards := map (get_existing_xys_on_board m) (m_eth m) in
    let on p := count (filter (fun l => xymem l p) boards) in
    checks [all boards (fun l => count l =? 48); on (0, 0) =? 1; on (5, 0) =? 1; on (0, 4) =? 1;
            on (24, 36) =? 0]) = true.
Proof. vm_compute; reflexivity. Qed.

(** test_fullwrap_holes, test_horizontal_wrap_holes, test_vertical_wrap_holes,
    test_no_wrap_holes *)
Definition holes (v : vid) (w h : Z) (ps : list XY) : bool :=
  let down := String.concat ":" (map (fun p => cat [dec (fst p); ","; dec (snd p)]) ps) in
  gives (vm_cfg (with_down cfg0 None (Some down) None) v w h true) (fun m =>
    all [(0, 0); (4, 8); (8, 4)] (fun e => let '(x, y) := e in
      checks
       [count (m_xys m x y) =? 48;
        gives (get_chips_by_ethernet m x y) (fun l =>
          (count l =? 46) && all l (fun c => negb (xymem ps (c_xy c))));
        count (m_existing m x y) =? 46; all (m_existing m x y) (fun p => negb (xymem ps p));
        count (m_down m x y) =? 2; all (m_down m x y) (xymem ps)])).
Example wrap_holes :
  all BIG (fun v =>
    checks [holes v 12 12 [(1, 1); (7, 7); (8, 1); (8, 10); (1, 8); (9, 6)];
            holes v 12 16 [(1, 1); (7, 7); (8, 13); (8, 10); (1, 8); (9, 6)];
            holes v 16 12 [(1, 1); (7, 7); (8, 1); (8, 10); (13, 8); (9, 6)];
            holes v 16 16 [(1, 1); (7, 7); (8, 13); (8, 10); (13, 8); (9, 6)]]) = true.
Proof. vm_compute; reflexivity. Qed.

(** test_n_cores_full_wrap, test_n_cores_no_wrap, test_n_cores_horizontal_wrap,
    test_n_cores_vertical_wrap, test_n_cores_8_8 *)
Definition n_cores (v : vid) (w h n : Z) : bool :=
  gives (vm v w h) (fun m =>
    (zsum (map (fun e => snd e) (m_xy_cores m 0 0)) =? cores_in_map v) &&
    (total_cores m =? cores_in_map v * n)).
Example n_cores_all :
  all BIG (fun v => checks [n_cores v 12 12 3; n_cores v 16 16 3; n_cores v 12 16 3;
                            n_cores v 8 8 1]) = true.
Proof. vm_compute; reflexivity. Qed.
(** test_n_cores_no_wrap *)
Example where_is :
  all BIG (fun v => gives (vm v 16 16) (fun m =>
    checks
     [match get_chip_at m 3 4 with
      | Some c => String.eqb (m_where_is_chip m c)
          "global chip 3, 4 on 127.0.0.0 is chip 3, 4 on 127.0.0.0"
      | None => false
      end;
      gives (getitem m (11, 12)) (fun c => String.eqb (m_where_is_chip m c)
        "global chip 11, 12 on 127.0.0.0 is chip 7, 4 on 127.0.4.8");
      String.eqb (m_where_is_xy m 10 5)
        "global chip 10, 5 on 127.0.0.0 is chip 2, 1 on 127.0.8.4";
      String.eqb (m_where_is_xy m 15 15) "No chip 15, 15 found"])) = true.
Proof. vm_compute; reflexivity. Qed.

(** test_8_8_by_cores_1_board, test_8_8_by_cores_3_boards, test_8_8_by_cores_6_boards, and the
    sizes of test_8_8_by_cores_12_boards and test_8_8_by_cores_18_boards *)
Definition by_is (r : res machine) (w h cores : Z) : bool :=
  gives r (fun m => (m_width m =? w) && (m_height m =? h) && (total_available_user_cores m =? cores)).
Definition sizes (r : res (Z * Z)) (w h : Z) : bool := gives r (xy_is (w, h)).
Example by_big :
  all BIG (fun v =>
    let n := cores_in_map v - n_chips_per_board v in
    checks
     [by_is (by_cores cfg0 v n) 8 8 n; by_is (by_boards v 1) 8 8 n;
      by_is (by_cores cfg0 v (n * 2)) 16 16 (n * 3); by_is (by_boards v 2) 16 16 (n * 3);
      by_is (by_chips v 100) 16 16 (n * 3);
      sizes (size_from_n_cores v 0 0 (n * 5)) 28 16; by_is (by_boards v 4) 28 16 (n * 6);
      sizes (size_from_n_cores v 0 0 (n * 9)) 28 28; sizes (size_from_n_boards v 10) 28 28;
      sizes (size_from_n_cores v 0 0 (n * 12 + 1)) 40 28; sizes (size_from_n_boards v 15) 40 28])
  = true.
Proof. vm_compute; reflexivity. Qed.

(** test_by_min_size, test_by_min_size_edge_case *)
Example by_min_size :
  all BIG (fun v => all [(15, 21); (8, 9)] (fun p =>
    gives (min_size v (fst p) (snd p)) (fun q => (fst p <=? fst q) && (snd p <=? snd q)))) = true.
Proof. vm_compute; reflexivity. Qed.
