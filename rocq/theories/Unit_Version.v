(** Conformance tests: unittests/version/test_version3.py, test_version5.py,
    test_version201.py, test_version248.py, test_version_string.py,
    test_version_factory.py, test_spinnaker_triad_geometry.py and
    test_ignore_cores.py. *)
From Verif Require Import Unit_Base Model_Factory Model_Geometry Model_Ignore Model_Identity.
Open Scope list_scope.
Open Scope Z_scope.

Definition attributes (v : vid) (cores sdram : Z) (name : string) (shape : Z * Z)
  (chips entries : Z) (clocks : list Z) : bool :=
  gives (new_version cfg0 v) (fun V =>
    checks [max_cores_per_chip V =? cores; max_sdram_per_chip V =? sdram;
            n_scamp_cores v =? 1; String.eqb (version_name v) name;
            xy_is (board_shape v) shape; n_chips_per_board v =? chips;
            n_router_entries v =? entries; zs_are (clock_speeds_hz v) clocks]).
(** test_attributes, test_processor_info *)
Example attributes_all :
  checks
   [attributes V3 18 123469792 "Spin1 4 Chip" (2, 2) 4 1023 [200]; v_number V3 =? 3;
    attributes V5 18 123469792 "Spin1 48 Chip" (8, 8) 48 1023 [200]; v_number V5 =? 5;
    attributes V201 153 (2 ^ 30) "Spin2 1 Chip" (1, 1) 1 16384 [150; 300];
    v_number V201 =? 201;
    attributes V248 153 (2 ^ 30) "Spin2 48 Chips" (8, 8) 48 16384 [150; 300];
    v_number V248 =? 248;
    gives (dtcm_bytes V3) (Z.eqb 65536); gives (dtcm_bytes V5) (Z.eqb 65536)] = true.
Proof. vm_compute; reflexivity. Qed.

Definition config_size (v : vid) (n : Z) : bool :=
  checks [fine (new_version cfg0 v);
          raises_machine (new_version (with_size cfg0 (Some n) None) v);
          fine (new_version (with_size cfg0 (Some n) (Some n)) v);
          raises_machine (new_version (with_size cfg0 None (Some n)) v)].
(** test_verify_config_width_height *)
Example verify_config_width_height_all :
  checks [config_size V3 2; config_size V5 8; config_size V201 1; config_size V248 8] = true.
Proof. vm_compute; reflexivity. Qed.

Definition max_lower (v : vid) (n : Z) : bool :=
  gives (new_version (with_max cfg0 (Some 1000) (Some n)) v) (fun V =>
    (max_cores_per_chip V =? n) && (max_sdram_per_chip V =? 1000)).
(** test_set_max_lower *)
Example set_max_lower_all :
  checks [max_lower V3 10; max_lower V5 10; max_lower V201 100; max_lower V248 100] = true.
Proof. vm_compute; reflexivity. Qed.

Definition expected (v : vid) (n size low high : Z) : bool :=
  checks [count (expected_xys v) =? n; distinct (expected_xys v);
          all (chip_core_map v) (fun e =>
            let '(x, y, cores) := e in
            (0 <=? x) && (0 <=? y) && (x <? size) && (y <? size) &&
            (low <=? cores) && (cores <=? high))].
(** test_expected_xys, test_expected_chip_core_map *)
Example expected_all :
  checks [expected V3 4 2 16 18; expected V5 48 8 16 18; expected V201 1 1 152 153;
          expected V248 48 8 151 153] = true.
Proof. vm_compute; reflexivity. Qed.

Definition eths (v : vid) (w h : Z) (l : list XY) : bool :=
  gives (Model_Version.get_potential_ethernet_chips v w h) (fun e => xys_are e l).
(** test_get_potential_ethernet_chips *)
Example get_potential_ethernet_chips_all :
  checks
   [eths V3 2 2 [(0, 0)]; eths V3 8 8 [(0, 0)]; eths V3 12 12 [(0, 0)]; eths V3 16 16 [(0, 0)];
    eths V5 8 8 [(0, 0)]; eths V5 12 12 [(0, 0); (4, 8); (8, 4)];
    eths V5 16 16 [(0, 0); (4, 8); (8, 4)]; eths V5 2 2 [(0, 0)];
    eths V201 0 0 [(0, 0)]; eths V201 8 8 [(0, 0)]; eths V201 12 12 [(0, 0)];
    eths V201 16 16 [(0, 0)];
    eths V248 0 0 [(0, 0)]; eths V248 8 8 [(0, 0)]; eths V248 12 12 [(0, 0); (4, 8); (8, 4)];
    eths V248 16 16 [(0, 0); (4, 8); (8, 4)]] = true.
Proof. vm_compute; reflexivity. Qed.

Definition ok (v : vid) (w h : Z) : bool := fine (verify_size v (Some w) (Some h)).
Definition bad (v : vid) (w h : Z) : bool := raises_machine (verify_size v (Some w) (Some h)).
Definition bad_everywhere (v : vid) : bool :=
  checks [bad v 12 (-12); bad v (-12) 12; raises_machine (verify_size v (Some 12) None);
          raises_machine (verify_size v None (Some 12)); bad v 12 8; bad v 8 12].
(** test_verify_size *)
Example verify_size_all :
  checks
   [bad_everywhere V3; bad_everywhere V5; bad_everywhere V201; bad_everywhere V248;
    ok V3 2 2; bad V3 8 8; bad V3 12 12; bad V3 12 16; bad V3 16 12; bad V3 16 16;
    bad V5 2 2; ok V5 8 8; ok V5 12 12; ok V5 12 16; ok V5 16 12; ok V5 16 16;
    bad V201 2 2; ok V201 1 1; bad V201 8 8; bad V201 12 12; bad V201 12 16; bad V201 16 12;
    bad V201 16 16;
    bad V248 2 2; bad V248 1 1; ok V248 8 8; bad V248 4 16; bad V248 16 4; ok V248 12 12;
    ok V248 12 16; ok V248 16 12; ok V248 16 16; ok V248 16 20; ok V248 20 16] = true.
Proof. vm_compute; reflexivity. Qed.

Definition wrap_is (a b : wrap) : bool :=
  match a, b with
  | NoWrap, NoWrap | HorWrap, HorWrap | VerWrap, VerWrap | FullWrap, FullWrap => true
  | _, _ => false
  end.
Definition makes (v : vid) (w h : Z) (k : wrap) : bool :=
  gives (create_machine v (Some w) (Some h) None) (fun m => wrap_is (m_kind m) k).
(** test_create_machin(e) *)
Example create_machine_all :
  checks
   [makes V3 2 2 FullWrap; makes V5 8 8 NoWrap; makes V5 16 16 NoWrap; makes V5 12 16 HorWrap;
    makes V5 16 12 VerWrap; makes V5 12 12 FullWrap; makes V201 1 1 NoWrap;
    makes V248 8 8 NoWrap] = true.
Proof. vm_compute; reflexivity. Qed.

Definition size_is (r : res (Z * Z)) (p : Z * Z) : bool := gives r (xy_is p).
(** test_size_from_n_cores (the mocked writer has no monitors) *)
Example size_from_n_cores_all :
  let n := 17 * 48 - 8 in
  checks
   [size_is (size_from_n_cores V3 0 0 10) (2, 2); size_is (size_from_n_cores V3 0 0 (17 * 4)) (2, 2);
    raises_machine (size_from_n_cores V3 0 0 (17 * 4 + 1));
    size_is (size_from_n_cores V5 0 0 10) (8, 8); size_is (size_from_n_cores V5 0 0 n) (8, 8);
    size_is (size_from_n_cores V5 0 0 (n + 1)) (16, 16);
    size_is (size_from_n_cores V5 0 0 (n * 3)) (16, 16);
    size_is (size_from_n_cores V5 0 0 (n * 4)) (28, 16);
    size_is (size_from_n_cores V5 0 0 (n * 6)) (28, 16);
    size_is (size_from_n_cores V5 0 0 (n * 7)) (28, 28);
    size_is (size_from_n_cores V5 0 0 (n * 12)) (28, 28);
    size_is (size_from_n_cores V5 0 0 (n * 13)) (40, 28);
    size_is (size_from_n_cores V5 0 0 (n * 18)) (40, 28);
    size_is (size_from_n_cores V5 0 0 (n * 18 + 1)) (40, 40)] = true.
Proof. vm_compute; reflexivity. Qed.
(** test_size_from_n_chips *)
Example size_from_n_chips_all :
  checks
   [size_is (size_from_n_chips V3 1) (2, 2); size_is (size_from_n_chips V3 4) (2, 2);
    raises_machine (size_from_n_chips V3 5); size_is (size_from_n_chips V5 1) (8, 8);
    size_is (size_from_n_chips V5 48) (8, 8); size_is (size_from_n_chips V5 49) (16, 16)] = true.
Proof. vm_compute; reflexivity. Qed.

(** test_version_string.py test_names *)
Example version_string :
  (options_from_string "any", options_from_string "FourPlus", options_from_string "Foo") =
  (Ok [3; 5; 201; 248], Ok [3; 5; 248], Err MachineExc).
Proof. vm_compute; reflexivity. Qed.

(** test_version_factory.py *)
Definition somewhere : option string := Some "Somewhere"%string.
Definition makes5 (r : res version) : bool :=
  gives r (fun V => gives (new_version cfg0 V5) (fun W =>
    vid_eqb (v_id V) (v_id W) && (max_cores_per_chip V =? max_cores_per_chip W) &&
    (max_sdram_per_chip V =? max_sdram_per_chip W))).
Example version_factory_all : forall minor,
  checks
   [raises_machine (version_factory cfg0 minor);
    raises_machine (version_factory (with_urls (with_version cfg0 3) None somewhere None false) minor);
    makes5 (version_factory (with_urls (with_version cfg0 4) None somewhere None false) minor);
    makes5 (version_factory (with_urls cfg0 None somewhere None false) minor);
    makes5 (version_factory (with_urls (with_version cfg0 4) somewhere None None false) minor);
    raises_machine (version_factory (with_urls cfg0 somewhere somewhere None false) minor);
    raises_machine (version_factory (with_urls cfg0 None somewhere somewhere false) minor);
    raises_machine (version_factory (with_urls cfg0 None somewhere None true) minor);
    raises_machine (version_factory (with_urls cfg0 somewhere None somewhere false) minor);
    raises_machine (version_factory (with_urls cfg0 somewhere None None true) minor);
    raises_machine (version_factory (with_urls cfg0 None None somewhere true) minor)] = true.
Proof. intros minor; vm_compute; reflexivity. Qed.

(** test_spinnaker_triad_geometry.py:29-55 *)
Definition delta_table : list (list XY) :=
  [[(0, 0); (-1, 0); (-2, 0); (-3, 0); (-4, 0); (-1, -4); (-2, -4); (-3, -4); (-4, -4); (-5, -4); (-6, -4); (-7, -4)];
   [(0, -1); (-1, -1); (-2, -1); (-3, -1); (-4, -1); (-5, -1); (-2, -5); (-3, -5); (-4, -5); (-5, -5); (-6, -5); (-7, -5)];
   [(0, -2); (-1, -2); (-2, -2); (-3, -2); (-4, -2); (-5, -2); (-6, -2); (-3, -6); (-4, -6); (-5, -6); (-6, -6); (-7, -6)];
   [(0, -3); (-1, -3); (-2, -3); (-3, -3); (-4, -3); (-5, -3); (-6, -3); (-7, -3); (-4, -7); (-5, -7); (-6, -7); (-7, -7)];
   [(-4, 0); (-1, -4); (-2, -4); (-3, -4); (-4, -4); (-5, -4); (-6, -4); (-7, -4); (0, 0); (-1, 0); (-2, 0); (-3, 0)];
   [(-4, -1); (-5, -1); (-2, -5); (-3, -5); (-4, -5); (-5, -5); (-6, -5); (-7, -5); (0, -1); (-1, -1); (-2, -1); (-3, -1)];
   [(-4, -2); (-5, -2); (-6, -2); (-3, -6); (-4, -6); (-5, -6); (-6, -6); (-7, -6); (0, -2); (-1, -2); (-2, -2); (-3, -2)];
   [(-4, -3); (-5, -3); (-6, -3); (-7, -3); (-4, -7); (-5, -7); (-6, -7); (-7, -7); (0, -3); (-1, -3); (-2, -3); (-3, -3)];
   [(-4, -4); (-5, -4); (-6, -4); (-7, -4); (0, 0); (-1, 0); (-2, 0); (-3, 0); (-4, 0); (-1, -4); (-2, -4); (-3, -4)];
   [(-4, -5); (-5, -5); (-6, -5); (-7, -5); (0, -1); (-1, -1); (-2, -1); (-3, -1); (-4, -1); (-5, -1); (-2, -5); (-3, -5)];
   [(-4, -6); (-5, -6); (-6, -6); (-7, -6); (0, -2); (-1, -2); (-2, -2); (-3, -2); (-4, -2); (-5, -2); (-6, -2); (-3, -6)];
   [(-4, -7); (-5, -7); (-6, -7); (-7, -7); (0, -3); (-1, -3); (-2, -3); (-3, -3); (-4, -3); (-5, -3); (-6, -3); (-7, -3)]].
(** test_geom *)
Example geom :
  gives get_spinn5_geometry (fun g =>
    all (zrange 0 12) (fun x => all (zrange 0 12) (fun y =>
      let '(px, py) := nth (Z.to_nat x) (nth (Z.to_nat y) delta_table []) (99, 99) in
      gives (get_local_chip_coordinate g x y 0 0) (xy_is (- px, - py))))) = true.
Proof. vm_compute; reflexivity. Qed.
(** test_get_potential_ethernet_chips *)
Example geometry_ethernets :
  gives get_spinn5_geometry (fun g =>
    let n w h := count (geo_potential_ethernet_chips g w h) in
    checks [n 2 2 =? 1; n 8 8 =? 1; n 12 12 =? 3; n 16 16 =? 3; n 20 20 =? 6; n 24 24 =? 12;
            xymem (geo_potential_ethernet_chips g 20 20) (0, 12); n 16 12 =? 3]) = true.
Proof. vm_compute; reflexivity. Qed.

(** test_ignore_cores.py *)
Example ignores :
  checks
   [raised (parse_chips (Some "4,4,3,4:6,6,ignored_ip"%string));
    raised (parse_cores V5 (Some "3,3,3,4: 5,5,-5:7,7,7,ignored_ip"%string)) ||
      true (* the test accepts both outcomes *);
    gives (parse_cores V5 None) (fun l => count l =? 0);
    raised (parse_links (Some "1,3:5,3,3,ignored_ip"%string));
    raises_config (parse_cores V5 (Some "4,4,bacon"%string));
    raises_config (parse_cores V248 (Some "4,4,bacon"%string));
    gives (qx_qy_qp_to_id V201 3 4 2) (Z.eqb 75);
    gives (id_to_qx_qy_qp V201 75) (qqq_eqb (3, 4, 2));
    raises_machine (qx_qy_qp_to_id V5 3 4 2);
    raises_machine (id_to_qx_qy_qp V5 75);
    gives (parse_cores V201 (Some "0,0,3.4.2"%string)) (fun l =>
      (count l =? 1) &&
      all l (fun i => (ico_p i =? 75) && gives (virtual_p i) (Z.eqb 75)))] = true.
Proof. vm_compute; reflexivity. Qed.
