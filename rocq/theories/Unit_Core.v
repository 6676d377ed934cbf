(** Conformance tests: unittests/test_chip.py, test_router.py, test_link.py,
    test_link_data.py, test_routing_entry.py, test_multicast_routing_entry.py,
    tag_tests/test_iptag.py, tag_tests/test_reverse_iptag.py, test_coresubset.py,
    test_coresubsets.py and test_frozencoresubsets.py.  Comparisons with an object
    of another class and pickling are left out, and so are CoreSubset's equality,
    hash and text, which are not modelled (DESIGN.md). *)
From Verif Require Import Unit_Base Model_Str Model_Text Model_Routing Model_Repr Model_Subsets.
Open Scope string_scope.
Open Scope list_scope.
Open Scope Z_scope.

Definition four_links : list link :=
  [mkLink 0 0 0 1 1; mkLink 0 1 1 1 0; mkLink 1 1 2 0 0; mkLink 1 0 3 0 1].
Definition link_is (a b : link) : bool :=
  (l_source_x a =? l_source_x b) && (l_source_y a =? l_source_y b) &&
  (l_source_link_id a =? l_source_link_id b) && (l_destination_x a =? l_destination_x b) &&
  (l_destination_y a =? l_destination_y b).
Definition some_link (o : option link) (l : link) : bool :=
  match o with Some a => link_is a l | None => false end.
Definition no_link (o : option link) : bool := match o with None => true | Some _ => false end.
Definition same_set (a b : list Z) : bool := forallb (zmem b) a && forallb (zmem a) b.

(** test_router.py test_creating_new_router *)
Example creating_new_router :
  gives (new_router four_links 1024) (fun r =>
    checks
     [router_len r =? 4;
      all (zrange 0 4) (fun i =>
        is_link r i && some_link (get_link r i) (nth (Z.to_nat i) four_links (mkLink 9 9 9 9 9)));
      zs_are (map fst (router_iter r)) [0; 1; 2; 3];
      zs_are (map (fun l => l_source_link_id (snd l)) (router_iter r)) [0; 1; 2; 3];
      r_entries r =? 1024; negb (is_link r (-1)); negb (is_link r 5); no_link (get_link r (-1));
      no_link (get_link r 5);
      xys_are (get_neighbouring_chips_coords r) [(1, 1); (1, 0); (0, 0); (0, 1)];
      String.eqb (router_str r)
       ("[Router: available_entries=1024, links=[" ++
        "[Link: source_x=0, source_y=0, source_link_id=0, destination_x=1, destination_y=1], " ++
        "[Link: source_x=0, source_y=1, source_link_id=1, destination_x=1, destination_y=0], " ++
        "[Link: source_x=1, source_y=1, source_link_id=2, destination_x=0, destination_y=0], " ++
        "[Link: source_x=1, source_y=0, source_link_id=3, destination_x=0, destination_y=1]]]")]) = true.
Proof. vm_compute; reflexivity. Qed.
(** test_creating_new_router_with_duplicate_links *)
Example duplicate_links : new_router [mkLink 0 0 0 0 1; mkLink 0 1 0 0 1] 1024 = Err AlreadyExists.
Proof. vm_compute; reflexivity. Qed.

(** test_chip.py.  A chip is a tuple subclass: its comparisons with tuples are those
    of [c_xy] *)
Example chip_tests :
  gives (new_router four_links 1024) (fun r =>
    let ip := Some "192.162.240.253" in
    let make x y ip := new_chip x y [0] (zrange 1 18) r 128 0 0 ip None None in
    let c := make 0 1 ip in
    checks
     [xy_is (c_xy c) (0, 1); c_x c =? 0; c_y c =? 1; c_sdram c =? 128;
      n_placable_processors c =? 17; n_processors c =? 18;
      String.eqb (chip_str c) "[Chip: x=0, y=1, ip_address=192.162.240.253 n_cores=18]";
      zs_are (c_tags c) [1; 2; 3; 4; 5; 6; 7]; is_processor_with_id c 3;
      count (nodup Z.eq_dec (all_processor_ids c)) =? n_processors c;
      count (nodup Z.eq_dec (c_placable c)) =? n_placable_processors c;
      same_set (c_scamp c ++ c_placable c) (all_processor_ids c);
      xy_is (c_xy (make 2 4 None)) (2, 4); xy_is (c_xy (make 0 0 ip)) (0, 0);
      negb (xy_is (c_xy (make 0 0 ip)) (0, 1));
      xys_are (map c_xy [make 2 4 None; make 0 0 ip; make 3 6 None]) [(2, 4); (0, 0); (3, 6)]])
  = true.
Proof. vm_compute; reflexivity. Qed.

(** test_link_data.py: the size of the dict with the keys ld, ld2, ld3 *)
Example link_data :
  checks
   [fpga_link_eqb (mkFpgaLink 1 2 3 4 5 "somehost") (mkFpgaLink 1 2 3 4 5 "somehost");
    negb (fpga_link_eqb (mkFpgaLink 1 2 3 4 5 "somehost") (mkFpgaLink 1 2 3 4 6 "somehost"));
    fl_fpga_id (mkFpgaLink 1 2 3 4 5 "somehost") =? 2;
    fl_link_id (mkFpgaLink 1 2 3 4 5 "somehost") =? 1;
    fl_x (mkFpgaLink 1 2 3 4 5 "somehost") =? 3; fl_y (mkFpgaLink 1 2 3 4 5 "somehost") =? 4;
    fl_link (mkFpgaLink 1 2 3 4 5 "somehost") =? 5;
    spin_link_eqb (mkSpinLink 2 3 4 5 "somehost") (mkSpinLink 2 3 4 5 "somehost");
    negb (spin_link_eqb (mkSpinLink 2 3 4 5 "somehost") (mkSpinLink 2 3 4 6 "somehost"));
    sl_id (mkSpinLink 2 3 4 5 "somehost") =? 2; sl_x (mkSpinLink 2 3 4 5 "somehost") =? 3;
    sl_y (mkSpinLink 2 3 4 5 "somehost") =? 4; sl_link (mkSpinLink 2 3 4 5 "somehost") =? 5] = true.
Proof. vm_compute; reflexivity. Qed.

Definition routes (ps ls : list Z) (incoming : option Z) : res entry :=
  new_entry (Some (ManyIds ps)) (Some (ManyIds ls)) None incoming None None.
Definition from_route (r : Z) : res entry := new_entry None None None None None (Some r).
Definition ids_are (e : entry) (ps ls : list Z) : bool :=
  same_set (processor_ids e) ps && same_set (link_ids e) ls.
(** test_routing_entry.py *)
Example routing_entry :
  checks
   [gives (routes (zrange 0 18) (zrange 0 6) None) (fun e =>
      ids_are e (zrange 0 18) (zrange 0 6) &&
      String.eqb (entry_repr e)
       ("{0, 1, 2, 3, 4, 5, 6, 7, 8, 9, 10, 11, 12, 13, 14, " ++
        "15, 16, 17}:{0, 1, 2, 3, 4, 5}"));
    gives (routes [] [4] (Some 1)) (fun e =>
      ids_are e [] [4] && String.eqb (entry_repr e) "{}:{4}(defaultable)");
    gives (routes [1; 3; 4; 16] [2; 3; 5] None) (fun e => spinnaker_route e =? 4196012);
    gives (from_route 4196012) (fun e => ids_are e [1; 3; 4; 16] [2; 3; 5]);
    gives (bind (routes (zrange 0 9) (zrange 0 3) None) (fun a =>
           bind (routes (zrange 9 18) (zrange 3 6) None) (fun b => entry_merge a b)))
      (fun e => ids_are e (zrange 0 18) (zrange 0 6));
    gives (routes [] [1] (Some 4)) (fun a => gives (routes [] [1] (Some 5)) (fun b =>
      gives (entry_merge a b) (fun e =>
        ids_are e [] [1] && negb (entry_eqb e a) &&
        negb (hash_int (entry_hash e) =? hash_int (entry_hash a)))))] = true.
Proof. vm_compute; reflexivity. Qed.

Definition mc (key mask : Z) (e : res entry) : res multicast :=
  bind e (fun e => new_multicast key mask e).
Definition mc_is (m : multicast) (key mask : Z) (ps ls : list Z) : bool :=
  (mc_key m =? key) && (mc_mask m =? mask) && same_set (mc_processor_ids m) ps &&
  same_set (mc_link_ids m) ls.
Definition bad_parameter {A} (r : res A) : bool :=
  match r with Err InvalidParameter => true | _ => false end.
(** test_multicast_routing_entry.py; the attributes of the exception of
    test_merger_with_invalid_parameter_key are not modelled *)
Example multicast_routing_entry :
  let low := routes (zrange 0 9) (zrange 0 3) None in
  let high := routes (zrange 9 18) (zrange 3 6) None in
  checks
   [gives (mc 1 1 (routes (zrange 0 18) (zrange 0 6) None)) (fun m =>
      mc_is m 1 1 (zrange 0 18) (zrange 0 6) &&
      String.eqb (mc_repr m)
       ("0x00000001:0x00000001:" ++
        "{0, 1, 2, 3, 4, 5, 6, 7, 8, 9, 10, 11, 12, 13, 14, 15, 16, 17}:" ++
        "{0, 1, 2, 3, 4, 5}"));
    gives (mc 1 1 (routes [] [2] (Some 5))) (fun m =>
      mc_is m 1 1 [] [2] && String.eqb (mc_repr m) "0x00000001:0x00000001:{}:{2}(defaultable)");
    bad_parameter (mc 1 2 (routes [] [] None));
    gives (mc 1 1 (routes [1; 3; 4; 16] [2; 3; 5] None)) (fun m => mc_route m =? 4196012);
    gives (mc 1 1 (from_route 4196012)) (fun m => mc_is m 1 1 [1; 3; 4; 16] [2; 3; 5]);
    gives (bind (mc 1 1 low) (fun a => bind (mc 1 1 high) (fun b => mc_merge a b)))
      (fun m => mc_is m 1 1 (zrange 0 18) (zrange 0 6));
    gives (mc 1 1 (routes [] [3] (Some 6))) (fun a => gives (mc 1 1 (routes [] [3] (Some 4))) (fun b =>
      mc_defaultable a && negb (mc_defaultable b) &&
      gives (mc_merge a b) (fun m => mc_is m 1 1 [] [3] && negb (mc_defaultable m))));
    gives (mc 1 1 low) (fun a => gives (mc 2 2 low) (fun b => bad_parameter (mc_merge a b)));
    gives (mc 0 2 low) (fun a => gives (mc 0 4 high) (fun b =>
      negb (mc_eqb a b) && bad_parameter (mc_merge a b)))] = true.
Proof. vm_compute; reflexivity. Qed.

(** test_iptag.py test_tag_rendering, test_in_dict; test_reverse_iptag.py
    test_tag_rendering (sdp_port is 1 by default) *)
Example tags :
  let tag1 := mkIPTag "" 0 1 "" false "DEFAULT" 0 0 in
  let tag2 := mkIPTag "" 0 1 "" false "FOO" 0 0 in
  checks
   [String.eqb (iptag_repr (mkIPTag "localhost" 3 4 "abc" true "DEFAULT" 1 2))
     ("IPTag(board_address=localhost, destination_x=1, destination_y=2, " ++
      "tag=3, port=4, ip_address=abc, strip_sdp=True, traffic_identifier=DEFAULT)");
    iptag_eqb tag1 tag1; negb (iptag_eqb tag1 tag2);
    String.eqb (reverse_iptag_repr (mkReverseIPTag (Some "somewhere.local") 2 3 4 5 6 1))
     ("ReverseIPTag(board_address=somewhere.local, tag=2, port=3, " ++
      "destination_x=4, destination_y=5, destination_p=6, sdp_port=1)")] = true.
Proof. vm_compute; reflexivity. Qed.

(** test_coresubset.py *)
Example coresubset :
  let '(h, r) := new_core_subset [] 0 0 [1; 2; 3] in
  let h3 := cs_add_processor h r 3 in
  let h4 := cs_add_processor h3 r 4 in
  checks [cs_len h r =? 3; cs_x (deref h r) =? 0; cs_y (deref h r) =? 0; cs_contains h r 2;
          cs_len h3 r =? 3; cs_len h4 r =? 4; zs_are (cs_ids (deref h4 r)) [1; 2; 3; 4]] = true.
Proof. vm_compute; reflexivity. Qed.

(** test_coresubsets.py test_coresubsets *)
Example coresubsets :
  let '(h, s) := new_subsets [] [] in
  let '(h1, s1) := s_add_processor h s 0 0 1 in
  let '(h2, r2) := new_core_subset h1 0 0 [1] in
  let '(h2, s2) := s_add_core_subset h2 s1 r2 in
  let '(h3, r3) := new_core_subset h2 1 0 [1; 2] in
  let '(h3, s3) := s_add_core_subset h3 s2 r3 in
  checks [s_len h s =? 0; s_len h1 s1 =? 1; s_len h2 s2 =? 1; s_len h3 s3 =? 3; s_is_chip s3 1 0;
          s_is_core h3 s3 0 0 1; negb (s_is_core h3 s3 2 0 1); negb (s_is_chip s3 3 1);
          negb (s_is_core h3 s3 0 0 14)] = true.
Proof. vm_compute; reflexivity. Qed.

(** The objects of a list of arguments of CoreSubset *)
Definition make_subsets (l : list (Z * Z * list Z)) (h : heap) : heap * list ref :=
  fold_left (fun hr a => let '(x, y, ps) := a in
               let '(h, r) := new_core_subset (fst hr) x y ps in (h, snd hr ++ [r])) l (h, []).
Definition five : list (Z * Z * list Z) :=
  [((0, 0), [1; 2; 3]); ((0, 0), [4; 5; 6]); ((0, 1), [1; 2; 3]); ((0, 0), [1; 2; 3]);
   ((0, 0), [1; 2; 3; 4])].
(** test_multiple, test_iter, test_values *)
Example coresubsets_multiple :
  let '(h, rs) := make_subsets five [] in
  let '(h, s) := new_subsets h rs in
  checks [s_contains_xy s (0, 1); s_contains_xyp h s (0, 0, 6); String.eqb (s_repr s) "(0, 0)(0, 1)";
          gives (s_getitem s (0, 1)) (fun r =>
            xy_is (cs_x (deref h r), cs_y (deref h r)) (0, 1) &&
            zs_are (cs_ids (deref h r)) [1; 2; 3]);
          all (s_values s) (fun r => cs_contains h r 3);
          (let '(h, r) := s_for_chip h s 1 0 in cs_len h r =? 0);
          count (s_values s) =? 2] = true.
Proof. vm_compute; reflexivity. Qed.
(** test_interest *)
Example coresubsets_intersect :
  let '(h, rs) := make_subsets [((0, 0), [1; 2; 3]); ((0, 1), [1; 2; 3]); ((1, 1), [1]);
                                ((2, 2), [1])] [] in
  let '(h, css1) := new_subsets h rs in
  let '(h, rs) := make_subsets [((0, 0), [2; 3; 5]); ((1, 0), [1; 2; 3]); ((1, 1), [9; 7; 1; 5]);
                                ((2, 2), [2])] h in
  let '(h, css2) := new_subsets h rs in
  let '(h, css3) := s_intersect h css1 css2 in
  checks [s_contains_xyp h css3 (0, 0, 2); s_contains_xyp h css3 (0, 0, 3);
          s_contains_xyp h css3 (1, 1, 1); s_len h css1 =? 8; s_len h css2 =? 11;
          s_len h css3 =? 3; String.eqb (s_repr css3) "(0, 0)(1, 1)"] = true.
Proof. vm_compute; reflexivity. Qed.
(** test_frozencoresubsets.py *)
Definition frozen_error (w : world) (o : op) : bool :=
  match snd (step w o) with Err RuntimeErr => true | _ => false end.
Example frozen :
  let w := fold_left (fun w o => fst (step w o))
             (map (fun a => let '(x, y, ps) := a in NewSubset x y ps) five ++
              [NewFrozen [0; 1; 2]%nat]) (mkWorld [] []) in
  match w_colls w with
  | [(Frozen, s)] =>
      let h := w_heap w in
      checks [s_contains_xy s (0, 1); s_contains_xyp h s (0, 0, 6);
              String.eqb (s_repr s) "(0, 0)(0, 1)";
              gives (s_getitem s (0, 1)) (fun r =>
                xy_is (cs_x (deref h r), cs_y (deref h r)) (0, 1) &&
                zs_are (cs_ids (deref h r)) [1; 2; 3]);
              frozen_error w (AddSubset 0%nat 3%nat); frozen_error w (AddSubsets 0%nat [3; 4]%nat);
              frozen_error w (AddProcessor 0%nat 1 2 3)]
  | _ => false
  end = true.
Proof. vm_compute; reflexivity. Qed.
