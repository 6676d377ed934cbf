(** Conformance tests: unittests/test_using_virtual_machine.py, with the functions of
    unittests/geometry.py it compares with.  A test for versions of a kind is done for
    every version of the kind. *)
From Verif Require Import Unit_Base Unit_Virtual Model_Str Model_Repair.
Open Scope string_scope.
Open Scope list_scope.
Open Scope Z_scope.

Definition ANY : list vid := [V3; V5; V201; V248].
Definition FOUR_PLUS : list vid := [V3; V5; V248].
Definition EIGHT_BY_EIGHT : list vid := [V5; V248].
Definition by_boards_cfg (c : config) (v : vid) (n : Z) (check : bool) : res machine :=
  on_version c v (fun V => virtual_machine_by_boards c V n check).
Definition by_min_size_cfg (c : config) (v : vid) (w h : Z) : res machine :=
  on_version c v (fun V => virtual_machine_by_min_size c V w h true).

(** test_new_vm_with_max_cores *)
Example max_cores :
  all ANY (fun v =>
    gives (new_version cfg0 v) (fun V =>
      let n := max_cores_per_chip V - 5 in
      let scamp := n_scamp_cores v in
      gives (by_boards_cfg (with_max cfg0 None (Some n)) v 1 true) (fun m =>
        all (chips m) (fun c =>
          checks [n_processors c =? n; n_placable_processors c =? n - scamp;
                  count (c_scamp c) =? scamp; count (c_placable c) =? n - scamp])))) = true.
Proof. vm_compute; reflexivity. Qed.

(** test_iter_chips *)
Example iter_chips :
  all ANY (fun v => gives (by_boards_cfg cfg0 v 1 true) (fun m =>
    (n_chips m =? n_chips_per_board v) && (count (chips m) =? n_chips_per_board v))) = true.
Proof. vm_compute; reflexivity. Qed.

(** test_down_chip *)
Example down_chip :
  all FOUR_PLUS (fun v => gives (by_boards_cfg (with_down cfg0 None (Some "1,1") None) v 1 true)
    (fun m => checks [n_chips m =? n_chips_per_board v - 1;
                      count (chip_coordinates m) =? n_chips_per_board v - 1;
                      negb (xymem (chip_coordinates m) (1, 1))])) = true.
Proof. vm_compute; reflexivity. Qed.

(** geometry.py shortest_mesh_path_length on (x, y, 0), shortest_torus_path_length on
    (x, y, 0) and minimise_xyz *)
Definition mesh_length (s d : XY) : Z :=
  let x := fst d - fst s in
  let y := snd d - snd s in
  Z.max x (Z.max y 0) - Z.min x (Z.min y 0).
Definition torus_length (s d : XY) (w h : Z) : Z :=
  let x := (fst d - fst s) mod w in
  let y := (snd d - snd s) mod h in
  let length := Z.max x y in
  let length := if w - x + y <? length then w - x + y else length in
  let length := if x + h - y <? length then x + h - y else length in
  let wrap_xy := Z.max (w - x) (h - y) in
  if wrap_xy <? length then wrap_xy else length.
Definition minimise_xyz (x y z : Z) : Z * Z * Z :=
  let m := Z.max (Z.min x y) (Z.min (Z.max x y) z) in (x - m, y - m, z - m).

(** The loop of the four tests *)
Definition paths (m : machine) (rig : XY -> XY -> Z) (width height : Z) : bool :=
  let k := m_kind m in let w := m_width m in let h := m_height m in
  all (chip_coordinates m) (fun s =>
    all (chip_coordinates m) (fun d =>
      let '(x, y, z) := get_vector k w h s d in
      let n := get_vector_length k w h s d in
      checks [rig s d =? n; n =? Z.abs x + Z.abs y + Z.abs z;
              xy_is d ((fst s + x - z) mod width, (snd s + y - z) mod height)])).

(** test_nowrap_shortest_path *)
Example nowrap_path :
  all EIGHT_BY_EIGHT (fun v => gives (vm v 16 28) (fun m => paths m mesh_length 1000000 1000000)) = true.
Proof. vm_compute; reflexivity. Qed.
(** test_fullwrap_shortest_path *)
Example fullwrap_path :
  all EIGHT_BY_EIGHT (fun v => gives (vm v 12 24) (fun m =>
    paths m (fun s d => torus_length s d 12 24) 12 24)) = true.
Proof. vm_compute; reflexivity. Qed.
(** test_hoizontal_wrap_shortest_path *)
Example hwrap_path :
  all EIGHT_BY_EIGHT (fun v => gives (vm_cfg cfg0 v 12 16 false) (fun m =>
    paths m (fun s d =>
      let fake := if fst s <? fst d then (fst d - 12, snd d) else (fst d + 12, snd d) in
      Z.min (mesh_length s d) (mesh_length s fake)) 12 16)) = true.
Proof. vm_compute; reflexivity. Qed.
(** test_vertical_wrap_shortest_path *)
Example vwrap_path :
  all EIGHT_BY_EIGHT (fun v => gives (vm_cfg cfg0 v 16 12 false) (fun m =>
    paths m (fun s d =>
      let fake := if snd s <? snd d then (fst d, snd d - 12) else (fst d, snd d + 12) in
      Z.min (mesh_length s d) (mesh_length s fake)) 16 12)) = true.
Proof. vm_compute; reflexivity. Qed.

(** test_minimize *)
Example minimize :
  all (zrange (-3) 3) (fun x => all (zrange (-3) 3) (fun y =>
    let '(a, b, c) := minimise_xyz x y 0 in
    let '(a', b', c') := minimize_vector x y in
    (a =? a') && (b =? b') && (c =? c'))) = true.
Proof. vm_compute; reflexivity. Qed.

(** del machine._chips[x, y].router._links[link]: nothing else of the machine changes *)
Definition set_chips (m : machine) (cs : dict XY chip) : machine :=
  mkMachine (m_kind m) (m_width m) (m_height m) (m_ccm m)
    (map (fun c => match dget xy_eqb cs (c_xy c) with Some c' => c' | None => c end) (m_eth m))
    (m_spin m) (m_fpga m) (m_boot m) cs (m_origin m) (m_cores_counter m) (m_links_counter m)
    (m_entries_counter m) (m_sdram_counter m).
Definition chip_without (c : chip) (link : Z) : chip :=
  mkChip (c_x c) (c_y c) (c_scamp c) (c_placable c)
    (mkRouter (filter (fun e => negb (fst e =? link)) (r_links (c_router c))) (r_entries (c_router c)))
    (c_sdram c) (c_eth_x c) (c_eth_y c) (c_ip c) (c_tags c) (c_parent c).
Definition del_link (m : machine) (l : Z * Z * Z) : machine :=
  let '(x, y, link) := l in
  set_chips m (map (fun e => if xy_eqb (fst e) (x, y) then (fst e, chip_without (snd e) link) else e)
                 (m_chips m)).
Definition del_links (m : machine) (l : list (Z * Z * Z)) : machine := fold_left del_link l m.

(** test_unreachable_incoming_chips *)
Example unreachable_incoming :
  all BIG (fun v => gives (by_min_size_cfg cfg0 v 6 6) (fun m =>
    xys_are (unreachable_incoming_chips
      (del_links m [(2, 2, 1); (2, 3, 0); (3, 4, 5); (4, 4, 4); (4, 3, 3); (3, 2, 2)]))
      [(3, 3)])) = true.
Proof. vm_compute; reflexivity. Qed.
(** test_unreachable_outgoing_chips *)
Example unreachable_outgoing :
  all BIG (fun v => gives (by_min_size_cfg cfg0 v 6 6) (fun m =>
    xys_are (unreachable_outgoing_chips (del_links m (map (fun l => (3, 3, l)) (zrange 0 6))))
      [(3, 3)])) = true.
Proof. vm_compute; reflexivity. Qed.

(** test_unreachable_incoming_local_chips, test_unreachable_outgoing_local_chips *)
Definition three_down : config := with_down cfg0 None (Some "8,6:9,7:9,8") None.
Example unreachable_local :
  all EIGHT_BY_EIGHT (fun v => gives (vm_cfg three_down v 16 16 true) (fun m =>
    checks [xys_are (unreachable_incoming_local_chips m) [(8, 7)];
            xys_are (unreachable_outgoing_local_chips m) [(8, 7)]])) = true.
Proof. vm_compute; reflexivity. Qed.

(** machine_repair: its recursive calls, at most [fuel] *)
Fixpoint repaired (fuel : nat) (repair : bool) (v : vid) (m : machine) (removed : list XY)
  : option (res machine) :=
  match repair_step repair v m removed with
  | Err e => Some (Err e)
  | Ok None => Some (Ok m)
  | Ok (Some n) => match fuel with O => None | S k => repaired k repair v n [] end
  end.
Lemma repaired_repairs fuel : forall repair v m removed r,
  repaired fuel repair v m removed = Some r -> repairs repair v m removed r.
Proof.
  induction fuel as [|k IH]; intros repair v m removed r; cbn;
    destruct (repair_step repair v m removed) as [[n|]|e] eqn:E; intros H; try discriminate H;
    injection H as <- || idtac.
  - constructor; auto.
  - constructor; auto.
  - eapply repairs_again; eauto.
  - constructor; auto.
  - constructor; auto.
Qed.
Definition mended (repair : bool) (v : vid) (m : machine) (removed : list XY) : option (res machine) :=
  repaired 10 repair v m removed.
Definition then_raises (r : option (res machine)) : bool :=
  match r with Some r => raises_machine r | None => false end.
Definition then_gives (r : option (res machine)) (p : machine -> bool) : bool :=
  match r with Some r => gives r p | None => false end.

(** test_repair_with_local_orphan *)
Example repair_orphan :
  all EIGHT_BY_EIGHT (fun v => gives (vm_cfg three_down v 16 16 true) (fun m =>
    checks [then_raises (mended false v m []); is_chip_at m 8 7;
            then_gives (mended true v m []) (fun n => negb (is_chip_at n 8 7))])) = true.
Proof. vm_compute; reflexivity. Qed.
(** test_repair_with_one_way_links_different_boards *)
Example repair_one_way :
  all EIGHT_BY_EIGHT (fun v => gives (vm_cfg cfg0 v 12 12 true) (fun m =>
    let m := del_links m [(7, 7, 0); (7, 3, 1); (6, 7, 2); (4, 7, 3); (8, 6, 4); (8, 4, 5)] in
    checks [then_raises (mended false v m []); then_gives (mended true v m []) (fun _ => true)])) = true.
Proof. vm_compute; reflexivity. Qed.
(** test_oneway_link_no_repair *)
Example one_way_no_repair :
  all EIGHT_BY_EIGHT (fun v => gives (vm_cfg cfg0 v 8 8 true) (fun m =>
    let m := del_links m [(3, 6, 0); (5, 4, 1); (3, 2, 5); (1, 3, 3)] in
    checks [then_raises (mended false v m []); then_gives (mended true v m []) (fun _ => true)])) = true.
Proof. vm_compute; reflexivity. Qed.
(** test_removed_chip_repair *)
Example removed_chip :
  all BIG (fun v => gives (by_boards_cfg cfg0 v 1 true) (fun m =>
    let m := set_chips m (filter (fun e => negb (xy_eqb (fst e) (3, 3))) (m_chips m)) in
    then_gives (mended false v m [(3, 3)]) (fun n => negb (is_link_at n 2 2 1)))) = true.
Proof. vm_compute; reflexivity. Qed.

(** test_ignores *)
Example ignores :
  all BIG (fun v =>
    gives (by_min_size_cfg (with_down cfg0 (Some "1,1,1:3,3,3: 5,5,-5:7,7,7,ignored_ip:0,0,5-10")
             (Some "2,2:4,4:6,6,ignored_ip") (Some "1,3,3:3,5,3:5,3,3,ignored_ip")) v 8 8)
    (fun m =>
      let core p i := gives (getitem m p) (fun c => is_processor_with_id c i) in
      let no_core p i := gives (getitem m p) (fun c => negb (is_processor_with_id c i)) in
      checks [negb (is_chip_at m 4 4); negb (is_chip_at m 2 2); is_chip_at m 6 6; is_chip_at m 0 0;
              no_core (3, 3) 3; no_core (5, 5) 6; core (7, 7) 6; no_core (1, 1) 1;
              gives (getitem m (1, 3)) (fun c => negb (is_link (c_router c) 3));
              gives (getitem m (3, 5)) (fun c => negb (is_link (c_router c) 3));
              gives (getitem m (5, 3)) (fun c => is_link (c_router c) 3);
              all (zrange 0 5) (core (0, 0)); all (zrange 5 11) (no_core (0, 0));
              all (zrange 12 18) (core (0, 0))])) = true.
Proof. vm_compute; reflexivity. Qed.
