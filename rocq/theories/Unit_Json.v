(** Conformance tests: unittests/test_json_machine.py.  The machine is written to a file
    and read back. *)
From Verif Require Import Unit_Base Unit_Virtual Unit_Using Model_Str Model_Text Model_Summary
  Model_Json Model_JsonText.
Open Scope string_scope.
Open Scope list_scope.
Open Scope Z_scope.

(** to_json_path(jpath); machine_from_json(jpath) *)
Definition read_back (v : vid) (m : machine) : option (res machine) :=
  match to_json_path [] m "tmp.json" with
  | (fs, Ok _) => machine_from_json_path v fs "tmp.json"
  | (_, Err e) => Some (Err e)
  end.
(** s.replace(word, "") *)
Fixpoint without (word s : string) (fuel : nat) : string :=
  match fuel with
  | O => s
  | S k =>
      match after word s with
      | Some rest => without word rest k
      | None => match s with String a rest => String a (without word rest k) | EmptyString => s end
      end
  end.
Definition dropped (word s : string) : string := without word s (S (String.length s)).
(** for vchip, jchip in zip(vm, jm): the items of a machine are pairs *)
Fixpoint same_chips (a b : list chip) : bool :=
  match a, b with
  | c :: a, d :: b =>
      String.eqb (chip_str c) (chip_str d) && xy_is (c_xy c) (c_xy d) && same_chips a b
  | _, _ => true
  end.
Definition same_text (m j : machine) : bool :=
  String.eqb (dropped "Virtual" (machine_str m)) (dropped "Json" (machine_str j)) &&
  same_chips (chips m) (chips j).

(** test_json_version_3, test_json_version_5, test_json_version_201 *)
Example json_versions :
  all [(V3, 2); (V5, 8); (V201, 1); (V248, 8)] (fun t =>
    gives (vm (fst t) (snd t) (snd t)) (fun m => then_gives (read_back (fst t) m) (same_text m))) = true.
Proof. vm_compute; reflexivity. Qed.

(** test_json_hole *)
Example json_hole :
  all BIG (fun v => gives (by_min_size_cfg (with_down cfg0 None (Some "3,3") None) v 5 5) (fun m =>
    then_gives (read_back v m) (same_text m))) = true.
Proof. vm_compute; reflexivity. Qed.

(** The attributes a test sets on a chip *)
Definition on_chip (m : machine) (p : XY) (f : chip -> chip) : machine :=
  set_chips m (map (fun e => if xy_eqb (fst e) p then (fst e, f (snd e)) else e) (m_chips m)).
Definition fewer_entries (c : chip) : chip :=
  mkChip (c_x c) (c_y c) (c_scamp c) (c_placable c)
    (mkRouter (r_links (c_router c)) (r_entries (c_router c) - 20)) (c_sdram c) (c_eth_x c) (c_eth_y c)
    (c_ip c) (c_tags c) (c_parent c).
Definition sdram_tags (c : chip) : chip :=
  mkChip (c_x c) (c_y c) (c_scamp c) (c_placable c) (c_router c) 50000000 (c_eth_x c) (c_eth_y c)
    (c_ip c) [2; 3] (c_parent c).
Definition two_monitors (c : chip) : chip :=
  mkChip (c_x c) (c_y c) [0; 1] [2; 3; 4; 5; 6; 7; 8; 9] (c_router c) (c_sdram c) (c_eth_x c) (c_eth_y c)
    (c_ip c) (c_tags c) (c_parent c).

(** test_exceptions *)
Example json_exceptions :
  all FOUR_PLUS (fun v => gives (by_boards_cfg cfg0 v 1 true) (fun m =>
    let m := on_chip (on_chip m (0, 1) fewer_entries) (1, 0) sdram_tags in
    then_gives (read_back v m) (fun j =>
      same_chips (chips m) (chips j) && gives (getitem j (1, 0)) (fun c => zs_are (c_tags c) [2; 3])))) = true.
Proof. vm_compute; reflexivity. Qed.

(** test_monitor_exceptions *)
Example json_monitors :
  all FOUR_PLUS (fun v => gives (by_boards_cfg cfg0 v 1 true) (fun m =>
    match find (fun c => match c_ip c with None => true | Some _ => false end) (chips m) with
    | None => false
    | Some c =>
        match read_back v (on_chip m (c_xy c) two_monitors) with
        | Some (Err NotImplementedErr) => true
        | _ => false
        end
    end)) = true.
Proof. vm_compute; reflexivity. Qed.

(** test_ethernet_exceptions *)
Example json_ethernet :
  all BIG (fun v => gives (by_boards_cfg cfg0 v 2 true) (fun m =>
    match m_eth m with
    | _ :: e :: _ =>
        let m := on_chip m (c_xy e) (fun c => sdram_tags (fewer_entries c)) in
        then_gives (read_back v m) (fun j =>
          same_chips (chips m) (chips j) &&
          match m_eth j with _ :: e' :: _ => zs_are (c_tags e') [2; 3] | _ => false end)
    | _ => false
    end)) = true.
Proof. vm_compute; reflexivity. Qed.
