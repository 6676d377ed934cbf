(** Down items that describe what a machine lacks. *)
From Coq Require Import String.
From Verif Require Import Model_Py Model_Wrap Model_Version Model_Core Model_Machine Model_Str Model_Ignore
  Model_Virtual Spec_Str.
Open Scope string_scope.
Open Scope list_scope.
Open Scope Z_scope.

(** The same machine with another origin: every other field is kept. *)
Definition with_origin (o : string) (m : machine) : machine :=
  mkMachine (m_kind m) (m_width m) (m_height m) (m_ccm m) (m_eth m) (m_spin m) (m_fpga m) (m_boot m)
    (m_chips m) o (m_cores_counter m) (m_links_counter m) (m_entries_counter m) (m_sdram_counter m).

(** The cfg lists the chips that are not on the machine, and the links that the chips of
    the machine do not have. *)
Definition lists_missing (c : config) (m : machine) : Prop :=
  exists dch dl, parse_chips (cfg_down_chips c) = Ok dch /\ parse_links (cfg_down_links c) = Ok dl /\
    (forall x y, 0 <= x < m_width m -> 0 <= y < m_height m ->
       In (mkIgnoreChip x y None) dch <-> is_chip_at m x y = false) /\
    (forall x y l, is_chip_at m x y = true -> 0 <= l < 6 ->
       In (mkIgnoreLink x y l None) dl <-> is_link_at m x y l = false).

(** Such a cfg as text: the numbers in decimal, separated by commas, the items by colons. *)
Definition all_xys (m : machine) : list XY :=
  flat_map (fun x => map (fun y => (x, y)) (zrange 0 (m_height m))) (zrange 0 (m_width m)).
Definition missing_chips (m : machine) : list string :=
  map (fun p => dec (fst p) ++ "," ++ dec (snd p))%string
    (filter (fun p => negb (is_chip_at m (fst p) (snd p))) (all_xys m)).
Definition missing_links (m : machine) : list string :=
  map (fun t => dec (fst (fst t)) ++ "," ++ dec (snd (fst t)) ++ "," ++ dec (snd t))%string
    (filter (fun t => negb (is_link_at m (fst (fst t)) (snd (fst t)) (snd t)))
       (flat_map (fun p => map (fun l => (p, l)) (zrange 0 6))
          (filter (fun p => is_chip_at m (fst p) (snd p)) (all_xys m)))).
Definition items_text (items : list string) : option string :=
  match items with [] => None | _ => Some (joined items) end.
Definition missing_cfg (c : config) (m : machine) : config :=
  mkConfig (cfg_version c) (cfg_versions c) (cfg_width c) (cfg_height c) (cfg_max_sdram c)
    (cfg_max_machine_core c) (cfg_repair_machine c) (cfg_down_cores c)
    (items_text (missing_chips m)) (items_text (missing_links m))
    (cfg_remote_spinnaker_url c) (cfg_spalloc_server c) (cfg_machine_name c) (cfg_virtual_board c).
