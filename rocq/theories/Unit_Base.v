(** Conformance tests, shared part.

    The files Unit_*.v transcribe the assertions of /repo/unittests, the only
    record of how the code really behaves that can be had without running it,
    and evaluate them on the model.  They are tests of the fidelity of the
    model on literals, not claims: nothing of MANIFEST.json rests on them. *)
From Coq Require Export String.
From Verif Require Export Model_Py Model_Version Model_Core Model_Wrap Model_Machine Model_Virtual.
Open Scope list_scope.
Open Scope Z_scope.

(** spinn_machine.cfg:8-52, the values unittest_setup leaves *)
Definition cfg0 : config :=
  mkConfig None None None None None None false None None None None None None false.
Definition with_version (c : config) (n : Z) : config :=
  mkConfig (Some n) (cfg_versions c) (cfg_width c) (cfg_height c) (cfg_max_sdram c)
    (cfg_max_machine_core c) (cfg_repair_machine c) (cfg_down_cores c) (cfg_down_chips c)
    (cfg_down_links c) (cfg_remote_spinnaker_url c) (cfg_spalloc_server c)
    (cfg_machine_name c) (cfg_virtual_board c).
Definition with_versions (c : config) (s : string) : config :=
  mkConfig (cfg_version c) (Some s) (cfg_width c) (cfg_height c) (cfg_max_sdram c)
    (cfg_max_machine_core c) (cfg_repair_machine c) (cfg_down_cores c) (cfg_down_chips c)
    (cfg_down_links c) (cfg_remote_spinnaker_url c) (cfg_spalloc_server c)
    (cfg_machine_name c) (cfg_virtual_board c).
Definition with_size (c : config) (w h : option Z) : config :=
  mkConfig (cfg_version c) (cfg_versions c) w h (cfg_max_sdram c)
    (cfg_max_machine_core c) (cfg_repair_machine c) (cfg_down_cores c) (cfg_down_chips c)
    (cfg_down_links c) (cfg_remote_spinnaker_url c) (cfg_spalloc_server c)
    (cfg_machine_name c) (cfg_virtual_board c).
Definition with_max (c : config) (sdram cores : option Z) : config :=
  mkConfig (cfg_version c) (cfg_versions c) (cfg_width c) (cfg_height c) sdram
    cores (cfg_repair_machine c) (cfg_down_cores c) (cfg_down_chips c)
    (cfg_down_links c) (cfg_remote_spinnaker_url c) (cfg_spalloc_server c)
    (cfg_machine_name c) (cfg_virtual_board c).
Definition with_repair (c : config) (b : bool) : config :=
  mkConfig (cfg_version c) (cfg_versions c) (cfg_width c) (cfg_height c) (cfg_max_sdram c)
    (cfg_max_machine_core c) b (cfg_down_cores c) (cfg_down_chips c)
    (cfg_down_links c) (cfg_remote_spinnaker_url c) (cfg_spalloc_server c)
    (cfg_machine_name c) (cfg_virtual_board c).
Definition with_down (c : config) (cores chips links : option string) : config :=
  mkConfig (cfg_version c) (cfg_versions c) (cfg_width c) (cfg_height c) (cfg_max_sdram c)
    (cfg_max_machine_core c) (cfg_repair_machine c) cores chips
    links (cfg_remote_spinnaker_url c) (cfg_spalloc_server c)
    (cfg_machine_name c) (cfg_virtual_board c).
Definition with_urls (c : config) (remote spalloc name : option string) (virtual : bool)
  : config :=
  mkConfig (cfg_version c) (cfg_versions c) (cfg_width c) (cfg_height c) (cfg_max_sdram c)
    (cfg_max_machine_core c) (cfg_repair_machine c) (cfg_down_cores c) (cfg_down_chips c)
    (cfg_down_links c) remote spalloc name virtual.

(** assertRaises of a class: the exceptions it catches.  SpinnMachineException
    is the parent of the first three, exceptions.py:18-57 *)
Definition raises_machine {A} (r : res A) : bool :=
  match r with
  | Err AlreadyExists => true
  | Err InvalidParameter => true
  | Err MachineExc => true
  | _ => false
  end.
Definition raises_key {A} (r : res A) : bool :=
  match r with Err KeyError => true | _ => false end.
Definition raises_config {A} (r : res A) : bool :=
  match r with Err ConfigExc => true | _ => false end.
Definition fine {A} (r : res A) : bool := is_ok r.
Definition raised {A} (r : res A) : bool := negb (is_ok r).
(** an assertion about the value returned *)
Definition gives {A} (r : res A) (p : A -> bool) : bool :=
  match r with Ok a => p a | Err _ => false end.
Definition all {A} (l : list A) (p : A -> bool) : bool := forallb p l.
Definition count {A} (l : list A) : Z := Z.of_nat (List.length l).
Definition xy_is (a b : XY) : bool := xy_eqb a b.
Fixpoint xys_are (a b : list XY) : bool :=
  match a, b with
  | [], [] => true
  | p :: a, q :: b => xy_eqb p q && xys_are a b
  | _, _ => false
  end.
Fixpoint zs_are (a b : list Z) : bool :=
  match a, b with
  | [], [] => true
  | p :: a, q :: b => (p =? q) && zs_are a b
  | _, _ => false
  end.
Fixpoint distinct (l : list XY) : bool :=
  match l with [] => true | p :: l => negb (xymem l p) && distinct l end.
Definition checks (l : list bool) : bool := forallb (fun b => b) l.
(** assertSetEqual / assertCountEqual on coordinates without repetition *)
Definition same_xys (a b : list XY) : bool :=
  (count a =? count b) && forallb (xymem b) a && forallb (xymem a) b.
(** the version of a test that sets the version *)
Definition on_version {A} (c : config) (v : vid) (f : version -> res A) : res A :=
  bind (new_version c v) f.
