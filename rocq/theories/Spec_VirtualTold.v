(** What can be wrong when a virtual machine is asked for, in the order in which it is noticed. *)
From Coq Require Import String Ascii.
From Verif Require Import Model_Py Model_Wrap Model_Version Model_Core Model_Machine Model_Ignore Model_Virtual Model_Text
  Spec_Version Spec_Boards Spec_Machine Spec_Told Spec_Str Spec_ItemText Spec_Down Spec_JsonTold.
Open Scope string_scope.
Open Scope list_scope.
Open Scope Z_scope.

(** A list of the cores that the text names, in any order and each once: the set that
    IgnoreCore.parse_string makes of the text, as it is iterated over *)
Definition iterates (v : vid) (text : option string) (seen : list ignore_core) : Prop :=
  NoDup seen /\ forall cores, says_cores v text cores -> forall i, In i seen <-> In i cores.

Section Asked.
Variable c : config.
Variable V : version.
Variables w h : Z.

(** The version has no machine of this size. *)
Definition bad_size : demand := fun e t => e = MachineExc /\ size_wrong (v_id V) w h t.
(** The first wrong item of a text of the configuration has this fault. *)
Definition bad_items (text : option string) (fault : string -> exn -> string -> Prop) : demand := fun e t =>
  exists s, text = Some s /\ first_fault fault s e t.
(** A physical core beyond 17, named for a chip without an address *)
Definition bad_core_id : demand := fun e t =>
  exists cores i, says_cores (v_id V) (cfg_down_cores c) cores /\ In i cores /\ ico_ip i = None /\ ico_p i < -17 /\
    e = KeyError /\ t = dec (- ico_p i).
(** What is wrong with the machine that virtual_machine makes when it is not asked to validate it *)
Definition no_root : demand := fun e t =>
  exists m, virtual_machine c V w h false = Ok m /\ get_chip_at m 0 0 = None /\
    e = MachineExc /\ t = "no ethernet chip at 0, 0 found".
Definition sound_chip (m : machine) (ch : chip) : Prop :=
  fewest_cores (v_id V) <= n_processors ch /\ exists e, get_chip_at m (c_eth_x ch) (c_eth_y ch) = Some e.
Definition unsound_chip : demand := fun e t =>
  exists m before ch after, virtual_machine c V w h false = Ok m /\ chips m = before ++ ch :: after /\
    (forall b, In b before -> sound_chip m b) /\ e = MachineExc /\
    (n_processors ch < fewest_cores (v_id V) /\
     t = cat [m_where_is_xy m (c_x ch) (c_y ch); " has too few cores found "; dec (n_processors ch)] \/
     fewest_cores (v_id V) <= n_processors ch /\ get_chip_at m (c_eth_x ch) (c_eth_y ch) = None /\
     t = cat [m_where_is_xy m (c_x ch) (c_y ch); " has an invalid ethernet chip"]).

Definition virtual_demands (check : bool) : list demand :=
  [bad_size; bad_items (cfg_down_chips c) chip_fault; bad_items (cfg_down_cores c) (core_fault (v_id V));
   bad_core_id; bad_items (cfg_down_links c) link_fault] ++
  (if check then [no_root; unsound_chip] else []).
End Asked.
