(** Words for C103: what has been done to the members of VersionStrings *)
From Verif Require Import Model_Py Model_Version Model_Factory Spec_Factory Model_Groups.

(** The list last put into the options of the member [i], or what it had at import *)
Definition list_last_put (evs : list group_event) (i : nat) (l : list Z) : Prop :=
  (exists before rest, evs = before ++ ChangeOptions i l :: rest /\ forall l', ~ In (ChangeOptions i l') rest) \/
  ((forall l', ~ In (ChangeOptions i l') evs) /\ exists text vs, nth_error named_groups i = Some (text, vs) /\ l = map v_number vs).

(** The text last set, or that at import but for case *)
Definition text_last_set (evs : list group_event) (i : nat) (s : string) : Prop :=
  (exists before rest, evs = before ++ SetText i s :: rest /\ forall s', ~ In (SetText i s') rest) \/
  ((forall s', ~ In (SetText i s') evs) /\ exists text vs, nth_error named_groups i = Some (text, vs) /\ loosely s text).

(** Nothing is done to the members. *)
Definition left_alone (evs : list group_event) : Prop :=
  forall e, In e evs -> exists c minor, e = RunFactory c minor.

(** The cfg with the version [n] instead of a group of versions *)
Definition with_version (c : config) (n : Z) : config :=
  mkConfig (Some n) None (cfg_width c) (cfg_height c) (cfg_max_sdram c) (cfg_max_machine_core c)
    (cfg_repair_machine c) (cfg_down_cores c) (cfg_down_chips c) (cfg_down_links c)
    (cfg_remote_spinnaker_url c) (cfg_spalloc_server c) (cfg_machine_name c) (cfg_virtual_board c).
