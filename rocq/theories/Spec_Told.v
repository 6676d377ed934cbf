(** Why version_factory refuses a configuration, in words, and what it logs. *)
From Coq Require Import String Ascii.
From Verif Require Import Model_Py Model_Version Model_Str Model_Factory Model_Virtual Model_Text Model_Repr
  Model_Identity Model_Told Spec_Board Spec_Version Spec_Factory.
Open Scope string_scope.
Open Scope list_scope.
Open Scope Z_scope.

(** What is left of a call when nobody reads the texts *)
Definition without_texts {A} (r : told A) : res A :=
  match snd r with inl a => Ok a | inr (e, _) => Err e end.

Definition given {A} (o : option A) : Prop := o <> None.

(** The settings version and versions ask for the number [n]: the number itself, or the member
    of the group that the version of Python picks. *)
Definition asks (c : config) (minor n : Z) : Prop :=
  (cfg_version c = Some n /\ cfg_versions c = None) \/
  (exists s options, cfg_version c = None /\ cfg_versions c = Some s /\ group_named s options /\
     nth_error options (Z.to_nat (minor mod Z.of_nat (List.length options))) = Some n).
(** A server is given; every server has boards of version 5. *)
Definition server (c : config) : Prop := given (cfg_spalloc_server c) \/ given (cfg_remote_spinnaker_url c).
Definition size (c : config) (w h : Z) : Prop := cfg_width c = Some w /\ cfg_height c = Some h.
(** The version that a size is taken for. *)
Definition taken_for (w h : Z) (v : vid) : Prop :=
  match v with
  | V3 => w = 2 /\ h = 2
  | V201 => w = 1 /\ h = 1
  | V5 => ~ (w = 2 /\ h = 2) /\ ~ (w = 1 /\ h = 1)
  | V248 => False
  end.

(** What is wrong with a size for a version. *)
Inductive size_wrong (v : vid) (w h : Z) : string -> Prop :=
| wrong_width : w <= 0 \/ (0 < h /\ (v = V3 /\ w <> 2 \/ v = V201 /\ w <> 1)) ->
    size_wrong v w h (cat ["Unexpected width="; dec w])
| wrong_height : 0 < w -> h <= 0 \/ (v = V3 /\ w = 2 /\ h <> 2) \/ (v = V201 /\ w = 1 /\ h <> 1) ->
    size_wrong v w h (cat ["Unexpected height="; dec h])
| wrong_board : v = V5 \/ v = V248 -> 0 < w -> 0 < h -> w <= 8 \/ h <= 8 -> ~ (w = 8 /\ h = 8) ->
    size_wrong v w h (cat ["width="; dec w; " and height="; dec h; " not supported"])
| wrong_columns : v = V5 \/ v = V248 -> 8 < w -> 8 < h -> ~ (4 | w) ->
    size_wrong v w h (cat ["width="; dec w; " must be a multiple of 12 or a multiple of 12 plus 4"])
| wrong_rows : v = V5 \/ v = V248 -> 8 < w -> 8 < h -> (4 | w) -> ~ (4 | h) ->
    size_wrong v w h (cat ["height="; dec h; " must be a multiple of 12 or a multiple of 12 plus 4"]).

(** All that can be wrong with a configuration, with the text that says it.  The number orders
    the reasons: the first that holds is told. *)
Inductive reason (c : config) (minor : Z) : nat -> string -> Prop :=
| both_version_and_versions n s : cfg_version c = Some n -> cfg_versions c = Some s ->
    reason c minor 1 (cat ["Both version="; dec n; " and versions="; repr_str s; " found in cfg"])
| unknown_group s : cfg_versions c = Some s -> (forall options, ~ group_named s options) ->
    reason c minor 2 (cat ["No version for value="; repr_str s])
| spalloc_and_remote : given (cfg_spalloc_server c) -> given (cfg_remote_spinnaker_url c) ->
    reason c minor 3 "Both spalloc_server and remote_spinnaker_url specified in cfg"
| spalloc_and_name : given (cfg_spalloc_server c) -> given (cfg_machine_name c) ->
    reason c minor 4 "Both spalloc_server and machine_name specified in cfg"
| spalloc_and_virtual : given (cfg_spalloc_server c) -> cfg_virtual_board c = true ->
    reason c minor 5 "Both spalloc_server and virtual_board specified in cfg"
| remote_and_name : given (cfg_remote_spinnaker_url c) -> given (cfg_machine_name c) ->
    reason c minor 6 "Both remote_spinnaker_url and machine_name specified in cfg"
| remote_and_virtual : given (cfg_remote_spinnaker_url c) -> cfg_virtual_board c = true ->
    reason c minor 7 "Both remote_spinnaker_url and virtual_board specified in cfg"
| name_and_virtual : given (cfg_machine_name c) -> cfg_virtual_board c = true ->
    reason c minor 8 "Both machine_name and virtual_board specified in cfg"
| width_alone : given (cfg_width c) -> cfg_height c = None ->
    reason c minor 9 "cfg has width but not height"
| height_alone : given (cfg_height c) -> cfg_width c = None ->
    reason c minor 9 "cfg has height but not width"
| unknown_number n : asks c minor n -> (forall v, ~ means n v) ->
    reason c minor 10 (cat ["Unexpected cfg [Machine]version "; dec n])
| size_of_version n v w h t : asks c minor n -> means n v -> size c w h -> size_wrong v w h t ->
    reason c minor 11 t
| size_of_server w h t : server c -> size c w h -> size_wrong V5 w h t ->
    reason c minor 12 t
| version_of_server n : asks c minor n -> server c -> ~ means n V5 ->
    reason c minor 13 (cat ["Incorrect version with cfg [Machine] values version="; dec n;
      ", machine_name="; repr_opt (cfg_machine_name c); ", spalloc_server="; repr_opt (cfg_spalloc_server c);
      ", remote_spinnaker_url="; repr_opt (cfg_remote_spinnaker_url c);
      ", virtual_board="; bool_str (cfg_virtual_board c); ", width="; repr_int (cfg_width c);
      ", and height="; repr_int (cfg_height c)])
| nothing_given : cfg_version c = None -> cfg_versions c = None -> ~ server c ->
    cfg_width c = None -> cfg_height c = None ->
    reason c minor 14 (cat ["No version with cfg [Machine] values version=None";
      ", machine_name="; repr_opt (cfg_machine_name c);
      ", spalloc_server=None, remote_spinnaker_url=None, virtual_board="; bool_str (cfg_virtual_board c);
      ", width=None, and height=None"])
| size_alone w h v t : cfg_version c = None -> cfg_versions c = None -> ~ server c ->
    size c w h -> taken_for w h v -> size_wrong v w h t -> reason c minor 15 t
| size_of_another w h v n : size c w h -> taken_for w h v ->
    (asks c minor n \/ (server c /\ n = 5)) -> ~ means n v ->
    reason c minor 15 "cfg width and height do not match other cfg setting.".

(** The reason told: the first. *)
Definition first_reason (c : config) (minor : Z) (t : string) : Prop :=
  exists r, reason c minor r t /\ forall r' t', reason c minor r' t' -> (r <= r')%nat.

(** What the limits of the configuration make the constructor of a version say. *)
Definition limits_said (c : config) (v : vid) : list said :=
  match cfg_max_machine_core c with
  | Some n =>
      match n ?= default_max_cores v with
      | Gt => [Info (cat ["Ignoring csg setting [Machine]max_machine_core "; dec n; " as it is larger than ";
                 dec (default_max_cores v); " which is the default for a "; version_name v; " board "])]
      | Lt => [Warning (cat ["Max cores per chip reduced to "; dec n;
                 " due to cfg setting [Machine]max_machine_core"])]
      | Eq => []
      end
  | None => []
  end ++
  match cfg_max_sdram c with
  | Some n =>
      match n ?= default_max_sdram v with
      | Gt => [Info (cat ["Ignoring csg setting [Machine]max_sdram_allowed_per_chip "; dec n;
                 " as it is larger than "; dec (default_max_sdram v); " which is the default for a ";
                 version_name v; " board "])]
      | Lt => [Warning (cat ["Max SDRAM per chip reduced to "; dec (default_max_sdram v);
                 " due to cfg setting [Machine]max_sdram_allowed_per_chip"])]
      | Eq => []
      end
  | None => []
  end.

(** Whether each of the three kinds of settings that determine a version is there *)
Definition has_number (c : config) : bool := is_some (cfg_version c) || is_some (cfg_versions c).
Definition has_server (c : config) : bool := is_some (cfg_spalloc_server c) || is_some (cfg_remote_spinnaker_url c).
Definition has_size (c : config) : bool := is_some (cfg_width c).

(** The whole log when a version is returned: the limits are told once for each of the settings
    that determine the version. *)
Definition success_log (c : config) (v : vid) : list said :=
  (if has_number c then [] else [Warning "The cfg has no version. This is deprecated! Please add a version"]) ++
  (if has_number c then limits_said c v else []) ++
  (if has_server c then limits_said c v else []) ++
  (if has_size c then
     (if has_number c || has_server c then [] else [Warning "Please add a version to your cfg file."]) ++
     limits_said c v
   else []).
