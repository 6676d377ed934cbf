(** When a board version agrees with the settings of the cfg. *)
From Verif Require Import Model_Py Model_Version Model_Str Model_Factory Spec_Board Spec_Version.

(** The board version that a number in the cfg means. *)
Definition means (n : Z) (v : vid) : Prop :=
  match v with
  | V3 => n = 2 \/ n = 3
  | V5 => n = 4 \/ n = 5
  | V201 => n = 201
  | V248 => n = 248
  end.

(** The groups of board versions that have a name. *)
Definition named_groups : list (string * list vid) :=
  [("any"%string, [V3; V5; V201; V248]);
   ("four plus"%string, [V3; V5; V248]);
   ("big"%string, [V5; V248]);
   ("eight by eigth"%string, [V5; V248]);
   ("with fpgas"%string, [V5])].

(** The same letter, perhaps one a capital and the other not. *)
Definition same_letter (a b : ascii) : Prop :=
  a = b \/ exists n, (n < 26)%nat /\
    ((a = ascii_of_nat (65 + n) /\ b = ascii_of_nat (97 + n)) \/
     (b = ascii_of_nat (65 + n) /\ a = ascii_of_nat (97 + n))).

(** The same text, where case, blanks, - and _ do not matter. *)
Inductive loosely : string -> string -> Prop :=
| loosely_end : loosely "" ""
| loosely_left a s t : In a [" "; "-"; "_"]%char -> loosely s t -> loosely (String a s) t
| loosely_right b s t : In b [" "; "-"; "_"]%char -> loosely s t -> loosely s (String b t)
| loosely_both a b s t : same_letter a b -> loosely s t -> loosely (String a s) (String b t).

(** The group of versions named by a text. *)
Definition group_named (s : string) (options : list Z) : Prop :=
  exists text vs, In (text, vs) named_groups /\ loosely s text /\ options = map v_number vs.

(** At most one of the places where a machine comes from. *)
Definition at_most_one_source (c : config) : Prop :=
  (List.length (filter (fun b => b)
     [is_some (cfg_spalloc_server c); is_some (cfg_remote_spinnaker_url c);
      is_some (cfg_machine_name c); cfg_virtual_board c]) <= 1)%nat.

(** [v] agrees with every setting that says something about the version. *)
Definition consistent (c : config) (minor : Z) (v : vid) : Prop :=
  (forall n, cfg_version c = Some n -> means n v) /\
  (cfg_version c = None \/ cfg_versions c = None) /\
  (forall s, cfg_versions c = Some s -> exists options, group_named s options /\
     nth_error options (Z.to_nat (minor mod Z.of_nat (List.length options))) = Some (v_number v)) /\
  (cfg_spalloc_server c <> None \/ cfg_remote_spinnaker_url c <> None -> v = V5) /\
  ((cfg_width c = None /\ cfg_height c = None) \/
   (exists w h, cfg_width c = Some w /\ cfg_height c = Some h /\ supported v w h)) /\
  at_most_one_source c /\
  (cfg_version c <> None \/ cfg_versions c <> None \/ cfg_spalloc_server c <> None \/
   cfg_remote_spinnaker_url c <> None \/ cfg_width c <> None).
