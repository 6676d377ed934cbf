(** C59: equality and hash of versions. *)
From Verif Require Import Model_Py Model_Wrap Model_Geometry Model_Version Model_Identity.
Open Scope Z_scope.

(** Version objects are equal exactly when their numbers are, and exactly when their
    names are; equality is an equivalence; equal versions are the same kind of board. *)
Theorem C59_equality :
  forall a b c : version,
    (version_eqb a b = true <-> v_number (v_id a) = v_number (v_id b)) /\
    (version_eqb a b = true <-> version_name (v_id a) = version_name (v_id b)) /\
    version_eqb a a = true /\ version_eqb a b = version_eqb b a /\
    (version_eqb a b = true -> version_eqb b c = true -> version_eqb a c = true) /\
    (version_eqb a b = true ->
       chip_core_map (v_id a) = chip_core_map (v_id b) /\ board_shape (v_id a) = board_shape (v_id b) /\
       spinnaker_links (v_id a) = spinnaker_links (v_id b) /\ fpga_links (v_id a) = fpga_links (v_id b)).
Proof.
  intros [a ac asd] [b bc bsd] [c cc csd]. unfold version_eqb. cbn [v_id].
  destruct a, b; cbn; repeat split; auto; try discriminate; destruct c; auto; discriminate.
Qed.
Print Assumptions C59_equality.

(** Equal versions may have different limits: those of the configuration at the time
    each was made. *)
Theorem C59_same_limits_refuted :
  exists cfg cfg' a b, new_version cfg V5 = Ok a /\ new_version cfg' V5 = Ok b /\ version_eqb a b = true /\
    max_sdram_per_chip a <> max_sdram_per_chip b.
Proof.
  exists (mkConfig None None None None (Some 1000) None false None None None None None None false),
         (mkConfig None None None None None None false None None None None None None false).
  do 2 eexists. split; [vm_compute; reflexivity|]. split; [vm_compute; reflexivity|].
  split; [vm_compute; reflexivity|]. cbn. discriminate.
Qed.
Print Assumptions C59_same_limits_refuted.

(** Versions were meant to be hashable (the base class has a hash): none is. *)
Theorem C59_hashable_refuted : forall a, version_hash a = Err TypeError.
Proof. reflexivity. Qed.
Print Assumptions C59_hashable_refuted.

Example C59_case :
  version_eqb (mkVersion V5 18 123469792) (mkVersion V5 17 1000) = true /\
  version_eqb (mkVersion V5 18 123469792) (mkVersion V3 18 123469792) = false.
Proof. split; reflexivity. Qed.
