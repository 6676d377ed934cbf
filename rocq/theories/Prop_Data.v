(** C61: the data of the versions describes their boards. *)
From Coq Require Import Lia ZifyBool.
From Verif Require Import Model_Py Model_Wrap Model_Version Spec_Hops Spec_Board Spec_Boards
  Proof_Wrap Proof_Py Proof_Board.
Open Scope Z_scope.

Definition position_b (v : vid) (p : XY) : bool :=
  match v with
  | V3 => (0 <=? fst p) && (fst p <=? 1) && (0 <=? snd p) && (snd p <=? 1)
  | V201 => xy_eqb p (0, 0)
  | V5 | V248 => on_board_b p
  end.

Lemma position_spec v p : position_b v p = true <-> board_position v p.
Proof.
  destruct v; cbn [position_b board_position].
  - rewrite !andb_true_iff, !Z.leb_le. tauto.
  - apply on_board_b_spec.
  - apply xyeqb_eq.
  - apply on_board_b_spec.
Qed.

Lemma position_square v p : board_position v p -> In p (list_prod (zrange 0 8) (zrange 0 8)).
Proof.
  intros H. destruct p as [x y]. apply in_prod; apply in_zrange;
  destruct v; cbn [board_position on_board] in H; unfold on_board in H; cbn [fst snd] in H;
    try (injection H as -> ->); lia.
Qed.

(** The chips of the table are the positions of the board, with their cores; their numbers
    of cores are allowed and their coordinates in the board's shape, which is no larger
    than needed. *)
Theorem C61_chips_of_a_board :
  forall v,
    NoDup (map fst (chip_core_map v)) /\
    (forall p n, In (p, n) (chip_core_map v) <-> board_position v p /\ n = cores_on v p) /\
    (forall p, In p (expected_xys v) <-> board_position v p) /\
    n_chips_per_board v = match v with V3 => 4 | V201 => 1 | V5 | V248 => 48 end /\
    (forall p, board_position v p -> fewest_cores v <= cores_on v p <= most_cores v /\
       0 <= fst p < fst (board_shape v) /\ 0 <= snd p < snd (board_shape v)) /\
    (exists p q, board_position v p /\ board_position v q /\
       fst p + 1 = fst (board_shape v) /\ snd q + 1 = snd (board_shape v)) /\
    board_position v (0, 0).
Proof.
  intros v.
  assert (NoDup (map fst (chip_core_map v))) as N by (destruct v; apply nodup_b_spec; vm_compute; reflexivity).
  assert (forall p n, In (p, n) (chip_core_map v) <-> board_position v p /\ n = cores_on v p) as E.
  { intros p n. split.
    - intros H. assert (forallb (fun pn => position_b v (fst pn) && (snd pn =? cores_on v (fst pn))) (chip_core_map v) = true)
        as K by (destruct v; vm_compute; reflexivity).
      apply (proj1 (forallb_forall _ _) K) in H. cbn [fst snd] in H. apply andb_prop in H as [H1 H2].
      split; [apply position_spec; auto|lia].
    - intros [H ->]. 
      assert (forallb (fun p => negb (position_b v p) ||
         existsb (fun pn => xy_eqb (fst pn) p && (snd pn =? cores_on v p)) (chip_core_map v))
         (list_prod (zrange 0 8) (zrange 0 8)) = true) as K by (destruct v; vm_compute; reflexivity).
      pose proof (proj1 (forallb_forall _ _) K _ (position_square _ _ H)) as K1.
      cbv beta in K1. rewrite (proj2 (position_spec _ _) H) in K1. cbn [negb orb] in K1.
      apply existsb_exists in K1 as ([q n] & I & K1). cbn [fst snd] in K1.
      apply andb_prop in K1 as [K1 K2]. apply xyeqb_eq in K1. apply Z.eqb_eq in K2. subst. exact I. }
  split; [exact N|]. split; [exact E|]. split.
  { intros p. unfold expected_xys, dkeys. rewrite in_map_iff. split.
    - intros ([q n] & <- & H). apply E in H. tauto.
    - intros H. exists (p, cores_on v p). split; auto. apply E. auto. }
  split; [destruct v; reflexivity|]. split.
  { intros p H.
    assert (forallb (fun pn => (fewest_cores v <=? snd pn) && (snd pn <=? most_cores v) &&
      (0 <=? fst (fst pn)) && (fst (fst pn) <? fst (board_shape v)) && (0 <=? snd (fst pn)) &&
      (snd (fst pn) <? snd (board_shape v))) (chip_core_map v) = true) as K by (destruct v; vm_compute; reflexivity).
    assert (In (p, cores_on v p) (chip_core_map v)) as I by (apply E; auto).
    apply (proj1 (forallb_forall _ _) K) in I. cbn [fst snd] in I. lia. }
  split; [|apply position_spec; destruct v; reflexivity].
  destruct v.
  - exists (1, 0), (0, 1). repeat split; cbn; lia.
  - exists (7, 3), (4, 7). repeat split; cbn; lia.
  - exists (0, 0), (0, 0). repeat split.
  - exists (7, 3), (4, 7). repeat split; cbn; lia.
Qed.
Print Assumptions C61_chips_of_a_board.

(** The limits of chips, which [new_version] may lower by the configuration (C15), and the
    routing entries. *)
Theorem C61_limits_of_chips :
  forall v,
    minimum_cores_expected v = fewest_cores v /\ default_max_cores v = most_cores v /\
    default_max_sdram v = most_sdram v /\ n_router_entries v = routing_entries v /\
    n_scamp_cores v = 1 /\ dtcm_bytes v = match v with V3 | V5 => Ok (64 * 1024) | _ => Err NotImplementedErr end.
Proof. intros v. destruct v; repeat split; reflexivity. Qed.
Print Assumptions C61_limits_of_chips.

(** The SpiNNaker links are different links of chips of the board, leading off the board. *)
Theorem C61_spinnaker_links_leave_the_board :
  forall v, NoDup (spinnaker_links v) /\
    (forall x y l, In (x, y, l) (spinnaker_links v) ->
       board_position v (x, y) /\ 0 <= l < 6 /\ ~ board_position v (vadd (x, y) (link_vec l))) /\
    List.length (spinnaker_links v) = match v with V3 => 2%nat | V5 => 1%nat | V201 | V248 => 0%nat end.
Proof.
  intros v. split; [|split; [|destruct v; reflexivity]].
  - destruct v; cbn [spinnaker_links]; repeat constructor; cbn; intuition discriminate.
  - intros x y l H.
    assert (forallb (fun s : Z * Z * Z => let '(x, y, l) := s in
       position_b v (x, y) && (0 <=? l) && (l <? 6) && negb (position_b v (vadd (x, y) (link_vec l))))
       (spinnaker_links v) = true) as K by (destruct v; vm_compute; reflexivity).
    apply (proj1 (forallb_forall _ _) K) in H. cbv beta iota in H.
    rewrite !andb_true_iff, negb_true_iff in H. destruct H as [[[H1 H2] H3] H4].
    split; [apply position_spec; auto|]. split; [lia|]. rewrite <- position_spec. congruence.
Qed.
Print Assumptions C61_spinnaker_links_leave_the_board.

(** The documentation says clock_speeds_hz are speeds in Hz; they are in MHz: no version has one of
    1000 or more, the cores run at 200 MHz, and at 150 or 300 MHz. *)
Theorem C61_clock_speeds_in_hz_refuted :
  forall v,
    map (fun mhz => mhz * 1000000) (clock_speeds_hz v) =
      match v with V3 | V5 => [200000000] | V201 | V248 => [150000000; 300000000] end /\
    Forall (fun s => s < 1000) (clock_speeds_hz v).
Proof. intros []; cbn; split; try reflexivity; repeat constructor. Qed.
Print Assumptions C61_clock_speeds_in_hz_refuted.

Example C61_case : cores_on V5 (5, 2) = 17 /\ cores_on V248 (4, 3) = 151 /\ board_position V5 (7, 3).
Proof. repeat split; cbn; lia. Qed.
