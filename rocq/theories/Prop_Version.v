(** C11, C12, C15, C16: sizes, machine class, limits, quads. *)
From Coq Require Import Lia.
From Verif Require Import Model_Py Model_Wrap Model_Float Model_Geometry Model_Version
  Model_Core Model_Machine Spec_Hops Spec_Board Spec_Version Proof_Board Proof_Py
  Proof_Version.

(** C11: create_machine succeeds exactly on the supported sizes; then the machine
    has that size, no chips, and wraps where it should.  Otherwise it raises
    SpinnMachineException. *)
Theorem C11_accepted_sizes :
  forall v width height origin,
    ((exists m, create_machine v width height origin = Ok m) <->
     (exists w h, width = Some w /\ height = Some h /\ supported v w h)) /\
    (forall e, create_machine v width height origin = Err e -> e = MachineExc).
Proof.
  intros v w h o. split; [split|].
  - intros [m E]. apply create_ok in E as (w' & h' & E1 & E2 & S & _). eauto.
  - intros (w' & h' & -> & -> & S). eexists. apply create_some. exact S.
  - intros e E. unfold create_machine in E. destruct (verify_raises v w h) as [X|X];
      rewrite X in E; cbn in E; congruence.
Qed.
Print Assumptions C11_accepted_sizes.

Theorem C11_created_machine :
  forall v w h origin m, create_machine v (Some w) (Some h) origin = Ok m ->
    m_width m = w /\ m_height m = h /\ n_chips m = 0 /\ chips m = [] /\
    ethernet_connected_chips m = [] /\ local_xys m = expected_xys v /\
    (wraps_x (m_kind m) = true <-> should_wrap v w) /\
    (wraps_y (m_kind m) = true <-> should_wrap v h).
Proof.
  intros v w h o m E. apply create_ok in E as (w' & h' & E1 & E2 & S & ->).
  injection E1 as <-. injection E2 as <-. cbn. repeat split; apply class_should_wrap; auto.
Qed.
Print Assumptions C11_created_machine.

Theorem C11_verify_size :
  forall v width height,
    (verify_size v width height = Ok tt <->
       exists w h, width = Some w /\ height = Some h /\ supported v w h) /\
    (verify_size v width height = Ok tt \/ verify_size v width height = Err MachineExc).
Proof.
  intros v w h. split; [|apply verify_raises]. split.
  - intros E. destruct w as [w|]; [|discriminate]. destruct h as [h|]; [|discriminate].
    exists w, h. repeat split; auto. apply verify_supported; auto.
  - intros (w' & h' & -> & -> & S). apply verify_supported; auto.
Qed.
Print Assumptions C11_verify_size.

Example C11_case :
  supported V5 12 16 /\ should_wrap V5 12 /\ ~ should_wrap V5 16 /\ ~ supported V5 8 16 /\
  ~ supported V3 2 1.
Proof.
  repeat split.
  - right. repeat split; try lia; [exists 3|exists 4]; reflexivity.
  - exists 1. reflexivity.
  - intros [k Hk]. lia.
  - intros [X|X]; lia.
  - intros [X X']. lia.
Qed.

(** C12: up to 3 * 2^52 boards the floating point computation is right: the size
    is supported and has at least the asked number of boards. *)
Theorem C12_enough_boards :
  forall v, v = V5 \/ v = V248 -> forall n, n <= 3 * 2 ^ 52 ->
    exists w h l, size_from_n_boards v n = Ok (w, h) /\
      supported v w h /\ get_potential_ethernet_chips v w h = Ok l /\
      n <= Z.of_nat (List.length l).
Proof.
  intros v Hv n Hn. destruct (Z_le_gt_dec n 1).
  - exists 8, 8, [(0, 0)].
    assert (size_from_n_boards v n = size_from_n_boards V5 n) as ->
      by (destruct Hv as [->| ->]; reflexivity).
    cbn [size_from_n_boards]. destruct (Z.leb_spec n 1); [|lia].
    repeat split.
    + destruct Hv as [->| ->]; left; auto.
    + destruct Hv as [->| ->]; vm_compute; reflexivity.
    + cbn. lia.
  - destruct (size_boards v n Hv ltac:(lia)) as (a & b & t & E & T & A & W & B & H).
    pose proof (supported_triads v a b Hv A B) as S.
    assert (size48 (a * 12 + 4) (b * 12 + 4)) as S' by (destruct Hv as [->| ->]; exact S).
    eexists _, _, _. split; [exact E|]. split; [exact S|].
    split; [exact (potential_eq v _ _ Hv S')|].
    rewrite (n_boards_of_triads v a b) by (auto; exact (potential_eq v _ _ Hv S')). lia.
Qed.
Print Assumptions C12_enough_boards.

(** The exact result: the smallest near-square of triads.  [t] is the number of
    triads needed, [a] the side of the smallest square of at least [t] triads,
    [b] the smallest height that suffices for that width; 3ab boards. *)
Theorem C12_exact_size :
  forall v, v = V5 \/ v = V248 -> forall n, 2 <= n <= 3 * 2 ^ 52 ->
    exists a b t l, size_from_n_boards v n = Ok (a * 12 + 4, b * 12 + 4) /\
      3 * (t - 1) < n <= 3 * t /\
      1 <= a /\ (a - 1) * (a - 1) < t <= a * a /\
      1 <= b /\ (b - 1) * a < t <= b * a /\
      get_potential_ethernet_chips v (a * 12 + 4) (b * 12 + 4) = Ok l /\
      Z.of_nat (List.length l) = 3 * a * b.
Proof.
  intros v Hv n Hn.
  destruct (size_boards v n Hv Hn) as (a & b & t & E & T & A & W & B & H).
  pose proof (supported_triads v a b Hv A B) as S.
  assert (size48 (a * 12 + 4) (b * 12 + 4)) as S' by (destruct Hv as [->| ->]; exact S).
  eexists a, b, t, _. repeat (split; [first [eassumption|lia]|]).
  split; [exact (potential_eq v _ _ Hv S')|].
  apply (n_boards_of_triads v a b); auto. exact (potential_eq v _ _ Hv S').
Qed.
Print Assumptions C12_exact_size.

(** Asking for more boards never gives a machine that is smaller in a dimension. *)
Theorem C12_monotone :
  forall v, v = V5 \/ v = V248 -> forall n n', n <= n' <= 3 * 2 ^ 52 ->
    exists w h w' h', size_from_n_boards v n = Ok (w, h) /\ size_from_n_boards v n' = Ok (w', h') /\
      w <= w' /\ h <= h'.
Proof.
  intros v Hv n n' [L U].
  assert (forall k, k <= 1 -> size_from_n_boards v k = Ok (8, 8)) as One.
  { intros k K. destruct Hv as [->| ->]; cbn [size_from_n_boards];
      (destruct (k <=? 1) eqn:X; [reflexivity|lia]). }
  destruct (Z.le_gt_cases n' 1) as [N'|N'].
  { exists 8, 8, 8, 8. rewrite !One by lia. repeat split; auto; lia. }
  destruct (C12_exact_size v Hv n') as (a' & b' & t' & _ & E' & T' & A' & W' & B' & H' & _); [lia|].
  destruct (Z.le_gt_cases n 1) as [N|N].
  { exists 8, 8, (a' * 12 + 4), (b' * 12 + 4). rewrite One by lia. repeat split; auto; lia. }
  destruct (C12_exact_size v Hv n) as (a & b & t & _ & E & T & A & W & B & H & _); [lia|].
  exists (a * 12 + 4), (b * 12 + 4), (a' * 12 + 4), (b' * 12 + 4). repeat (split; [assumption|]).
  assert (t <= t') as Tt by lia.
  assert (a <= a') as Aa by nia.
  assert (b <= a) as Ba by nia.
  destruct (Z.eq_dec a a') as [<-|NE]; [split; nia|].
  assert (a' - 1 <= b') by nia. lia.
Qed.
Print Assumptions C12_monotone.

(** One board more and the claim is false: the double n/3 is rounded down. *)
Theorem C12_rounding_loses_a_board_refuted :
  size_from_n_boards V5 (3 * 2 ^ 52 + 1) = Ok (2 ^ 26 * 12 + 4, 2 ^ 26 * 12 + 4) /\
  forall l, get_potential_ethernet_chips V5 (2 ^ 26 * 12 + 4) (2 ^ 26 * 12 + 4) = Ok l ->
    Z.of_nat (List.length l) = 3 * 2 ^ 52.
Proof.
  split; [vm_compute; reflexivity|].
  intros l E. rewrite (n_boards_of_triads V5 (2 ^ 26) (2 ^ 26)); auto; lia.
Qed.
Print Assumptions C12_rounding_loses_a_board_refuted.

Theorem C12_single_board_versions :
  forall v, v = V3 \/ v = V201 -> forall n,
    (n = 1 -> exists w h, size_from_n_boards v n = Ok (w, h) /\ supported v w h) /\
    (n <> 1 -> size_from_n_boards v n = Err MachineExc).
Proof.
  intros v Hv n. split.
  - intros ->. destruct Hv as [->| ->]; cbn; eauto.
  - intros N. apply Z.eqb_neq in N. destruct Hv as [->| ->]; cbn [size_from_n_boards];
      rewrite N; reflexivity.
Qed.
Print Assumptions C12_single_board_versions.

Example C12_case :
  size_from_n_boards V5 1000000007 = Ok (219100, 219088) /\
  size_from_n_boards V5 7 = Ok (28, 28) /\ size_from_n_boards V248 4 = Ok (28, 16).
Proof. repeat split; vm_compute; reflexivity. Qed.

(** C15: limits are the minimum of the default and the cfg. *)
Theorem C15_limits :
  forall cfg v ver, new_version cfg v = Ok ver ->
    v_id ver = v /\
    max_cores_per_chip ver = match cfg_max_machine_core cfg with
                             | Some m => Z.min m (default_max_cores v)
                             | None => default_max_cores v end /\
    max_sdram_per_chip ver = match cfg_max_sdram cfg with
                             | Some m => Z.min m (default_max_sdram v)
                             | None => default_max_sdram v end /\
    max_cores_per_chip ver <= default_max_cores v /\
    max_sdram_per_chip ver <= default_max_sdram v.
Proof.
  intros c v ver E. unfold new_version in E.
  destruct (verify_config_width_height c v); [|discriminate]. cbn [bind] in E.
  apply Ok_inj in E. subst ver. cbn [v_id max_cores_per_chip max_sdram_per_chip].
  unfold set_max_cores_per_chip, set_max_sdram_per_chip.
  destruct (cfg_max_machine_core c), (cfg_max_sdram c);
    repeat match goal with |- context [?a <? ?b] => destruct (Z.ltb_spec a b) end;
    repeat split; lia.
Qed.
Print Assumptions C15_limits.

Theorem C15_cfg_size_checked :
  forall cfg v,
    (exists ver, new_version cfg v = Ok ver) <->
    (cfg_width cfg = None /\ cfg_height cfg = None) \/
    (exists w h, cfg_width cfg = Some w /\ cfg_height cfg = Some h /\ supported v w h).
Proof.
  intros c v. unfold new_version, verify_config_width_height. split.
  - intros [ver E]. destruct (cfg_width c) as [w|], (cfg_height c) as [h|]; cbn in E;
      try discriminate; auto.
    right. exists w, h. repeat split; auto. apply verify_supported.
    destruct (verify_raises v (Some w) (Some h)) as [->|X]; auto.
    change (verify_size v (Some w) (Some h)) with (verify_size v (Some w) (Some h)) in E.
    unfold verify_size in X. rewrite X in E. discriminate.
  - intros [[-> ->]|(w & h & -> & -> & S)]; [eexists; reflexivity|].
    apply verify_supported in S. rewrite S. eexists; reflexivity.
Qed.
Print Assumptions C15_cfg_size_checked.

(** A rejected cfg is always a SpinnMachineException. *)
Theorem C15_cfg_error :
  forall cfg v e, new_version cfg v = Err e -> e = MachineExc.
Proof.
  intros c v e. unfold new_version, verify_config_width_height.
  destruct (cfg_width c) as [w|], (cfg_height c) as [h|]; cbn [bind]; try congruence.
  destruct (verify_raises v (Some w) (Some h)) as [->| ->]; cbn; congruence.
Qed.
Print Assumptions C15_cfg_error.

Example C15_case :
  let cfg := mkConfig None None (Some 16) (Some 16) (Some 1000) (Some 400) false
               None None None None None None false in
  new_version cfg V5 = Ok (mkVersion V5 18 1000).
Proof. reflexivity. Qed.

(** C16: quads and core ids. *)
Theorem C16_quad_bijection :
  forall v, v = V201 \/ v = V248 ->
    (forall id, 0 <= id <= 152 -> exists qx qy qp,
        id_to_qx_qy_qp v id = Ok (qx, qy, qp) /\ qx_qy_qp_to_id v qx qy qp = Ok id) /\
    (forall qx qy qp id, qx_qy_qp_to_id v qx qy qp = Ok id ->
        id_to_qx_qy_qp v id = Ok (qx, qy, qp) /\ 0 <= id <= 152) /\
    (forall id, id < 0 \/ 152 < id -> id_to_qx_qy_qp v id = Err KeyError) /\
    (forall qx qy qp, (exists id, qx_qy_qp_to_id v qx qy qp = Ok id) \/
                      qx_qy_qp_to_id v qx qy qp = Err KeyError).
Proof. exact quad_bijection. Qed.
Print Assumptions C16_quad_bijection.

Theorem C16_no_quads_on_spin1 :
  forall v, v = V3 \/ v = V5 ->
    (forall id, id_to_qx_qy_qp v id = Err MachineExc) /\
    (forall qx qy qp, qx_qy_qp_to_id v qx qy qp = Err MachineExc).
Proof. intros v [->| ->]; split; reflexivity. Qed.
Print Assumptions C16_no_quads_on_spin1.

Example C16_case :
  id_to_qx_qy_qp V201 150 = Ok (5, 3, 1) /\ qx_qy_qp_to_id V248 5 3 1 = Ok 150 /\
  qx_qy_qp_to_id V201 4 4 0 = Err KeyError.
Proof. repeat split. Qed.
