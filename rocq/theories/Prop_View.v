(** C49-C52: the machine data view and writer, over every history of calls. *)
From Coq Require Import String Lia.
From Verif Require Import Model_Py Model_Wrap Model_Version Model_Core Model_Machine Model_Factory Model_Virtual Model_Text Model_View
  Spec_View Proof_View.
Open Scope list_scope.
Open Scope Z_scope.

(** ** C49 *)

(** get_machine gives the machine that exists and makes no new one, unless the user
    asks after a soft reset. *)
Theorem C49_keeps_existing :
  forall tr d e m, reach tr d -> machine_after tr = Some m -> stale e = false ->
  forall tr' d' r, call e d GetMachine tr' d' r <->
    tr' = [(e, GetMachine, Ok (VMachine m))] /\ r = Ok (VMachine m) /\ d' = touch e d.
Proof.
  intros tr d e m R M S tr' d' r. apply reach_inv in R. destruct R as [I _ _ _ _].
  assert (d_machine (touch e d) = Some m) as T.
  { rewrite <- M, <- I. unfold touch, stale in *. destruct (e_user_mode e); auto. cbn in *. rewrite S. auto. }
  split.
  - intros H. inversion H as [? ? ? ? ? P|? ? tr1 ? r1 G|]; subst; [discriminate P|].
    inversion G; subst; try congruence. assert (m0 = m) as -> by congruence. auto.
  - intros (-> & -> & ->). apply (CGet e d [] (touch e d) (Ok m)). constructor. auto.
Qed.
Print Assumptions C49_keeps_existing.

(** What get_machine returns is the machine that then exists; without a machine that may
    be used and without a generator it raises; otherwise the generator runs. *)
Theorem C49_get_machine :
  forall tr d e tr' d' r, reach tr d -> call e d GetMachine tr' d' r ->
  (forall v, r = Ok v -> exists m, v = VMachine m /\ machine_after (tr ++ tr') = Some m) /\
  (forall x, r = Err x ->
     (machine_after tr = None \/ stale e = true) /\
     (generator_after tr = None -> x = DataNotAvailable /\ tr' = [(e, GetMachine, r)])) /\
  (tr' <> [(e, GetMachine, r)] ->
     (machine_after tr = None \/ stale e = true) /\ generator_after tr <> None).
Proof.
  intros tr d e tr' d' r R H.
  pose proof (call_inv _ _ _ _ _ _ _ R H) as [J _ _ _ _].
  destruct (reach_inv _ _ R) as [I1 I2 _ _ _].
  assert (d_machine (touch e d) = None -> machine_after tr = None \/ stale e = true) as N.
  { rewrite <- I1. unfold touch, stale. destruct (e_user_mode e); cbn; auto. destruct (e_soft_reset e); auto. }
  assert (d_generator (touch e d) = generator_after tr) as GA.
  { rewrite <- I2. unfold touch. destruct (e_user_mode e); auto. }
  inversion H as [? ? ? ? ? P|? ? tr1 ? r1 G|]; subst; [discriminate P|].
  rewrite <- J. inversion G; subst; cbn [vmap].
  - split; [|split; [discriminate|congruence]]. intros v [= <-]. eauto.
  - split; [discriminate|]. split; [|congruence]. intros x [= <-]. split; auto.
  - split; [|split].
    + match goal with g : gen_run _ _ _ _ _ ?q |- _ => destruct q; [|discriminate] end. cbn. destruct (d_machine d') as [m|]; [|discriminate]. intros v [= <-]. eauto.
    + intros x Hx. split; auto. intros Hg. congruence.
    + intros _. split; auto. congruence.
Qed.
Print Assumptions C49_get_machine.

(** When a generator ran and there still is no machine, get_machine raises; it never
    returns anything that is not a machine. *)
Theorem C49_generator_must_set :
  forall tr d e tr' d' r, reach tr d -> call e d GetMachine tr' d' r ->
  machine_after (tr ++ tr') = None -> exists x, r = Err x.
Proof.
  intros tr d e tr' d' r R H N. destruct r as [v|x]; [|eauto].
  destruct (proj1 (C49_get_machine _ _ _ _ _ _ R H) _ eq_refl) as (m & _ & M). congruence.
Qed.
Print Assumptions C49_generator_must_set.

(** A generator that makes any calls and returns, but leaves no machine: a
    SpinnMachineException. *)
Theorem C49_generator_without_machine :
  forall tr d e g calls d' r, reach tr d ->
    generator_after tr = Some (UserGen g) ->
    call e d GetMachine ((e, GetMachine, r) :: calls) d' r ->
    machine_after (tr ++ (e, GetMachine, r) :: calls) = None ->
    call e d GetMachine ((e, GetMachine, Err MachineExc) :: calls) d' (Err MachineExc).
Proof.
  intros tr d e g calls d' r R GA H N.
  pose proof (call_inv _ _ _ _ _ _ _ R H) as [J _ _ _ _].
  destruct (reach_inv _ _ R) as [I1 I2 _ _ _]. rewrite N in J.
  assert (d_generator (touch e d) = Some (UserGen g)) as GT.
  { rewrite <- GA, <- I2. unfold touch. destruct (e_user_mode e); auto. }
  inversion H as [? ? ? ? ? P|? ? tr1 ? r1 G|]; subst; [discriminate P|].
  inversion G; subst; try congruence.
  assert (g0 = UserGen g) as -> by congruence.
  match goal with g : gen_run _ _ _ _ _ _ |- _ => inversion g; subst end.
  apply (CGet e d calls d' (Err MachineExc)).
  replace (Err MachineExc : res machine) with
    (match (Ok tt : res unit) with Err x => Err x
     | Ok _ => match d_machine d' with None => Err MachineExc | Some m => Ok m end end) by (rewrite J; reflexivity).
  apply (GGen e d (UserGen g) calls d' (Ok tt)); auto. constructor. auto.
Qed.
Print Assumptions C49_generator_without_machine.

(** get_chip_at: the chip of the machine that then exists, KeyError if there is none. *)
Theorem C49_get_chip_at :
  forall tr d e x y tr' d' r, reach tr d -> call e d (GetChipAt x y) tr' d' r ->
  (forall v, r = Ok v -> exists m c, v = VChip c /\ machine_after (tr ++ tr') = Some m /\
     get_chip_at m x y = Some c) /\
  (forall m, machine_after tr = Some m -> stale e = false ->
     tr' = [(e, GetChipAt x y, r)] /\
     r = match get_chip_at m x y with Some c => Ok (VChip c) | None => Err KeyError end) /\
  (forall m, machine_after (tr ++ tr') = Some m -> get_chip_at m x y = None -> exists ex, r = Err ex).
Proof.
  intros tr d e x y tr' d' r R H.
  pose proof (call_inv _ _ _ _ _ _ _ R H) as [J _ _ _ _].
  destruct (reach_inv _ _ R) as [I1 I2 _ _ _].
  inversion H as [? ? ? ? ? P| |? ? ? ? tr1 ? r1 ? G]; subst; [discriminate P|]. rewrite <- J.
  assert (forall m, getitem m (x, y) = match get_chip_at m x y with Some c => Ok c | None => Err KeyError end) as GI.
  { intros m. unfold getitem, get_chip_at, dgetitem. reflexivity. }
  assert (forall m, r1 = Ok m -> d_machine d' = Some m) as DM.
  { intros m ->. inversion G; subst; auto.
    match goal with q : match ?b with Ok _ => _ | Err _ => _ end = Ok _ |- _ => destruct b; [|discriminate] end.
    destruct (d_machine d'); congruence. }
  split; [|split].
  - intros v Hv. destruct r1 as [m|]; [|discriminate]. rewrite GI in Hv.
    destruct (get_chip_at m x y) as [c|] eqn:E; [|discriminate]. injection Hv as <-. exists m, c. split; auto.
  - intros m M S. assert (d_machine (touch e d) = Some m) as T.
    { rewrite <- M, <- I1. unfold touch, stale in *. destruct (e_user_mode e); auto. cbn in *. rewrite S. auto. }
    inversion G; subst; try congruence.
    match goal with q : d_machine (touch e d) = Some ?b |- _ => assert (b = m) as -> by congruence end.
    rewrite GI. split; auto.
    destruct (get_chip_at m x y); auto.
  - intros m M N. destruct r1 as [m1|]; [|eauto]. specialize (DM _ eq_refl).
    assert (m1 = m) as -> by congruence. rewrite GI, N. cbn. eauto.
Qed.
Print Assumptions C49_get_chip_at.

(** The other queries tell about the machine that exists, never make or change one (the
    state and the history show nothing but the call itself) and never raise. *)
Theorem C49_read_only :
  forall tr d e tr' d' r o, reach tr d -> call e d o tr' d' r ->
  match o with
  | HasExistingMachine => r = Ok (VBool (match machine_after tr with Some _ => true | None => false end))
  | HasMachine => r = Ok (VBool (match machine_after tr with Some _ => true | None => e_mocked e end))
  | GetNearestEthernet x y =>
      r = Ok (VXY match machine_after tr with
                  | None => (x, y)
                  | Some m => match get_chip_at m x y with Some c => (c_eth_x c, c_eth_y c) | None => (x, y) end
                  end)
  | WhereIsXY x y =>
      r = Ok (VStr match machine_after tr with None => "No Machine created yet"%string | Some m => m_where_is_xy m x y end)
  | WhereIsChip c =>
      r = Ok (VStr match machine_after tr with None => "Chip is from a previous machine"%string | Some m => m_where_is_chip m c end)
  | GetUserAccessedMachine =>
      exists b, r = Ok (VBool b) /\
      (b = true <-> exists t, In t (since resets tr) /\ asks_machine (op_of t) = true /\ e_user_mode (env_of t) = true)
  | _ => True
  end /\
  (match o with
   | HasExistingMachine | HasMachine | GetNearestEthernet _ _ | WhereIsXY _ _ | WhereIsChip _
   | GetUserAccessedMachine | GetAllMonitorCores | GetEthernetMonitorCores | GetPhysicalCoreId _ _
   | GetPhysicalString _ _ => d' = d /\ tr' = [(e, o, r)]
   | _ => True
   end).
Proof.
  intros tr d e tr' d' r o R H. destruct (reach_inv _ _ R) as [I1 I2 I3 _ _]. rewrite <- I1.
  destruct o; try (split; auto; fail); apply call_plain in H as [H1 H2]; auto; cbn in H2; injection H2 as <- <-;
  try (split; auto; fail).
  - split; auto. unfold get_nearest_ethernet, getitem, dgetitem, get_chip_at. destruct (d_machine d) as [m|]; auto.
    destruct (dget _ _ _); auto.
  - split; auto. eexists. split; eauto. rewrite I3, existsb_exists. split; intros (t & A & B); exists t; split; auto.
    + apply Bool.andb_true_iff in B. auto.
    + apply Bool.andb_true_iff. auto.
Qed.
Print Assumptions C49_read_only.

(** In mock mode get_machine makes the virtual machine of one board of the version. *)
Theorem C49_mock :
  forall tr d e, reach tr d -> machine_after tr = None \/ stale e = true -> generator_after tr = Some MockGen ->
  forall d1 tv rv, call e d GetMachineVersion tv d1 rv ->
  forall tr' d' r, call e d GetMachine tr' d' r ->
  match rv with
  | Err x => r = Err x
  | Ok (VVersion v) => r = vmap VMachine (virtual_machine_by_boards (e_config e) v 1 true)
  | Ok _ => False
  end.
Proof.
  intros tr d e R M G d1 tv rv V tr' d' r H. destruct (reach_inv _ _ R) as [I1 I2 _ _ _].
  assert (d_machine (touch e d) = None) as N.
  { unfold touch, stale in *. rewrite <- I1 in M. destruct (e_user_mode e); cbn in *; [|destruct M; congruence].
    destruct M as [M| ->]; auto. destruct (e_soft_reset e); auto. }
  assert (d_generator (touch e d) = Some MockGen) as GA.
  { rewrite <- G, <- I2. unfold touch. destruct (e_user_mode e); auto. }
  apply call_plain in V as [_ V]; auto. cbn in V.
  destruct (get_machine_version e d) as [d2 r2] eqn:E. injection V as <- <-.
  assert (snd (get_machine_version e (touch e d)) = r2) as E'.
  { assert (snd (get_machine_version e d) = r2) as <- by (rewrite E; auto). unfold touch. destruct (e_user_mode e); auto.
    unfold get_machine_version. cbn. destruct (d_version d); auto. destruct (version_factory _ _); auto.
    cbn. destruct (_ && _); auto. }
  inversion H as [? ? ? ? ? P|? ? tr1 ? r1 GR|]; subst; [discriminate P|].
  inversion GR; subst; try congruence.
  match goal with q : gen_run _ _ _ _ _ _ |- _ => rename q into GN end.
  assert (g = MockGen) as -> by congruence.
  inversion GN; subst.
  match goal with q : get_machine_version e (touch e d) = _ |- _ => rewrite q in *; cbn [snd] end.
  match goal with q : mock_rest _ _ _ _ _ _ |- _ => inversion q; subst end; cbn; auto.
  - match goal with q : virtual_machine_by_boards _ _ _ _ = _ |- _ => rewrite q end. auto.
  - match goal with q : virtual_machine_by_boards _ _ _ _ = _ |- _ => rewrite q end. auto.
Qed.
Print Assumptions C49_mock.

(** Nothing is stuck: every call has an outcome, whatever the state, unless it has to run
    a generator of the user. *)
Theorem C49_total :
  forall d e o, asks_machine o = false \/ (forall g, d_generator d <> Some (UserGen g)) ->
  exists tr d' r, call e d o tr d' r.
Proof.
  intros d e o H.
  destruct (asks_machine o) eqn:A.
  - destruct H as [H|H]; [discriminate|].
    assert (exists tr d' r, get_run e d tr d' r) as (tr & d' & r & G).
    { destruct (d_machine (touch e d)) as [m|] eqn:M; [do 3 eexists; apply GHave; eauto|].
      assert (d_generator (touch e d) = d_generator d) as GA by (unfold touch; destruct (e_user_mode e); auto).
      destruct (d_generator d) as [[g|]|] eqn:G; [exfalso; eapply H; eauto| |do 3 eexists; apply GNone; auto].
      destruct (get_machine_version e (touch e d)) as [d1 [v|x]] eqn:V.
      - destruct (virtual_machine_by_boards (e_config e) v 1 true) as [m|x] eqn:B.
        + do 3 eexists. eapply GGen; eauto. eapply RMock; eauto. apply MSet; eauto.
        + do 3 eexists. eapply GGen; eauto. eapply RMock; eauto. apply MMachine; eauto.
      - do 3 eexists. eapply GGen; eauto. eapply RMock; eauto. apply MVersion. }
    destruct o; try discriminate.
    + do 3 eexists. apply CGet; eauto.
    + do 3 eexists. eapply CChip; eauto.
  - clear H. destruct (plain_step e d o) as [[d' r]|] eqn:P; [do 3 eexists; apply CPlain; eauto|].
    exfalso. destruct o; cbn in P; try discriminate.
    + destruct (get_machine_version e d); discriminate.
    + destruct (set_v_to_p_map d map); discriminate.
    + destruct (get_physical_quad e d p); discriminate.
    + destruct m; discriminate.
    + destruct g; discriminate.
Qed.
Print Assumptions C49_total.

(** ** C50 *)

(** After a set_v_to_p_map that worked another one only works after a reset. *)
Theorem C50_set_once :
  forall tr1 e m tr2 e' m' tr3 d,
  reach (tr1 ++ (e, SetVtoP m, Ok VNone) :: tr2 ++ (e', SetVtoP m', Ok VNone) :: tr3) d ->
  exists t, In t tr2 /\ resets (op_of t) = true.
Proof.
  intros tr1 e m tr2 e' m' tr3 d R. apply runs_micro in R.
  apply msteps_split in R as (d1 & _ & R). inversion R as [|? ? d2 ? ? S1 R2]; subst.
  apply msteps_split in R2 as (d3 & R2 & R3). inversion R3 as [|? ? d4 ? ? S2 _]; subst.
  destruct (existsb (fun t => resets (op_of t)) tr2) eqn:E; [apply existsb_exists in E; auto|]. exfalso.
  assert (forall t, In t tr2 -> resets (op_of t) = false) as N.
  { intros t It. destruct (resets (op_of t)) eqn:F; auto. rewrite <- E. symmetry. apply existsb_exists. eauto. }
  destruct S1 as [S1|[S1 _]]; [|discriminate S1]. destruct S2 as [S2|[S2 _]]; [|discriminate S2]. cbn in S1, S2.
  destruct (set_v_to_p_map d1 m) as [a b] eqn:E1. destruct (set_v_to_p_map d3 m') as [a' b'] eqn:E2.
  apply vtop_cases in E1 as (_ & _ & _ & _ & _ & _ & _ & D1). apply vtop_cases in E2 as (_ & _ & _ & _ & _ & _ & _ & D2).
  injection S1 as <- B1. injection S2 as <- B2.
  destruct D1 as [(_ & _ & D1 & _)|[-> _]]; [|discriminate]. destruct D2 as [(_ & D2 & _)|[-> _]]; [|discriminate].
  rewrite (vtop_stays _ _ _ R2 N _ D1) in D2. discriminate.
Qed.
Print Assumptions C50_set_once.

(** Physical ids and quads are only both available when, since the last reset, a call that
    read the version raised because of the clash. *)
Theorem C50_exclusive :
  forall tr d e xy p tr1 d1 n e' p' tr2 d2 q,
  reach tr d ->
  call e d (GetPhysicalCoreId xy p) tr1 d1 (Ok n) -> call e' d (GetPhysicalQuad p') tr2 d2 (Ok q) ->
  exists t, In t (since resets tr) /\ reads_version (op_of t) = true /\ res_of t = Err MachineExc.
Proof.
  intros tr d e xy p tr1 d1 n e' p' tr2 d2 q R H1 H2.
  destruct (reach_maps _ _ R) as [I1 I2].
  apply call_plain in H1 as [_ H1]; auto. apply call_plain in H2 as [_ H2]; auto. cbn in H1, H2.
  injection H1 as _ H1.
  assert (dict_true (d_v_to_p d) = true) as V.
  { unfold get_physical_core_id in H1. destruct (d_v_to_p d) as [[|? ?]|]; auto; discriminate. }
  apply I2; auto. destruct (get_physical_quad e' d p') as [d3 r3] eqn:E.
  assert (exists q', r3 = Ok q') as (q' & ->). { destruct r3; [eauto|discriminate]. } clear H2.
  unfold get_physical_quad in E. destruct (d_quad_map d) as [qm|] eqn:Q.
  - injection E as <- E. destruct qm; [discriminate|auto].
  - exfalso. destruct (get_machine_version e' d) as [d4 r4] eqn:F.
    destruct (version_cases _ _ _ _ F) as (_ & _ & _ & _ & _ & VP).
    destruct (version_maps _ _ _ _ F) as (A & B & C); [rewrite Q; auto|].
    destruct r4 as [v|]; [|discriminate].
    destruct (d_quad_map d4) as [qm|] eqn:Q4; [|discriminate]. injection E as <- E.
    destruct B as [[-> _]|[B|B]]; [congruence| |discriminate].
    rewrite VP, V, Bool.andb_true_r in B. destruct qm; discriminate.
Qed.
Print Assumptions C50_exclusive.

(** What get_physical_core_id gives: the entry of the map last set. *)
Theorem C50_core_id :
  forall tr1 e m tr2 d, reach (tr1 ++ (e, SetVtoP m, Ok VNone) :: tr2) d ->
  (forall t, In t tr2 -> resets (op_of t) = false) ->
  forall e' xy p tr' d' r, call e' d (GetPhysicalCoreId xy p) tr' d' r ->
  r = match dget xy_eqb m xy with
      | None => Err KeyError
      | Some l => if (0 <=? p) && (p <? Z.of_nat (List.length l)) then Ok (VInt (nth (Z.to_nat p) l 0))
                  else if (- Z.of_nat (List.length l) <=? p) && (p <? 0)
                       then Ok (VInt (nth (Z.to_nat (Z.of_nat (List.length l) + p)) l 0))
                       else Err IndexError
      end.
Proof.
  intros tr1 e m tr2 d R N e' xy p tr' d' r H. apply runs_micro in R.
  apply msteps_split in R as (d1 & _ & R). inversion R as [|? ? d2 ? ? S1 R2]; subst.
  destruct S1 as [S1|[S1 _]]; [|discriminate S1]. cbn in S1.
  destruct (set_v_to_p_map d1 m) as [a b] eqn:E1. apply vtop_cases in E1 as (_ & _ & _ & _ & _ & _ & _ & D1).
  injection S1 as <- B1. destruct D1 as [(_ & _ & D1 & _)|[-> _]]; [|discriminate].
  pose proof (vtop_stays _ _ _ R2 N _ D1) as V.
  apply call_plain in H as [_ H]; auto. cbn in H. injection H as _ <-. unfold get_physical_core_id. rewrite V.
  unfold dgetitem. destruct (dget xy_eqb m xy) as [l|]; auto. cbn [bind].
  unfold py_index. set (n := Z.of_nat (List.length l)).
  assert (forall j, 0 <= j < n -> nth_error l (Z.to_nat j) = Some (nth (Z.to_nat j) l 0)) as NE.
  { intros j J. apply nth_error_nth'. lia. }
  destruct (p <? 0) eqn:P0; [apply Z.ltb_lt in P0|apply Z.ltb_ge in P0].
  - replace (0 <=? p) with false by (symmetry; apply Z.leb_gt; lia). cbn [andb].
    destruct (- n <=? p) eqn:P1; [apply Z.leb_le in P1|apply Z.leb_gt in P1]; cbn [andb].
    + replace (p + n <? 0) with false by (symmetry; apply Z.ltb_ge; lia).
      replace (n <=? p + n) with false by (symmetry; apply Z.leb_gt; lia). cbn [orb].
      rewrite (Z.add_comm p), NE by lia. auto.
    + replace (p + n <? 0) with true by (symmetry; apply Z.ltb_lt; lia). auto.
  - replace (0 <=? p) with true by (symmetry; apply Z.leb_le; lia). rewrite Bool.andb_false_r. cbn [andb orb].
    replace (p <? 0) with false by (symmetry; apply Z.ltb_ge; lia).
    destruct (p <? n) eqn:P1; [apply Z.ltb_lt in P1|apply Z.ltb_ge in P1].
    + replace (n <=? p) with false by (symmetry; apply Z.leb_gt; lia). cbn [orb]. rewrite NE by lia. auto.
    + replace (n <=? p) with true by (symmetry; apply Z.leb_le; lia). auto.
Qed.
Print Assumptions C50_core_id.

(** What get_physical_quad gives: the quad of the version that get_machine_version gives,
    and an error for a version without quads. *)
Theorem C50_quad :
  forall tr d e tr1 d1 v, reach tr d -> call e d GetMachineVersion tr1 d1 (Ok (VVersion v)) ->
  forall p tr' d' r, call e d (GetPhysicalQuad p) tr' d' r ->
  r = match quads_maps (v_id v) with
      | None => Err DataNotAvailable
      | Some q => match dget Z.eqb q p with Some x => Ok (VQuad x) | None => Err KeyError end
      end.
Proof.
  intros tr d e tr1 d1 v R H p tr' d' r H2. destruct (reach_maps _ _ R) as [I1 _].
  apply call_plain in H as [_ H]; auto. apply call_plain in H2 as [_ H2]; auto. cbn in H, H2.
  destruct (get_machine_version e d) as [d3 r3] eqn:E. injection H as <- B. destruct r3 as [v3|]; [|discriminate].
  injection B as ->.
  assert (d_version d3 = Some v) as V3.
  { unfold get_machine_version in E. destruct (d_version d) eqn:V; [injection E as <- ->; auto|].
    destruct (version_factory _ _); [|discriminate]. cbn in E. destruct (_ && _); [discriminate|].
    injection E as <- ->. auto. }
  destruct (version_maps _ _ _ _ E I1) as (A & _ & C). rewrite V3 in A.
  unfold get_physical_quad in H2. destruct (d_quad_map d) as [q|] eqn:Q.
  - destruct (d_version d) as [v0|] eqn:V; [|discriminate]. destruct (C _ eq_refl) as [-> C2]. injection C2 as <-.
    rewrite <- I1. injection H2 as <- <-. unfold dgetitem. destruct (dget Z.eqb q p); auto.
  - rewrite E, A in H2. destruct (quads_maps (v_id v)) as [q|]; injection H2 as <- <-; auto.
    unfold dgetitem. destruct (dget Z.eqb q p); auto.
Qed.
Print Assumptions C50_quad.

(** ** C51 *)

(** The counts of monitor cores are those of the calls of add_monitor_core since the last reset. *)
Theorem C51_monitor_counts :
  forall tr d e, reach tr d ->
  (forall tr' d' r, call e d GetEthernetMonitorCores tr' d' r -> r = Ok (VInt (count is_add (since resets tr)))) /\
  (forall tr' d' r, call e d GetAllMonitorCores tr' d' r -> r = Ok (VInt (count is_add_all (since resets tr)))) /\
  0 <= count is_add_all (since resets tr) <= count is_add (since resets tr).
Proof.
  intros tr d e R. destruct (reach_inv _ _ R) as [_ _ _ I4 I5]. split; [|split].
  - intros tr' d' r H. apply call_plain in H as [_ H]; auto. cbn in H. injection H as _ <-. congruence.
  - intros tr' d' r H. apply call_plain in H as [_ H]; auto. cbn in H. injection H as _ <-. congruence.
  - unfold count. split; [lia|]. apply Nat2Z.inj_le. generalize (since resets tr). induction t as [|x l IH]; auto.
    cbn [filter]. destruct (is_add (op_of x)) eqn:B, (is_add_all (op_of x)) eqn:C; cbn; try lia.
    destruct (op_of x); discriminate.
Qed.
Print Assumptions C51_monitor_counts.

(** Only add_monitor_core and the resets change the counts. *)
Theorem C51_frame :
  forall tr d e o tr' d' r, reach tr d -> call e d o tr' d' r ->
  (forall t, In t tr' -> is_add (op_of t) = false /\ resets (op_of t) = false) ->
  forall e1 e2 t1 d1 r1 t2 d2 r2,
    (call e1 d GetEthernetMonitorCores t1 d1 r1 -> call e2 d' GetEthernetMonitorCores t2 d2 r2 -> r1 = r2) /\
    (call e1 d GetAllMonitorCores t1 d1 r1 -> call e2 d' GetAllMonitorCores t2 d2 r2 -> r1 = r2).
Proof.
  intros tr d e o tr' d' r R H N e1 e2 t1 d1 r1 t2 d2 r2.
  pose proof (reach_call _ _ _ _ _ _ _ R H) as R'.
  destruct (C51_monitor_counts _ _ e1 R) as (A & B & _). destruct (C51_monitor_counts _ _ e2 R') as (A' & B' & _).
  assert (since resets (tr ++ tr') = since resets tr ++ tr') as S by (apply since_none; intros; apply N; auto).
  rewrite S in *.
  assert (forall f, (forall o, f o = true -> is_add o = true) ->
    count f (since resets tr ++ tr') = count f (since resets tr)) as CE.
  { intros f F. unfold count. rewrite filter_app, app_length.
    assert (filter (fun t => f (op_of t)) tr' = []) as ->; [|cbn; lia].
    clear - N F. induction tr' as [|t l IH]; auto. cbn. destruct (f (op_of t)) eqn:Q.
    - destruct (N t (or_introl eq_refl)) as [X _]. rewrite (F _ Q) in X. discriminate.
    - apply IH. intros; apply N; right; auto. }
  rewrite CE in A' by auto. rewrite CE in B' by (intros []; cbn; auto; discriminate).
  split; intros H1 H2.
  - rewrite (A _ _ _ H1), (A' _ _ _ H2). auto.
  - rewrite (B _ _ _ H1), (B' _ _ _ H2). auto.
Qed.
Print Assumptions C51_frame.

(** ** C52 *)

(** The version read once is the version until _setup or _mock, whatever happens to the
    configuration in between. *)
Theorem C52_version_fixed :
  forall tr1 e v tr2 d, reach (tr1 ++ (e, GetMachineVersion, Ok (VVersion v)) :: tr2) d ->
  (forall t, In t tr2 -> forgets_all (op_of t) = false) ->
  forall e' tr' d' r, call e' d GetMachineVersion tr' d' r <->
    tr' = [(e', GetMachineVersion, Ok (VVersion v))] /\ r = Ok (VVersion v) /\ d' = d.
Proof.
  intros tr1 e v tr2 d R N e' tr' d' r. apply runs_micro in R.
  apply msteps_split in R as (d1 & _ & R). inversion R as [|? ? d2 ? ? S1 R2]; subst.
  destruct S1 as [S1|[S1 _]]; [|discriminate S1]. cbn in S1.
  destruct (get_machine_version e d1) as [d3 r3] eqn:E. injection S1 as <- B. destruct r3 as [v3|]; [|discriminate].
  injection B as ->.
  assert (d_version d3 = Some v) as V3.
  { unfold get_machine_version in E. destruct (d_version d1) eqn:V; [injection E as <- ->; auto|].
    destruct (version_factory _ _); [|discriminate]. cbn in E. destruct (_ && _); [discriminate|].
    injection E as <- ->. auto. }
  pose proof (version_stays _ _ _ R2 N _ V3) as V.
  assert (get_machine_version e' d = (d, Ok v)) as G by (unfold get_machine_version; rewrite V; auto).
  split.
  - intros H. apply call_plain in H as [-> H]; auto. cbn in H. rewrite G in H. injection H as <- <-. auto.
  - intros (-> & -> & ->). apply CPlain. cbn. rewrite G. auto.
Qed.
Print Assumptions C52_version_fixed.

(** The first reading after _setup or _mock (or at the start) is what version_factory gives
    for the configuration of that call. *)
Theorem C52_version_first :
  forall tr d, reach tr d -> (forall t, In t (since forgets_all tr) -> reads_version (op_of t) = false) ->
  forall e tr' d' r, call e d GetMachineVersion tr' d' r ->
  match version_factory (e_config e) (e_minor e) with
  | Err x => r = Err x
  | Ok v => r = Ok (VVersion v) \/
      r = Err MachineExc /\ quads_maps (v_id v) <> None /\
      exists t m, In t (since resets tr) /\ op_of t = SetVtoP m /\ m <> [] /\ res_of t = Ok VNone
  end.
Proof.
  intros tr d R N e tr' d' r H.
  pose proof (reach_unread _ _ R N) as V. pose proof (reach_vtop _ _ R) as P.
  apply call_plain in H as [_ H]; auto. cbn in H. unfold get_machine_version in H. rewrite V in H.
  destruct (version_factory (e_config e) (e_minor e)) as [v|x]; [|injection H as <- <-; auto].
  cbn in H. destruct (dict_true (quads_maps (v_id v)) && dict_true (d_v_to_p d)) eqn:T; injection H as <- <-; auto.
  apply Bool.andb_true_iff in T as [T1 T2]. right. split; auto. split; [intros Q; rewrite Q in T1; discriminate|].
  destruct (d_v_to_p d) as [m|] eqn:D; [|discriminate]. destruct (P m eq_refl) as (t & A & B & C).
  exists t, m. split; auto. split; auto. split; auto. intros ->. discriminate.
Qed.
Print Assumptions C52_version_first.

(** ** Concrete histories *)
Definition demo_config (n : Z) : config :=
  mkConfig (Some n) None None None None None false None None None None None None false.
Definition demo_env (n : Z) : env := mkEnv (demo_config n) 10 false false true.
Definition demo_user : env := mkEnv (demo_config 5) 10 true true true.

(** Runs calls that need no generator of the user. *)
Definition exec_get (e : env) (d : data) : option (trace * data * res machine) :=
  let d := touch e d in
  match d_machine d with
  | Some m => Some ([], d, Ok m)
  | None =>
      match d_generator d with
      | None => Some ([], d, Err DataNotAvailable)
      | Some (UserGen _) => None
      | Some MockGen =>
          let '(d1, rv) := get_machine_version e d in
          let t := (e, GetMachineVersion, vmap VVersion rv) in
          match rv with
          | Err x => Some ([t], d1, Err x)
          | Ok v =>
              match virtual_machine_by_boards (e_config e) v 1 true with
              | Err x => Some ([t], d1, Err x)
              | Ok m => Some ([t; (e, SetMachine (Some m), Ok VNone)], set_d_machine d1 (Some m), Ok m)
              end
          end
      end
  end.

Definition exec (e : env) (d : data) (o : op) : option (trace * data * res value) :=
  match o with
  | GetMachine =>
      match exec_get e d with
      | Some (tr, d', r) => Some ((e, GetMachine, vmap VMachine r) :: tr, d', vmap VMachine r)
      | None => None
      end
  | _ => match plain_step e d o with Some (d', r) => Some ([(e, o, r)], d', r) | None => None end
  end.

Fixpoint exec_all (d : data) (l : list (env * op)) : option (trace * data) :=
  match l with
  | [] => Some ([], d)
  | (e, o) :: l' =>
      match exec e d o with
      | Some (tr, d', _) => match exec_all d' l' with Some (tr', d'') => Some (tr ++ tr', d'') | None => None end
      | None => None
      end
  end.

Lemma exec_get_run e d tr d' r : exec_get e d = Some (tr, d', r) -> get_run e d tr d' r.
Proof.
  unfold exec_get. destruct (d_machine (touch e d)) as [m|] eqn:M; [intros [= <- <- <-]; constructor; auto|].
  destruct (d_generator (touch e d)) as [[|]|] eqn:G; [discriminate| |intros [= <- <- <-]; constructor; auto].
  destruct (get_machine_version e (touch e d)) as [d1 [v|x]] eqn:V.
  - destruct (virtual_machine_by_boards (e_config e) v 1 true) as [m|x] eqn:B; intros [= <- <- <-].
    + apply (GGen e d MockGen [(e, GetMachineVersion, Ok (VVersion v)); (e, SetMachine (Some m), Ok VNone)]
        (set_d_machine d1 (Some m)) (Ok tt)); auto. apply (RMock e _ d1 (Ok v)); auto. apply MSet; eauto.
    + apply (GGen e d MockGen [(e, GetMachineVersion, Ok (VVersion v))] d1 (Err x)); auto. apply (RMock e _ d1 (Ok v)); auto. apply MMachine; eauto.
  - intros [= <- <- <-].
    apply (GGen e d MockGen [(e, GetMachineVersion, Err x)] d1 (Err x)); auto. apply (RMock e _ d1 (Err x)); auto. apply MVersion.
Qed.

Lemma exec_call e d o tr d' r : exec e d o = Some (tr, d', r) -> call e d o tr d' r.
Proof.
  intros H.
  assert ((exists r1 tr1, o = GetMachine /\ exec_get e d = Some (tr1, d', r1) /\
     tr = (e, GetMachine, vmap VMachine r1) :: tr1 /\ r = vmap VMachine r1) \/
     plain_step e d o = Some (d', r) /\ tr = [(e, o, r)]) as [(r1 & tr1 & -> & G & -> & ->)|[P ->]].
  { unfold exec in H. destruct o; try (right; destruct (plain_step _ _ _) as [[d1 r1]|]; [injection H as <- <- <-; auto|discriminate]).
    left. destruct (exec_get e d) as [[[tr1 d1] r1]|]; [|discriminate]. injection H as <- <- <-. exists r1, tr1. auto. }
  - apply CGet, exec_get_run; auto.
  - apply CPlain; auto.
Qed.

Lemma exec_runs l : forall d tr d', exec_all d l = Some (tr, d') -> runs d tr d'.
Proof.
  induction l as [|[e o] l IH]; cbn; intros d tr d' H; [injection H as <- <-; constructor|].
  destruct (exec e d o) as [[[tr1 d1] r1]|] eqn:E; [|discriminate].
  destruct (exec_all d1 l) as [[tr2 d2]|] eqn:A; [|discriminate]. injection H as <- <-.
  econstructor; [apply exec_call; eauto|eauto].
Qed.

Lemma exec_reach l tr d : exec_all data_new l = Some (tr, d) -> reach tr d.
Proof. apply exec_runs. Qed.

(** A history in mock mode: the machine is made once, is dropped for the user after a soft
    reset and made again, and a hard reset forgets it and the monitors but not the version. *)
Definition demo_calls : list (env * op) :=
  let e := demo_env 5 in
  [(e, Mock); (e, HasExistingMachine); (e, AddMonitorCore true); (e, AddMonitorCore false); (e, GetMachine);
   (e, GetMachine); (demo_env 3, GetMachineVersion); (e, GetNearestEthernet 3 4); (e, GetNearestEthernet 9 9);
   (e, GetEthernetMonitorCores); (e, GetAllMonitorCores); (demo_user, GetMachine);
   (e, SetVtoP [((0, 0), [0; 5])]); (e, GetPhysicalCoreId (0, 0) (-1)); (e, SetVtoP []);
   (e, HardReset); (e, GetEthernetMonitorCores); (e, HasExistingMachine); (e, SetVtoP []); (demo_env 3, GetMachineVersion);
   (e, GetPhysicalQuad 1)].

Definition brief (r : res value) : res Z :=
  match r with
  | Ok (VMachine m) => Ok (n_chips m)
  | Ok (VInt n) => Ok n
  | Ok (VBool b) => Ok (if b then 1 else 0)
  | Ok (VXY p) => Ok (100 * fst p + snd p)
  | Ok (VVersion v) => Ok (max_cores_per_chip v)
  | Ok _ => Ok 0
  | Err x => Err x
  end.

Example C49_case :
  option_map (fun p => map (fun t => brief (res_of t)) (fst p)) (exec_all data_new demo_calls) =
  Some [Ok 0; Ok 0; Ok 0; Ok 0; Ok 48; Ok 18; Ok 0;
        Ok 48; Ok 18; Ok 0; Ok 909; Ok 2; Ok 1; Ok 48; Ok 18; Ok 0;
        Ok 0; Ok 5; Err MachineExc; Ok 0; Ok 0; Ok 0; Ok 0; Ok 18; Err DataNotAvailable] /\
  match exec_all data_new demo_calls with
  | Some (tr, d) => reach tr d
  | None => False
  end.
Proof.
  split; [vm_compute; reflexivity|].
  destruct (exec_all data_new demo_calls) as [[tr d]|] eqn:E; [apply exec_reach in E; auto|].
  vm_compute in E. discriminate.
Qed.

(** A generator of the user that sets no machine *)
Definition empty_machine : machine := new_machine NoWrap 8 8 [] ""%string.

Example C49_generator_case :
  exists tr d, reach tr d /\ machine_after tr = None /\ generator_after tr = Some (UserGen 7) /\
    (exists tr', call (demo_env 5) d GetMachine tr' d (Err MachineExc)) /\
    (exists tr' d', call (demo_env 5) d GetMachine tr' d' (Ok (VMachine empty_machine))).
Proof.
  set (e := demo_env 5). set (d := set_d_generator data_new (Some (UserGen 7))).
  exists [(e, SetMachineGenerator (Some 7), Ok VNone)], d. split; [|split; [|split; [|split]]]; try reflexivity.
  - apply (runs_cons e data_new (SetMachineGenerator (Some 7)) [(e, SetMachineGenerator (Some 7), Ok VNone)] d (Ok VNone) [] d).
    + apply CPlain. reflexivity.
    + constructor.
  - eexists. apply (CGet e d [] d (Err MachineExc)).
    apply (GGen e d (UserGen 7) [] d (Ok tt)); try reflexivity. apply RUser. constructor.
  - do 2 eexists. apply (CGet e d [(e, SetMachine (Some empty_machine), Ok VNone)] (set_d_machine d (Some empty_machine)) (Ok empty_machine)).
    apply (GGen e d (UserGen 7) [(e, SetMachine (Some empty_machine), Ok VNone)] (set_d_machine d (Some empty_machine)) (Ok tt)); try reflexivity.
    apply RUser. apply (runs_cons e d (SetMachine (Some empty_machine)) [(e, SetMachine (Some empty_machine), Ok VNone)]
      (set_d_machine d (Some empty_machine)) (Ok VNone) [] (set_d_machine d (Some empty_machine))).
    + apply CPlain. reflexivity.
    + constructor.
Qed.

(** After the clash was reported once both maps are held and every later call works: the
    claim that the two are exclusive is false without the condition on the history. *)
Example C50_exclusive_refuted :
  exists tr d, reach tr d /\
    map (fun t => brief (res_of t)) tr = [Ok 0; Err MachineExc; Ok 153] /\
    (exists d1 tr1 n, call (demo_env 248) d (GetPhysicalCoreId (0, 0) 1) tr1 d1 (Ok n)) /\
    (exists d2 tr2 q, call (demo_env 248) d (GetPhysicalQuad 3) tr2 d2 (Ok q)).
Proof.
  set (l := [(demo_env 248, SetVtoP [((0, 0), [0; 5])]); (demo_env 248, GetMachineVersion); (demo_env 248, GetMachineVersion)]).
  destruct (exec_all data_new l) as [[tr d]|] eqn:E; [|vm_compute in E; discriminate].
  exists tr, d. split; [eapply exec_reach; eauto|].
  vm_compute in E. injection E as <- <-. split; [reflexivity|]. split.
  - do 3 eexists. apply CPlain. vm_compute. reflexivity.
  - do 3 eexists. apply CPlain. vm_compute. reflexivity.
Qed.

(** Monitor cores counted, and forgotten by a hard reset. *)
Example C51_case :
  let e := demo_env 5 in
  option_map (fun x => (map (fun t => brief (res_of t)) (fst x)))
    (exec_all data_new [(e, AddMonitorCore true); (e, AddMonitorCore false); (e, AddMonitorCore true); (e, SoftReset);
       (e, GetEthernetMonitorCores); (e, GetAllMonitorCores); (e, HardReset); (e, AddMonitorCore false);
       (e, GetEthernetMonitorCores); (e, GetAllMonitorCores)]) =
  Some [Ok 0; Ok 0; Ok 0; Ok 0; Ok 3; Ok 2; Ok 0; Ok 0; Ok 1; Ok 0].
Proof. vm_compute. reflexivity. Qed.

(** The version read first stays, though the configuration now says another one, until _setup. *)
Example C52_case :
  option_map (fun x => (map (fun t => brief (res_of t)) (fst x)))
    (exec_all data_new [(demo_env 248, GetMachineVersion); (demo_env 5, GetMachineVersion); (demo_env 5, HardReset);
       (demo_env 5, GetMachineVersion); (demo_env 5, Setup); (demo_env 5, GetMachineVersion)]) =
  Some [Ok 153; Ok 153; Ok 0; Ok 153; Ok 0; Ok 18].
Proof. vm_compute. reflexivity. Qed.
