(** C31-C34 (and the end of C30): machine_repair *)
From Coq Require Import Lia ZifyBool.
From Verif Require Import Model_Py Model_Wrap Model_Version Model_Core Model_Machine Model_Str Model_Ignore
  Model_Factory Model_Virtual Model_Repair
  Spec_Hops Spec_Version Spec_Machine Spec_Router Spec_Repair
  Proof_Wrap Proof_Py Proof_Board Proof_Version Proof_Machine Proof_Report Proof_Repair Proof_RepairEnd Proof_RepairOff Proof_Virtual
  Proof_VirtualMachine Prop_Virtual.
Open Scope list_scope.
Open Scope Z_scope.

(** ** C31 *)

(** Every call ends, with one result. *)
Theorem C31_ends :
  forall repair v m removed, made_machine v m ->
    exists r, repairs repair v m removed r /\ forall r', repairs repair v m removed r' -> r' = r.
Proof.
  intros repair v m removed M. destruct (made_good v m M) as [W F].
  destruct (repairs_total repair v m removed W F) as [r R]. exists r. split; auto.
  intros r' R'. symmetry. eapply repairs_det; eauto.
Qed.
Print Assumptions C31_ends.

(** Each recursive call gets a machine with strictly fewer chips plus links, made
    again from the constructors. *)
Theorem C31_each_round_is_smaller :
  forall repair v m removed n, made_machine v m ->
    repair_step repair v m removed = Ok (Some n) ->
    made_machine v n /\ 0 <= chips_and_links n < chips_and_links m.
Proof.
  intros repair v m removed n M E. pose proof (made_good v m M) as [W F].
  destruct (step_next _ _ _ _ _ W F E) as (_ & Mn & Wn & Fn & _). split.
  - split; auto. eapply Forall_impl; [|exact Fn]. apply proper_made_chip.
  - rewrite <- !weight_chips by auto. split; [apply weight_pos|]. eapply step_weight; eauto.
Qed.
Print Assumptions C31_each_round_is_smaller.

(** ** C32 *)
Theorem C32_result_is_clean :
  forall repair v m removed m', made_machine v m ->
    repairs repair v m removed (Ok m') ->
    clean m' /\ one_way_links m' = [] /\
    unreachable_incoming_local_chips m' = [] /\ unreachable_outgoing_local_chips m' = [].
Proof.
  intros repair v m removed m' M R. apply made_good in M.
  pose proof (repairs_inv good repair v (fun m r n => good_next repair v m r n) m removed _ R M) as H.
  cbn beta iota in H. destruct H as [[W F] [rem' E]].
  pose proof E as E0. apply done_clean in E; auto. split; auto.
  apply clean_reports in E as [B O]; auto.
  - unfold bad_chips in B. apply app_eq_nil in B as [B1 B]. apply app_eq_nil in B as [B2 _]. auto.
  - apply step_inv in E0 as (A & _). eapply checks_parents; eauto.
Qed.
Print Assumptions C32_result_is_clean.

(** ** C33 *)

(** The result has the same size, the chips of the original in the same order
    except removed ones, each with the same values and some of its links. *)
Theorem C33_only_removes :
  forall repair v m removed m', made_machine v m ->
    repairs repair v m removed (Ok m') ->
    m_width m' = m_width m /\ m_height m' = m_height m /\
    subseq (map c_xy (chips m')) (map c_xy (chips m)) /\
    (forall ch', In ch' (chips m') -> exists ch, In ch (chips m) /\ chip_reduced ch ch').
Proof.
  intros repair v m removed m' M R. pose proof (made_good v m M) as G.
  assert (good m /\ part_of m m) as P by (split; [auto|apply part_refl]).
  pose proof (repairs_inv (fun x => good x /\ part_of m x) repair v) as H.
  specialize (H ltac:(intros a rem b [Ga Pa] E; split; [eapply good_next; eauto|exact (part_next _ _ _ _ _ _ G Ga Pa E)])).
  specialize (H m removed _ R P). cbn beta iota in H. destruct H as [[_ H] _]. exact H.
Qed.
Print Assumptions C33_only_removes.

(** A machine with nothing wrong is returned itself; and only such a machine. *)
Theorem C33_original_iff_clean :
  forall repair v m removed, made_machine v m ->
    (clean m <-> repairs repair v m removed (Ok m)).
Proof.
  intros repair v m removed M. split.
  - intros C. apply repairs_done. apply done_clean; auto. apply (made_good v m M).
  - intros R. apply (C32_result_is_clean repair v m removed m M R).
Qed.
Print Assumptions C33_original_iff_clean.

(** Otherwise the result is a new machine, which was validated. *)
Theorem C33_new_machine :
  forall repair v m removed m', made_machine v m ->
    repairs repair v m removed (Ok m') ->
    m' = m \/
    (made_machine v m' /\ chips_and_links m' < chips_and_links m /\ validate v m' = Ok tt /\
     m_kind m' = machine_class v (m_width m) (m_height m) /\ m_ccm m' = chip_core_map v /\ m_origin m' = "Fixed"%string).
Proof.
  intros repair v m removed m' M R. remember (Ok m') as r eqn:Er. revert M Er.
  induction R as [m removed e E|m removed E|m removed n r E R IH]; intros M Er; [discriminate| |].
  - left. congruence.
  - right. destruct (C31_each_round_is_smaller repair v m removed n M E) as [Mn L].
    destruct (made_good v m M) as [W F].
    destruct (step_next _ _ _ _ _ W F E) as (_ & _ & _ & _ & _ & K1 & K2 & K3 & K4 & KO & V).
    destruct (IH Mn Er) as [->|(A & B & C & D & G & O)].
    + split; auto. split; [lia|]. auto.
    + rewrite K1, K2 in D. split; auto. split; [lia|]. auto.
Qed.
Print Assumptions C33_new_machine.

(** Nothing is removed without need: a set of chips and links that is sound by
    itself is on the result. *)
Theorem C33_sound_parts_stay :
  forall repair v m removed m' cs ls, made_machine v m ->
    m_kind m = machine_class v (m_width m) (m_height m) ->
    sound_part m cs ls -> repairs repair v m removed (Ok m') ->
    (forall x y, cs (x, y) -> is_chip_at m' x y = true) /\
    (forall x y l, ls x y l -> link_at m' x y l).
Proof.
  intros repair v m removed m' cs ls M K S R. pose proof (made_good v m M) as G.
  assert (good m /\ m_kind m = machine_class v (m_width m) (m_height m) /\ sound_part m cs ls) as P by auto.
  pose proof (repairs_inv (fun x => good x /\ m_kind x = machine_class v (m_width x) (m_height x) /\
    sound_part x cs ls) repair v) as H.
  specialize (H ltac:(intros a rem b (Ga & Ka & Sa) E; split; [eapply good_next; eauto|split;
    [|exact (sound_next _ _ _ _ _ _ _ Ga Ka Sa E)];
    destruct (step_next _ _ _ _ _ (proj1 Ga) (proj2 Ga) E) as (_ & _ & _ & _ & _ & K1 & K2 & K3 & _);
    congruence])).
  specialize (H m removed _ R P). cbn beta iota in H. destruct H as [(_ & _ & S') _]. split.
  - intros x y H. destruct (sound_chips _ _ _ S' x y H) as [ch Gc]. unfold is_chip_at, dmem.
    unfold get_chip_at in Gc. rewrite Gc. auto.
  - intros x y l H. destruct (sound_links _ _ _ S' x y l H) as (_ & _ & ch & k & Gc & GL & _).
    exists ch, k. auto.
Qed.
Print Assumptions C33_sound_parts_stay.

(** When no chip records a parent, the result is exactly the largest sound part:
    its own chips and links are one. *)
Theorem C33_result_is_a_sound_part :
  forall repair v m removed m', made_machine v m ->
    m_kind m = machine_class v (m_width m) (m_height m) ->
    (forall ch, In ch (chips m) -> c_parent ch = None) ->
    repairs repair v m removed (Ok m') ->
    sound_part m (fun p => is_chip_at m' (fst p) (snd p) = true)
      (fun x y l => 0 <= l < 6 /\ link_at m' x y l).
Proof.
  intros repair v m removed m' M K NP R. pose proof (made_good v m M) as [W F].
  destruct (C32_result_is_clean _ _ _ _ _ M R) as ((C1 & C2 & _) & _).
  destruct (C33_only_removes _ _ _ _ _ M R) as (_ & _ & _ & P).
  assert (wf m') as W'.
  { destruct (C33_new_machine _ _ _ _ _ M R) as [->|(M' & _)]; auto. apply (made_good v m' M'). }
  assert (forall x y ch', get_chip_at m' x y = Some ch' -> exists ch, get_chip_at m x y = Some ch /\ chip_reduced ch ch') as OLD.
  { intros x y ch' G. apply get_chip_in in G as [H X]; auto. destruct (P ch' H) as (ch & Hc & CR).
    exists ch. split; auto. apply get_chip_in; auto. split; auto. rewrite <- X.
    destruct CR as (E1 & E2 & _). unfold c_xy. congruence. }
  assert (forall x y l, link_at m' x y l -> exists ch' k, get_chip_at m' x y = Some ch' /\
    get_link (c_router ch') l = Some k) as IL.
  { intros x y l H. exact H. }
  split.
  - cbn [fst snd]. intros x y H. apply present_get in H as [ch' G]. destruct (OLD x y ch' G) as (ch & Gc & _). eauto.
  - cbn [fst snd]. intros x y l [L H]. destruct (IL x y l H) as (ch' & k & G & GL).
    split; [apply present_get; eauto|]. split; auto. destruct (OLD x y ch' G) as (ch & Gc & CR).
    exists ch, k. split; auto. split; [apply CR; auto|]. split; [apply Z.mod_pos_bound; lia|].
    apply get_chip_in in G as [Hc _]; auto. eapply C1; eauto.
  - cbn [fst snd]. intros x y ch H G. apply present_get in H as [ch' G'].
    destruct (OLD x y ch' G') as (c2 & G2 & CR). assert (c2 = ch) as -> by congruence.
    pose proof G' as G0. apply get_chip_in in G0 as [Hc X]; auto. injection X as X1 X2.
    destruct (C2 ch' Hc) as [(l & q & n & [L Q] & I & Gn & E) _]. rewrite X1, X2 in Q.
    destruct (OLD _ _ n Gn) as (n0 & Gn0 & CRn). exists l, q, n0.
    split; [split; auto|]. split.
    { split; auto. apply link_at_iff. unfold is_link_at. unfold get_chip_at in G'. rewrite G'. exact I. }
    split; [apply present_get; eauto|]. split; auto.
    destruct CR as (_ & _ & _ & _ & _ & E1 & E2 & _). destruct CRn as (_ & _ & _ & _ & _ & E3 & E4 & _). congruence.
  - cbn [fst snd]. intros x y ch H G. apply present_get in H as [ch' G'].
    destruct (OLD x y ch' G') as (c2 & G2 & CR). assert (c2 = ch) as -> by congruence.
    pose proof G' as G0. apply get_chip_in in G0 as [Hc X]; auto. injection X as X1 X2.
    destruct (C2 ch' Hc) as [_ (l & q & n & [L Q] & Gn & I & E)]. rewrite X1, X2 in Q.
    destruct (OLD _ _ n Gn) as (n0 & Gn0 & CRn). exists l, q, n0.
    split; [split; auto|]. split.
    { split; [apply Z.mod_pos_bound; lia|]. apply link_at_iff. unfold is_link_at. unfold get_chip_at in Gn. rewrite Gn. exact I. }
    split; [apply present_get; eauto|]. split; auto.
    destruct CR as (_ & _ & _ & _ & _ & E1 & E2 & _). destruct CRn as (_ & _ & _ & _ & _ & E3 & E4 & _). congruence.
  - cbn [fst snd]. intros x y ch p _ G PP. apply get_chip_in in G as [Hc _]; auto. rewrite NP in PP by auto. discriminate.
Qed.
Print Assumptions C33_result_is_a_sound_part.

(** ** C34 *)

(** Repair off: something wrong that the removed chips do not explain raises. *)
Theorem C34_unexpected_raises :
  forall v m removed, made_machine v m -> unexpected m removed ->
    exists e, (forall r, repairs false v m removed r <-> r = Err e) /\
      (e = MachineExc \/ e = KeyError \/ e = IndexError) /\
      (messages_work m -> e = MachineExc).
Proof.
  intros v m removed M U. destruct (made_good v m M) as [W F].
  assert (exists e, repair_step false v m removed = Err e /\
    (e = MachineExc \/ e = KeyError \/ e = IndexError) /\ (messages_work m -> e = MachineExc)) as (e & E & K).
  { rewrite step_eq. apply unexpected_seen in U; auto. destruct (all_checks m removed) as [[]|e] eqn:A; cbn [bind].
    - cbn [negb andb]. rewrite U. eauto 6.
    - exists e. split; auto. split; [right; eapply all_checks_err; eauto|].
      intros MW. rewrite (messages_checks m removed W MW) in A. discriminate. }
  exists e. split; auto. intros r. split.
  - intros R. apply (repairs_det false v m removed _ R). apply repairs_raises. auto.
  - intros ->. apply repairs_raises. auto.
Qed.
Print Assumptions C34_unexpected_raises.

(** Repair off and no exception: nothing was unexpected, every chip stays, and
    exactly the one way links are gone. *)
Theorem C34_only_expected_links_go :
  forall v m removed m', made_machine v m ->
    repairs false v m removed (Ok m') ->
    ~ unexpected m removed /\
    map c_xy (chips m') = map c_xy (chips m) /\
    forall x y ch ch', get_chip_at m x y = Some ch -> get_chip_at m' x y = Some ch' ->
      chip_reduced ch ch' /\
      forall l k, get_link (c_router ch') l = Some k <->
        get_link (c_router ch) l = Some k /\ ~ one_way m ch l.
Proof.
  intros v m removed m' M R. pose proof (made_good v m M) as G.
  inversion R as [|? ? E|? ? n ? E R']; subst.
  - pose proof E as E0. apply done_clean in E; [|apply G]. split.
    { intros U. apply unexpected_seen in U; [|apply G]. apply step_inv in E0 as (_ & NB & _).
      destruct (NB eq_refl) as [B X]. rewrite B in U. cbn in U. apply negb_true_iff in U.
      assert (forallb (expected_link m' removed) (one_way_links m') = true) by (apply forallb_forall; auto). congruence. }
    split; auto. intros x y ch ch' G1 G2. assert (ch' = ch) as -> by congruence.
    split; [apply chip_reduced_refl|]. intros l k. split; [|tauto]. intros GL. split; auto.
    intros (Rl & k' & GL' & NL). apply get_chip_in in G1 as [Hc _]; [|apply G].
    destruct E as (C1 & _). apply NL. exact (C1 ch l k' Hc Rl GL').
  - destruct (off_round v m removed n G E) as (C & NU & _). split; auto.
    destruct (C31_each_round_is_smaller _ _ _ _ _ M E) as [Mn _]. pose proof (made_good v n Mn) as Gn.
    assert (m' = n) as ->.
    { inversion R' as [|? ? E2|? ? n2 ? E2 R2]; subst; auto. exfalso.
      pose proof E2 as E3. apply step_inv in E2 as (_ & NB & [(X & _)|(n3 & _ & NE & _)]); [discriminate|].
      unfold round_chips in NE. destruct NE as [NE|NE]; [congruence|].
      apply NE. unfold round_links. cbn [orb]. destruct (NB eq_refl) as [_ X].
      destruct (filter (expected_link n []) (one_way_links n)) as [|t l] eqn:FF; auto.
      assert (In t (t :: l)) as Ht by (left; auto). rewrite <- FF in Ht. apply filter_In in Ht as [_ Ht].
      unfold expected_link in Ht. destruct t as [[[x y] o] b]. destruct (m_over n x y o); discriminate. }
    split.
    + rewrite C, map_map. apply map_ext. intros; apply reduce_xy.
    + intros x y ch ch' G1 G2. apply (off_chips m n x y ch ch' G); auto. apply Gn.
Qed.
Print Assumptions C34_only_expected_links_go.

(** Repair off: on a valid machine whose links lead to neighbours, with everything
    explained by removed chips that are indeed not there, no exception is raised. *)
Theorem C34_expected_is_silent :
  forall v m removed, made_machine v m ->
    supported v (m_width m) (m_height m) ->
    m_kind m = machine_class v (m_width m) (m_height m) -> m_ccm m = chip_core_map v ->
    validate v m = Ok tt -> straight_links m ->
    (forall p, In p removed -> is_chip_at m (fst p) (snd p) = false) ->
    ~ unexpected m removed -> messages_work m ->
    exists m', repairs false v m removed (Ok m').
Proof.
  intros v m removed M S K CC V ST AW NU MW. pose proof (made_good v m M) as G. pose proof G as [W F].
  assert (well_formed v m) as WF by (apply validate_spec; auto).
  assert (forall ch, In ch (chips m) -> 0 <= c_x ch < m_width m /\ 0 <= c_y ch < m_height m) as IN.
  { intros ch H. destruct WF as (_ & _ & D). destruct (D ch H) as (D1 & D2 & _). auto. }
  assert (good_size (m_kind m) (m_width m) (m_height m)) as SZ.
  { rewrite K. apply good_supported. auto. }
  pose proof (messages_checks m removed W MW) as AC.
  assert (bad_chips m = [] /\ forallb (expected_link m removed) (one_way_links m) = true) as [B FA].
  { destruct (negb (isnil (bad_chips m)) || negb (forallb (expected_link m removed) (one_way_links m))) eqn:Q.
    - exfalso. apply NU. apply unexpected_seen; auto.
    - apply orb_false_iff in Q as [Q1 Q2]. apply negb_false_iff in Q1, Q2. split; auto.
      destruct (bad_chips m); auto. discriminate. }
  assert (filter (fun t => false || expected_link m removed t) (one_way_links m) = one_way_links m) as FE.
  { cbn [orb]. revert FA. generalize (one_way_links m). clear. induction l as [|t l IH]; cbn; auto.
    intros H. apply andb_true_iff in H as [H1 H2]. rewrite H1. f_equal. auto. }
  destruct (ignore_links_ok v m (one_way_links m) G S K CC WF) as [n IG].
  destruct (repair_step false v m removed) as [[n'|]|e] eqn:E.
  - assert (n' = n) as ->.
    { rewrite step_eq, AC in E. cbn [bind negb andb] in E. rewrite B, FA, FE in E. cbn [isnil negb orb] in E.
      destruct (one_way_links m); [discriminate|]. rewrite IG in E. cbn in E. congruence. }
    destruct (C31_each_round_is_smaller _ _ _ _ _ M E) as [Mn _]. pose proof (made_good v n Mn) as [Wn _].
    destruct (off_round v m removed n G E) as (C & _).
    destruct (step_next _ _ _ _ _ W F E) as (_ & _ & _ & _ & _ & K1 & K2 & K3 & _).
    exists n. eapply repairs_again; eauto. apply repairs_done. apply done_clean; auto.
    apply (straight_clean m n G Wn C SZ IN ST removed AW NU); auto; [|congruence].
    intros ch p Hc P. apply (MW ch Hc). auto.
  - exists m. apply repairs_done. auto.
  - exfalso. rewrite step_eq, AC in E. cbn [bind negb andb] in E. rewrite B, FA, FE in E. cbn [isnil negb orb] in E.
    destruct (one_way_links m); [discriminate|]. rewrite IG in E. cbn in E. discriminate.
Qed.
Print Assumptions C34_expected_is_silent.

(** ** C30: repairing virtual machines *)

(** Virtual machines are made from the constructors, so C31-C34 are about them. *)
Theorem C28_virtual_is_made :
  forall c V w h check m, virtual_machine c V w h check = Ok m -> made_machine (v_id V) m.
Proof.
  intros c V w h check m E. apply virtual_built in E as (dch & dco & dl & B & _).
  destruct (b_rest _ _ _ _ _ _ _ _ B) as (eths & uc & L & U & C & m1 & m2 & _ & _ & H & E2 & E3 & _).
  split.
  - eexists _, _, _, _, _, (_ ++ [CallAddSpinnakerLinks; CallAddFpgaLinks]). unfold start in H.
    rewrite history_app, <- H. cbn [history exec]. rewrite E2. cbn. rewrite E3. reflexivity.
  - rewrite C. apply Forall_forall. intros ch Hc. apply in_map_iff in Hc as ([xy [e n]] & <- & _).
    apply proper_made_chip. split.
    + cbn [vchip new_chip c_router].
      assert (router_links (vrouter V (start (v_id V) w h) (virtual_unused_links dl w)
        (conf_list (v_id V) w h (virtual_unused_chips dch) (max_cores_per_chip V) eths) xy) =
        vlinks_from (start (v_id V) w h) (virtual_unused_links dl w)
        (conf_list (v_id V) w h (virtual_unused_chips dch) (max_cores_per_chip V) eths) xy (zrange 0 6)) as RL.
      { unfold router_links, vrouter, dvalues. cbn [r_links]. rewrite map_map. cbn. apply map_id. }
      split; rewrite RL; [reflexivity|]. apply vlinks_nodup. vm_compute.
      repeat (constructor; [cbn; intuition discriminate|]). constructor.
    + cbn [vchip new_chip c_tags]. unfold vip. destruct (xymem eths xy); [apply oset_of_nodup|constructor].
Qed.
Print Assumptions C28_virtual_is_made.

(** Without down items machine_repair returns the machine itself, whatever the
    settings (all versions but 201). *)
Theorem C30_needs_no_repair :
  forall c V w h check m repair removed,
    virtual_machine c V w h check = Ok m -> v_id V <> V201 ->
    parse_chips (cfg_down_chips c) = Ok [] -> parse_links (cfg_down_links c) = Ok [] ->
    forall r, repairs repair (v_id V) m removed r <-> r = Ok m.
Proof.
  intros c V w h check m repair removed E NV P1 P3.
  destruct (C30_nothing_to_report c V w h check m E P1 P3) as [O R]. destruct (R NV) as (R1 & R2 & _).
  pose proof (C28_virtual_is_made c V w h check m E) as M. destruct (made_good _ _ M) as [W F].
  assert (forall ch, In ch (chips m) -> c_parent ch = None) as NP.
  { apply virtual_built in E as (dch & dco & dl & B & _). intros ch Hc.
    assert (get_chip_at m (c_x ch) (c_y ch) = Some ch) as G by (apply get_chip_in; auto).
    destruct (proj1 (built_present B _ _) (ex_intro _ ch G)) as [(e & d & n & P) _].
    destruct (built_fields B _ _ ch e d n G P) as (_ & _ & _ & _ & _ & _ & _ & _ & _ & _ & X & _). exact X. }
  assert (clean m) as C.
  { apply clean_reports; auto.
    - intros ch p Hc P. rewrite NP in P by auto. discriminate.
    - split; auto. unfold bad_chips. rewrite R1, R2. cbn [app].
      assert (filter (orphan m) (chips m) = []) as ->; auto.
      apply nil_not_in. intros ch H. apply filter_In in H as [H X]. unfold orphan in X.
      rewrite NP in X by auto. discriminate. }
  assert (repairs repair (v_id V) m removed (Ok m)) as RR by (apply C33_original_iff_clean; auto).
  intros r. split; [intros R'; apply (repairs_det _ _ _ _ _ R' _ RR)|intros ->; auto].
Qed.
Print Assumptions C30_needs_no_repair.

(** The single chip machine of version 201 can not pass machine_repair. *)
Theorem C30_repair_of_single_chip_refuted :
  forall c V check m repair removed,
    v_id V = V201 -> virtual_machine c V 1 1 check = Ok m ->
    parse_chips (cfg_down_chips c) = Ok [] -> parse_links (cfg_down_links c) = Ok [] ->
    forall r, repairs repair (v_id V) m removed r <-> r = Err MachineExc.
Proof.
  intros c V check m repair removed HV E P1 P3.
  destruct (C30_single_chip_is_reported_refuted c V check m HV E P1) as [R1 R2].
  pose proof (C28_virtual_is_made c V 1 1 check m E) as M. destruct (made_good _ _ M) as [W F].
  destruct (C30_nothing_to_report c V 1 1 check m E P1 P3) as [O _].
  assert (exists ch, chips m = [ch] /\ c_xy ch = (0, 0) /\ (c_eth_x ch, c_eth_y ch) = (0, 0) /\ c_parent ch = None)
    as (ch & C & X & ET & NP).
  { apply virtual_built in E as (dch & dco & dl & B & _). destruct (b_read _ _ _ _ _ _ _ _ B) as (Q1 & Q2 & Q3).
    assert (dch = []) as -> by congruence.
    destruct (b_rest _ _ _ _ _ _ _ _ B) as (eths & uc & L & U & C & _).
    pose proof (lay_eths _ _ _ _ L) as EE. rewrite HV in EE. cbn in EE. apply Ok_inj in EE. subst eths.
    rewrite HV in C. unfold conf_list in C. cbn [flat_map entries_of chip_core_map V201_CHIPS] in C.
    eexists. split; [exact C|]. split; [apply vchip_xy|]. split; reflexivity. }
  assert (messages_work m) as MW.
  { intros c' H. rewrite C in H. destruct H as [<-|[]]. split; [|intros p P; congruence].
    injection ET as -> ->. apply present_get. exists ch. apply get_chip_in; auto. split; auto. rewrite C. left; auto. }
  assert (bad_chips m = [(0, 0); (0, 0)]) as B.
  { unfold bad_chips. rewrite R1, R2, C. cbn [app filter]. unfold orphan. rewrite NP. reflexivity. }
  assert (repair_step repair (v_id V) m removed = Err MachineExc) as ST.
  { rewrite step_eq, (messages_checks m removed W MW). cbn [bind]. rewrite B, O. cbn [isnil negb orb filter].
    destruct repair; cbn [negb andb]; auto.
    pose proof (ignore_spec (v_id V) m [(0, 0); (0, 0)] [] W F) as I.
    destruct (machine_ignore (v_id V) m [(0, 0); (0, 0)] []) as [n|e]; [|cbn; congruence].
    exfalso. destruct I as (_ & _ & Wn & _ & CN & _ & _ & _ & _ & _ & V0).
    apply validate_spec in V0; auto. destruct V0 as ((c0 & a & G & _) & _).
    apply get_chip_in in G as [G _]; auto. rewrite CN, C in G. apply in_survivors in G as (c1 & [<-|[]] & N & _).
    apply N. rewrite X. left; auto. }
  intros r. split; [intros R; apply (repairs_det _ _ _ _ _ R); apply repairs_raises; auto|].
  intros ->. apply repairs_raises. auto.
Qed.
Print Assumptions C30_repair_of_single_chip_refuted.

(** ** Cases *)
Definition demo_chip (x y : Z) (ids : list Z) (ip : option string) (parent : option Z) : chip :=
  let links := flat_map (fun l => match nw_xy_over_link x y l with
                                  | Ok (dx, dy) => [mkLink x y l dx dy] | Err _ => [] end) ids in
  new_chip x y [0] (zrange 1 18)
    (match new_router links 1023 with Ok r => r | Err _ => mkRouter [] 0 end)
    1000 0 0 ip None parent.

Definition demo_machine (cs : list chip) : machine :=
  fst (history V5 (new_machine NoWrap 8 8 (chip_core_map V5) "Demo") (map CallAddChip cs)).

(** Chip (1, 1) has a one way link to (2, 1), which has no links at all; (1, 1)
    has (2, 1) as its parent; the rest is fully linked. *)
Definition demo_broken : machine := demo_machine
  [demo_chip 0 0 [0; 1; 2] (Some "10.0.0.1"%string) None;
   demo_chip 1 0 [2; 3] None None;
   demo_chip 0 1 [0; 5] None None;
   demo_chip 1 1 [0; 3; 4; 5] None (Some 0);
   demo_chip 2 1 [] None None].

Lemma demo_chip_made x y ids ip parent : 
  (exists r, new_router (flat_map (fun l => match nw_xy_over_link x y l with
                                  | Ok (dx, dy) => [mkLink x y l dx dy] | Err _ => [] end) ids) 1023 = Ok r) ->
  made_chip (demo_chip x y ids ip parent).
Proof.
  intros [r R]. unfold demo_chip. cbv zeta. rewrite R. unfold made_chip.
  repeat eexists. exact R.
Qed.

Lemma demo_broken_made : made_machine V5 demo_broken.
Proof.
  split.
  - unfold demo_broken, demo_machine, made. repeat eexists.
  - unfold demo_broken, demo_machine. cbn [map history exec].
    assert (forall c1 c2 c3 c4 c5, made_chip c1 -> made_chip c2 -> made_chip c3 -> made_chip c4 -> made_chip c5 ->
      Forall made_chip [c1; c2; c3; c4; c5]) as K by (intros; repeat constructor; auto).
    match goal with |- Forall _ (chips ?m) =>
      assert (chips m = [demo_chip 0 0 [0; 1; 2] (Some "10.0.0.1"%string) None;
        demo_chip 1 0 [2; 3] None None; demo_chip 0 1 [0; 5] None None;
        demo_chip 1 1 [0; 3; 4; 5] None (Some 0); demo_chip 2 1 [] None None]) as -> by (vm_compute; reflexivity) end.
    apply K; apply demo_chip_made; eexists; vm_compute; reflexivity.
Qed.

(** The repaired machine keeps chip (1, 1) although its parent is gone: copying it
    without its one way link dropped the record of the parent. *)
Theorem C33_parent_is_forgotten_refuted :
  exists m' ch,
    repairs true V5 demo_broken [] (Ok m') /\
    map c_xy (chips m') = [(0, 0); (1, 0); (0, 1); (1, 1)] /\
    get_chip_at demo_broken 1 1 = Some ch /\ c_parent ch = Some 0 /\
    m_over demo_broken 1 1 0 = Ok (2, 1) /\ is_chip_at m' 2 1 = false.
Proof.
  eexists. eexists. split.
  { eapply repairs_again; [vm_compute; reflexivity|]. apply repairs_done. vm_compute. reflexivity. }
  split; [reflexivity|]. split; [vm_compute; reflexivity|]. repeat split; reflexivity.
Qed.
Print Assumptions C33_parent_is_forgotten_refuted.

Example C31_case : chips_and_links demo_broken = 16 /\
  exists n, repair_step true V5 demo_broken [] = Ok (Some n) /\ chips_and_links n = 14.
Proof. split; [reflexivity|]. eexists. split; [vm_compute; reflexivity|reflexivity]. Qed.

(** With repair off the same machine raises; the look ups for the message work. *)
Example C34_case :
  unexpected demo_broken [] /\ messages_work demo_broken /\
  repairs false V5 demo_broken [] (Err MachineExc).
Proof.
  assert (messages_work demo_broken) as MW.
  { intros ch H. vm_compute in H. destruct H as [H|[H|[H|[H|[H|[]]]]]]; subst ch; split; try reflexivity;
      intros p; cbn; try discriminate. intros [= <-]. lia. }
  assert (unexpected demo_broken []) as U.
  { apply unexpected_seen; [apply (made_good _ _ demo_broken_made)|]. vm_compute. reflexivity. }
  split; auto. split; auto.
  destruct (C34_unexpected_raises V5 demo_broken [] demo_broken_made U) as (e & R & _ & E).
  rewrite <- (E MW). apply R. auto.
Qed.

(** A one way link to a chip that was removed is dropped without complaint. *)
Example C34_silent_case :
  let m := demo_machine [demo_chip 0 0 [0; 1; 2] (Some "10.0.0.1"%string) None;
     demo_chip 1 0 [2; 3] None None; demo_chip 0 1 [0; 5] None None; demo_chip 1 1 [0; 3; 4; 5] None None] in
  exists m', repairs false V5 m [(2, 1)] (Ok m') /\
    is_link_at m 1 1 0 = true /\ is_link_at m' 1 1 0 = false /\ chips_and_links m' = 14 /\
    validate V5 m = Ok tt /\ supported V5 (m_width m) (m_height m) /\
    m_kind m = machine_class V5 (m_width m) (m_height m).
Proof.
  eexists. split.
  { eapply repairs_again; [vm_compute; reflexivity|]. apply repairs_done. vm_compute. reflexivity. }
  repeat split; try reflexivity. left. split; reflexivity.
Qed.

(** The machine of C31 is not clean; what is left of it is. *)
Example C32_case :
  one_way_links demo_broken <> [] /\ made_machine V5 demo_broken /\
  exists m', repairs true V5 demo_broken [] (Ok m') /\ clean m' /\ n_chips m' = 4.
Proof.
  split; [vm_compute; discriminate|]. split; [exact demo_broken_made|].
  destruct C33_parent_is_forgotten_refuted as (m' & ch & R & X & _). exists m'. split; [exact R|].
  destruct (C32_result_is_clean _ _ _ _ _ demo_broken_made R) as [C _]. split; [exact C|].
  destruct (C33_new_machine _ _ _ _ _ demo_broken_made R) as [->|(M & _)]; [vm_compute in X; discriminate X|].
  destruct (made_good _ _ M) as [W _]. unfold n_chips. rewrite (wf_chips m' W), map_length, <- (map_length c_xy), X. reflexivity.
Qed.
