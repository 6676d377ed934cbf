From Coq Require Import Lia ZifyBool.
From Verif Require Import Model_Py Model_Wrap Model_Version Model_Core Model_Machine Model_Repair
  Spec_Hops Spec_Version Spec_Machine Spec_Router Spec_Repair
  Proof_Wrap Proof_Py Proof_Board Proof_Version Proof_Machine Proof_Report Proof_Repair Proof_RepairEnd.
Open Scope list_scope.
Open Scope Z_scope.

Lemma present_get m x y : is_chip_at m x y = true <-> exists ch, get_chip_at m x y = Some ch.
Proof.
  unfold is_chip_at, get_chip_at, dmem. destruct (dget xy_eqb (m_chips m) (x, y)); split; eauto; try discriminate.
  intros [? ?]; discriminate.
Qed.

Lemma getitem_get m x y ch : get_chip_at m x y = Some ch -> getitem m (x, y) = Ok ch.
Proof. unfold get_chip_at, getitem, dgetitem. intros ->. auto. Qed.

Lemma check_eth_ok m ch : is_chip_at m (c_eth_x ch) (c_eth_y ch) = true -> check_eth m ch = Ok tt.
Proof.
  intros H. apply present_get in H as [e G]. unfold check_eth. rewrite (getitem_get _ _ _ _ G). auto.
Qed.

Lemma messages_checks m removed : wf m -> messages_work m -> all_checks m removed = Ok tt.
Proof.
  intros W MW.
  assert (forall p, In p (bad_chips m) -> check_chip m p = Ok tt) as CC.
  { intros [x y] H. apply bad_in in H as (ch & Hc & E); auto. unfold check_chip.
    rewrite (getitem_get m x y ch) by (apply get_chip_in; auto). cbn [bind]. apply check_eth_ok. apply (MW ch Hc). }
  unfold all_checks, bad_chips in *.
  assert (checks (check_chip m) (unreachable_incoming_local_chips m) = Ok tt) as ->.
  { apply checks_ok. intros a Ha. apply CC. rewrite !in_app_iff. auto. }
  assert (checks (check_chip m) (unreachable_outgoing_local_chips m) = Ok tt) as ->.
  { apply checks_ok. intros a Ha. apply CC. rewrite !in_app_iff. auto. }
  cbn [bind].
  assert (checks (check_link m removed) (one_way_links m) = Ok tt) as ->.
  { apply checks_ok. intros [[[x y] o] b] H. apply one_way_spec in H as (ch & k & G & R & _ & GL & _); auto.
    unfold check_link. destruct (over_six (m_kind m) (m_width m) (m_height m) x y o R) as [q Q].
    unfold m_over. rewrite Q. cbn [bind]. destruct (xymem removed q); auto.
    unfold uni_direction_message. rewrite (getitem_get _ _ _ _ G). cbn [bind].
    pose proof G as G0. apply get_chip_in in G0 as [Hc _]; auto. destruct (MW ch Hc) as [E _].
    apply present_get in E as [e Ge]. rewrite (getitem_get _ _ _ _ Ge). cbn [bind].
    destruct (get_chip_at m (fst q) (snd q)) as [d|] eqn:Gd; auto.
    apply get_chip_in in Gd as [Hd _]; auto. destruct (MW d Hd) as [E _].
    apply present_get in E as [e' Ge']. rewrite (getitem_get _ _ _ _ Ge'). auto. }
  cbn [bind]. apply checks_ok. intros ch Hc. unfold check_parent. destruct (c_parent ch) as [p|] eqn:P; auto.
  destruct (MW ch Hc) as [E R]. specialize (R p P).
  destruct (over_six (m_kind m) (m_width m) (m_height m) (c_x ch) (c_y ch) p R) as [q Q].
  unfold m_over. rewrite Q. cbn [bind]. destruct (is_chip_at m (fst q) (snd q)); auto. apply check_eth_ok; auto.
Qed.

Lemma getitem_err m p e : getitem m p = Err e -> e = KeyError.
Proof. unfold getitem, dgetitem. destruct (dget xy_eqb (m_chips m) p); congruence. Qed.

Lemma over_err m x y l e : m_over m x y l = Err e -> e = IndexError.
Proof.
  assert (forall e, py_index LINK_ADD_TABLE l = Err e -> e = IndexError) as P.
  { intros e' H. unfold py_index in H. cbv zeta in H.
    match type of H with (if ?b then _ else _) = _ => destruct b end; [congruence|].
    match type of H with match ?b with _ => _ end = _ => destruct b end; congruence. }
  unfold m_over, xy_over_link, nw_xy_over_link, hw_xy_over_link, vw_xy_over_link, fw_xy_over_link.
  destruct (m_kind m), (py_index LINK_ADD_TABLE l) as [[a b]|e'] eqn:Q; cbn [bind]; intros H;
    try discriminate; apply P; congruence.
Qed.

Lemma all_checks_err m removed e : all_checks m removed = Err e -> e = KeyError \/ e = IndexError.
Proof.
  assert (forall ch e, check_eth m ch = Err e -> e = KeyError) as CE.
  { intros ch e' H. unfold check_eth in H. destruct (getitem m _) eqn:G; [discriminate|]. cbn in H.
    apply getitem_err in G. congruence. }
  assert (forall p e, check_chip m p = Err e -> e = KeyError) as CC.
  { intros p e' H. unfold check_chip in H. destruct (getitem m p) eqn:G; cbn in H; eauto.
    apply getitem_err in G. congruence. }
  unfold all_checks. intros H.
  destruct (checks (check_chip m) (unreachable_incoming_local_chips m)) as [[]|] eqn:K1; cbn [bind] in H.
  2: { apply checks_err in K1 as (a & _ & K1). apply CC in K1. left. congruence. }
  destruct (checks (check_chip m) (unreachable_outgoing_local_chips m)) as [[]|] eqn:K2; cbn [bind] in H.
  2: { apply checks_err in K2 as (a & _ & K2). apply CC in K2. left. congruence. }
  destruct (checks (check_link m removed) (one_way_links m)) as [[]|] eqn:K3; cbn [bind] in H.
  2: { apply checks_err in K3 as ([[[x y] o] b] & _ & K3). unfold check_link in K3.
       destruct (m_over m x y o) as [q|] eqn:Q; cbn [bind] in K3; [|apply over_err in Q; right; congruence].
       destruct (xymem removed q); [discriminate|]. left. unfold uni_direction_message in K3.
       destruct (getitem m (x, y)) as [s|] eqn:G1; cbn [bind] in K3; [|apply getitem_err in G1; congruence].
       destruct (getitem m (c_eth_x s, c_eth_y s)) as [s'|] eqn:G2; cbn [bind] in K3; [|apply getitem_err in G2; congruence].
       destruct (get_chip_at m (fst q) (snd q)) as [d|]; [|discriminate].
       destruct (getitem m (c_eth_x d, c_eth_y d)) as [s''|] eqn:G3; cbn [bind] in K3; [discriminate|].
       apply getitem_err in G3; congruence. }
  apply checks_err in H as (ch & _ & H). unfold check_parent in H.
  destruct (c_parent ch); [|discriminate].
  destruct (m_over m (c_x ch) (c_y ch) z) as [q|] eqn:Q; cbn [bind] in H; [|apply over_err in Q; right; congruence].
  destruct (is_chip_at m (fst q) (snd q)); [discriminate|]. left. eauto.
Qed.

(** With repair off an unexpected defect is seen by the test for an error. *)
Lemma unexpected_seen m removed : wf m ->
  (unexpected m removed <->
   negb (isnil (bad_chips m)) || negb (forallb (expected_link m removed) (one_way_links m)) = true).
Proof.
  intros W. rewrite orb_true_iff, !negb_true_iff. split.
  - intros U.
    assert (forall ch, In ch (chips m) -> In (c_xy ch) (bad_chips m) -> isnil (bad_chips m) = false) as NB.
    { intros ch _ H. destruct (bad_chips m); [destruct H|auto]. }
    destruct U as [ch Hc N|ch Hc N|ch p q Hc P Q I|ch l q Hc O Q N].
    + left. apply (NB ch Hc). apply bad_spec; auto.
    + left. apply (NB ch Hc). apply bad_spec; auto.
    + left. apply (NB ch Hc). apply bad_spec; auto. right; right. apply orphan_spec. eauto.
    + right. apply one_way_in in O; auto. apply not_true_iff_false. intros F. rewrite forallb_forall in F.
      apply F in O. unfold expected_link in O. rewrite Q in O. apply xymem_in in O. auto.
  - intros [H|H].
    + destruct (bad_chips m) as [|p l] eqn:B; [discriminate|].
      assert (In p (bad_chips m)) as Hp by (rewrite B; left; auto).
      pose proof (bad_in m p W Hp) as (ch & Hc & E). subst p. apply bad_spec in Hp; auto.
      destruct Hp as [X|[X|X]]; [eapply unexpected_out; eauto|eapply unexpected_in; eauto|].
      apply orphan_spec in X as (p & q & P & Q & I). eapply unexpected_parent; eauto.
    + assert (exists t, In t (one_way_links m) /\ expected_link m removed t = false) as (t & Ht & E).
      { revert H. clear. induction (one_way_links m) as [|t l IH]; cbn; [discriminate|].
        destruct (expected_link m removed t) eqn:E; [|eauto]. intros H. destruct (IH H) as (u & Hu & Eu). eauto. }
      destruct t as [[[x y] o] b]. apply one_way_spec in Ht as (ch & k & G & R & -> & GL & I); auto.
      apply get_chip_in in G as [Hc X]; auto. injection X as <- <-.
      destruct (over_six (m_kind m) (m_width m) (m_height m) (c_x ch) (c_y ch) o R) as [q Q].
      apply (unexpected_link m removed ch o q); auto.
      * apply link_at_not in I. split; eauto.
      * intros Y. unfold expected_link, m_over in E. rewrite Q in E. apply xymem_in in Y. congruence.
Qed.

(** The next machine when only expected links are removed. *)
Lemma off_round v m removed n : good m -> repair_step false v m removed = Ok (Some n) ->
  chips n = map (reduce (one_way_links m)) (chips m) /\ ~ unexpected m removed /\ bad_chips m = [].
Proof.
  intros [W F] E. destruct (step_next _ _ _ _ _ W F E) as (_ & _ & _ & _ & C & _).
  apply step_inv in E as (_ & NB & _). destruct (NB eq_refl) as [B X].
  assert (round_links false m removed = one_way_links m) as RL.
  { unfold round_links. cbn [orb]. revert X. generalize (one_way_links m). clear. intros l X.
    induction l as [|t l IH]; cbn; auto. rewrite X by (left; auto). f_equal. apply IH. intros; apply X; right; auto. }
  rewrite RL in C. split; [|split; auto].
  - rewrite C. unfold survivors, round_chips. cbn [xymem existsb negb]. f_equal.
    generalize (chips m). induction l; cbn; auto. f_equal. auto.
  - intros U. apply unexpected_seen in U; auto. rewrite B in U. cbn in U. apply negb_true_iff in U.
    assert (forallb (expected_link m removed) (one_way_links m) = true) by (apply forallb_forall; auto). congruence.
Qed.

Lemma gone_one_way m ch l : wf m -> In ch (chips m) ->
  (gone (one_way_links m) (c_xy ch) l = true <-> one_way m ch l).
Proof.
  intros W Hc. rewrite one_way_in by auto. unfold c_xy. rewrite gone_spec. split; [|eauto].
  intros [b H]. pose proof H as H0. apply one_way_spec in H as (_ & _ & _ & _ & -> & _); auto.
Qed.

Lemma off_chips m n x y ch ch' : good m -> wf n ->
  chips n = map (reduce (one_way_links m)) (chips m) ->
  get_chip_at m x y = Some ch -> get_chip_at n x y = Some ch' ->
  ch' = reduce (one_way_links m) ch /\ chip_reduced ch ch' /\
  forall l k, get_link (c_router ch') l = Some k <-> get_link (c_router ch) l = Some k /\ ~ one_way m ch l.
Proof.
  intros [W F] Wn C G G'. pose proof G as G0. apply get_chip_in in G as [Hc X]; auto.
  assert (get_chip_at n x y = Some (reduce (one_way_links m) ch)) as GR.
  { apply get_chip_in; auto. rewrite reduce_xy. split; auto. rewrite C. apply in_map. auto. }
  assert (ch' = reduce (one_way_links m) ch) as -> by congruence. split; auto.
  rewrite Forall_forall in F. split.
  - apply reduce_reduced; auto. intros x0 y0 l b H E. eapply (round_links_real true m []); eauto.
    unfold round_links. cbn [orb]. apply filter_In. eauto.
  - intros l k. rewrite reduce_link by auto. rewrite <- gone_one_way by auto.
    destruct (gone (one_way_links m) (c_xy ch) l); split; intros [A B]; split; auto; try discriminate.
    + exfalso. apply B. auto.
Qed.

(** ** Validation does not look at links *)
Lemma valid_without_links v m n dl : wf m -> wf n ->
  chips n = map (reduce dl) (chips m) -> m_kind n = m_kind m -> m_width n = m_width m ->
  m_height n = m_height m -> m_ccm n = m_ccm m -> well_formed v m -> well_formed v n.
Proof.
  intros W Wn C K1 K2 K3 K4 (A & B & D).
  assert (forall x y c, get_chip_at m x y = Some c -> get_chip_at n x y = Some (reduce dl c)) as GET.
  { intros x y c G. apply get_chip_in in G as [H X]; auto. apply get_chip_in; auto. rewrite reduce_xy.
    split; auto. rewrite C. apply in_map. auto. }
  assert (forall c, c_ip (reduce dl c) = c_ip c) as IP
    by (intros c; unfold reduce; destruct (touched dl (c_xy c)); reflexivity).
  split; [|split].
  - destruct A as (c & a & G & I). exists (reduce dl c), a. rewrite IP. auto.
  - intros S. specialize (B S). unfold ethernet_connected_chips in *. rewrite (wf_eth n Wn), C.
    rewrite (wf_eth m W) in B. replace (List.length (filter has_ip (map (reduce dl) (chips m)))) with
      (List.length (filter has_ip (chips m))); auto.
    generalize (chips m). induction l as [|c l IH]; auto. cbn [map filter].
    assert (has_ip (reduce dl c) = has_ip c) as -> by (unfold has_ip; rewrite IP; auto).
    destruct (has_ip c); cbn [List.length]; lia.
  - intros c H. rewrite C in H. apply in_map_iff in H as (c0 & <- & H). specialize (D c0 H).
    destruct D as (D1 & D2 & D3 & D4 & D5).
    assert (forall P : Prop, (has_address (reduce dl c0) -> P) <-> (has_address c0 -> P)) as HA
      by (intros P; unfold has_address; rewrite IP; tauto).
    unfold chip_well_formed, n_processors, m_local, local_xys in *. unfold has_address in *. rewrite IP.
    rewrite K1, K2, K3, K4.
    assert (c_x (reduce dl c0) = c_x c0 /\ c_y (reduce dl c0) = c_y c0 /\ c_scamp (reduce dl c0) = c_scamp c0 /\
      c_placable (reduce dl c0) = c_placable c0 /\ c_eth_x (reduce dl c0) = c_eth_x c0 /\
      c_eth_y (reduce dl c0) = c_eth_y c0) as (-> & -> & -> & -> & -> & ->)
      by (unfold reduce; destruct (touched dl (c_xy c0)); cbn; auto 8).
    split; auto. split; auto. split; auto. split; auto.
    intros N. destruct (D5 N) as [[e G] L]. split; eauto.
Qed.

(** ** Straight links: one round is enough *)
Section Straight.
  Context (m n : machine).
  Hypothesis G : good m.
  Hypothesis Wn : wf n.
  Hypothesis C : chips n = map (reduce (one_way_links m)) (chips m).
  Hypothesis SZ : good_size (m_kind m) (m_width m) (m_height m).
  Hypothesis IN : forall ch, In ch (chips m) -> 0 <= c_x ch < m_width m /\ 0 <= c_y ch < m_height m.
  Hypothesis ST : straight_links m.

  Lemma straight_two_way ch l k : In ch (chips m) -> get_link (c_router ch) l = Some k -> ~ one_way m ch l ->
    exists d k', get_chip_at m (l_destination_x k) (l_destination_y k) = Some d /\
      get_link (c_router d) ((l + 3) mod 6) = Some k' /\ ~ one_way m d ((l + 3) mod 6).
  Proof using G SZ IN ST.
    intros Hc GL NO. destruct (ST ch l k Hc GL) as [R OV].
    assert (is_link_at m (l_destination_x k) (l_destination_y k) ((l + 3) mod 6) = true) as I.
    { destruct (is_link_at m _ _ _) eqn:I; auto. exfalso. apply link_at_not in I. apply NO. split; eauto. }
    destruct G as [W _]. apply is_link_at_spec in I as (d & Hd & X & I); auto.
    apply is_link_get in I as [k' GL']. exists d, k'.
    split; [apply get_chip_in; auto|]. split; auto. intros (R' & k2 & GL2 & NL).
    assert (k2 = k') as -> by congruence. destruct (ST d _ k' Hd GL') as [_ OV'].
    assert (canonical (m_kind m) (m_width m) (m_height m) (c_xy ch)) as CA.
    { destruct (IN ch Hc). split; cbn; auto. }
    pose proof (there_and_back _ _ _ _ _ SZ CA R) as TB. unfold m_over in OV, OV'.
    injection X as X1 X2. rewrite X1, X2 in OV'. change ((l + 3) mod 6) with (opposite l) in OV'.
    cbn [follow c_xy fst snd] in TB. rewrite OV in TB. cbn [bind fst snd] in TB. rewrite OV' in TB.
    cbn [bind fst snd] in TB. apply Ok_inj in TB. rename TB into BK.
    assert ((((l + 3) mod 6) + 3) mod 6 = l) as LL by (change (opposite (opposite l) = l); apply opposite_invol; auto).
    apply link_at_not in NL. rewrite LL in NL. injection BK as B1 B2. rewrite B1, B2 in NL.
    assert (is_link_at m (c_x ch) (c_y ch) l = true); [|congruence].
    apply is_link_at_spec; auto. exists ch. repeat split; auto. apply is_link_get. eauto.
  Qed.

  Lemma flat_is_over x y l q nb : 0 <= l < 6 -> xy_over_link NoWrap 0 0 x y l = Ok q ->
    get_chip_at m (fst q) (snd q) = Some nb -> m_over m x y l = Ok q.
  Proof using G SZ IN.
    intros R Q Gn. rewrite (over_red NoWrap) in Q; [|split; discriminate|auto]. apply Ok_inj in Q.
    unfold m_over. rewrite over_red by auto. f_equal. cbn [red] in Q. unfold red in Q at 1. cbn in Q.
    destruct G as [W _]. apply get_chip_in in Gn as [Hn X]; auto. destruct (IN nb Hn) as [Ix Iy].
    injection X as X1 X2. rewrite <- Q. apply red_canon. 
    rewrite <- Q in *. cbn [fst snd] in *. rewrite X1 in Ix. rewrite X2 in Iy. split; auto.
  Qed.

  Context (removed : list XY).
  Hypothesis AWAY : forall p, In p removed -> is_chip_at m (fst p) (snd p) = false.
  Hypothesis EXP : ~ unexpected m removed.

  Lemma kept_link ch l k q nb : In ch (chips m) -> get_link (c_router ch) l = Some k ->
    m_over m (c_x ch) (c_y ch) l = Ok q -> get_chip_at m (fst q) (snd q) = Some nb -> ~ one_way m ch l.
  Proof using AWAY EXP.
    intros Hc GL OV Gn O. apply EXP. apply (unexpected_link m removed ch l q); auto.
    intros X. apply AWAY in X. assert (is_chip_at m (fst q) (snd q) = true) by (apply present_get; eauto). congruence.
  Qed.

  Lemma off_get x y ch : get_chip_at m x y = Some ch -> get_chip_at n x y = Some (reduce (one_way_links m) ch).
  Proof using G Wn C.
    intros Gc. destruct G as [W _]. apply get_chip_in in Gc as [Hc X]; auto. apply get_chip_in; auto.
    rewrite reduce_xy. split; auto. rewrite C. apply in_map. auto.
  Qed.

  Lemma off_link ch l : In ch (chips m) -> is_link (c_router ch) l = true -> ~ one_way m ch l ->
    is_link (c_router (reduce (one_way_links m) ch)) l = true.
  Proof using G.
    intros Hc I N. apply is_link_get in I as [k K]. apply is_link_get. exists k.
    destruct G as [W F]. rewrite Forall_forall in F. apply reduce_link; auto. split; auto.
    apply not_true_iff_false. intros X. apply N. apply gone_one_way; auto.
  Qed.

  Lemma straight_clean : (forall ch p, In ch (chips m) -> c_parent ch = Some p -> 0 <= p < 6) ->
    m_kind n = m_kind m -> m_width n = m_width m -> m_height n = m_height m -> clean n.
  Proof using G Wn C SZ IN ST AWAY EXP.
    intros PR K1 K2 K3. destruct G as [W F]. pose proof F as F0. rewrite Forall_forall in F.
    assert (forall c, c_x (reduce (one_way_links m) c) = c_x c /\ c_y (reduce (one_way_links m) c) = c_y c) as XY.
    { intros c. unfold reduce. destruct (touched _ _); auto. }
    split; [|split].
    - intros ch l k H R GL. rewrite C in H. apply in_map_iff in H as (c0 & <- & H).
      apply reduce_link in GL as [GL NG]; auto.
      assert (~ one_way m c0 l) as NO by (intros X; apply gone_one_way in X; auto; congruence).
      destruct (straight_two_way c0 l k H GL NO) as (d & k' & Gd & GL' & NO').
      apply link_at_iff. unfold is_link_at. pose proof (off_get _ _ _ Gd) as Gn. unfold get_chip_at in Gn. rewrite Gn.
      apply get_chip_in in Gd as [Hd _]; auto. apply off_link; auto. apply is_link_get. eauto.
    - intros ch H. rewrite C in H. apply in_map_iff in H as (c0 & <- & H).
      destruct (XY c0) as [X1 X2].
      destruct (reduce_fields (one_way_links m) c0) as (E1 & E2 & _). split.
      + destruct (to_board_dec m c0) as [L|L]; [|exfalso; apply EXP; eapply unexpected_out; eauto].
        destruct L as (l & q & nb & [R Q] & I & Gn & E). exists l, q, (reduce (one_way_links m) nb).
        rewrite X1, X2, E1, E2. destruct (reduce_fields (one_way_links m) nb) as (-> & -> & _).
        split; [split; auto|]. split; [|split; [apply off_get; auto|auto]].
        apply off_link; auto. pose proof I as I0. apply is_link_get in I0 as [k GL].
        eapply kept_link; eauto. eapply flat_is_over; eauto.
      + destruct (from_board_dec m c0) as [L|L]; [|exfalso; apply EXP; eapply unexpected_in; eauto].
        destruct L as (l & q & nb & [R Q] & Gn & I & E). exists l, q, (reduce (one_way_links m) nb).
        rewrite X1, X2, E1, E2. destruct (reduce_fields (one_way_links m) nb) as (-> & -> & _).
        split; [split; auto|]. split; [apply off_get; auto|]. split; [|auto].
        pose proof Gn as Gn0. apply get_chip_in in Gn0 as [Hn X]; auto.
        apply off_link; auto. pose proof I as I0. apply is_link_get in I0 as [k GL].
        eapply (kept_link nb _ k (c_xy c0) c0); eauto; [|apply get_chip_in; auto].
        assert (xy_over_link NoWrap 0 0 (c_x c0) (c_y c0) l = Ok q) as Q0 by auto.
        apply (flat_is_over _ _ l q nb) in Q; auto.
        assert (canonical (m_kind m) (m_width m) (m_height m) (c_xy c0)) as CA.
        { destruct (IN c0 H). split; cbn; auto. }
        pose proof (there_and_back _ _ _ _ _ SZ CA R) as TB. unfold m_over in Q.
        cbn [follow c_xy fst snd] in TB. rewrite Q in TB. cbn [bind fst snd] in TB.
        injection X as X3 X4. unfold m_over. rewrite X3, X4. change ((l + 3) mod 6) with (opposite l).
        destruct (xy_over_link (m_kind m) (m_width m) (m_height m) (fst q) (snd q) (opposite l)) as [q'|];
          [cbn [bind] in TB; apply Ok_inj in TB; subst q'; auto|discriminate].
    - intros ch p H P. rewrite C in H. apply in_map_iff in H as (c0 & <- & H).
      destruct (XY c0) as [X1 X2]. destruct (reduce_fields (one_way_links m) c0) as (_ & _ & [E|E]); [|congruence].
      rewrite E in P. specialize (PR c0 p H P).
      destruct (over_six (m_kind m) (m_width m) (m_height m) (c_x c0) (c_y c0) p PR) as [q Q].
      exists q. unfold m_over. rewrite X1, X2, K1, K2, K3. split; auto.
      destruct (is_chip_at m (fst q) (snd q)) eqn:I.
      + apply present_get in I as [d Gd]. apply off_get in Gd. apply present_get. eauto.
      + exfalso. apply EXP. eapply (unexpected_parent m removed c0 p q); eauto.
  Qed.
End Straight.

(** ignoring links on a valid machine works *)
Lemma ignore_links_ok v m dl : good m -> supported v (m_width m) (m_height m) ->
  m_kind m = machine_class v (m_width m) (m_height m) -> m_ccm m = chip_core_map v ->
  well_formed v m -> exists n, machine_ignore v m [] dl = Ok n.
Proof.
  intros [W F] S K CC WF. unfold machine_ignore.
  rewrite create_some by auto. cbn [bind]. set (n0 := new_machine _ _ _ _ _).
  destruct (ignore_fold [] dl v (chips m) n0 (wf_new _ _ _ _ _) F) as
    (n1 & E1 & W1 & C1 & K1 & K2 & K3 & K4 & K5 & K6); [apply W|].
  rewrite E1. cbn [bind].
  destruct (add_spin_same v n1 W1) as (n2 & E2 & S2). rewrite E2. cbn [bind].
  assert (wf n2) as W2 by (eapply same_wf; eauto).
  destruct (add_fpga_same v n2 W2) as (n3 & E3 & S3). rewrite E3. cbn [bind].
  assert (wf n3) as W3 by (eapply same_wf; eauto).
  assert (same_but_links n1 n3) as S13 by (eapply same_trans; eauto).
  assert (chips n3 = map (reduce dl) (chips m)) as C3.
  { rewrite (same_chips _ _ S13), C1. cbn [n0 new_machine chips m_chips dvalues map app]. unfold survivors.
    cbn [xymem existsb negb]. cbn. f_equal. generalize (chips m). induction l; cbn; auto. f_equal; auto. }
  destruct S13 as (T1 & T2 & T3 & T4 & _ & _ & _ & T8 & _). unfold n0 in *.
  cbn [new_machine m_kind m_width m_height m_ccm m_origin] in *.
  assert (well_formed v n3) as WN.
  { apply (valid_without_links v m n3 dl); auto; congruence. }
  apply validate_spec in WN; auto. rewrite WN. cbn [bind]. eauto.
Qed.
