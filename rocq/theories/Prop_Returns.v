(** C77: when machine_repair gives up. *)
From Coq Require Import Lia ZifyBool Znumtheory.
From Verif Require Import Model_Py Model_Wrap Model_Float Model_Geometry Model_Version Model_Core
  Model_Machine Model_Str Model_Ignore Model_Factory Model_Virtual Model_Repair
  Spec_Hops Spec_Board Spec_Version Spec_Machine Spec_Router Spec_Boards Spec_Str Spec_Virtual Spec_Repair Spec_Walk Spec_Rounds Spec_Left
  Proof_Wrap Proof_Py Proof_Board Proof_Version Proof_Machine Proof_Report Proof_Str Proof_Virtual
  Proof_VirtualMachine Proof_Faultfree Proof_Links Proof_Repair Proof_RepairEnd Proof_RepairOff Proof_Walk
  Prop_Geometry Prop_Repair Prop_Back Prop_Rounds Prop_Left.
Open Scope list_scope.
Open Scope Z_scope.

Lemma reduce_same dl c : c_x (reduce dl c) = c_x c /\ c_y (reduce dl c) = c_y c /\ c_scamp (reduce dl c) = c_scamp c /\
  c_placable (reduce dl c) = c_placable c /\ c_eth_x (reduce dl c) = c_eth_x c /\
  c_eth_y (reduce dl c) = c_eth_y c /\ c_ip (reduce dl c) = c_ip c.
Proof. unfold reduce. destruct (touched dl (c_xy c)); cbn; auto 10. Qed.

(** Ethernet chips are their own Ethernet chip. *)
Definition own_ethernet (m : machine) : Prop :=
  forall ch, In ch (chips m) -> has_address ch -> (c_eth_x ch, c_eth_y ch) = c_xy ch.

Lemma ignore_before v m dc dl : good m -> supported v (m_width m) (m_height m) ->
  exists n, wf n /\ chips n = survivors dc dl (chips m) /\ m_kind n = machine_class v (m_width m) (m_height m) /\
    m_width n = m_width m /\ m_height n = m_height m /\ m_ccm n = chip_core_map v /\
    machine_ignore v m dc dl = do _ <- validate v n ; Ok n.
Proof.
  intros [W F] S. unfold machine_ignore.
  rewrite create_some by auto. cbn [bind].
  set (n0 := new_machine _ _ _ _ _).
  destruct (ignore_fold dc dl v (chips m) n0 (wf_new _ _ _ _ _) F) as
    (n1 & E1 & W1 & C1 & K1 & K2 & K3 & K4 & K5 & K6); [apply W|].
  rewrite E1. cbn [bind].
  destruct (add_spin_same v n1 W1) as (n2 & E2 & S2). rewrite E2. cbn [bind].
  assert (wf n2) as W2 by (eapply same_wf; eauto).
  destruct (add_fpga_same v n2 W2) as (n3 & E3 & S3). rewrite E3. cbn [bind].
  assert (wf n3) as W3 by (eapply same_wf; eauto).
  assert (same_but_links n1 n3) as S13 by (eapply same_trans; eauto).
  exists n3. split; auto. split; [rewrite (same_chips _ _ S13), C1; reflexivity|].
  destruct S13 as (T1 & T2 & T3 & T4 & _ & _ & _ & T8 & _). unfold n0 in *.
  cbn [new_machine m_kind m_width m_height m_ccm m_origin] in *.
  repeat split; congruence.
Qed.

Lemma stay_valid v m n dc dl : wf m -> wf n -> chips n = survivors dc dl (chips m) ->
  m_kind n = m_kind m -> m_width n = m_width m -> m_height n = m_height m -> m_ccm n = m_ccm m ->
  own_ethernet m -> well_formed v m ->
  (well_formed v n <-> boards_stay m (fun x y => is_chip_at m x y = true /\ ~ In (x, y) dc)).
Proof.
  intros W Wn C K1 K2 K3 K4 OE (A & B & D).
  assert (forall x y c, get_chip_at n x y = Some c <->
    exists c0, get_chip_at m x y = Some c0 /\ ~ In (x, y) dc /\ c = reduce dl c0) as GET.
  { intros x y c. rewrite get_chip_in, C, in_survivors by auto. split.
    - intros [(c0 & H & N & ->) X]. rewrite reduce_xy in X. exists c0. rewrite <- X. split; auto. apply get_chip_in; auto.
    - intros (c0 & G & N & ->). apply get_chip_in in G as [H X]; auto. rewrite reduce_xy. split; auto.
      exists c0. rewrite X. auto. }
  split.
  - intros (A' & _ & D'). split.
    + destruct A' as (c & a & G & _). apply GET in G as (c0 & G & N & _). split; auto. apply chip_there. eauto.
    + intros x y ch [_ N] G. assert (get_chip_at n x y = Some (reduce dl ch)) as Gn by (apply GET; eauto).
      pose proof Gn as Gi. apply get_chip_in in Gi as [H _]; auto. destruct (D' _ H) as (_ & _ & _ & _ & D5).
      destruct (reduce_same dl ch) as (_ & _ & _ & _ & R5 & R6 & R7). unfold has_address in D5. rewrite R5, R6, R7 in D5.
      destruct (c_ip ch) as [a|] eqn:IP.
      * destruct (string_dec a EmptyString) as [->|NE].
        -- destruct D5 as [[e Ge] _]; [intros (a & [= <-] & X); auto|]. apply GET in Ge as (c0 & Ge & Ne & _).
           split; auto. apply chip_there. eauto.
        -- pose proof G as Gm. apply get_chip_in in Gm as [Hm X]; auto.
           assert ((c_eth_x ch, c_eth_y ch) = c_xy ch) as O by (apply OE; auto; exists a; auto).
           rewrite X in O. apply pair_equal_spec in O as [-> ->]. split; auto. apply chip_there. eauto.
      * destruct D5 as [[e Ge] _]; [intros (a & [=] & _)|]. apply GET in Ge as (c0 & Ge & Ne & _).
        split; auto. apply chip_there. eauto.
  - intros [B0 BE]. split; [|split].
    + destruct A as (c & a & G & I). exists (reduce dl c), a. destruct (reduce_same dl c) as (_ & _ & _ & _ & _ & _ & R7).
      rewrite R7. split; auto. apply GET. exists c. split; auto. split; auto. apply B0.
    + intros S. specialize (B S). unfold ethernet_connected_chips in *. rewrite (wf_eth n Wn), C.
      rewrite (wf_eth m W) in B. etransitivity; [|exact B]. unfold survivors. clear.
      induction (chips m) as [|c l IH]; auto. cbn [filter].
      assert (has_ip (reduce dl c) = has_ip c) as R by (unfold has_ip; destruct (reduce_same dl c) as (_ & _ & _ & _ & _ & _ & ->); auto).
      destruct (negb (xymem dc (c_xy c))); cbn [map filter]; rewrite ?R; destruct (has_ip c); cbn [List.length]; lia.
    + intros c H. pose proof H as H0. rewrite C in H. apply in_survivors in H as (c0 & H & N & ->). specialize (D c0 H).
      destruct D as (D1 & D2 & D3 & D4 & D5).
      unfold chip_well_formed, n_processors, m_local, local_xys in *. unfold has_address in *.
      destruct (reduce_same dl c0) as (-> & -> & -> & -> & -> & -> & ->). rewrite K1, K2, K3, K4.
      split; auto. split; auto. split; auto. split; auto.
      intros NA. destruct (D5 NA) as [[e G] L]. split; auto.
      assert (get_chip_at m (c_x c0) (c_y c0) = Some c0) as G0 by (apply get_chip_in; auto).
      destruct (BE (c_x c0) (c_y c0) c0) as [_ NE]; auto.
      { split; [apply chip_there; eauto|exact N]. }
      eexists. apply GET. eauto.
Qed.

Lemma ignore_when v m dc dl : good m -> supported v (m_width m) (m_height m) ->
  m_kind m = machine_class v (m_width m) (m_height m) -> m_ccm m = chip_core_map v ->
  own_ethernet m -> well_formed v m ->
  ((exists n, machine_ignore v m dc dl = Ok n) <->
   boards_stay m (fun x y => is_chip_at m x y = true /\ ~ In (x, y) dc)) /\
  (forall e, machine_ignore v m dc dl = Err e -> e = MachineExc).
Proof.
  intros G S K CC OE WF. destruct (ignore_before v m dc dl G S) as (n & Wn & C & K1 & K2 & K3 & K4 & E).
  rewrite E. destruct G as [W F]. destruct (validate_spec v n Wn) as [VS VR].
  rewrite <- (stay_valid v m n dc dl) by (auto; congruence). rewrite <- VS. split.
  - split; [intros [n' X]|intros ->; exists n; reflexivity]. destruct (validate v n) as [[]|]; auto. discriminate.
  - intros e X. destruct VR as [V|V]; rewrite V in X; cbn [bind] in X; [discriminate|]. congruence.
Qed.

(** ** Machines like those of virtual_machine, valid *)
Definition fit (v : vid) (m : machine) : Prop :=
  tidy v m /\ m_ccm m = chip_core_map v /\ own_ethernet m /\ well_formed v m.

Lemma fit_messages v m : fit v m -> messages_work m.
Proof.
  intros (T & CC & OE & WF) ch H. destruct T as ((W & _) & _ & _ & _ & _ & NP). split.
  - destruct WF as (_ & _ & D). destruct (D ch H) as (_ & _ & _ & _ & D5).
    assert (has_address ch \/ ~ has_address ch) as [A|A].
    { unfold has_address. destruct (c_ip ch) as [a|]; [|right; intros (a & [=] & _)].
      destruct (string_dec a EmptyString) as [->|NE]; [right; intros (a & [= <-] & X); auto|left; eauto]. }
    + pose proof (OE ch H A) as O. unfold c_xy in O. apply pair_equal_spec in O as [-> ->]. apply chip_there.
      exists ch. apply get_chip_in; auto.
    + destruct (D5 A) as [[e G] _]. apply chip_there. eauto.
  - intros p P. rewrite NP in P by auto. discriminate.
Qed.

Lemma fit_next v m removed n : fit v m -> repair_step true v m removed = Ok (Some n) -> fit v n.
Proof.
  intros FT E. pose proof FT as (T & CC & OE & WF). pose proof T as ((W & F) & _).
  destruct (step_next _ _ _ _ _ W F E) as (_ & _ & Wn & _ & C & _ & _ & _ & Cn & _ & V).
  split; [eapply next_tidy; eauto|]. split; auto. split; [|apply validate_spec; auto].
  intros ch H A. rewrite C, on_links in H. apply in_survivors in H as (c0 & H & _ & ->).
  destruct (reduce_same (one_way_links m) c0) as (R1 & R2 & _ & _ & R5 & R6 & R7).
  rewrite R5, R6, reduce_xy. apply OE; auto. unfold has_address in *. rewrite R7 in A. auto.
Qed.

Lemma fit_step v m removed : fit v m ->
  (repair_step true v m removed = Ok None /\ bad_chips m = [] /\ one_way_links m = []) \/
  ((bad_chips m <> [] \/ one_way_links m <> []) /\
   ((exists n, repair_step true v m removed = Ok (Some n)) <->
    boards_stay m (fun x y => is_chip_at m x y = true /\ ~ In (x, y) (bad_chips m))) /\
   ((exists n, repair_step true v m removed = Ok (Some n)) \/ repair_step true v m removed = Err MachineExc)).
Proof.
  intros FT. pose proof (fit_messages v m FT) as MW. destruct FT as (T & CC & OE & WF).
  pose proof T as (G & S & K & _). pose proof G as [W F].
  pose proof (messages_checks m removed W MW) as AC.
  assert (repair_step true v m removed = match bad_chips m, one_way_links m with
    | [], [] => Ok None
    | _, _ => do n <- machine_ignore v m (bad_chips m) (one_way_links m) ; Ok (Some n) end) as E.
  { rewrite step_eq, AC. cbn [bind negb andb]. cbv zeta.
    pose proof (on_links m removed) as OL. unfold round_links in OL. rewrite OL. reflexivity. }
  destruct (ignore_when v m (bad_chips m) (one_way_links m) G S K CC OE WF) as [IW IE].
  destruct (bad_chips m) as [|b bs] eqn:BC; [destruct (one_way_links m) as [|o os] eqn:OW|].
  - left. auto.
  - right. split; [right; discriminate|]. rewrite E. destruct (machine_ignore v m [] (o :: os)) as [n|e] eqn:I; cbn [bind].
    + split; [|left; eauto]. split; [intros _; apply IW; eauto|eauto].
    + rewrite (IE e eq_refl). split; [|auto]. split; [intros [n X]; discriminate|intros X; apply IW in X as [n X]; discriminate].
  - right. split; [left; discriminate|]. rewrite E. destruct (machine_ignore v m (b :: bs) (one_way_links m)) as [n|e] eqn:I; cbn [bind].
    + split; [|left; eauto]. split; [intros _; apply IW; eauto|eauto].
    + rewrite (IE e eq_refl). split; [|auto]. split; [intros [n X]; discriminate|intros X; apply IW in X as [n X]; discriminate].
Qed.

Lemma stay_ext m P Q : (forall x y, P x y <-> Q x y) -> boards_stay m P <-> boards_stay m Q.
Proof.
  intros H. unfold boards_stay. rewrite H. split; intros [A B]; (split; [auto|]); intros x y ch K G;
    [rewrite <- H in K |- *|rewrite H in K |- *]; eauto.
Qed.

Lemma hangs_not_bad v m x y : tidy v m ->
  (hangs_on m x y <-> is_chip_at m x y = true /\ ~ In (x, y) (bad_chips m)).
Proof.
  intros T. unfold hangs_on. rewrite chip_there. split.
  - intros (ch & G & L). split; eauto. apply (tidy_bad T x y ch G). auto.
  - intros [[ch G] N]. exists ch. split; auto. apply (tidy_bad T x y ch G). auto.
Qed.

Lemma hold_hang v m x y : tidy v m -> holds_on m x y -> hangs_on m x y.
Proof.
  intros T (l & q & a & b & FN & (L & O & B) & Ga & Gb & Eth). exists a. split; auto.
  destruct (at_xy _ _ _ _ _ T Ga) as [Ex Ey]. split.
  - exists l, q, b. rewrite Ex, Ey. split; auto. split; [|auto].
    destruct L as (c1 & k & G1 & L). assert (c1 = a) as -> by congruence. apply is_link_get. eauto.
  - exists l, q, b. rewrite Ex, Ey. split; auto. split; auto. split; [|auto].
    destruct B as (c1 & k & G1 & B). assert (c1 = b) as -> by congruence. apply is_link_get. eauto.
Qed.

(** After the first round the chips that are not cut off are those that hold on. *)
Lemma hang_next v m removed n x y : tidy v m -> repair_step true v m removed = Ok (Some n) ->
  (hangs_on n x y <-> holds_on m x y).
Proof.
  intros T E. pose proof (next_tidy T E) as Tn. split.
  - intros (ch & G & (l & q & b & FN & IL & Gb & Eth) & _). destruct (at_xy _ _ _ _ _ Tn G) as [Ex Ey]. rewrite Ex, Ey in FN.
    apply is_link_get in IL as [k IL]. assert (link_at n x y l) as L by (exists ch, k; auto).
    apply (next_link T E) in L as (L & _ & q' & O & B).
    apply (next_chip T E) in G as (c0 & G & _ & ->). apply (next_chip T E) in Gb as (b0 & Gb & _ & ->).
    pose proof (flat_over T _ _ _ _ _ FN Gb) as O2. assert (q' = q) as -> by congruence.
    exists l, q, c0, b0. split; auto. split; [split; auto|]. split; auto. split; auto.
    destruct (reduce_eth (one_way_links m) c0) as [R1 R2], (reduce_eth (one_way_links m) b0) as [R3 R4]. congruence.
  - intros H. pose proof (proj1 (hangs_not_bad v m x y T) (hold_hang v m x y T H)) as [_ NB].
    destruct H as (l & q & a & b & FN & W2 & Ga & Gb & Eth).
    assert (holds_on m (fst q) (snd q)) as Hq.
    { exists ((l + 3) mod 6), (x, y), b, a. cbn [fst snd]. split; [apply (flat_back T); auto|].
      split; [eapply two_way_back; eauto|]. auto. }
    pose proof (proj1 (hangs_not_bad v m _ _ T) (hold_hang v m _ _ T Hq)) as [_ NQ].
    pose proof (two_way_back v m x y l q T W2) as W2b. destruct W2 as (L & O & B), W2b as (_ & O' & B'). cbn [fst snd] in B'.
    assert (get_chip_at n x y = Some (reduce (one_way_links m) a)) as Gan by (apply (next_chip T E); eauto).
    assert (get_chip_at n (fst q) (snd q) = Some (reduce (one_way_links m) b)) as Gbn by (apply (next_chip T E); eauto).
    assert (link_at n x y l) as Ln by (apply (next_link T E); split; auto; split; auto; exists q; auto).
    assert (link_at n (fst q) (snd q) ((l + 3) mod 6)) as Bn.
    { apply (next_link T E). split; auto. split; auto. exists (x, y). auto. }
    assert ((c_eth_x (reduce (one_way_links m) b), c_eth_y (reduce (one_way_links m) b)) =
      (c_eth_x (reduce (one_way_links m) a), c_eth_y (reduce (one_way_links m) a))) as EthN.
    { destruct (reduce_eth (one_way_links m) b) as [-> ->], (reduce_eth (one_way_links m) a) as [-> ->]. auto. }
    exists (reduce (one_way_links m) a). split; auto. destruct (at_xy _ _ _ _ _ Tn Gan) as [Ex Ey]. split.
    + exists l, q, (reduce (one_way_links m) b). rewrite Ex, Ey. split; auto. split; auto.
      destruct Ln as (c1 & k & G1 & L1). rewrite Gan in G1. injection G1 as <-. apply is_link_get. eauto.
    + exists l, q, (reduce (one_way_links m) b). rewrite Ex, Ey. split; auto. split; auto. split; auto.
      destruct Bn as (c1 & k & G1 & L1). rewrite Gbn in G1. injection G1 as <-. apply is_link_get. eauto.
Qed.

Lemma stay_next v m removed n (P : Z -> Z -> Prop) : tidy v m -> repair_step true v m removed = Ok (Some n) ->
  (forall x y, P x y -> is_chip_at n x y = true) -> (boards_stay n P <-> boards_stay m P).
Proof.
  intros T E IN. unfold boards_stay. split; intros [A B]; (split; [auto|]); intros x y ch K G.
  - pose proof (IN x y K) as H. apply chip_there in H as [c1 G1]. pose proof (B x y c1 K G1) as X.
    apply (next_chip T E) in G1 as (c0 & G0 & _ & ->). assert (c0 = ch) as -> by congruence.
    destruct (reduce_eth (one_way_links m) ch) as [R1 R2]. rewrite R1, R2 in X. auto.
  - apply (next_chip T E) in G as (c0 & G0 & _ & ->). pose proof (B x y c0 K G0) as X.
    destruct (reduce_eth (one_way_links m) c0) as [-> ->]. auto.
Qed.

(** No chip is cut off any more: the repair returns. *)
Lemma fit_end v m removed : fit v m -> paired m -> bad_chips m = [] -> exists m', repairs true v m removed (Ok m').
Proof.
  intros FT P B. pose proof FT as (T & _ & _ & WF). destruct (fit_step v m removed FT) as [(E & _)|(_ & I & _)].
  - exists m. apply repairs_done. auto.
  - rewrite B in I. destruct (proj2 I) as [n E].
    + destruct T as ((W & F) & _). split.
      * destruct WF as ((c & a & G & _) & _). split; [apply chip_there; eauto|intros []].
      * intros x y ch _ G. apply get_chip_in in G as [H _]; auto. split; [|intros []]. apply (fit_messages v m FT ch H).
    + exists n. eapply repairs_again; [exact E|]. apply repairs_done. apply done_clean; [apply (next_tidy T E)|].
      eapply stage3; eauto.
Qed.

Lemma paired_of_clean m : wf m -> straight_links m -> clean m -> paired m.
Proof.
  intros W ST (C1 & _) x y l q (ch & k & G & L) O _. apply get_chip_in in G as [H X]; auto.
  destruct (ST ch l k H L) as [R O2]. unfold c_xy in X. injection X as X1 X2. rewrite X1, X2 in O2.
  rewrite O in O2. apply Ok_inj in O2. subst q. apply (C1 ch l k H R L).
Qed.

Theorem C77_when_it_returns :
  forall v m removed, made_machine v m ->
    supported v (m_width m) (m_height m) ->
    m_kind m = machine_class v (m_width m) (m_height m) -> m_ccm m = chip_core_map v ->
    straight_links m -> (forall ch, In ch (chips m) -> c_parent ch = None) ->
    (forall ch, In ch (chips m) -> has_address ch -> (c_eth_x ch, c_eth_y ch) = c_xy ch) ->
    validate v m = Ok tt ->
    ((exists m', repairs true v m removed (Ok m')) <->
     boards_stay m (hangs_on m) /\ boards_stay m (holds_on m)) /\
    (forall e, repairs true v m removed (Err e) -> e = MachineExc).
Proof.
  intros v m removed M S K CC ST NP OE V. pose proof (made_good v m M) as G. pose proof G as [W F].
  assert (well_formed v m) as WF by (apply validate_spec; auto).
  assert (tidy v m) as T.
  { split; auto. split; auto. split; auto. split; auto. intros ch H. destruct WF as (_ & _ & D).
    destruct (D ch H) as (D1 & D2 & _). split; auto. }
  assert (fit v m) as FT by (split; auto).
  assert (boards_stay m (hangs_on m) <-> boards_stay m (fun x y => is_chip_at m x y = true /\ ~ In (x, y) (bad_chips m))) as HB.
  { apply stay_ext. intros x y. apply (hangs_not_bad v m x y T). }
  assert (forall r, repairs true v m removed r -> ((exists m', r = Ok m') <-> boards_stay m (hangs_on m) /\ boards_stay m (holds_on m)) /\
    (forall e, r = Err e -> e = MachineExc)) as MAIN.
  { intros r R. rewrite HB. destruct (fit_step v m removed FT) as [(E & B & O)|(_ & I1 & O1)].
    - assert (r = Ok m) as -> by (eapply repairs_det; [exact R|apply repairs_done; auto]).
      split; [|discriminate]. split; [intros _|eauto].
      assert (clean m) as CL by (apply (done_clean true v m removed); auto).
      destruct (C76_what_is_left true v m removed m M S K) as [L _]; auto; [apply T|].
      assert (boards_stay m (fun x y => is_chip_at m x y = true)) as ALL.
      { split.
        - destruct WF as ((c & a & Gc & _) & _). apply chip_there; eauto.
        - intros x y ch _ Gc. apply get_chip_in in Gc as [H _]; auto. apply (fit_messages v m FT ch H). }
      split; [|apply (stay_ext m _ _ (fun x y => L x y)); auto].
      revert ALL. apply stay_ext. intros x y. rewrite B. cbn. tauto.
    - destruct O1 as [[n1 E1]|E1].
      2: { assert (r = Err MachineExc) as -> by (eapply repairs_det; [exact R|apply repairs_raises; auto]).
           split; [|intros e; congruence]. split; [intros [? X]; discriminate|]. intros [X _].
           apply I1 in X as [n X]. congruence. }
      pose proof (fit_next _ _ _ _ FT E1) as FT1. pose proof FT1 as (T1 & _). pose proof (stage1 _ _ _ _ T E1) as P1.
      assert (repairs true v n1 [] r) as R1.
      { inversion R as [? ? ? X|? ? X|? ? n' ? X R']; subst; rewrite E1 in X; try discriminate. injection X as <-. auto. }
      assert (boards_stay m (holds_on m) <-> boards_stay n1 (fun x y => is_chip_at n1 x y = true /\ ~ In (x, y) (bad_chips n1))) as H1.
      { rewrite <- (stay_next v m removed n1 (holds_on m) T E1).
        - apply stay_ext. intros x y. rewrite <- (hangs_not_bad v n1 x y T1). symmetry. eapply hang_next; eauto.
        - intros x y H. apply (hang_next v m removed n1 x y T E1) in H. apply (hangs_not_bad v n1 x y T1) in H. apply H. }
      assert (boards_stay m (fun x y => is_chip_at m x y = true /\ ~ In (x, y) (bad_chips m))) as Y1 by (apply I1; eauto).
      rewrite H1. destruct (fit_step v n1 [] FT1) as [(E2 & B2 & O2)|(_ & I2 & O2)].
      + assert (r = Ok n1) as -> by (eapply repairs_det; [exact R1|apply repairs_done; auto]).
        split; [|discriminate]. split; [intros _|eauto]. split; auto. rewrite B2.
        split.
        * destruct FT1 as (_ & _ & _ & (c & a & Gc & _) & _). split; [apply chip_there; eauto|intros []].
        * intros x y ch _ Gc. destruct T1 as ((W1 & _) & _). apply get_chip_in in Gc as [H _]; auto.
          split; [|intros []]. apply (fit_messages v n1 FT1 ch H).
      + destruct O2 as [[n2 E2]|E2].
        2: { assert (r = Err MachineExc) as -> by (eapply repairs_det; [exact R1|apply repairs_raises; auto]).
             split; [|intros e; congruence]. split; [intros [? X]; discriminate|]. intros [_ X].
             apply I2 in X as [n X]. congruence. }
        pose proof (fit_next _ _ _ _ FT1 E2) as FT2.
        destruct (fit_end v n2 [] FT2 (stage1 _ _ _ _ T1 E2) (stage2 _ _ _ _ T1 P1 E2)) as [m' R2].
        assert (r = Ok m') as -> by (eapply repairs_det; [exact R1|]; eapply repairs_again; eauto).
        split; [|discriminate]. split; [intros _|eauto]. split; auto. apply I2. eauto. }
  destruct (C31_ends true v m removed M) as (r & R & U). destruct (MAIN r R) as [M1 M2]. split.
  - rewrite <- M1. split.
    + intros [m' R']. apply U in R'. eauto.
    + intros [m' ->]. eauto.
  - intros e R'. apply U in R'. auto.
Qed.
Print Assumptions C77_when_it_returns.

(** A machine of virtual_machine that passes its checks. *)
Theorem C77_virtual :
  forall c V w h m removed, virtual_machine c V w h true = Ok m ->
    ((exists m', repairs true (v_id V) m removed (Ok m')) <->
     boards_stay m (hangs_on m) /\ boards_stay m (holds_on m)) /\
    (forall e, repairs true (v_id V) m removed (Err e) -> e = MachineExc).
Proof.
  intros c V w h m removed E. pose proof (C28_virtual_is_made _ _ _ _ _ _ E) as M.
  destruct (virtual_tidy _ _ _ _ _ _ E) as ((W & _) & S & K & I & ST & NP).
  assert (m_ccm m = chip_core_map (v_id V) /\
    (forall ch, In ch (chips m) -> has_address ch -> (c_eth_x ch, c_eth_y ch) = c_xy ch) /\
    validate (v_id V) m = Ok tt) as (CC & OE & VA).
  { destruct (virtual_cases c V w h) as [(m1 & dch & dco & dl & B & _ & E2 & _)|[[err EE] _]].
    2: { rewrite EE in E. discriminate. }
    rewrite E in E2. destruct (validate (v_id V) m1) as [[]|] eqn:VA; cbn [bind] in E2; [|discriminate].
    apply Ok_inj in E2. subst m1. split; [apply B|]. split; auto.
    intros ch H (a & IP & _). assert (get_chip_at m (c_x ch) (c_y ch) = Some ch) as G by (apply get_chip_in; auto).
    pose proof G as G2. apply (built_chip B) in G2 as (eths & uc & e & d & n & L & U & P & ND & _).
    destruct (built_fields B _ _ _ _ _ _ G P) as (_ & _ & X & Y & Z & _). rewrite Y in IP.
    destruct (xy_eqb d (0, 0)); [|discriminate]. unfold c_xy. congruence. }
  apply C77_when_it_returns; auto.
Qed.
Print Assumptions C77_virtual.

(** Chip (4, 8) of a 12 x 12 machine is an Ethernet chip. With a link only to (5, 8) and
    one only from (4, 9) it survives the first round but not the second, and the
    repair gives up; the machine of C75_case is repaired. *)
Definition cut_cfg : config :=
  mkConfig None None None None None None true None None (Some "4,8,1:4,8,2:5,8,3:5,9,4"%string) None None None true.

Lemma cut_facts :
  match virtual_machine cut_cfg rounds_version 12 12 true with
  | Ok m => match repair_step true V5 m [] with
      | Ok (Some m1) => match repair_step true V5 m1 [] with Err MachineExc => true | _ => false end
      | _ => false end
  | Err _ => false
  end = true.
Proof. vm_compute. reflexivity. Qed.

Example C77_case :
  (exists m m', virtual_machine rounds_cfg rounds_version 12 12 true = Ok m /\
     repairs true (v_id rounds_version) m [] (Ok m') /\
     boards_stay m (hangs_on m) /\ boards_stay m (holds_on m)) /\
  (exists m, virtual_machine cut_cfg rounds_version 12 12 true = Ok m /\
     repairs true (v_id rounds_version) m [] (Err MachineExc) /\
     ~ (boards_stay m (hangs_on m) /\ boards_stay m (holds_on m))).
Proof.
  split.
  - destruct C76_case as (m & m' & E & R & _). exists m, m'. split; auto. split; auto.
    destruct (C77_virtual _ _ _ _ _ [] E) as [H _]. apply H. eauto.
  - pose proof cut_facts as F. destruct (virtual_machine cut_cfg rounds_version 12 12 true) as [m|] eqn:E; [|discriminate F].
    destruct (repair_step true V5 m []) as [[m1|]|] eqn:E1; try (discriminate F).
    destruct (repair_step true V5 m1 []) as [[m2|]|e] eqn:E2; try (discriminate F).
    destruct e; try (discriminate F). exists m. split; auto.
    assert (repairs true (v_id rounds_version) m [] (Err MachineExc)) as R.
    { eapply repairs_again; [exact E1|]. apply repairs_raises. exact E2. }
    split; auto. intros X. destruct (C77_virtual _ _ _ _ _ [] E) as [H _]. apply H in X as [m' X].
    pose proof (repairs_det _ _ _ _ _ R _ X) as Y. discriminate Y.
Qed.
