(** C69: ways over the links can be gone back; repair makes it so. *)
From Coq Require Import Lia ZifyBool Znumtheory.
From Verif Require Import Model_Py Model_Wrap Model_Float Model_Geometry Model_Version Model_Core
  Model_Machine Model_Str Model_Ignore Model_Virtual Model_Repair
  Spec_Hops Spec_Board Spec_Version Spec_Machine Spec_Router Spec_Boards Spec_Str Spec_Virtual Spec_Repair Spec_Walk
  Proof_Wrap Proof_Py Proof_Board Proof_Version Proof_Machine Proof_Report Proof_Str Proof_Virtual
  Proof_VirtualMachine Proof_Faultfree Proof_Repair Proof_RepairEnd Proof_RepairOff Proof_Walk Prop_Geometry Prop_Repair.
Open Scope list_scope.
Open Scope Z_scope.

Lemma walk_snoc m p n q ch l k ch' :
  walk m p n q -> get_chip_at m (fst q) (snd q) = Some ch -> get_link (c_router ch) l = Some k ->
  get_chip_at m (l_destination_x k) (l_destination_y k) = Some ch' ->
  walk m p (S n) (l_destination_x k, l_destination_y k).
Proof.
  intros W G K G'. replace (S n) with (n + 1)%nat by lia. eapply walk_app; [exact W|].
  eapply walk_link; eauto. eapply (walk_stay m _ ch'). exact G'.
Qed.

Lemma walk_start m p n q : walk m p n q -> exists ch, get_chip_at m (fst p) (snd p) = Some ch.
Proof. destruct 1; eauto. Qed.

(** Straight links that all have their reverse make walks reversible. *)
Lemma walks_back m :
  good_size (m_kind m) (m_width m) (m_height m) ->
  (forall x y ch, get_chip_at m x y = Some ch -> canonical (m_kind m) (m_width m) (m_height m) (x, y)) ->
  (forall x y ch l k, get_chip_at m x y = Some ch -> get_link (c_router ch) l = Some k ->
     0 <= l < 6 /\ m_over m x y l = Ok (l_destination_x k, l_destination_y k)) ->
  (forall x y ch l k, get_chip_at m x y = Some ch -> get_link (c_router ch) l = Some k ->
     link_at m (l_destination_x k) (l_destination_y k) ((l + 3) mod 6)) ->
  forall p n q, walk m p n q -> walk m q n p.
Proof.
  intros GS CN ST BK p n q W. induction W as [p ch G|p ch l k n q G K W IH]; [eapply walk_stay; eauto|].
  destruct (BK _ _ _ _ _ G K) as (ch' & k' & G' & K').
  destruct (ST _ _ _ _ _ G K) as [Hl O]. destruct (ST _ _ _ _ _ G' K') as [Hl' O'].
  pose proof (CN _ _ _ G) as C. rewrite <- surjective_pairing in C.
  destruct (C03_opposite_returns _ _ _ p l GS C Hl) as (r & R1 & _ & R2).
  unfold m_over in O, O'. rewrite O in R1. apply Ok_inj in R1. subst r. cbn [fst snd] in R2.
  change (opposite l) with ((l + 3) mod 6) in R2. rewrite O' in R2. apply Ok_inj in R2.
  rewrite <- R2. eapply walk_snoc; eauto. rewrite <- R2 in G. exact G.
Qed.

Lemma virtual_straight c V w h check m : virtual_machine c V w h check = Ok m ->
  good_size (m_kind m) (m_width m) (m_height m) /\
  m_kind m = machine_class (v_id V) (m_width m) (m_height m) /\
  (forall x y ch, get_chip_at m x y = Some ch -> canonical (m_kind m) (m_width m) (m_height m) (x, y)) /\
  (forall x y ch l k, get_chip_at m x y = Some ch -> get_link (c_router ch) l = Some k ->
     0 <= l < 6 /\ m_over m x y l = Ok (l_destination_x k, l_destination_y k)).
Proof.
  intros E. apply virtual_built in E as (dch & dco & dl & B & _). split; [apply (start_good B)|].
  split; [rewrite (b_width _ _ _ _ _ _ _ _ B), (b_height _ _ _ _ _ _ _ _ B); apply (b_kind _ _ _ _ _ _ _ _ B)|]. split.
  - intros x y ch G. apply (built_inside B) in G.
    rewrite (b_width _ _ _ _ _ _ _ _ B), (b_height _ _ _ _ _ _ _ _ B). apply inside_canonical; auto.
  - intros x y ch l k G K. apply (built_link B _ _ _ _ _ G) in K as (Hl & _ & dx & dy & O & -> & _). auto.
Qed.

(** On a virtual machine that reports no one way links, whatever is down, a way over
    n links there is a way over n links back. *)
Theorem C69_ways_back :
  forall c V w h check m,
    virtual_machine c V w h check = Ok m -> one_way_links m = [] ->
  forall p n q, walk m p n q -> walk m q n p.
Proof.
  intros c V w h b m E O. pose proof (C28_virtual_is_made c V w h b m E) as M.
  destruct (made_good _ _ M) as [W _].
  destruct (virtual_straight _ _ _ _ _ _ E) as (GS & _ & CN & ST).
  apply walks_back; auto. intros x y ch l k G K.
  destruct (ST _ _ _ _ _ G K) as [Hl _]. apply link_at_iff.
  destruct (is_link_at m (l_destination_x k) (l_destination_y k) ((l + 3) mod 6)) eqn:L; auto. exfalso.
  assert (In (x, y, l, (l + 3) mod 6) (one_way_links m)) as H.
  { apply one_way_spec; auto. exists ch, k. auto. }
  rewrite O in H. destruct H.
Qed.
Print Assumptions C69_ways_back.

Lemma repaired_straight c V w h check m repair removed m' :
  virtual_machine c V w h check = Ok m -> repairs repair (v_id V) m removed (Ok m') ->
  m_kind m' = m_kind m /\ m_width m' = m_width m /\ m_height m' = m_height m /\ wf m' /\
  (forall x y ch', get_chip_at m' x y = Some ch' -> exists ch, get_chip_at m x y = Some ch /\ chip_reduced ch ch').
Proof.
  intros E R. pose proof (C28_virtual_is_made c V w h check m E) as M.
  destruct (made_good _ _ M) as [W _].
  destruct (virtual_straight _ _ _ _ _ _ E) as (_ & KM & _).
  destruct (C33_only_removes _ _ _ _ _ M R) as (E1 & E2 & _ & P).
  assert (wf m' /\ m_kind m' = m_kind m) as [W' K].
  { destruct (C33_new_machine _ _ _ _ _ M R) as [->|(M' & _ & _ & K & _)]; auto.
    split; [apply (made_good (v_id V) m' M')|congruence]. }
  do 4 (split; auto). intros x y ch' G. apply get_chip_in in G as [H X]; auto.
  destruct (P ch' H) as (ch & Hc & CR). exists ch. split; auto. apply get_chip_in; auto. split; auto. rewrite <- X.
  destruct CR as (Q1 & Q2 & _). unfold c_xy. congruence.
Qed.

(** After machine_repair every way can be gone back, it is a way of the machine before
    the repair, and get_vector_length is still a lower bound. *)
Theorem C69_repaired_ways_back :
  forall c V w h check m repair removed m',
    virtual_machine c V w h check = Ok m -> repairs repair (v_id V) m removed (Ok m') ->
  forall p n q, walk m' p n q ->
    walk m' q n p /\ walk m p n q /\
    get_vector_length (m_kind m') (m_width m') (m_height m') p q <= Z.of_nat n.
Proof.
  intros c V w h b m repair removed m' E R p n q WK.
  pose proof (C28_virtual_is_made c V w h b m E) as M.
  destruct (C32_result_is_clean _ _ _ _ _ M R) as ((C1 & _) & _).
  destruct (virtual_straight _ _ _ _ _ _ E) as (GS & _ & CN & ST).
  destruct (repaired_straight _ _ _ _ _ _ _ _ _ E R) as (K & Kw & Kh & W' & OLD).
  assert (walk m p n q) as WM.
  { clear - WK OLD. induction WK as [p ch G|p ch l k n q G L _ IH].
    - destruct (OLD _ _ _ G) as (ch0 & G0 & _). eapply walk_stay; eauto.
    - destruct (OLD _ _ _ G) as (ch0 & G0 & CR). eapply walk_link; [exact G0| |exact IH].
      destruct CR as (_ & _ & _ & _ & _ & _ & _ & _ & _ & _ & LS & _). apply LS. exact L. }
  split; [|split; [exact WM|]].
  - revert p n q WK WM. intros p n q WK _. revert p n q WK. apply walks_back.
    + rewrite K, Kw, Kh. exact GS.
    + rewrite K, Kw, Kh. intros x y ch' G. destruct (OLD _ _ _ G) as (ch & G0 & _). eauto.
    + intros x y ch' l k G L. destruct (OLD _ _ _ G) as (ch & G0 & CR). unfold m_over. rewrite K, Kw, Kh.
      apply (ST x y ch l k G0). destruct CR as (_ & _ & _ & _ & _ & _ & _ & _ & _ & _ & LS & _). apply LS. exact L.
    + intros x y ch' l k G L. destruct (OLD _ _ _ G) as (ch & G0 & CR).
      destruct CR as (_ & _ & _ & _ & _ & _ & _ & _ & _ & _ & LS & _).
      destruct (ST x y ch l k G0 (LS _ _ L)) as [Hl _].
      apply get_chip_in in G as [H _]; auto. eapply C1; eauto.
  - rewrite K, Kw, Kh. apply virtual_built in E as (dch & dco & dl & B & _). apply (walk_bound B _ _ _ WM).
Qed.
Print Assumptions C69_repaired_ways_back.

(** Without the repair it can fail: cfg down_links takes one direction of a link only. *)
Definition oneway_cfg : config :=
  mkConfig None None None None None None false None None (Some "0,0,0"%string) None None None true.
Definition oneway_version : version := mkVersion V5 18 100.

Lemma oneway_facts :
  match virtual_machine oneway_cfg oneway_version 8 8 true with
  | Ok m => match get_chip_at m 1 0, get_chip_at m 0 0 with
      | Some ch, Some ch' =>
          match get_link (c_router ch) 3 with
          | Some k => xy_eqb (l_destination_x k, l_destination_y k) (0, 0)
          | None => false
          end && forallb (fun k => negb (xy_eqb (l_destination_x k, l_destination_y k) (1, 0))) (router_links (c_router ch'))
      | _, _ => false
      end
  | Err _ => false
  end = true.
Proof. vm_compute. reflexivity. Qed.

Theorem C69_ways_back_without_repair_refuted :
  exists c V m p q,
    virtual_machine c V 8 8 true = Ok m /\ walk m p 1 q /\ ~ walk m q 1 p.
Proof.
  exists oneway_cfg, oneway_version. pose proof oneway_facts as F.
  destruct (virtual_machine oneway_cfg oneway_version 8 8 true) as [m|e] eqn:E; [|discriminate].
  destruct (get_chip_at m 1 0) as [ch|] eqn:G; [|discriminate].
  destruct (get_chip_at m 0 0) as [ch'|] eqn:G'; [|discriminate].
  apply andb_true_iff in F as [F1 F2].
  destruct (get_link (c_router ch) 3) as [k|] eqn:K; [|discriminate].
  exists m, (1, 0), (0, 0). split; [reflexivity|]. apply xyeqb_eq in F1. split.
  - eapply walk_link; [exact G|exact K|]. rewrite F1. eapply walk_stay. exact G'.
  - intros W. inversion W as [|? c2 l k2 n' ? G2 K2 W2]; subst.
    change (get_chip_at m 0 0 = Some c2) in G2. assert (c2 = ch') as -> by congruence.
    inversion W2 as [? ? G3 X1 X2|]; subst.
    rewrite forallb_forall in F2. unfold get_link in K2. apply (dget_some_in Z.eqb Z.eqb_eq) in K2.
    assert (In k2 (router_links (c_router ch'))) as IN.
    { unfold router_links, dvalues. apply (in_map snd) in K2. exact K2. }
    apply F2 in IN. rewrite negb_true_iff in IN.
    match type of IN with xy_eqb ?a ?b = false => assert (xy_eqb a b = true) as T end.
    { apply xyeqb_eq. congruence. }
    congruence.
Qed.
Print Assumptions C69_ways_back_without_repair_refuted.

(** A machine with a one way link; its repair succeeds. *)
Example C69_case :
  match virtual_machine oneway_cfg oneway_version 8 8 true with
  | Ok m => match one_way_links m, repair_step true V5 m [] with
      | [(1, 0, 3, 0)], Ok (Some m') =>
          match repair_step true V5 m' [], one_way_links m' with Ok None, [] => n_chips m' =? 48 | _, _ => false end
      | _, _ => false
      end
  | Err _ => false
  end = true.
Proof. vm_compute. reflexivity. Qed.
