(** C75: how often machine_repair calls itself. *)
From Coq Require Import Lia ZifyBool Znumtheory.
From Verif Require Import Model_Py Model_Wrap Model_Float Model_Geometry Model_Version Model_Core
  Model_Machine Model_Str Model_Ignore Model_Factory Model_Virtual Model_Repair
  Spec_Hops Spec_Board Spec_Version Spec_Machine Spec_Router Spec_Boards Spec_Str Spec_Virtual Spec_Repair Spec_Walk Spec_Rounds
  Proof_Wrap Proof_Py Proof_Board Proof_Version Proof_Machine Proof_Report Proof_Str Proof_Virtual
  Proof_VirtualMachine Proof_Faultfree Proof_Repair Proof_RepairEnd Proof_RepairOff Proof_Walk Prop_Geometry Prop_Repair Prop_Back.
Open Scope list_scope.
Open Scope Z_scope.

(** The same calls as before, counted. *)
Theorem C75_same_calls :
  forall repair v m removed r, repairs repair v m removed r <-> exists n, repair_calls repair v m removed n r.
Proof.
  intros repair v m removed r. split.
  - induction 1 as [m removed e E|m removed E|m removed n r E R [k IH]].
    + exists 1%nat. constructor. auto.
    + exists 1%nat. constructor. auto.
    + exists (S k). eapply calls_again; eauto.
  - intros [n R]. induction R; [apply repairs_raises|apply repairs_done|eapply repairs_again]; eauto.
Qed.
Print Assumptions C75_same_calls.

(** ** Repair off *)
Theorem C75_off :
  forall v m removed n r, repair_calls false v m removed n r -> (n <= 2)%nat.
Proof.
  assert (forall v m x, repair_step false v m [] = Ok (Some x) -> False) as K.
  { intros v m x E. apply step_inv in E as (_ & NB & [(X & _)|(y & _ & NE & _)]); [discriminate|].
    destruct (NB eq_refl) as [_ A]. unfold round_chips, round_links in NE. destruct NE as [NE|NE]; [congruence|].
    apply NE. apply nil_not_in. intros t T. apply filter_In in T as [T X].
    destruct t as [[[a b] d] e]. unfold expected_link in X. cbn [orb xymem existsb] in X.
    destruct (m_over m a b d); discriminate. }
  intros v m removed n r R. inversion R as [| |m0 removed0 x k r0 E R']; subst; auto.
  inversion R' as [| |m1 rem1 y k' r1 E']; subst; auto. exfalso. eapply K; eauto.
Qed.
Print Assumptions C75_off.

(** ** Repair on *)
Definition tidy (v : vid) (m : machine) : Prop :=
  good m /\ supported v (m_width m) (m_height m) /\
  m_kind m = machine_class v (m_width m) (m_height m) /\
  (forall ch, In ch (chips m) -> inside (m_width m) (m_height m) (c_xy ch)) /\
  straight_links m /\ (forall ch, In ch (chips m) -> c_parent ch = None).

Lemma on_links m removed : round_links true m removed = one_way_links m.
Proof. unfold round_links. cbn [orb]. induction (one_way_links m); cbn; congruence. Qed.

Section Next.
Context {v : vid} {m n : machine} {removed : list XY}.
Hypothesis T : tidy v m.
Hypothesis E : repair_step true v m removed = Ok (Some n).

Lemma next_chip x y ch : get_chip_at n x y = Some ch <->
  exists c0, get_chip_at m x y = Some c0 /\ ~ In (x, y) (bad_chips m) /\ ch = reduce (one_way_links m) c0.
Proof using T E.
  destruct T as ((W & F) & _). destruct (step_next _ _ _ _ _ W F E) as (_ & _ & Wn & Fn & C & _).
  rewrite on_links in C. rewrite get_chip_in by auto. rewrite C, in_survivors. unfold round_chips. split.
  - intros [(c0 & H & N & ->) X]. rewrite reduce_xy in X. exists c0. rewrite <- X. split; auto.
    apply get_chip_in; auto.
  - intros (c0 & G & N & ->). apply get_chip_in in G as [H X]; auto. rewrite reduce_xy. split; auto.
    exists c0. rewrite X. auto.
Qed.

Lemma next_tidy : tidy v n.
Proof using T E.
  pose proof next_chip as NC. destruct T as ((W & F) & S & K & I & ST & NP).
  destruct (step_next _ _ _ _ _ W F E) as (_ & _ & Wn & Fn & C & Ew & Eh & Kn & _).
  split; [split; auto|]. rewrite Ew, Eh. split; auto. split; auto.
  assert (forall ch, In ch (chips n) -> exists c0, In c0 (chips m) /\ ch = reduce (one_way_links m) c0) as OLD.
  { intros ch H. rewrite C, on_links in H. apply in_survivors in H as (c0 & H & _ & ->). eauto. }
  split; [|split].
  - intros ch H. apply OLD in H as (c0 & H & ->). rewrite reduce_xy. auto.
  - intros ch l k H G. apply OLD in H as (c0 & H & ->).
    assert (proper c0) as P by (rewrite Forall_forall in F; auto).
    apply reduce_link in G as [G _]; auto.
    assert (c_x (reduce (one_way_links m) c0) = c_x c0 /\ c_y (reduce (one_way_links m) c0) = c_y c0) as [-> ->].
    { pose proof (reduce_xy (one_way_links m) c0) as X. unfold c_xy in X. split; congruence. }
    unfold m_over. rewrite Kn, Ew, Eh, <- K. apply (ST c0 l k H G).
  - intros ch H. apply OLD in H as (c0 & H & ->). unfold reduce. destruct (touched _ _); cbn [c_parent]; auto.
Qed.

Lemma next_link x y l : link_at n x y l <->
  link_at m x y l /\ ~ In (x, y) (bad_chips m) /\
  exists q, m_over m x y l = Ok q /\ link_at m (fst q) (snd q) ((l + 3) mod 6).
Proof using T E.
  pose proof T as ((W & F) & S & K & I & ST & NP). split.
  - intros (ch & k & G & L). apply next_chip in G as (c0 & G & N & ->).
    pose proof G as G0. apply get_chip_in in G0 as [H X]; auto.
    assert (proper c0) as P by (rewrite Forall_forall in F; auto).
    apply reduce_link in L as [L GO]; auto. split; [exists c0, k; auto|]. split; auto.
    destruct (ST c0 l k H L) as [R O].
    assert (c_x c0 = x /\ c_y c0 = y) as [Ex Ey] by (unfold c_xy in X; split; congruence).
    rewrite Ex, Ey in O. eexists. split; [exact O|]. cbn [fst snd]. apply link_at_iff.
    destruct (is_link_at m (l_destination_x k) (l_destination_y k) ((l + 3) mod 6)) eqn:IL; auto. exfalso.
    rewrite X in GO. assert (gone (one_way_links m) (x, y) l = true); [|congruence].
    apply gone_spec. exists ((l + 3) mod 6). apply one_way_spec; auto. exists c0, k. auto.
  - intros ((c0 & k & G & L) & N & q & O & B).
    exists (reduce (one_way_links m) c0), k. split; [apply next_chip; eauto|].
    pose proof G as G0. apply get_chip_in in G0 as [H X]; auto.
    assert (proper c0) as P by (rewrite Forall_forall in F; auto).
    apply reduce_link; auto. split; auto. destruct (gone (one_way_links m) (c_xy c0) l) eqn:GO; auto. exfalso.
    rewrite X in GO. apply gone_spec in GO as [b GO]. apply one_way_spec in GO as (c1 & k1 & G1 & R1 & -> & L1 & IL); auto.
    assert (c1 = c0) as -> by congruence. assert (k1 = k) as -> by congruence.
    destruct (ST c0 l k H L) as [R O2]. assert (c_x c0 = x /\ c_y c0 = y) as [Ex Ey] by (unfold c_xy in X; split; congruence).
    rewrite Ex, Ey in O2. rewrite O2 in O. apply Ok_inj in O. subst q. cbn [fst snd] in B. apply link_at_iff in B. congruence.
Qed.

Lemma over_next x y l : m_over n x y l = m_over m x y l.
Proof using T E.
  destruct T as ((W & F) & S & K & _). destruct (step_next _ _ _ _ _ W F E) as (_ & _ & _ & _ & _ & Ew & Eh & Kn & _).
  unfold m_over. rewrite Ew, Eh, Kn, K. reflexivity.
Qed.
End Next.

Section Tidy.
Context {v : vid} {m : machine}.
Hypothesis T : tidy v m.

Lemma tidy_good : good_size (m_kind m) (m_width m) (m_height m).
Proof using T. destruct T as (_ & S & -> & _). apply good_supported. auto. Qed.

Lemma tidy_canon x y ch : get_chip_at m x y = Some ch -> canonical (m_kind m) (m_width m) (m_height m) (x, y).
Proof using T.
  destruct T as ((W & F) & S & K & I & _). intros G. apply get_chip_in in G as [H X]; auto.
  apply I in H. rewrite X in H. apply inside_canonical. auto.
Qed.

Lemma tidy_back x y l q : link_at m x y l -> m_over m x y l = Ok q -> m_over m (fst q) (snd q) ((l + 3) mod 6) = Ok (x, y).
Proof using T.
  intros (ch & k & G & L) O. pose proof T as ((W & F) & S & K & I & ST & _).
  pose proof (tidy_canon _ _ _ G) as C. apply get_chip_in in G as [H X]; auto. destruct (ST ch l k H L) as [R _].
  destruct (C03_opposite_returns _ _ _ (x, y) l tidy_good C R) as (r & R1 & _ & R2). cbn [fst snd] in R1.
  unfold m_over in *. rewrite O in R1. apply Ok_inj in R1. subst r. exact R2.
Qed.

Lemma tidy_six x y l : link_at m x y l -> 0 <= l < 6.
Proof using T.
  intros (ch & k & G & L). pose proof T as ((W & F) & S & K & I & ST & _).
  apply get_chip_in in G as [H X]; auto. apply (ST ch l k H L).
Qed.

Lemma tidy_over x y l : link_at m x y l -> exists q, m_over m x y l = Ok q.
Proof using T. intros L. apply over_six. eapply tidy_six; eauto. Qed.

(** A neighbour next to a chip, without wrapping, is the one over the link. *)
Lemma flat_over x y l q ch : flat_neighbour x y l q -> get_chip_at m (fst q) (snd q) = Some ch -> m_over m x y l = Ok q.
Proof using T.
  intros [R O] G. unfold m_over. rewrite over_red by (auto; apply tidy_good).
  rewrite over_red in O; [|split; discriminate|auto]. apply Ok_inj in O. f_equal.
  apply tidy_canon in G. rewrite <- surjective_pairing in G. rewrite <- (red_canon _ _ _ _ G). f_equal.
  rewrite <- O. reflexivity.
Qed.

Lemma flat_back x y l q : flat_neighbour x y l q -> flat_neighbour (fst q) (snd q) ((l + 3) mod 6) (x, y).
Proof using T.
  intros [R O]. split; [apply Z.mod_pos_bound; lia|].
  destruct (C03_opposite_returns NoWrap 0 0 (x, y) l) as (r & R1 & _ & R2); auto; try (split; discriminate).
  cbn [fst snd] in R1. rewrite O in R1. apply Ok_inj in R1. subst r. exact R2.
Qed.

(** Who is bad, without parents. *)
Lemma tidy_bad x y ch : get_chip_at m x y = Some ch ->
  (~ In (x, y) (bad_chips m) <-> linked_to_board flat_neighbour m ch /\ linked_from_board flat_neighbour m ch).
Proof using T.
  intros G. pose proof T as ((W & F) & S & K & I & ST & NP). pose proof G as G0.
  apply get_chip_in in G0 as [H X]; auto. rewrite <- X. rewrite bad_spec by auto.
  assert (orphan m ch = false) as O by (unfold orphan; rewrite NP; auto). rewrite O.
  destruct (to_board_dec m ch), (from_board_dec m ch); intuition.
Qed.
End Tidy.

Lemma opp_opp l : 0 <= l < 6 -> ((l + 3) mod 6 + 3) mod 6 = l.
Proof. intros H. destruct (link_cases l H) as [->|[->|[->|[->|[->| ->]]]]]; reflexivity. Qed.

(** A link that leads to a chip has its reverse. *)
Definition paired (m : machine) : Prop :=
  forall x y l q, link_at m x y l -> m_over m x y l = Ok q -> is_chip_at m (fst q) (snd q) = true ->
    link_at m (fst q) (snd q) ((l + 3) mod 6).

Lemma stage1 v m removed n : tidy v m -> repair_step true v m removed = Ok (Some n) -> paired n.
Proof.
  intros T E x y l q L O C. rewrite (over_next T E) in O.
  apply (next_link T E) in L as (L & N & q' & O' & B). rewrite O in O'. apply Ok_inj in O'. subst q'.
  apply (next_link T E). split; auto. apply chip_there in C as [ch G]. apply (next_chip T E) in G as (c0 & G & Nq & _).
  rewrite <- surjective_pairing in Nq |- *. split; auto. exists (x, y). split; [apply (tidy_back T); auto|].
  cbn [fst snd]. rewrite opp_opp by (eapply tidy_six; eauto). auto.
Qed.

Lemma at_xy v m x y ch : tidy v m -> get_chip_at m x y = Some ch -> c_x ch = x /\ c_y ch = y.
Proof.
  intros T G. destruct T as ((W & _) & _). apply get_chip_in in G as [_ X]; auto. unfold c_xy in X. split; congruence.
Qed.

Lemma reduce_eth dl ch : c_eth_x (reduce dl ch) = c_eth_x ch /\ c_eth_y (reduce dl ch) = c_eth_y ch.
Proof. unfold reduce. destruct (touched _ _); auto. Qed.

Lemma stage2 v m removed n : tidy v m -> paired m -> repair_step true v m removed = Ok (Some n) -> bad_chips n = [].
Proof.
  intros T P E. pose proof (next_tidy T E) as Tn. apply nil_not_in. intros p H.
  pose proof Tn as ((Wn & _) & _). destruct (bad_in n p Wn H) as (ch & Hc & X). destruct p as [x y].
  assert (get_chip_at n x y = Some ch) as G by (apply get_chip_in; auto).
  revert H. apply (tidy_bad Tn x y ch G).
  destruct (at_xy _ _ _ _ _ Tn G) as [Ex Ey].
  pose proof G as G1. apply (next_chip T E) in G1 as (c0 & G0 & NB & Ec).
  pose proof (proj1 (tidy_bad T x y c0 G0) NB) as [(l & q & nb & FL & IL & Gq & Eth) _].
  destruct (at_xy _ _ _ _ _ T G0) as [Ex0 Ey0]. rewrite Ex0, Ey0 in FL.
  pose proof (flat_over T _ _ _ _ _ FL Gq) as O. pose proof (flat_back T _ _ _ _ FL) as FB.
  assert (0 <= l < 6) as R by apply FL.
  assert (link_at m x y l) as L by (apply is_link_get in IL as [k IL]; exists c0, k; auto).
  assert (link_at m (fst q) (snd q) ((l + 3) mod 6)) as LB by (apply (P x y l q); auto; apply chip_there; eauto).
  destruct (at_xy _ _ _ _ _ T Gq) as [Exq Eyq].
  assert (~ In (fst q, snd q) (bad_chips m)) as NQ.
  { apply (tidy_bad T _ _ nb Gq). split.
    - exists ((l + 3) mod 6), (x, y), c0. rewrite Exq, Eyq. split; auto. split.
      + destruct LB as (c1 & k1 & G1 & L1). assert (c1 = nb) as -> by congruence. apply is_link_get. eauto.
      + split; auto.
    - exists ((l + 3) mod 6), (x, y), c0. rewrite Exq, Eyq. split; auto. split; auto. rewrite opp_opp by auto. split; auto. }
  assert (get_chip_at n (fst q) (snd q) = Some (reduce (one_way_links m) nb)) as Gn by (apply (next_chip T E); eauto).
  assert (link_at n x y l) as Ln by (apply (next_link T E); split; auto; split; auto; exists q; auto).
  assert (link_at n (fst q) (snd q) ((l + 3) mod 6)) as LBn.
  { apply (next_link T E). split; auto. split; auto. exists (x, y). split; [apply (tidy_back T); auto|].
    cbn [fst snd]. rewrite opp_opp by auto. auto. }
  assert ((c_eth_x (reduce (one_way_links m) nb), c_eth_y (reduce (one_way_links m) nb)) = (c_eth_x ch, c_eth_y ch)) as EthN.
  { rewrite Ec. destruct (reduce_eth (one_way_links m) nb) as [-> ->], (reduce_eth (one_way_links m) c0) as [-> ->]. auto. }
  split.
  - exists l, q, (reduce (one_way_links m) nb). rewrite Ex, Ey. split; auto. split; auto.
    destruct Ln as (c1 & k1 & G1 & L1). assert (c1 = ch) as -> by congruence. apply is_link_get. eauto.
  - exists l, q, (reduce (one_way_links m) nb). rewrite Ex, Ey. split; auto. split; auto. split; auto.
    destruct LBn as (c1 & k1 & G1 & L1). rewrite Gn in G1. injection G1 as <-. apply is_link_get. eauto.
Qed.

Lemma stage3 v m removed n : tidy v m -> paired m -> bad_chips m = [] ->
  repair_step true v m removed = Ok (Some n) -> clean n.
Proof.
  intros T P B E. pose proof (next_tidy T E) as Tn. pose proof (stage1 _ _ _ _ T E) as Pn.
  pose proof (stage2 _ _ _ _ T P E) as Bn. pose proof Tn as ((Wn & _) & _ & _ & _ & STn & NPn). split; [|split].
  - intros ch l k H R L. assert (get_chip_at n (c_x ch) (c_y ch) = Some ch) as G by (apply get_chip_in; auto).
    destruct (STn ch l k H L) as [_ O]. assert (link_at n (c_x ch) (c_y ch) l) as LN by (exists ch, k; auto).
    pose proof (Pn _ _ _ _ LN O) as X. cbn [fst snd] in X. apply X. clear X.
    apply (next_link T E) in LN as (_ & _ & q & O' & (c1 & k1 & G1 & _)). rewrite (over_next T E), O' in O.
    apply Ok_inj in O. subst q. cbn [fst snd] in G1. apply chip_there. eexists. apply (next_chip T E).
    exists c1. split; auto. rewrite B. split; [intros []|reflexivity].
  - intros ch H. assert (get_chip_at n (c_x ch) (c_y ch) = Some ch) as G by (apply get_chip_in; auto).
    apply (tidy_bad Tn _ _ ch G). rewrite Bn. intros [].
  - intros ch p H X. rewrite NPn in X by auto. discriminate.
Qed.

(** A machine whose chips are inside it, with links that lead where their ids say and no
    chip that records a parent, is repaired with at most three new machines. *)
Theorem C75_four_calls :
  forall repair v m removed n r, made_machine v m ->
    supported v (m_width m) (m_height m) ->
    m_kind m = machine_class v (m_width m) (m_height m) ->
    (forall ch, In ch (chips m) -> inside (m_width m) (m_height m) (c_xy ch)) ->
    straight_links m -> (forall ch, In ch (chips m) -> c_parent ch = None) ->
    repair_calls repair v m removed n r -> (n <= 4)%nat.
Proof.
  intros [|] v m removed n r M S K I ST NP R; [|apply C75_off in R; lia].
  assert (tidy v m) as T by (split; [apply (made_good v m M)|auto]).
  inversion R as [| |m0 rem0 n1 k1 r0 E1 R1]; subst; auto. pose proof (next_tidy T E1) as T1.
  pose proof (stage1 _ _ _ _ T E1) as P1.
  inversion R1 as [| |m1 rem1 n2 k2 r1 E2 R2]; subst; auto. pose proof (next_tidy T1 E2) as T2.
  pose proof (stage1 _ _ _ _ T1 E2) as P2. pose proof (stage2 _ _ _ _ T1 P1 E2) as B2.
  inversion R2 as [| |m2 rem2 n3 k3 r2 E3 R3]; subst; auto. pose proof (next_tidy T2 E3) as T3.
  pose proof (stage3 _ _ _ _ T2 P2 B2 E3) as C3.
  inversion R3 as [| |m3 rem3 n4 k4 r3 E4 R4]; subst; auto. exfalso.
  apply (done_clean true v n3 []) in C3; [congruence|]. apply T3.
Qed.
Print Assumptions C75_four_calls.

Lemma virtual_tidy c V w h check m : virtual_machine c V w h check = Ok m -> tidy (v_id V) m.
Proof.
  intros E. pose proof (C28_virtual_is_made _ _ _ _ _ _ E) as M.
  destruct (virtual_straight _ _ _ _ _ _ E) as (_ & K & _ & ST).
  pose proof (made_good _ _ M) as G. pose proof G as [W _]. apply virtual_built in E as (dch & dco & dl & B & _).
  split; auto. split; [|split; [|split; [|split]]]; auto.
  - rewrite (b_width _ _ _ _ _ _ _ _ B), (b_height _ _ _ _ _ _ _ _ B). apply B.
  - intros ch H. assert (get_chip_at m (c_x ch) (c_y ch) = Some ch) as Gc by (apply get_chip_in; auto).
    rewrite (b_width _ _ _ _ _ _ _ _ B), (b_height _ _ _ _ _ _ _ _ B). apply (built_inside B) in Gc. exact Gc.
  - intros ch l k H L. apply ST with (ch := ch); auto. apply get_chip_in; auto.
  - intros ch H. assert (get_chip_at m (c_x ch) (c_y ch) = Some ch) as Gc by (apply get_chip_in; auto).
    apply (built_chip B) in Gc as (? & ? & ? & ? & ? & _ & _ & _ & _ & ->). reflexivity.
Qed.

(** So is every virtual machine, whatever is down. *)
Theorem C75_virtual :
  forall c V w h check m repair removed n r,
    virtual_machine c V w h check = Ok m -> repair_calls repair (v_id V) m removed n r -> (n <= 4)%nat.
Proof.
  intros c V w h b m repair removed n r E R. pose proof (C28_virtual_is_made _ _ _ _ _ _ E) as M.
  destruct (virtual_tidy _ _ _ _ _ _ E) as (_ & S & K & I & ST & NP).
  apply (C75_four_calls repair (v_id V) m removed n r); auto.
Qed.
Print Assumptions C75_virtual.

(** ** Cases *)

(** Four calls are needed: the two links that keep chip (7, 7) on its board go one way
    only; it goes after they have gone, and the links of other boards to it after that. *)
Definition rounds_cfg : config :=
  mkConfig None None None None None None true None None (Some "7,7,4:7,7,5:6,7,0:7,6,2"%string) None None None true.
Definition rounds_version : version := mkVersion V5 18 100.

Fixpoint count_calls (fuel : nat) (v : vid) (m : machine) (removed : list XY) : option nat :=
  match fuel with
  | O => None
  | S f => match repair_step true v m removed with
           | Ok None => Some 1%nat
           | Ok (Some n) => option_map S (count_calls f v n [])
           | Err _ => None
           end
  end.

Lemma count_calls_ok fuel v : forall m removed n, count_calls fuel v m removed = Some n ->
  exists m', repair_calls true v m removed n (Ok m').
Proof.
  induction fuel as [|f IH]; cbn [count_calls]; [discriminate|]. intros m removed n.
  destruct (repair_step true v m removed) as [[x|]|] eqn:E; [| |discriminate].
  - intros H. destruct (count_calls f v x []) as [k|] eqn:K; [|discriminate]. injection H as <-.
    destruct (IH _ _ _ K) as [m' R]. exists m'. eapply calls_again; eauto.
  - injection 1 as <-. exists m. apply calls_done. auto.
Qed.

Lemma rounds_facts :
  match virtual_machine rounds_cfg rounds_version 12 12 true with
  | Ok m => count_calls 9 V5 m [] = Some 4%nat
  | Err _ => False
  end.
Proof. vm_compute. reflexivity. Qed.

Example C75_case :
  exists m m', virtual_machine rounds_cfg rounds_version 12 12 true = Ok m /\
    repair_calls true (v_id rounds_version) m [] 4 (Ok m').
Proof.
  pose proof rounds_facts as F. destruct (virtual_machine rounds_cfg rounds_version 12 12 true) as [m|]; [|contradiction].
  apply count_calls_ok in F as [m' R]. exists m, m'. auto.
Qed.

(** With parents it takes longer: in a row of chips each of which records the one
    before as its parent, they go one after the other. *)
Definition row_machine : machine := demo_machine
  [demo_chip 0 0 [0; 1; 2] (Some "10.0.0.1"%string) None;
   demo_chip 1 0 [2; 3] None None;
   demo_chip 0 1 [0; 5] None None;
   demo_chip 1 1 [3; 4; 5] None None;
   demo_chip 1 3 [0] None (Some 3); demo_chip 2 3 [0; 3] None (Some 3); demo_chip 3 3 [0; 3] None (Some 3);
   demo_chip 4 3 [0; 3] None (Some 3); demo_chip 5 3 [0; 3] None (Some 3); demo_chip 6 3 [0; 3] None (Some 3);
   demo_chip 7 3 [3] None (Some 3)].

Theorem C75_four_calls_with_parents_refuted :
  exists m m', made_machine V5 m /\ supported V5 (m_width m) (m_height m) /\
    m_kind m = machine_class V5 (m_width m) (m_height m) /\
    (forall ch, In ch (chips m) -> inside (m_width m) (m_height m) (c_xy ch)) /\ straight_links m /\
    repair_calls true V5 m [] 8 (Ok m').
Proof.
  assert (count_calls 12 V5 row_machine [] = Some 8%nat) as F by (vm_compute; reflexivity).
  apply count_calls_ok in F as [m' R]. exists row_machine, m'. split; [|split; [|split; [|split; [|split; [|exact R]]]]].
  - split; [unfold row_machine, demo_machine, made; repeat eexists|].
    match goal with |- Forall _ (chips ?m) => let c := eval vm_compute in (chips m) in
      assert (chips m = c) as -> by (vm_compute; reflexivity) end.
    repeat (apply Forall_cons; [|]); [..|apply Forall_nil].
    all: apply proper_made_chip; split; [split; [reflexivity|]|]; cbn;
      repeat (constructor; [cbn; intuition discriminate|]); constructor.
  - left. split; reflexivity.
  - reflexivity.
  - intros ch H. assert (forallb (fun ch => (0 <=? c_x ch) && (c_x ch <? 8) && (0 <=? c_y ch) && (c_y ch <? 8)) (chips row_machine) = true) as A
      by (vm_compute; reflexivity).
    rewrite forallb_forall in A. specialize (A ch H). change (m_width row_machine) with 8. change (m_height row_machine) with 8.
    unfold inside, c_xy. cbn [fst snd]. lia.
  - intros ch l k H L. assert (forallb (fun ch => forallb (fun t : Z * link => (0 <=? fst t) && (fst t <? 6) &&
       match m_over row_machine (c_x ch) (c_y ch) (fst t) with
       | Ok q => xy_eqb q (l_destination_x (snd t), l_destination_y (snd t)) | Err _ => false end) (r_links (c_router ch))) (chips row_machine) = true) as A
      by (vm_compute; reflexivity).
    rewrite forallb_forall in A. specialize (A ch H). rewrite forallb_forall in A.
    unfold get_link in L. apply (dget_some_in Z.eqb Z.eqb_eq) in L. specialize (A (l, k) L). cbn [fst snd] in A.
    apply andb_true_iff in A as [A B]. destruct (m_over row_machine (c_x ch) (c_y ch) l); [|discriminate].
    apply xyeqb_eq in B. split; [lia|f_equal; exact B].
Qed.
Print Assumptions C75_four_calls_with_parents_refuted.
