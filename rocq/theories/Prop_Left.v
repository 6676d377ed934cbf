(** C76: what machine_repair leaves of a machine. *)
From Coq Require Import Lia ZifyBool Znumtheory.
From Verif Require Import Model_Py Model_Wrap Model_Float Model_Geometry Model_Version Model_Core
  Model_Machine Model_Str Model_Ignore Model_Factory Model_Virtual Model_Repair
  Spec_Hops Spec_Board Spec_Version Spec_Machine Spec_Router Spec_Boards Spec_Str Spec_Virtual Spec_Repair Spec_Walk Spec_Rounds Spec_Left
  Proof_Wrap Proof_Py Proof_Board Proof_Version Proof_Machine Proof_Report Proof_Str Proof_Virtual
  Proof_VirtualMachine Proof_Faultfree Proof_Repair Proof_RepairEnd Proof_RepairOff Proof_Walk Prop_Geometry Prop_Repair Prop_Back Prop_Rounds.
Open Scope list_scope.
Open Scope Z_scope.

Lemma two_way_back v m x y l q : tidy v m -> two_way m x y l q -> two_way m (fst q) (snd q) ((l + 3) mod 6) (x, y).
Proof.
  intros T (L & O & B). split; auto. split; [apply (tidy_back T); auto|].
  cbn [fst snd]. rewrite opp_opp by (eapply tidy_six; eauto). auto.
Qed.

Lemma holds_on_sound v m : tidy v m ->
  sound_part m (fun p => holds_on m (fst p) (snd p))
    (fun x y l => exists q, two_way m x y l q /\ holds_on m x y /\ holds_on m (fst q) (snd q)).
Proof.
  intros T.
  assert (forall x y l q a b, flat_neighbour x y l q -> two_way m x y l q -> get_chip_at m x y = Some a ->
    get_chip_at m (fst q) (snd q) = Some b -> (c_eth_x b, c_eth_y b) = (c_eth_x a, c_eth_y a) ->
    holds_on m (fst q) (snd q)) as HB.
  { intros x y l q a b F W G G' X. exists ((l + 3) mod 6), (x, y), b, a. cbn [fst snd].
    split; [apply (flat_back T); auto|]. split; [eapply two_way_back; eauto|]. auto. }
  split; cbn [fst snd].
  - intros x y (l & q & a & b & _ & _ & G & _). eauto.
  - intros x y l (q & W & H & Hq). split; auto. pose proof W as (L & O & B). split; [eapply tidy_six; eauto|].
    pose proof L as (ch & k & G & K). exists ch, k. split; auto. split; auto.
    assert (q = (l_destination_x k, l_destination_y k)) as ->.
    { destruct T as ((Wf & _) & _ & _ & _ & ST & _). apply get_chip_in in G as [Hc X]; auto.
      destruct (ST ch l k Hc K) as [_ O2]. unfold c_xy in X. injection X as X1 X2. rewrite X1, X2 in O2. congruence. }
    exists (x, y). cbn [fst snd] in *. split; [|auto]. apply (two_way_back v m x y l (l_destination_x k, l_destination_y k) T W).
  - intros x y ch H G. pose proof H as (l & q & a & b & F & W & Ga & Gb & X). assert (a = ch) as -> by congruence.
    exists l, q, b. split; auto. pose proof (HB _ _ _ _ _ _ F W Ga Gb X) as Hq. split; [exists q; auto|]. auto.
  - intros x y ch H G. pose proof H as (l & q & a & b & F & W & Ga & Gb & X). assert (a = ch) as -> by congruence.
    exists l, q, b. split; auto. pose proof (HB _ _ _ _ _ _ F W Ga Gb X) as Hq. split; [|auto].
    exists (x, y). split; [eapply two_way_back; eauto|]. auto.
  - intros x y ch p H G P. destruct T as ((Wf & _) & _ & _ & _ & _ & NP). apply get_chip_in in G as [Hc _]; auto.
    rewrite NP in P by auto. discriminate.
Qed.

(** Of a machine whose chips are inside it, with links that lead where their ids say and
    no chip that records a parent: a chip is left iff it has a link both ways with a chip
    of its board, and a link is left iff it goes both ways and both its ends are left. *)
Theorem C76_what_is_left :
  forall repair v m removed m', made_machine v m ->
    supported v (m_width m) (m_height m) ->
    m_kind m = machine_class v (m_width m) (m_height m) ->
    (forall ch, In ch (chips m) -> inside (m_width m) (m_height m) (c_xy ch)) ->
    straight_links m -> (forall ch, In ch (chips m) -> c_parent ch = None) ->
    repairs repair v m removed (Ok m') ->
    (forall x y, is_chip_at m' x y = true <-> holds_on m x y) /\
    (forall x y l, link_at m' x y l <->
       exists q, two_way m x y l q /\ holds_on m x y /\ holds_on m (fst q) (snd q)).
Proof.
  intros repair v m removed m' M S K I ST NP R.
  assert (tidy v m) as T by (split; [apply (made_good v m M)|auto]).
  pose proof (holds_on_sound v m T) as SP.
  destruct (C33_sound_parts_stay _ _ _ _ _ _ _ M K SP R) as [KC KL].
  pose proof (made_good v m M) as [W F].
  destruct (C32_result_is_clean _ _ _ _ _ M R) as ((C1 & C2 & _) & _).
  destruct (C33_only_removes _ _ _ _ _ M R) as (_ & _ & _ & P).
  assert (wf m') as W'.
  { destruct (C33_new_machine _ _ _ _ _ M R) as [->|(M' & _)]; auto. apply (made_good v m' M'). }
  assert (forall x y ch', get_chip_at m' x y = Some ch' -> exists ch, get_chip_at m x y = Some ch /\ chip_reduced ch ch') as OLD.
  { intros x y ch' G. apply get_chip_in in G as [H X]; auto. destruct (P ch' H) as (ch & Hc & CR).
    exists ch. split; auto. apply get_chip_in; auto. split; auto. rewrite <- X.
    destruct CR as (E1 & E2 & _). unfold c_xy. congruence. }
  assert (forall x y l, link_at m' x y l -> exists q, two_way m x y l q /\ link_at m' (fst q) (snd q) ((l + 3) mod 6)) as TW.
  { intros x y l (ch' & k & G & L). destruct (OLD _ _ _ G) as (ch & Go & CR).
    assert (get_link (c_router ch) l = Some k) as Lo by (apply CR; auto).
    pose proof Go as Gi. apply get_chip_in in Gi as [Hc X]; auto. destruct (ST ch l k Hc Lo) as [Rl O].
    unfold c_xy in X. injection X as X1 X2. rewrite X1, X2 in O.
    apply get_chip_in in G as [Hc' _]; auto. pose proof (C1 ch' l k Hc' Rl L) as B'.
    exists (l_destination_x k, l_destination_y k). cbn [fst snd]. split; auto. split; [exists ch, k; auto|]. split; auto.
    destruct B' as (b' & kb & Gb & Lb). destruct (OLD _ _ _ Gb) as (b & Gbo & CRb). exists b, kb. split; auto. apply CRb; auto. }
  assert (forall x y, is_chip_at m' x y = true -> holds_on m x y) as HC.
  { intros x y H. apply chip_there in H as [ch' G]. pose proof G as Gi. apply get_chip_in in Gi as [Hc' X]; auto.
    destruct (C2 ch' Hc') as [(l & q & b' & FN & IL & Gb & Eth) _]. unfold c_xy in X. injection X as X1 X2. rewrite X1, X2 in FN.
    apply is_link_get in IL as [k IL].
    destruct (TW x y l) as (q' & W2 & _); [exists ch', k; auto|].
    destruct (OLD _ _ _ G) as (a & Ga & CRa), (OLD _ _ _ Gb) as (b & Gbo & CRb).
    pose proof (flat_over T _ _ _ _ _ FN Gbo) as O. assert (q' = q) as -> by (destruct W2 as (_ & O2 & _); congruence).
    exists l, q, a, b. split; auto. split; auto. split; auto. split; auto.
    destruct CRa as (_ & _ & _ & _ & _ & A1 & A2 & _), CRb as (_ & _ & _ & _ & _ & B1 & B2 & _). congruence. }
  split.
  - intros x y. split; auto.
  - intros x y l. split; [|apply KL]. intros L. destruct (TW x y l L) as (q & W2 & B). exists q. split; auto.
    split; apply HC, chip_there.
    + destruct L as (c & _ & G & _). eauto.
    + destruct B as (c & _ & G & _). eauto.
Qed.
Print Assumptions C76_what_is_left.

(** The same for every virtual machine, whatever is down. *)
Theorem C76_virtual :
  forall c V w h check m repair removed m',
    virtual_machine c V w h check = Ok m -> repairs repair (v_id V) m removed (Ok m') ->
    (forall x y, is_chip_at m' x y = true <-> holds_on m x y) /\
    (forall x y l, link_at m' x y l <->
       exists q, two_way m x y l q /\ holds_on m x y /\ holds_on m (fst q) (snd q)).
Proof.
  intros c V w h b m repair removed m' E R. pose proof (C28_virtual_is_made _ _ _ _ _ _ E) as M.
  destruct (virtual_tidy _ _ _ _ _ _ E) as (_ & S & K & I & ST & NP).
  apply (C76_what_is_left repair (v_id V) m removed m'); auto.
Qed.
Print Assumptions C76_virtual.

(** The machine of C75_case loses chip (7, 7), keeps (6, 6) and (8, 7), and these lose
    their links to it. *)
Lemma left_facts :
  match virtual_machine rounds_cfg rounds_version 12 12 true with
  | Ok m =>
      match repair_step true V5 m [] with
      | Ok (Some m1) => match repair_step true V5 m1 [] with
        | Ok (Some m2) => match repair_step true V5 m2 [] with
          | Ok (Some m3) => (match repair_step true V5 m3 [] with Ok None => true | _ => false end) &&
              is_chip_at m 7 7 && negb (is_chip_at m3 7 7) && is_chip_at m3 6 6 && is_chip_at m3 8 7 &&
              is_link_at m 6 6 1 && negb (is_link_at m3 6 6 1) && is_link_at m 8 7 3 && negb (is_link_at m3 8 7 3)
          | _ => false end
        | _ => false end
      | _ => false end
  | Err _ => false
  end = true.
Proof. vm_compute. reflexivity. Qed.

Example C76_case :
  exists m m', virtual_machine rounds_cfg rounds_version 12 12 true = Ok m /\
    repairs true (v_id rounds_version) m [] (Ok m') /\
    is_chip_at m 7 7 = true /\ is_chip_at m' 7 7 = false /\ is_chip_at m' 6 6 = true /\ is_chip_at m' 8 7 = true /\
    is_link_at m 6 6 1 = true /\ is_link_at m' 6 6 1 = false /\ is_link_at m 8 7 3 = true /\ is_link_at m' 8 7 3 = false.
Proof.
  pose proof left_facts as F. destruct (virtual_machine rounds_cfg rounds_version 12 12 true) as [m|]; [|discriminate].
  destruct (repair_step true V5 m []) as [[m1|]|] eqn:E1; try discriminate.
  destruct (repair_step true V5 m1 []) as [[m2|]|] eqn:E2; try discriminate.
  destruct (repair_step true V5 m2 []) as [[m3|]|] eqn:E3; try discriminate.
  destruct (repair_step true V5 m3 []) as [[m4|]|] eqn:E4; try discriminate.
  exists m, m3. split; auto.
  repeat (apply andb_true_iff in F as [F ?]). repeat match goal with H : negb _ = true |- _ => apply negb_true_iff in H end.
  split; [|auto 10]. eapply repairs_again; [exact E1|]. eapply repairs_again; [exact E2|]. eapply repairs_again; [exact E3|].
  apply repairs_done. exact E4.
Qed.
