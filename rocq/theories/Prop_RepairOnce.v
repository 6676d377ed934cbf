(** C33: repairing twice, and repairing the same chips given in another order *)
From Coq Require Import Lia.
From Verif Require Import Model_Py Model_Wrap Model_Version Model_Core Model_Machine Model_Str Model_Ignore
  Model_Factory Model_Virtual Model_Repair
  Spec_Hops Spec_Version Spec_Machine Spec_Router Spec_Repair
  Proof_Wrap Proof_Py Proof_Board Proof_Version Proof_Machine Proof_Report Proof_Repair Proof_RepairEnd Proof_RepairOff Proof_Virtual
  Proof_VirtualMachine Prop_Virtual Prop_Repair.
Open Scope list_scope.
Open Scope Z_scope.

(** Repairing a repaired machine returns it itself, whatever the option and the
    removed chips of the second call. *)
Theorem C33_repairing_again :
  forall repair repair' v m removed removed' m', made_machine v m ->
    repairs repair v m removed (Ok m') ->
    repairs repair' v m' removed' (Ok m') /\
    (forall r, repairs repair' v m' removed' r -> r = Ok m').
Proof.
  intros repair repair' v m removed removed' m' M R.
  assert (made_machine v m') as M'.
  { destruct (C33_new_machine _ _ _ _ _ M R) as [->|(M' & _)]; auto. }
  assert (repairs repair' v m' removed' (Ok m')) as A.
  { apply C33_original_iff_clean; auto. apply (C32_result_is_clean _ _ _ _ _ M R). }
  split; auto. intros r R'. eapply repairs_det; eauto.
Qed.
Print Assumptions C33_repairing_again.

(** Two machines of the same size with the same chips (in whatever order they were
    added) lose the same chips and links. *)
Theorem C33_order_of_chips :
  forall repair1 repair2 v m1 m2 removed1 removed2 m1' m2',
    made_machine v m1 -> made_machine v m2 ->
    m_kind m1 = machine_class v (m_width m1) (m_height m1) ->
    m_kind m2 = m_kind m1 -> m_width m2 = m_width m1 -> m_height m2 = m_height m1 ->
    (forall ch, In ch (chips m1) <-> In ch (chips m2)) ->
    (forall ch, In ch (chips m1) -> c_parent ch = None) ->
    repairs repair1 v m1 removed1 (Ok m1') -> repairs repair2 v m2 removed2 (Ok m2') ->
    (forall x y, is_chip_at m1' x y = is_chip_at m2' x y) /\
    (forall x y l, 0 <= l < 6 -> (link_at m1' x y l <-> link_at m2' x y l)).
Proof.
  intros repair1 repair2 v m1 m2 removed1 removed2 m1' m2' M1 M2 K KK WW HH SAME NP R1 R2.
  assert (forall x y, get_chip_at m1 x y = get_chip_at m2 x y) as G.
  { intros x y. destruct (made_good v m1 M1) as [W1 _]. destruct (made_good v m2 M2) as [W2 _].
    destruct (get_chip_at m1 x y) as [c|] eqn:E.
    - apply get_chip_in in E as [I X]; auto. symmetry. apply get_chip_in; auto. split; auto. apply SAME; auto.
    - destruct (get_chip_at m2 x y) as [c|] eqn:E2; auto.
      apply get_chip_in in E2 as [I X]; auto. rewrite <- E. apply get_chip_in; auto. split; auto. apply SAME; auto. }
  assert (m_kind m2 = machine_class v (m_width m2) (m_height m2)) as K2 by congruence.
  assert (forall x y p, m_over m1 x y p = m_over m2 x y p) as OV
    by (intros; unfold m_over; rewrite KK, WW, HH; auto).
  assert (forall cs ls, sound_part m1 cs ls -> sound_part m2 cs ls) as S12.
  { intros cs ls [A B C D P]. constructor.
    - intros x y H. rewrite <- G. auto.
    - intros x y l H. rewrite <- G. auto.
    - intros x y ch H. rewrite <- G. intros E. destruct (C x y ch H E) as (l & q & n & Q).
      exists l, q, n. rewrite <- G. auto.
    - intros x y ch H. rewrite <- G. intros E. destruct (D x y ch H E) as (l & q & n & Q).
      exists l, q, n. rewrite <- G. auto.
    - intros x y ch p H. rewrite <- G, <- OV. intros E1 E2. exact (P x y ch p H E1 E2). }
  assert (forall cs ls, sound_part m2 cs ls -> sound_part m1 cs ls) as S21.
  { intros cs ls [A B C D P]. constructor.
    - intros x y H. rewrite G. auto.
    - intros x y l H. rewrite G. auto.
    - intros x y ch H. rewrite G. intros E. destruct (C x y ch H E) as (l & q & n & Q).
      exists l, q, n. rewrite G. auto.
    - intros x y ch H. rewrite G. intros E. destruct (D x y ch H E) as (l & q & n & Q).
      exists l, q, n. rewrite G. auto.
    - intros x y ch p H. rewrite G, OV. intros E1 E2. exact (P x y ch p H E1 E2). }
  pose proof (C33_result_is_a_sound_part _ _ _ _ _ M1 K NP R1) as P1.
  assert (forall ch, In ch (chips m2) -> c_parent ch = None) as NP2 by (intros; apply NP, SAME; auto).
  pose proof (C33_result_is_a_sound_part _ _ _ _ _ M2 K2 NP2 R2) as P2.
  destruct (C33_sound_parts_stay _ _ _ _ _ _ _ M2 K2 (S12 _ _ P1) R2) as [A1 B1].
  destruct (C33_sound_parts_stay _ _ _ _ _ _ _ M1 K (S21 _ _ P2) R1) as [A2 B2].
  split.
  - intros x y. destruct (is_chip_at m1' x y) eqn:E1, (is_chip_at m2' x y) eqn:E2; auto.
    + rewrite (A1 x y) in E2; auto.
    + rewrite (A2 x y) in E1; auto.
  - intros x y l L. split; intros H; [apply B1|apply B2]; auto.
Qed.
Print Assumptions C33_order_of_chips.

(** Four good chips and one without links, added in two orders. *)
Definition order_chips : list chip :=
  [demo_chip 0 0 [0; 1; 2] (Some "10.0.0.1"%string) None;
   demo_chip 1 0 [2; 3] None None; demo_chip 0 1 [0; 5] None None;
   demo_chip 1 1 [0; 3; 4; 5] None None; demo_chip 2 1 [] None None].
Definition order_one : machine := demo_machine order_chips.
Definition order_two : machine := demo_machine (rev order_chips).

Lemma order_made cs : forall m, m = demo_machine cs -> (forall ch, In ch (chips m) -> In ch order_chips) -> made_machine V5 m.
Proof.
  intros m -> H. split.
  - unfold demo_machine, made. repeat eexists.
  - apply Forall_forall. intros ch I. apply H in I. unfold order_chips in I.
    destruct I as [<-|[<-|[<-|[<-|[<-|[]]]]]]; apply demo_chip_made; eexists; vm_compute; reflexivity.
Qed.

Example C33_order_case :
  made_machine V5 order_one /\ made_machine V5 order_two /\
  chips order_one <> chips order_two /\
  (forall ch, In ch (chips order_one) <-> In ch (chips order_two)) /\
  (forall ch, In ch (chips order_one) -> c_parent ch = None) /\
  m_kind order_one = machine_class V5 (m_width order_one) (m_height order_one) /\
  exists m1 m2, repairs true V5 order_one [] (Ok m1) /\ repairs true V5 order_two [] (Ok m2) /\
    n_chips m1 = 4 /\ n_chips m2 = 4 /\ chips m1 <> chips m2 /\
    repairs false V5 m1 [] (Ok m1).
Proof.
  assert (chips order_one = order_chips) as E1 by (vm_compute; reflexivity).
  assert (chips order_two = rev order_chips) as E2 by (vm_compute; reflexivity).
  assert (made_machine V5 order_one) as M1.
  { apply (order_made order_chips); auto. }
  split; [auto|]. split.
  { apply (order_made (rev order_chips)); [reflexivity|].
    rewrite E2. intros ch I. apply in_rev. exact I. }
  split; [vm_compute; discriminate|]. split; [intros ch; rewrite E1, E2; apply in_rev|].
  split; [rewrite E1; intros ch [<-|[<-|[<-|[<-|[<-|[]]]]]]; reflexivity|].
  split; [vm_compute; reflexivity|].
  do 2 eexists.
  assert (forall a b P Q R S : Prop, a -> b -> P -> Q -> R -> (a -> S) -> a /\ b /\ P /\ Q /\ R /\ S) as K by tauto.
  apply K.
  - eapply repairs_again; [vm_compute; reflexivity|]. apply repairs_done. vm_compute. reflexivity.
  - eapply repairs_again; [vm_compute; reflexivity|]. apply repairs_done. vm_compute. reflexivity.
  - vm_compute. reflexivity.
  - vm_compute. reflexivity.
  - vm_compute. discriminate.
  - intros R. apply (C33_repairing_again true false V5 order_one [] [] _ M1 R).
Qed.
