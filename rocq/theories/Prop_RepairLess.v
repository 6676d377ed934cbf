(** C33, C67: what is repaired of a part of a machine is part of what is repaired of
    the machine *)
From Coq Require Import Lia.
From Verif Require Import Model_Py Model_Wrap Model_Version Model_Core Model_Machine Model_Str Model_Ignore
  Model_Factory Model_Virtual Model_Repair
  Spec_Hops Spec_Version Spec_Machine Spec_Router Spec_Items Spec_Repair
  Proof_Wrap Proof_Py Proof_Board Proof_Version Proof_Machine Proof_Report Proof_Repair Proof_RepairEnd Proof_RepairOff Proof_Virtual
  Proof_VirtualMachine Prop_Virtual Prop_Items Prop_Repair.
Open Scope list_scope.
Open Scope Z_scope.

Lemma sound_more m1 m2 cs ls :
  (forall x y b, get_chip_at m2 x y = Some b -> exists a, get_chip_at m1 x y = Some a /\
     c_eth_x a = c_eth_x b /\ c_eth_y a = c_eth_y b /\
     (forall l k, get_link (c_router b) l = Some k -> get_link (c_router a) l = Some k)) ->
  (forall ch, In ch (chips m1) -> c_parent ch = None) -> wf m1 ->
  sound_part m2 cs ls -> sound_part m1 cs ls.
Proof.
  intros LE NP W [A B C D P]. constructor.
  - intros x y H. destruct (A x y H) as [b G]. destruct (LE x y b G) as (a & G' & _). eauto.
  - intros x y l H. destruct (B x y l H) as (H1 & H2 & b & k & G & GL & R).
    destruct (LE x y b G) as (a & G' & _ & _ & L). split; auto. split; auto. exists a, k. auto.
  - intros x y a H G. destruct (A x y H) as [b Gb]. destruct (LE x y b Gb) as (a' & G' & E1 & E2 & _).
    assert (a' = a) as -> by congruence. destruct (C x y b H Gb) as (l & q & n & Q1 & Q2 & Q3 & Q4 & Q5).
    destruct (LE _ _ n Q4) as (n' & N' & F1 & F2 & _). exists l, q, n'. split; [exact Q1|]. split; [exact Q2|]. split; [exact Q3|]. split; [exact N'|]. congruence.
  - intros x y a H G. destruct (A x y H) as [b Gb]. destruct (LE x y b Gb) as (a' & G' & E1 & E2 & _).
    assert (a' = a) as -> by congruence. destruct (D x y b H Gb) as (l & q & n & Q1 & Q2 & Q3 & Q4 & Q5).
    destruct (LE _ _ n Q4) as (n' & N' & F1 & F2 & _). exists l, q, n'. split; [exact Q1|]. split; [exact Q2|]. split; [exact Q3|]. split; [exact N'|]. congruence.
  - intros x y ch p H G PA. apply get_chip_in in G as [G _]; auto. rewrite (NP ch G) in PA. discriminate.
Qed.

(** Taking chips and links away before the repair leaves less after it. *)
Theorem C33_less_in_less_out :
  forall repair1 repair2 v m1 m2 removed1 removed2 m1' m2',
    made_machine v m1 -> made_machine v m2 ->
    m_kind m1 = machine_class v (m_width m1) (m_height m1) ->
    m_kind m2 = machine_class v (m_width m2) (m_height m2) ->
    (forall x y b, get_chip_at m2 x y = Some b -> exists a, get_chip_at m1 x y = Some a /\
       c_eth_x a = c_eth_x b /\ c_eth_y a = c_eth_y b /\
       (forall l k, get_link (c_router b) l = Some k -> get_link (c_router a) l = Some k)) ->
    (forall ch, In ch (chips m1) \/ In ch (chips m2) -> c_parent ch = None) ->
    repairs repair1 v m1 removed1 (Ok m1') -> repairs repair2 v m2 removed2 (Ok m2') ->
    (forall x y, is_chip_at m2' x y = true -> is_chip_at m1' x y = true) /\
    (forall x y l, 0 <= l < 6 -> link_at m2' x y l -> link_at m1' x y l).
Proof.
  intros repair1 repair2 v m1 m2 removed1 removed2 m1' m2' M1 M2 K1 K2 LE NP R1 R2.
  assert (sound_part m2 (fun p => is_chip_at m2' (fst p) (snd p) = true)
      (fun x y l => 0 <= l < 6 /\ link_at m2' x y l)) as S.
  { eapply C33_result_is_a_sound_part; eauto. }
  apply (sound_more m1) in S; auto; [|apply (made_good v m1 M1)].
  destruct (C33_sound_parts_stay _ _ _ _ _ _ _ M1 K1 S R1) as [A B]. split.
  - intros x y H. apply A. exact H.
  - intros x y l L H. apply B. auto.
Qed.
Print Assumptions C33_less_in_less_out.

(** C67 after repair: with more down items, repaired virtual machines have no more chips
    and links. *)
Theorem C67_repaired :
  forall c c' V w h check check' m m' dch dco dl dch' dco' dl' repair repair' removed removed' r r',
    virtual_machine c V w h check = Ok m -> virtual_machine c' V w h check' = Ok m' ->
    parse_chips (cfg_down_chips c) = Ok dch -> parse_chips (cfg_down_chips c') = Ok dch' ->
    parse_cores (v_id V) (cfg_down_cores c) = Ok dco -> parse_cores (v_id V) (cfg_down_cores c') = Ok dco' ->
    parse_links (cfg_down_links c) = Ok dl -> parse_links (cfg_down_links c') = Ok dl' ->
    incl dch dch' -> incl dco dco' -> incl dl dl' ->
    repairs repair (v_id V) m removed (Ok r) -> repairs repair' (v_id V) m' removed' (Ok r') ->
    (forall x y, is_chip_at r' x y = true -> is_chip_at r x y = true) /\
    (forall x y l, 0 <= l < 6 -> link_at r' x y l -> link_at r x y l).
Proof.
  intros c c' V w h check check' m m' dch dco dl dch' dco' dl' repair repair' removed removed' r r' E E' P1 P1' P2 P2' P3 P3' I1 I2 I3 R R'.
  destruct (C67_more_faults_less_machine _ _ _ _ _ _ _ _ _ _ _ _ _ _ _ E E' P1 P1' P2 P2' P3 P3' I1 I2 I3) as [LE _].
  pose proof (C28_virtual_is_made _ _ _ _ _ _ E) as M. pose proof (C28_virtual_is_made _ _ _ _ _ _ E') as M'.
  assert (forall c m check, virtual_machine c V w h check = Ok m ->
    m_kind m = machine_class (v_id V) (m_width m) (m_height m) /\ forall ch, In ch (chips m) -> c_parent ch = None) as K.
  { clear. intros c m check E. apply virtual_built in E as (dch & dco & dl & B & _).
    rewrite (b_kind _ _ _ _ _ _ _ _ B), (b_width _ _ _ _ _ _ _ _ B), (b_height _ _ _ _ _ _ _ _ B). split; auto.
    intros ch Hc. assert (get_chip_at m (c_x ch) (c_y ch) = Some ch) as G by (apply get_chip_in; [apply B|auto]).
    destruct (proj1 (built_present B _ _) (ex_intro _ ch G)) as [(e & d & n & P) _].
    apply (built_fields B _ _ ch e d n G P). }
  destruct (K _ _ _ E) as [K1 N1]. destruct (K _ _ _ E') as [K2 N2].
  apply (C33_less_in_less_out repair repair' (v_id V) m m' removed removed' r r'); auto.
  - intros x y b G. destruct (LE x y b G) as (a & G' & L). exists a. split; auto.
    unfold chip_less in L. intuition.
  - intros ch [H|H]; auto.
Qed.
Print Assumptions C67_repaired.

(** Both machines of [C67_case] have one way links; the second loses one more. *)
Example C67_repaired_case :
  match virtual_machine items_a items_version 12 12 true, virtual_machine more_down items_version 12 12 true with
  | Ok m, Ok m' => exists r r',
      repairs true V5 m [] (Ok r) /\ repairs true V5 m' [] (Ok r') /\
      chips_and_links r < chips_and_links m /\ chips_and_links r' < chips_and_links m' /\
      chips_and_links r' < chips_and_links r
  | _, _ => False
  end.
Proof.
  assert (match virtual_machine items_a items_version 12 12 true, virtual_machine more_down items_version 12 12 true with
    | Ok m, Ok m' => match repair_step true V5 m [], repair_step true V5 m' [] with
      | Ok (Some r), Ok (Some r') => repair_step true V5 r [] = Ok None /\ repair_step true V5 r' [] = Ok None /\
          chips_and_links r < chips_and_links m /\ chips_and_links r' < chips_and_links m' /\
          chips_and_links r' < chips_and_links r
      | _, _ => False
      end
    | _, _ => False
    end) as H by (vm_compute; repeat split).
  destruct (virtual_machine items_a items_version 12 12 true) as [m|]; [|exact H].
  destruct (virtual_machine more_down items_version 12 12 true) as [m'|]; [|exact H].
  destruct (repair_step true V5 m []) as [[r|]|] eqn:E; try contradiction.
  destruct (repair_step true V5 m' []) as [[r'|]|] eqn:E'; try contradiction.
  destruct H as (H1 & H2 & H3). exists r, r'.
  split; [eapply repairs_again; [exact E|apply repairs_done; exact H1]|].
  split; [eapply repairs_again; [exact E'|apply repairs_done; exact H2]|]. exact H3.
Qed.
