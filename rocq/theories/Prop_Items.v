(** C66, C67: what a virtual machine takes from the down items of the cfg. *)
From Coq Require Import Lia ZifyBool Sorted.
From Verif Require Import Model_Py Model_Wrap Model_Float Model_Geometry Model_Version Model_Core
  Model_Machine Model_Str Model_Ignore Model_Virtual
  Spec_Hops Spec_Board Spec_Version Spec_Machine Spec_Boards Spec_Str Spec_Virtual Spec_Items
  Proof_Wrap Proof_Py Proof_Board Proof_Version Proof_Machine Proof_Report Proof_Str Proof_Virtual
  Proof_VirtualMachine Proof_Items.
Open Scope list_scope.
Open Scope Z_scope.

(** ** C66 *)

(** Order and repetition of down items do not matter, nor does any other setting of
    the cfg once the version is known: the machine is the same, field by field. *)
Theorem C66_order_and_repetition :
  forall c c' V w h check m,
    same_faults c c' ->
    virtual_machine c V w h check = Ok m -> virtual_machine c' V w h check = Ok m.
Proof.
  intros c c' V w h b m (S1 & S2 & S3) E.
  pose proof E as E'. apply virtual_built in E' as (dch & dco & dl & B & _).
  pose proof (b_read _ _ _ _ _ _ _ _ B) as R. pose proof R as (R1 & R2 & R3).
  destruct (same_items_parse ignore_chip_eqb ignore_chip_eqb_eq _ _ _ _ S1 R1) as (dch' & Q1 & M1).
  destruct (same_items_parse ignore_core_eqb ignore_core_eqb_eq _ _ _ _ S2 R2) as (dco' & Q2 & M2).
  destruct (same_items_parse ignore_link_eqb ignore_link_eqb_eq _ _ _ _ S3 R3) as (dl' & Q3 & M3).
  apply (same_built c c' V w h b m dch dco dl dch' dco' dl'); auto. repeat split; auto.
Qed.
Print Assumptions C66_order_and_repetition.

(** More generally only the sets of items that the texts stand for matter. *)
Theorem C66_only_the_sets :
  forall c c' V w h check m dch dco dl dch' dco' dl',
    parse_chips (cfg_down_chips c) = Ok dch -> parse_chips (cfg_down_chips c') = Ok dch' ->
    parse_cores (v_id V) (cfg_down_cores c) = Ok dco -> parse_cores (v_id V) (cfg_down_cores c') = Ok dco' ->
    parse_links (cfg_down_links c) = Ok dl -> parse_links (cfg_down_links c') = Ok dl' ->
    same_members dch dch' -> same_members dco dco' -> same_members dl dl' ->
    virtual_machine c V w h check = Ok m <-> virtual_machine c' V w h check = Ok m.
Proof.
  intros c c' V w h b m dch dco dl dch' dco' dl' P1 P1' P2 P2' P3 P3' M1 M2 M3. split; intros E.
  - apply (same_built c c' V w h b m dch dco dl dch' dco' dl'); auto; repeat split; auto.
  - apply (same_built c' c V w h b m dch' dco' dl' dch dco dl); auto; try (repeat split; auto; fail);
      intros x; split; intros H; first [apply M1|apply M2|apply M3]; auto.
Qed.
Print Assumptions C66_only_the_sets.

Definition items_a : config :=
  mkConfig None None None None None None false (Some "0,0,5-6:1,0,3"%string) (Some "1,1:5,5"%string)
    (Some "0,0,0:2,2,1"%string) None None None true.
Definition items_b : config :=
  mkConfig None None (Some 7) None None None true (Some "1,0,3:1,0,3:0,0,5-6"%string)
    (Some "5,5:1,1:5,5"%string) (Some "2,2,1:0,0,0"%string) None None None true.
Definition items_version : version := mkVersion V5 18 100.

Example C66_case :
  same_faults items_a items_b /\
  is_ok (virtual_machine items_a items_version 12 12 true) = true.
Proof.
  split; [|vm_compute; reflexivity].
  repeat split; right.
  - exists ["1,1"; "5,5"]%string, ["5,5"; "1,1"; "5,5"]%string.
    repeat split; try discriminate; try (repeat constructor; discriminate); cbn in *; tauto.
  - exists ["0,0,5-6"; "1,0,3"]%string, ["1,0,3"; "1,0,3"; "0,0,5-6"]%string.
    repeat split; try discriminate; try (repeat constructor; discriminate); cbn in *; tauto.
  - exists ["0,0,0"; "2,2,1"]%string, ["2,2,1"; "0,0,0"]%string.
    repeat split; try discriminate; try (repeat constructor; discriminate); cbn in *; tauto.
Qed.

(** ** C67 *)

Lemma sub_length {A} (l l' : list A) : NoDup l -> incl l l' -> Z.of_nat (List.length l) <= Z.of_nat (List.length l').
Proof. intros N I. pose proof (NoDup_incl_length N I). lia. Qed.

(** Whatever is added to the down items, nothing comes in return: each chip that is
    left was there, at the same place with the same nearest Ethernet chip, address,
    tags and memory, and all of its cores and links were there. *)
Theorem C67_more_faults_less_machine :
  forall c c' V w h check check' m m' dch dco dl dch' dco' dl',
    virtual_machine c V w h check = Ok m -> virtual_machine c' V w h check' = Ok m' ->
    parse_chips (cfg_down_chips c) = Ok dch -> parse_chips (cfg_down_chips c') = Ok dch' ->
    parse_cores (v_id V) (cfg_down_cores c) = Ok dco -> parse_cores (v_id V) (cfg_down_cores c') = Ok dco' ->
    parse_links (cfg_down_links c) = Ok dl -> parse_links (cfg_down_links c') = Ok dl' ->
    incl dch dch' -> incl dco dco' -> incl dl dl' ->
    (forall x y ch', get_chip_at m' x y = Some ch' ->
       exists ch, get_chip_at m x y = Some ch /\ chip_less ch ch') /\
    n_chips m' <= n_chips m /\ get_cores_count m' <= get_cores_count m /\
    total_available_user_cores m' <= total_available_user_cores m /\
    get_links_count_doubled m' <= get_links_count_doubled m.
Proof.
  intros c c' V w h b b' m m' dch dco dl dch' dco' dl' E E' P1 P1' P2 P2' P3 P3' I1 I2 I3.
  apply virtual_built in E as (a1 & a2 & a3 & B & _). apply virtual_built in E' as (a1' & a2' & a3' & B' & _).
  destruct (b_read _ _ _ _ _ _ _ _ B) as (Q1 & Q2 & Q3).
  destruct (b_read _ _ _ _ _ _ _ _ B') as (Q1' & Q2' & Q3').
  assert (a1 = dch) as -> by congruence. assert (a2 = dco) as -> by congruence.
  assert (a3 = dl) as -> by congruence. assert (a1' = dch') as -> by congruence.
  assert (a2' = dco') as -> by congruence. assert (a3' = dl') as -> by congruence.
  clear Q1 Q2 Q3 Q1' Q2' Q3'.
  pose proof (b_wf _ _ _ _ _ _ _ _ B) as W. pose proof (b_wf _ _ _ _ _ _ _ _ B') as W'.
  assert (forall a ch, chip_less a ch -> In ch (chips m') ->
    Z.of_nat (List.length (c_placable ch)) <= Z.of_nat (List.length (c_placable a)) /\
    router_len (c_router ch) <= router_len (c_router a)) as LE.
  { intros a ch (_ & _ & _ & IP & _ & _ & _ & _ & _ & _ & _ & IL) H.
    assert (get_chip_at m' (c_x ch) (c_y ch) = Some ch) as G by (apply get_chip_in; auto).
    destruct (proj1 (built_present B' _ _) (ex_intro _ ch G)) as [(e & d & n & P) _].
    destruct (built_fields B' _ _ _ e d n G P) as (_ & _ & _ & _ & _ & _ & _ & S & _).
    split; [apply sub_length; auto using sorted_nodup|].
    unfold router_len.
    assert (NoDup (dkeys (r_links (c_router ch)))) as N.
    { apply (built_chip B') in G as (eths & uc & e' & d' & n' & _ & _ & _ & _ & ->).
      cbn [vchip new_chip c_router vrouter r_links]. unfold dkeys. rewrite map_map. cbn [fst].
      apply vlinks_nodup. apply sorted_nodup, zrange_sorted. }
    replace (List.length (r_links (c_router ch))) with (List.length (dkeys (r_links (c_router ch)))) by apply map_length.
    replace (List.length (r_links (c_router a))) with (List.length (dkeys (r_links (c_router a)))) by apply map_length.
    apply sub_length; auto. intros l Hl.
    destruct (get_link (c_router ch) l) as [k|] eqn:K.
    - apply IL in K. apply (dget_some_in Z.eqb Z.eqb_eq) in K. apply (in_map fst) in K. exact K.
    - unfold get_link in K. apply (dget_none Z.eqb Z.eqb_eq) in K. contradiction. }
  split; [|split; [|split; [|split]]].
  - intros x y ch' G'. destruct (less_there B B' I1 x y ch' G') as [ch G]. exists ch. split; auto.
    apply (less_chip B B' I1 I2 I3 x y); auto.
  - pose proof (less_keys B B' I1) as [N I]. pose proof (sub_length _ _ N I) as L.
    rewrite !map_length in L. unfold n_chips, chips, dvalues in *. rewrite !map_length in L. exact L.
  - unfold get_cores_count. rewrite (wf_cores m W), (wf_cores m' W').
    apply (less_sum B B' I1 I2 I3).
    + intros ch. unfold n_processors. lia.
    + intros a ch L H. destruct (LE a ch L H) as [LP _]. destruct L as (_ & _ & S & _).
      unfold n_processors. rewrite S. lia.
  - unfold total_available_user_cores. apply (less_sum B B' I1 I2 I3).
    + intros ch. unfold n_placable_processors. lia.
    + intros a ch L H. destruct (LE a ch L H) as [LP _]. unfold n_placable_processors. lia.
  - unfold get_links_count_doubled. rewrite (wf_links m W), (wf_links m' W').
    apply (less_sum B B' I1 I2 I3).
    + intros ch. unfold router_len. lia.
    + intros a ch L H. apply (LE a ch L H).
Qed.
Print Assumptions C67_more_faults_less_machine.

(** But a check of the result can fail with fewer faults: a chip whose Ethernet chip
    is down is refused unless it is down too. *)
Definition half_down : config :=
  mkConfig None None None None None None false None (Some "4,8"%string) None None None None true.
Definition board_down : config :=
  mkConfig None None None None None None false None
    (Some (joined (map (fun p => String.append (dec ((4 + fst p) mod 12)) (String.append "," (dec ((8 + snd p) mod 12))))
      (map fst (chip_core_map V5))))) None None None None true.

Theorem C67_validity_is_monotone_refuted :
  exists dch dch', parse_chips (cfg_down_chips half_down) = Ok dch /\
    parse_chips (cfg_down_chips board_down) = Ok dch' /\ incl dch dch' /\
    is_ok (virtual_machine half_down items_version 12 12 true) = false /\
    is_ok (virtual_machine board_down items_version 12 12 true) = true.
Proof.
  eexists. eexists. split; [vm_compute; reflexivity|]. split; [vm_compute; reflexivity|].
  split; [|split; vm_compute; reflexivity].
  intros i [<-|[]]. left. reflexivity.
Qed.
Print Assumptions C67_validity_is_monotone_refuted.

Definition more_down : config :=
  mkConfig None None None None None None false (Some "0,0,5-6:1,0,3-9"%string) (Some "1,1:3,4:5,5"%string)
    (Some "0,0,0:2,2,1:2,3,4"%string) None None None true.

Example C67_case :
  exists m m' dch dco dl dch' dco' dl',
    virtual_machine items_a items_version 12 12 true = Ok m /\
    virtual_machine more_down items_version 12 12 true = Ok m' /\
    parse_chips (cfg_down_chips items_a) = Ok dch /\ parse_chips (cfg_down_chips more_down) = Ok dch' /\
    parse_cores V5 (cfg_down_cores items_a) = Ok dco /\ parse_cores V5 (cfg_down_cores more_down) = Ok dco' /\
    parse_links (cfg_down_links items_a) = Ok dl /\ parse_links (cfg_down_links more_down) = Ok dl' /\
    incl dch dch' /\ incl dco dco' /\ incl dl dl' /\
    (n_chips m, n_chips m', get_cores_count m, get_cores_count m') = (142, 141, 2530, 2506).
Proof.
  do 8 eexists.
  split; [vm_compute; reflexivity|]. split; [vm_compute; reflexivity|].
  split; [vm_compute; reflexivity|]. split; [vm_compute; reflexivity|].
  split; [vm_compute; reflexivity|]. split; [vm_compute; reflexivity|].
  split; [vm_compute; reflexivity|]. split; [vm_compute; reflexivity|].
  split; [intros i; cbn [In]; tauto|]. split; [intros i; cbn [In]; tauto|]. split; [intros i; cbn [In]; tauto|].
  vm_compute. reflexivity.
Qed.
