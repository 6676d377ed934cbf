(** C35: repaired machines written to and read from JSON. *)
From Coq Require Import Lia ZifyBool Permutation Sorted.
From Verif Require Import Model_Py Model_Wrap Model_Float Model_Geometry Model_Version Model_Core
  Model_Machine Model_Str Model_Ignore Model_Factory Model_Virtual Model_Repair Model_Json
  Spec_Hops Spec_Board Spec_Version Spec_Machine Spec_Router Spec_Str Spec_Virtual Spec_Repair Spec_Json
  Proof_Wrap Proof_Py Proof_Board Proof_Version Proof_Machine Proof_Report Proof_Str Proof_Virtual
  Proof_VirtualMachine Proof_Links Proof_Repair Proof_RepairEnd Proof_RepairOff Proof_Items Proof_Json Prop_Repair
  Prop_Virtual Prop_Items Prop_Json.
Open Scope list_scope.
Open Scope Z_scope.

Lemma ignore_machine_of v m dc dl n : wf m -> Forall proper (chips m) ->
  machine_ignore v m dc dl = Ok n ->
  n = machine_of v (m_width m) (m_height m) "Fixed" (survivors dc dl (chips m)).
Proof.
  intros W F. unfold machine_ignore.
  destruct (verify_raises v (Some (m_width m)) (Some (m_height m))) as [VS|VS].
  2: { unfold create_machine. rewrite VS. discriminate. }
  assert (supported v (m_width m) (m_height m)) as S by (apply verify_supported; auto).
  rewrite create_some by auto. cbn [bind].
  set (n0 := new_machine _ _ _ _ _).
  destruct (ignore_fold dc dl v (chips m) n0 (wf_new _ _ _ _ _) F) as
    (n1 & E1 & W1 & C1 & K1 & K2 & K3 & K4 & K5 & K6); [apply W|].
  rewrite E1. cbn [bind].
  destruct (add_spin_same v n1 W1) as (n2 & E2 & S2). rewrite E2. cbn [bind].
  assert (wf n2) as W2 by (eapply same_wf; eauto).
  destruct (add_fpga_same v n2 W2) as (n3 & E3 & S3). rewrite E3. cbn [bind].
  intros E. apply bind_ok in E as (u & _ & E). apply Ok_inj in E. subst n.
  unfold machine_of. fold n0. rewrite history_app, K6. cbn [history exec]. rewrite E2. cbn. rewrite E3. reflexivity.
Qed.

Lemma ssorted_map_filter {A} (g : A -> Z) f l :
  StronglySorted Z.lt (map g l) -> StronglySorted Z.lt (map g (filter f l)).
Proof.
  induction l as [|a l IH]; intros S; cbn; [constructor|]. inversion S; subst.
  destruct (f a); auto. cbn. constructor; auto.
  rewrite Forall_forall in *. intros z Hz. apply in_map_iff in Hz as (b & <- & Hb).
  apply filter_In in Hb as [Hb _]. apply H2. apply in_map. auto.
Qed.

Lemma reduce_plain v w h dl ch : plain v w h ch -> plain v w h (reduce dl ch).
Proof.
  intros [M S C E PA O L]. pose proof (made_chip_proper _ M) as P.
  assert (made_chip (reduce dl ch)) as M' by (apply proper_made_chip, reduce_proper; auto).
  assert (forall l k, get_link (c_router (reduce dl ch)) l = Some k ->
    0 <= l < 6 /\ l_source_x k = c_x (reduce dl ch) /\ l_source_y k = c_y (reduce dl ch) /\
    xy_over_link (machine_class v w h) w h (c_x (reduce dl ch)) (c_y (reduce dl ch)) l
      = Ok (l_destination_x k, l_destination_y k)) as L'.
  { intros l k G. apply reduce_link in G as [G _]; auto. pose proof (reduce_xy dl ch) as X.
    injection X as -> ->. auto. }
  destruct (touched dl (c_xy ch)) eqn:T.
  - split; auto; unfold reduce; rewrite T; cbn [c_scamp c_placable c_router r_entries c_parent]; auto.
    unfold router_iter. cbn [r_links]. rewrite map_map. cbn [fst].
    apply ssorted_map_filter. destruct P as [[W _] _]. unfold router_iter in O. rewrite W, map_map in O. exact O.
  - unfold reduce. rewrite T. split; auto.
Qed.

Definition plain_machine (v : vid) (w h : Z) (m : machine) : Prop :=
  (exists o, m = machine_of v w h o (chips m)) /\ NoDup (map c_xy (chips m)) /\ Forall (plain v w h) (chips m).

Lemma plain_facts v w h m : plain_machine v w h m ->
  wf m /\ Forall proper (chips m) /\ m_width m = w /\ m_height m = h.
Proof.
  intros ([o E] & N & P). destruct (machine_of_chips v w h o (chips m) N) as (W & M & C & K & X & Y & _).
  rewrite <- E in *. split; auto. split; auto. eapply Forall_impl; [|exact P].
  intros ch PC. apply made_chip_proper. apply PC.
Qed.

Lemma repaired_plain v w h repair m removed m' :
  plain_machine v w h m -> repairs repair v m removed (Ok m') -> plain_machine v w h m'.
Proof.
  intros P R.
  refine (proj1 (repairs_inv (plain_machine v w h) repair v _ m removed (Ok m') R P)).
  clear. intros m removed n P E. destruct (plain_facts _ _ _ _ P) as (W & F & X & Y).
  apply step_inv in E as (_ & _ & [[E _]|(n0 & E & _ & G)]); [discriminate|]. injection E as <-.
  pose proof (ignore_machine_of _ _ _ _ _ W F G) as ME.
  pose proof (ignore_spec v m (round_chips repair m) (round_links repair m removed) W F) as IS. rewrite G in IS.
  destruct IS as (_ & _ & Wn & _ & C & _). rewrite X, Y, <- C in ME.
  split; [eauto|]. split; [apply Wn|]. rewrite C. destruct P as (_ & _ & P). rewrite Forall_forall in *.
  intros ch Hc. apply in_survivors in Hc as (ch0 & H0 & _ & ->). apply reduce_plain. auto.
Qed.

Lemma virtual_plain c V w h check m down_cores :
  virtual_machine c V w h check = Ok m ->
  parse_cores (v_id V) (cfg_down_cores c) = Ok down_cores ->
  (forall i, In i down_cores -> ico_ip i <> None) ->
  supported (v_id V) w h /\ plain_machine (v_id V) w h m.
Proof.
  intros E PC ND.
  pose proof (C28_virtual_is_made _ _ _ _ _ _ E) as MM. destruct (made_good _ _ MM) as [W F].
  pose proof (virtual_machine_of _ _ _ _ _ _ E) as ME.
  apply virtual_built in E as (dch & dco & dl & B & _).
  destruct (b_read _ _ _ _ _ _ _ _ B) as (R1 & R2 & R3). assert (down_cores = dco) as -> by congruence.
  split; [apply B|]. split; [eauto|]. split; [apply W|].
  apply Forall_forall. intros ch Hc.
  assert (get_chip_at m (c_x ch) (c_y ch) = Some ch) as G by (apply get_chip_in; auto).
  destruct (proj1 (built_present B _ _) (ex_intro _ ch G)) as [(e & d & n & P) _].
  destruct (built_fields B _ _ ch e d n G P) as (_ & _ & _ & _ & _ & _ & F7 & F8 & F9 & _ & F11 & F12).
  assert (c_placable ch = zrange 1 (Z.min n (max_cores_per_chip V))) as PL.
  { apply sorted_zrange; auto. intros p. rewrite F9. split; [tauto|]. intros H. split; auto.
    intros (i & I1 & I2 & _). apply (ND i I1 I2). }
  split; auto.
  + destruct MM as [_ MM]. rewrite Forall_forall in MM. auto.
  + rewrite PL at 1. unfold n_processors. rewrite F7, PL, zrange_length.
    change (Z.of_nat (List.length [0])) with 1. unfold zrange. f_equal. f_equal. lia.
  + rewrite F12. destruct (v_id V); vm_compute; discriminate.
  + destruct (b_rest _ _ _ _ _ _ _ _ B) as (eths & uc & L & U & C & _). cbv zeta in C.
    rewrite C in Hc. apply in_map_iff in Hc as ([xy [e' n']] & <- & _).
    unfold router_iter. cbn [vchip new_chip c_router vrouter r_links]. rewrite map_map. cbn [fst].
    apply vlinks_sorted. vm_compute.
    repeat (constructor; [|repeat (constructor; [reflexivity|]); constructor]). constructor.
  + intros l k GL. apply (built_link B _ _ ch l k G) in GL as (Hl & _ & dx & dy & O & -> & _).
    split; auto. cbn. split; auto. split; auto. unfold m_over in O.
    rewrite (b_kind _ _ _ _ _ _ _ _ B), (b_width _ _ _ _ _ _ _ _ B), (b_height _ _ _ _ _ _ _ _ B) in O. exact O.
Qed.

(** What [machine_repair] makes of a virtual machine comes back as it was too:
    removing chips and links leaves nothing that the format cannot say. *)
Theorem C35_repaired_round_trip :
  forall c V w h check m down_cores repair removed m',
    virtual_machine c V w h check = Ok m ->
    parse_cores (v_id V) (cfg_down_cores c) = Ok down_cores ->
    (forall i, In i down_cores -> ico_ip i <> None) ->
    repairs repair (v_id V) m removed (Ok m') ->
    is_chip_at m' 0 0 = true ->
    (n_chips m' <= 1 \/ exists ch, In ch (chips m') /\ c_ip ch = None) ->
    exists j, to_json m' = Ok j /\ machine_from_json (v_id V) j = Ok (with_origin "Json" m').
Proof.
  intros c V w h b m dco repair removed m' E PC ND R Z0 NE.
  destruct (virtual_plain _ _ _ _ _ _ _ E PC ND) as [S P].
  pose proof (repaired_plain _ _ _ _ _ _ _ P R) as P'.
  destruct (plain_facts _ _ _ _ P') as (W & F & _). destruct P' as ([o ME] & N & PL).
  rewrite ME. apply C35_round_trip; auto.
  - apply contains_in; auto.
  - destruct NE as [NE|NE]; auto. left.
    assert (In (0, 0) (map c_xy (chips m'))) as I by (apply contains_in; auto).
    unfold n_chips in NE. unfold chips, dvalues in *. rewrite map_length.
    destruct (m_chips m') as [|a [|a' r]]; [destruct I|reflexivity|cbn [List.length] in NE; lia].
Qed.
Print Assumptions C35_repaired_round_trip.

(** A machine with dead chips and links, which loses one way links in the repair. *)
Definition json_faults : config :=
  mkConfig None None None None None None false None (Some "1,1:5,5"%string)
    (Some "0,0,0:2,2,1"%string) None None None true.

Example C35_repaired_case :
  match virtual_machine json_faults items_version 12 12 true with
  | Ok m => exists m', parse_cores V5 (cfg_down_cores json_faults) = Ok [] /\
      repairs true V5 m [] (Ok m') /\ chips_and_links m' < chips_and_links m /\
      is_chip_at m' 0 0 = true /\ exists ch, In ch (chips m') /\ c_ip ch = None
  | Err _ => False
  end.
Proof.
  assert (match virtual_machine json_faults items_version 12 12 true with
    | Ok m => match repair_step true V5 m [] with
      | Ok (Some r) => repair_step true V5 r [] = Ok None /\ chips_and_links r < chips_and_links m /\
          is_chip_at r 0 0 = true /\
          existsb (fun ch => match c_ip ch with None => true | Some _ => false end) (chips r) = true
      | _ => False
      end
    | Err _ => False
    end) as H by (vm_compute; repeat split).
  destruct (virtual_machine json_faults items_version 12 12 true) as [m|]; [|exact H].
  destruct (repair_step true V5 m []) as [[r|]|] eqn:E; try contradiction.
  destruct H as (H1 & H2 & H3 & H4). exists r. split; [reflexivity|].
  split; [eapply repairs_again; [exact E|apply repairs_done; exact H1]|]. split; [exact H2|]. split; [exact H3|].
  apply existsb_exists in H4 as (ch & I & H4). exists ch. split; [exact I|]. destruct (c_ip ch); [discriminate|reflexivity].
Qed.
