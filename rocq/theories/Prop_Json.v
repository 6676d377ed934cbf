(** C35: machines written to and read from JSON. *)
From Coq Require Import Lia ZifyBool Permutation Sorted.
From Verif Require Import Model_Py Model_Wrap Model_Float Model_Geometry Model_Version Model_Core
  Model_Machine Model_Str Model_Ignore Model_Virtual Model_Repair Model_Json
  Spec_Hops Spec_Board Spec_Version Spec_Machine Spec_Router Spec_Str Spec_Virtual Spec_Repair Spec_Json
  Proof_Wrap Proof_Py Proof_Board Proof_Version Proof_Machine Proof_Report Proof_Str Proof_Virtual
  Proof_VirtualMachine Proof_Links Proof_Repair Proof_RepairEnd Proof_RepairOff Proof_Json Prop_Repair.
Open Scope list_scope.
Open Scope Z_scope.

(** When a machine can be written. *)
Theorem C35_when_written :
  forall m,
    ((exists j, to_json m = Ok j) <->
     is_chip_at m 0 0 = true /\ (n_chips m <= 1 \/ exists ch, In ch (chips m) /\ c_ip ch = None)) /\
    (to_json m = Err KeyError <-> is_chip_at m 0 0 = false) /\
    (to_json m = Err ValueError <->
     is_chip_at m 0 0 = true /\ 1 < n_chips m /\ forall ch, In ch (chips m) -> c_ip ch <> None).
Proof.
  intros m. unfold to_json, boot_chip, is_chip_at, dmem, dgetitem.
  destruct (dget xy_eqb (m_chips m) (0, 0)) as [b|]; cbn [bind].
  2: { split; [split; [intros [? ?]; discriminate|intros [? ?]; discriminate]|].
       split; [split; auto|]. split; [discriminate|intros [? ?]; discriminate]. }
  destruct (n_chips m >? 1) eqn:N.
  2: { cbn [bind]. split; [split; [intros _; split; auto; left; lia|eauto]|].
       split; [split; discriminate|]. split; [discriminate|]. intros (_ & H & _). lia. }
  destruct (find _ (chips m)) as [s|] eqn:F; cbn [bind].
  - apply find_some in F as [F1 F2]. split; [split; [intros _; split; auto|eauto]|].
    + right. exists s. split; auto. destruct (c_ip s); [discriminate|auto].
    + split; [split; discriminate|]. split; [discriminate|]. intros (_ & _ & H). exfalso. apply (H s F1).
      destruct (c_ip s); [discriminate|auto].
  - assert (forall ch, In ch (chips m) -> c_ip ch <> None) as A.
    { intros ch Hc E. pose proof (find_none _ _ F ch Hc) as X. cbn beta in X. rewrite E in X. discriminate. }
    split; [split; [intros [? ?]; discriminate|]|].
    + intros [_ [H|(ch & H & E)]]; [lia|]. exfalso. eapply A; eauto.
    + split; [split; discriminate|]. split; auto. intros _. split; auto. split; [lia|auto].
Qed.
Print Assumptions C35_when_written.

(** What comes back for every machine that can be written: the chips in the same
    order, each as [chip_back] says, with the links of the version. *)
Theorem C35_read_back :
  forall v m j, made_machine v m -> to_json m = Ok j ->
    (supported v (m_width m) (m_height m) ->
     (forall ch, In ch (chips m) -> n_scamp_processors ch = 1) ->
     exists m', machine_from_json v j = Ok m' /\
       m_width m' = m_width m /\ m_height m' = m_height m /\
       m_kind m' = machine_class v (m_width m) (m_height m) /\
       chips m' = map (chip_back (m_kind m') (m_width m) (m_height m)) (chips m) /\
       m' = machine_of v (m_width m) (m_height m) "Json" (chips m')) /\
    (machine_from_json v j = Err NotImplementedErr <->
     supported v (m_width m) (m_height m) /\
     exists ch, In ch (chips m) /\ n_scamp_processors ch <> 1) /\
    (machine_from_json v j = Err MachineExc <-> ~ supported v (m_width m) (m_height m)).
Proof.
  intros v m j M J. destruct (made_good _ _ M) as [W F].
  apply to_json_ok in J as (b & s & _ & ->). rewrite read_back by auto.
  pose proof (verify_supported v (m_width m) (m_height m)) as VS.
  destruct (verify_raises v (Some (m_width m)) (Some (m_height m))) as [E|E]; rewrite E.
  - assert (supported v (m_width m) (m_height m)) as S by (apply VS; auto).
    destruct (forallb (fun ch => n_scamp_processors ch =? 1) (chips m)) eqn:FB.
    + rewrite forallb_forall in FB. split; [|split].
      * intros _ _. eexists. split; [reflexivity|].
        set (cs := map _ (chips m)).
        assert (NoDup (map c_xy cs)) as N.
        { unfold cs. rewrite map_map. cbn. apply W. }
        destruct (machine_of_chips v (m_width m) (m_height m) "Json" cs N) as (_ & _ & C & K & X & Y & _).
        rewrite X, Y, K, C. auto.
      * split; [discriminate|]. intros (_ & ch & H & H1). exfalso. apply H1. apply FB in H. lia.
      * split; [discriminate|]. tauto.
    + split; [|split].
      * intros _ H. exfalso. apply not_true_iff_false in FB. apply FB. apply forallb_forall.
        intros ch Hc. rewrite (H ch Hc). reflexivity.
      * split; [|reflexivity]. intros _. split; auto.
        destruct (existsb (fun ch => negb (n_scamp_processors ch =? 1)) (chips m)) eqn:EX.
        { apply existsb_exists in EX as (ch & H1 & H2). exists ch. split; auto. lia. }
        exfalso. apply not_true_iff_false in FB. apply FB. apply forallb_forall. intros ch Hc.
        destruct (n_scamp_processors ch =? 1) eqn:E1; auto.
        apply not_true_iff_false in EX. exfalso. apply EX. apply existsb_exists. exists ch. rewrite E1. auto.
      * split; [discriminate|tauto].
  - assert (~ supported v (m_width m) (m_height m)) as S by (rewrite <- VS; congruence).
    split; [tauto|]. split; [split; [discriminate|tauto]|]. split; auto.
Qed.
Print Assumptions C35_read_back.

(** The round trip: a machine made from the version by adding plain chips and then
    the links comes back as it was; only the origin differs. *)
Theorem C35_round_trip :
  forall v w h origin cs,
    supported v w h -> NoDup (map c_xy cs) -> Forall (plain v w h) cs ->
    In (0, 0) (map c_xy cs) ->
    (List.length cs = 1%nat \/ exists ch, In ch cs /\ c_ip ch = None) ->
    let m := machine_of v w h origin cs in
    exists j, to_json m = Ok j /\ machine_from_json v j = Ok (with_origin "Json" m).
Proof.
  intros v w h o cs S N P Z0 NE. cbv zeta.
  destruct (machine_of_chips v w h o cs N) as (W & M & C & K & X & Y & _).
  assert (made_machine v (machine_of v w h o cs)) as MM.
  { split; auto. rewrite C. eapply Forall_impl; [|exact P]. intros ch PC. apply PC. }
  destruct (made_good _ _ MM) as [_ F].
  destruct (C35_when_written (machine_of v w h o cs)) as [[_ WR] _].
  destruct WR as [j J].
  { split.
    - change (contains (machine_of v w h o cs) (0, 0) = true). apply contains_in; auto. rewrite C. auto.
    - rewrite C. destruct NE as [L|L]; [left|right; auto].
      unfold n_chips, chips, dvalues in *. rewrite <- (map_length snd), C, L. lia. }
  exists j. split; auto. apply to_json_ok in J as (b & s & _ & ->). rewrite read_back by auto.
  rewrite X, Y, C. apply verify_supported in S. rewrite S.
  assert (forallb (fun ch => n_scamp_processors ch =? 1) cs = true) as ->.
  { apply forallb_forall. intros ch Hc. rewrite Forall_forall in P. specialize (P ch Hc).
    unfold n_scamp_processors. rewrite (plain_scamp _ _ _ _ P). reflexivity. }
  rewrite <- machine_of_origin. f_equal. f_equal.
  rewrite <- (map_id cs) at 2. apply map_ext_in. intros ch Hc. rewrite Forall_forall in P.
  destruct (P ch Hc). apply back_same; auto. apply made_chip_proper. auto.
Qed.
Print Assumptions C35_round_trip.

(** Virtual machines of which no core is down are of that kind. *)
Theorem C35_virtual_round_trip :
  forall c V w h check m down_cores,
    virtual_machine c V w h check = Ok m ->
    parse_cores (v_id V) (cfg_down_cores c) = Ok down_cores ->
    (forall i, In i down_cores -> ico_ip i <> None) ->
    is_chip_at m 0 0 = true ->
    (n_chips m <= 1 \/ exists ch, In ch (chips m) /\ c_ip ch = None) ->
    exists j, to_json m = Ok j /\ machine_from_json (v_id V) j = Ok (with_origin "Json" m).
Proof.
  intros c V w h b m dco0 E PC ND Z0 NE.
  pose proof (C28_virtual_is_made _ _ _ _ _ _ E) as MM. destruct (made_good _ _ MM) as [W F].
  pose proof (virtual_machine_of _ _ _ _ _ _ E) as ME.
  apply virtual_built in E as (dch & dco & dl & B & _).
  destruct (b_read _ _ _ _ _ _ _ _ B) as (R1 & R2 & R3). assert (dco0 = dco) as -> by congruence.
  rewrite ME.
  apply C35_round_trip; auto.
  - apply B.
  - apply W.
  - apply Forall_forall. intros ch Hc.
    assert (get_chip_at m (c_x ch) (c_y ch) = Some ch) as G by (apply get_chip_in; auto).
    destruct (proj1 (built_present B _ _) (ex_intro _ ch G)) as [(e & d & n & P) _].
    destruct (built_fields B _ _ ch e d n G P) as (_ & _ & _ & _ & _ & _ & F7 & F8 & F9 & _ & F11 & F12).
    assert (c_placable ch = zrange 1 (Z.min n (max_cores_per_chip V))) as PL.
    { apply sorted_zrange; auto. intros p. rewrite F9. split; [tauto|]. intros H. split; auto.
      intros (i & I1 & I2 & _). apply (ND i I1 I2). }
    split; auto.
    + destruct MM as [_ MM]. rewrite Forall_forall in MM. auto.
    + rewrite PL at 1. unfold n_processors. rewrite F7, PL, zrange_length.
      change (Z.of_nat (List.length [0])) with 1. unfold zrange. f_equal. f_equal. lia.
    + rewrite F12. destruct (v_id V); vm_compute; discriminate.
    + destruct (b_rest _ _ _ _ _ _ _ _ B) as (eths & uc & L & U & C & _). cbv zeta in C.
      rewrite C in Hc. apply in_map_iff in Hc as ([xy [e' n']] & <- & _).
      unfold router_iter. cbn [vchip new_chip c_router vrouter r_links]. rewrite map_map. cbn [fst].
      apply vlinks_sorted. vm_compute.
      repeat (constructor; [|repeat (constructor; [reflexivity|]); constructor]). constructor.
    + intros l k GL. apply (built_link B _ _ ch l k G) in GL as (Hl & _ & dx & dy & O & -> & _).
      split; auto. cbn. split; auto. split; auto. unfold m_over in O.
      rewrite (b_kind _ _ _ _ _ _ _ _ B), (b_width _ _ _ _ _ _ _ _ B), (b_height _ _ _ _ _ _ _ _ B) in O. exact O.
  - apply contains_in; auto.
  - destruct NE as [NE|NE]; auto. left.
    assert (In (0, 0) (map c_xy (chips m))) as I by (apply contains_in; auto).
    unfold n_chips in NE. unfold chips, dvalues in *. rewrite map_length.
    destruct (m_chips m) as [|a [|a' r]]; [destruct I|reflexivity|cbn [List.length] in NE; lia].
Qed.
Print Assumptions C35_virtual_round_trip.

(** Whatever description is read: the machine has the size that is given, which
    the version supports, one chip per item of the list, and chips with the
    monitor core 0, the other cores from 1 without gaps, and straight links. *)
Theorem C35_any_description :
  forall v o m, machine_from_json v o = Ok m ->
    made_machine v m /\ m_origin m = "Json"%string /\
    supported v (m_width m) (m_height m) /\
    m_kind m = machine_class v (m_width m) (m_height m) /\
    straight_links m /\
    (forall ch, In ch (chips m) ->
       c_scamp ch = [0] /\ c_placable ch = zrange 1 (n_processors ch) /\ c_parent ch = None) /\
    (exists items, jget o "chips" = Ok (JArr items) /\ n_chips m = Z.of_nat (List.length items)).
Proof.
  intros v o m E. pose proof (from_json_read v o m E) as (jw & jh & _ & _ & _ & _ & S & RC & ME & cs & JC & LC).
  assert (NoDup (map c_xy (chips m))) as N.
  { unfold machine_from_json in E. 
    apply bind_ok in E as (w & _ & E). apply bind_ok in E as (h & _ & E).
    apply bind_ok in E as (m0 & E0 & E). apply bind_ok in E as (std & _ & E).
    apply bind_ok in E as (eth & _ & E). apply bind_ok in E as (cs' & Ec & E).
    apply bind_ok in E as (m1 & E1 & E). apply bind_ok in E as (m2 & E2 & E3).
    assert (wf m0) as W0.
    { unfold create_machine in E0. apply bind_ok in E0 as (u & _ & E0). apply Ok_inj in E0. subst m0. apply wf_new. }
    destruct (j_chips_read v _ _ _ _ _ W0 E1) as (chs & _ & _ & W1 & _).
    destruct (add_spin_same v m1 W1) as (n2 & E2' & S2). assert (n2 = m2) as -> by congruence.
    assert (wf m2) as W2 by (eapply same_wf; eauto).
    destruct (add_fpga_same v m2 W2) as (n3 & E3' & S3). assert (n3 = m) as -> by congruence.
    assert (wf m) as W3 by (eapply same_wf; eauto). apply W3. }
  destruct (machine_of_chips v (m_width m) (m_height m) "Json" (chips m) N) as (W & M & C & K & _ & _ & _ & O).
  rewrite <- ME in *. rewrite Forall_forall in RC.
  split; [split; auto; apply Forall_forall; intros ch Hc; apply RC; auto|].
  split; [auto|]. split; [auto|]. split; [auto|]. split; [|split].
  - intros ch l k Hc G. destruct (RC ch Hc) as (_ & _ & _ & _ & _ & R). destruct (R l k G) as (R1 & R2 & R3 & R4).
    split; auto. unfold m_over. rewrite K. auto.
  - intros ch Hc. destruct (RC ch Hc) as (_ & R1 & R2 & R3 & _). auto.
  - exists cs. split; auto. unfold n_chips. rewrite LC. unfold chips, dvalues. rewrite map_length. auto.
Qed.
Print Assumptions C35_any_description.

(** ** What does not come back *)

Definition lone_chip (cores : list Z) (entries : Z) (parent : option Z) : chip :=
  new_chip 0 0 [0] cores (mkRouter [] entries) 100 0 0 (Some "127.0.0.0"%string) None parent.
Definition lone_machine (cores : list Z) (entries : Z) (parent : option Z) : machine :=
  machine_of V201 1 1 "" [lone_chip cores entries parent].

(** A gap in the core numbers: core 2 down comes back as the last core down. *)
Theorem C35_core_numbers_refuted :
  let m := lone_machine [1; 3; 4] 1023 None in
  exists j m' ch, to_json m = Ok j /\ machine_from_json V201 j = Ok m' /\
    get_chip_at m 0 0 = Some (lone_chip [1; 3; 4] 1023 None) /\
    get_chip_at m' 0 0 = Some ch /\ c_placable ch = [1; 2; 3].
Proof. cbv zeta. do 3 eexists. repeat (split; [vm_compute; reflexivity|]). vm_compute; reflexivity. Qed.
Print Assumptions C35_core_numbers_refuted.

(** The parent link, and entries that do not fit a Java int. *)
Theorem C35_parent_and_entries_refuted :
  let m := lone_machine [1; 2; 3] 3000000000 (Some 4) in
  exists j m' ch, to_json m = Ok j /\ machine_from_json V201 j = Ok m' /\
    get_chip_at m' 0 0 = Some ch /\ c_parent ch = None /\ r_entries (c_router ch) = 2147483647.
Proof. cbv zeta. do 3 eexists. repeat (split; [vm_compute; reflexivity|]). vm_compute; reflexivity. Qed.
Print Assumptions C35_parent_and_entries_refuted.

(** ** Cases *)

(** Chips that differ from the standard resources in each way; a dead link. *)
Definition case_chips : list chip :=
  [new_chip 0 0 [0] (zrange 1 18)
     (mkRouter [(0, mkLink 0 0 0 1 0); (1, mkLink 0 0 1 1 1)] 1023) 100 0 0 (Some "127.0.0.0"%string) None None;
   new_chip 0 1 [0] (zrange 1 18) (mkRouter [(0, mkLink 0 1 0 1 1)] 1023) 100 0 0 None None None;
   new_chip 1 1 [0] (zrange 1 17)
     (mkRouter [(3, mkLink 1 1 3 0 1); (4, mkLink 1 1 4 0 0)] 1000) 90 0 0 None (Some [5; 2]) None].

Example C35_case :
  supported V3 2 2 /\ NoDup (map c_xy case_chips) /\ Forall (plain V3 2 2) case_chips /\
  In (0, 0) (map c_xy case_chips) /\ (exists ch, In ch case_chips /\ c_ip ch = None).
Proof.
  split; [split; reflexivity|]. split; [repeat constructor; cbn; intuition discriminate|]. split.
  - assert (forall x y cores ls n sd ip tags,
      NoDup (map l_source_link_id ls) -> StronglySorted Z.lt (map l_source_link_id ls) -> n <= 2147483647 ->
      (forall k, In k ls -> 0 <= l_source_link_id k < 6 /\ l_source_x k = x /\ l_source_y k = y /\
         xy_over_link (machine_class V3 2 2) 2 2 x y (l_source_link_id k) = Ok (l_destination_x k, l_destination_y k)) ->
      plain V3 2 2 (new_chip x y [0] (zrange 1 cores) (mkRouter (map (fun l => (l_source_link_id l, l)) ls) n) sd 0 0 ip tags None)) as K.
    { intros x y cores ls n sd ip tags N SS LE HL. split.
      - exists x, y, [0], (zrange 1 cores), ls, n, (mkRouter (map (fun l => (l_source_link_id l, l)) ls) n), sd, 0, 0, ip, tags, None.
        split; auto. apply router_of_links. auto.
      - reflexivity.
      - unfold n_processors. cbn [new_chip c_scamp c_placable]. rewrite zrange_length.
        change (Z.of_nat (List.length [0])) with 1. unfold zrange. f_equal. f_equal. lia.
      - exact LE.
      - reflexivity.
      - unfold router_iter. cbn [new_chip c_router r_links]. rewrite map_map. exact SS.
      - intros l k G. cbn [new_chip c_router c_x c_y] in *. unfold get_link in G. cbn [r_links] in G.
        apply (dget_some_in Z.eqb Z.eqb_eq) in G. apply in_map_iff in G as (k' & G1 & G2).
        injection G1 as <- <-. auto. }
    constructor; [|constructor; [|constructor; [|constructor]]].
    + apply (K 0 0 18 [mkLink 0 0 0 1 0; mkLink 0 0 1 1 1]); try (repeat constructor; cbn; lia).
      intros k [<-|[<-|[]]]; repeat split; cbn; try lia; reflexivity.
    + apply (K 0 1 18 [mkLink 0 1 0 1 1]); try (repeat constructor; cbn; lia).
      intros k [<-|[]]; repeat split; cbn; try lia; reflexivity.
    + apply (K 1 1 17 [mkLink 1 1 3 0 1; mkLink 1 1 4 0 0]); try (repeat constructor; cbn; lia).
      intros k [<-|[<-|[]]]; repeat split; cbn; try lia; reflexivity.
  - split; [left; reflexivity|]. eexists. split; [right; left; reflexivity|reflexivity].
Qed.

(** The description of that machine has exceptions for one chip only. *)
Example C35_case_exceptions :
  exists j items, to_json (machine_of V3 2 2 "" case_chips) = Ok j /\
    jget j "chips" = Ok (JArr items) /\
    map (fun a => match a with JArr l => List.length l | _ => O end) items = [3; 3; 4]%nat.
Proof. do 2 eexists. repeat (split; [vm_compute; reflexivity|]). vm_compute; reflexivity. Qed.

Example C35_virtual_case :
  let c := mkConfig None None None None None None false None None (Some "3,3,1"%string) None None None true in
  exists m, virtual_machine c (mkVersion V5 18 123469792) 8 8 true = Ok m /\
    parse_cores V5 (cfg_down_cores c) = Ok [] /\ is_chip_at m 0 0 = true /\
    existsb (fun ch => match c_ip ch with None => true | _ => false end) (chips m) = true.
Proof. eexists. repeat (split; [vm_compute; reflexivity|]). vm_compute; reflexivity. Qed.

(** ** Writing again what was read *)
Lemma back_is_link k w h ch l : good_size k w h -> 0 <= l < 6 ->
  is_link (c_router (chip_back k w h ch)) l = is_link (c_router ch) l.
Proof.
  intros G Hl. unfold chip_back, is_link at 1. cbn [c_router r_links].
  assert (forall i, 0 <= i < 6 -> straight k w h ch i =
    if is_link (c_router ch) i then
      [mkLink (c_x ch) (c_y ch) i (fst (red k w h (vadd (c_x ch, c_y ch) (link_vec i))))
         (snd (red k w h (vadd (c_x ch, c_y ch) (link_vec i))))] else []) as X.
  { intros i Hi. unfold straight. rewrite over_red by auto. destruct (red _ _ _ _). reflexivity. }
  cbn [flat_map]. rewrite !X by lia.
  assert (l = 0 \/ l = 1 \/ l = 2 \/ l = 3 \/ l = 4 \/ l = 5) as D by lia.
  destruct (is_link (c_router ch) 0) eqn:E0, (is_link (c_router ch) 1) eqn:E1, (is_link (c_router ch) 2) eqn:E2,
    (is_link (c_router ch) 3) eqn:E3, (is_link (c_router ch) 4) eqn:E4, (is_link (c_router ch) 5) eqn:E5;
  destruct D as [->|[->|[->|[->|[->| ->]]]]]; rewrite ?E0, ?E1, ?E2, ?E3, ?E4, ?E5; reflexivity.
Qed.

Lemma back_cores k w h ch : n_scamp_processors ch = 1 ->
  n_processors (chip_back k w h ch) = n_processors ch /\
  n_scamp_processors (chip_back k w h ch) = n_scamp_processors ch /\
  n_placable_processors (chip_back k w h ch) = n_placable_processors ch.
Proof.
  intros S. unfold n_scamp_processors in S. unfold n_scamp_processors, n_placable_processors.
  unfold n_processors at 1. cbn [chip_back c_scamp c_placable List.length]. rewrite zrange_length.
  unfold n_processors. rewrite S. lia.
Qed.

Lemma back_described k w h ch std eth : good_size k w h -> n_scamp_processors ch = 1 ->
  describe_chip (chip_back k w h ch) std eth = describe_chip ch std eth.
Proof.
  intros G S. destruct (back_cores k w h ch S) as (C1 & C2 & C3).
  assert (int_value (r_entries (c_router (chip_back k w h ch))) = int_value (r_entries (c_router ch))) as En.
  { unfold chip_back. cbn [c_router r_entries]. unfold int_value, JAVA_MAX_INT.
    destruct (Z.ltb_spec (r_entries (c_router ch)) 2147483647);
    destruct (Z.ltb_spec (Z.min (r_entries (c_router ch)) 2147483647) 2147483647); lia. }
  unfold describe_chip, describe_exceptions.
  rewrite C1, C2, En.
  assert (filter (fun l => negb (is_link (c_router (chip_back k w h ch)) l)) (zrange 0 6) =
    filter (fun l => negb (is_link (c_router ch) l)) (zrange 0 6)) as ->.
  { apply filter_ext_in. intros l Hl. apply in_zrange in Hl. rewrite back_is_link by (auto; lia). auto. }
  reflexivity.
Qed.

Lemma back_desc k w h ch : n_scamp_processors ch = 1 -> desc_of (chip_back k w h ch) = desc_of ch.
Proof.
  intros S. destruct (back_cores k w h ch S) as (C1 & C2 & C3). unfold desc_of. rewrite C1, C3.
  f_equal. unfold chip_back. cbn [c_router r_entries]. unfold int_value, JAVA_MAX_INT.
  destruct (Z.ltb_spec (r_entries (c_router ch)) 2147483647);
  destruct (Z.ltb_spec (Z.min (r_entries (c_router ch)) 2147483647) 2147483647); lia.
Qed.

(** The machine that was read from what was written is written the same. *)
Theorem C35_written_again :
  forall v m j m', made_machine v m -> to_json m = Ok j -> machine_from_json v j = Ok m' ->
    to_json m' = Ok j.
Proof.
  intros v m j m' M J R.
  destruct (C35_read_back v m j M J) as (A & B & C).
  assert (supported v (m_width m) (m_height m)) as S.
  { destruct (verify_raises v (Some (m_width m)) (Some (m_height m))) as [E|E].
    - apply verify_supported. auto.
    - assert (machine_from_json v j = Err MachineExc) as X; [|congruence].
      apply C. intros S. apply verify_supported in S. congruence. }
  assert (forall ch, In ch (chips m) -> n_scamp_processors ch = 1) as P.
  { intros ch H. destruct (Z.eq_dec (n_scamp_processors ch) 1); [auto|].
    assert (machine_from_json v j = Err NotImplementedErr) as X; [|congruence].
    apply B. eauto. }
  destruct (A S P) as (m2 & R2 & E1 & E2 & E3 & E4 & _). rewrite R in R2. apply Ok_inj in R2. subst m2.
  destruct (C35_any_description v j m' R) as (M' & _).
  destruct (made_good _ _ M) as [W _], (made_good _ _ M') as [W' _].
  assert (good_size (m_kind m') (m_width m) (m_height m)) as G
    by (rewrite E3; apply good_supported; auto).
  set (back := chip_back (m_kind m') (m_width m) (m_height m)) in *.
  assert (n_chips m' = n_chips m) as N.
  { unfold n_chips. rewrite (wf_chips m W), (wf_chips m' W'), E4, !map_length. reflexivity. }
  assert (forall b, get_chip_at m 0 0 = Some b -> get_chip_at m' 0 0 = Some (back b)) as GB.
  { intros b Hb. apply get_chip_in in Hb as [Hb Hx]; auto. apply get_chip_in; auto.
    split; [rewrite E4; apply in_map; auto|exact Hx]. }
  unfold to_json in J |- *. unfold boot_chip, dgetitem in J |- *. unfold get_chip_at in GB.
  destruct (dget xy_eqb (m_chips m) (0, 0)) as [b|] eqn:Eb; [|discriminate].
  rewrite (GB b eq_refl). cbn [bind] in J |- *.
  assert (In b (chips m)) as Ib by (apply get_chip_in in Eb as [? _]; auto).
  assert (forall c, In c (chips m) -> desc_of (back c) = desc_of c) as DD
    by (intros c Hc; apply back_desc; auto).
  rewrite !DD by auto. rewrite N.
  assert (forall l, find (fun c => match c_ip c with None => true | Some _ => false end) (map back l) =
    option_map back (find (fun c => match c_ip c with None => true | Some _ => false end) l)) as F.
  { induction l as [|c l IH]; [reflexivity|]. cbn [map find].
    change (c_ip (back c)) with (c_ip c). destruct (c_ip c); [exact IH|reflexivity]. }
  rewrite E4, F.
  assert (forall std eth, map (fun c => describe_chip c std eth) (map back (chips m)) =
    map (fun c => describe_chip c std eth) (chips m)) as DM.
  { intros std eth. rewrite map_map. apply map_ext_in. intros c Hc. apply back_described; auto. }
  rewrite E1, E2.
  destruct (n_chips m >? 1).
  - destruct (find _ (chips m)) as [s|] eqn:Fs; [|discriminate]. cbn [option_map bind] in J |- *.
    apply find_some in Fs as [Fs _]. rewrite !DD by auto. rewrite DM. exact J.
  - cbn [bind] in J |- *. rewrite DM. exact J.
Qed.
Print Assumptions C35_written_again.

(** A machine that was read, from whatever description, survives being written and
    read again, if its router entries fit a Java int. *)
Theorem C35_read_machines_survive :
  forall v o m j, machine_from_json v o = Ok m ->
    (forall ch, In ch (chips m) -> r_entries (c_router ch) <= 2147483647) ->
    to_json m = Ok j -> machine_from_json v j = Ok m.
Proof.
  intros v o m j R En J.
  pose proof (C35_any_description v o m R) as (_ & Og & _).
  destruct (from_json_read v o m R) as (_ & _ & _ & _ & _ & _ & S & F & E & _).
  destruct (C35_any_description v o m R) as (M & _). destruct (made_good _ _ M) as [W _].
  assert (exists j', to_json m = Ok j') as X by eauto. apply C35_when_written in X as [Z0 NE].
  destruct (C35_round_trip v (m_width m) (m_height m) "Json" (chips m)) as (j' & J' & R'); auto.
  - apply W.
  - rewrite Forall_forall in *. intros ch Hc. destruct (F ch Hc) as (F1 & F2 & F3 & F4 & F5 & F6).
    split; auto.
  - apply contains_in; auto.
  - destruct NE as [N|N]; [left|right; auto]. unfold n_chips in N.
    assert (In (0, 0) (map c_xy (chips m))) as I by (apply contains_in; auto).
    rewrite (wf_chips m W), map_length in N.
    destruct (chips m) as [|? [|? ?]]; [destruct I|auto|cbn [List.length] in N; lia].
  - rewrite <- E in J', R'. rewrite J in J'. apply Ok_inj in J'. subst j'. rewrite R'.
    f_equal. destruct m. unfold with_origin. cbn in *. subst. reflexivity.
Qed.
Print Assumptions C35_read_machines_survive.

Example C35_again_case :
  let m := machine_of V3 2 2 "" case_chips in
  match to_json m with
  | Ok j => match machine_from_json V3 j with
            | Ok m' => to_json m' = Ok j /\ machine_from_json V3 j = Ok m' /\ n_chips m' = 3
            | Err _ => False
            end
  | Err _ => False
  end.
Proof. vm_compute. repeat split. Qed.
