(** C83: machine_repair looks at the layout only; JSON and repair in either order. *)
From Coq Require Import Lia ZifyBool String Sorted.
From Verif Require Import Model_Py Model_Wrap Model_Float Model_Geometry Model_Version Model_Core
  Model_Machine Model_Str Model_Ignore Model_Virtual Model_Repair Model_Json
  Spec_Hops Spec_Board Spec_Version Spec_Machine Spec_Router Spec_Str Spec_Virtual Spec_Repair Spec_Json Spec_Alike
  Proof_Wrap Proof_Py Proof_Board Proof_Version Proof_Machine Proof_Report Proof_Str Proof_Virtual
  Proof_VirtualMachine Proof_Links Proof_Repair Proof_RepairEnd Proof_RepairOff Proof_Json Proof_Again Proof_Alike Prop_Repair Prop_Json.
Open Scope list_scope.
Open Scope Z_scope.

Lemma reduced_resources a b : chip_reduced a b -> resources b = resources a.
Proof. unfold chip_reduced, resources. intros (_ & _ & -> & -> & -> & _ & _ & _ & -> & -> & _). reflexivity. Qed.

(** Machines of one layout are repaired alike: the same exception, or machines of one
    layout again, either both the originals or both new with the same SpiNNaker links, FPGA
    links and boot address; the resources are those that each had before. *)
Theorem C83_same_outcome :
  forall v a b, made_machine v a -> made_machine v b -> same_layout v a b ->
    forall repair removed,
      (forall e, repairs repair v a removed (Err e) <-> repairs repair v b removed (Err e)) /\
      (forall n, repairs repair v a removed (Ok n) ->
         exists n', repairs repair v b removed (Ok n') /\ same_layout v n n' /\
           ((n = a /\ n' = b) \/
            (m_origin n = "Fixed"%string /\ m_origin n' = "Fixed"%string /\
             m_spin n = m_spin n' /\ m_fpga n = m_fpga n' /\ m_boot n = m_boot n')) /\
           (forall x y ch', get_chip_at n' x y = Some ch' ->
              exists ch, get_chip_at b x y = Some ch /\ resources ch' = resources ch)).
Proof.
  intros v a b Ma Mb LY repair removed.
  pose proof (made_good _ _ Ma) as Ga. pose proof (made_good _ _ Mb) as Gb.
  assert (look v a b) as L by (apply look_of; auto; [apply Ga|apply Gb]).
  assert (look v b a) as L'.
  { apply look_of; [apply Gb|apply Ga|]. destruct LY. split; auto. clear - layout_chips.
    induction layout_chips; constructor; auto. apply alike_sym; auto. }
  split.
  - intros e. split; intros R.
    + destruct (look_repairs v repair a removed _ R b Ga Gb L) as (r' & R' & [(e' & E & ->)|[[E _]|(n & n' & E & _)]]); try discriminate E.
      injection E as <-. exact R'.
    + destruct (look_repairs v repair b removed _ R a Gb Ga L') as (r' & R' & [(e' & E & ->)|[[E _]|(n & n' & E & _)]]); try discriminate E.
      injection E as <-. exact R'.
  - intros n R. destruct (look_repairs v repair a removed _ R b Ga Gb L) as (r' & R' & C).
    assert (exists n', r' = Ok n' /\ same_layout v n n' /\ ((n = a /\ n' = b) \/
            (m_origin n = "Fixed"%string /\ m_origin n' = "Fixed"%string /\
             m_spin n = m_spin n' /\ m_fpga n = m_fpga n' /\ m_boot n = m_boot n'))) as (n' & -> & S & D).
    { destruct C as [(e & E & _)|[[E ->]|(n1 & n' & E & -> & T)]]; [discriminate E| |].
      - apply Ok_inj in E. subst n. exists b. split; auto.
      - apply Ok_inj in E. subst n1. exists n'. split; auto.
        assert (same_layout v n n') as SL.
        { pose proof (t_look _ _ _ T) as LK. split; [apply LK|apply LK|apply LK|]. apply look_chips; auto. }
        split; auto.
        destruct (C33_new_machine _ _ _ _ _ Ma R) as [->|(_ & LT & _ & _ & _ & O)].
        + left. split; auto. assert (clean a) as CA by (apply (C33_original_iff_clean repair v a removed Ma); auto).
          apply (C33_original_iff_clean repair v a removed Ma) in CA. pose proof R' as R2.
          destruct (C33_new_machine _ _ _ _ _ Mb R') as [->|(_ & LT & _)]; auto. exfalso.
          assert (repairs repair v b removed (Ok b)) as RB.
          { inversion R as [|? ? ES|? ? k ? ES RS]; subst.
            - pose proof (look_step v repair removed a b Ga Gb L) as ST. rewrite ES in ST.
              destruct (repair_step repair v b removed) as [[k|]|] eqn:EB; cbn in ST; try tauto. apply repairs_done; auto.
            - exfalso. apply (C33_original_iff_clean repair v a removed Ma) in CA. apply done_clean with (repair := repair) (v := v) (removed := removed) in CA; auto; [|apply Ga].
              congruence. }
          pose proof (repairs_det _ _ _ _ _ RB _ R') as X. apply Ok_inj in X. subst n'. lia.
        + right. destruct (C33_new_machine _ _ _ _ _ Mb R') as [->|(_ & LT' & _ & _ & _ & O')].
          * exfalso. assert (repairs repair v a removed (Ok a)) as RA.
            { inversion R' as [|? ? ES|? ? k ? ES RS]; subst.
              - pose proof (look_step v repair removed b a Gb Ga L') as ST. rewrite ES in ST.
                destruct (repair_step repair v a removed) as [[k|]|] eqn:EB; cbn in ST; try tauto. apply repairs_done; auto.
              - exfalso. apply (C33_original_iff_clean repair v b removed Mb) in R'. apply done_clean with (repair := repair) (v := v) (removed := removed) in R'; auto; [|apply Gb].
                congruence. }
            pose proof (repairs_det _ _ _ _ _ RA _ R) as X. apply Ok_inj in X. subst n. lia.
          * split; auto. split; auto. destruct T. auto. }
    exists n'. split; auto. split; auto. split; auto. intros x y ch' G.
    destruct (C33_only_removes _ _ _ _ _ Mb R') as (_ & _ & _ & P).
    assert (wf n') as W'.
    { destruct (C33_new_machine _ _ _ _ _ Mb R') as [->|(M' & _)]; [apply Gb|apply (made_good v n' M')]. }
    apply get_chip_in in G as [H X]; auto. destruct (P ch' H) as (ch & Hc & CR).
    exists ch. split; [|apply reduced_resources; auto]. apply get_chip_in; [apply Gb|]. split; auto. rewrite <- X.
    destruct CR as (E1 & E2 & _). unfold c_xy. congruence.
Qed.
Print Assumptions C83_same_outcome.

(** ** JSON *)
Lemma back_alike v m w h ch : supported v w h -> made_machine v m -> sayable m -> In ch (chips m) ->
  m_kind m = machine_class v w h -> m_width m = w -> m_height m = h -> n_scamp_processors ch = 1 ->
  read_chip (m_kind m) w h (chip_back (m_kind m) w h ch) ->
  alike v ch (chip_back (m_kind m) w h ch).
Proof.
  intros S M [ST NP] Hc K W H SC (RM & _ & _ & _ & _ & RL).
  destruct (made_good _ _ M) as [_ F]. rewrite Forall_forall in F. pose proof (F ch Hc) as [Rok _].
  pose proof (made_chip_proper _ RM) as [Bok _].
  assert (good_size (m_kind m) w h) as G by (rewrite K; apply good_supported; auto).
  destruct (back_cores (m_kind m) w h ch SC) as (C1 & _ & _).
  set (cb := chip_back (m_kind m) w h ch) in *.
  assert (forall l k k', 0 <= l < 6 -> get_link (c_router ch) l = Some k -> get_link (c_router cb) l = Some k' -> k = k') as U.
  { intros l k k' Hl G1 G2. destruct (ST ch l k Hc G1) as (_ & A1 & A2 & A3). destruct (RL l k' G2) as (_ & B1 & B2 & B3).
    apply get_link_in in G1 as [_ I1]; auto. apply get_link_in in G2 as [_ I2]; auto.
    unfold m_over in A3. rewrite W, H in A3. change (c_x cb) with (c_x ch) in *. change (c_y cb) with (c_y ch) in *. rewrite A3 in B3. apply Ok_inj in B3.
    destruct k, k'. cbn in *. congruence. }
  split; try reflexivity.
  - intros l. destruct (get_link (c_router cb) l) as [k'|] eqn:E.
    + destruct (RL l k' E) as (Hl & _). destruct (get_link (c_router ch) l) as [k|] eqn:E2.
      * f_equal. eapply U; eauto.
      * pose proof (back_is_link (m_kind m) w h ch l G Hl) as I. fold cb in I. unfold is_link, dmem in I. unfold get_link in E, E2. rewrite E, E2 in I. discriminate I.
    + destruct (get_link (c_router ch) l) as [k|] eqn:E2; auto. destruct (ST ch l k Hc E2) as (Hl & _).
      pose proof (back_is_link (m_kind m) w h ch l G Hl) as I. fold cb in I. unfold is_link, dmem in I. unfold get_link in E, E2. rewrite E, E2 in I. discriminate I.
  - rewrite (NP ch Hc). reflexivity.
  - rewrite C1. tauto.
Qed.

Lemma plain_reduce v w h dl ch : plain v w h ch -> plain v w h (reduce dl ch).
Proof.
  intros P. pose proof (made_chip_proper _ (plain_made _ _ _ _ P)) as PR. split.
  - apply proper_made_chip. apply reduce_proper. auto.
  - unfold reduce. destruct (touched dl _); apply P.
  - unfold reduce. destruct (touched dl _); apply P.
  - unfold reduce. destruct (touched dl _); apply P.
  - unfold reduce. destruct (touched dl _); [reflexivity|apply P].
  - pose proof (plain_order _ _ _ _ P) as O. unfold reduce. destruct (touched dl _); [|apply P].
    cbn [c_router]. unfold router_iter in *. cbn [r_links]. rewrite map_map. cbn [fst].
    destruct PR as [[E _] _]. rewrite E, map_map in O. cbn [fst] in O. clear E P. revert O.
    induction (router_links (c_router ch)) as [|l ls IH]; cbn [filter map]; [constructor|].
    cbn [map]. intros O. inversion O as [|? ? O1 O2]; subst. destruct (negb _); cbn [map]; auto. constructor; auto.
    rewrite Forall_forall in *. intros i Hi. apply in_map_iff in Hi as (l' & <- & Hl'). apply filter_In in Hl' as [Hl' _].
    apply O2. apply in_map. auto.
  - intros l k G. apply reduce_link in G as [G _]; auto. apply (plain_links _ _ _ _ P) in G.
    unfold reduce. destruct (touched dl _); exact G.
Qed.

Lemma plain_repaired v w h repair m removed n : made_machine v m -> Forall (plain v w h) (chips m) ->
  repairs repair v m removed (Ok n) -> Forall (plain v w h) (chips n).
Proof.
  intros M F R. pose proof (repairs_inv (fun x => good x /\ Forall (plain v w h) (chips x)) repair v) as H.
  specialize (H ltac:(intros a rem b [Ga Fa] E; split; [eapply good_next; eauto|];
    destruct (step_next _ _ _ _ _ (proj1 Ga) (proj2 Ga) E) as (_ & _ & _ & _ & S & _); rewrite S; unfold survivors;
    apply Forall_forall; intros ch Hc; apply in_map_iff in Hc as (c0 & <- & Hc); apply filter_In in Hc as [Hc _];
    apply plain_reduce; rewrite Forall_forall in Fa; auto)).
  specialize (H m removed _ R (conj (made_good _ _ M) F)). cbn beta iota in H. tauto.
Qed.

Lemma of_chips_machine v w h o cs n : of_chips v w h o cs n -> n = machine_of v w h o cs.
Proof.
  intros (m2 & E2 & E3). unfold machine_of. rewrite history_app. cbn [history exec]. rewrite E2. cbn [history exec]. rewrite E3. reflexivity.
Qed.

Lemma repaired_of repair v m removed n : good m -> repairs repair v m removed (Ok n) ->
  n = m \/ n = machine_of v (m_width m) (m_height m) "Fixed" (chips n).
Proof.
  intros G R. remember (Ok n) as r eqn:Er. revert G Er.
  induction R as [m removed e E|m removed E|m removed n1 r E R IH]; intros G Er; [discriminate Er| |].
  - left. apply Ok_inj in Er. auto.
  - right. destruct (IH (good_next _ _ _ _ _ G E) Er) as [->|X].
    + apply step_inv in E as (_ & _ & [(X & _)|(n' & X & NE & IG)]); [discriminate X|]. injection X as <-.
      apply of_chips_machine. eapply ignore_of_chips; eauto; apply G.
    + destruct (step_next _ _ _ _ _ (proj1 G) (proj2 G) E) as (_ & _ & _ & _ & _ & E1 & E2 & _).
      rewrite <- E1, <- E2. exact X.
Qed.

(** Chips that come back the same are written the same. *)
Lemma written_same k w h a b : good_size k w h -> m_width a = m_width b -> m_height a = m_height b -> wf a -> wf b ->
  (forall ch, In ch (chips a) -> n_scamp_processors ch = 1) ->
  (forall ch, In ch (chips b) -> n_scamp_processors ch = 1) ->
  map (chip_back k w h) (chips a) = map (chip_back k w h) (chips b) -> to_json a = to_json b.
Proof.
  intros G EW EH Wa Wb Sa Sb E.
  assert (forall {X} (f : chip -> X), (forall ch, n_scamp_processors ch = 1 -> f (chip_back k w h ch) = f ch) ->
    map f (chips a) = map f (chips b)) as M.
  { intros X f Hf. rewrite (map_ext_in _ (fun ch => f (chip_back k w h ch)) (chips a)) by (intros; symmetry; auto).
    rewrite (map_ext_in _ (fun ch => f (chip_back k w h ch)) (chips b)) by (intros; symmetry; auto).
    rewrite <- !(map_map (chip_back k w h) f). congruence. }
  assert (List.length (chips a) = List.length (chips b)) as LN.
  { apply (f_equal (@List.length chip)) in E. rewrite !map_length in E. exact E. }
  assert (n_chips a = n_chips b) as N.
  { unfold n_chips. rewrite (wf_chips a Wa), (wf_chips b Wb), !map_length. congruence. }
  assert (forall std eth, map (fun c => describe_chip c std eth) (chips a) = map (fun c => describe_chip c std eth) (chips b)) as D.
  { intros std eth. apply M. intros ch Hc. apply back_described; auto. }
  assert (map (fun ch => (c_xy ch, desc_of ch)) (chips a) = map (fun ch => (c_xy ch, desc_of ch)) (chips b)) as B.
  { apply M. intros ch Hc. rewrite back_desc by auto. reflexivity. }
  assert (map (fun ch => (c_ip ch, desc_of ch)) (chips a) = map (fun ch => (c_ip ch, desc_of ch)) (chips b)) as I.
  { apply M. intros ch Hc. rewrite back_desc by auto. reflexivity. }
  assert (forall f : chip -> desc, f = desc_of -> match boot_chip a with Ok c => Ok (f c) | Err e => Err e end =
    match boot_chip b with Ok c => Ok (f c) | Err e => Err e end) as BC.
  { intros f ->. unfold boot_chip, dgetitem. rewrite (wf_chips a Wa), (wf_chips b Wb). clear - B. revert B.
    generalize (chips a) (chips b). induction l as [|x l IH]; intros [|y l'] Q; try discriminate Q; cbn [map dget]; auto.
    cbn [map] in Q. assert (c_xy x = c_xy y) as -> by (apply (f_equal (hd ((0, 0), desc_of x))) in Q; exact (f_equal fst Q)).
    destruct (xy_eqb (c_xy y) (0, 0)).
    - apply (f_equal (hd ((0, 0), desc_of x))) in Q. f_equal. exact (f_equal snd Q).
    - apply IH. exact (f_equal (@List.tl _) Q). }
  specialize (BC desc_of eq_refl).
  assert (option_map desc_of (find (fun c => match c_ip c with None => true | Some _ => false end) (chips a)) =
    option_map desc_of (find (fun c => match c_ip c with None => true | Some _ => false end) (chips b))) as FD.
  { clear - I. revert I. generalize (chips a) (chips b). induction l as [|x l IH]; intros [|y l'] Q; try discriminate Q; auto.
    cbn [map] in Q. cbn [find]. pose proof (f_equal (hd (None, desc_of x)) Q) as Q1. cbn [hd] in Q1.
    rewrite (f_equal fst Q1 : c_ip x = c_ip y). destruct (c_ip y).
    - apply IH. exact (f_equal (@List.tl _) Q).
    - cbn [option_map]. f_equal. exact (f_equal snd Q1). }
  unfold to_json. destruct (boot_chip a) as [x|], (boot_chip b) as [y|]; try discriminate BC; cbn [bind]; [|congruence].
  apply Ok_inj in BC. rewrite N, EW, EH, BC. destruct (n_chips b >? 1); cbn [bind]; [|rewrite D; reflexivity].
  destruct (find _ (chips a)) as [s|], (find _ (chips b)) as [s'|]; try discriminate FD; cbn [bind]; auto.
  pose proof (f_equal (fun o => match o with Some d => d | None => desc_of s end) FD) as X. cbn [option_map] in X.
  rewrite X, D. reflexivity.
Qed.

(** A machine of which JSON can say the links: whether it is repaired before it is written
    or after it was read, the outcome is the same.  The same exception is raised, or the
    two results are written the same; and reading back what the machine that was repaired
    first is written as gives the machine that was repaired after reading, but for its
    origin. *)
Theorem C83_json_and_repair :
  forall v m j m1, made_machine v m -> m_kind m = machine_class v (m_width m) (m_height m) -> sayable m ->
    to_json m = Ok j -> machine_from_json v j = Ok m1 ->
    same_layout v m m1 /\
    forall repair removed,
      (forall e, repairs repair v m removed (Err e) <-> repairs repair v m1 removed (Err e)) /\
      (forall n, repairs repair v m removed (Ok n) ->
         exists n1, repairs repair v m1 removed (Ok n1) /\ same_layout v n n1 /\ to_json n1 = to_json n /\
           forall j', to_json n = Ok j' -> machine_from_json v j' = Ok (with_origin "Json" n1)).
Proof.
  intros v m j m1 M K SY J RD. destruct (made_good _ _ M) as [W F].
  destruct (C35_read_back v m j M J) as (A & B & C).
  assert (supported v (m_width m) (m_height m)) as S.
  { destruct (verify_raises v (Some (m_width m)) (Some (m_height m))) as [E|E].
    - apply verify_supported. auto.
    - assert (machine_from_json v j = Err MachineExc) as X; [|congruence].
      apply C. intros S. apply verify_supported in S. congruence. }
  assert (forall ch, In ch (chips m) -> n_scamp_processors ch = 1) as P.
  { intros ch H. destruct (Z.eq_dec (n_scamp_processors ch) 1); [auto|].
    assert (machine_from_json v j = Err NotImplementedErr) as X; [|congruence].
    apply B. eauto. }
  destruct (A S P) as (m2 & R2 & E1 & E2 & E3 & E4 & E5). rewrite RD in R2. apply Ok_inj in R2. subst m2.
  destruct (C35_any_description v j m1 RD) as (M1 & _). destruct (made_good _ _ M1) as [W1 F1].
  destruct (from_json_read v j m1 RD) as (jw & jh & _ & _ & _ & _ & S1 & RC & _). rewrite E1, E2 in RC.
  set (w := m_width m) in *. set (h := m_height m) in *. set (k := machine_class v w h) in *.
  rewrite E3 in E4. rewrite Forall_forall in RC.
  assert (same_layout v m m1) as SL.
  { split; [rewrite E3; exact K|symmetry; exact E1|symmetry; exact E2|]. rewrite E4.
    assert (forall l, (forall ch, In ch l -> In ch (chips m)) -> Forall2 (alike v) l (map (chip_back k w h) l)) as X; [|apply X; auto].
    induction l as [|ch l IH]; intros I; cbn [map]; constructor; [|apply IH; intros; apply I; right; auto].
    rewrite <- K. apply back_alike; auto; try (apply I; left; auto).
    - apply P. apply I. left; auto.
    - rewrite K. apply RC. rewrite E4. apply in_map. apply I. left; auto. }
  split; auto. intros repair removed.
  destruct (C83_same_outcome v m m1 M M1 SL repair removed) as [O1 O2]. split; auto.
  intros n R. destruct (O2 n R) as (n1 & R1 & SL1 & D & RS). exists n1. split; auto. split; auto.
  assert (Forall (plain v w h) (chips m1)) as P1.
  { apply Forall_forall. intros ch Hc. destruct (RC ch Hc) as (Q1 & Q2 & Q3 & Q4 & Q5 & Q6). split; auto.
    rewrite E4 in Hc. apply in_map_iff in Hc as (c0 & <- & Hc). cbn [chip_back c_router r_entries]. lia. }
  pose proof (plain_repaired v w h repair m1 removed n1 M1 P1 R1) as PN. rewrite Forall_forall in PN.
  assert (good_size k w h) as G by (apply good_supported; auto).
  assert (made_machine v n) as MN by (destruct (C33_new_machine _ _ _ _ _ M R) as [->|(X & _)]; auto).
  assert (made_machine v n1) as MN1 by (destruct (C33_new_machine _ _ _ _ _ M1 R1) as [->|(X & _)]; auto).
  destruct (made_good _ _ MN) as [WN FN]. destruct (made_good _ _ MN1) as [WN1 FN1].
  destruct (C33_only_removes _ _ _ _ _ M R) as (D1 & D2 & _ & PP).
  destruct (C33_only_removes _ _ _ _ _ M1 R1) as (D3 & D4 & _ & PP1).
  assert (forall ch, In ch (chips n) -> n_scamp_processors ch = 1) as SN.
  { intros ch Hc. destruct (PP ch Hc) as (c0 & H0 & CR). unfold n_scamp_processors.
    destruct CR as (_ & _ & -> & _). apply P; auto. }
  assert (forall ch, In ch (chips n1) -> n_scamp_processors ch = 1) as SN1.
  { intros ch Hc. unfold n_scamp_processors. rewrite (plain_scamp _ _ _ _ (PN ch Hc)). reflexivity. }
  assert (map (chip_back k w h) (chips n) = chips n1) as BK.
  { assert (forall ch ch1, In ch (chips n) -> In ch1 (chips n1) -> alike v ch ch1 -> chip_back k w h ch = ch1) as X.
    { intros ch ch1 H0 H1 AL. pose proof (PN ch1 H1) as PC.
      rewrite <- (back_same k w h ch1); try apply PC; [|apply made_chip_proper; apply PC].
      destruct (PP ch H0) as (c0 & Hc0 & CR). destruct (PP1 ch1 H1) as (c1 & Hc1 & CR1).
      assert (c1 = chip_back k w h c0) as ->.
      { rewrite E4 in Hc1. apply in_map_iff in Hc1 as (c2 & <- & Hc2). f_equal.
        apply (chip_unique m); auto. destruct CR as (X1 & X2 & _), CR1 as (Y1 & Y2 & _). unfold c_xy.
        cbn [chip_back c_x c_y] in *. destruct AL. congruence. }
      pose proof (reduced_resources _ _ CR) as RR. pose proof (reduced_resources _ _ CR1) as RR1. unfold resources in RR, RR1.
      injection RR as R1' R2' R3' R4' R5'. cbn [chip_back c_scamp c_placable c_router r_entries c_sdram c_tags] in RR1. injection RR1 as Q1 Q2 Q3 Q4 Q5.
      assert (n_processors ch1 = n_processors ch) as NN.
      { transitivity (n_processors c0); [|unfold n_processors; congruence].
        transitivity (n_processors (chip_back k w h c0)); [unfold n_processors; cbn [chip_back c_scamp c_placable]; congruence|].
        apply back_cores. apply P; auto. }
      destruct AL. unfold chip_back. rewrite NN, alike_x, alike_y, alike_eth_x, alike_eth_y, alike_ip.
      assert (flat_map (straight k w h ch) [0; 1; 2; 3; 4; 5] = flat_map (straight k w h ch1) [0; 1; 2; 3; 4; 5]) as ->.
      { apply flat_map_ext. intros l. unfold straight. rewrite alike_x, alike_y.
        assert (is_link (c_router ch) l = is_link (c_router ch1) l) as ->; auto.
        specialize (alike_links l). unfold get_link in alike_links. unfold is_link, dmem. rewrite alike_links. reflexivity. }
      f_equal; try congruence. f_equal. rewrite R3', Q3. lia. }
    pose proof (layout_chips _ _ _ SL1) as AL.
    assert (forall l l1, Forall2 (alike v) l l1 -> (forall ch, In ch l -> In ch (chips n)) -> (forall ch, In ch l1 -> In ch (chips n1)) ->
      map (chip_back k w h) l = l1) as Y; [|apply Y; auto].
    intros l l1 AF. induction AF as [|c c1 l l1 AC AF IH]; intros I I1; cbn [map]; auto.
    rewrite (X c c1); [|apply I; left; auto|apply I1; left; auto|auto]. f_equal. apply IH; intros; [apply I|apply I1]; right; auto. }
  assert (map (chip_back k w h) (chips n1) = chips n1) as BK1.
  { rewrite <- (map_id (chips n1)) at 2. apply map_ext_in. intros ch Hc. pose proof (PN ch Hc) as PC.
    apply back_same; try apply PC. apply made_chip_proper. apply PC. }
  fold w in D1. fold h in D2. split.
  - apply (written_same k w h); auto; congruence.
  - intros j' J'. destruct (C35_read_back v n j' MN J') as (A' & _). rewrite D1, D2 in A'.
    destruct (A' S SN) as (q & -> & _ & _ & E3' & E4' & E5'). rewrite E3' in E4'. fold k in E4'. rewrite BK in E4'. rewrite E4' in E5'. rewrite E5'.
    f_equal. rewrite E1 in D3. rewrite E2 in D4.
    destruct (repaired_of repair v m1 removed n1 (conj W1 F1) R1) as [->|X].
    + rewrite E5 at 2. rewrite <- machine_of_origin. reflexivity.
    + rewrite X at 2. rewrite E1, E2. rewrite <- machine_of_origin. reflexivity.
Qed.
Print Assumptions C83_json_and_repair.

(** Every virtual machine is such a machine, whatever cores, chips and links are down. *)
Theorem C83_virtual_machines :
  forall c V w h check m j, virtual_machine c V w h check = Ok m -> to_json m = Ok j ->
    exists m1, machine_from_json (v_id V) j = Ok m1 /\
      forall repair removed,
        (forall e, repairs repair (v_id V) m removed (Err e) <-> repairs repair (v_id V) m1 removed (Err e)) /\
        (forall n, repairs repair (v_id V) m removed (Ok n) ->
           exists n1, repairs repair (v_id V) m1 removed (Ok n1) /\ to_json n1 = to_json n /\
             forall j', to_json n = Ok j' -> machine_from_json (v_id V) j' = Ok (with_origin "Json" n1)).
Proof.
  intros c V w h check m j E J.
  pose proof (C28_virtual_is_made _ _ _ _ _ _ E) as MM. destruct (made_good _ _ MM) as [W F].
  apply virtual_built in E as (dch & dco & dl & B & _).
  pose proof (b_sup _ _ _ _ _ _ _ _ B) as S.
  rewrite <- (b_width _ _ _ _ _ _ _ _ B), <- (b_height _ _ _ _ _ _ _ _ B) in S.
  assert (forall ch, In ch (chips m) -> get_chip_at m (c_x ch) (c_y ch) = Some ch) as GC by (intros; apply get_chip_in; auto).
  assert (forall ch, In ch (chips m) -> c_scamp ch = [0] /\ c_parent ch = None) as FF.
  { intros ch Hc. pose proof (GC ch Hc) as G.
    destruct (proj1 (built_present B _ _) (ex_intro _ ch G)) as [(e & d & n & P) _].
    destruct (built_fields B _ _ ch e d n G P) as (_ & _ & _ & _ & _ & _ & F7 & _ & _ & _ & F11 & _). auto. }
  assert (sayable m) as SY.
  { split; [|intros ch Hc; apply FF; auto]. intros ch l k Hc GL.
    apply (built_link B _ _ ch l k (GC ch Hc)) in GL as (Hl & _ & dx & dy & O & -> & _). cbn. auto. }
  assert (m_kind m = machine_class (v_id V) (m_width m) (m_height m)) as K.
  { rewrite (b_width _ _ _ _ _ _ _ _ B), (b_height _ _ _ _ _ _ _ _ B). apply (b_kind _ _ _ _ _ _ _ _ B). }
  destruct (C35_read_back (v_id V) m j MM J) as (A & _).
  destruct (A S) as (m1 & R & _).
  { intros ch Hc. unfold n_scamp_processors. destruct (FF ch Hc) as [-> _]. reflexivity. }
  exists m1. split; auto. intros repair removed.
  destruct (C83_json_and_repair (v_id V) m j m1 MM K SY J R) as [_ X]. destruct (X repair removed) as [X1 X2].
  split; auto. intros n RN. destruct (X2 n RN) as (n1 & Y1 & _ & Y2). eauto.
Qed.
Print Assumptions C83_virtual_machines.

(** A board with a link down in one direction and a core down: the machine that is read has
    its cores renumbered, so it is another one, and the repair changes both. *)
Example C83_case :
  let c := mkConfig None None None None None None true (Some "1,1,5"%string) None (Some "3,3,1"%string) None None None true in
  match virtual_machine c (mkVersion V5 18 123469792) 8 8 true with
  | Ok m => match to_json m with
            | Ok j => match machine_from_json V5 j with
                      | Ok m1 =>
                          option_map c_placable (get_chip_at m 1 1) <> option_map c_placable (get_chip_at m1 1 1) /\
                          match repair_step true V5 m [], repair_step true V5 m1 [] with
                          | Ok (Some n), Ok (Some n1) =>
                              one_way_links n = [] /\ to_json n = to_json n1 /\ m_spin n <> [] /\
                              match to_json n with Ok j' => j' <> j | Err _ => False end
                          | _, _ => False
                          end
                      | Err _ => False
                      end
            | Err _ => False
            end
  | Err _ => False
  end.
Proof. vm_compute. repeat (split; [congruence|]). intros F. discriminate F. Qed.
