(** C07 and C19-C27: the machine as an object with a history. *)
From Coq Require Import Lia Permutation.
From Verif Require Import Model_Py Model_Wrap Model_Version Model_Core Model_Machine
  Spec_Hops Spec_Board Spec_Machine Spec_Router Proof_Wrap Proof_Concentric Proof_Py Proof_Board
  Proof_Machine Proof_Links Proof_Report.

(** ** A small machine for the examples: SpiNN-5 board with four chips. *)
Definition demo_chip (x y : Z) (ls : list link) (ip : option string) : chip :=
  new_chip x y [0] (zrange 1 18)
    (mkRouter (map (fun l => (l_source_link_id l, l)) ls) 1023) 100 0 0 ip None None.
Definition demo_chips : list chip :=
  [demo_chip 0 0 [mkLink 0 0 0 1 0; mkLink 0 0 2 0 1] (Some "10.0.0.1"%string);
   demo_chip 1 0 [mkLink 1 0 3 0 0] None;
   demo_chip 0 1 [] None].
Definition demo : machine :=
  fst (history V5 (new_machine NoWrap 8 8 (chip_core_map V5) "") (map CallAddChip demo_chips)).

Lemma demo_made : made V5 demo.
Proof. exists NoWrap, 8, 8, (chip_core_map V5), EmptyString, (map CallAddChip demo_chips). reflexivity. Qed.
Lemma demo_made_of_chips : made_of_chips demo.
Proof. exists NoWrap, 8, 8, (chip_core_map V5), EmptyString, V5, demo_chips. reflexivity. Qed.

(** ** C07 *)

(** C07: existing and down coordinates partition the coordinates of the board;
    the chips at the existing ones are found without an exception; core counts
    are those of the board. *)
Theorem C07_existing_and_down_partition :
  forall v m, made v m -> forall ex ey,
    Permutation (m_existing m ex ey ++ m_down m ex ey) (m_xys m ex ey) /\
    (forall p, In p (m_existing m ex ey) <->
        In p (m_xys m ex ey) /\ exists c, get_chip_at m (fst p) (snd p) = Some c) /\
    (forall p, In p (m_down m ex ey) <->
        In p (m_xys m ex ey) /\ get_chip_at m (fst p) (snd p) = None).
Proof.
  intros v m M ex ey. unfold m_existing, m_down. rewrite existing_filter, down_filter.
  assert (forall p, contains m p = true <-> exists c, get_chip_at m (fst p) (snd p) = Some c) as K.
  { intros [x y]. unfold contains, dmem, get_chip_at. cbn [fst snd].
    destruct (dget xy_eqb (m_chips m) (x, y)); split; eauto; [discriminate|].
    intros [c E]. discriminate. }
  split; [apply filter_partition_perm|]. split; intros p; rewrite filter_In.
  - rewrite K. reflexivity.
  - rewrite negb_true_iff, <- not_true_iff_false, K.
    destruct (get_chip_at m (fst p) (snd p)) as [c|].
    + split; intros [H X]; [exfalso; apply X; eauto|discriminate].
    + split; intros [H X]; (split; [exact H|]); auto. intros [c E]. discriminate.
Qed.
Print Assumptions C07_existing_and_down_partition.

(** The coordinates of a board are the local coordinates seen from its Ethernet
    chip, each with the core count of its local position. *)
Theorem C07_board_coordinates :
  forall m ex ey,
    m_xys m ex ey = map (fun p => m_global m (fst p) (snd p) ex ey) (local_xys m) /\
    m_xy_cores m ex ey =
      map (fun pn => (m_global m (fst (fst pn)) (snd (fst pn)) ex ey, snd pn)) (m_ccm m).
Proof.
  intros m ex ey. unfold m_xys, m_xy_cores. rewrite xys_red, xy_cores_red. split.
  - unfold local_xys. apply map_ext. intros [a b]. rewrite m_global_red. reflexivity.
  - apply map_ext. intros [[a b] n]. rewrite m_global_red. reflexivity.
Qed.
Print Assumptions C07_board_coordinates.

Theorem C07_chips_by_ethernet :
  forall v m, made v m -> forall ex ey,
    exists cs, get_chips_by_ethernet m ex ey = Ok cs /\
      map c_xy cs = m_existing m ex ey /\
      Forall (fun c => get_chip_at m (c_x c) (c_y c) = Some c) cs.
Proof.
  intros v m M ex ey. apply made_wf in M. destruct (chips_by_ethernet m ex ey M) as (cs & E & X & F).
  exists cs. split; auto. split; auto. eapply Forall_impl; [|exact F].
  intros c Hc. apply get_chip_in; auto.
Qed.
Print Assumptions C07_chips_by_ethernet.

Example C07_case :
  m_existing demo 0 0 = [(0, 0); (0, 1); (1, 0)] /\
  List.length (m_down demo 0 0) = 45%nat /\ In (7, 7) (m_down demo 0 0) /\
  (exists cs, get_chips_by_ethernet demo 0 0 = Ok cs /\ List.length cs = 3%nat).
Proof.
  repeat split; try reflexivity.
  - vm_compute. tauto.
  - eexists. split; reflexivity.
Qed.

(** ** C19 *)

(** C19: a machine behaves as the list of the chips that were accepted, under
    every history of calls; the outcomes (which call raised what) agree too. *)
Theorem C19_machine_is_a_map_of_chips :
  forall v k w h ccm origin calls,
    let '(m, outcomes) := history v (new_machine k w h ccm origin) calls in
    let '(seen, expected) := book [] calls in
    outcomes = expected /\
    chips m = seen /\
    chip_coordinates m = map c_xy seen /\ machine_iter m = map (fun c => (c_xy c, c)) seen /\
    n_chips m = Z.of_nat (List.length seen) /\ NoDup (map c_xy seen) /\
    (forall x y, get_chip_at m x y = find (at_xy x y) seen /\
       is_chip_at m x y = existsb (at_xy x y) seen /\
       contains m (x, y) = existsb (at_xy x y) seen /\
       getitem m (x, y) = match find (at_xy x y) seen with
                          | Some c => Ok c | None => Err KeyError end /\
       forall l, is_link_at m x y l = true <->
         exists c k, find (at_xy x y) seen = Some c /\ get_link (c_router c) l = Some k).
Proof.
  intros v k w h ccm o calls. pose proof (history_wf v calls (new_machine k w h ccm o)
    (wf_new k w h ccm o)) as H.
  destruct (history v (new_machine k w h ccm o) calls) as [m es].
  destruct H as (W & B & _). unfold chips at 1 in B. cbn [new_machine m_chips] in B.
  change (dvalues (@nil (XY * chip))) with (@nil chip) in B. rewrite B.
  split; auto. split; auto. split; [apply keys_xy; auto|]. split; [apply (wf_chips m W)|].
  split; [unfold n_chips; rewrite (wf_chips m W) at 1; rewrite map_length; reflexivity|].
  split; [apply W|]. intros x y. pose proof (find_at m x y W) as F.
  assert (existsb (at_xy x y) (chips m) = match find (at_xy x y) (chips m) with
    Some _ => true | None => false end) as EF.
  { clear. induction (chips m) as [|c cs IH]; cbn; auto. destruct (at_xy x y c); auto. }
  split; auto. rewrite EF, <- F. unfold is_chip_at, contains, dmem, getitem, dgetitem.
  split; [|split; [|split]]; [| | |intros l; rewrite link_at_iff; reflexivity];
  unfold get_chip_at; destruct (dget xy_eqb (m_chips m) (x, y)); auto.
Qed.
Print Assumptions C19_machine_is_a_map_of_chips.

(** The book keeps the first chip at each coordinate and refuses later ones;
    a refused call leaves the machine as it is. *)
Theorem C19_refused_chip_changes_nothing :
  forall v m, made v m -> forall c,
    (add_chip m c = Err AlreadyExists <-> exists c', get_chip_at m (c_x c) (c_y c) = Some c') /\
    (add_chip m c = Err AlreadyExists -> exec v m (CallAddChip c) = (m, Some AlreadyExists)) /\
    (forall e, add_chip m c = Err e -> e = AlreadyExists).
Proof.
  intros v m M c. unfold exec, add_chip, get_chip_at.
  change (c_x c, c_y c) with (c_xy c). unfold dmem.
  destruct (dget xy_eqb (m_chips m) (c_xy c)) as [c'|]; split.
  - split; eauto.
  - split; auto. congruence.
  - split; [destruct (c_ip c); discriminate|intros [? ?]; discriminate].
  - destruct (c_ip c); split; discriminate.
Qed.
Print Assumptions C19_refused_chip_changes_nothing.

Example C19_case :
  book [] [CallAddChips demo_chips; CallAddChip (demo_chip 1 0 [] (Some "x"%string))] =
  (demo_chips, [None; Some AlreadyExists]) /\ n_chips demo = 3 /\
  snd (history V5 (new_machine NoWrap 8 8 (chip_core_map V5) "")
    [CallAddChips demo_chips; CallAddChip (demo_chip 1 0 [] (Some "x"%string))]) =
  [None; Some AlreadyExists].
Proof. repeat split. Qed.

(** ** C20 *)
Theorem C20_counts :
  forall v m, made v m ->
    get_cores_count m = total_cores m /\
    total_cores m = zsum (map (fun c => Z.of_nat (List.length (all_processor_ids c))) (chips m)) /\
    get_links_count_doubled m =
      zsum (map (fun c => Z.of_nat (List.length (router_links (c_router c)))) (chips m)) /\
    total_available_user_cores m =
      zsum (map (fun c => Z.of_nat (List.length (c_placable c))) (chips m)) /\
    total_cores m - total_available_user_cores m =
      zsum (map (fun c => Z.of_nat (List.length (c_scamp c))) (chips m)).
Proof.
  intros v m M. apply made_wf in M.
  split; [apply (wf_cores m M)|]. split; [|split; [|split; [reflexivity|]]].
  - unfold total_cores. f_equal. apply map_ext. intros c. unfold n_processors, all_processor_ids.
    rewrite app_length. lia.
  - unfold get_links_count_doubled. rewrite (wf_links m M). f_equal. apply map_ext. intros c.
    unfold router_len, router_links, dvalues. rewrite map_length. reflexivity.
  - unfold total_cores, total_available_user_cores.
    induction (chips m) as [|c cs IH]; cbn [map zsum fold_right]; [reflexivity|].
    fold (zsum (map n_processors cs)). fold (zsum (map n_placable_processors cs)).
    unfold n_processors at 1, n_placable_processors at 1.
    change (fold_right Z.add 0 (map (fun c => Z.of_nat (List.length (c_scamp c))) cs))
      with (zsum (map (fun c => Z.of_nat (List.length (c_scamp c))) cs)). lia.
Qed.
Print Assumptions C20_counts.

Example C20_case : get_cores_count demo = 54 /\ total_available_user_cores demo = 51 /\
  get_links_count_doubled demo = 3.
Proof. repeat split. Qed.

(** ** C21 *)
Theorem C21_ethernet_chips_and_boot_address :
  forall v m, made v m ->
    ethernet_connected_chips m =
      filter (fun c => match c_ip c with Some _ => true | None => false end) (chips m) /\
    (forall a, m_boot m = Some a <->
       exists c, get_chip_at m 0 0 = Some c /\ c_ip c = Some a) /\
    (boot_chip m = match get_chip_at m 0 0 with Some c => Ok c | None => Err KeyError end).
Proof.
  intros v m M. apply made_wf in M. split; [apply (wf_eth m M)|]. split; [|reflexivity].
  intros a. rewrite (wf_boot m M a). split.
  - intros (c & Hc & X & I). exists c. split; auto. apply get_chip_in; auto.
  - intros (c & G & I). apply get_chip_in in G as [Hc X]; auto. eauto.
Qed.
Print Assumptions C21_ethernet_chips_and_boot_address.

Example C21_case : m_boot demo = Some "10.0.0.1"%string /\
  map c_xy (ethernet_connected_chips demo) = [(0, 0)].
Proof. repeat split. Qed.

(** ** C22 *)
Theorem C22_validate_accepts_exactly_well_formed :
  forall v m, made v m ->
    (validate v m = Ok tt <-> well_formed v m) /\
    (validate v m = Ok tt \/ validate v m = Err MachineExc).
Proof. intros v m M. apply validate_spec. eapply made_wf; eauto. Qed.
Print Assumptions C22_validate_accepts_exactly_well_formed.

Example C22_case : validate V5 demo = Ok tt /\
  validate V3 (fst (history V3 demo [CallAddChip (demo_chip 2 0 [] (Some "x"%string))])) = Err MachineExc.
Proof. split; reflexivity. Qed.

(** ** C23 *)
Theorem C23_unused_xy :
  forall v m, made v m -> 0 < m_height m ->
    exists x y, get_unused_xy m = Ok (x, y) /\ 0 <= x /\ 0 <= y < m_height m /\
      get_chip_at m x y = None /\
      (forall e, In e (ethernet_connected_chips m) -> ~ In (x, y) (m_xys m (c_x e) (c_y e))) /\
      (forall x' y', 0 <= x' -> 0 <= y' < m_height m -> x' < x \/ (x' = x /\ y' < y) ->
         (exists c, get_chip_at m x' y' = Some c) \/
         (exists e, In e (ethernet_connected_chips m) /\
            In (x', y') (m_xys m (c_x e) (c_y e)))).
Proof.
  intros v m M Hh. apply made_wf in M.
  destruct (unused_spec m M Hh) as ([x y] & E & X & Y & N & F). cbn [fst snd] in *.
  exists x, y. split; auto. split; auto. split; auto. unfold used in N. split; [|split].
  - apply get_chip_none; auto.
  - intros e He H. apply N. right. unfold boards_xys. apply in_flat_map. exists e. split; auto.
  - intros x' y' X' Y' L. destruct (F x' y' X' Y' L) as [H|H].
    + left. apply in_map_iff in H as (c & E' & Hc). exists c. apply get_chip_in; auto.
    + right. unfold boards_xys in H. apply in_flat_map in H as (e & He & H). eauto.
Qed.
Print Assumptions C23_unused_xy.

(** Adding a chip elsewhere, without a new board over it, does not change the answer. *)
Theorem C23_unused_xy_stable :
  forall v m, made v m -> 0 < m_height m -> forall x y, get_unused_xy m = Ok (x, y) ->
  forall c m', add_chip m c = Ok m' -> c_xy c <> (x, y) ->
    (c_ip c <> None -> ~ In (x, y) (m_xys m (c_x c) (c_y c))) ->
    get_unused_xy m' = Ok (x, y).
Proof.
  intros v m M Hh x y E c m' A N1 N2. apply made_wf in M.
  destruct (unused_spec m M Hh) as (p & E' & X & Y & N & F).
  rewrite E in E'. apply Ok_inj in E'. subst p. cbn [fst snd] in *.
  pose proof (add_chip_wf m c M) as W'. rewrite A in W'.
  destruct W' as (W' & C & K1 & K2 & K3 & K4 & _).
  assert (forall ex ey, m_xys m' ex ey = m_xys m ex ey) as KX
    by (intros; unfold m_xys; congruence).
  assert (forall p, used m' p <-> used m p \/ p = c_xy c \/
            (c_ip c <> None /\ In p (m_xys m (c_x c) (c_y c)))) as U.
  { intros p. unfold used, boards_xys. rewrite (wf_eth m' W'), (wf_eth m M), C, map_app, in_app_iff.
    rewrite filter_app, flat_map_app, in_app_iff.
    assert (forall l, flat_map (fun e => m_xys m' (c_x e) (c_y e)) l =
                      flat_map (fun e => m_xys m (c_x e) (c_y e)) l) as FE.
    { intros l. apply flat_map_ext. intros e. apply KX. }
    rewrite !FE. cbn [map filter]. unfold has_ip at 2. cbn [In].
    destruct (c_ip c) as [ip|].
    - cbn [flat_map]. rewrite app_nil_r. assert (Some ip <> None) by discriminate.
      split; intros H'; decompose [or and] H'; subst; auto 6; contradiction.
    - cbn [flat_map In]. split; intros H'; decompose [or and] H'; subst; auto 6; try contradiction. }
  rewrite <- K3 in Hh. destruct (unused_spec m' W' Hh) as (p & E' & X' & Y' & N' & F').
  rewrite E'. f_equal. symmetry.
  apply (unused_unique m'); auto; cbn [fst snd]; rewrite ?K3; auto.
  - rewrite U. intros [H|[H|[H1 H2]]]; auto. apply (N2 H1 H2).
  - intros a b Ha Hb L. apply U. left. apply F; auto.
Qed.
Print Assumptions C23_unused_xy_stable.

Example C23_case : get_unused_xy demo = Ok (0, 4) /\
  exists m', add_chip demo (demo_chip 5 5 [] None) = Ok m' /\ get_unused_xy m' = Ok (0, 4).
Proof. split; [reflexivity|]. eexists. split; reflexivity. Qed.

(** ** C24 *)
Lemma contains_some m p : contains m p = true <-> exists c, get_chip_at m (fst p) (snd p) = Some c.
Proof.
  destruct p as [x y]. unfold contains, dmem, get_chip_at. cbn [fst snd].
  destruct (dget xy_eqb (m_chips m) (x, y)); split; eauto; try discriminate.
  intros [c E]. discriminate.
Qed.

(** C24: add_spinnaker_links never fails; afterwards a link is found by the
    address of its board and by the coordinates of its chip, exactly when it is
    present; without arguments the boot board is meant. *)
Theorem C24_spinnaker_link_lookups :
  forall v m, made_of_chips m -> boards_apart v m ->
  exists m', add_spinnaker_links v m = Ok m' /\
    (forall id a d, get_spinnaker_link_with_id m' id (Some a) None = Ok d <->
       exists e, c_ip e = Some a /\ spin_present v m e id d) /\
    (forall id b p d, get_spinnaker_link_with_id m' id b (Some p) = Ok d <->
       exists e, spin_present v m e id d /\ (sl_x d, sl_y d) = p) /\
    (forall id, get_spinnaker_link_with_id m' id None None =
       match m_boot m with
       | Some a => get_spinnaker_link_with_id m' id (Some a) None
       | None => Err AssertionError
       end) /\
    (forall id b p x, (b <> None \/ p <> None) ->
       get_spinnaker_link_with_id m' id b p = Err x -> x = KeyError).
Proof.
  intros v m M A. apply made_of_chips_wf in M as (W & S0 & _).
  destruct (add_spin_same v m W) as (m' & E & SM). exists m'. split; auto.
  pose proof (spin_lookup v m m' S0 A E SM) as L.
  assert (m_boot m' = m_boot m) as B by apply SM.
  assert (forall p, contains m' p = contains m p) as CE
    by (intros p; unfold contains; destruct SM as (_ & _ & _ & _ & _ & _ & -> & _); auto).
  repeat split.
  - cbn. unfold dgetitem. destruct (dget spin_key_eqb (m_spin m') (Board a, id)) as [d'|] eqn:G;
      [|discriminate]. intros X. apply Ok_inj in X. subst d'.
    apply L in G as (e & id' & P & [K|K]); [|discriminate].
    injection K as -> ->. exists e. split; auto. destruct P as (? & ? & ? & ? & ? & ? & ? & P).
    destruct P as (_ & I & _ & _ & _ & _ & _ & ->). exact I.
  - intros (e & I & P). cbn. unfold dgetitem.
    assert (dget spin_key_eqb (m_spin m') (Board a, id) = Some d) as ->; [|reflexivity].
    apply L. exists e, id. split; auto. left.
    destruct P as (? & ? & ? & ? & ? & ? & ? & P). destruct P as (_ & I' & _ & _ & _ & _ & _ & ->).
    cbn. congruence.
  - unfold get_spinnaker_link_with_id. destruct (contains m' p) eqn:C; [|discriminate]. cbn.
    destruct (dget spin_key_eqb (m_spin m') (AtXY p, id)) as [d'|] eqn:G; [|discriminate].
    intros X. apply Ok_inj in X. subst d'. apply L in G as (e & id' & P & [K|K]); [discriminate|].
    injection K as -> ->. exists e. auto.
  - intros (e & P & <-). unfold get_spinnaker_link_with_id.
    assert (contains m' (sl_x d, sl_y d) = true) as ->.
    { rewrite CE. apply contains_some. destruct P as (? & ? & ? & ? & ? & c & ? & P).
      destruct P as (_ & _ & _ & _ & _ & G & _ & ->). cbn in *. eauto. }
    cbn [negb]. assert (dget spin_key_eqb (m_spin m') (AtXY (sl_x d, sl_y d), id) = Some d) as ->;
      [|reflexivity]. apply L. exists e, id. auto.
  - intros id. unfold get_spinnaker_link_with_id. rewrite B. destruct (m_boot m); reflexivity.
  - intros id b p x N. unfold get_spinnaker_link_with_id. destruct p as [p|].
    + destruct (negb _); [congruence|]. destruct (dget _ _ _); congruence.
    + destruct b as [b|]; [|destruct N; congruence]. unfold dgetitem.
      destruct (dget _ _ _); congruence.
Qed.
Print Assumptions C24_spinnaker_link_lookups.

Lemma demo_apart : boards_apart V5 demo.
Proof.
  split; [reflexivity|]. split.
  - intros e e' [<-|[]] [<-|[]] _. reflexivity.
  - intros e [<-|[]]. split; [apply nodup_b_spec; reflexivity|]. vm_compute. tauto.
Qed.

Example C24_case : exists m', add_spinnaker_links V5 demo = Ok m' /\
  get_spinnaker_link_with_id m' 0 None None = Ok (mkSpinLink 0 0 0 4 "10.0.0.1") /\
  get_spinnaker_link_with_id m' 0 None (Some (0, 0)) = Ok (mkSpinLink 0 0 0 4 "10.0.0.1") /\
  get_spinnaker_link_with_id m' 0 None (Some (1, 0)) = Err KeyError /\
  get_spinnaker_link_with_id m' 1 (Some "10.0.0.1"%string) None = Err KeyError.
Proof. eexists. split; [reflexivity|]. repeat split. Qed.

(** ** C25 *)
Theorem C25_fpga_link_lookups :
  forall v m, made_of_chips m -> boards_apart v m ->
  exists m', add_fpga_links v m = Ok m' /\
    (forall f fl a d, get_fpga_link_with_id m' f fl (Some a) None = Ok d <->
       exists e, c_ip e = Some a /\ fpga_present v m e f fl d) /\
    (forall f fl b p d, get_fpga_link_with_id m' f fl b (Some p) = Ok d <->
       exists e, fpga_present v m e f fl d /\ ((fl_x d, fl_y d) = p \/ c_xy e = p)) /\
    (forall f fl, get_fpga_link_with_id m' f fl None None =
       match m_boot m with
       | Some a => get_fpga_link_with_id m' f fl (Some a) None
       | None => Err AssertionError
       end) /\
    (forall f fl b p x, (b <> None \/ p <> None) ->
       get_fpga_link_with_id m' f fl b p = Err x -> x = KeyError).
Proof.
  intros v m M A. apply made_of_chips_wf in M as (W & _ & F0).
  destruct (add_fpga_same v m W) as (m' & E & SM). exists m'. split; auto.
  pose proof (fpga_lookup v m m' W F0 A E SM) as L.
  assert (m_boot m' = m_boot m) as B by apply SM.
  assert (forall p, contains m' p = contains m p) as CE
    by (intros p; unfold contains; destruct SM as (_ & _ & _ & _ & _ & _ & -> & _); auto).
  repeat split.
  - cbn. unfold dgetitem. destruct (dget fpga_key_eqb (m_fpga m') (Board a, f, fl)) as [d'|] eqn:G;
      [|discriminate]. intros X. apply Ok_inj in X. subst d'.
    apply L in G as (e & f' & fl' & P & [K|[K|K]]); [|discriminate|discriminate].
    injection K as -> -> ->. exists e. split; auto. destruct P as (? & ? & ? & ? & ? & ? & ? & P).
    destruct P as (_ & I & _ & _ & _ & ->). exact I.
  - intros (e & I & P). cbn. unfold dgetitem.
    assert (dget fpga_key_eqb (m_fpga m') (Board a, f, fl) = Some d) as ->; [|reflexivity].
    apply L. exists e, f, fl. split; auto. left.
    destruct P as (? & ? & ? & ? & ? & ? & ? & P). destruct P as (_ & I' & _ & _ & _ & ->).
    cbn. congruence.
  - unfold get_fpga_link_with_id. destruct (contains m' p) eqn:C; [|discriminate]. cbn.
    destruct (dget fpga_key_eqb (m_fpga m') (AtXY p, f, fl)) as [d'|] eqn:G; [|discriminate].
    intros X. apply Ok_inj in X. subst d'.
    apply L in G as (e & f' & fl' & P & [K|[K|K]]); [discriminate| |];
    injection K as -> -> ->; exists e; auto.
  - intros (e & P & Q). unfold get_fpga_link_with_id.
    assert (contains m' p = true) as ->.
    { rewrite CE. apply contains_some. destruct P as (? & ? & ? & ? & ? & c & ? & P).
      destruct P as (I1 & _ & _ & _ & G & ->). cbn in *. destruct Q as [<-|<-]; [eauto|].
      exists e. apply get_chip_in; auto. unfold ethernet_connected_chips in I1.
      rewrite (wf_eth m W) in I1. apply filter_In in I1. tauto. }
    cbn [negb]. assert (dget fpga_key_eqb (m_fpga m') (AtXY p, f, fl) = Some d) as ->;
      [|reflexivity]. apply L. exists e, f, fl. split; auto. destruct Q as [<-|<-]; auto.
  - intros f fl. unfold get_fpga_link_with_id. rewrite B. destruct (m_boot m); reflexivity.
  - intros f fl b p x N. unfold get_fpga_link_with_id. destruct p as [p|].
    + destruct (negb _); [congruence|]. destruct (dget _ _ _); congruence.
    + destruct b as [b|]; [|destruct N; congruence]. unfold dgetitem.
      destruct (dget _ _ _); congruence.
Qed.
Print Assumptions C25_fpga_link_lookups.

(** C25: the FPGA links of a SpiNN-5 board are exactly its 48 edge links, that is
    the links of chips on the board whose other end is off the board, and the
    FPGA number 0..2 with the link number 0..15 names each of them once. *)
Definition edge_of_board (lx ly l : Z) : bool :=
  on_board_b (lx, ly) && negb (on_board_b (vadd (lx, ly) (link_vec l))).

Lemma fpga_table_edges :
  forallb (fun x => forallb (fun y => forallb (fun l =>
    Bool.eqb (edge_of_board x y l)
      (existsb (fun t => let '(a, b, c, _, _) := t in (a =? x) && (b =? y) && (c =? l))
         V5_FPGA_LINKS)) (zrange 0 6)) (zrange 0 8)) (zrange 0 8) = true.
Proof. vm_compute. reflexivity. Qed.

Lemma fpga_table_range :
  forallb (fun t => let '(a, b, c, f, fl) := t in
    on_board_b (a, b) && (0 <=? c) && (c <? 6) && (0 <=? f) && (f <? 3) && (0 <=? fl) &&
    (fl <? 16)) V5_FPGA_LINKS = true.
Proof. vm_compute. reflexivity. Qed.

Lemma fpga_table_all :
  forallb (fun f => forallb (fun fl => existsb (fun t => let '(_, _, _, f', fl') := t in
    (f' =? f) && (fl' =? fl)) V5_FPGA_LINKS) (zrange 0 16)) (zrange 0 3) = true.
Proof. vm_compute. reflexivity. Qed.

Theorem C25_fpga_links_are_the_board_edge :
  (forall lx ly l,
     (exists f fl, In (lx, ly, l, f, fl) (fpga_links V5)) <->
     on_board (lx, ly) /\ exists q, flat_neighbour lx ly l q /\ ~ on_board q) /\
  (forall f fl, (exists lx ly l, In (lx, ly, l, f, fl) (fpga_links V5)) <->
     0 <= f < 3 /\ 0 <= fl < 16) /\
  (forall lx ly l lx' ly' l' f fl,
     In (lx, ly, l, f, fl) (fpga_links V5) -> In (lx', ly', l', f, fl) (fpga_links V5) ->
     (lx, ly, l) = (lx', ly', l')) /\
  (forall lx ly l f fl f' fl',
     In (lx, ly, l, f, fl) (fpga_links V5) -> In (lx, ly, l, f', fl') (fpga_links V5) ->
     (f, fl) = (f', fl')) /\
  List.length (fpga_links V5) = 48%nat.
Proof.
  assert (forall lx ly l f fl, In (lx, ly, l, f, fl) V5_FPGA_LINKS ->
    on_board (lx, ly) /\ 0 <= l < 6 /\ 0 <= f < 3 /\ 0 <= fl < 16) as R.
  { intros lx ly l f fl H. pose proof fpga_table_range as T. rewrite forallb_forall in T.
    specialize (T _ H). cbv beta iota in T.
    do 6 (apply andb_true_iff in T as [T ?]). apply on_board_b_spec in T.
    split; auto. lia. }
  assert (forall lx ly l q, 0 <= l < 6 ->
     (flat_neighbour lx ly l q <-> q = vadd (lx, ly) (link_vec l))) as FN.
  { intros lx ly l q Hl. unfold flat_neighbour.
    rewrite (over_red NoWrap 0 0 lx ly l) by (auto; split; discriminate).
    unfold red. cbn [wraps_x wraps_y]. split.
    - intros [_ E]. apply Ok_inj in E. subst q. reflexivity.
    - intros ->. split; auto. }
  assert (forall lx ly l, on_board (lx, ly) -> 0 <= l < 6 ->
    (edge_of_board lx ly l = true <-> exists f fl, In (lx, ly, l, f, fl) V5_FPGA_LINKS)) as T.
  { intros lx ly l OB Hl. pose proof fpga_table_edges as T. rewrite forallb_forall in T.
    destruct OB as (Hx & Hy & _). cbn [fst snd] in *.
    assert (In lx (zrange 0 8)) as Ix by (apply in_zrange; lia).
    assert (In ly (zrange 0 8)) as Iy by (apply in_zrange; lia).
    specialize (T _ Ix). rewrite forallb_forall in T. specialize (T _ Iy).
    rewrite forallb_forall in T. assert (In l (zrange 0 6)) as Il by (apply in_zrange; lia).
    specialize (T _ Il). apply Bool.eqb_prop in T. rewrite T, existsb_exists. split.
    - intros ([[[[a b] c] f] fl] & H & E). repeat (apply andb_true_iff in E as [E ?]).
      exists f, fl. replace lx with a by lia. replace ly with b by lia. replace l with c by lia.
      exact H.
    - intros (f & fl & H). eexists. split; [exact H|]. cbv beta iota.
      rewrite !Z.eqb_refl. reflexivity. }
  change (fpga_links V5) with V5_FPGA_LINKS. split; [|split; [|split; [|split]]].
  - intros lx ly l. split.
    + intros (f & fl & H). destruct (R _ _ _ _ _ H) as (OB & Hl & _). split; auto.
      exists (vadd (lx, ly) (link_vec l)). split; [apply FN; auto|].
      assert (edge_of_board lx ly l = true) as E by (apply T; eauto).
      unfold edge_of_board in E. apply andb_true_iff in E as [_ E].
      rewrite <- on_board_b_spec. intros X. rewrite X in E. discriminate.
    + intros (OB & q & N & NB). assert (0 <= l < 6) as Hl by apply N.
      apply FN in N; auto. subst q. apply T; auto. unfold edge_of_board.
      apply andb_true_iff. split; [apply on_board_b_spec; auto|].
      apply negb_true_iff, not_true_iff_false. rewrite on_board_b_spec. auto.
  - intros f fl. split.
    + intros (lx & ly & l & H). destruct (R _ _ _ _ _ H). tauto.
    + intros [Hf Hfl]. pose proof fpga_table_all as A. rewrite forallb_forall in A.
      assert (In f (zrange 0 3)) as If by (apply in_zrange; lia). specialize (A _ If).
      rewrite forallb_forall in A. assert (In fl (zrange 0 16)) as Il by (apply in_zrange; lia).
      specialize (A _ Il). apply existsb_exists in A as ([[[[a b] c] f'] fl'] & H & E).
      apply andb_true_iff in E as [E1 E2]. exists a, b, c.
      replace f with f' by lia. replace fl with fl' by lia. exact H.
  - exact (fpga_links_unique V5).
  - intros lx ly l f fl f' fl' H H'.
    assert (NoDup (map (fun t : Z * Z * Z * Z * Z => let '(a, b, c, _, _) := t in (a * 8 + b, c))
              V5_FPGA_LINKS)) as N by (apply nodup_b_spec; reflexivity).
    assert (forall (A B : Type) (g : A -> B) l a b, NoDup (map g l) -> In a l -> In b l ->
       g a = g b -> a = b) as IJ.
    { clear. intros A B g l. induction l as [|z l IH]; cbn; intros a b N Ha Hb E; [tauto|].
      inversion N as [|? ? N1 N2]. subst. destruct Ha as [->|Ha], Hb as [->|Hb]; auto.
      - exfalso. apply N1. rewrite E. apply in_map; auto.
      - exfalso. apply N1. rewrite <- E. apply in_map; auto. }
    pose proof (IJ _ _ _ _ _ _ N H H' eq_refl) as X. congruence.
  - reflexivity.
Qed.
Print Assumptions C25_fpga_links_are_the_board_edge.

(** Other versions have no FPGA links. *)
Example C25_case : exists m', add_fpga_links V5 demo = Ok m' /\
  get_fpga_link_with_id m' 1 3 None None = Ok (mkFpgaLink 3 1 0 1 3 "10.0.0.1") /\
  get_fpga_link_with_id m' 1 3 None (Some (0, 1)) = Ok (mkFpgaLink 3 1 0 1 3 "10.0.0.1") /\
  get_fpga_link_with_id m' 1 3 None (Some (0, 0)) = Ok (mkFpgaLink 3 1 0 1 3 "10.0.0.1") /\
  get_fpga_link_with_id m' 2 0 None None = Err KeyError.
Proof. eexists. split; [reflexivity|]. repeat split. Qed.

(** ** C26 *)
Theorem C26_one_way_links :
  forall v m, made v m ->
    NoDup (one_way_links m) /\
    forall x y out back, In (x, y, out, back) (one_way_links m) <->
      exists c l, get_chip_at m x y = Some c /\ 0 <= out < 6 /\ back = opposite out /\
        get_link (c_router c) out = Some l /\
        ~ link_at m (l_destination_x l) (l_destination_y l) back.
Proof.
  intros v m M. apply made_wf in M. split; [apply one_way_nodup; auto|].
  intros x y o b. rewrite (one_way_spec m x y o b M).
  split; intros (c & l & A & B & C & D & E); exists c, l; rewrite link_at_not in *; auto.
Qed.
Print Assumptions C26_one_way_links.

Theorem C26_unreachable_outgoing :
  forall v m, made v m -> forall x y,
    In (x, y) (unreachable_outgoing_chips m) <->
    exists c, get_chip_at m x y = Some c /\
      forall l, 0 <= l < 6 -> is_link (c_router c) l = false.
Proof.
  intros v m M x y. apply made_wf in M. rewrite outgoing_spec by auto. cbn [fst snd].
  unfold chip_coordinates. rewrite keys_xy by auto. split.
  - intros [H X]. apply in_map_iff in H as (c & E & Hc).
    assert (get_chip_at m x y = Some c) as G by (apply get_chip_in; auto).
    exists c. split; auto. intros l Hl. specialize (X l Hl). unfold is_link_at in X.
    unfold get_chip_at in G. rewrite G in X. exact X.
  - intros (c & G & X). split.
    + apply get_chip_in in G as [Hc E]; auto. rewrite <- E. apply in_map; auto.
    + intros l Hl. unfold is_link_at. unfold get_chip_at in G. rewrite G. auto.
Qed.
Print Assumptions C26_unreachable_outgoing.

(** The reports that look at neighbours use the neighbour at the unwrapped offset. *)
Theorem C26_reports_without_wrap :
  forall v m, made v m -> forall x y,
    (In (x, y) (unreachable_incoming_chips m) <->
       (exists c, get_chip_at m x y = Some c) /\ ~ linked_from flat_neighbour m x y) /\
    (In (x, y) (unreachable_outgoing_local_chips m) <->
       exists c, get_chip_at m x y = Some c /\ ~ linked_to_board flat_neighbour m c) /\
    (In (x, y) (unreachable_incoming_local_chips m) <->
       exists c, get_chip_at m x y = Some c /\ ~ linked_from_board flat_neighbour m c).
Proof.
  intros v m M x y. apply made_wf in M.
  rewrite incoming_spec, outgoing_local_spec, incoming_local_spec by auto. cbn [fst snd].
  split; [|split; reflexivity]. unfold chip_coordinates. rewrite keys_xy by auto.
  split; intros [H X]; (split; [|exact X]).
  - apply in_map_iff in H as (c & E & Hc). exists c. apply get_chip_in; auto.
  - destruct H as [c G]. apply get_chip_in in G as [Hc E]; auto. rewrite <- E. apply in_map; auto.
Qed.
Print Assumptions C26_reports_without_wrap.

(** So on a machine that does not wrap they mean what is documented. *)
Theorem C26_reports_exact_on_unwrapped_machines :
  forall v m, made v m -> m_kind m = NoWrap -> forall x y,
    (In (x, y) (unreachable_incoming_chips m) <->
       (exists c, get_chip_at m x y = Some c) /\ ~ linked_from (neighbour m) m x y) /\
    (In (x, y) (unreachable_outgoing_local_chips m) <->
       exists c, get_chip_at m x y = Some c /\ ~ linked_to_board (neighbour m) m c) /\
    (In (x, y) (unreachable_incoming_local_chips m) <->
       exists c, get_chip_at m x y = Some c /\ ~ linked_from_board (neighbour m) m c).
Proof.
  intros v m M K x y. pose proof (C26_reports_without_wrap v m M x y) as R.
  assert (forall x y l q, neighbour m x y l q <-> flat_neighbour x y l q) as N.
  { intros x' y' l q. unfold neighbour, flat_neighbour, m_over. rewrite K. reflexivity. }
  assert (linked_from (neighbour m) m x y <-> linked_from flat_neighbour m x y) as N1.
  { unfold linked_from. split; intros (l & q & A & B); exists l, q; (split; [apply N; auto|auto]). }
  assert (forall c, linked_to_board (neighbour m) m c <-> linked_to_board flat_neighbour m c) as N2.
  { intros c. unfold linked_to_board. split; intros (l & q & n & A & B); exists l, q, n;
      (split; [apply N; auto|auto]). }
  assert (forall c, linked_from_board (neighbour m) m c <-> linked_from_board flat_neighbour m c) as N3.
  { intros c. unfold linked_from_board. split; intros (l & q & n & A & B); exists l, q, n;
      (split; [apply N; auto|auto]). }
  destruct R as (R1 & R2 & R3). split; [rewrite N1; auto|]. split.
  - rewrite R2. split; intros (c & G & X); exists c; (split; [auto|]); rewrite N2 in *; auto.
  - rewrite R3. split; intros (c & G & X); exists c; (split; [auto|]); rewrite N3 in *; auto.
Qed.
Print Assumptions C26_reports_exact_on_unwrapped_machines.

(** On a wrapping machine they do not: the chips (4,11) and (5,0) are neighbours
    over the top edge, linked both ways and on the board of (4,8), and yet all
    three reports name them. *)
Definition seam_chips : list chip :=
  [mkChip 4 8 [0] (zrange 1 18) (mkRouter [] 1023) 100 4 8 (Some "a"%string) [] None;
   mkChip 4 11 [0] (zrange 1 18) (mkRouter [(1, mkLink 4 11 1 5 0)] 1023) 100 4 8 None [] None;
   mkChip 5 0 [0] (zrange 1 18) (mkRouter [(4, mkLink 5 0 4 4 11)] 1023) 100 4 8 None [] None].
Definition seam : machine :=
  fst (history V5 (new_machine FullWrap 12 12 (chip_core_map V5) "") (map CallAddChip seam_chips)).

Theorem C26_documented_meaning_across_the_seam_refuted :
  exists m c, made V5 m /\ get_chip_at m 5 0 = Some c /\
    linked_from (neighbour m) m 5 0 /\ linked_to_board (neighbour m) m c /\
    linked_from_board (neighbour m) m c /\
    In (5, 0) (unreachable_incoming_chips m) /\
    In (5, 0) (unreachable_outgoing_local_chips m) /\
    In (5, 0) (unreachable_incoming_local_chips m).
Proof.
  exists seam. eexists. split; [|split; [reflexivity|]].
  { exists FullWrap, 12, 12, (chip_core_map V5), EmptyString, (map CallAddChip seam_chips).
    reflexivity. }
  split; [|split; [|split]].
  - exists 4, (4, 11). split; [split; [lia|reflexivity]|apply link_at_iff; reflexivity].
  - exists 4, (4, 11). eexists. split; [split; [cbn; lia|reflexivity]|].
    split; [reflexivity|]. split; reflexivity.
  - exists 4, (4, 11). eexists. split; [split; [cbn; lia|reflexivity]|].
    split; [reflexivity|]. split; reflexivity.
  - repeat split; vm_compute; tauto.
Qed.
Print Assumptions C26_documented_meaning_across_the_seam_refuted.

Example C26_case : one_way_links demo = [(0, 0, 2, 5)] /\
  unreachable_outgoing_chips demo = [(0, 1)] /\ unreachable_incoming_chips demo = [] /\
  m_kind demo = NoWrap /\ unreachable_outgoing_local_chips demo = [(0, 1)].
Proof. repeat split. Qed.

(** ** C27 *)

(** C27: what min_n_router_enteries returns is the largest number of entries. *)
Theorem C27_router_entries :
  forall v m, made v m ->
    (chips m = [] -> min_n_router_enteries m = Err IndexError) /\
    (chips m <> [] -> exists n, min_n_router_enteries m = Ok n /\
       (exists c, In c (chips m) /\ r_entries (c_router c) = n) /\
       (forall c, In c (chips m) -> r_entries (c_router c) <= n)).
Proof.
  intros v m M. apply made_wf in M. split.
  - intros E. unfold min_n_router_enteries.
    assert (dkeys (m_entries_counter m) = []) as ->; [|reflexivity].
    destruct (dkeys (m_entries_counter m)) as [|n l] eqn:D; auto.
    assert (In n (dkeys (m_entries_counter m))) as H by (rewrite D; cbn; auto).
    apply (wf_entries m M) in H as (c & Hc & _). rewrite E in Hc. destruct Hc.
  - apply min_entries_spec; auto.
Qed.
Print Assumptions C27_router_entries.

(** The documented claim, that it is the minimum, fails. *)
Theorem C27_is_not_the_minimum_refuted :
  exists m n c, made V5 m /\ min_n_router_enteries m = Ok n /\
    In c (chips m) /\ r_entries (c_router c) < n.
Proof.
  set (cs := [mkChip 0 0 [0] [] (mkRouter [] 1023) 100 0 0 None [] None;
              mkChip 0 1 [0] [] (mkRouter [] 500) 100 0 0 None [] None]).
  exists (fst (history V5 (new_machine NoWrap 8 8 (chip_core_map V5) "") (map CallAddChip cs))).
  exists 1023. eexists. split; [|split; [reflexivity|split; [right; left; reflexivity|reflexivity]]].
  exists NoWrap, 8, 8, (chip_core_map V5), EmptyString, (map CallAddChip cs). reflexivity.
Qed.
Print Assumptions C27_is_not_the_minimum_refuted.

Example C27_case : min_n_router_enteries demo = Ok 1023.
Proof. reflexivity. Qed.
