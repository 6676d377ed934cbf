(** C68: the order in which chips are added. *)
From Coq Require Import Lia Permutation.
From Verif Require Import Model_Py Model_Wrap Model_Version Model_Core Model_Machine
  Spec_Hops Spec_Machine Spec_Boards Spec_Order Proof_Wrap Proof_Concentric Proof_Py Proof_Board
  Proof_Machine Proof_Report Prop_Machine.
Open Scope list_scope.
Open Scope Z_scope.

Lemma zsum_perm l l' : Permutation l l' -> zsum l = zsum l'.
Proof. induction 1; cbn; unfold zsum in *; cbn; lia. Qed.

Lemma filter_perm {A} (f : A -> bool) l l' : Permutation l l' -> Permutation (filter f l) (filter f l').
Proof.
  induction 1; cbn; auto.
  - destruct (f x); auto.
  - destruct (f x), (f y); auto. constructor.
  - etransitivity; eauto.
Qed.

Lemma filter_same {A} (f g : A -> bool) l : (forall a, f a = g a) -> filter f l = filter g l.
Proof. intros E. induction l as [|a l IH]; cbn; auto. rewrite E, IH. auto. Qed.

Lemma exists_same {A} (f g : A -> bool) l : (forall a, f a = g a) -> existsb f l = existsb g l.
Proof. intros E. induction l as [|a l IH]; cbn; auto. rewrite E, IH. auto. Qed.

Lemma map_res_same {A B} (f g : A -> res B) l : (forall a, f a = g a) -> map_res f l = map_res g l.
Proof. intros E. induction l as [|a l IH]; cbn; auto. rewrite E, IH. auto. Qed.

Lemma perm_looks v v' m m' : made v m -> made v' m' ->
  m_kind m = m_kind m' -> m_width m = m_width m' -> m_height m = m_height m' -> m_ccm m = m_ccm m' ->
  Permutation (chips m) (chips m') -> looks_same m m'.
Proof.
  intros M M' K1 K2 K3 K4 P. pose proof M as W. pose proof M' as W'. apply made_wf in W, W'.
  assert (forall x y, get_chip_at m x y = get_chip_at m' x y) as G.
  { intros x y. destruct (get_chip_at m x y) as [ch|] eqn:E.
    - symmetry. apply get_chip_in; auto. apply get_chip_in in E as [H E]; auto. split; auto.
      apply (Permutation_in _ P). auto.
    - symmetry. apply get_chip_none; auto. apply get_chip_none in E; auto. intros H. apply E.
      apply (Permutation_in _ (Permutation_map c_xy (Permutation_sym P))). auto. }
  assert (forall p, dget xy_eqb (m_chips m) p = dget xy_eqb (m_chips m') p) as G2.
  { intros [x y]. apply G. }
  assert (forall p, contains m p = contains m' p) as C.
  { intros p. unfold contains, dmem. rewrite G2. reflexivity. }
  assert (forall x y l, is_link_at m x y l = is_link_at m' x y l) as L.
  { intros x y l. unfold is_link_at. rewrite G2. reflexivity. }
  assert (forall x y, m_xys m x y = m_xys m' x y) as XY.
  { intros x y. unfold m_xys. congruence. }
  assert (Permutation (chip_coordinates m) (chip_coordinates m')) as PC.
  { unfold chip_coordinates. rewrite !keys_xy by auto. apply Permutation_map. auto. }
  assert (Permutation (m_eth m) (m_eth m')) as PE.
  { rewrite (wf_eth m W), (wf_eth m' W'). apply filter_perm. auto. }
  assert (forall x y, m_existing m x y = m_existing m' x y) as EX.
  { intros x y. unfold m_existing. rewrite K1, K2, K3, K4, !existing_filter. apply filter_same. intros p. apply C. }
  assert (forall p, getitem m p = getitem m' p) as GI.
  { intros p. unfold getitem, dgetitem. rewrite G2. reflexivity. }
  assert (forall ch, m_local m ch = m_local m' ch) as ML by (intros; unfold m_local; congruence).
  constructor; auto.
  - intros x y. unfold is_chip_at. apply (C (x, y)).
  - apply (GI (0, 0)).
  - assert (forall a, m_boot m = Some a <-> m_boot m' = Some a) as B.
    { intros a. rewrite (wf_boot m W), (wf_boot m' W').
      split; intros (ch & H & E); exists ch; split; auto;
        [apply (Permutation_in _ P)|apply (Permutation_in _ (Permutation_sym P))]; auto. }
    destruct (m_boot m) as [a|]; [symmetry; apply B; auto|].
    destruct (m_boot m') as [a|]; auto. apply B. auto.
  - intros x y. unfold m_down. rewrite K1, K2, K3, K4, !down_filter. apply filter_same. intros p. rewrite C. auto.
  - intros x y. unfold get_chips_by_ethernet. rewrite EX. apply map_res_same. intros p. apply GI.
  - apply Permutation_length in PC. unfold n_chips. unfold chip_coordinates, dkeys in PC.
    rewrite !map_length in PC. congruence.
  - unfold get_cores_count. rewrite (wf_cores m W), (wf_cores m' W'). apply zsum_perm, Permutation_map. auto.
  - apply zsum_perm, Permutation_map. auto.
  - apply zsum_perm, Permutation_map. auto.
  - unfold get_links_count_doubled. rewrite (wf_links m W), (wf_links m' W'). apply zsum_perm, Permutation_map. auto.
  - destruct (C27_router_entries v m M) as [A1 A2], (C27_router_entries v' m' M') as [B1 B2].
    destruct (chips m) as [|ch l] eqn:E.
    + rewrite A1 by auto. apply Permutation_nil in P. rewrite B1 by auto. reflexivity.
    + assert (chips m' <> []) as NE.
      { intros X. rewrite X in P. apply Permutation_sym, Permutation_nil in P. discriminate. }
      destruct A2 as (n & -> & (x & Hx & Ex) & F); [discriminate|].
      destruct (B2 NE) as (n' & -> & (x' & Hx' & Ex') & F').
      pose proof (F' x (Permutation_in _ P Hx)). pose proof (F x' (Permutation_in _ (Permutation_sym P) Hx')).
      f_equal. lia.
  - intros u. destruct (validate_spec u m W) as [V1 V2], (validate_spec u m' W') as [V1' V2'].
    assert (well_formed u m <-> well_formed u m') as WF.
    { unfold well_formed. rewrite G. unfold ethernet_connected_chips. rewrite (Permutation_length PE).
      assert (forall ch, chip_well_formed u m ch <-> chip_well_formed u m' ch) as CW.
      { intros ch. unfold chip_well_formed. unfold local_xys. rewrite K2, K3, K4, ML, G. tauto. }
      split; intros (Q1 & Q2 & Q3); (split; [exact Q1|split; [exact Q2|]]); intros ch H; apply CW, Q3.
      - apply (Permutation_in _ (Permutation_sym P)). auto.
      - apply (Permutation_in _ P). auto. }
    destruct V2 as [V2|V2]; rewrite V2.
    + symmetry. apply V1', WF, V1. auto.
    + destruct V2' as [V2'|V2']; [|congruence]. exfalso. apply V1', WF, V1 in V2'. congruence.
  - intros H. pose proof H as H'. rewrite K3 in H'.
    destruct (unused_spec m W H) as (p & -> & Q1 & Q2 & Q3 & Q4).
    destruct (unused_spec m' W' H') as (p' & -> & R1 & R2 & R3 & R4).
    assert (forall q, used m q <-> used m' q) as U.
    { assert (forall q l, In q (flat_map (fun e => m_xys m (c_x e) (c_y e)) l) <->
        In q (flat_map (fun e => m_xys m' (c_x e) (c_y e)) l)) as FM.
      { intros q l. rewrite !in_flat_map. split; intros (e & He & X); exists e; split; auto; rewrite ?XY in *; auto. }
      intros q. unfold used, boards_xys. rewrite FM.
      split; intros [X|X]; [left|right|left|right].
      - apply (Permutation_in _ (Permutation_map c_xy P)). auto.
      - apply (Permutation_in _ (Permutation_flat_map _ PE)). auto.
      - apply (Permutation_in _ (Permutation_map c_xy (Permutation_sym P))). auto.
      - apply (Permutation_in _ (Permutation_flat_map _ (Permutation_sym PE))). auto. }
    f_equal. apply (unused_unique m p p'); auto.
    + rewrite K3. auto.
    + rewrite U. auto.
    + intros x y X Y Z. apply U. apply R4; auto. rewrite <- K3. auto.
  - unfold unreachable_outgoing_chips.
    erewrite filter_same; [apply filter_perm, PC|].
    intros p. cbv beta. f_equal. apply exists_same. intros l. apply L.
  - unfold unreachable_incoming_chips.
    erewrite filter_same; [apply filter_perm, PC|].
    intros p. cbv beta. f_equal. apply exists_same. intros [l mv]. apply L.
  - unfold unreachable_outgoing_local_chips. apply Permutation_map.
    erewrite filter_same; [apply filter_perm, P|].
    intros ch. cbv beta. f_equal. apply exists_same. intros [l mv]. rewrite G2. reflexivity.
  - unfold unreachable_incoming_local_chips. apply Permutation_map.
    erewrite filter_same; [apply filter_perm, P|].
    intros ch. cbv beta. f_equal. apply exists_same. intros [l mv]. rewrite G2. reflexivity.
  - unfold one_way_links. erewrite flat_map_ext; [apply Permutation_flat_map, P|].
    intros ch. cbv beta. apply flat_map_ext. intros [o b]. destruct (get_link (c_router ch) o); auto.
    rewrite L. reflexivity.
Qed.

Lemma nodup_front {A} (a b : list A) : NoDup (a ++ b) -> NoDup a.
Proof. induction a as [|x a IH]; intros H; [constructor|]. inversion H; subst.
  constructor; auto. intros X. apply H2. apply in_or_app. auto. Qed.

Lemma book_adds calls : forall seen, Forall (fun e => e = None) (snd (book seen calls)) ->
  fst (book seen calls) = seen ++ flat_map adds calls.
Proof.
  assert (forall cs seen, snd (enter_all seen cs) = None -> fst (enter_all seen cs) = seen ++ cs) as EA.
  { induction cs as [|c cs IH]; intros seen H; cbn [enter_all] in *; [rewrite app_nil_r; auto|].
    unfold enter in *. destruct (existsb (at_xy (c_x c) (c_y c)) seen); [discriminate|].
    rewrite (IH _ H), <- app_assoc. reflexivity. }
  induction calls as [|a calls IH]; intros seen F; cbn [book flat_map] in *; [rewrite app_nil_r; auto|].
  destruct (book_exec seen a) as [s1 e] eqn:E. specialize (IH s1). destruct (book s1 calls) as [s2 es].
  cbn [fst snd] in *. inversion F as [|? ? H F']; subst. rewrite (IH F'), app_assoc. f_equal.
  destruct a as [c|cs| |]; cbn [book_exec adds] in *.
  - unfold enter in E. destruct (existsb _ seen); injection E as; subst; congruence.
  - pose proof (EA cs seen) as K. rewrite E in K. apply K. reflexivity.
  - rewrite app_nil_r. congruence.
  - rewrite app_nil_r. congruence.
Qed.

(** Chips can be added in any order, one by one or several at a time: if no call
    raises anything, only the order of lists shows it. *)
Theorem C68_order_of_adding :
  forall v v' k w h ccm origin origin' calls calls',
    let '(m, outcomes) := history v (new_machine k w h ccm origin) calls in
    let '(m', outcomes') := history v' (new_machine k w h ccm origin') calls' in
    Forall (fun e => e = None) outcomes -> Forall (fun e => e = None) outcomes' ->
    Permutation (flat_map adds calls) (flat_map adds calls') ->
    looks_same m m'.
Proof.
  intros v v' k w h ccm o o' calls calls'.
  pose proof (history_wf v calls (new_machine k w h ccm o) (wf_new k w h ccm o)) as H.
  pose proof (history_wf v' calls' (new_machine k w h ccm o') (wf_new k w h ccm o')) as H'.
  assert (made v (fst (history v (new_machine k w h ccm o) calls))) as M by (unfold made; eauto 10).
  assert (made v' (fst (history v' (new_machine k w h ccm o') calls'))) as M' by (unfold made; eauto 10).
  destruct (history v (new_machine k w h ccm o) calls) as [m es].
  destruct (history v' (new_machine k w h ccm o') calls') as [m' es'].
  destruct H as (W & B & Q1 & Q2 & Q3 & Q4 & _), H' as (W' & B' & Q1' & Q2' & Q3' & Q4' & _).
  change (chips (new_machine k w h ccm o)) with (@nil chip) in B.
  change (chips (new_machine k w h ccm o')) with (@nil chip) in B'.
  intros F F' P. cbn [fst] in M, M'.
  cbn [new_machine m_kind m_width m_height m_ccm] in *.
  apply (perm_looks v v'); [exact M|exact M'|congruence|congruence|congruence|congruence|].
  pose proof (book_adds calls []) as A. rewrite B in A. cbn [fst snd app] in A. rewrite (A F).
  pose proof (book_adds calls' []) as A'. rewrite B' in A'. cbn [fst snd app] in A'. rewrite (A' F'). auto.
Qed.
Print Assumptions C68_order_of_adding.

(** And whether an exception is raised does not depend on the order either: all chips
    can be added iff no two of them are at the same place. *)
Theorem C68_no_exception :
  forall v k w h ccm origin calls,
    Forall (fun e => e = None) (snd (history v (new_machine k w h ccm origin) calls)) <->
    NoDup (map c_xy (flat_map adds calls)).
Proof.
  intros v k w h ccm o calls.
  pose proof (history_wf v calls (new_machine k w h ccm o) (wf_new k w h ccm o)) as H.
  destruct (history v (new_machine k w h ccm o) calls) as [m es]. destruct H as (W & B & _).
  change (chips (new_machine k w h ccm o)) with (@nil chip) in B. cbn [snd].
  split.
  - intros F. pose proof (book_adds calls []) as A. rewrite B in A. cbn [fst snd app] in A.
    rewrite <- (A F). apply W.
  - assert (forall c seen, existsb (at_xy (c_x c) (c_y c)) seen = true <-> In (c_xy c) (map c_xy seen)) as AT.
    { intros c seen. rewrite existsb_exists, in_map_iff. unfold at_xy, c_xy.
      split; intros (d & X1 & X2); exists d; [|split; [auto|]].
      - apply andb_true_iff in X2 as [X2 X3]. split; auto. apply Z.eqb_eq in X2, X3. congruence.
      - injection X1 as -> ->. rewrite !Z.eqb_refl. auto. }
    assert (forall cs seen, NoDup (map c_xy (seen ++ cs)) -> enter_all seen cs = (seen ++ cs, None)) as EA.
    { induction cs as [|c cs IH]; intros seen N; cbn [enter_all]; [rewrite app_nil_r; auto|].
      unfold enter. assert (existsb (at_xy (c_x c) (c_y c)) seen = false) as ->.
      { destruct (existsb _ seen) eqn:X; auto. exfalso. apply AT in X. rewrite map_app in N. cbn [map] in N.
        apply NoDup_remove_2 in N. apply N. apply in_or_app. auto. }
      rewrite IH; rewrite <- app_assoc; auto. }
    assert (forall calls seen, NoDup (map c_xy (seen ++ flat_map adds calls)) ->
      Forall (fun e => e = None) (snd (book seen calls))) as K.
    { clear calls B. induction calls as [|a calls IH]; intros seen N; cbn [book]; [constructor|].
      assert (book_exec seen a = (seen ++ adds a, None)) as ->.
      { cbn [flat_map] in N. rewrite app_assoc, map_app in N. apply nodup_front in N.
        destruct a as [c|cs| |]; cbn [book_exec adds] in *.
        - pose proof (EA [c] seen N) as X. cbn [enter_all] in X. unfold enter in *.
          destruct (existsb _ seen); auto.
        - apply EA. auto.
        - rewrite app_nil_r. auto.
        - rewrite app_nil_r. auto. }
      specialize (IH (seen ++ adds a)). destruct (book (seen ++ adds a) calls) as [s2 es2]. cbn [snd] in *.
      constructor; auto. apply IH. rewrite <- app_assoc. exact N. }
    intros N. pose proof (K calls [] N) as F. rewrite B in F. exact F.
Qed.
Print Assumptions C68_no_exception.

Definition order_chip (x y : Z) (ip : option string) : chip :=
  new_chip x y [0] [1; 2] (mkRouter [(0, mkLink x y 0 (x + 1) y)] 1023) 100 0 0 ip None None.

Example C68_case :
  let cs := [order_chip 0 0 (Some "1.2.3.4"%string); order_chip 1 0 None; order_chip 2 0 None] in
  let calls := map CallAddChip cs in
  let calls' := [CallAddChips (rev cs)] in
  let m := new_machine NoWrap 8 8 (chip_core_map V5) "Test" in
  Forall (fun e => e = None) (snd (history V5 m calls)) /\
  Forall (fun e => e = None) (snd (history V5 m calls')) /\
  Permutation (flat_map adds calls) (flat_map adds calls') /\
  chips (fst (history V5 m calls)) <> chips (fst (history V5 m calls')).
Proof.
  cbv zeta. split; [repeat constructor|]. split; [repeat constructor|]. split.
  - cbn [map flat_map adds app]. etransitivity; [apply Permutation_rev|reflexivity].
  - vm_compute. discriminate.
Qed.
