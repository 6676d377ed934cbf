(** Repair takes nothing away that down items could not. *)
From Coq Require Import Lia ZifyBool String Sorted.
From Verif Require Import Model_Py Model_Wrap Model_Float Model_Geometry Model_Version Model_Core
  Model_Machine Model_Str Model_Ignore Model_Virtual Model_Repair
  Spec_Hops Spec_Board Spec_Version Spec_Machine Spec_Boards Spec_Router Spec_Repair Spec_Str Spec_Virtual Spec_Items Spec_Again
  Proof_Wrap Proof_Py Proof_Board Proof_Version Proof_Machine Proof_Report Proof_Str Proof_Virtual
  Proof_VirtualMachine Proof_Items Proof_Repair Proof_RepairEnd.
Open Scope list_scope.
Open Scope Z_scope.

(** ** Chips with some of their links *)
Definition cutc (pl : XY -> Z -> bool) (ch : chip) : chip :=
  mkChip (c_x ch) (c_y ch) (c_scamp ch) (c_placable ch)
    (mkRouter (map (fun l => (l_source_link_id l, l))
       (filter (fun l => pl (c_xy ch) (l_source_link_id l)) (router_links (c_router ch))))
      (r_entries (c_router ch)))
    (c_sdram ch) (c_eth_x ch) (c_eth_y ch) (c_ip ch) (c_tags ch) None.

Lemma cutc_xy pl ch : c_xy (cutc pl ch) = c_xy ch.
Proof. reflexivity. Qed.

Lemma cutc_links pl ch : router_links (c_router (cutc pl ch)) =
  filter (fun l => pl (c_xy ch) (l_source_link_id l)) (router_links (c_router ch)).
Proof. unfold router_links at 1, dvalues. cbn [cutc c_router r_links]. rewrite map_map. cbn. apply map_id. Qed.

Lemma filter_filter {A} (f g : A -> bool) l : filter f (filter g l) = filter (fun a => g a && f a) l.
Proof.
  induction l as [|a l IH]; cbn; auto. destruct (g a); cbn; [destruct (f a); congruence|auto].
Qed.

Lemma filter_all {A} (f : A -> bool) l : (forall a, In a l -> f a = true) -> filter f l = l.
Proof.
  induction l as [|a l IH]; intros H; cbn; auto. rewrite (H a) by (left; auto). f_equal. apply IH.
  intros; apply H; right; auto.
Qed.

Lemma cutc_id pl ch : proper ch -> c_parent ch = None ->
  (forall l, In l (router_links (c_router ch)) -> pl (c_xy ch) (l_source_link_id l) = true) -> cutc pl ch = ch.
Proof.
  intros [[R N] _] P H. unfold cutc. rewrite filter_all by auto. rewrite <- R. rewrite <- P. destruct ch as [x y s p r d ex ey ip t pa].
  cbn. destruct r. reflexivity.
Qed.

Lemma touched_gone dl p l : touched dl p = false -> gone dl p l = false.
Proof.
  destruct p as [x y]. intros T. destruct (gone dl (x, y) l) eqn:G; auto. apply gone_spec in G as [b G].
  assert (touched dl (x, y) = true) by (apply touched_spec; eauto). congruence.
Qed.

Lemma reduce_cutc dl pl ch :
  reduce dl (cutc pl ch) = cutc (fun p l => pl p l && negb (gone dl p l)) ch.
Proof.
  unfold reduce. rewrite cutc_xy, cutc_links.
  destruct (touched dl (c_xy ch)) eqn:T.
  - rewrite filter_filter. reflexivity.
  - unfold cutc. do 3 f_equal. apply filter_ext. intros l. rewrite (touched_gone _ _ _ T). rewrite andb_true_r. reflexivity.
Qed.

(** [n] is [m] with some of its chips and links. *)
Definition cut_of (m n : machine) (pc : XY -> bool) (pl : XY -> Z -> bool) : Prop :=
  chips n = map (cutc pl) (filter (fun ch => pc (c_xy ch)) (chips m)).

Lemma filter_map {A B} (f : B -> bool) (g : A -> B) l : filter f (map g l) = map g (filter (fun a => f (g a)) l).
Proof. induction l as [|a l IH]; cbn; auto. destruct (f (g a)); cbn; congruence. Qed.

Lemma cut_next repair v m n removed n' pc pl : good n -> cut_of m n pc pl ->
  repair_step repair v n removed = Ok (Some n') -> exists pc' pl', cut_of m n' pc' pl'.
Proof.
  intros [W F] C E. destruct (step_next _ _ _ _ _ W F E) as (_ & _ & _ & _ & S & _).
  exists (fun p => pc p && negb (xymem (round_chips repair n) p)),
    (fun p l => pl p l && negb (gone (round_links repair n removed) p l)).
  unfold cut_of in *. rewrite S. unfold survivors. rewrite C, filter_map, map_map, filter_filter.
  etransitivity; [apply map_ext; intros ch; apply reduce_cutc|]. do 2 f_equal.
Qed.

(** ** The machine of its chips *)
Definition of_chips (v : vid) (w h : Z) (o : string) (cs : list chip) (m : machine) : Prop :=
  exists m2, add_spinnaker_links v
      (fst (history v (new_machine (machine_class v w h) w h (chip_core_map v) o) (map CallAddChip cs))) = Ok m2 /\
    add_fpga_links v m2 = Ok m.

Lemma ignore_of_chips v m dc dl n : wf m -> Forall proper (chips m) -> machine_ignore v m dc dl = Ok n ->
  of_chips v (m_width m) (m_height m) "Fixed" (chips n) n.
Proof.
  intros W F. unfold machine_ignore.
  destruct (verify_raises v (Some (m_width m)) (Some (m_height m))) as [VS|VS].
  2: { unfold create_machine. rewrite VS. discriminate. }
  assert (supported v (m_width m) (m_height m)) as S by (apply verify_supported; auto).
  rewrite create_some by auto. cbn [bind].
  set (n0 := new_machine _ _ _ _ _).
  destruct (ignore_fold dc dl v (chips m) n0 (wf_new _ _ _ _ _) F) as
    (n1 & E1 & W1 & C1 & K1 & K2 & K3 & K4 & K5 & K6); [apply W|].
  rewrite E1. cbn [bind].
  destruct (add_spin_same v n1 W1) as (n2 & E2 & S2). rewrite E2. cbn [bind].
  assert (wf n2) as W2 by (eapply same_wf; eauto).
  destruct (add_fpga_same v n2 W2) as (n3 & E3 & S3). rewrite E3. cbn [bind].
  assert (same_but_links n1 n3) as S13 by (eapply same_trans; eauto).
  intros E. destruct (validate v n3); [|discriminate E]. cbn [bind] in E. apply Ok_inj in E. subst n3.
  assert (chips n = survivors dc dl (chips m)) as C3.
  { rewrite (same_chips _ _ S13), C1. reflexivity. }
  exists n2. rewrite C3. fold n0. rewrite K6. auto.
Qed.

(** ** The origin does not matter *)
Lemma origin_add o m c : add_chip (with_origin o m) c =
  match add_chip m c with Ok n => Ok (with_origin o n) | Err e => Err e end.
Proof.
  unfold add_chip. cbn [with_origin m_chips]. destruct (dmem xy_eqb (m_chips m) (c_xy c)); [reflexivity|].
  destruct (c_ip c); reflexivity.
Qed.

Lemma origin_history o v cs : forall m,
  fst (history v (with_origin o m) (map CallAddChip cs)) = with_origin o (fst (history v m (map CallAddChip cs))).
Proof.
  induction cs as [|c cs IH]; intros m; [reflexivity|]. cbn [map history exec].
  rewrite origin_add. destruct (add_chip m c) as [n|e].
  - specialize (IH n). destruct (history v (with_origin o n) _), (history v n _). exact IH.
  - specialize (IH m). destruct (history v (with_origin o m) _), (history v m _). exact IH.
Qed.

Lemma fold_origin {A} o (f : machine -> A -> machine) l :
  (forall m a, f (with_origin o m) a = with_origin o (f m a)) ->
  forall m, fold_left f l (with_origin o m) = with_origin o (fold_left f l m).
Proof. intros H. induction l as [|a l IH]; intros m; cbn [fold_left]; auto. rewrite H. apply IH. Qed.

Lemma fold_res_origin {A} o (f : machine -> A -> res machine) l :
  (forall m a, f (with_origin o m) a = match f m a with Ok n => Ok (with_origin o n) | Err e => Err e end) ->
  forall m, fold_res f l (with_origin o m) =
    match fold_res f l m with Ok n => Ok (with_origin o n) | Err e => Err e end.
Proof.
  intros H. induction l as [|a l IH]; intros m; cbn [fold_res]; auto. rewrite H.
  destruct (f m a); cbn [bind]; auto.
Qed.

Lemma origin_spin o v m : add_spinnaker_links v (with_origin o m) =
  match add_spinnaker_links v m with Ok n => Ok (with_origin o n) | Err e => Err e end.
Proof.
  unfold add_spinnaker_links. cbn [with_origin m_eth]. apply fold_res_origin. intros n e.
  destruct (c_ip e) as [ip|]; [|reflexivity]. f_equal. apply fold_origin. intros k [s [[lx ly] l]].
  unfold add_spinnaker_step, m_global, get_chip_at. cbn [with_origin m_kind m_width m_height m_chips].
  destruct (get_global_xy _ _ _ _ _ _ _) as [gx gy]. destruct (dget xy_eqb (m_chips k) (gx, gy)); [|reflexivity].
  destruct (negb _); reflexivity.
Qed.

Lemma origin_fpga o v m : add_fpga_links v (with_origin o m) =
  match add_fpga_links v m with Ok n => Ok (with_origin o n) | Err e => Err e end.
Proof.
  unfold add_fpga_links. cbn [with_origin m_eth]. apply fold_res_origin. intros n e.
  destruct (c_ip e) as [ip|]; [|reflexivity]. f_equal. apply fold_origin. intros k [[[[lx ly] l] fi] fl].
  unfold add_fpga_step, m_global, get_chip_at. cbn [with_origin m_kind m_width m_height m_chips].
  destruct (get_global_xy _ _ _ _ _ _ _) as [gx gy]. destruct (dget xy_eqb (m_chips k) (gx, gy)); reflexivity.
Qed.

Lemma origin_validate o v m : validate v (with_origin o m) = validate v m.
Proof.
  unfold validate. cbn [with_origin m_boot m_eth]. destruct (m_boot m); auto.
Qed.

Lemma of_chips_origin v w h o o' cs m : of_chips v w h o cs m -> of_chips v w h o' cs (with_origin o' m).
Proof.
  intros (m2 & E2 & E3). exists (with_origin o' m2).
  change (new_machine (machine_class v w h) w h (chip_core_map v) o')
    with (with_origin o' (new_machine (machine_class v w h) w h (chip_core_map v) o)).
  rewrite origin_history, origin_spin, E2, origin_fpga, E3. auto.
Qed.

Lemma of_chips_det v w h o cs m m' : of_chips v w h o cs m -> of_chips v w h o cs m' -> m = m'.
Proof.
  intros (m2 & E2 & E3) (m2' & E2' & E3'). rewrite E2 in E2'. apply Ok_inj in E2'. subst m2'.
  rewrite E3 in E3'. apply Ok_inj in E3'. auto.
Qed.

(** ** The chips *)
Lemma conf_filter v w h u mx eths :
  conf_list v w h u mx eths = filter (fun en => negb (xymem u (fst en))) (conf_list v w h [] mx eths).
Proof.
  assert (forall {A B} (f : B -> bool) (g : A -> list B) l, filter f (flat_map g l) = flat_map (fun a => filter f (g a)) l) as FF.
  { intros A B' f g. induction l as [|a l IH]; cbn; auto. rewrite filter_app. congruence. }
  unfold conf_list. rewrite FF. apply flat_map_ext. intros e. unfold entries_of. rewrite FF.
  apply flat_map_ext. intros dn. cbn [xymem existsb filter fst]. destruct (xymem u (spot v w h (fst dn) e)); reflexivity.
Qed.

Lemma filter_ext_in' {A} (f g : A -> bool) l : (forall a, In a l -> f a = g a) -> filter f l = filter g l.
Proof.
  induction l as [|a l IH]; intros H; cbn; auto. rewrite (H a) by (left; auto).
  rewrite IH; auto. intros; apply H; right; auto.
Qed.

Lemma in_unused x y dch : In (x, y) (virtual_unused_chips dch) <-> In (mkIgnoreChip x y None) dch.
Proof.
  unfold virtual_unused_chips. rewrite in_flat_map. split.
  - intros ([cx cy [a|]] & H & K); cbn in K; [destruct K|]. destruct K as [K|[]]. injection K as -> ->. exact H.
  - intros H. eexists. split; [exact H|]. left. reflexivity.
Qed.

Lemma in_unused_links x y l dl w : In (x, y, l) (virtual_unused_links dl w) <->
  In (mkIgnoreLink x y l None) dl \/ In (x, y, l) (if w =? 2 then FOUR_CHIP_DOWN_LINKS else []).
Proof.
  unfold virtual_unused_links. rewrite in_app_iff, in_flat_map. split; intros [H|H]; auto; left.
  - destruct H as ([cx cy cl [a|]] & H & K); cbn in K; [destruct K|]. destruct K as [K|[]]. injection K as -> -> ->. exact H.
  - eexists. split; [exact H|]. left. reflexivity.
Qed.

Section Chips.
Context {c : config} {V : version} {w h : Z} {m : machine} {dch : list ignore_chip}
  {dco : list ignore_core} {dl : list ignore_link}.
Hypothesis B : built c V w h m dch dco dl.
Context {m' : machine} {pc : XY -> bool} {pl : XY -> Z -> bool}.
Hypothesis W' : wf m'.
Hypothesis C : cut_of m m' pc pl.
(** no link leads nowhere *)
Hypothesis D : forall x y l q, is_link_at m' x y l = true -> m_over m x y l = Ok q ->
  is_chip_at m' (fst q) (snd q) = true.
Context {dch' : list ignore_chip} {dl' : list ignore_link}.
Hypothesis HC : forall x y, 0 <= x < w -> 0 <= y < h ->
  In (mkIgnoreChip x y None) dch' <-> is_chip_at m' x y = false.
Hypothesis HL : forall x y l, is_chip_at m' x y = true -> 0 <= l < 6 ->
  In (mkIgnoreLink x y l None) dl' <-> is_link_at m' x y l = false.
Let v := v_id V.
Let ul := virtual_unused_links dl w.
Let ul' := virtual_unused_links dl' w.

Lemma chips_again eths uc :
  let conf := conf_list v w h (virtual_unused_chips dch) (max_cores_per_chip V) eths in
  let conf' := conf_list v w h (virtual_unused_chips dch') (max_cores_per_chip V) eths in
  layout v w h eths ->
  chips m = map (vchip V (start v w h) uc ul eths conf) conf ->
  chips m' = map (vchip V (start v w h) uc ul' eths conf') conf'.
Proof using B W' C D HC HL.
  intros conf conf' L CM.
  set (full := conf_list v w h [] (max_cores_per_chip V) eths).
  assert (good_size (machine_class v w h) w h) as GS by (apply good_supported; apply B).
  assert (forall p, is_chip_at m' (fst p) (snd p) = true <-> In p (map c_xy (chips m'))) as PR.
  { intros [x y]. unfold is_chip_at. rewrite (dmem_in xy_eqb xyeqb_eq). rewrite (wf_chips m' W').
    unfold dkeys. rewrite map_map. cbn [fst]. tauto. }
  assert (map c_xy (chips m') = filter pc (dkeys conf)) as KX.
  { unfold cut_of in C. rewrite C, map_map, CM, filter_map.
    etransitivity; [apply map_ext; intros; apply cutc_xy|].
    rewrite map_map. etransitivity; [apply map_ext; intros; apply vchip_xy|]. unfold dkeys. rewrite filter_map.
    f_equal. apply filter_ext. intros en. rewrite vchip_xy. reflexivity. }
  assert (forall p, In p (dkeys full) -> inside w h p) as IN.
  { intros p H. unfold dkeys in H. apply in_map_iff in H as ([p' [e n]] & <- & H). cbn [fst].
    apply in_conf in H as (He & d & k & Hd & -> & _). apply (lay_inside _ _ _ _ L); auto. apply expected_in. eauto. }
  assert (forall p, In p (dkeys conf) <-> In p (dkeys full) /\ ~ In p (virtual_unused_chips dch)) as CF.
  { intros p. unfold conf. rewrite conf_filter. fold full. unfold dkeys. rewrite !in_map_iff. split.
    - intros (en & <- & H). apply filter_In in H as [H X]. split; [eauto|]. intros Y. apply xymem_in in Y. rewrite Y in X. discriminate X.
    - intros [(en & <- & H) N]. exists en. split; auto. apply filter_In. split; auto.
      destruct (xymem _ (fst en)) eqn:X; auto. apply xymem_in in X. tauto. }
  assert (forall p, In p (dkeys full) -> is_chip_at m' (fst p) (snd p) = true <->
            pc p = true /\ ~ In p (virtual_unused_chips dch)) as PP.
  { intros p H. rewrite PR, KX, filter_In, CF. tauto. }
  assert (conf' = filter (fun en => pc (fst en)) conf) as CE.
  { unfold conf', conf. rewrite (conf_filter v w h (virtual_unused_chips dch')), (conf_filter v w h (virtual_unused_chips dch)).
    fold full. rewrite filter_filter. apply filter_ext_in'. intros [p en] H. cbn [fst].
    assert (In p (dkeys full)) as Hp by (unfold dkeys; apply in_map_iff; exists (p, en); auto).
    pose proof (PP p Hp) as Q. destruct p as [x y]. cbn [fst snd] in Q.
    destruct (IN _ Hp) as [I1 I2]. cbn [fst snd] in I1, I2.
    pose proof (HC x y I1 I2) as HQ. rewrite <- in_unused in HQ. rewrite <- xymem_in in HQ. rewrite <- xymem_in in Q.
    destruct (xymem (virtual_unused_chips dch') (x, y)), (xymem (virtual_unused_chips dch) (x, y)), (pc (x, y)),
      (is_chip_at m' x y); cbn [negb andb]; try reflexivity; exfalso; intuition congruence. }
  assert (forall p, In p (dkeys conf') <-> is_chip_at m' (fst p) (snd p) = true) as CK.
  { intros p. rewrite PR, KX, CE. unfold dkeys. rewrite <- filter_map. tauto. }
  unfold cut_of in C. rewrite C, CM, filter_map, map_map.
  replace (filter (fun a => pc (c_xy (vchip V (start v w h) uc ul eths conf a))) conf) with conf'.
  2: { rewrite CE. apply filter_ext. intros en. rewrite vchip_xy. reflexivity. }
  apply map_ext_in. intros [[x y] [e n]] H.
  assert (is_chip_at m' x y = true) as HP.
  { apply (CK (x, y)). unfold dkeys. apply in_map_iff. exists ((x, y), (e, n)). auto. }
  unfold cutc, vchip. cbn [new_chip c_x c_y c_scamp c_placable c_router c_sdram c_eth_x c_eth_y c_ip c_tags c_parent fst snd c_xy].
  unfold new_chip. cbn [vrouter r_entries]. f_equal. unfold vrouter. f_equal. f_equal.
  unfold router_links, dvalues. cbn [r_links]. rewrite map_map. cbn [snd]. rewrite map_id.
  (* the links of the chip *)
  assert (get_chip_at m' x y = Some (cutc pl (vchip V (start v w h) uc ul eths conf ((x, y), (e, n))))) as GC.
  { apply get_chip_in; auto. split; [|reflexivity].
    rewrite C, CM, filter_map, map_map. apply in_map_iff. exists ((x, y), (e, n)). split; auto.
    rewrite CE in H. apply filter_In in H as [H1 H2]. apply filter_In. split; auto. }
  unfold vlinks_from. cbn [fst snd].
  change (m_kind (start v w h)) with (machine_class v w h). change (m_width (start v w h)) with w.
  change (m_height (start v w h)) with h.
  assert (forall {A B0} (f : B0 -> bool) (g : A -> list B0) l, filter f (flat_map g l) = flat_map (fun a => filter f (g a)) l) as FF.
  { intros A B0 f g. induction l as [|a l IH]; cbn; auto. rewrite filter_app. congruence. }
  rewrite FF.
  assert (forall ls, (forall l, In l ls -> 0 <= l < 6) -> forall g g' : Z -> list link, (forall l, 0 <= l < 6 -> g l = g' l) ->
    flat_map g ls = flat_map g' ls) as FE.
  { induction ls as [|l ls IH]; intros R g g' G; cbn; auto. rewrite (G l), (IH) with (g' := g'); auto.
    - intros; apply R; right; auto.
    - apply R; left; auto. }
  apply FE; [intros l Hl; apply in_zrange in Hl; lia|]. intros l Hl.
  set (d := red (machine_class v w h) w h (vadd (x, y) (link_vec l))).
  assert (m_over m x y l = Ok d) as OV.
  { unfold m_over. rewrite (b_kind _ _ _ _ _ _ _ _ B), (b_width _ _ _ _ _ _ _ _ B), (b_height _ _ _ _ _ _ _ _ B).
    fold v. apply over_red; auto. }
  assert (is_link_at m' x y l = true <-> pl (x, y) l = true /\ link_mem ul (x, y, l) = false /\ dmem xy_eqb conf d = true) as LK.
  { unfold is_link_at. unfold get_chip_at in GC. rewrite GC.
    unfold cutc, is_link. cbn [c_router r_links]. rewrite (dmem_in Z.eqb Z.eqb_eq).
    unfold dkeys at 1. rewrite map_map. cbn [fst]. rewrite in_map_iff. split.
    - intros (k & K1 & K2). apply filter_In in K2 as [K2 K3]. cbn [vchip new_chip c_router c_xy c_x c_y fst snd] in K2, K3.
      unfold router_links, vrouter, dvalues in K2. cbn [r_links] in K2. rewrite map_map in K2. cbn [snd] in K2. rewrite map_id in K2.
      unfold vlinks_from in K2. apply in_flat_map in K2 as (l' & _ & K2). cbn [fst snd] in K2.
      change (m_kind (start v w h)) with (machine_class v w h) in K2. change (m_width (start v w h)) with w in K2.
      change (m_height (start v w h)) with h in K2.
      destruct (link_mem ul (x, y, l')) eqn:U; [destruct K2|].
      destruct (dmem xy_eqb conf _) eqn:DD; [|destruct K2]. destruct K2 as [K2|[]]. subst k. cbn [l_source_link_id] in K1, K3. subst l'.
      auto.
    - intros (K1 & K2 & K3). exists (mkLink x y l (fst d) (snd d)). split; auto. apply filter_In. split; auto.
      cbn [vchip new_chip c_router]. unfold router_links, vrouter, dvalues. cbn [r_links]. rewrite map_map. cbn [snd]. rewrite map_id.
      unfold vlinks_from. apply in_flat_map. exists l. split; [apply in_zrange; lia|]. cbn [fst snd].
      change (m_kind (start v w h)) with (machine_class v w h). change (m_width (start v w h)) with w.
      change (m_height (start v w h)) with h. rewrite K2. fold d. rewrite K3. left. reflexivity. }
  assert (link_mem ul' (x, y, l) = false /\ dmem xy_eqb conf' d = true <-> is_link_at m' x y l = true) as LK'.
  { pose proof (HL x y l HP Hl) as HQ.
    assert (dmem xy_eqb conf' d = true <-> is_chip_at m' (fst d) (snd d) = true) as DC
      by (rewrite (dmem_in xy_eqb xyeqb_eq); apply CK).
    assert (link_mem ul' (x, y, l) = true <-> In (x, y, l) ul') as M1 by apply link_mem_in.
    assert (link_mem ul (x, y, l) = true <-> In (x, y, l) ul) as M2 by apply link_mem_in.
    unfold ul', ul in M1, M2. rewrite in_unused_links in M1, M2.
    split.
    - intros [K1 K2]. destruct (is_link_at m' x y l) eqn:IL; auto. exfalso.
      assert (link_mem (virtual_unused_links dl' w) (x, y, l) = true) by (apply M1; left; apply HQ; reflexivity).
      unfold ul' in K1. congruence.
    - intros K. pose proof (proj1 LK K) as (K1 & K2 & K3). split.
      + unfold ul'. destruct (link_mem (virtual_unused_links dl' w) (x, y, l)) eqn:E; auto. exfalso.
        destruct (proj1 M1 eq_refl) as [X|X].
        * apply HQ in X. congruence.
        * assert (link_mem (virtual_unused_links dl w) (x, y, l) = true) by (apply M2; auto). unfold ul in K2. congruence.
      + apply DC. apply (D x y l d); auto. }
  rewrite LK in LK'.
  match goal with |- filter ?f _ = _ => assert (forall k, f k = pl (x, y) (l_source_link_id k)) as FP by reflexivity;
    rewrite (filter_ext _ _ FP) end. clear FP.
  destruct (link_mem ul (x, y, l)), (link_mem ul' (x, y, l)), (dmem xy_eqb conf d), (dmem xy_eqb conf' d), (pl (x, y) l) eqn:E5;
    cbn [filter l_source_link_id]; rewrite ?E5; try reflexivity; exfalso; intuition congruence.
Qed.
End Chips.
