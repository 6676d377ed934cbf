From Coq Require Import Lia ZifyBool Permutation Sorted.
From Verif Require Import Model_Py Model_Wrap Model_Float Model_Geometry Model_Version Model_Core
  Model_Machine Model_Str Model_Ignore Model_Virtual
  Spec_Hops Spec_Board Spec_Version Spec_Machine Spec_Boards Spec_Str Spec_Virtual
  Proof_Wrap Proof_Py Proof_Board Proof_Version Proof_Machine Proof_Report Proof_Str Proof_Virtual.
Open Scope list_scope.
Open Scope Z_scope.

Definition down_of (uc : dict XY (list Z)) (xy : XY) : list Z :=
  match dget xy_eqb uc xy with Some s => s | None => [] end.

Definition vcores (uc : dict XY (list Z)) (xy : XY) (n : Z) : list Z :=
  fold_left (fun cores p => if zmem cores p then list_remove cores p else cores)
    (down_of uc xy) (zrange 1 n).

Definition vip (eths : list XY) (xy : XY) : option string :=
  if xymem eths xy then Some (virtual_ip (fst xy) (snd xy)) else None.

Definition vrouter (V : version) (m : machine) (ul : list (Z * Z * Z)) (conf : dict XY (XY * Z))
  (xy : XY) : router :=
  mkRouter (map (fun l => (l_source_link_id l, l)) (vlinks_from m ul conf xy (zrange 0 6)))
    (n_router_entries (v_id V)).

Definition vchip (V : version) (m : machine) (uc : dict XY (list Z)) (ul : list (Z * Z * Z))
  (eths : list XY) (conf : dict XY (XY * Z)) (en : XY * (XY * Z)) : chip :=
  let '(xy, (e, n)) := en in
  new_chip (fst xy) (snd xy) [0] (vcores uc xy n) (vrouter V m ul conf xy) (max_sdram_per_chip V)
    (fst e) (snd e) (vip eths xy) None None.

Lemma vchip_xy V m uc ul eths conf en : c_xy (vchip V m uc ul eths conf en) = fst en.
Proof. destruct en as [[x y] [e n]]. reflexivity. Qed.

Lemma create_eq V m uc ul eths conf xy e n :
  good_size (m_kind m) (m_width m) (m_height m) -> NoDup (dkeys conf) ->
  In (xy, (e, n)) conf ->
  create_chip V m uc ul conf xy (vip eths xy) = Ok (vchip V m uc ul eths conf (xy, (e, n))).
Proof.
  intros G N H. unfold create_chip. rewrite calculate_eq by auto. cbn [bind].
  rewrite router_eq.
  2: { apply vlinks_nodup. vm_compute. repeat constructor; cbn; intuition discriminate. }
  cbn [bind]. unfold dgetitem. rewrite (in_dget xy_eqb xyeqb_eq conf xy (e, n)) by auto.
  cbn [bind]. reflexivity.
Qed.

Lemma vchip_same V m m' uc ul eths conf en :
  m_kind m' = m_kind m -> m_width m' = m_width m -> m_height m' = m_height m ->
  vchip V m' uc ul eths conf en = vchip V m uc ul eths conf en.
Proof.
  intros E1 E2 E3. destruct en as [xy [e n]]. unfold vchip, vrouter, vlinks_from.
  rewrite E1, E2, E3. reflexivity.
Qed.

Lemma fold_create V m0 uc ul eths conf : wf m0 ->
  good_size (m_kind m0) (m_width m0) (m_height m0) -> NoDup (dkeys conf) ->
  forall l m, wf m -> m_kind m = m_kind m0 -> m_width m = m_width m0 ->
    m_height m = m_height m0 -> m_ccm m = m_ccm m0 ->
    incl l conf -> NoDup (map c_xy (chips m) ++ dkeys l) ->
  exists m1,
    fold_res (fun m xy =>
      do ch <- create_chip V m uc ul conf xy (vip eths xy) ; add_chip m ch) (dkeys l) m = Ok m1 /\
    wf m1 /\ m_kind m1 = m_kind m0 /\ m_width m1 = m_width m0 /\ m_height m1 = m_height m0 /\
    m_ccm m1 = m_ccm m0 /\ m_origin m1 = m_origin m /\ m_spin m1 = m_spin m /\ m_fpga m1 = m_fpga m /\
    chips m1 = chips m ++ map (vchip V m0 uc ul eths conf) l /\
    forall v, fst (history v m (map CallAddChip (map (vchip V m0 uc ul eths conf) l))) = m1.
Proof.
  intros W0 G N. induction l as [|[xy [e n]] l IH]; intros m W K1 K2 K3 K4 I NC.
  - exists m. cbn. rewrite app_nil_r. repeat split; auto; apply W.
  - change (dkeys ((xy, (e, n)) :: l)) with (xy :: dkeys l). cbn [fold_res].
    rewrite (create_eq V m uc ul eths conf xy e n); auto.
    2: { rewrite K1, K2, K3. auto. }
    2: { apply I. left. auto. }
    cbn [bind]. rewrite (vchip_same V m0 m) by auto.
    set (ch := vchip V m0 uc ul eths conf (xy, (e, n))).
    assert (c_xy ch = xy) as CX by apply vchip_xy.
    pose proof (add_chip_wf m ch W) as A.
    destruct (add_chip m ch) as [m'|err] eqn:AE.
    2: { destruct A as [_ A]. rewrite CX in A. exfalso.
         change (dkeys ((xy, (e, n)) :: l)) with (xy :: dkeys l) in NC.
         apply nodup_app_notin in NC. tauto. }
    destruct A as (W' & C' & A1 & A2 & A3 & A4 & A5 & A6 & A7 & _).
    destruct (IH m') as (m1 & E1 & R1 & R2 & R3 & R4 & R5 & R6 & R7 & R8 & R9 & R10); auto; try congruence.
    + intros z Hz. apply I. right. auto.
    + rewrite C', map_app, <- app_assoc. cbn [map app]. rewrite CX. exact NC.
    + exists m1. split; [exact E1|]. repeat (split; [auto; congruence|]). split.
      * rewrite R9, C', <- app_assoc. reflexivity.
      * intros v. cbn [map history exec]. fold ch. rewrite AE.
        specialize (R10 v). destruct (history v m' _) as [m2 es] eqn:Q. exact R10.
Qed.

(** The parts that the cfg gives. *)
Definition cfg_read (c : config) (v : vid) dch dco dl : Prop :=
  parse_chips (cfg_down_chips c) = Ok dch /\ parse_cores v (cfg_down_cores c) = Ok dco /\
  parse_links (cfg_down_links c) = Ok dl.

Definition start (v : vid) (w h : Z) : machine :=
  new_machine (machine_class v w h) w h (chip_core_map v) "Virtual".

Record built (c : config) (V : version) (w h : Z) (m : machine) (dch : list ignore_chip)
  (dco : list ignore_core) (dl : list ignore_link) : Prop := mkBuilt {
  b_sup : supported (v_id V) w h;
  b_read : cfg_read c (v_id V) dch dco dl;
  b_wf : wf m;
  b_kind : m_kind m = machine_class (v_id V) w h;
  b_width : m_width m = w;
  b_height : m_height m = h;
  b_ccm : m_ccm m = chip_core_map (v_id V);
  b_origin : m_origin m = "Virtual"%string;
  b_rest : exists eths uc, layout (v_id V) w h eths /\ virtual_unused_cores dco = Ok uc /\
    let conf := conf_list (v_id V) w h (virtual_unused_chips dch) (max_cores_per_chip V) eths in
    let ul := virtual_unused_links dl w in
    let vcs := map (vchip V (start (v_id V) w h) uc ul eths conf) conf in
    chips m = vcs /\
    exists m1 m2, made_of_chips m1 /\ same_but_links m1 m /\
      m1 = fst (history (v_id V) (start (v_id V) w h) (map CallAddChip vcs)) /\
      add_spinnaker_links (v_id V) m1 = Ok m2 /\ add_fpga_links (v_id V) m2 = Ok m /\
      m_spin m1 = [] /\ m_fpga m1 = []
}.

Lemma virtual_cases c V w h :
  (exists m dch dco dl, built c V w h m dch dco dl /\
     virtual_machine c V w h false = Ok m /\
     virtual_machine c V w h true = (do _ <- validate (v_id V) m ; Ok m) /\
     (forall i, In i dco -> ico_ip i = None -> -17 <= ico_p i)) \/
  ((exists err, forall b, virtual_machine c V w h b = Err err) /\
   (supported (v_id V) w h -> forall dch dco dl, cfg_read c (v_id V) dch dco dl ->
      exists i, In i dco /\ ico_ip i = None /\ ico_p i < -17)).
Proof.
  unfold virtual_machine.
  destruct (verify_raises (v_id V) (Some w) (Some h)) as [VS|VS]; rewrite VS; cbn [bind].
  2: { right. split; [eexists; intros; reflexivity|]. intros S. exfalso.
       apply verify_supported in S. congruence. }
  assert (supported (v_id V) w h) as S by (apply verify_supported; auto).
  rewrite create_some by auto. cbn [bind].
  fold (start (v_id V) w h).
  destruct (parse_chips (cfg_down_chips c)) as [dch|err] eqn:P1; cbn [bind].
  2: { right. split; [eexists; intros; reflexivity|]. intros _ a b d (Q & _). congruence. }
  destruct (parse_cores (v_id V) (cfg_down_cores c)) as [dco|err] eqn:P2; cbn [bind].
  2: { right. split; [eexists; intros; reflexivity|]. intros _ a b d (_ & Q & _). congruence. }
  destruct (unused_cores_spec dco) as [[BAD UE]|[GOOD (uc & UE & US)]]; rewrite UE; cbn [bind].
  { right. split; [eexists; intros; reflexivity|]. intros _ a b d (_ & Q & _).
    replace b with dco by congruence. exact BAD. }
  destruct (parse_links (cfg_down_links c)) as [dl|err] eqn:P3; cbn [bind].
  2: { right. split; [eexists; intros; reflexivity|]. intros _ a b d (_ & _ & Q). congruence. }
  destruct (layout_exists (v_id V) w h S) as [eths L].
  rewrite (lay_eths _ _ _ _ L). cbn [bind].
  pose proof (conf_nodup (v_id V) w h (virtual_unused_chips dch) (max_cores_per_chip V) eths L) as N.
  pose proof (conf_eq (v_id V) w h (virtual_unused_chips dch) (max_cores_per_chip V) eths "Virtual" N) as CE.
  fold (start (v_id V) w h) in CE. rewrite CE. clear CE.
  set (conf := conf_list (v_id V) w h (virtual_unused_chips dch) (max_cores_per_chip V) eths) in *.
  set (ul := virtual_unused_links dl w).
  assert (wf (start (v_id V) w h)) as W0 by apply wf_new.
  destruct (fold_create V (start (v_id V) w h) uc ul eths conf W0) with (l := conf)
    (m := start (v_id V) w h) as (m1 & E1 & W1 & K1 & K2 & K3 & K4 & K5 & K6 & K7 & K8 & K9);
    auto using incl_refl.
  { apply good_supported. auto. }
  unfold vip in E1. rewrite E1. cbn [bind].
  destruct (add_spin_same (v_id V) m1 W1) as (m2 & E2 & S2). rewrite E2. cbn [bind].
  assert (wf m2) as W2 by (eapply same_wf; eauto).
  destruct (add_fpga_same (v_id V) m2 W2) as (m3 & E3 & S3). rewrite E3. cbn [bind].
  assert (wf m3) as W3 by (eapply same_wf; eauto).
  assert (same_but_links m1 m3) as S13 by (eapply same_trans; eauto).
  left. exists m3, dch, dco, dl. split; [|auto].
  pose proof S13 as (T1 & T2 & T3 & T4 & T5 & T6 & T7 & T8 & _).
  cbn [start m_kind m_width m_height m_ccm m_origin new_machine] in K1, K2, K3, K4, K5.
  split; auto; try congruence.
  - repeat split; auto.
  - exists eths, uc. split; auto. split; auto. cbv zeta. fold conf ul. split.
    + rewrite (same_chips _ _ S13), K8. reflexivity.
    + exists m1, m2. split; [|split; [exact S13|repeat split; auto]].
      exists (machine_class (v_id V) w h), w, h, (chip_core_map (v_id V)), "Virtual"%string, (v_id V),
        (map (vchip V (start (v_id V) w h) uc ul eths conf) conf).
      symmetry. apply K9.
Qed.

Lemma virtual_built c V w h b m : virtual_machine c V w h b = Ok m ->
  exists dch dco dl, built c V w h m dch dco dl /\ virtual_machine c V w h false = Ok m /\
     virtual_machine c V w h true = (do _ <- validate (v_id V) m ; Ok m) /\
     (b = true -> validate (v_id V) m = Ok tt) /\
     (forall i, In i dco -> ico_ip i = None -> -17 <= ico_p i).
Proof.
  intros E. destruct (virtual_cases c V w h) as [(m' & dch & dco & dl & B & E1 & E2 & E3)|[[err X] _]].
  - exists dch, dco, dl. destruct b.
    + rewrite E2 in E. destruct (validate (v_id V) m') as [[]|e] eqn:VV; cbn in E; [|discriminate].
      apply Ok_inj in E. subst m'. split; [exact B|]. split; [exact E1|].
      split; [rewrite E2, ?VV; reflexivity|]. split; [intros _; auto|exact E3].
    + rewrite E1 in E. apply Ok_inj in E. subst m'. split; auto. split; auto. split; auto.
      split; auto. discriminate.
  - rewrite X in E. discriminate.
Qed.

(** ** Chips *)
Section Built.
Context {c : config} {V : version} {w h : Z} {m : machine} {dch : list ignore_chip}
  {dco : list ignore_core} {dl : list ignore_link}.
Hypothesis B : built c V w h m dch dco dl.
Let v := v_id V.

Lemma in_unused p : In p (virtual_unused_chips dch) <-> In (mkIgnoreChip (fst p) (snd p) None) dch.
Proof using.
  unfold virtual_unused_chips. rewrite in_flat_map. split.
  - intros ([x y ip] & H & I). cbn in I. destruct ip; [destruct I|]. destruct I as [<-|[]]. exact H.
  - intros H. eexists. split; [exact H|]. cbn. left. destruct p; auto.
Qed.

Lemma map_unique n n' d : In (d, n) (chip_core_map v) -> In (d, n') (chip_core_map v) -> n = n'.
Proof using.
  intros H H'. pose proof (expected_nodup v) as N. unfold expected_xys in N.
  apply (in_dget xy_eqb xyeqb_eq) in H; auto. apply (in_dget xy_eqb xyeqb_eq) in H'; auto. congruence.
Qed.

Lemma place_spot eths p e d n : layout v w h eths ->
  place_of v w h p e d n <->
  In e eths /\ In (d, n) (chip_core_map v) /\ p = spot v w h d e.
Proof using B.
  intros L. unfold place_of. rewrite <- (lay_origin _ _ _ _ L).
  rewrite (lands_spot v w h d e p (b_sup _ _ _ _ _ _ _ _ B)). split; [tauto|].
  intros (A & H & ->). repeat split; auto; apply L; auto; apply expected_in; eauto.
Qed.

Lemma place_unique p e d n e' d' n' :
  place_of v w h p e d n -> place_of v w h p e' d' n' -> e = e' /\ d = d' /\ n = n'.
Proof using B.
  destruct (layout_exists v w h (b_sup _ _ _ _ _ _ _ _ B)) as [eths L].
  rewrite !(place_spot eths) by auto. intros (A & H & E) (A' & H' & E').
  destruct (lay_inj _ _ _ _ L e e' d d') as [<- <-]; auto; try congruence;
    try (apply expected_in; eauto).
  repeat split. apply (map_unique n n' d); auto.
Qed.

(** What [built] says about one chip. *)
Lemma built_chip x y ch : get_chip_at m x y = Some ch <->
  exists eths uc e d n,
    layout v w h eths /\ virtual_unused_cores dco = Ok uc /\
    place_of v w h (x, y) e d n /\ ~ In (mkIgnoreChip x y None) dch /\
    ch = vchip V (start v w h) uc (virtual_unused_links dl w) eths
           (conf_list v w h (virtual_unused_chips dch) (max_cores_per_chip V) eths)
           ((x, y), (e, Z.min n (max_cores_per_chip V))).
Proof using B.
  pose proof (b_wf _ _ _ _ _ _ _ _ B) as W.
  destruct (b_rest _ _ _ _ _ _ _ _ B) as (eths & uc & L & U & C & _). fold v in L, C.
  rewrite get_chip_in by auto. rewrite C. split.
  - intros [H E]. apply in_map_iff in H as ([xy [e n]] & <- & H). rewrite vchip_xy in E.
    cbn [fst] in E. subst xy. pose proof H as H2.
    apply in_conf in H as (He & d & k & Hd & P & -> & NU).
    exists eths, uc, e, d, k. split; auto. split; auto. split; [|split; auto].
    + apply (place_spot eths); auto.
    + intros X. apply NU. apply in_unused. exact X.
  - intros (eths' & uc' & e & d & n & L' & U' & P & ND & ->).
    assert (eths' = eths) as ->.
    { pose proof (lay_eths _ _ _ _ L). pose proof (lay_eths _ _ _ _ L'). congruence. }
    assert (uc' = uc) as -> by congruence. rewrite vchip_xy. split; auto.
    apply in_map. apply in_conf. apply (place_spot eths) in P as (He & Hd & P); auto.
    split; auto. exists d, n. repeat split; auto. rewrite in_unused. exact ND.
Qed.

Lemma built_present x y : (exists ch, get_chip_at m x y = Some ch) <->
  (exists e d n, place_of v w h (x, y) e d n) /\ ~ In (mkIgnoreChip x y None) dch.
Proof using B.
  destruct (b_rest _ _ _ _ _ _ _ _ B) as (eths & uc & L & U & _). split.
  - intros [ch E]. apply built_chip in E as (? & ? & e & d & n & _ & _ & P & ND & _). eauto.
  - intros [(e & d & n & P) ND]. eexists. apply built_chip.
    exists eths, uc, e, d, n. split; [exact L|]. split; [exact U|]. split; [exact P|].
    split; [exact ND|reflexivity].
Qed.

Lemma start_good : good_size (m_kind m) (m_width m) (m_height m).
Proof using B.
  rewrite (b_kind _ _ _ _ _ _ _ _ B), (b_width _ _ _ _ _ _ _ _ B), (b_height _ _ _ _ _ _ _ _ B).
  apply good_supported. apply B.
Qed.

Lemma in_unused_links x y l :
  link_mem (virtual_unused_links dl w) (x, y, l) = true <-> link_down v dl x y l.
Proof using B.
  unfold link_mem. rewrite existsb_exists. unfold virtual_unused_links, link_down.
  pose proof (b_sup _ _ _ _ _ _ _ _ B) as S. fold v in S.
  assert (In (x, y, l) (flat_map (fun l0 => match ili_ip l0 with
     | None => [(ili_x l0, ili_y l0, ili_link l0)] | Some _ => [] end) dl) <->
     In (mkIgnoreLink x y l None) dl) as K.
  { rewrite in_flat_map. split.
    - intros ([a b n ip] & H & I). cbn in I. destruct ip; [destruct I|].
      destruct I as [I|[]]. injection I as -> -> ->. exact H.
    - intros H. eexists. split; [exact H|]. cbn. auto. }
  assert (In (x, y, l) (if w =? 2 then FOUR_CHIP_DOWN_LINKS else []) <->
     (v = V3 /\ ((x = 0 /\ (y = 0 \/ y = 1) /\ (l = 3 \/ l = 4)) \/
              (x = 1 /\ (y = 0 \/ y = 1) /\ (l = 0 \/ l = 1))))) as F.
  { destruct (Z.eqb_spec w 2) as [E|E].
    - assert (v = V3) as -> by (destruct v; auto; unfold supported, size48 in S; lia).
      unfold FOUR_CHIP_DOWN_LINKS. split.
      + intros H. split; auto. cbn [In] in H.
        destruct H as [H|[H|[H|[H|[H|[H|[H|[H|[]]]]]]]]]; injection H as <- <- <-; lia.
      + intros [_ [(-> & [-> | ->] & [-> | ->])|(-> & [-> | ->] & [-> | ->])]]; cbn; auto 10.
    - split; [intros []|]. intros [X _]. rewrite X in S. destruct S. lia. }
  rewrite <- K, <- F. setoid_rewrite in_app_iff. split.
  - intros (t & H & X). apply qqq_eq in X. subst t. exact H.
  - intros H. exists (x, y, l). split; auto. apply qqq_eq. auto.
Qed.

(** Links *)
Lemma built_link x y ch l k : get_chip_at m x y = Some ch ->
  get_link (c_router ch) l = Some k <->
  0 <= l < 6 /\ ~ link_down v dl x y l /\
  exists dx dy, m_over m x y l = Ok (dx, dy) /\ k = mkLink x y l dx dy /\
    exists ch', get_chip_at m dx dy = Some ch'.
Proof using B.
  intros G. pose proof (proj1 (built_chip x y ch) G) as (eths & uc & e & d & n & L & U & P & ND & ->).
  pose proof (b_wf _ _ _ _ _ _ _ _ B) as W.
  set (conf := conf_list v w h (virtual_unused_chips dch) (max_cores_per_chip V) eths) in *.
  assert (forall q, dmem xy_eqb conf q = true <-> exists ch', get_chip_at m (fst q) (snd q) = Some ch') as DM.
  { intros q. rewrite (dmem_in xy_eqb xyeqb_eq). rewrite built_present. split.
    - intros H. apply in_map_iff in H as ([q' [e' n']] & E & H). cbn [fst] in E. subst q'.
      apply in_conf in H as (He & d' & k' & Hd & E & _ & NU).
      split; [|intros X; apply NU; apply in_unused; exact X].
      exists e', d', k'. apply (place_spot eths); auto. rewrite <- surjective_pairing. auto.
    - intros [(e' & d' & n' & P') ND']. apply in_map_iff.
      exists (q, (e', Z.min n' (max_cores_per_chip V))). split; auto. apply in_conf.
      apply (place_spot eths) in P' as (He & Hd & E); auto. split; auto.
      exists d', n'. rewrite <- surjective_pairing in E. repeat split; auto.
      rewrite in_unused. exact ND'. }
  cbn [vchip c_router new_chip]. unfold get_link, vrouter. cbn [r_links].
  set (ls := vlinks_from _ _ _ _ _).
  assert (NoDup (zrange 0 6)) as N6 by (vm_compute; repeat constructor; cbn; intuition discriminate).
  pose proof (vlinks_nodup (start v w h) (virtual_unused_links dl w) conf (x, y) (zrange 0 6) N6) as [ND1 _].
  fold ls in ND1.
  assert (dget Z.eqb (map (fun l0 => (l_source_link_id l0, l0)) ls) l = Some k <->
    In k ls /\ l_source_link_id k = l) as DG.
  { split.
    - intros H. apply (dget_some_in Z.eqb Z.eqb_eq) in H. apply in_map_iff in H as (k' & E & H).
      injection E as E1 E2. subst k'. auto.
    - intros [H E]. apply (in_dget Z.eqb Z.eqb_eq).
      + unfold dkeys. rewrite map_map. exact ND1.
      + apply in_map_iff. exists k. split; congruence. }
  rewrite DG. unfold ls, vlinks_from. rewrite in_flat_map.
  assert (forall i, 0 <= i < 6 -> m_over m x y i = Ok (red (m_kind (start v w h)) (m_width (start v w h))
     (m_height (start v w h)) (vadd (x, y) (link_vec i)))) as OV.
  { intros i Hi. unfold m_over. rewrite over_red; auto using start_good.
    rewrite (b_kind _ _ _ _ _ _ _ _ B), (b_width _ _ _ _ _ _ _ _ B), (b_height _ _ _ _ _ _ _ _ B).
    reflexivity. }
  cbn [fst snd]. split.
  - intros [(i & Hi & H) El]. apply in_zrange in Hi. specialize (OV i Hi). cbv zeta in H.
    destruct (link_mem (virtual_unused_links dl w) (x, y, i)) eqn:LM; [destruct H|].
    set (q := red _ _ _ _) in *. destruct (dmem xy_eqb conf q) eqn:Q; [|destruct H].
    destruct H as [<-|[]]. cbn [l_source_link_id] in El. subst i. split; [auto|].
    split; [intros X; apply in_unused_links in X; congruence|].
    exists (fst q), (snd q). rewrite <- surjective_pairing. repeat split; auto.
    apply DM. auto.
  - intros (Hl & NL & dx & dy & O & -> & C). rewrite (OV l Hl) in O. apply Ok_inj in O.
    split; auto. exists l. split; [apply in_zrange; lia|]. cbv zeta. rewrite O.
    destruct (link_mem (virtual_unused_links dl w) (x, y, l)) eqn:LM;
      [apply in_unused_links in LM; tauto|].
    assert (dmem xy_eqb conf (dx, dy) = true) as -> by (apply DM; exact C).
    left. reflexivity.
Qed.

Lemma built_fields x y ch e d n : get_chip_at m x y = Some ch -> place_of v w h (x, y) e d n ->
  c_x ch = x /\ c_y ch = y /\ (c_eth_x ch, c_eth_y ch) = e /\
  c_ip ch = (if xy_eqb d (0, 0) then Some (virtual_ip x y) else None) /\
  (x, y) = (if xy_eqb d (0, 0) then e else (x, y)) /\
  c_tags ch = (if xy_eqb d (0, 0) then [1; 2; 3; 4; 5; 6; 7] else []) /\
  c_scamp ch = [0] /\ StronglySorted Z.lt (c_placable ch) /\
  (forall p, In p (c_placable ch) <->
     1 <= p < Z.min n (max_cores_per_chip V) /\ ~ core_down dco x y p) /\
  c_sdram ch = max_sdram_per_chip V /\ c_parent ch = None /\
  r_entries (c_router ch) = n_router_entries v.
Proof using B.
  intros G P. apply built_chip in G as (eths & uc & e' & d' & n' & L & U & P' & ND & ->).
  destruct (place_unique _ _ _ _ _ _ _ P P') as (<- & <- & <-).
  apply (place_spot eths) in P as (He & Hd & E); auto.
  assert (xymem eths (x, y) = xy_eqb d (0, 0) /\ (x, y) = (if xy_eqb d (0, 0) then e else (x, y)))
    as [VI VE].
  { destruct (xy_eqb d (0, 0)) eqn:D0.
    - apply xyeqb_eq in D0. subst d. rewrite (lay_self _ _ _ _ L) in E by auto.
      split; auto. apply xymem_in. rewrite E. auto.
    - split; auto. destruct (xymem eths (x, y)) eqn:XM; auto. apply xymem_in in XM.
      destruct (lay_inj _ _ _ _ L e (x, y) d (0, 0)) as [-> _]; auto using zero_expected.
      + apply expected_in. eauto.
      + rewrite (lay_self _ _ _ _ L) by auto. congruence. }
  cbn [vchip new_chip c_x c_y c_eth_x c_eth_y c_ip c_tags c_scamp c_placable c_sdram c_parent c_router
       vrouter r_entries fst snd].
  unfold vip. rewrite VI.
  pose proof (remove_all (down_of uc (x, y)) (zrange 1 (Z.min n (max_cores_per_chip V)))) as R.
  destruct R as [RS RI].
  { unfold zrange. generalize (Z.to_nat (Z.min n (max_cores_per_chip V) - 1)).
    intros k. generalize 1 at 1. clear. intros a.
    assert (forall s, StronglySorted Z.lt (map (fun i => a + Z.of_nat i) (seq s k))) as K.
    { induction k as [|k IH]; intros s; cbn [seq map]; constructor; auto.
      apply Forall_forall. intros z Hz. apply in_map_iff in Hz as (i & <- & Hi).
      apply in_seq in Hi. lia. }
    apply K. }
  split; [reflexivity|]. split; [reflexivity|]. split; [destruct e; reflexivity|].
  split; [destruct (xy_eqb d (0, 0)); reflexivity|]. split; [exact VE|].
  split; [destruct (xy_eqb d (0, 0)); reflexivity|].
  split; [reflexivity|]. split; [exact RS|]. split; [|repeat split; reflexivity].
  intros p. unfold vcores. rewrite RI, in_zrange.
  destruct (unused_cores_spec dco) as [[_ X]|[_ (uc' & X & US)]]; [congruence|].
  assert (uc' = uc) as -> by congruence. unfold down_of. rewrite US. tauto.
Qed.

(** ** Ethernet chips and validation *)
Lemma built_eth x y ch : get_chip_at m x y = Some ch ->
  (c_ip ch = Some (virtual_ip x y) /\ board_origin v w h (x, y) /\ (c_eth_x ch, c_eth_y ch) = (x, y)) \/
  (c_ip ch = None /\ ~ board_origin v w h (x, y)).
Proof using B.
  intros G. destruct (proj1 (built_present x y) (ex_intro _ ch G)) as [(e & d & n & P) _].
  destruct (built_fields x y ch e d n G P) as (_ & _ & E & I & X & _).
  pose proof P as (O & Hd & La). destruct (xy_eqb d (0, 0)) eqn:D.
  - left. rewrite I, E. split; auto. rewrite <- X in O. split; auto.
  - right. split; auto. intros O'.
    assert (exists n', place_of v w h (x, y) (x, y) (0, 0) n') as [n' P'].
    { destruct (layout_exists v w h (b_sup _ _ _ _ _ _ _ _ B)) as [eths L].
      pose proof (zero_expected v) as ZE. apply expected_in in ZE as [n' ZE].
      exists n'. apply (place_spot eths); auto. apply (lay_origin _ _ _ _ L) in O'.
      split; auto. split; auto. symmetry. apply (lay_self _ _ _ _ L). auto. }
    destruct (place_unique _ _ _ _ _ _ _ P P') as (_ & -> & _).
    assert (xy_eqb (0, 0) (0, 0) = true) by (apply xyeqb_eq; auto). congruence.
Qed.

Lemma built_inside x y ch : get_chip_at m x y = Some ch -> inside w h (x, y).
Proof using B.
  intros G. destruct (proj1 (built_present x y) (ex_intro _ ch G)) as [(e & d & n & _ & _ & La) _].
  apply La.
Qed.

Lemma board_canonical d : In d (expected_xys v) -> canonical (m_kind m) (m_width m) (m_height m) d.
Proof using B.
  intros H. rewrite (b_kind _ _ _ _ _ _ _ _ B), (b_width _ _ _ _ _ _ _ _ B), (b_height _ _ _ _ _ _ _ _ B).
  pose proof (b_sup _ _ _ _ _ _ _ _ B) as S. fold v in S |- *. apply inside_canonical.
  destruct v.
  - destruct S as [-> ->]. vm_compute in H.
    destruct H as [<-|[<-|[<-|[<-|[]]]]]; vm_compute; intuition congruence.
  - apply (board48 V5) in H; auto. apply size48_pos in S. unfold on_board in H. unfold inside. lia.
  - destruct S as [-> ->]. vm_compute in H. destruct H as [<-|[]]; vm_compute; intuition congruence.
  - apply (board48 V248) in H; auto. apply size48_pos in S. unfold on_board in H. unfold inside. lia.
Qed.

Lemma built_local x y ch e d n : get_chip_at m x y = Some ch -> place_of v w h (x, y) e d n ->
  m_local m ch = d.
Proof using B.
  intros G P. destruct (built_fields x y ch e d n G P) as (X & Y & E & _).
  destruct (layout_exists v w h (b_sup _ _ _ _ _ _ _ _ B)) as [eths L].
  apply (place_spot eths) in P as (He & Hd & Q); auto.
  unfold m_local. rewrite X, Y. destruct d as [lx ly], e as [ex ey]. injection E as -> ->.
  apply global_local.
  - apply start_good.
  - apply board_canonical. apply expected_in. eauto.
  - rewrite (b_kind _ _ _ _ _ _ _ _ B), (b_width _ _ _ _ _ _ _ _ B), (b_height _ _ _ _ _ _ _ _ B).
    fold v. rewrite global_red by (apply good_supported; apply B). symmetry. exact Q.
Qed.

Lemma built_eth_list ch : In ch (m_eth m) <->
  exists x y, get_chip_at m x y = Some ch /\ board_origin v w h (x, y).
Proof using B.
  pose proof (b_wf _ _ _ _ _ _ _ _ B) as W. rewrite (wf_eth m W), filter_In. split.
  - intros [H I]. exists (c_x ch), (c_y ch).
    assert (get_chip_at m (c_x ch) (c_y ch) = Some ch) as G by (apply get_chip_in; auto).
    split; auto. destruct (built_eth _ _ _ G) as [(_ & O & _)|[N _]]; auto.
    unfold has_ip in I. rewrite N in I. discriminate.
  - intros (x & y & G & O). pose proof G as G'. apply get_chip_in in G' as [H _]; auto. split; auto.
    destruct (built_eth _ _ _ G) as [(I & _)|[_ N]]; [|tauto]. unfold has_ip. rewrite I. auto.
Qed.

Lemma built_valid :
  validate v m = Ok tt <->
  (exists ch, get_chip_at m 0 0 = Some ch) /\
  (forall x y ch, get_chip_at m x y = Some ch ->
     fewest_cores v <= n_processors ch /\
     exists e, get_chip_at m (c_eth_x ch) (c_eth_y ch) = Some e).
Proof using B.
  pose proof (b_wf _ _ _ _ _ _ _ _ B) as W.
  destruct (layout_exists v w h (b_sup _ _ _ _ _ _ _ _ B)) as [eths L].
  pose proof (b_sup _ _ _ _ _ _ _ _ B) as S. fold v in S.
  rewrite (proj1 (validate_spec v m W)). unfold well_formed, chip_well_formed.
  split.
  - intros ((c0 & a & G0 & _) & _ & F). split; [eauto|]. intros x y ch G.
    pose proof G as G'. apply get_chip_in in G' as [Hc XY0]; auto.
    destruct (F ch Hc) as (_ & _ & M & _ & N). split; auto.
    destruct (built_eth _ _ _ G) as [(I & _ & E)|[I _]].
    + injection E as -> ->. eauto.
    + apply N. intros (a' & Ha & _). congruence.
  - intros [[c0 G0] F]. split; [|split].
    + destruct (built_eth _ _ _ G0) as [(I & _)|[_ N]]; [eauto|]. exfalso. apply N.
      apply (lay_origin _ _ _ _ L). apply (lay_zero _ _ _ _ L).
    + intros SM. assert (forall ch, In ch (m_eth m) -> c_xy ch = (0, 0)) as Z0.
      { intros ch H. apply built_eth_list in H as (x & y & G & O).
        apply get_chip_in in G as [_ G]; auto. rewrite G.
        destruct v; try discriminate SM; exact O. }
      unfold ethernet_connected_chips.
      assert (NoDup (map c_xy (m_eth m))) as ND.
      { rewrite (wf_eth m W). pose proof (wf_nodup m W) as N. revert N.
        generalize (chips m) as l. induction l as [|a l IH]; intros N; cbn; [constructor|].
        inversion N; subst. destruct (has_ip a); auto. cbn. constructor; auto.
        intros X. apply in_map_iff in X as (b & E & X). apply filter_In in X as [X _].
        apply H1. rewrite <- E. apply in_map. auto. }
      destruct (m_eth m) as [|a [|b l]]; [cbn; lia|cbn; lia|]. exfalso. inversion ND; subst. apply H1. left.
      rewrite (Z0 a), (Z0 b); cbn; auto.
    + intros ch Hc. assert (get_chip_at m (c_x ch) (c_y ch) = Some ch) as G by (apply get_chip_in; auto).
      pose proof (built_inside _ _ _ G) as [I1 I2]. cbn [fst snd] in I1, I2.
      rewrite (b_width _ _ _ _ _ _ _ _ B), (b_height _ _ _ _ _ _ _ _ B).
      destruct (F _ _ _ G) as [M Ee]. repeat split; try lia; auto.
      * intros (a & Ha & _). destruct (built_eth _ _ _ G) as [(_ & O & _)|[N _]]; [|congruence].
        apply (lay_origin _ _ _ _ L) in O. apply (lay_legal _ _ _ _ L) in O. exact O.
      * destruct (proj1 (built_present _ _) (ex_intro _ ch G)) as [(e & d & n & P) _].
        rewrite (built_local _ _ _ _ _ _ G P). unfold local_xys. rewrite (b_ccm _ _ _ _ _ _ _ _ B).
        apply expected_in. destruct P as (_ & Hd & _). eauto.
Qed.

Lemma built_xys ex ey : m_xys m ex ey = map (fun d => spot v w h d (ex, ey)) (expected_xys v).
Proof using B.
  unfold m_xys. rewrite xys_red.
  rewrite (b_kind _ _ _ _ _ _ _ _ B), (b_width _ _ _ _ _ _ _ _ B), (b_height _ _ _ _ _ _ _ _ B),
    (b_ccm _ _ _ _ _ _ _ _ B). reflexivity.
Qed.

Lemma built_apart : boards_apart v m.
Proof using B.
  pose proof (b_wf _ _ _ _ _ _ _ _ B) as W.
  destruct (layout_exists v w h (b_sup _ _ _ _ _ _ _ _ B)) as [eths L].
  assert (forall e, In e (m_eth m) -> In (c_x e, c_y e) eths /\ get_chip_at m (c_x e) (c_y e) = Some e /\
     c_ip e = Some (virtual_ip (c_x e) (c_y e))) as EE.
  { intros e He. apply built_eth_list in He as (x & y & G & O).
    pose proof G as G'. apply get_chip_in in G' as [_ E]; auto. injection E as -> ->.
    split; [apply L; auto|]. split; auto. destruct (built_eth _ _ _ G) as [(I & _)|[_ N]]; tauto. }
  split; [apply B|]. split.
  - intros e e' He He' H. destruct (EE e He) as (A & G & I). destruct (EE e' He') as (A' & G' & I').
    assert ((c_x e, c_y e) = (c_x e', c_y e')) as Q.
    { destruct H as [H|(p & Hp & Hp')].
      - rewrite I, I' in H. assert (forall a b : string, Some a = Some b -> a = b) as SI by congruence. apply SI in H. apply virtual_ip_inj in H as [-> ->]. auto.
      - rewrite built_xys in Hp, Hp'. apply in_map_iff in Hp as (d & E & Hd).
        apply in_map_iff in Hp' as (d' & E' & Hd').
        apply (lay_inj _ _ _ _ L _ _ d d' A A' Hd Hd'). congruence. }
    injection Q as Q1 Q2. rewrite Q1, Q2 in G. congruence.
  - intros e He. destruct (EE e He) as (A & G & I). rewrite built_xys. split.
    + assert (forall l, NoDup l -> (forall d, In d l -> In d (expected_xys v)) ->
        NoDup (map (fun d => spot v w h d (c_x e, c_y e)) l)) as M.
      { induction l as [|d l IH]; intros N S; [constructor|]. inversion N; subst. cbn. constructor.
        - intros X. apply in_map_iff in X as (d' & E & X).
          apply (lay_inj v w h eths L (c_x e, c_y e) (c_x e, c_y e)) in E as [-> _]; auto; apply S; cbn; auto.
        - apply IH; auto. intros; apply S; cbn; auto. }
      apply M; auto. apply expected_nodup.
    + apply in_map_iff. exists (0, 0). split; [apply (lay_self _ _ _ _ L); auto|apply zero_expected].
Qed.

End Built.
