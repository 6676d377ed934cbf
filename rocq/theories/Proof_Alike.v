(** machine_repair looks at the layout only. *)
From Coq Require Import Lia ZifyBool String.
From Verif Require Import Model_Py Model_Wrap Model_Version Model_Core Model_Machine Model_Repair
  Spec_Hops Spec_Board Spec_Version Spec_Machine Spec_Router Spec_Repair Spec_Alike
  Proof_Wrap Proof_Py Proof_Board Proof_Version Proof_Machine Proof_Report Proof_Repair Proof_RepairEnd.
Open Scope list_scope.
Open Scope Z_scope.

Section Alike.
Context (v : vid).
Notation ak := (alike v).

Lemma alike_xy a b : ak a b -> c_xy a = c_xy b.
Proof. intros A. unfold c_xy. rewrite (alike_x _ _ _ A), (alike_y _ _ _ A). reflexivity. Qed.

Lemma alike_is a b l : ak a b -> is_link (c_router a) l = is_link (c_router b) l.
Proof.
  intros A. pose proof (alike_links _ _ _ A l) as E. unfold get_link in E. unfold is_link, dmem. rewrite E. reflexivity.
Qed.

Lemma alike_refl a : ak a a.
Proof. split; auto. tauto. Qed.

Lemma alike_sym a b : ak a b -> ak b a.
Proof. intros []. split; auto. tauto. Qed.

Lemma alike_enough a b : ak a b ->
  (n_processors a <? minimum_cores_expected v) = (n_processors b <? minimum_cores_expected v).
Proof. intros []. lia. Qed.

(** ** Results of one shape *)
Definition rel_res {A B} (R : A -> B -> Prop) (a : res A) (b : res B) : Prop :=
  match a, b with Ok x, Ok y => R x y | Err e, Err e' => e = e' | _, _ => False end.

Lemma fold_res_rel {A B C D} (Q : A -> B -> Prop) (R : C -> D -> Prop) f g :
  (forall s s' x y, R s s' -> Q x y -> rel_res R (f s x) (g s' y)) ->
  forall l l', Forall2 Q l l' -> forall s s', R s s' -> rel_res R (fold_res f l s) (fold_res g l' s').
Proof.
  intros H l l' F. induction F as [|x y l l' E F IH]; intros s s' S; cbn [fold_res]; [exact S|].
  specialize (H s s' x y S E). destruct (f s x), (g s' y); cbn [rel_res bind] in *; try contradiction; auto.
Qed.

Lemma fold_left_rel {A C D} (R : C -> D -> Prop) (f : C -> A -> C) (g : D -> A -> D) :
  (forall s s' x, R s s' -> R (f s x) (g s' x)) ->
  forall l s s', R s s' -> R (fold_left f l s) (fold_left g l s').
Proof. intros H l. induction l as [|x l IH]; intros s s' S; cbn [fold_left]; auto. Qed.

Lemma checks_rel {A B} (Q : A -> B -> Prop) (f : A -> res unit) (g : B -> res unit) l l' :
  Forall2 Q l l' -> (forall x y, Q x y -> f x = g y) -> checks f l = checks g l'.
Proof.
  intros F H. unfold checks. induction F as [|x y l l' E F IH]; cbn [fold_res]; auto.
  rewrite (H x y E). destruct (g y) as [[]|]; cbn [bind]; auto.
Qed.

Lemma filter_rel {A B} (Q : A -> B -> Prop) f g l l' :
  Forall2 Q l l' -> (forall x y, Q x y -> f x = g y) -> Forall2 Q (filter f l) (filter g l').
Proof.
  intros F H. induction F as [|x y l l' E F IH]; cbn [filter]; auto.
  rewrite (H x y E). destruct (g y); auto.
Qed.

Lemma map_rel {A B C} (Q : A -> B -> Prop) (f : A -> C) (g : B -> C) l l' :
  Forall2 Q l l' -> (forall x y, Q x y -> f x = g y) -> map f l = map g l'.
Proof. intros F H. induction F as [|x y l l' E F IH]; cbn [map]; auto. rewrite (H x y E), IH. reflexivity. Qed.

Lemma flat_map_rel {A B C} (Q : A -> B -> Prop) (f : A -> list C) (g : B -> list C) l l' :
  Forall2 Q l l' -> (forall x y, Q x y -> f x = g y) -> flat_map f l = flat_map g l'.
Proof. intros F H. induction F as [|x y l l' E F IH]; cbn [flat_map]; auto. rewrite (H x y E), IH. reflexivity. Qed.

Lemma length_rel {A B} (Q : A -> B -> Prop) l l' : Forall2 Q l l' -> List.length l = List.length l'.
Proof. intros F. induction F; cbn; congruence. Qed.

Lemma existsb_same {A} (f g : A -> bool) l : (forall x, f x = g x) -> existsb f l = existsb g l.
Proof. intros H. induction l; cbn; congruence. Qed.

(** ** Look ups *)
Definition same_entry (p q : XY * chip) : Prop := fst p = fst q /\ ak (snd p) (snd q).
Definition rel_opt (a b : option chip) : Prop :=
  match a, b with Some x, Some y => ak x y | None, None => True | _, _ => False end.

Lemma dget_rel d d' p : Forall2 same_entry d d' -> rel_opt (dget xy_eqb d p) (dget xy_eqb d' p).
Proof.
  intros F. induction F as [|[k x] [k' y] l l' [E1 E2] F IH]; cbn [dget]; [exact I|].
  cbn [fst snd] in *. subst k'. destruct (xy_eqb k p); auto.
Qed.

Lemma dmem_rel d d' p : Forall2 same_entry d d' -> dmem xy_eqb d p = dmem xy_eqb d' p.
Proof.
  intros F. pose proof (dget_rel d d' p F) as R. unfold dmem.
  destruct (dget xy_eqb d p), (dget xy_eqb d' p); cbn in R; tauto.
Qed.

Lemma entries_rel a b : wf a -> wf b -> Forall2 ak (chips a) (chips b) -> Forall2 same_entry (m_chips a) (m_chips b).
Proof.
  intros Wa Wb F. rewrite (wf_chips a Wa), (wf_chips b Wb). induction F as [|x y l l' E F IH]; cbn [map]; constructor; auto.
  split; cbn [fst snd]; auto. apply alike_xy; auto.
Qed.

(** What a call of machine_repair looks at. *)
Definition look (a b : machine) : Prop :=
  m_kind a = m_kind b /\ m_width a = m_width b /\ m_height a = m_height b /\ Forall2 same_entry (m_chips a) (m_chips b).

Lemma look_of a b : wf a -> wf b -> same_layout v a b -> look a b.
Proof. intros Wa Wb []. repeat split; auto. apply entries_rel; auto. Qed.

Lemma look_chips a b : look a b -> Forall2 ak (chips a) (chips b).
Proof.
  intros (_ & _ & _ & F). unfold chips, dvalues. induction F as [|x y l l' [E1 E2] F IH]; cbn [map]; auto.
Qed.

Section Look.
Context (a b : machine) (L : look a b).

Lemma look_get x y : rel_opt (get_chip_at a x y) (get_chip_at b x y).
Proof using L. apply dget_rel. apply L. Qed.

Lemma look_is x y : is_chip_at a x y = is_chip_at b x y.
Proof using L. apply dmem_rel. apply L. Qed.

Lemma look_item p : rel_res ak (getitem a p) (getitem b p).
Proof using L.
  pose proof (dget_rel _ _ p (proj2 (proj2 (proj2 L)))) as R. unfold getitem, dgetitem.
  destruct (dget xy_eqb (m_chips a) p), (dget xy_eqb (m_chips b) p); cbn in *; auto.
Qed.

Lemma look_over x y l : m_over a x y l = m_over b x y l.
Proof using L. destruct L as (E1 & E2 & E3 & _). unfold m_over. rewrite E1, E2, E3. reflexivity. Qed.

Lemma look_link x y l : is_link_at a x y l = is_link_at b x y l.
Proof using L.
  pose proof (look_get x y) as R. unfold get_chip_at in R. unfold is_link_at.
  destruct (dget xy_eqb (m_chips a) (x, y)), (dget xy_eqb (m_chips b) (x, y)); cbn in R; try tauto.
  apply alike_is; auto.
Qed.

Lemma look_incoming : unreachable_incoming_local_chips a = unreachable_incoming_local_chips b.
Proof using L.
  unfold unreachable_incoming_local_chips. apply (map_rel ak); [|apply alike_xy].
  apply filter_rel; [apply look_chips; auto|]. intros x y A. f_equal. apply existsb_same. intros [o mv].
  rewrite (alike_x _ _ _ A), (alike_y _ _ _ A).
  pose proof (look_get (c_x y + fst mv) (c_y y + snd mv)) as R. unfold get_chip_at in R.
  destruct (dget xy_eqb (m_chips a) _) as [n|], (dget xy_eqb (m_chips b) _) as [n'|]; cbn in R; try tauto.
  rewrite (alike_is _ _ _ R). unfold same_ethernet.
  rewrite (alike_eth_x _ _ _ R), (alike_eth_y _ _ _ R), (alike_eth_x _ _ _ A), (alike_eth_y _ _ _ A). reflexivity.
Qed.

Lemma look_outgoing : unreachable_outgoing_local_chips a = unreachable_outgoing_local_chips b.
Proof using L.
  unfold unreachable_outgoing_local_chips. apply (map_rel ak); [|apply alike_xy].
  apply filter_rel; [apply look_chips; auto|]. intros x y A. f_equal. apply existsb_same. intros [o mv].
  rewrite (alike_x _ _ _ A), (alike_y _ _ _ A), (alike_is _ _ _ A).
  pose proof (look_get (c_x y + fst mv) (c_y y + snd mv)) as R. unfold get_chip_at in R.
  destruct (dget xy_eqb (m_chips a) _) as [n|], (dget xy_eqb (m_chips b) _) as [n'|]; cbn in R; try tauto.
  unfold same_ethernet.
  rewrite (alike_eth_x _ _ _ R), (alike_eth_y _ _ _ R), (alike_eth_x _ _ _ A), (alike_eth_y _ _ _ A). reflexivity.
Qed.

Lemma look_one_way : one_way_links a = one_way_links b.
Proof using L.
  unfold one_way_links. apply (flat_map_rel ak); [apply look_chips; auto|]. intros x y A. apply flat_map_ext.
  intros [o k]. rewrite (alike_links _ _ _ A). destruct (get_link (c_router y) o) as [l|]; auto.
  rewrite look_link, (alike_x _ _ _ A), (alike_y _ _ _ A). reflexivity.
Qed.

Lemma look_check_eth x y : ak x y -> check_eth a x = check_eth b y.
Proof using L.
  intros A. unfold check_eth. rewrite (alike_eth_x _ _ _ A), (alike_eth_y _ _ _ A).
  pose proof (look_item (c_eth_x y, c_eth_y y)) as R.
  destruct (getitem a _), (getitem b _); cbn in *; try tauto. congruence.
Qed.

Lemma look_check_chip p : check_chip a p = check_chip b p.
Proof using L.
  unfold check_chip. pose proof (look_item p) as R.
  destruct (getitem a p), (getitem b p); cbn [rel_res bind] in *; try tauto; [|congruence].
  apply look_check_eth; auto.
Qed.

Lemma look_check_link removed t : check_link a removed t = check_link b removed t.
Proof using L.
  destruct t as [[[x y] o] k]. unfold check_link. rewrite look_over. destruct (m_over b x y o) as [d|]; cbn [bind]; auto.
  destruct (xymem removed d); auto. unfold uni_direction_message.
  pose proof (look_item (x, y)) as R. destruct (getitem a (x, y)) as [s|], (getitem b (x, y)) as [s'|]; cbn [rel_res bind] in *; try tauto; [|congruence].
  pose proof (look_check_eth s s' R) as E. unfold check_eth in E.
  destruct (getitem a (c_eth_x s, c_eth_y s)), (getitem b (c_eth_x s', c_eth_y s')); cbn [bind] in *; try discriminate E; [|congruence].
  pose proof (look_get (fst d) (snd d)) as R2.
  destruct (get_chip_at a (fst d) (snd d)) as [u|], (get_chip_at b (fst d) (snd d)) as [u'|]; cbn in R2; try tauto.
  apply (look_check_eth u u' R2).
Qed.

Lemma look_parent x y : ak x y -> orphan a x = orphan b y /\ check_parent a x = check_parent b y.
Proof using L.
  intros A. unfold orphan, check_parent. rewrite (alike_parent _ _ _ A), (alike_x _ _ _ A), (alike_y _ _ _ A).
  destruct (c_parent y) as [p|]; auto. rewrite look_over. destruct (m_over b _ _ p) as [q|]; cbn [bind]; auto.
  rewrite look_is. destruct (is_chip_at b _ _); auto. split; auto. apply look_check_eth; auto.
Qed.

Lemma look_all removed : all_checks a removed = all_checks b removed.
Proof using L.
  unfold all_checks. rewrite look_incoming, look_outgoing, look_one_way.
  assert (forall A (f g : A -> res unit) l, (forall x, f x = g x) -> checks f l = checks g l) as X.
  { intros A f g l H. apply (checks_rel eq); [|intros x ? <-; auto]. clear. induction l; auto. }
  rewrite !(X _ _ _ _ look_check_chip), (X _ _ _ _ (look_check_link removed)).
  rewrite (checks_rel ak (check_parent a) (check_parent b) (chips a) (chips b)); [reflexivity|apply look_chips; auto|].
  intros x y A. apply look_parent; auto.
Qed.

Lemma look_bad : bad_chips a = bad_chips b.
Proof using L.
  unfold bad_chips. rewrite look_incoming, look_outgoing. do 2 f_equal. apply (map_rel ak); [|apply alike_xy].
  apply filter_rel; [apply look_chips; auto|]. intros x y A. apply look_parent; auto.
Qed.

Lemma look_expected removed t : expected_link a removed t = expected_link b removed t.
Proof using L. destruct t as [[[x y] o] k]. unfold expected_link. rewrite look_over. reflexivity. Qed.
End Look.

(** ** Chips with fewer links *)
Lemma alike_reduce dl x y : proper x -> proper y -> ak x y -> ak (reduce dl x) (reduce dl y).
Proof.
  intros Px Py A.
  assert (forall l, get_link (c_router (reduce dl x)) l = get_link (c_router (reduce dl y)) l) as G.
  { intros l. destruct (get_link (c_router (reduce dl y)) l) as [k|] eqn:E.
    - apply reduce_link; auto. apply reduce_link in E; auto. rewrite (alike_links _ _ _ A), (alike_xy _ _ A). auto.
    - destruct (get_link (c_router (reduce dl x)) l) as [k|] eqn:E2; auto. rewrite <- E.
      apply reduce_link in E2; auto. symmetry. apply reduce_link; auto.
      rewrite <- (alike_links _ _ _ A), <- (alike_xy _ _ A). auto. }
  unfold reduce in *. rewrite (alike_xy _ _ A) in *. destruct (touched dl (c_xy y)); auto.
  destruct A. split; auto.
Qed.

Lemma alike_survivors dc dl cs cs' : Forall proper cs -> Forall proper cs' -> Forall2 ak cs cs' ->
  Forall2 ak (survivors dc dl cs) (survivors dc dl cs').
Proof.
  intros P P' F. induction F as [|x y l l' E F IH]; [constructor|]. inversion P; inversion P'; subst. unfold survivors. cbn [filter].
  rewrite (alike_xy _ _ E). destruct (negb (xymem dc (c_xy y))); cbn [map]; [constructor|]; auto.
  apply alike_reduce; auto.
Qed.

(** ** Machines made alike *)
Record twin (a b : machine) : Prop := mkTwin {
  t_look : look a b;
  t_ccm : m_ccm a = m_ccm b;
  t_eth : Forall2 ak (m_eth a) (m_eth b);
  t_spin : m_spin a = m_spin b;
  t_fpga : m_fpga a = m_fpga b;
  t_boot : m_boot a = m_boot b
}.

Lemma twin_add a b x y : twin a b -> ak x y -> rel_res twin (add_chip a x) (add_chip b y).
Proof.
  intros T A. pose proof (t_look _ _ T) as L. unfold add_chip. rewrite (alike_xy _ _ A).
  rewrite (dmem_rel _ _ (c_xy y) (proj2 (proj2 (proj2 L)))). destruct (dmem xy_eqb (m_chips b) (c_xy y)); [reflexivity|].
  assert (Forall2 same_entry (dset xy_eqb (m_chips a) (c_xy y) x) (dset xy_eqb (m_chips b) (c_xy y) y)) as D.
  { destruct L as (_ & _ & _ & F). induction F as [|[k u] [k' u'] l l' [E1 E2] F IH]; cbn [dset].
    - constructor; auto. split; auto.
    - cbn [fst snd] in *. subst k'. destruct (xy_eqb k (c_xy y)); constructor; auto; split; auto. }
  rewrite (alike_ip _ _ _ A). destruct L as (E1 & E2 & E3 & _). destruct T.
  destruct (c_ip y) as [ip|]; cbn [rel_res]; split; cbn; auto.
  - repeat split; cbn; auto.
  - apply Forall2_app; auto.
  - destruct (xy_eqb (c_xy y) (0, 0)); auto.
  - repeat split; cbn; auto.
Qed.

Lemma twin_history cs cs' : Forall2 ak cs cs' -> forall a b, twin a b ->
  twin (fst (history v a (map CallAddChip cs))) (fst (history v b (map CallAddChip cs'))).
Proof.
  intros F. induction F as [|x y l l' E F IH]; intros a b T; [exact T|]. cbn [map history exec].
  pose proof (twin_add a b x y T E) as R. destruct (add_chip a x) as [n|e], (add_chip b y) as [n'|e']; cbn [rel_res] in R; try tauto.
  - specialize (IH n n' R). destruct (history v n _), (history v n' _). exact IH.
  - specialize (IH a b T). destruct (history v a _), (history v b _). exact IH.
Qed.

Lemma twin_global a b lx ly ex ey : look a b -> m_global a lx ly ex ey = m_global b lx ly ex ey.
Proof. intros (E1 & E2 & E3 & _). unfold m_global. rewrite E1, E2, E3. reflexivity. Qed.

Lemma twin_spin a b : twin a b -> rel_res twin (add_spinnaker_links v a) (add_spinnaker_links v b).
Proof.
  intros T. unfold add_spinnaker_links. apply (fold_res_rel ak twin); [|apply T|auto].
  intros s s' x y S A. rewrite (alike_ip _ _ _ A). destruct (c_ip y) as [ip|]; [|reflexivity]. cbn [rel_res].
  apply fold_left_rel; auto. clear a b T s s' S. intros s s' [i [[lx ly] l]] S. pose proof (t_look _ _ S) as L.
  unfold add_spinnaker_step. rewrite (twin_global _ _ _ _ _ _ L), (alike_x _ _ _ A), (alike_y _ _ _ A).
  destruct (m_global s' lx ly (c_x y) (c_y y)) as [gx gy]. pose proof (look_get _ _ L gx gy) as R.
  destruct (get_chip_at s gx gy) as [u|], (get_chip_at s' gx gy) as [u'|]; cbn in R; try tauto.
  rewrite (alike_is _ _ _ R). destruct (negb _); auto. destruct S. split; cbn; auto. congruence.
Qed.

Lemma twin_fpga a b : twin a b -> rel_res twin (add_fpga_links v a) (add_fpga_links v b).
Proof.
  intros T. unfold add_fpga_links. apply (fold_res_rel ak twin); [|apply T|auto].
  intros s s' x y S A. rewrite (alike_ip _ _ _ A). destruct (c_ip y) as [ip|]; [|reflexivity]. cbn [rel_res].
  apply fold_left_rel; auto. clear a b T s s' S. intros s s' [[[[lx ly] l] fi] fl] S. pose proof (t_look _ _ S) as L.
  unfold add_fpga_step. rewrite (twin_global _ _ _ _ _ _ L), (alike_x _ _ _ A), (alike_y _ _ _ A).
  destruct (m_global s' lx ly (c_x y) (c_y y)) as [gx gy]. pose proof (look_get _ _ L gx gy) as R.
  destruct (get_chip_at s gx gy) as [u|], (get_chip_at s' gx gy) as [u'|]; cbn in R; try tauto.
  rewrite (alike_x _ _ _ R), (alike_y _ _ _ R). destruct S. split; cbn; auto. congruence.
Qed.

Lemma twin_validate a b : twin a b -> validate v a = validate v b.
Proof.
  intros T. pose proof (t_look _ _ T) as L. unfold validate. rewrite (t_boot _ _ T). destruct (m_boot b); auto.
  rewrite (length_rel _ _ _ (t_eth _ _ T)). destruct (_ && _); auto.
  apply (checks_rel ak (validate_chip v a) (validate_chip v b)); [apply look_chips; auto|].
  intros x y A. unfold validate_chip. rewrite (alike_enough _ _ A), (alike_ip _ _ _ A). unfold m_local.
  rewrite (alike_x _ _ _ A), (alike_y _ _ _ A), (alike_eth_x _ _ _ A), (alike_eth_y _ _ _ A), (look_is _ _ L), (t_ccm _ _ T).
  destruct L as (E1 & E2 & E3 & _). rewrite E1, E2, E3. reflexivity.
Qed.

(** ** machine_ignore *)
Lemma twin_ignore a b dc dl : good a -> good b -> look a b -> rel_res twin (machine_ignore v a dc dl) (machine_ignore v b dc dl).
Proof.
  intros [Wa Fa] [Wb Fb] L. unfold machine_ignore. destruct L as (E1 & E2 & E3 & EC). rewrite E2, E3.
  destruct (verify_raises v (Some (m_width b)) (Some (m_height b))) as [VS|VS].
  2: { unfold create_machine. rewrite VS. reflexivity. }
  assert (supported v (m_width b) (m_height b)) as S by (apply verify_supported; auto).
  rewrite create_some by auto. cbn [bind]. set (n0 := new_machine _ _ _ _ _).
  destruct (ignore_fold dc dl v (chips a) n0 (wf_new _ _ _ _ _) Fa) as (n1 & X1 & W1 & _ & _ & _ & _ & _ & _ & K); [apply Wa|].
  destruct (ignore_fold dc dl v (chips b) n0 (wf_new _ _ _ _ _) Fb) as (n1' & X1' & W1' & _ & _ & _ & _ & _ & _ & K'); [apply Wb|].
  rewrite X1, X1'. cbn [bind].
  assert (twin n1 n1') as T1.
  { rewrite <- K, <- K'. apply twin_history.
    - apply alike_survivors; auto. apply look_chips. repeat split; auto.
    - split; try reflexivity; [|constructor]. repeat split; constructor. }
  pose proof (twin_spin _ _ T1) as R2. destruct (add_spinnaker_links v n1) as [n2|], (add_spinnaker_links v n1') as [n2'|]; cbn [rel_res bind] in *; try tauto.
  pose proof (twin_fpga _ _ R2) as R3. destruct (add_fpga_links v n2) as [n3|], (add_fpga_links v n2') as [n3'|]; cbn [rel_res bind] in *; try tauto.
  rewrite (twin_validate _ _ R3). destruct (validate v n3'); cbn [rel_res bind]; auto.
Qed.

Definition rel_next (x y : option machine) : Prop :=
  match x, y with Some n, Some n' => twin n n' | None, None => True | _, _ => False end.

Lemma look_step repair removed a b : good a -> good b -> look a b ->
  rel_res rel_next (repair_step repair v a removed) (repair_step repair v b removed).
Proof.
  intros Ga Gb L. rewrite !step_eq. rewrite (look_all _ _ L). destruct (all_checks b removed) as [[]|]; cbn [rel_res bind]; auto.
  cbv zeta. rewrite (look_bad _ _ L), (look_one_way _ _ L).
  rewrite (filter_ext _ _ (fun t => f_equal (orb repair) (look_expected _ _ L removed t))).
  assert (forall l, forallb (expected_link a removed) l = forallb (expected_link b removed) l) as FB.
  { induction l as [|t l IH]; cbn; auto. rewrite (look_expected _ _ L), IH. reflexivity. }
  rewrite FB. destruct (negb repair && _); [reflexivity|].
  set (dc := if repair then bad_chips b else []). set (dl := filter _ _).
  pose proof (twin_ignore a b dc dl Ga Gb L) as T.
  destruct dc as [|p dc]; [destruct dl as [|t dl]; [exact I|]|];
  (destruct (machine_ignore v a _ _), (machine_ignore v b _ _); cbn [rel_res bind] in *; tauto).
Qed.

Lemma look_repairs repair a removed r : repairs repair v a removed r -> forall b, good a -> good b -> look a b ->
  exists r', repairs repair v b removed r' /\
    ((exists e, r = Err e /\ r' = Err e) \/ (r = Ok a /\ r' = Ok b) \/
     (exists n n', r = Ok n /\ r' = Ok n' /\ twin n n')).
Proof.
  intros R. induction R as [m removed e E|m removed E|m removed n r E R IH]; intros b Ga Gb L;
    pose proof (look_step repair removed m b Ga Gb L) as S; rewrite E in S;
    destruct (repair_step repair v b removed) as [[n'|]|e'] eqn:E'; cbn [rel_res rel_next] in S; try tauto.
  - subst e'. exists (Err e). split; [apply repairs_raises; auto|]. eauto.
  - exists (Ok b). split; [apply repairs_done; auto|]. auto.
  - destruct (IH n' (good_next _ _ _ _ _ Ga E) (good_next _ _ _ _ _ Gb E') (t_look _ _ S)) as (r' & R' & C).
    exists r'. split; [eapply repairs_again; eauto|]. destruct C as [C|[[-> ->]|C]]; auto.
    right. right. exists n, n'. auto.
Qed.
End Alike.
