From Coq Require Import Lia ZifyBool Permutation.
From Verif Require Import Model_Py Model_Wrap Model_Version Model_Core Model_Machine
  Spec_Hops Spec_Board Spec_Machine Proof_Wrap Proof_Concentric Proof_Py Proof_Board
  Proof_Machine.

(** ** Filling a dictionary *)
Section Fill.
  Context {K V : Type} (eqb : K -> K -> bool).
  Hypothesis eqb_eq : forall a b, eqb a b = true <-> a = b.

  Definition fill (d : dict K V) (kvs : list (K * V)) : dict K V :=
    fold_left (fun d kv => dset eqb d (fst kv) (snd kv)) kvs d.

  Lemma fill_app d a b : fill d (a ++ b) = fill (fill d a) b.
  Proof. apply fold_left_app. Qed.

  Lemma fill_get kvs : forall d k v,
    dget eqb (fill d kvs) k = Some v ->
    In (k, v) kvs \/ dget eqb d k = Some v.
  Proof.
    induction kvs as [|[k' v'] kvs IH]; intros d k v; cbn; [auto|].
    intros H. apply IH in H as [H|H]; [auto|].
    rewrite (dget_dset eqb eqb_eq) in H. destruct (eqb k' k) eqn:E; [|auto].
    apply eqb_eq in E. injection H as ->. subst. auto.
  Qed.

  Lemma fill_has kvs : forall d k, In k (map fst kvs) -> exists v, dget eqb (fill d kvs) k = Some v.
  Proof.
    assert (forall l d k v, dget eqb d k = Some v -> exists v', dget eqb (fill d l) k = Some v')
      as M.
    { induction l as [|[k' v'] l IH]; intros d k v H; cbn; [eauto|].
      destruct (eqb_dec_spec eqb eqb_eq k' k) as [[-> E]|[N E]].
      - apply (IH _ _ v'). rewrite (dget_dset eqb eqb_eq), E. auto.
      - apply (IH _ _ v). rewrite (dget_dset eqb eqb_eq), E. auto. }
    induction kvs as [|[k' v'] kvs IH]; intros d k; cbn; [tauto|].
    intros [<-|H]; [|exact (IH _ _ H)]. apply (M kvs _ _ v').
    rewrite (dget_dset eqb eqb_eq), (eqb_refl eqb eqb_eq). auto.
  Qed.

  Lemma fill_functional kvs k v :
    (forall k v v', In (k, v) kvs -> In (k, v') kvs -> v = v') ->
    dget eqb (fill [] kvs) k = Some v <-> In (k, v) kvs.
  Proof.
    intros F. split.
    - intros H. apply fill_get in H as [H|H]; [auto|discriminate].
    - intros H. destruct (fill_has kvs [] k) as [v' H'].
      { apply in_map_iff. exists (k, v). auto. }
      pose proof H' as H''. apply fill_get in H'' as [H''|H'']; [|discriminate].
      rewrite H'. f_equal. eapply F; eauto.
  Qed.
End Fill.

Lemma place_eqb_eq a b : place_eqb a b = true <-> a = b.
Proof.
  destruct a, b; cbn; try (split; discriminate).
  - rewrite String.eqb_eq. split; congruence.
  - rewrite xyeqb_eq. split; congruence.
Qed.

Lemma spin_key_eq a b : spin_key_eqb a b = true <-> a = b.
Proof.
  destruct a as [p i], b as [p' i']. unfold spin_key_eqb. cbn.
  rewrite andb_true_iff, place_eqb_eq, Z.eqb_eq. split; [intros [-> ->]; auto|].
  intros E. injection E. auto.
Qed.

Lemma fpga_key_eq a b : fpga_key_eqb a b = true <-> a = b.
Proof.
  destruct a as [[p i] j], b as [[p' i'] j']. unfold fpga_key_eqb. cbn.
  rewrite !andb_true_iff, place_eqb_eq, !Z.eqb_eq. split; [intros [[-> ->] ->]; auto|].
  intros E. injection E. auto.
Qed.

(** ** SpiNNaker links *)
Definition spin_pairs1 (m : machine) (ip : string) (e : chip) (s : Z * (Z * Z * Z))
  : list (spin_key * spin_link_data) :=
  let '(s_id, (lx, ly, l)) := s in
  let '(gx, gy) := m_global m lx ly (c_x e) (c_y e) in
  match get_chip_at m gx gy with
  | Some c => if negb (is_link (c_router c) l)
              then [((Board ip, s_id), mkSpinLink s_id gx gy l ip);
                    ((AtXY (gx, gy), s_id), mkSpinLink s_id gx gy l ip)] else []
  | None => []
  end.

Definition spin_pairs (v : vid) (m : machine) (e : chip) : list (spin_key * spin_link_data) :=
  match c_ip e with
  | None => []
  | Some ip => flat_map (spin_pairs1 m ip e) (enumerate (spinnaker_links v))
  end.

Lemma spin_pairs1_same m m' ip e s : same_but_links m m' ->
  spin_pairs1 m' ip e s = spin_pairs1 m ip e s.
Proof.
  intros S. destruct s as [i [[lx ly] l]]. unfold spin_pairs1, m_global, get_chip_at.
  unfold same_but_links in S. destruct S as (-> & -> & -> & _ & _ & _ & -> & _). reflexivity.
Qed.

Lemma spin_step_pairs m ip e s :
  m_spin (add_spinnaker_step ip e m s) = fill spin_key_eqb (m_spin m) (spin_pairs1 m ip e s).
Proof.
  destruct s as [i [[lx ly] l]]. unfold add_spinnaker_step, spin_pairs1.
  destruct (m_global m lx ly (c_x e) (c_y e)) as [gx gy].
  destruct (get_chip_at m gx gy) as [c|]; [|reflexivity].
  destruct (negb (is_link (c_router c) l)); reflexivity.
Qed.

Lemma spin_steps_pairs m0 ip e ss : forall m, same_but_links m0 m ->
  m_spin (fold_left (add_spinnaker_step ip e) ss m) =
  fill spin_key_eqb (m_spin m) (flat_map (spin_pairs1 m0 ip e) ss).
Proof.
  induction ss as [|s ss IH]; intros m S; cbn [fold_left flat_map]; [reflexivity|].
  rewrite IH by (eapply same_trans; [exact S|apply spin_step_same]).
  rewrite spin_step_pairs, fill_app, (spin_pairs1_same m0 m) by auto. reflexivity.
Qed.

Lemma spin_fold_pairs v m0 es : forall m m', same_but_links m0 m ->
  fold_res (fun m e =>
    match c_ip e with
    | None => Err AssertionError
    | Some ip => Ok (fold_left (add_spinnaker_step ip e) (enumerate (spinnaker_links v)) m)
    end) es m = Ok m' ->
  m_spin m' = fill spin_key_eqb (m_spin m) (flat_map (spin_pairs v m0) es) /\
  m_fpga m' = m_fpga m.
Proof.
  assert (forall ip e ss m, m_fpga (fold_left (add_spinnaker_step ip e) ss m) = m_fpga m) as MF.
  { induction ss as [|s ss IH]; intros m; cbn [fold_left]; auto. rewrite IH.
    destruct s as [i [[lx ly] l]]. cbn. destruct (m_global m lx ly (c_x e) (c_y e)) as [gx gy].
    destruct (get_chip_at m gx gy) as [c|]; [destruct (negb (is_link (c_router c) l))|]; auto. }
  induction es as [|e es IH]; intros m m' S E; cbn [fold_res flat_map] in E |- *.
  - apply Ok_inj in E. subst. auto.
  - destruct (c_ip e) as [ip|] eqn:I; [|discriminate]. cbn [bind] in E.
    apply IH in E as [E F];
      [|eapply same_trans; [exact S|apply spin_steps_same]].
    rewrite E, F, fill_app, MF. split; auto. f_equal.
    unfold spin_pairs. rewrite I. apply spin_steps_pairs. auto.
Qed.

Lemma spin_place_table v id p : 0 <= id ->
  spin_place v id p <-> nth_error (spinnaker_links v) (Z.to_nat id) = Some p.
Proof.
  intros P. assert (id = 0 \/ id = 1 \/ 2 <= id) as [->|[->|L]] by lia.
  - destruct v; cbn; split; try discriminate; try tauto.
    + intros [[_ ->]|[X _]]; [reflexivity|discriminate X].
    + intros [= <-]. auto.
    + intros [_ ->]. reflexivity.
    + intros [= <-]. auto.
  - destruct v; cbn; split; try discriminate; try tauto.
    + intros [[X _]|[_ ->]]; [discriminate X|reflexivity].
    + intros [= <-]. auto.
    + intros [X _]. discriminate X.
  - assert (nth_error (spinnaker_links v) (Z.to_nat id) = None) as ->.
    { apply nth_error_None. destruct v; cbn [spinnaker_links List.length]; lia. }
    split; [|discriminate]. destruct v; cbn [spin_place]; lia.
Qed.

Lemma in_spin_pairs v m e k d : In e (m_eth m) ->
  In (k, d) (spin_pairs v m e) <->
  exists id, spin_present v m e id d /\
     (k = (Board (sl_addr d), id) \/ k = (AtXY (sl_x d, sl_y d), id)).
Proof.
  intros He. unfold spin_pairs, spin_present. split.
  - destruct (c_ip e) as [ip|] eqn:I; [|intros []]. intros H.
    apply in_flat_map in H as ((id & [[lx ly] l]) & Hs & H).
    apply enumerate_in in Hs as [H0 Hs]. unfold spin_pairs1 in H.
    destruct (m_global m lx ly (c_x e) (c_y e)) as [gx gy] eqn:G.
    destruct (get_chip_at m gx gy) as [c|] eqn:C; [|destruct H].
    destruct (is_link (c_router c) l) eqn:L; cbn in H; [destruct H|].
    exists id. split.
    + exists lx, ly, l, gx, gy, c, ip. apply spin_place_table in Hs; auto. repeat split; auto.
      destruct H as [H|[H|[]]]; congruence.
    + destruct H as [H|[H|[]]]; injection H as <- <-; cbn; auto.
  - intros (id & (lx & ly & l & gx & gy & c & a & _ & I & H0 & Hs & G & C & L & ->) & Hk).
    apply spin_place_table in Hs; auto.
    rewrite I. apply in_flat_map. exists (id, (lx, ly, l)). split; [apply enumerate_in; auto|].
    unfold spin_pairs1. rewrite G, C, L. cbn in Hk |- *. destruct Hk as [->| ->]; auto.
Qed.

Lemma m_global_red m lx ly ex ey :
  m_global m lx ly ex ey = red (m_kind m) (m_width m) (m_height m) (vadd (lx, ly) (ex, ey)).
Proof. unfold m_global. rewrite global_red. reflexivity. Qed.

Lemma global_on_board m lx ly ex ey : In (lx, ly) (dkeys (m_ccm m)) ->
  In (m_global m lx ly ex ey) (m_xys m ex ey).
Proof.
  intros H. rewrite m_global_red. unfold m_xys. rewrite xys_red. apply in_map_iff.
  exists (lx, ly). auto.
Qed.

Lemma spin_links_on_board v id lx ly l :
  nth_error (spinnaker_links v) id = Some (lx, ly, l) -> In (lx, ly) (expected_xys v).
Proof.
  intros H. apply nth_error_In in H. apply xymem_in.
  destruct v; cbn in H; intuition (try congruence);
    match goal with H : (_, _, _) = _ |- _ => injection H as <- <- <- end; reflexivity.
Qed.

Lemma spin_functional v m : boards_apart v m -> forall k d d',
  In (k, d) (flat_map (spin_pairs v m) (m_eth m)) ->
  In (k, d') (flat_map (spin_pairs v m) (m_eth m)) -> d = d'.
Proof.
  intros (CC & A & B) k d d' H H'.
  apply in_flat_map in H as (e & He & H). apply in_flat_map in H' as (e' & He' & H').
  apply in_spin_pairs in H as (id & P & K); auto.
  apply in_spin_pairs in H' as (id' & P' & K'); auto.
  destruct P as (lx & ly & l & gx & gy & c & a & _ & I & H0 & Hs & G & C & L & ->).
  destruct P' as (lx' & ly' & l' & gx' & gy' & c' & a' & _ & I' & H0' & Hs' & G' & C' & L' & ->).
  cbn [sl_addr sl_x sl_y] in K, K'.
  assert (id = id') as <- by (destruct K as [K|K], K' as [K'|K']; congruence).
  apply spin_place_table in Hs; auto. apply spin_place_table in Hs'; auto.
  rewrite Hs in Hs'. injection Hs' as <- <- <-.
  assert (e = e') as <-.
  { apply A; auto. destruct K as [K|K], K' as [K'|K']; try congruence.
    - left. congruence.
    - right. exists (gx, gy). assert ((gx, gy) = (gx', gy')) as E by congruence.
      apply spin_links_on_board in Hs.
      assert (In (lx, ly) (dkeys (m_ccm m))) as D by (rewrite CC; exact Hs).
      split; [rewrite <- G|rewrite E, <- G']; apply global_on_board; auto. }
  congruence.
Qed.

Lemma spin_lookup v m m' : m_spin m = [] -> boards_apart v m ->
  add_spinnaker_links v m = Ok m' -> same_but_links m m' ->
  forall k d, dget spin_key_eqb (m_spin m') k = Some d <->
    exists e id, spin_present v m e id d /\
      (k = (Board (sl_addr d), id) \/ k = (AtXY (sl_x d, sl_y d), id)).
Proof.
  intros N A E S k d. apply (spin_fold_pairs v m) in E as [E _]; [|apply same_refl].
  rewrite N in E. rewrite E, (fill_functional _ spin_key_eq) by (apply spin_functional; auto).
  rewrite in_flat_map. split.
  - intros (e & He & H). apply in_spin_pairs in H as (id & H); eauto.
  - intros (e & id & P & K). assert (In e (m_eth m)) as He
      by (destruct P as (? & ? & ? & ? & ? & ? & ? & P); apply P).
    exists e. split; auto. apply in_spin_pairs; eauto.
Qed.

(** ** FPGA links *)
Definition fpga_pairs1 (m : machine) (ip : string) (e : chip) (s : Z * Z * Z * Z * Z)
  : list (fpga_key * fpga_link_data) :=
  let '(lx, ly, l, f, fl) := s in
  let '(gx, gy) := m_global m lx ly (c_x e) (c_y e) in
  match get_chip_at m gx gy with
  | Some c => let d := mkFpgaLink fl f (c_x c) (c_y c) l ip in
              [((Board ip, f, fl), d); ((AtXY (c_x c, c_y c), f, fl), d);
               ((AtXY (c_x e, c_y e), f, fl), d)]
  | None => []
  end.

Definition fpga_pairs (v : vid) (m : machine) (e : chip) : list (fpga_key * fpga_link_data) :=
  match c_ip e with
  | None => []
  | Some ip => flat_map (fpga_pairs1 m ip e) (fpga_links v)
  end.

Lemma fpga_pairs1_same m m' ip e s : same_but_links m m' ->
  fpga_pairs1 m' ip e s = fpga_pairs1 m ip e s.
Proof.
  intros S. destruct s as [[[[lx ly] l] f] fl]. unfold fpga_pairs1, m_global, get_chip_at.
  unfold same_but_links in S. destruct S as (-> & -> & -> & _ & _ & _ & -> & _). reflexivity.
Qed.

Lemma fpga_step_pairs m ip e s :
  m_fpga (add_fpga_step ip e m s) = fill fpga_key_eqb (m_fpga m) (fpga_pairs1 m ip e s).
Proof.
  destruct s as [[[[lx ly] l] f] fl]. unfold add_fpga_step, fpga_pairs1.
  destruct (m_global m lx ly (c_x e) (c_y e)) as [gx gy].
  destruct (get_chip_at m gx gy) as [c|]; reflexivity.
Qed.

Lemma fpga_steps_pairs m0 ip e ss : forall m, same_but_links m0 m ->
  m_fpga (fold_left (add_fpga_step ip e) ss m) =
  fill fpga_key_eqb (m_fpga m) (flat_map (fpga_pairs1 m0 ip e) ss).
Proof.
  induction ss as [|s ss IH]; intros m S; cbn [fold_left flat_map]; [reflexivity|].
  rewrite IH by (eapply same_trans; [exact S|apply fpga_step_same]).
  rewrite fpga_step_pairs, fill_app, (fpga_pairs1_same m0 m) by auto. reflexivity.
Qed.

Lemma fpga_fold_pairs v m0 es : forall m m', same_but_links m0 m ->
  fold_res (fun m e =>
    match c_ip e with
    | None => Err AssertionError
    | Some ip => Ok (fold_left (add_fpga_step ip e) (fpga_links v) m)
    end) es m = Ok m' ->
  m_fpga m' = fill fpga_key_eqb (m_fpga m) (flat_map (fpga_pairs v m0) es) /\
  m_spin m' = m_spin m.
Proof.
  assert (forall ip e ss m, m_spin (fold_left (add_fpga_step ip e) ss m) = m_spin m) as MF.
  { induction ss as [|s ss IH]; intros m; cbn [fold_left]; auto. rewrite IH.
    destruct s as [[[[lx ly] l] f] fl]. cbn.
    destruct (m_global m lx ly (c_x e) (c_y e)) as [gx gy].
    destruct (get_chip_at m gx gy) as [c|]; auto. }
  induction es as [|e es IH]; intros m m' S E; cbn [fold_res flat_map] in E |- *.
  - apply Ok_inj in E. subst. auto.
  - destruct (c_ip e) as [ip|] eqn:I; [|discriminate]. cbn [bind] in E.
    apply IH in E as [E F];
      [|eapply same_trans; [exact S|apply fpga_steps_same]].
    rewrite E, F, fill_app, MF. split; auto. f_equal.
    unfold fpga_pairs. rewrite I. apply fpga_steps_pairs. auto.
Qed.

Lemma in_fpga_pairs v m e k d : wf m -> In e (m_eth m) ->
  In (k, d) (fpga_pairs v m e) <->
  exists f fl, fpga_present v m e f fl d /\
     (k = (Board (fl_addr d), f, fl) \/ k = (AtXY (fl_x d, fl_y d), f, fl) \/
      k = (AtXY (c_xy e), f, fl)).
Proof.
  intros W He. unfold fpga_pairs, fpga_present. split.
  - destruct (c_ip e) as [ip|] eqn:I; [|intros []]. intros H.
    apply in_flat_map in H as ([[[[lx ly] l] f] fl] & Hs & H). unfold fpga_pairs1 in H.
    destruct (m_global m lx ly (c_x e) (c_y e)) as [gx gy] eqn:G.
    destruct (get_chip_at m gx gy) as [c|] eqn:C; [|destruct H].
    apply (get_chip_in m gx gy c W) in C as CX. destruct CX as [_ CX].
    unfold c_xy in CX. injection CX as CX CY. rewrite CX, CY in H.
    exists f, fl. split.
    + exists lx, ly, l, gx, gy, c, ip. repeat split; auto.
      destruct H as [H|[H|[H|[]]]]; congruence.
    + destruct H as [H|[H|[H|[]]]]; injection H as <- <-; cbn; auto.
  - intros (f & fl & (lx & ly & l & gx & gy & c & a & _ & I & Hs & G & C & ->) & Hk).
    rewrite I. apply in_flat_map. exists (lx, ly, l, f, fl). split; auto.
    unfold fpga_pairs1. rewrite G, C.
    apply (get_chip_in m gx gy c W) in C as CX. destruct CX as [_ CX].
    unfold c_xy in CX. injection CX as CX CY. rewrite CX, CY.
    cbn in Hk |- *. unfold c_xy in Hk. destruct Hk as [->|[->| ->]]; auto.
Qed.

Lemma fpga_links_on_board v lx ly l f fl :
  In (lx, ly, l, f, fl) (fpga_links v) -> In (lx, ly) (expected_xys v).
Proof.
  destruct v; [intros []| |intros []|intros []]. intros H.
  assert (forallb (fun s : Z * Z * Z * Z * Z => let '(x, y, _, _, _) := s in
     xymem (expected_xys V5) (x, y)) (fpga_links V5) = true) as F by (vm_compute; reflexivity).
  rewrite forallb_forall in F. specialize (F _ H). cbv beta iota in F. apply xymem_in. exact F.
Qed.

Lemma fpga_links_unique v lx ly l lx' ly' l' f fl :
  In (lx, ly, l, f, fl) (fpga_links v) -> In (lx', ly', l', f, fl) (fpga_links v) ->
  (lx, ly, l) = (lx', ly', l').
Proof.
  destruct v; [intros []| |intros []|intros []]. intros H H'.
  assert (forallb (fun s : Z * Z * Z * Z * Z => forallb (fun s' : Z * Z * Z * Z * Z =>
     let '(x, y, l, f, fl) := s in let '(x', y', l', f', fl') := s' in
     implb ((f =? f') && (fl =? fl')) ((x =? x') && (y =? y') && (l =? l')))
     (fpga_links V5)) (fpga_links V5) = true) as F by (vm_compute; reflexivity).
  rewrite forallb_forall in F. specialize (F _ H). rewrite forallb_forall in F.
  specialize (F _ H'). cbv beta iota in F. rewrite !Z.eqb_refl in F. cbn [implb andb] in F.
  rewrite !andb_true_iff, !Z.eqb_eq in F. destruct F as [[-> ->] ->]. reflexivity.
Qed.

Lemma fpga_functional v m : wf m -> boards_apart v m -> forall k d d',
  In (k, d) (flat_map (fpga_pairs v m) (m_eth m)) ->
  In (k, d') (flat_map (fpga_pairs v m) (m_eth m)) -> d = d'.
Proof.
  intros W (CC & A & B) k d d' H H'.
  apply in_flat_map in H as (e & He & H). apply in_flat_map in H' as (e' & He' & H').
  apply in_fpga_pairs in H as (f & fl & P & K); auto.
  apply in_fpga_pairs in H' as (f' & fl' & P' & K'); auto.
  destruct P as (lx & ly & l & gx & gy & c & a & _ & I & Hs & G & C & ->).
  destruct P' as (lx' & ly' & l' & gx' & gy' & c' & a' & _ & I' & Hs' & G' & C' & ->).
  cbn [fl_addr fl_x fl_y] in K, K'.
  assert (f = f' /\ fl = fl') as [<- <-]
    by (destruct K as [K|[K|K]], K' as [K'|[K'|K']]; split; congruence).
  pose proof (fpga_links_unique _ _ _ _ _ _ _ _ _ Hs Hs') as X. injection X as <- <- <-.
  assert (In (gx, gy) (m_xys m (c_x e) (c_y e))) as Q.
  { rewrite <- G. apply global_on_board. rewrite CC. eapply fpga_links_on_board; eauto. }
  assert (In (gx', gy') (m_xys m (c_x e') (c_y e'))) as Q'.
  { rewrite <- G'. apply global_on_board. rewrite CC. eapply fpga_links_on_board; eauto. }
  pose proof (proj2 (B e He)) as QE. pose proof (proj2 (B e' He')) as QE'.
  assert (e = e') as <-.
  { apply A; auto.
    destruct K as [K|[K|K]], K' as [K'|[K'|K']]; try congruence.
    - left. congruence.
    - right. exists (gx, gy). split; auto. assert ((gx, gy) = (gx', gy')) as -> by congruence. auto.
    - right. exists (gx, gy). split; auto. assert ((gx, gy) = c_xy e') as -> by congruence. auto.
    - right. exists (c_xy e). split; auto. assert (c_xy e = (gx', gy')) as -> by congruence. auto.
    - right. exists (c_xy e). split; auto. assert (c_xy e = c_xy e') as -> by congruence. auto. }
  congruence.
Qed.

Lemma fpga_lookup v m m' : wf m -> m_fpga m = [] -> boards_apart v m ->
  add_fpga_links v m = Ok m' -> same_but_links m m' ->
  forall k d, dget fpga_key_eqb (m_fpga m') k = Some d <->
    exists e f fl, fpga_present v m e f fl d /\
      (k = (Board (fl_addr d), f, fl) \/ k = (AtXY (fl_x d, fl_y d), f, fl) \/
       k = (AtXY (c_xy e), f, fl)).
Proof.
  intros W N A E S k d. apply (fpga_fold_pairs v m) in E as [E _]; [|apply same_refl].
  rewrite N in E. rewrite E, (fill_functional _ fpga_key_eq) by (apply fpga_functional; auto).
  rewrite in_flat_map. split.
  - intros (e & He & H). apply in_fpga_pairs in H as (f & fl & H); eauto.
  - intros (e & f & fl & P & K). assert (In e (m_eth m)) as He
      by (destruct P as (? & ? & ? & ? & ? & ? & ? & P); apply P).
    exists e. split; auto. apply in_fpga_pairs; eauto.
Qed.

Lemma made_of_chips_wf m : made_of_chips m -> wf m /\ m_spin m = [] /\ m_fpga m = [].
Proof.
  intros (k & w & h & ccm & o & v & cs & ->).
  assert (forall cs m, wf m -> m_spin m = [] -> m_fpga m = [] ->
    let m' := fst (history v m (map CallAddChip cs)) in
    wf m' /\ m_spin m' = [] /\ m_fpga m' = []) as K.
  { clear. induction cs as [|c cs IH]; intros m W S F; cbn [map history]; [auto|].
    cbn [exec]. pose proof (add_chip_wf m c W) as A.
    destruct (add_chip m c) as [m1|e].
    - destruct A as (W1 & _ & _ & _ & _ & _ & S1 & F1 & _).
      specialize (IH m1 W1). destruct (history v m1 (map CallAddChip cs)).
      apply IH; congruence.
    - specialize (IH m W S F). destruct (history v m (map CallAddChip cs)). exact IH. }
  apply K; auto. apply wf_new.
Qed.
