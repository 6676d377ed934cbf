(** C42: the CoreSubset objects themselves, those a program makes and those that
    get_core_subset_for_chip gives. *)
From Coq Require Import Lia.
From Verif Require Import Model_Py Model_Subsets Spec_Subsets Proof_Py Proof_Concentric Proof_Subsets Prop_Subsets.
Open Scope list_scope.
Open Scope Z_scope.

(** The object of a chip holds the cores that were added for it.  For a chip without
    cores it is a new object without cores, of no collection; asking changes no object. *)
Theorem C42_for_chip :
  forall ops k kd s added, nth_error (w_colls (run ops)) k = Some (kd, s) -> nth_error (logs_of ops) k = Some added ->
  let h := w_heap (run ops) in
  forall x y,
    let '(h', r) := s_for_chip h s x y in
    cs_x (deref h' r) = x /\ cs_y (deref h' r) = y /\
    cs_ids (deref h' r) = firsts Z.eq_dec (on_chip (x, y) added) /\
    (In r (s_values s) <-> exists p, In (x, y, p) added) /\
    (~ In r (s_values s) -> forall k' c, nth_error (w_colls (run ops)) k' = Some c -> ~ In r (s_values (snd c))) /\
    (forall q, (q < List.length h)%nat -> deref h' q = deref h q).
Proof.
  intros ops k kd s added E L h x y. pose proof (run_inv ops) as I. pose proof I as (_ & I2 & _).
  destruct (I2 _ _ _ _ E L) as [G C]. fold h in G, C.
  destruct (C42_set_of_cores _ _ _ _ E) as (l & L' & _ & _ & IC & _ & _ & _ & GI). rewrite L in L'. injection L' as <-.
  specialize (GI x y). specialize (IC x y). unfold s_getitem, dgetitem in GI. unfold s_is_chip in *. unfold s_for_chip.
  destruct (dget xy_eqb s (x, y)) as [r|] eqn:D.
  - destruct GI as (A1 & A2 & A3 & A4). fold h in A2, A3, A4.
    split; auto. split; auto. split; auto. split; [|split; auto].
    + split; [intros _; apply IC; auto|]. intros _. destruct (good_get _ _ _ _ G D) as (J & _).
      unfold s_values, dvalues. apply in_map_iff. exists ((x, y), r). auto.
    + intros N. exfalso. apply N. destruct (good_get _ _ _ _ G D) as (J & _).
      unfold s_values, dvalues. apply in_map_iff. exists ((x, y), r). auto.
  - destruct GI as (A1 & _). rewrite new_subset. rewrite deref_snoc. cbn [cs_x cs_y cs_ids oset_of fold_left].
    assert (forall p, ~ In (x, y, p) added) as N.
    { intros p J. assert (dmem xy_eqb s (x, y) = true) as Q by (apply IC; eauto). congruence. }
    assert (forall k' c, nth_error (w_colls (run ops)) k' = Some c -> ~ In (List.length h) (s_values (snd c))) as F.
    { intros k' c E' J. pose proof (inv_ref _ _ _ _ _ I E' J). unfold h in *. lia. }
    split; auto. split; auto. split; [|split; [|split; auto]].
    + assert (on_chip (x, y) added = []) as ->; [|reflexivity].
      destruct (on_chip (x, y) added) as [|p t] eqn:O; auto. exfalso. apply (N p). apply on_chip_in. rewrite O. left. auto.
    + split.
      * intros J. exfalso. apply (F _ _ E). exact J.
      * intros [p J]. exfalso. apply (N p J).
    + intros q Lq. apply deref_app_old. auto.
Qed.
Print Assumptions C42_for_chip.

(** ** Objects of no collection *)
Definition free (w : world) (r : ref) : Prop :=
  (r < List.length (w_heap w))%nat /\
  forall k c, nth_error (w_colls w) k = Some c -> ~ In r (map snd (snd c)).

(** The cores that the calls add to the object *)
Definition added_to (r : ref) (ops : list op) : list Z :=
  flat_map (fun o => match o with SubsetAdd r' p => if Nat.eqb r' r then [p] else [] | _ => [] end) ops.

Lemma free_put w k kd s h' s' r : nth_error (w_colls w) k = Some (kd, s) -> grows (w_heap w) s h' s' -> free w r ->
  free (mkWorld h' (put_coll (w_colls w) k (kd, s'))) r /\ deref h' r = deref (w_heap w) r.
Proof.
  intros E (W1 & W2 & W3 & _) [L F]. split; [split; cbn [w_heap w_colls]|].
  - lia.
  - intros j c. rewrite put_coll_nth. destruct (Nat.eqb_spec j k) as [->|].
    + rewrite E. cbn. intros X. injection X as <-. cbn. intros J. apply W3 in J as [J|J]; [|lia].
      apply (F _ _ E J).
    + apply F.
  - apply W2; auto. apply (F _ _ E).
Qed.

Lemma free_snoc w kd h' s' r : (List.length (w_heap w) <= List.length h')%nat ->
  (forall q, In q (map snd s') -> (List.length (w_heap w) <= q)%nat) -> free w r ->
  free (mkWorld h' (w_colls w ++ [(kd, s')])) r.
Proof.
  intros H R [L F]. split; cbn [w_heap w_colls]; [lia|]. intros k c E J.
  destruct (Nat.lt_ge_cases k (List.length (w_colls w))) as [Lk|Lk].
  - rewrite nth_error_app1 in E by auto. apply (F _ _ E J).
  - rewrite nth_error_app2 in E by auto. destruct (k - List.length (w_colls w))%nat as [|n].
    + cbn in E. injection E as <-. cbn in J. apply R in J. lia.
    + cbn in E. destruct n; discriminate.
Qed.

Lemma free_more w h' r : (List.length (w_heap w) <= List.length h')%nat -> free w r -> free (mkWorld h' (w_colls w)) r.
Proof. intros H [L F]. split; cbn; auto. lia. Qed.

Lemma free_step w logs o r : inv w logs -> free w r ->
  free (fst (step w o)) r /\
  deref (w_heap (fst (step w o))) r =
    mkSubset (cs_x (deref (w_heap w) r)) (cs_y (deref (w_heap w) r))
      (fold_left oset_add (added_to r [o]) (cs_ids (deref (w_heap w) r))).
Proof.
  intros I FR. pose proof FR as [L F]. pose proof I as (I1 & I2 & I3).
  assert (forall k c, nth_error (w_colls w) k = Some c -> exists l, nth_error logs k = Some l) as LG.
  { intros k c E. destruct (nth_error logs k) eqn:X; eauto. apply nth_error_None in X.
    assert (k < List.length (w_colls w))%nat by (apply nth_error_Some; congruence). lia. }
  assert (forall c, mkSubset (cs_x c) (cs_y c) (cs_ids c) = c) as Eta by (intros []; auto).
  destruct o as [x y ps|r' p|r' other|rs|rs|k x y p|k r'|k rs|k x y|a b];
    cbn [step added_to flat_map app fold_left]; try rewrite Eta.
  - rewrite new_subset. cbn [fst w_heap]. split; [|apply deref_app_old; auto].
    apply free_more; auto. rewrite app_length. lia.
  - cbn [fst w_heap]. split; [apply free_more; auto; unfold cs_add_processor; rewrite put_length; auto|].
    unfold cs_add_processor. destruct (Nat.eqb_spec r' r) as [->|N].
    + rewrite deref_put_same by auto. reflexivity.
    + rewrite deref_put_other by auto. cbn. rewrite Eta. auto.
  - cbn [fst w_heap].
    assert (forall l h, (List.length (w_heap w) < List.length h)%nat -> deref h r = deref (w_heap w) r ->
      let h' := fold_left (fun h p => if cs_contains h other p then
          cs_add_processor h (List.length (w_heap w)) p else h) l h in
      (List.length (w_heap w) < List.length h')%nat /\ deref h' r = deref (w_heap w) r) as K.
    { induction l as [|p l IH]; intros h Lh D; cbn [fold_left]; auto.
      destruct (cs_contains h other p); [|apply IH; auto].
      apply IH; unfold cs_add_processor; [rewrite put_length; auto|].
      rewrite deref_put_other; auto. lia. }
    unfold cs_intersect. rewrite new_subset. cbn [fst].
    match goal with |- context [fold_left ?f ?l ?h] => destruct (K l h) as [K1 K2] end.
    + rewrite app_length. cbn. lia.
    + apply deref_app_old. auto.
    + split; [apply free_more; auto; lia|exact K2].
  - destruct (new_subsets (w_heap w) rs) as [h' s'] eqn:E. cbn [fst w_heap].
    destruct (new_coll _ _ _ _ E) as (_ & _ & (W1 & W2 & W3 & _)). split; [|apply W2; auto].
    apply free_snoc; auto. intros q H. apply W3 in H as [[]|H]; auto.
  - rewrite frozen_same. destruct (new_subsets (w_heap w) rs) as [h' s'] eqn:E. cbn [fst w_heap].
    destruct (new_coll _ _ _ _ E) as (_ & _ & (W1 & W2 & W3 & _)). split; [|apply W2; auto].
    apply free_snoc; auto. intros q H. apply W3 in H as [[]|H]; auto.
  - unfold add_to. destruct (nth_error (w_colls w) k) as [[[] s]|] eqn:E; auto.
    destruct (s_add_processor (w_heap w) s x y p) as [h' s'] eqn:X. cbn [fst w_heap].
    destruct (LG _ _ E) as [l El]. destruct (I2 _ _ _ _ E El) as [G C].
    destruct (add_proc _ _ _ _ _ _ _ G X) as (_ & _ & W). apply (free_put w k Plain s); auto.
  - unfold add_to. destruct (nth_error (w_colls w) k) as [[[] s]|] eqn:E; auto.
    destruct (s_add_core_subset (w_heap w) s r') as [h' s'] eqn:X. cbn [fst w_heap].
    destruct (LG _ _ E) as [l El]. destruct (I2 _ _ _ _ E El) as [G C].
    destruct (add_subset _ _ _ _ _ G X) as (_ & _ & W). apply (free_put w k Plain s); auto.
  - unfold add_to. destruct (nth_error (w_colls w) k) as [[[] s]|] eqn:E; auto.
    destruct (s_add_core_subsets (w_heap w) s rs) as [h' s'] eqn:X. cbn [fst w_heap].
    destruct (LG _ _ E) as [l El]. destruct (I2 _ _ _ _ E El) as [G C].
    destruct (add_subsets _ _ _ _ _ G X) as (_ & _ & W). apply (free_put w k Plain s); auto.
  - destruct (nth_error (w_colls w) k) as [[kd s]|] eqn:E; auto. cbn [fst w_heap]. unfold s_for_chip.
    destruct (dget xy_eqb s (x, y)); [cbn [fst]; split; auto|]. rewrite new_subset. cbn [fst].
    split; [apply free_more; auto; rewrite app_length; lia|apply deref_app_old; auto].
  - destruct (nth_error (w_colls w) a) as [[ka sa]|] eqn:Ea; [|auto].
    destruct (nth_error (w_colls w) b) as [[kb sb]|] eqn:Eb; [|auto].
    destruct (LG _ _ Ea) as [la La], (LG _ _ Eb) as [lb Lb].
    destruct (I2 _ _ _ _ Ea La) as [Ga Ca], (I2 _ _ _ _ Eb Lb) as [Gb Cb].
    destruct (s_intersect (w_heap w) sa sb) as [h' s'] eqn:X. cbn [fst w_heap].
    destruct (intersect_ok _ _ _ _ _ Ga Gb (cont_nodup _ _ _ Ca) X) as (_ & _ & Lh & D & R).
    split; [apply free_snoc; auto|apply D; auto].
Qed.

Lemma free_run ops more r : free (run ops) r ->
  free (run (ops ++ more)) r /\
  deref (w_heap (run (ops ++ more))) r =
    mkSubset (cs_x (deref (w_heap (run ops)) r)) (cs_y (deref (w_heap (run ops)) r))
      (fold_left oset_add (added_to r more) (cs_ids (deref (w_heap (run ops)) r))).
Proof.
  intros F. induction more as [|o more IH] using rev_ind.
  - rewrite app_nil_r. split; auto. cbn. destruct (deref _ r); auto.
  - rewrite app_assoc, run_snoc. destruct IH as [F' D].
    destruct (free_step _ _ o r (run_inv (ops ++ more)) F') as [F2 D2]. split; auto.
    rewrite D2, D. cbn [cs_x cs_y cs_ids]. f_equal. unfold added_to. rewrite flat_map_app, fold_left_app. auto.
Qed.

Lemma oset_adds l l' : fold_left oset_add l' (firsts Z.eq_dec l) = firsts Z.eq_dec (l ++ l').
Proof.
  revert l. induction l' as [|p l' IH]; intros l; cbn [fold_left]; [rewrite app_nil_r; auto|].
  rewrite oset_firsts, IH, <- app_assoc. auto.
Qed.

(** CoreSubset(x, y, ps): over any history its cores are those it was made with and those
    later added to it by its own add_processor, in the order of first addition. *)
Theorem C42_subset_object :
  forall ops x y ps more,
  let r := snd (new_core_subset (w_heap (run ops)) x y ps) in
  let h := w_heap (run (ops ++ [NewSubset x y ps] ++ more)) in
  let cores := ps ++ added_to r more in
    cs_x (deref h r) = x /\ cs_y (deref h r) = y /\
    cs_ids (deref h r) = firsts Z.eq_dec cores /\
    (forall p, cs_contains h r p = true <-> In p cores) /\
    cs_len h r = Z.of_nat (List.length (nodup Z.eq_dec cores)).
Proof.
  intros ops x y ps more r h cores. assert (r = List.length (w_heap (run ops))) as Er by (unfold r; rewrite new_subset; auto).
  assert (free (run (ops ++ [NewSubset x y ps])) r /\
    deref (w_heap (run (ops ++ [NewSubset x y ps]))) r = mkSubset x y (firsts Z.eq_dec ps)) as [F D].
  { rewrite run_snoc. cbn [step]. rewrite new_subset. cbn [fst w_heap w_colls]. split.
    - split; cbn [w_heap w_colls]; [rewrite app_length; cbn; lia|]. intros k c E J.
      pose proof (inv_ref _ _ _ _ _ (run_inv ops) E J). lia.
    - rewrite Er, deref_snoc. f_equal. change (oset_of ps) with (fold_left oset_add ps (firsts Z.eq_dec [])).
      apply oset_adds. }
  destruct (free_run _ more r F) as [_ D']. rewrite D in D'. cbn [cs_x cs_y cs_ids] in D'. rewrite oset_adds in D'.
  rewrite <- app_assoc in D'. fold h cores in D'.
  rewrite D'. cbn [cs_x cs_y cs_ids]. split; auto. split; auto. split; auto.
  unfold cs_contains, cs_len. rewrite D'. cbn [cs_ids]. split.
  - intros p. rewrite zmem_in. apply firsts_in.
  - f_equal. unfold firsts. rewrite rev_length. apply Permutation.Permutation_length.
    apply Permutation.NoDup_Permutation; try apply NoDup_nodup.
    intros p. rewrite !nodup_In, <- in_rev. tauto.
Qed.
Print Assumptions C42_subset_object.

Example C42_object_case :
  let h := w_heap (run ([NewSubset 1 2 [3; 4; 3]] ++ [NewSubsets [O]; SubsetAdd 0%nat 7; SubsetAdd 1%nat 9; AddProcessor 0 1 2 8])) in
  cs_ids (deref h 0%nat) = [3; 4; 7] /\ cs_ids (deref h 1%nat) = [3; 4; 9; 8] /\
  (let '(h', r) := s_for_chip h [((1, 2), 1%nat)] 5 5 in r = 2%nat /\ cs_ids (deref h' r) = []) /\
  snd (s_for_chip h [((1, 2), 1%nat)] 1 2) = 1%nat.
Proof. split; [|split; [|split]]; vm_compute; auto. Qed.
