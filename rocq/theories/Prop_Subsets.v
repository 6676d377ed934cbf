(** C42-C44: collections of cores. *)
From Coq Require Import Lia.
From Verif Require Import Model_Py Model_Subsets Spec_Subsets Proof_Py Proof_Concentric Proof_Subsets.
Open Scope list_scope.
Open Scope Z_scope.

(** ** C42 *)

(** After any history every collection shows exactly the cores that were added to it:
    iterating gives the chips and their cores in the order of first addition. *)
Theorem C42_set_of_cores :
  forall ops k kd s, nth_error (w_colls (run ops)) k = Some (kd, s) ->
  let h := w_heap (run ops) in
  exists added, nth_error (logs_of ops) k = Some added /\
    contents h s = grouped added /\
    (forall x y p, s_is_core h s x y p = true <-> In (x, y, p) added) /\
    (forall x y, s_is_chip s x y = true <-> exists p, In (x, y, p) added) /\
    s_len h s = Z.of_nat (List.length (nodup core_dec added)) /\
    (forall xy, s_contains_xy s xy = s_is_chip s (fst xy) (snd xy)) /\
    (forall x y p, s_contains_xyp h s (x, y, p) = s_is_core h s x y p) /\
    (forall x y, match s_getitem s (x, y) with
       | Ok r => s_is_chip s x y = true /\ cs_x (deref h r) = x /\ cs_y (deref h r) = y /\
                 cs_ids (deref h r) = firsts Z.eq_dec (on_chip (x, y) added)
       | Err e => s_is_chip s x y = false /\ e = KeyError end).
Proof.
  intros ops k kd s E h. destruct (run_inv ops) as (I1 & I2 & _).
  assert (k < List.length (logs_of ops))%nat as L by (rewrite <- I1; apply nth_error_Some; congruence).
  destruct (nth_error (logs_of ops) k) as [l|] eqn:X; [|apply nth_error_None in X; lia].
  destruct (I2 _ _ _ _ E X) as [G C]. exists l. split; auto. fold h in G, C.
  assert (forall x y p, s_is_core h s x y p = true <-> In (x, y, p) l) as IC.
  { intros x y p. unfold s_is_core. rewrite (grouped_has l (x, y) p), <- C, cont_get.
    destruct (dget xy_eqb s (x, y)) as [r|]; cbn [option_map].
    - unfold cs_contains. rewrite zmem_in. split; [eauto|]. intros (ps & A & B). congruence.
    - split; [discriminate|]. intros (ps & A & _). discriminate. }
  assert (forall x y, s_is_chip s x y = true <-> exists p, In (x, y, p) l) as IH.
  { intros x y. unfold s_is_chip. rewrite (dmem_dget xy_eqb). split.
    - intros [r Er]. assert (dget xy_eqb (grouped l) (x, y) = Some (cs_ids (deref h r))) as Q.
      { rewrite <- C, cont_get, Er. reflexivity. }
      unfold grouped in Q. rewrite dget_map in Q. destruct (in_dec _ _ _) as [J|]; [|discriminate].
      apply firsts_in in J. apply in_map_iff in J as ([a p] & A & J). unfold chip_of in A. cbn in A. subst a. eauto.
    - intros [p J]. apply grouped_has in J as (ps & A & _). rewrite <- C, cont_get in A.
      destruct (dget xy_eqb s (x, y)); [eauto|discriminate]. }
  split; [rewrite contents_cont; auto|]. split; auto. split; auto. split; [|split; [|split]]; auto.
  - unfold s_len, s_values, dvalues. rewrite map_map.
    assert (zsum (map (fun x => cs_len h (snd x)) s) = zsum (map (fun g => Z.of_nat (List.length (snd g))) (cont h s)))
      as ->.
    { unfold cont. rewrite map_map. reflexivity. }
    rewrite C.
    assert (forall gs : list (XY * list Z), zsum (map (fun g => Z.of_nat (List.length (snd g))) gs) =
      Z.of_nat (List.length (flat_map (fun g => map (fun p => (fst g, p)) (snd g)) gs))) as Q.
    { clear. induction gs as [|g gs IH]; [reflexivity|].
      cbn [map flat_map]. rewrite app_length, map_length, Nat2Z.inj_add, <- IH. reflexivity. }
    rewrite Q. f_equal. apply Permutation.Permutation_length. apply Permutation.NoDup_Permutation.
    + unfold grouped. generalize (firsts_nodup chip_dec (map chip_of l)).
      generalize (firsts chip_dec (map chip_of l)) as ks. clear. induction ks as [|k ks IH]; cbn; [constructor|].
      intros N. apply NoDup_cons_iff in N as [N1 N2]. apply nodup_app; auto.
      * apply FinFun.Injective_map_NoDup; [intros a b Q; congruence|apply firsts_nodup].
      * intros [a p] H1 H2. apply in_map_iff in H1 as (q & H1 & _). apply in_flat_map in H2 as ([b ps] & H2 & H3).
        apply in_map_iff in H2 as (b' & H2 & H4). apply in_map_iff in H3 as (q' & H3 & _). cbn in *. congruence.
    + apply NoDup_nodup.
    + intros [a p]. rewrite nodup_In, in_flat_map. rewrite grouped_has. split.
      * intros ([b ps] & H1 & H2). cbn in H2. apply in_map_iff in H2 as (q & H2 & H3). injection H2 as -> ->.
        exists ps. split; auto. apply (in_dget xy_eqb xyeqb_eq); auto.
        unfold grouped, dkeys. rewrite map_map. cbn. rewrite map_id. apply firsts_nodup.
      * intros (ps & H1 & H2). exists (a, ps). split; [apply (dget_some_in xy_eqb xyeqb_eq); auto|].
        cbn. apply in_map. auto.
  - intros x y. unfold s_getitem, dgetitem, s_is_chip, dmem. destruct (dget xy_eqb s (x, y)) as [r|] eqn:Er; auto.
    destruct (good_get _ _ _ _ G Er) as (_ & _ & Xr). injection Xr as -> ->. split; auto. split; auto. split; auto.
    apply grouped_get. rewrite <- C, cont_get, Er. reflexivity.
Qed.
Print Assumptions C42_set_of_cores.

(** The plainest histories: a new collection and calls of add_processor. *)
Theorem C42_add_processor :
  forall cores, exists s,
    w_colls (run (NewSubsets [] :: map (fun c => AddProcessor 0 (fst (fst c)) (snd (fst c)) (snd c)) cores))
      = [(Plain, s)] /\
    contents (w_heap (run (NewSubsets [] ::
        map (fun c => AddProcessor 0 (fst (fst c)) (snd (fst c)) (snd c)) cores))) s = grouped cores.
Proof.
  intros cores. set (f := fun c : core => AddProcessor 0 (fst (fst c)) (snd (fst c)) (snd c)).
  assert ((exists s, w_colls (run (NewSubsets [] :: map f cores)) = [(Plain, s)]) /\
    logs_of (NewSubsets [] :: map f cores) = [cores]) as [[s E] L].
  { induction cores as [|c cores IH] using rev_ind; [split; [exists []; reflexivity|reflexivity]|].
    rewrite map_app. cbn [map]. change (NewSubsets [] :: map f cores ++ [f c]) with ((NewSubsets [] :: map f cores) ++ [f c]).
    destruct IH as [[s E] L]. rewrite run_snoc, logs_snoc, L. unfold f at 2 4. cbn [step log_step].
    unfold add_to, is_plain. rewrite E. cbn [nth_error].
    destruct (s_add_processor _ _ _ _ _) as [h' s']. cbn. split; [eauto|].
    destruct c as [[x y] p]. reflexivity. }
  exists s. split; auto.
  destruct (C42_set_of_cores (NewSubsets [] :: map f cores) 0 Plain s) as (l & A & B & _); [rewrite E; reflexivity|].
  rewrite L in A. cbn in A. injection A as <-. exact B.
Qed.
Print Assumptions C42_add_processor.

(** Calls on one object do not reach into another: no two collections hand out the
    same subset object, and a call that is not on the collection or on one of its
    subsets leaves it as it is. *)
Definition adds_to (o : op) (k : nat) : Prop :=
  match o with
  | AddProcessor k' _ _ _ | AddSubset k' _ | AddSubsets k' _ => k' = k
  | _ => False
  end.

Theorem C42_no_sharing :
  forall ops k1 k2 c1 c2 r,
    nth_error (w_colls (run ops)) k1 = Some c1 -> nth_error (w_colls (run ops)) k2 = Some c2 ->
    In r (s_values (snd c1)) -> In r (s_values (snd c2)) -> k1 = k2.
Proof. intros ops. destruct (run_inv ops) as (_ & _ & S). exact S. Qed.
Print Assumptions C42_no_sharing.

Lemma kinds_stay w o k kd s : nth_error (w_colls w) k = Some (kd, s) ->
  exists s', nth_error (w_colls (fst (step w o))) k = Some (kd, s').
Proof.
  intros E. assert (forall l (c : kind * subsets), exists s', nth_error (w_colls w ++ l) k = Some (kd, s')) as A.
  { intros l c. exists s. rewrite nth_error_app1; auto. apply nth_error_Some. congruence. }
  assert (forall k' f, exists s', nth_error (w_colls (fst (add_to w k' f))) k = Some (kd, s')) as B.
  { intros k' f. unfold add_to. destruct (nth_error (w_colls w) k') as [[[] s']|] eqn:E'; eauto.
    destruct (f (w_heap w) s') as [h2 s2]. cbn [fst w_colls]. rewrite put_coll_nth.
    destruct (Nat.eqb_spec k k') as [->|]; eauto. rewrite E. rewrite E in E'. injection E' as -> ->. cbn. eauto. }
  destruct o; cbn [step]; eauto.
  - destruct (new_subsets _ _). cbn. apply A. exact (kd, s).
  - destruct (new_frozen _ _). cbn. apply A. exact (kd, s).
  - destruct (nth_error (w_colls w) k0) as [[]|]; eauto.
  - destruct (nth_error (w_colls w) a) as [[]|]; eauto. destruct (nth_error (w_colls w) b) as [[]|]; eauto.
    destruct (s_intersect _ _ _). cbn. apply A. exact (kd, s).
Qed.

Theorem C42_isolated :
  forall ops o k kd s,
    nth_error (w_colls (run ops)) k = Some (kd, s) -> (adds_to o k -> kd = Frozen) ->
    (forall r p, o = SubsetAdd r p -> ~ In r (s_values s)) ->
    exists s', nth_error (w_colls (run (ops ++ [o]))) k = Some (kd, s') /\
      contents (w_heap (run (ops ++ [o]))) s' = contents (w_heap (run ops)) s.
Proof.
  intros ops o k kd s E T N. destruct (kinds_stay (run ops) o k kd s E) as [s' E'].
  rewrite <- run_snoc in E'. exists s'. split; auto.
  destruct (C42_set_of_cores _ _ _ _ E) as (l & A & B & _). destruct (C42_set_of_cores _ _ _ _ E') as (l' & A' & B' & _).
  rewrite B, B'. f_equal. rewrite logs_snoc in A'.
  assert (k < List.length (logs_of ops))%nat as L by (apply nth_error_Some; congruence).
  assert (forall new, nth_error (logs_of ops ++ [new]) k = Some l) as S.
  { intros new. rewrite nth_error_app1; auto. }
  assert (forall k' new, (k' = k -> kd = Frozen) ->
    nth_error (if is_plain (run ops) k' then upd (logs_of ops) k' new else logs_of ops) k = Some l) as U.
  { intros k' new F. destruct (is_plain (run ops) k') eqn:P; auto. rewrite upd_nth, A. cbn.
    destruct (Nat.eqb_spec k k') as [<-|]; auto. exfalso. unfold is_plain in P. rewrite E in P.
    destruct kd; [|discriminate]. discriminate (F eq_refl). }
  assert (nth_error (log_step (run ops) (logs_of ops) o) k = Some l) as K; [|congruence].
  clear A'. destruct o; cbn [log_step adds_to] in *; auto.
  - rewrite combine_nth. change (option_map (fun x : list core => x ++ map (fun xy => (xy, p)) (handed_out (run ops) k r))
        (nth_error (logs_of ops) k) = Some l). rewrite A. cbn [option_map]. f_equal.
    assert (handed_out (run ops) k r = []) as ->; [|apply app_nil_r].
    unfold handed_out. rewrite E. specialize (N r p eq_refl). unfold s_values, dvalues in N.
    clear - N. induction s as [|[a q] s IH]; auto. cbn in *. destruct (Nat.eqb_spec q r); [tauto|auto].
  - destruct (exists_coll _ _ && exists_coll _ _); auto.
Qed.
Print Assumptions C42_isolated.

(** ** C43 *)

Theorem C43_intersection :
  forall ops a b ka sa kb sb,
    nth_error (w_colls (run ops)) a = Some (ka, sa) -> nth_error (w_colls (run ops)) b = Some (kb, sb) ->
    let w := run ops in let w' := run (ops ++ [Intersect a b]) in
    snd (step w (Intersect a b)) = Ok tt /\
    exists s, w_colls w' = w_colls w ++ [(Plain, s)] /\
      (forall x y p, s_is_core (w_heap w') s x y p = true <->
         s_is_core (w_heap w) sa x y p = true /\ s_is_core (w_heap w) sb x y p = true) /\
      (forall r, In r (s_values s) -> cs_ids (deref (w_heap w') r) <> []) /\
      (forall r, In r (s_values s) -> forall k c, nth_error (w_colls w) k = Some c -> ~ In r (s_values (snd c))) /\
      (forall r, (r < List.length (w_heap w))%nat -> deref (w_heap w') r = deref (w_heap w) r) /\
      forall k kd t, nth_error (w_colls w) k = Some (kd, t) ->
        contents (w_heap w') t = contents (w_heap w) t.
Proof.
  intros ops a b ka sa kb sb Ea Eb w w'. fold w in Ea, Eb.
  pose proof (run_inv ops) as I. pose proof I as (I1 & I2 & I3). fold w in I, I1, I2, I3.
  assert (forall k c, nth_error (w_colls w) k = Some c -> exists l, nth_error (logs_of ops) k = Some l) as LG.
  { intros k c E. destruct (nth_error (logs_of ops) k) eqn:X; eauto. apply nth_error_None in X.
    assert (k < List.length (w_colls w))%nat by (apply nth_error_Some; congruence). lia. }
  destruct (LG _ _ Ea) as [la La], (LG _ _ Eb) as [lb Lb].
  destruct (I2 _ _ _ _ Ea La) as [Ga Ca], (I2 _ _ _ _ Eb Lb) as [Gb Cb].
  destruct (s_intersect (w_heap w) sa sb) as [h' s] eqn:X.
  destruct (intersect_ok _ _ _ _ _ Ga Gb (cont_nodup _ _ _ Ca) X) as (G & C & L & D & R).
  assert (step w (Intersect a b) = (mkWorld h' (w_colls w ++ [(Plain, s)]), Ok tt)) as ST.
  { cbn [step]. rewrite Ea, Eb, X. auto. }
  assert (w' = mkWorld h' (w_colls w ++ [(Plain, s)])) as W'.
  { unfold w'. rewrite run_snoc. fold w. rewrite ST. auto. }
  assert (nth_error (w_colls w') (List.length (w_colls w)) = Some (Plain, s)) as En.
  { rewrite W'. cbn [w_colls]. rewrite nth_error_app2, Nat.sub_diag by auto. reflexivity. }
  split; [rewrite ST; auto|]. exists s. split; [rewrite W'; auto|].
  destruct (C42_set_of_cores _ _ _ _ En) as (l & A & _ & IC & IH & _ & _ & _ & GI).
  fold w' in IC, IH, GI.
  destruct (C42_set_of_cores _ _ _ _ Ea) as (la' & A1 & _ & IC1 & _). fold w in IC1. assert (la' = la) as -> by congruence.
  destruct (C42_set_of_cores _ _ _ _ Eb) as (lb' & B1 & _ & IC2 & _). fold w in IC2. assert (lb' = lb) as -> by congruence.
  assert (l = filter (in_log lb) (listing la)) as ->.
  { rewrite logs_snoc in A. fold w in A. cbn [log_step] in A. unfold exists_coll in A. rewrite Ea, Eb in A. cbn [andb] in A.
    rewrite I1, nth_error_app2, Nat.sub_diag in A by auto. cbn in A.
    rewrite (nth_error_nth _ _ [] La), (nth_error_nth _ _ [] Lb) in A. congruence. }
  assert (forall c, In c (listing la) <-> In c la) as LI.
  { intros [xy p]. unfold listing. rewrite in_flat_map, grouped_has. split.
    - intros ([k ps] & H1 & H2). cbn in H2. apply in_map_iff in H2 as (q & H2 & H3). injection H2 as -> ->.
      exists ps. split; auto. apply (in_dget xy_eqb xyeqb_eq); auto.
      unfold grouped, dkeys. rewrite map_map. cbn. rewrite map_id. apply firsts_nodup.
    - intros (ps & H1 & H2). exists (xy, ps). split; [apply (dget_some_in xy_eqb xyeqb_eq); auto|]. cbn. apply in_map. auto. }
  split; [|split; [|split; [|split]]].
  - intros x y p. rewrite IC, IC1, IC2, filter_In, LI. unfold in_log. destruct (in_dec core_dec (x, y, p) lb); intuition congruence.
  - intros r H. assert (exists x y, s_getitem s (x, y) = Ok r) as (x & y & Q).
    { unfold s_values, dvalues in H. apply in_map_iff in H as ([[x y] r'] & Q & H). cbn in Q. subst r'. exists x, y.
      unfold s_getitem, dgetitem. rewrite (in_dget xy_eqb xyeqb_eq s (x, y) r); auto. apply G. }
    specialize (GI x y). rewrite Q in GI. destruct GI as (Q1 & _ & _ & ->). apply IH in Q1 as [p Q1].
    apply on_chip_in in Q1. intros Q2. apply (firsts_in Z.eq_dec) in Q1. rewrite Q2 in Q1. destruct Q1.
  - intros r H k c E H'. apply R in H. pose proof (inv_ref w _ k c r I E H'). lia.
  - intros r Hr. rewrite W'. cbn [w_heap]. auto.
  - intros k kd t E. unfold contents. apply map_ext_in. intros r H. rewrite W'. cbn [w_heap].
    rewrite D; auto. apply (inv_ref w _ k (kd, t) r I E H).
Qed.
Print Assumptions C43_intersection.

(** Intersecting two subsets *)
Theorem C43_subset_intersection :
  forall h r other, (r < List.length h)%nat -> (other < List.length h)%nat ->
  exists h' c, cs_intersect h r other = (h', List.length h) /\ deref h' (List.length h) = c /\
    cs_x c = cs_x (deref h r) /\ cs_y c = cs_y (deref h r) /\
    (forall p, In p (cs_ids c) <-> In p (cs_ids (deref h r)) /\ In p (cs_ids (deref h other))) /\
    forall q, (q < List.length h)%nat -> deref h' q = deref h q.
Proof.
  intros h r other _ L. rewrite cs_intersect_eq by auto. do 2 eexists. split; [reflexivity|].
  rewrite deref_snoc. split; [reflexivity|]. cbn. split; auto. split; auto. split.
  - intros p. rewrite oset_of_in, filter_In, zmem_in. tauto.
  - intros q Lq. apply deref_app_old. auto.
Qed.
Print Assumptions C43_subset_intersection.

(** ** C44 *)

(** The add methods of a frozen collection raise and do nothing at all. *)
Theorem C44_adds_raise :
  forall w k s o, nth_error (w_colls w) k = Some (Frozen, s) -> adds_to o k ->
    step w o = (w, Err RuntimeErr).
Proof.
  intros w k s o E T. destruct o; cbn in T; try contradiction; subst; cbn [step]; unfold add_to; rewrite E; auto.
Qed.
Print Assumptions C44_adds_raise.

(** Over any further history, in which the subsets it hands out are not changed, a
    frozen collection keeps exactly the cores it was created with. *)
Fixpoint subsets_untouched (ops more : list op) (k : nat) : Prop :=
  match more with
  | [] => True
  | o :: more' =>
      (forall r p, o = SubsetAdd r p ->
         forall c, nth_error (w_colls (run ops)) k = Some c -> ~ In r (s_values (snd c))) /\
      subsets_untouched (ops ++ [o]) more' k
  end.

Theorem C44_frozen_keeps_its_cores :
  forall ops rs more,
    let k := List.length (w_colls (run ops)) in
    subsets_untouched (ops ++ [NewFrozen rs]) more k ->
    exists s, nth_error (w_colls (run (ops ++ [NewFrozen rs] ++ more))) k = Some (Frozen, s) /\
      contents (w_heap (run (ops ++ [NewFrozen rs] ++ more))) s =
        grouped (flat_map (cores_of (w_heap (run ops))) rs).
Proof.
  intros ops rs more k U. rewrite app_assoc.
  assert (exists s, nth_error (w_colls (run (ops ++ [NewFrozen rs]))) k = Some (Frozen, s) /\
      contents (w_heap (run (ops ++ [NewFrozen rs]))) s = grouped (flat_map (cores_of (w_heap (run ops))) rs)) as B.
  { rewrite run_snoc. cbn [step]. rewrite frozen_same. destruct (new_subsets _ rs) as [h' s] eqn:E. cbn [fst w_colls w_heap].
    destruct (new_coll _ _ _ _ E) as (G & C & _). exists s. split.
    - unfold k. rewrite nth_error_app2, Nat.sub_diag by auto. reflexivity.
    - rewrite contents_cont; auto. }
  revert U B. generalize (ops ++ [NewFrozen rs]) as ops1. generalize (grouped (flat_map (cores_of (w_heap (run ops))) rs)) as g.
  generalize k. clear. intros k g ops1. revert ops1. induction more as [|o more IH]; intros ops1 U B; [rewrite app_nil_r; auto|].
  cbn in U. destruct U as [U1 U2]. destruct B as (s & E & C).
  change (ops1 ++ o :: more) with (ops1 ++ [o] ++ more). rewrite app_assoc. apply IH; auto.
  destruct (C42_isolated ops1 o k Frozen s E) as (s' & E' & C'); auto.
  - intros r p ->. apply (U1 r p eq_refl _ E).
  - exists s'. split; auto. congruence.
Qed.
Print Assumptions C44_frozen_keeps_its_cores.

(** But it is not immutable: the subset it hands out can be changed. *)
Theorem C44_immutable_refuted :
  exists ops o s, w_colls (run ops) = [(Frozen, s)] /\ w_colls (run (ops ++ [o])) = [(Frozen, s)] /\
    snd (step (run ops) o) = Ok tt /\
    contents (w_heap (run ops)) s = [((0, 0), [1])] /\
    contents (w_heap (run (ops ++ [o]))) s = [((0, 0), [1; 2])].
Proof.
  exists [NewSubset 0 0 [1]; NewFrozen [O]], (SubsetAdd 1%nat 2), [((0, 0), 1%nat)].
  split; [|split; [|split; [|split]]]; vm_compute; reflexivity.
Qed.
Print Assumptions C44_immutable_refuted.

(** ** Cases *)
Definition case_ops : list op :=
  [NewSubset 0 0 [1; 2; 1]; NewSubset 1 0 [3]; NewSubsets [O]; AddProcessor 0 1 0 5;
   AddSubset 0 1%nat; AddProcessor 0 0 0 2; NewFrozen [1%nat; O]; Intersect 0 1; AddProcessor 1 7 7 7].

Example C42_case :
  map (fun c => (fst c, contents (w_heap (run case_ops)) (snd c))) (w_colls (run case_ops)) =
  [(Plain, [((0, 0), [1; 2]); ((1, 0), [5; 3])]); (Frozen, [((1, 0), [3]); ((0, 0), [1; 2])]);
   (Plain, [((0, 0), [1; 2]); ((1, 0), [3])])] /\
  map (fun c => s_len (w_heap (run case_ops)) (snd c)) (w_colls (run case_ops)) = [4; 3; 3].
Proof. split; vm_compute; reflexivity. Qed.

Example C44_case : snd (step (run case_ops) (AddProcessor 1 7 7 7)) = Err RuntimeErr /\
  subsets_untouched [NewSubset 0 0 [1]; NewFrozen [O]] [AddProcessor 0 2 2 2; SubsetAdd O 9] 0.
Proof.
  split; [vm_compute; reflexivity|]. split; [intros; discriminate|]. split; [|exact I].
  intros r p E c H. injection E as <- <-. vm_compute in H. injection H as <-. cbn. intros [H|[]]. discriminate.
Qed.

(** Two collections that share some cores of one chip, and each have a chip of their own. *)
Example C43_case :
  let ops := [NewSubsets []; AddProcessor 0 0 0 1; AddProcessor 0 0 0 2; AddProcessor 0 4 4 1;
              NewSubsets []; AddProcessor 1 0 0 2; AddProcessor 1 0 0 3; AddProcessor 1 4 4 7] in
  let w := run (ops ++ [Intersect 0 1]) in
  map (fun c => contents (w_heap w) (snd c)) (w_colls w) =
  [[((0, 0), [1; 2]); ((4, 4), [1])]; [((0, 0), [2; 3]); ((4, 4), [7])]; [((0, 0), [2])]].
Proof. vm_compute. reflexivity. Qed.
