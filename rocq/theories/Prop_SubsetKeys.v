(** C102: comparing CoreSubset objects and using them as keys. *)
From Coq Require Import Lia String Ascii.
From Verif Require Import Model_Py Model_Virtual Model_Text Model_Routing Model_Subsets Model_Repr Model_Iter Model_SubsetsIter
  Model_SubsetKeys Spec_Str Spec_Routing Spec_Subsets Spec_Iter Spec_SubsetKeys Proof_Py Proof_Str Proof_Virtual Proof_Routing Proof_Repr
  Proof_Subsets Proof_Iter Prop_Subsets Prop_SubsetsIter.
Open Scope string_scope.
Open Scope list_scope.
Open Scope Z_scope.

(** ** Equality *)
Lemma same_iff a b : same_subset a b = true <-> same_cores a b.
Proof.
  unfold same_subset, same_cores. rewrite !andb_true_iff, !Z.eqb_eq, !forallb_forall. split.
  - intros ((A & B) & C & D). split; [exact A|]. split; [exact B|]. intros p. split; intros I; [apply zmem_in, C, I|apply zmem_in, D, I].
  - intros (A & B & C). split; [auto|]. split; intros p I; apply zmem_in, C, I.
Qed.

Lemma same_refl a : same_cores a a.
Proof. split; [reflexivity|]. split; [reflexivity|]. reflexivity. Qed.
Lemma same_sym a b : same_cores a b -> same_cores b a.
Proof. intros (A & B & C). split; [auto|]. split; [auto|]. intros p. symmetry. apply C. Qed.
Lemma same_trans a b c : same_cores a b -> same_cores b c -> same_cores a c.
Proof. intros (A & B & C) (A' & B' & C'). split; [congruence|]. split; [congruence|]. intros p. rewrite C. apply C'. Qed.

Lemma frozenset_nodup l : NoDup (frozenset l).
Proof. apply set_adds_nodup; [intros; apply Z.eqb_eq|constructor]. Qed.
Lemma frozenset_in l p : In p (frozenset l) <-> In p l.
Proof. unfold frozenset. rewrite set_adds_in by (intros; apply Z.eqb_eq). cbn. tauto. Qed.

Lemma same_hash hash a b : same_cores a b -> content_hash hash a = content_hash hash b.
Proof.
  intros (A & B & C). unfold content_hash. rewrite A, B. do 2 f_equal.
  apply sorted_same; [apply frozenset_nodup..|]. intros p. rewrite !frozenset_in. apply C.
Qed.

(** ** No core is twice in a subset *)
Definition each_once (h : heap) : Prop := forall r, NoDup (cs_ids (deref h r)).

Lemma once_add h r p : each_once h -> each_once (cs_add_processor h r p).
Proof.
  intros H q. unfold cs_add_processor. rewrite deref_put. destruct (_ && _)%bool; [|apply H]. cbn [cs_ids]. apply oset_add_nodup, H.
Qed.
Lemma once_snoc h x y ps : each_once h -> each_once (h ++ [mkSubset x y (oset_of ps)]).
Proof.
  intros H r. destruct (Nat.lt_trichotomy r (List.length h)) as [L|[->|L]].
  - rewrite deref_app_old by auto. apply H.
  - rewrite deref_snoc. apply oset_of_nodup.
  - rewrite deref_beyond by (rewrite app_length; cbn; lia). constructor.
Qed.
Lemma once_new h x y ps : each_once h -> each_once (fst (new_core_subset h x y ps)).
Proof. rewrite new_subset. apply once_snoc. Qed.

Lemma fold_once {A S} (get : S -> heap) (f : S -> A -> S) : (forall s a, each_once (get s) -> each_once (get (f s a))) ->
  forall l s, each_once (get s) -> each_once (get (fold_left f l s)).
Proof. intros K l. induction l as [|a l IH]; intros s H; [exact H|]. cbn. apply IH, K, H. Qed.

Lemma once_intersect h r other : each_once h -> each_once (fst (cs_intersect h r other)).
Proof.
  intros H. unfold cs_intersect. rewrite new_subset. cbn [fst].
  apply (fold_once (fun h => h)); [|apply once_snoc, H].
  intros h1 p H1. destruct (cs_contains h1 other p); [apply once_add, H1|exact H1].
Qed.

Lemma once_processor h s x y p : each_once h -> each_once (fst (s_add_processor h s x y p)).
Proof.
  intros H. unfold s_add_processor. destruct (dget xy_eqb s (x, y)); [apply once_add, H|]. rewrite new_subset. apply once_snoc, H.
Qed.
Lemma once_subset h s r : each_once h -> each_once (fst (s_add_core_subset h s r)).
Proof.
  intros H. unfold s_add_core_subset. apply (fold_once fst); [|exact H]. intros hs p H1. apply once_processor, H1.
Qed.
Lemma once_subsets h s rs : each_once h -> each_once (fst (s_add_core_subsets h s rs)).
Proof.
  intros H. unfold s_add_core_subsets. apply (fold_once fst); [|exact H]. intros hs r H1. apply once_subset, H1.
Qed.
Lemma once_s_intersect h a b : each_once h -> each_once (fst (s_intersect h a b)).
Proof.
  intros H. unfold s_intersect. apply (fold_once fst); [|exact H]. intros [h1 result] [xy r] H1. cbn [fst] in *.
  destruct (s_contains_xy b xy); [|exact H1]. destruct (s_getitem b xy) as [other|]; [|exact H1].
  pose proof (once_intersect h1 r other H1) as N. destruct (cs_intersect h1 r other) as [h2 q]. cbn [fst] in *.
  destruct (cs_len h2 q =? 0); [exact N|]. apply once_subset, N.
Qed.
Lemma once_add_to w k f : (forall h s, each_once h -> each_once (fst (f h s))) -> each_once (w_heap w) -> each_once (w_heap (fst (add_to w k f))).
Proof.
  intros K H. unfold add_to. destruct (nth_error (w_colls w) k) as [[[] s]|]; [|exact H|exact H].
  specialize (K (w_heap w) s H). destruct (f (w_heap w) s). exact K.
Qed.
Lemma once_step w o : each_once (w_heap w) -> each_once (w_heap (fst (step w o))).
Proof.
  intros H. destruct o; cbn [step].
  - apply once_new, H.
  - apply once_add, H.
  - apply once_intersect, H.
  - pose proof (once_subsets (w_heap w) [] rs H) as N. change (s_add_core_subsets (w_heap w) [] rs) with (new_subsets (w_heap w) rs) in N.
    destruct (new_subsets (w_heap w) rs). exact N.
  - rewrite frozen_same. pose proof (once_subsets (w_heap w) [] rs H) as N. change (s_add_core_subsets (w_heap w) [] rs) with (new_subsets (w_heap w) rs) in N.
    destruct (new_subsets (w_heap w) rs). exact N.
  - apply once_add_to; [|exact H]. intros h s. apply once_processor.
  - apply once_add_to; [|exact H]. intros h s. apply once_subset.
  - apply once_add_to; [|exact H]. intros h s. apply once_subsets.
  - destruct (nth_error (w_colls w) k) as [[kd s]|]; [|exact H]. unfold s_for_chip.
    destruct (dget xy_eqb s (x, y)); [exact H|apply once_new, H].
  - destruct (nth_error (w_colls w) a) as [[ka sa]|]; [|exact H]. destruct (nth_error (w_colls w) b) as [[kb sb]|]; [|exact H].
    pose proof (once_s_intersect (w_heap w) sa sb H) as N. destruct (s_intersect (w_heap w) sa sb). exact N.
Qed.
Lemma once_run ops : each_once (w_heap (run ops)).
Proof.
  induction ops as [|o ops IH] using rev_ind; [intros r; rewrite deref_beyond by (cbn; lia); constructor|].
  rewrite run_snoc. apply once_step, IH.
Qed.

(** C102.  == says whether the chip and the cores are the same, != the opposite; nothing else
    than a CoreSubset is ever equal to one. *)
Theorem C102_equal :
  forall h a b,
    (cs_eq h a (Some b) = true <->
       cs_x (deref h a) = cs_x (deref h b) /\ cs_y (deref h a) = cs_y (deref h b) /\
       forall p, cs_contains h a p = cs_contains h b p) /\
    (forall other, cs_ne h a other = negb (cs_eq h a other)) /\ cs_eq h a None = false.
Proof.
  intros h a b. split; [|split; reflexivity]. cbn [cs_eq]. rewrite same_iff. unfold same_cores, cs_contains.
  assert ((forall p, In p (cs_ids (deref h a)) <-> In p (cs_ids (deref h b))) <->
          (forall p, zmem (cs_ids (deref h a)) p = zmem (cs_ids (deref h b)) p)) as ->; [|reflexivity].
  split; intros H p; specialize (H p).
  - rewrite <- !zmem_in in H. destruct (zmem (cs_ids (deref h a)) p), (zmem (cs_ids (deref h b)) p); intuition congruence.
  - rewrite <- !zmem_in, H. reflexivity.
Qed.
Print Assumptions C102_equal.

(** It is an equivalence; equal subsets have the same hash, whatever the hash function, and,
    over every history, the same len. *)
Theorem C102_equivalence :
  forall hash h a b c,
    cs_eq h a (Some a) = true /\ cs_eq h b (Some a) = cs_eq h a (Some b) /\
    (cs_eq h a (Some b) = true -> cs_eq h b (Some c) = true -> cs_eq h a (Some c) = true) /\
    (cs_eq h a (Some b) = true -> cs_hash hash h a = cs_hash hash h b) /\
    forall ops, h = w_heap (run ops) -> cs_eq h a (Some b) = true -> cs_len h a = cs_len h b.
Proof.
  intros hash h a b c. cbn [cs_eq]. rewrite !same_iff. split; [apply same_refl|]. split.
  - destruct (same_subset (deref h a) (deref h b)) eqn:E; [apply same_iff, same_sym, same_iff, E|].
    apply not_true_is_false. intros F. apply same_iff, same_sym, same_iff in F. congruence.
  - split; [apply same_trans|]. split; [apply same_hash|]. intros ops -> Q. apply same_iff in Q as (_ & _ & E). unfold cs_len. f_equal.
    apply Permutation.Permutation_length. apply Permutation.NoDup_Permutation; [apply once_run..|exact E].
Qed.
Print Assumptions C102_equivalence.

(** A subset made from some cores equals one made from others just when they are for the same
    chip and have the same cores, in any order and as often as one likes. *)
Theorem C102_made :
  forall h x y ps x' y' qs,
    let '(h1, a) := new_core_subset h x y ps in
    let '(h2, b) := new_core_subset h1 x' y' qs in
    a <> b /\ (cs_eq h2 a (Some b) = true <-> x = x' /\ y = y' /\ forall p, In p ps <-> In p qs).
Proof.
  intros h x y ps x' y' qs. rewrite new_subset. rewrite new_subset. split; [rewrite app_length; cbn; lia|].
  cbn [cs_eq]. rewrite same_iff, deref_snoc. rewrite deref_app_old by (rewrite app_length; cbn; lia). rewrite deref_snoc.
  unfold same_cores. cbn [cs_x cs_y cs_ids]. setoid_rewrite oset_of_in. reflexivity.
Qed.
Print Assumptions C102_made.

(** intersect: the one way round and the other give equal subsets just when the two are for
    the same chip; with itself a subset gives an equal one; always a new object. *)
Theorem C102_intersect :
  forall h a b, (a < List.length h)%nat -> (b < List.length h)%nat ->
    let '(h1, i) := cs_intersect h a b in
    let '(h2, j) := cs_intersect h1 b a in
    (cs_eq h2 i (Some j) = true <-> cs_x (deref h a) = cs_x (deref h b) /\ cs_y (deref h a) = cs_y (deref h b)) /\
    i <> a /\ i <> b /\ j <> i /\ (a = b -> cs_eq h2 i (Some a) = true).
Proof.
  intros h a b La Lb. destruct (C43_subset_intersection h a b La Lb) as (h1 & c & E1 & D1 & X1 & Y1 & I1 & K1).
  rewrite E1. assert (List.length h < List.length h1)%nat as L1.
  { pose proof (cs_intersect_eq h a b) as Q. rewrite E1 in Q. specialize (Q Lb). apply (f_equal fst) in Q. cbn [fst] in Q. rewrite Q, app_length. cbn. lia. }
  assert (a < List.length h1)%nat as La1 by lia. assert (b < List.length h1)%nat as Lb1 by lia.
  destruct (C43_subset_intersection h1 b a Lb1 La1) as (h2 & c2 & E2 & D2 & X2 & Y2 & I2 & K2). rewrite E2.
  rewrite (K1 a La), (K1 b Lb) in *.
  assert (deref h2 (List.length h) = c) as D3 by (rewrite K2 by lia; exact D1).
  split; [|split; [lia|split; [lia|split; [lia|]]]].
  - cbn [cs_eq]. rewrite same_iff, D3, D2. unfold same_cores. rewrite X1, X2, Y1, Y2. split; [tauto|].
    intros [A B]. split; [exact A|]. split; [exact B|]. intros p. rewrite I1, I2. tauto.
  - intros <-. cbn [cs_eq]. rewrite same_iff, D3, K2 by lia. rewrite K1 by lia. unfold same_cores. rewrite X1, Y1.
    split; [reflexivity|]. split; [reflexivity|]. intros p. rewrite I1. tauto.
Qed.
Print Assumptions C102_intersect.

(** Two collections have the same cores just when they have the same chips, with equal subsets
    on each. *)
Theorem C102_collections :
  forall ops a ka sa b kb sb, let h := w_heap (run ops) in
    nth_error (w_colls (run ops)) a = Some (ka, sa) -> nth_error (w_colls (run ops)) b = Some (kb, sb) ->
    ((forall x y p, s_is_core h sa x y p = s_is_core h sb x y p) <->
     forall x y, match s_getitem sa (x, y), s_getitem sb (x, y) with
       | Ok r, Ok q => cs_eq h r (Some q) = true
       | Err _, Err _ => True
       | _, _ => False
       end).
Proof.
  intros ops a ka sa b kb sb h Ea Eb.
  destruct (C42_set_of_cores _ _ _ _ Ea) as (la & _ & _ & A1 & A2 & _ & _ & _ & A3).
  destruct (C42_set_of_cores _ _ _ _ Eb) as (lb & _ & _ & B1 & B2 & _ & _ & _ & B3). fold h in A1, A3, B1, B3.
  split.
  - intros H x y. assert (forall p, In (x, y, p) la <-> In (x, y, p) lb) as K by (intros p; rewrite <- A1, <- B1, H; reflexivity).
    specialize (A3 x y). specialize (B3 x y).
    destruct (s_getitem sa (x, y)) as [r|], (s_getitem sb (x, y)) as [q|].
    + destruct A3 as (_ & Xa & Ya & Ia). destruct B3 as (_ & Xb & Yb & Ib). cbn [cs_eq]. rewrite same_iff. unfold same_cores.
      rewrite Xa, Xb, Ya, Yb, Ia, Ib. split; [reflexivity|]. split; [reflexivity|]. intros p. rewrite !firsts_in, !on_chip_in. apply K.
    + destruct A3 as (CA & _). destruct B3 as (CB & _). apply A2 in CA as (p & I). assert (s_is_chip sb x y = true) by (apply B2; exists p; apply K, I). congruence.
    + destruct A3 as (CA & _). destruct B3 as (CB & _). apply B2 in CB as (p & I). assert (s_is_chip sa x y = true) by (apply A2; exists p; apply K, I). congruence.
    + exact I.
  - intros H x y p. specialize (H x y). unfold s_is_core, s_getitem, dgetitem in *.
    destruct (dget xy_eqb sa (x, y)) as [r|], (dget xy_eqb sb (x, y)) as [q|]; try contradiction; [|reflexivity].
    apply C102_equal in H as (_ & _ & H). apply H.
Qed.
Print Assumptions C102_collections.

(** A collection made from a subset has just its chip, if there are cores, and there an equal
    subset, but another object. *)
Theorem C102_copy :
  forall ops r, let w := run ops in (r < List.length (w_heap w))%nat ->
  let w' := run (ops ++ [NewSubsets [r]]) in
  exists s, w_colls w' = w_colls w ++ [(Plain, s)] /\
    forall x y, match s_getitem s (x, y) with
      | Ok q => q <> r /\ cs_eq (w_heap w') q (Some r) = true /\ cs_len (w_heap w') r > 0
      | Err _ => cs_x (deref (w_heap w) r) <> x \/ cs_y (deref (w_heap w) r) <> y \/ cs_len (w_heap w) r = 0
      end.
Proof.
  intros ops r w L w'. set (c := deref (w_heap w) r).
  assert (exists h s, w' = mkWorld h (w_colls w ++ [(Plain, s)]) /\ deref h r = c /\ good h s /\ forall q, In q (map snd s) -> q <> r) as (h & s & E & D & G' & F).
  { unfold w'. rewrite run_snoc. fold w. cbn [step]. unfold new_subsets. cbn [fold_left fst snd].
    destruct (s_add_core_subset (w_heap w) [] r) as [h s] eqn:E. exists h, s. split; [reflexivity|].
    assert (good (w_heap w) []) as G by (split; [constructor|split; [constructor|intros ? ? []]]).
    destruct (add_subset _ _ _ _ _ G E) as (G' & _ & W1 & W2 & W3 & _). split; [apply W2; auto|]. split; [exact G'|].
    intros q I. apply W3 in I as [[]|I]. lia. }
  exists s. rewrite E. split; [reflexivity|]. cbn [w_heap].
  assert (nth_error (w_colls w') (List.length (w_colls w)) = Some (Plain, s)) as En.
  { rewrite E. cbn [w_colls]. rewrite nth_error_app2, Nat.sub_diag by auto. reflexivity. }
  destruct (C42_set_of_cores _ _ _ _ En) as (l & A & _ & _ & IH & _ & _ & _ & GI). fold w' in GI. rewrite E in GI. cbn [w_heap] in GI.
  assert (l = cores_of (w_heap w) r) as ->.
  { rewrite logs_snoc in A. fold w in A. cbn [log_step flat_map] in A. rewrite app_nil_r in A. destruct (run_inv ops) as (I1 & _). fold w in I1.
    rewrite I1, nth_error_app2, Nat.sub_diag in A by auto. cbn in A. congruence. }
  assert (forall x y p, In (x, y, p) (cores_of (w_heap w) r) <-> cs_x c = x /\ cs_y c = y /\ In p (cs_ids c)) as IN.
  { intros x y p. unfold cores_of. fold c. rewrite in_map_iff. split.
    - intros (q & Q & I). injection Q as <- <- <-. auto.
    - intros (<- & <- & I). eauto. }
  intros x y. specialize (GI x y). destruct (s_getitem s (x, y)) as [q|] eqn:Q.
  - destruct GI as (C & X & Y & I). apply IH in C as (p & C). apply IN in C as (<- & <- & C). split.
    + apply F. unfold s_getitem, dgetitem in Q. destruct (dget xy_eqb s (cs_x c, cs_y c)) as [q'|] eqn:Z; [|discriminate]. injection Q as ->.
      apply (dget_some_in xy_eqb xyeqb_eq) in Z. apply in_map_iff. exists ((cs_x c, cs_y c), q). auto.
    + split.
      * cbn [cs_eq]. rewrite same_iff, D. unfold same_cores. rewrite X, Y, I. split; [reflexivity|]. split; [reflexivity|].
        intros a. rewrite firsts_in, on_chip_in, IN. tauto.
      * unfold cs_len. rewrite D. destruct (cs_ids c); [destruct C|cbn; lia].
  - destruct GI as [C _]. destruct (Z.eq_dec (cs_x c) x) as [EX|]; [|auto]. destruct (Z.eq_dec (cs_y c) y) as [EY|]; [|auto].
    right. right. unfold cs_len. fold c. destruct (cs_ids c) as [|p ids] eqn:Z; [reflexivity|]. exfalso.
    assert (s_is_chip s x y = true) as T; [|congruence]. apply IH. exists p. apply IN. split; [exact EX|]. split; [exact EY|]. try rewrite Z. cbn. auto.
Qed.
Print Assumptions C102_copy.

(** ** The text *)

(** The text tells the chip and the cores in their order, whatever an empty OrderedSet looks
    like, as long as it does not begin like one with elements. *)
Theorem C102_text :
  forall empty a b, (forall rest, empty <> ("OrderedSet([" ++ rest)%string) ->
    (cs_repr empty a = cs_repr empty b <-> a = b).
Proof.
  intros empty [x y l] [x' y' l'] NE. split; [|intros ->; reflexivity]. unfold cs_repr, cat. cbn [cs_x cs_y cs_ids fold_right].
  intros E. rewrite ?app_nil_s in E. cbn [append] in E. apply dec_then in E as (-> & _ & E); [|reflexivity..].
  apply dec_then in E as (-> & _ & E); [|reflexivity..]. f_equal.
  destruct l as [|p l], l' as [|q l']; [reflexivity|exfalso; exact (NE _ E)|exfalso; exact (NE _ (eq_sym E))|].
  change (?a ++ ?b = ?c ++ ?d)%string with (a ++ b = c ++ d)%string in E. 
  remember (p :: l) as m. remember (q :: l') as m'. clear Heqm Heqm'. cbn [append] in E.
  repeat (injection E as E). apply (dec_list_inj "]"%char) in E as [E _]; [exact E|reflexivity|discriminate].
Qed.
Print Assumptions C102_text.

(** So equal subsets may have different texts. *)
Theorem C102_equal_same_text_refuted :
  forall empty, exists h a b, cs_eq h a (Some b) = true /\ cs_repr empty (deref h a) <> cs_repr empty (deref h b).
Proof.
  intros empty. exists [mkSubset 0 0 [1; 2]; mkSubset 0 0 [2; 1]], 0%nat, 1%nat. split; [reflexivity|]. intros E. vm_compute in E. discriminate E.
Qed.
Print Assumptions C102_equal_same_text_refuted.

(** ** Keys *)
Lemma run_on a b : world_on (run a) (run (a ++ b)).
Proof.
  induction b as [|o b IH] using rev_ind; [rewrite app_nil_r; apply world_refl|].
  rewrite app_assoc, run_snoc. eapply world_trans; [exact IH|]. apply step_on.
Qed.

Lemma calls_app {V} (a b : list (key_event V)) : calls_of (a ++ b) = calls_of a ++ calls_of b.
Proof. apply flat_map_app. Qed.

Lemma between a b c r : heap_on a b -> heap_on b c -> (r < List.length a)%nat -> same_cores (deref a r) (deref c r) ->
  same_cores (deref a r) (deref b r) /\ same_cores (deref b r) (deref c r).
Proof.
  intros (A1 & A2 & A3) (B1 & B2 & B3) L (X & Y & I). destruct (A3 r L) as [XA YA]. destruct (B3 r) as [XB YB]; [lia|].
  destruct (A2 r) as (l & EA). destruct (B2 r) as (l' & EB).
  assert (same_cores (deref a r) (deref b r)) as S.
  { split; [congruence|]. split; [congruence|]. intros p. split; intros J.
    - rewrite EA. apply in_app_iff. auto.
    - apply I. rewrite EB. apply in_app_iff. auto. }
  split; [exact S|]. eapply same_trans; [apply same_sym, S|]. split; [exact X|]. split; [exact Y|exact I].
Qed.

Section Keyed.
  Context {V : Type}.
  Variable hash : Z * Z * list Z -> Z.
  Variable comes_by : ref -> bool.
  Let krun := @key_run V hash comes_by.

  Lemma world_of evs : fst (krun evs) = run (calls_of evs).
  Proof using.
    unfold krun, key_run. induction evs as [|e evs IH] using rev_ind; [reflexivity|].
    rewrite fold_left_app, calls_app. cbn [fold_left]. destruct e as [o|q v]; cbn [key_step fst calls_of flat_map app].
    - rewrite IH. rewrite run_snoc. reflexivity.
    - rewrite app_nil_r. exact IH.
  Qed.

  Lemma unchanged_before (evs : list (key_event V)) e : keys_unchanged (evs ++ [e]) ->
    keys_unchanged evs /\
    (forall q v, In (SetKey q v) evs ->
       same_cores (deref (w_heap (run (calls_of evs))) q) (deref (w_heap (run (calls_of (evs ++ [e])))) q)).
  Proof using.
    intros U.
    assert (forall before q v rest, evs = before ++ SetKey q v :: rest ->
      (q < List.length (w_heap (run (calls_of before))))%nat /\
      same_cores (deref (w_heap (run (calls_of before))) q) (deref (w_heap (run (calls_of evs))) q) /\
      same_cores (deref (w_heap (run (calls_of evs))) q) (deref (w_heap (run (calls_of (evs ++ [e])))) q)) as K.
    { intros before q v rest E. destruct (U before q v (rest ++ [e])) as [L S]; [rewrite E, <- app_assoc; reflexivity|].
      split; [exact L|]. refine (between _ _ _ _ _ _ L S).
      - rewrite E, calls_app. apply run_on.
      - rewrite (calls_app evs [e]). apply run_on. }
    split.
    - intros before q v rest E. destruct (K before q v rest E) as (A & B & _). auto.
    - intros q v I. apply in_split in I as (before & rest & E). apply (K before q v rest E).
  Qed.

  (** A key that was there, and its hash *)
  Definition sound (h : heap) (e : entry V) : Prop :=
    (k_ref e < List.length h)%nat /\ k_hash e = cs_hash hash h (k_ref e).

  Lemma takes_same h q e : sound h e -> takes hash comes_by h q e = same_subset (deref h (k_ref e)) (deref h q).
  Proof using.
    intros [_ H]. unfold takes. rewrite H. cbn [cs_eq]. destruct (Nat.eqb_spec (k_ref e) q) as [->|N].
    - rewrite Z.eqb_refl. cbn. symmetry. apply same_iff, same_refl.
    - cbn [orb andb]. rewrite orb_false_r. destruct (same_subset (deref h (k_ref e)) (deref h q)) eqn:S; [|apply andb_false_r].
      rewrite andb_true_r. apply Z.eqb_eq. apply same_hash, same_iff, S.
  Qed.

  Lemma find_ext {A} (f g : A -> bool) l : (forall a, In a l -> f a = g a) -> find f l = find g l.
  Proof using.
    induction l as [|a l IH]; intros H; [reflexivity|]. cbn. rewrite (H a) by (cbn; auto). destruct (g a); [reflexivity|].
    apply IH. intros b I. apply H. cbn. auto.
  Qed.

  Definition at_content (h : heap) (c : core_subset) (e : entry V) : bool := same_subset (deref h (k_ref e)) c.

  Lemma set_find h q v c d : (forall e, In e d -> sound h e) ->
    option_map k_value (find (at_content h c) (key_set hash comes_by h d q v)) =
    if same_subset (deref h q) c then Some v else option_map k_value (find (at_content h c) d).
  Proof using.
    induction d as [|e d IH]; intros S; cbn [key_set find].
    - unfold at_content at 1. cbn [k_ref]. destruct (same_subset (deref h q) c); reflexivity.
    - rewrite (takes_same h q e) by (apply S; cbn; auto).
      destruct (same_subset (deref h (k_ref e)) (deref h q)) eqn:T.
      + apply same_iff in T. cbn [find]. unfold at_content at 1 3. cbn [k_ref].
        destruct (same_subset (deref h (k_ref e)) c) eqn:E; destruct (same_subset (deref h q) c) eqn:Q; try reflexivity; exfalso.
        * apply same_iff in E. apply not_true_iff_false in Q. apply Q, same_iff. eapply same_trans; [apply same_sym, T|exact E].
        * apply same_iff in Q. apply not_true_iff_false in E. apply E, same_iff. eapply same_trans; [exact T|exact Q].
      + cbn [find]. unfold at_content at 1 3. destruct (same_subset (deref h (k_ref e)) c) eqn:E.
        * destruct (same_subset (deref h q) c) eqn:Q; [|reflexivity]. exfalso. apply not_true_iff_false in T. apply T, same_iff.
          apply same_iff in E, Q. eapply same_trans; [exact E|apply same_sym, Q].
        * apply IH. intros a I. apply S. cbn. auto.
  Qed.

  Lemma set_keys h q v d : (forall e, In e d -> sound h e) -> (q < List.length h)%nat ->
    (forall e, In e (key_set hash comes_by h d q v) -> sound h e) /\
    (map k_ref (key_set hash comes_by h d q v) = map k_ref d \/
     map k_ref (key_set hash comes_by h d q v) = map k_ref d ++ [q] /\ forall r, In r (map k_ref d) -> ~ same_cores (deref h r) (deref h q)).
  Proof using.
    intros S L. induction d as [|e d IH]; cbn [key_set].
    - split; [|right; cbn; auto]. intros e [<-|[]]. split; [exact L|reflexivity].
    - rewrite (takes_same h q e) by (apply S; cbn; auto).
      destruct (same_subset (deref h (k_ref e)) (deref h q)) eqn:T.
      + split; [|left; reflexivity]. intros a [<-|I]; [|apply S; cbn; auto]. exact (S e (or_introl eq_refl)).
      + destruct IH as [A B]; [intros a I; apply S; cbn; auto|]. split.
        * intros a [<-|I]; [apply S; cbn; auto|apply A, I].
        * cbn [map]. destruct B as [->|[-> B]]; [auto|]. right. split; [reflexivity|]. intros r [<-|I]; [|apply B, I].
          intros X. apply same_iff in X. congruence.
  Qed.

  Lemma keys_inv evs : keys_unchanged evs ->
    let h := w_heap (run (calls_of evs)) in let d := snd (krun evs) in
    (forall e, In e d -> sound h e) /\ pairwise_unequal h (map k_ref d) /\
    (forall r, In r (map k_ref d) -> exists v, In (SetKey r v) evs) /\
    forall c, last_under h evs c (option_map k_value (find (at_content h c) d)).
  Proof using.
    induction evs as [|e evs IH] using rev_ind; intros U; cbv zeta in *.
    - cbn. split; [intros ? []|]. split; [intros [|i] j a b E; discriminate E|]. split; [intros ? []|]. intros c q b [].
    - destruct (unchanged_before evs e U) as [U0 ST]. specialize (IH U0). destruct IH as (I1 & I2 & I3 & I4).
      pose proof (world_of evs) as W.
      assert (snd (krun (evs ++ [e])) = snd (key_step hash comes_by (krun evs) e)) as -> by (unfold krun, key_run; rewrite fold_left_app; reflexivity).
      destruct e as [o|q v]; cbn [key_step snd].
      + set (h := w_heap (run (calls_of evs))) in *. set (h' := w_heap (run (calls_of (evs ++ [Do o])))) in *.
        assert (heap_on h h') as H by (unfold h, h'; rewrite calls_app; apply run_on).
        assert (forall x, In x (map k_ref (snd (krun evs))) -> same_cores (deref h x) (deref h' x)) as K.
        { intros x I. destruct (I3 x I) as (v & J). exact (ST x v J). }
        split; [|split; [|split]].
        * intros x I. destruct (I1 x I) as [L X]. destruct H as (H & _). split; [lia|]. rewrite X. unfold cs_hash. apply same_hash, K.
          apply in_map, I.
        * intros i j a b Ea Eb N X. apply (I2 i j a b Ea Eb N).
          eapply same_trans; [apply K; eapply nth_error_In; exact Ea|]. eapply same_trans; [exact X|]. apply same_sym, K. eapply nth_error_In; exact Eb.
        * intros r I. destruct (I3 r I) as (v & J). exists v. apply in_app_iff. auto.
        * intros c. specialize (I4 c).
          assert (find (at_content h' c) (snd (krun evs)) = find (at_content h c) (snd (krun evs))) as ->.
          { apply find_ext. intros x I. unfold at_content. pose proof (K (k_ref x) (in_map _ _ _ I)) as Kx.
            destruct (same_subset (deref h (k_ref x)) c) eqn:E.
            - apply same_iff in E. apply same_iff. eapply same_trans; [apply same_sym, Kx|exact E].
            - apply not_true_iff_false. apply not_true_iff_false in E. intros Q. apply E. apply same_iff in Q. apply same_iff.
              eapply same_trans; [exact Kx|exact Q]. }
          destruct (option_map k_value (find (at_content h c) (snd (krun evs)))) as [a|]; cbn in *.
          -- destruct I4 as (before & q & rest & E & S & N). exists before, q, (rest ++ [Do o]). split; [rewrite E, <- app_assoc; reflexivity|].
             split.
             ++ eapply same_trans; [apply same_sym, (ST q a)|exact S]. rewrite E. apply in_app_iff. cbn. auto.
             ++ intros q' b I. apply in_app_iff in I as [I|[I|[]]]; [|discriminate I]. intros X. apply (N q' b I).
                eapply same_trans; [apply (ST q' b)|exact X]. rewrite E. apply in_app_iff. cbn. auto.
          -- intros q b I. apply in_app_iff in I as [I|[I|[]]]; [|discriminate I]. intros X. apply (I4 q b I).
             eapply same_trans; [exact (ST q b I)|exact X].
      + assert (calls_of (evs ++ [SetKey q v]) = calls_of evs) as EC by (rewrite calls_app; apply app_nil_r). rewrite EC in *.
        set (h := w_heap (run (calls_of evs))) in *. replace (w_heap (fst (krun evs))) with h by (rewrite W; reflexivity).
        assert (q < List.length h)%nat as L by (destruct (U evs q v [] eq_refl) as [L _]; exact L).
        destruct (set_keys h q v (snd (krun evs)) I1 L) as [A B]. split; [exact A|]. split; [|split].
        * destruct B as [->|[-> B]]; [exact I2|]. intros i j a b Ea Eb N.
          assert (forall i a, nth_error (map k_ref (snd (krun evs)) ++ [q]) i = Some a ->
            nth_error (map k_ref (snd (krun evs))) i = Some a \/ i = List.length (map k_ref (snd (krun evs))) /\ a = q) as NE.
          { clear. intros i a E. destruct (Nat.lt_trichotomy i (List.length (map k_ref (snd (krun evs))))) as [H|[->|H]].
            - rewrite nth_error_app1 in E by exact H. auto.
            - rewrite nth_error_app2, Nat.sub_diag in E by lia. cbn in E. right. split; congruence.
            - exfalso. assert (i < List.length (map k_ref (snd (krun evs)) ++ [q]))%nat by (apply nth_error_Some; congruence).
              rewrite app_length in *. cbn in *. lia. }
          apply NE in Ea as [Ea|[-> ->]]; apply NE in Eb as [Eb|[-> ->]].
          -- exact (I2 i j a b Ea Eb N).
          -- apply B. eapply nth_error_In, Ea.
          -- intros X. apply (B b (nth_error_In _ _ Eb)), same_sym, X.
          -- congruence.
        * intros r I. destruct B as [B|[B _]]; rewrite B in I.
          -- destruct (I3 r I) as (u & J). exists u. apply in_app_iff. auto.
          -- apply in_app_iff in I as [I|[<-|[]]].
             ++ destruct (I3 r I) as (u & J). exists u. apply in_app_iff. auto.
             ++ exists v. apply in_app_iff. cbn. auto.
        * intros c. rewrite (set_find h q v c _ I1). specialize (I4 c). destruct (same_subset (deref h q) c) eqn:S.
          -- apply same_iff in S. exists evs, q, []. split; [reflexivity|]. split; [exact S|]. intros q' b [].
          -- apply not_true_iff_false in S. rewrite same_iff in S.
             destruct (option_map k_value (find (at_content h c) (snd (krun evs)))) as [a|]; cbn in *.
             ++ destruct I4 as (before & q0 & rest & E & S0 & N). exists before, q0, (rest ++ [SetKey q v]). split; [rewrite E, <- app_assoc; reflexivity|].
                split; [exact S0|]. intros q' b I. apply in_app_iff in I as [I|[I|[]]]; [exact (N q' b I)|]. injection I as <- <-. exact S.
             ++ intros q' b I. apply in_app_iff in I as [I|[I|[]]]; [exact (I4 q' b I)|]. injection I as <- <-. exact S.
  Qed.

  Lemma get_content h d q : (forall e, In e d -> sound h e) ->
    key_get hash comes_by h d q = option_map k_value (find (at_content h (deref h q)) d).
  Proof using. intros S. unfold key_get. f_equal. apply find_ext. intros e I. apply takes_same, S, I. Qed.
End Keyed.

(** As long as no core is added to a subset after it was used as a key, a dict with CoreSubset
    keys is a map of chips with sets of cores: d[q] is the value last set under a key with the
    same chip and cores, KeyError ([None]) if there is none, and there is one entry for each. *)
Theorem C102_keys :
  forall V hash comes_by (evs : list (key_event V)), keys_unchanged evs ->
  let w := fst (key_run hash comes_by evs) in let d := snd (key_run hash comes_by evs) in
    w = run (calls_of evs) /\
    (forall q, last_under (w_heap w) evs (deref (w_heap w) q) (key_get hash comes_by (w_heap w) d q)) /\
    pairwise_unequal (w_heap w) (map k_ref d) /\
    (forall r, In r (map k_ref d) -> exists v, In (SetKey r v) evs) /\
    (forall q v, In (SetKey q v) evs -> exists r, In r (map k_ref d) /\ cs_eq (w_heap w) r (Some q) = true).
Proof.
  intros V hash comes_by evs U w d. pose proof (world_of hash comes_by evs) as W. fold w in W.
  destruct (keys_inv hash comes_by evs U) as (I1 & I2 & I3 & I4). rewrite <- W in *. fold d in I1, I2, I3, I4. split; [reflexivity|].
  split; [|split; [exact I2|split; [exact I3|]]].
  - intros q. rewrite (get_content hash comes_by) by exact I1. apply I4.
  - intros q v I. specialize (I4 (deref (w_heap w) q)). destruct (find _ d) as [e|] eqn:F.
    + apply find_some in F as [J S]. exists (k_ref e). split; [apply in_map, J|exact S].
    + exfalso. exact (I4 q v I (same_refl _)).
Qed.
Print Assumptions C102_keys.

(** A key to which a core is added afterwards is lost: an equal subset does not find it any
    more, nor does one equal to what it was (KeyError); all others are found as before; and
    the object itself is found only if the two hashes are the same or the table happens to
    come by. *)
Theorem C102_changed_key :
  forall V hash comes_by (evs : list (key_event V)) r p, keys_unchanged evs ->
  let h := w_heap (fst (key_run hash comes_by evs)) in let d := snd (key_run hash comes_by evs) in
  let h' := cs_add_processor h r p in
  In r (map k_ref d) -> ~ In p (cs_ids (deref h r)) ->
    (forall q, q <> r -> same_cores (deref h r) (deref h q) -> key_get hash comes_by h' d q = None) /\
    (forall q, q <> r -> ~ same_cores (deref h r) (deref h q) ->
       cs_hash hash h r <> cs_hash hash h' r \/ ~ same_cores (deref h' r) (deref h q) ->
       key_get hash comes_by h' d q = key_get hash comes_by h d q) /\
    ((forall k, In k (map k_ref d) -> k <> r -> ~ same_cores (deref h k) (deref h' r)) ->
       exists v, key_get hash comes_by h d r = Some v /\
         key_get hash comes_by h' d r =
           if (cs_hash hash h r =? cs_hash hash h' r) || comes_by r then Some v else None).
Proof.
  intros V hash comes_by evs r p U h d h' I NP. pose proof (world_of hash comes_by evs) as W.
  destruct (keys_inv hash comes_by evs U) as (I1 & I2 & _ & _). rewrite <- W in *. fold h in I1, I2. fold d in I1, I2.
  assert (forall q, q <> r -> deref h' q = deref h q) as D by (intros q N; apply deref_put_other; exact N).
  assert (r < List.length h)%nat as L by (apply in_map_iff in I as (e & <- & J); apply I1, J).
  assert (In p (cs_ids (deref h' r))) as IP.
  { unfold h', cs_add_processor. rewrite deref_put_same by exact L. cbn [cs_ids]. apply oset_add_in. auto. }
  assert (forall e, In e d -> k_ref e <> r -> forall c, same_cores (deref h (k_ref e)) c -> ~ same_cores (deref h r) c) as UN.
  { intros e J N c A B. apply in_map_iff in I as (er & ER & JR). apply In_nth_error in J as (i & Ei). apply In_nth_error in JR as (j & Ej).
    assert (i <> j) as NE by (intros ->; congruence).
    apply (I2 i j (k_ref e) (k_ref er)); [apply map_nth_error; auto..|exact NE|]. rewrite ER. eapply same_trans; [exact A|apply same_sym, B]. }
  assert (forall q e, In e d -> takes hash comes_by h' q e =
    ((cs_hash hash h (k_ref e) =? cs_hash hash h' q) && (Nat.eqb (k_ref e) q || same_subset (deref h' (k_ref e)) (deref h' q)) || (Nat.eqb (k_ref e) q && comes_by q))%bool) as T.
  { intros q e J. unfold takes. destruct (I1 e J) as [_ ->]. reflexivity. }
  split; [|split].
  - intros q N S. unfold key_get. destruct (find (takes hash comes_by h' q) d) as [e|] eqn:F; [|reflexivity]. exfalso.
    apply find_some in F as [J F]. rewrite (T q e J) in F. unfold cs_hash in F. rewrite (D q N) in F.
    destruct (Nat.eqb_spec (k_ref e) q) as [E|NE].
    + apply (UN e J ltac:(congruence) (deref h q)); [rewrite E; apply same_refl|exact S].
    + cbn [orb andb] in F. rewrite orb_false_r in F. apply andb_prop in F as [_ F]. apply same_iff in F.
      destruct (Nat.eq_dec (k_ref e) r) as [E|NR].
      * rewrite E in F. destruct F as (_ & _ & F), S as (_ & _ & S). apply NP, S, F, IP.
      * rewrite (D _ NR) in F. exact (UN e J NR _ F S).
  - intros q N S H. unfold key_get. f_equal. apply find_ext. intros e J. rewrite (takes_same hash comes_by h q e (I1 e J)), (T q e J).
    unfold cs_hash at 2. rewrite (D q N). destruct (Nat.eq_dec (k_ref e) r) as [E|NR].
    + rewrite E. destruct (Nat.eqb_spec r q) as [|_]; [congruence|]. cbn [orb andb]. rewrite orb_false_r.
      assert (same_subset (deref h r) (deref h q) = false) as -> by (apply not_true_iff_false; rewrite same_iff; exact S).
      destruct (same_subset (deref h' r) (deref h q)) eqn:Q; [|apply andb_false_r]. apply same_iff in Q.
      rewrite andb_true_r. apply Z.eqb_neq. destruct H as [H|H]; [|contradiction]. intros X. apply H. rewrite X. symmetry. apply same_hash, Q.
    + rewrite (D _ NR). pose proof (takes_same hash comes_by h q e (I1 e J)) as X. unfold takes in X. destruct (I1 e J) as [_ KH]. rewrite KH in X. exact X.
  - intros O. assert (forall e, In e d -> k_ref e <> r -> takes hash comes_by h' r e = false) as TF.
    { intros e J N. rewrite (T r e J). destruct (Nat.eqb_spec (k_ref e) r) as [|_]; [contradiction|]. cbn [orb andb]. rewrite orb_false_r.
      rewrite (D _ N). assert (same_subset (deref h (k_ref e)) (deref h' r) = false) as ->; [|apply andb_false_r].
      apply not_true_iff_false. rewrite same_iff. apply O; [apply in_map, J|exact N]. }
    assert (forall e, In e d -> k_ref e = r -> takes hash comes_by h' r e = ((cs_hash hash h r =? cs_hash hash h' r) || comes_by r)%bool) as TT.
    { intros e J E. rewrite (T r e J), E, Nat.eqb_refl. cbn [orb andb]. rewrite andb_true_r. reflexivity. }
    assert (forall e, In e d -> takes hash comes_by h r e = Nat.eqb (k_ref e) r) as TH.
    { intros e J. rewrite (takes_same hash comes_by h r e (I1 e J)). destruct (Nat.eqb_spec (k_ref e) r) as [->|N]; [apply same_iff, same_refl|].
      apply not_true_iff_false. rewrite same_iff. intros X. exact (UN e J N _ X (same_refl _)). }
    unfold key_get. rewrite (find_ext _ _ d TH).
    rewrite (find_ext (takes hash comes_by h' r) (fun e => (Nat.eqb (k_ref e) r && ((cs_hash hash h r =? cs_hash hash h' r) || comes_by r))%bool) d).
    2: { intros e J. destruct (Nat.eqb_spec (k_ref e) r) as [E|N]; [rewrite (TT e J E); reflexivity|rewrite (TF e J N); reflexivity]. }
    clearbody d. clear - I. induction d as [|e d IH]; [destruct I|]. cbn [find map In] in *. destruct (Nat.eqb_spec (k_ref e) r) as [E|N].
    + cbn [option_map andb]. exists (k_value e). split; [reflexivity|]. destruct ((cs_hash hash h r =? cs_hash hash h' r) || comes_by r)%bool; [reflexivity|].
      rewrite (find_ext _ (fun _ => false)) by (intros; apply andb_false_r). clear. induction d; [reflexivity|assumption].
    + cbn [andb]. apply IH. destruct I as [I|I]; [contradiction|exact I].
Qed.
Print Assumptions C102_changed_key.

(** Not vacuous: the test of this library with four keys, and a key to which a core is added. *)
Definition key_events : list (key_event Z) :=
  [Do (NewSubset 0 0 [1; 2; 3]); Do (NewSubset 0 0 [4; 5; 6]); Do (NewSubset 0 1 [1; 2; 3]); Do (NewSubset 0 0 [3; 1; 2]);
   SetKey 0%nat 1; SetKey 1%nat 2; SetKey 2%nat 3; Do (NewSubset 0 0 [1; 2; 3; 4]); SetKey 3%nat 4; SetKey 4%nat 5; Do (SubsetAdd 0%nat 3)].

Example C102_case :
  let hash := fun c : Z * Z * list Z => let '(x, y, l) := c in x + y * 7 + zsum l in
  let s := key_run hash (fun _ => false) key_events in
  let h := w_heap (fst s) in
  keys_unchanged key_events /\
  map k_ref (snd s) = [0; 1; 2; 4]%nat /\ map k_value (snd s) = [4; 2; 3; 5] /\
  key_get hash (fun _ => false) h (snd s) 0%nat = Some 4 /\ key_get hash (fun _ => false) h (snd s) 3%nat = Some 4 /\
  (let h' := cs_add_processor h 0%nat 9 in
   key_get hash (fun _ => false) h' (snd s) 0%nat = None /\ key_get hash (fun _ => false) h' (snd s) 3%nat = None /\
   key_get hash (fun _ => true) h' (snd s) 0%nat = Some 4 /\ key_get hash (fun _ => false) h' (snd s) 1%nat = Some 2) /\
  cs_repr "OrderedSet()" (deref h 3%nat) = "0:0:OrderedSet([3, 1, 2])" /\
  cs_repr "OrderedSet()" (mkSubset 2 (-1) []) = "2:-1:OrderedSet()".
Proof.
  intros hash s h. split; [|vm_compute; auto 15].
  assert (forall n q v, nth_error key_events n = Some (SetKey q v) ->
    let b := w_heap (run (calls_of (firstn n key_events))) in
    (q < List.length b)%nat /\ same_cores (deref b q) (deref (w_heap (run (calls_of key_events))) q)) as K.
  { intros n q v E. do 11 (destruct n as [|n];
      [cbn in E; first [discriminate E | injection E as <- <-; vm_compute; split; [repeat constructor|split; [reflexivity|split; [reflexivity|intros p; split; auto]]]]|]).
    destruct n; discriminate E. }
  intros before q v rest E. specialize (K (List.length before) q v). rewrite E in K.
  rewrite nth_error_app2, Nat.sub_diag in K by auto. specialize (K eq_refl).
  rewrite firstn_app, Nat.sub_diag, firstn_all, app_nil_r in K. rewrite E. exact K.
Qed.
