(** C101: loops over collections of cores while they change. *)
From Coq Require Import Lia.
From Verif Require Import Model_Py Model_Subsets Model_Iter Model_SubsetsIter
  Spec_Subsets Spec_Iter Spec_SubsetsIter Proof_Py Proof_Subsets Proof_Iter.
Open Scope list_scope.
Open Scope Z_scope.

(** ** Nothing is ever taken out *)

(** The dicts and the sets of ids only grow at their end. *)
Definition heap_on (h h' : heap) : Prop :=
  (List.length h <= List.length h')%nat /\
  (forall r, exists l, cs_ids (deref h' r) = cs_ids (deref h r) ++ l) /\
  (forall r, (r < List.length h)%nat -> cs_x (deref h' r) = cs_x (deref h r) /\ cs_y (deref h' r) = cs_y (deref h r)).
Definition dict_on (s s' : subsets) : Prop := exists l, s' = s ++ l.

Lemma heap_on_refl h : heap_on h h.
Proof. split; [lia|]. split; [intros r; exists []; symmetry; apply app_nil_r|auto]. Qed.

Lemma heap_on_trans a b c : heap_on a b -> heap_on b c -> heap_on a c.
Proof.
  intros (A1 & A2 & A3) (B1 & B2 & B3). split; [lia|]. split.
  - intros r. destruct (A2 r) as (l & E). destruct (B2 r) as (l' & E'). exists (l ++ l'). rewrite E', E. symmetry. apply app_assoc.
  - intros r L. destruct (A3 r L) as [<- <-]. apply B3. lia.
Qed.

Lemma dict_on_refl s : dict_on s s.
Proof. exists []. symmetry. apply app_nil_r. Qed.

Lemma dict_on_trans a b c : dict_on a b -> dict_on b c -> dict_on a c.
Proof. intros (l & ->) (l' & ->). exists (l ++ l'). symmetry. apply app_assoc. Qed.

Lemma oset_on l p : exists q, oset_add l p = l ++ q.
Proof. unfold oset_add. destruct (zmem l p); [exists []; symmetry; apply app_nil_r|eauto]. Qed.

Lemma add_on h r p : heap_on h (cs_add_processor h r p).
Proof.
  unfold cs_add_processor. split; [rewrite put_length; lia|]. split.
  - intros q. rewrite deref_put. destruct (Nat.eqb_spec q r) as [->|]; cbn [andb]; [|exists []; symmetry; apply app_nil_r].
    destruct (Nat.ltb r (List.length h)); [|exists []; symmetry; apply app_nil_r]. apply oset_on.
  - intros q L. rewrite deref_put. destruct (Nat.eqb_spec q r) as [->|]; cbn [andb]; [|auto].
    destruct (Nat.ltb r (List.length h)); auto.
Qed.

Lemma snoc_on h c : heap_on h (h ++ [c]).
Proof.
  split; [rewrite app_length; lia|]. split; [|intros r L; rewrite deref_app_old by auto; auto].
  intros r. destruct (Nat.lt_ge_cases r (List.length h)) as [L|L].
  - rewrite deref_app_old by auto. exists []. symmetry. apply app_nil_r.
  - rewrite (deref_beyond h r L). eexists. reflexivity.
Qed.

Lemma fold_on {A} (f : heap -> A -> heap) : (forall h a, heap_on h (f h a)) -> forall l h, heap_on h (fold_left f l h).
Proof.
  intros K l. induction l as [|a l IH]; intros h; [apply heap_on_refl|]. cbn. eapply heap_on_trans; [apply K|apply IH].
Qed.

Lemma new_on h x y ps : heap_on h (fst (new_core_subset h x y ps)).
Proof. rewrite new_subset. apply snoc_on. Qed.

Lemma intersect_on h r other : heap_on h (fst (cs_intersect h r other)).
Proof.
  unfold cs_intersect. destruct (new_core_subset h _ _ []) as [h1 q] eqn:E. cbn [fst].
  eapply heap_on_trans; [|apply (fold_on (fun h p => if cs_contains h other p then cs_add_processor h q p else h))].
  - pose proof (new_on h (cs_x (deref h r)) (cs_y (deref h r)) []) as N. rewrite E in N. exact N.
  - intros h2 p. destruct (cs_contains h2 other p); [apply add_on|apply heap_on_refl].
Qed.

Definition both_on (a b : heap * subsets) : Prop := heap_on (fst a) (fst b) /\ dict_on (snd a) (snd b).
Lemma both_refl a : both_on a a.
Proof. split; [apply heap_on_refl|apply dict_on_refl]. Qed.
Lemma both_trans a b c : both_on a b -> both_on b c -> both_on a c.
Proof. intros [A1 A2] [B1 B2]. split; [eapply heap_on_trans|eapply dict_on_trans]; eauto. Qed.

Lemma fold_both {A} (f : heap * subsets -> A -> heap * subsets) :
  (forall hs a, both_on hs (f hs a)) -> forall l hs, both_on hs (fold_left f l hs).
Proof.
  intros K l. induction l as [|a l IH]; intros h; [apply both_refl|]. cbn. eapply both_trans; [apply K|apply IH].
Qed.

Lemma processor_on h s x y p : both_on (h, s) (s_add_processor h s x y p).
Proof.
  unfold s_add_processor. destruct (dget xy_eqb s (x, y)) as [r|] eqn:E.
  - split; [apply add_on|apply dict_on_refl].
  - rewrite new_subset. split; cbn [fst snd]; [apply snoc_on|]. apply (dget_none xy_eqb xyeqb_eq) in E.
    rewrite (dset_new xy_eqb xyeqb_eq) by auto. eexists. reflexivity.
Qed.

Lemma subset_on h s r : both_on (h, s) (s_add_core_subset h s r).
Proof.
  unfold s_add_core_subset. apply fold_both. intros [h' s'] p. apply processor_on.
Qed.

Lemma subsets_on h s rs : both_on (h, s) (s_add_core_subsets h s rs).
Proof. unfold s_add_core_subsets. apply fold_both. intros [h' s'] r. apply subset_on. Qed.

Lemma s_intersect_on h a b : heap_on h (fst (s_intersect h a b)).
Proof.
  unfold s_intersect. match goal with |- heap_on h (fst (fold_left ?f a _)) =>
    assert (forall l hs, heap_on (fst hs) (fst (fold_left f l hs))) as K; [|exact (K a (h, []))] end.
  intros l. induction l as [|[xy r] l IH]; intros [h1 result]; [apply heap_on_refl|]. cbn [fold_left].
  eapply heap_on_trans; [|apply IH]. destruct (s_contains_xy b xy); [|apply heap_on_refl].
  destruct (s_getitem b xy) as [other|]; [|apply heap_on_refl].
  pose proof (intersect_on h1 r other) as N. destruct (cs_intersect h1 r other) as [h2 q]. cbn [fst] in *.
  destruct (cs_len h2 q =? 0); [exact N|]. eapply heap_on_trans; [exact N|]. apply (subset_on h2 result q).
Qed.

Definition world_on (w w' : world) : Prop :=
  heap_on (w_heap w) (w_heap w') /\
  forall k kd s, nth_error (w_colls w) k = Some (kd, s) -> exists s', nth_error (w_colls w') k = Some (kd, s') /\ dict_on s s'.

Lemma world_refl w : world_on w w.
Proof. split; [apply heap_on_refl|]. intros k kd s E. exists s. split; [exact E|apply dict_on_refl]. Qed.

Lemma world_trans a b c : world_on a b -> world_on b c -> world_on a c.
Proof.
  intros [A1 A2] [B1 B2]. split; [eapply heap_on_trans; eauto|]. intros k kd s E.
  destruct (A2 _ _ _ E) as (s1 & E1 & D1). destruct (B2 _ _ _ E1) as (s2 & E2 & D2). exists s2. split; [exact E2|].
  eapply dict_on_trans; eauto.
Qed.

Lemma heap_only w h : heap_on (w_heap w) h -> world_on w (mkWorld h (w_colls w)).
Proof. intros H. split; [exact H|]. intros k kd s E. exists s. split; [exact E|apply dict_on_refl]. Qed.

Lemma coll_added w h c : heap_on (w_heap w) h -> world_on w (mkWorld h (w_colls w ++ [c])).
Proof.
  intros H. split; [exact H|]. intros k kd s E. exists s. split; [|apply dict_on_refl]. cbn [w_colls].
  rewrite nth_error_app1; [exact E|]. apply nth_error_Some. congruence.
Qed.

Lemma add_to_on w k f : (forall h s, both_on (h, s) (f h s)) -> world_on w (fst (add_to w k f)).
Proof.
  intros K. unfold add_to. destruct (nth_error (w_colls w) k) as [[[] s]|] eqn:E; [|apply world_refl|apply world_refl].
  pose proof (K (w_heap w) s) as [H D]. destruct (f (w_heap w) s) as [h' s']. cbn [fst snd] in *. split; [exact H|].
  cbn [w_colls]. intros j kd t Ej. rewrite put_coll_nth. destruct (Nat.eqb_spec j k) as [->|N].
  - rewrite E in *. injection Ej as <- <-. exists s'. auto.
  - exists t. split; [exact Ej|apply dict_on_refl].
Qed.

Lemma step_on w o : world_on w (fst (step w o)).
Proof.
  destruct o; cbn [step].
  - apply heap_only, new_on.
  - apply heap_only, add_on.
  - apply heap_only, intersect_on.
  - pose proof (subsets_on (w_heap w) [] rs) as [H _]. change (s_add_core_subsets (w_heap w) [] rs) with (new_subsets (w_heap w) rs) in H.
    destruct (new_subsets (w_heap w) rs) as [h s]. apply coll_added. exact H.
  - rewrite frozen_same. pose proof (subsets_on (w_heap w) [] rs) as [H _]. change (s_add_core_subsets (w_heap w) [] rs) with (new_subsets (w_heap w) rs) in H.
    destruct (new_subsets (w_heap w) rs) as [h s]. apply coll_added. exact H.
  - apply add_to_on. intros h s. apply processor_on.
  - apply add_to_on. intros h s. apply subset_on.
  - apply add_to_on. intros h s. apply subsets_on.
  - destruct (nth_error (w_colls w) k) as [[kd s]|]; [|apply world_refl]. apply heap_only. unfold s_for_chip.
    destruct (dget xy_eqb s (x, y)); [apply heap_on_refl|apply new_on].
  - destruct (nth_error (w_colls w) a) as [[ka sa]|]; [|apply world_refl].
    destruct (nth_error (w_colls w) b) as [[kb sb]|]; [|apply world_refl].
    pose proof (s_intersect_on (w_heap w) sa sb) as H. destruct (s_intersect (w_heap w) sa sb) as [h s]. apply coll_added. exact H.
Qed.

Lemma call_on w o w' : call w o = Ok w' -> world_on w w'.
Proof.
  unfold call. pose proof (step_on w o) as S. destruct (step w o) as [w1 [u|e]]; [|discriminate]. cbn in S. intros E. injection E as <-. exact S.
Qed.

Lemma entries_on k w w' : world_on w w' -> (List.length (entries_of k w) <= List.length (entries_of k w'))%nat.
Proof.
  intros [_ W]. unfold entries_of. destruct (nth_error (w_colls w) k) as [[kd s]|] eqn:E; [|cbn; lia].
  destruct (W _ _ _ E) as (s' & -> & l & ->). rewrite app_length. lia.
Qed.

Lemma ids_on r w w' : world_on w w' ->
  (List.length (cs_ids (deref (w_heap w) r)) <= List.length (cs_ids (deref (w_heap w') r)))%nat.
Proof. intros [(_ & W & _) _]. destruct (W r) as (l & ->). rewrite app_length. lia. Qed.

Lemma after_on evs : forall w, world_on w (after call w evs).
Proof.
  intros w. apply (after_keeps call (world_on w)); [|apply world_refl].
  intros w1 o w2 A B. eapply world_trans; [exact A|]. eapply call_on; eauto.
Qed.

(** C101.  An iterator over the subsets of a collection, while any calls are made on any of
    the objects: the subsets one by one in the order of the collection as long as it has as
    many chips as when the iterator was made, RuntimeError from then on. *)
Theorem C101_subsets_iterator :
  forall w k kd s evs, nth_error (w_colls w) k = Some (kd, s) ->
  exists a now,
    answers call (subsets_next k) w (subsets_iter k w) (evs ++ [Next]) =
      answers call (subsets_next k) w (subsets_iter k w) evs ++ [a] /\
    nth_error (w_colls (after call w evs)) k = Some (kd, now) /\
    answers_rightly (Z.of_nat (List.length (s_values s))) (s_values now)
      (answers call (subsets_next k) w (subsets_iter k w) evs) a.
Proof.
  intros w k kd s evs E.
  destruct (dict_answers call (entries_of k) snd (fun w o w' C => entries_on k w w' (call_on w o w' C)) w evs) as (a & A & R).
  destruct (after_on evs w) as [_ W]. destruct (W _ _ _ E) as (now & N & _). exists a, now. split; [exact A|]. split; [exact N|].
  unfold entries_of in R. rewrite E, N in R. unfold s_values, dvalues. rewrite map_length. unfold entries_of in R.
  unfold subsets_next, subsets_iter. unfold entries_of. rewrite E. exact R.
Qed.
Print Assumptions C101_subsets_iterator.

(** The same for an iterator over the cores of a subset. *)
Theorem C101_cores_iterator :
  forall w r evs, exists a,
    answers call (ids_next r) w (ids_iter r w) (evs ++ [Next]) =
      answers call (ids_next r) w (ids_iter r w) evs ++ [a] /\
    answers_rightly (cs_len (w_heap w) r) (cs_ids (deref (w_heap (after call w evs)) r))
      (answers call (ids_next r) w (ids_iter r w) evs) a.
Proof.
  intros w r evs.
  destruct (dict_answers call (fun w => cs_ids (deref (w_heap w) r)) (fun p => p) (fun w o w' C => ids_on r w w' (call_on w o w' C)) w evs) as (a & A & R).
  exists a. split; [exact A|]. rewrite map_id in R. exact R.
Qed.
Print Assumptions C101_cores_iterator.

(** ** An OrderedDict instead of a dict *)
Lemma ended_app {A} (p : list (answer A)) a : ended (p ++ [a]) <-> ended p \/ forall x, a <> Gives x.
Proof.
  unfold ended. split.
  - intros (b & I & N). apply in_app_iff in I as [I|[<-|[]]]; eauto.
  - intros [(b & I & N)|N]; [exists b|exists a]; rewrite in_app_iff; cbn; auto.
Qed.

Section Ordered.
  Context {O C A : Type}.
  Variable change : O -> C -> res O.
  Variable entries : O -> list A.
  Hypothesis grows : forall o c o', change o c = Ok o' ->
    (List.length (entries o) <= List.length (entries o'))%nat.
  Let nxt (o : O) := ordered_next (entries o).

  Lemma ordered_inv o evs :
    let past := answers change nxt o (ordered_iter_of (entries o)) evs in
    match left_at change nxt o (ordered_iter_of (entries o)) evs with
    | None => ended past
    | Some (n, i) => n = List.length (entries o) /\ ~ ended past /\ List.length past = i /\ List.length (given past) = i /\ (i <= n)%nat
    end.
  Proof using.
    induction evs as [|ev evs IH] using rev_ind; cbv zeta in *.
    - cbn. split; [reflexivity|]. split; [intros (a & [] & _)|]. split; [reflexivity|]. split; [reflexivity|lia].
    - destruct ev as [|c].
      + rewrite answers_next, left_at_app. cbn [after left_at].
        destruct (left_at change nxt o (ordered_iter_of (entries o)) evs) as [[n i]|].
        * destruct IH as (I1 & I2 & I3 & I4 & I5).
          remember (answers change nxt o (ordered_iter_of (entries o)) evs) as past eqn:Ep. clear Ep. unfold nxt, ordered_next.
          destruct (Nat.eqb_spec i n) as [E|E]; cbn [fst snd]; [apply ended_app; right; discriminate|].
          destruct (Nat.eqb_spec n (List.length (entries (after change o evs)))) as [L|L]; cbn [fst snd]; [|apply ended_app; right; discriminate].
          destruct (nth_error (entries (after change o evs)) i) as [a|]; cbn [fst snd]; [|apply ended_app; right; discriminate].
          split; [exact I1|]. split; [rewrite ended_app; intros [H|H]; [exact (I2 H)|exact (H a eq_refl)]|].
          split; [rewrite app_length; rewrite I3; cbn; lia|]. split; [|lia]. rewrite given_app, app_length. rewrite I4. cbn. lia.
        * cbn. apply ended_app. auto.
      + rewrite answers_change, left_at_app. cbn [left_at]. exact IH.
  Qed.

  Lemma ordered_answers o evs : exists a,
    answers change nxt o (ordered_iter_of (entries o)) (evs ++ [Next]) =
      answers change nxt o (ordered_iter_of (entries o)) evs ++ [a] /\
    answers_in_order (Z.of_nat (List.length (entries o))) (entries (after change o evs))
      (answers change nxt o (ordered_iter_of (entries o)) evs) a.
  Proof using grows.
    pose proof (ordered_inv o evs) as I. cbv zeta in I. rewrite answers_next. eexists. split; [reflexivity|].
    pose proof (after_longer change entries grows evs o) as G.
    destruct (left_at change nxt o (ordered_iter_of (entries o)) evs) as [[n i]|].
    - destruct I as (I1 & I2 & I3 & I4 & I5). unfold answers_in_order. rewrite I4, I3. unfold nxt, ordered_next.
      destruct (Nat.eqb_spec i n) as [E|E]; cbn [snd].
      + split; [auto|]. split; intros _ H; lia.
      + destruct (Nat.eqb_spec n (List.length (entries (after change o evs)))) as [L|L]; cbn [snd].
        * destruct (nth_error (entries (after change o evs)) i) as [a|] eqn:N; cbn [snd].
          -- split; [intros [H|H]; [contradiction|lia]|]. split; [intros _ _ _; exists a; auto|]. intros _ _ H. lia.
          -- apply nth_error_None in N. lia.
        * split; [intros [H|H]; [contradiction|lia]|]. split; [intros _ _ H; lia|]. reflexivity.
    - unfold nxt, ordered_next. cbn [snd]. split; [reflexivity|]. split; intros H; contradiction.
  Qed.
End Ordered.

(** If the set that holds the cores of a subset is made from an OrderedDict, an iterator over
    them that has given all is at its end even when the subset has grown, and one that has
    raised RuntimeError says StopIteration from then on. *)
Theorem C101_cores_iterator_ordered :
  forall w r evs, exists a,
    answers call (ids_next_ordered r) w (ids_iter_ordered r w) (evs ++ [Next]) =
      answers call (ids_next_ordered r) w (ids_iter_ordered r w) evs ++ [a] /\
    answers_in_order (cs_len (w_heap w) r) (cs_ids (deref (w_heap (after call w evs)) r))
      (answers call (ids_next_ordered r) w (ids_iter_ordered r w) evs) a.
Proof.
  intros w r evs.
  exact (ordered_answers call (fun w => cs_ids (deref (w_heap w) r)) (fun w o w' C => ids_on r w w' (call_on w o w' C)) w evs).
Qed.
Print Assumptions C101_cores_iterator_ordered.

(** Nothing is ever taken out of a collection or a subset, or put in another place: so with
    as many chips they are the same subset objects in the same order, and with as many cores
    the same cores. *)
Theorem C101_as_many :
  forall w evs,
    (forall k kd s, nth_error (w_colls w) k = Some (kd, s) ->
       exists more, nth_error (w_colls (after call w evs)) k = Some (kd, s ++ more)) /\
    (forall r, exists more, cs_ids (deref (w_heap (after call w evs)) r) = cs_ids (deref (w_heap w) r) ++ more).
Proof.
  intros w evs. destruct (after_on evs w) as [(_ & H & _) W]. split; [|exact H].
  intros k kd s E. destruct (W _ _ _ E) as (s' & E' & l & ->). eauto.
Qed.
Print Assumptions C101_as_many.

(** ** Loops *)
Section Loop.
  Context {O E A : Type}.
  Variable entries : O -> list E.
  Variable view : E -> A.
  Variable body : O -> A -> res O.
  Variable f : O -> A -> O.
  Variable l0 : list E.
  Variable P : O -> Prop.
  Hypothesis keeps : forall o, P o -> entries o = l0.
  Hypothesis works : forall o e, P o -> In e l0 -> body o (view e) = Ok (f o (view e)) /\ P (f o (view e)).

  Lemma loop_from n : forall i o, (List.length l0 - i = n)%nat -> P o -> forall o' x l,
    for_loop (fun o => dict_next view (entries o)) body o (mkIter true (Some (List.length l0)) i) o' x l <->
    o' = fold_left f (map view (skipn i l0)) o /\ x = None /\ l = map view (skipn i l0).
  Proof using keeps works.
    induction n as [|n IH]; intros i o L HP o' x l.
    - assert (skipn i l0 = []) as -> by (apply skipn_all2; lia). cbn [map fold_left].
      assert (dict_next view (entries o) (mkIter true (Some (List.length l0)) i) = (mkIter false (Some (List.length l0)) i, Stops)) as N.
      { unfold dict_next. cbn [it_live it_used it_pos]. rewrite (keeps o HP), Nat.eqb_refl.
        rewrite (proj2 (nth_error_None l0 i)) by lia. reflexivity. }
      split.
      + intros F. inversion F; subst; try congruence. auto.
      + intros (-> & -> & ->). eapply for_ends. exact N.
    - destruct (nth_error l0 i) as [e|] eqn:EI; [|apply nth_error_None in EI; lia].
      assert (skipn i l0 = e :: skipn (S i) l0) as S.
      { clear - EI. revert l0 EI. induction i as [|i IH]; intros [|a q] EI; try discriminate EI; [injection EI as ->; reflexivity|].
        cbn [skipn]. apply IH. exact EI. }
      rewrite S. cbn [map fold_left].
      assert (dict_next view (entries o) (mkIter true (Some (List.length l0)) i) = (mkIter true (Some (List.length l0)) (Datatypes.S i), Gives (view e))) as N.
      { unfold dict_next. cbn [it_live it_used it_pos]. rewrite (keeps o HP), Nat.eqb_refl, EI. reflexivity. }
      destruct (works o e HP (nth_error_In _ _ EI)) as [B HP'].
      assert (List.length l0 - Datatypes.S i = n)%nat as L' by lia. specialize (IH (Datatypes.S i) _ L' HP').
      split.
      + intros F. inversion F as [? ? ? H|? ? ? ? H|? ? ? ? ? H H'|? ? ? ? ? ? ? ? H H' H'']; subst; try congruence.
        rewrite N in H. injection H as <- <-. rewrite B in H'. injection H' as <-. apply IH in H'' as (-> & -> & ->). auto.
      + intros (-> & -> & ->). eapply for_goes_on; [exact N|exact B|]. apply IH. auto.
  Qed.

  Lemma loop_all o o' x l : P o ->
    for_loop (fun o => dict_next view (entries o)) body o (iter_of (entries o)) o' x l <->
    o' = fold_left f (map view l0) o /\ x = None /\ l = map view l0.
  Proof using keeps works. intros HP. unfold iter_of. rewrite (keeps o HP). apply (loop_from _ 0 o eq_refl HP). Qed.
End Loop.

Lemma put_put l : forall k a b, put_coll (put_coll l k a) k b = put_coll l k b.
Proof. induction l as [|c l IH]; intros [|k] a b; cbn; [reflexivity..|]. rewrite IH. reflexivity. Qed.
Lemma put_id l : forall k a, nth_error l k = Some a -> put_coll l k a = l.
Proof. induction l as [|c l IH]; intros [|k] a E; cbn in *; [discriminate..|congruence|]. rewrite IH; auto. Qed.
Lemma put_same h : forall r, (r < List.length h)%nat -> put h r (deref h r) = h.
Proof.
  unfold deref. induction h as [|c h IH]; intros [|r] L; cbn [put nth List.length] in *; [lia..|reflexivity|]. rewrite IH by lia. reflexivity.
Qed.

(** One addition after the other *)
Lemma fold_add_to {A} (F : A -> heap -> subsets -> heap * subsets) k l : forall w s, nth_error (w_colls w) k = Some (Plain, s) ->
  fold_left (fun w a => fst (add_to w k (F a))) l w =
  fst (add_to w k (fun h s => fold_left (fun hs a => F a (fst hs) (snd hs)) l (h, s))).
Proof.
  induction l as [|a l IH]; intros w s E; cbn [fold_left].
  - unfold add_to. rewrite E. cbn [fst]. rewrite put_id by exact E. destruct w; reflexivity.
  - unfold add_to at 2. rewrite E. destruct (F a (w_heap w) s) as [h1 s1] eqn:EF. cbn [fst].
    rewrite (IH _ s1) by (cbn [w_colls]; rewrite put_coll_nth, Nat.eqb_refl, E; reflexivity).
    unfold add_to. cbn [w_colls w_heap]. rewrite put_coll_nth, Nat.eqb_refl, E. cbn [option_map fst snd].
    rewrite EF. destruct (fold_left _ l (h1, s1)) as [h2 s2]. cbn [fst]. rewrite put_put. reflexivity.
Qed.

Lemma add_to_ok w k f s : nth_error (w_colls w) k = Some (Plain, s) -> add_to w k f = (fst (add_to w k f), Ok tt).
Proof. intros E. unfold add_to. rewrite E. destruct (f (w_heap w) s). reflexivity. Qed.

Lemma add_to_plain w k f s : nth_error (w_colls w) k = Some (Plain, s) ->
  exists s', nth_error (w_colls (fst (add_to w k f))) k = Some (Plain, s').
Proof.
  intros E. unfold add_to. rewrite E. destruct (f (w_heap w) s) as [h' s']. cbn [fst w_colls]. rewrite put_coll_nth, Nat.eqb_refl, E. cbn. eauto.
Qed.

Lemma processor_same h s x y p r : In p (cs_ids (deref h r)) -> 
  cs_ids (deref (fst (s_add_processor h s x y p)) r) = cs_ids (deref h r).
Proof.
  intros I. assert (r < List.length h)%nat as L.
  { destruct (Nat.lt_ge_cases r (List.length h)) as [L|L]; [exact L|]. rewrite (deref_beyond h r L) in I. destruct I. }
  unfold s_add_processor. destruct (dget xy_eqb s (x, y)) as [q|].
  - cbn [fst]. unfold cs_add_processor. rewrite deref_put. destruct (Nat.eqb_spec r q) as [<-|]; cbn [andb]; [|reflexivity].
    destruct (Nat.ltb r (List.length h)); [|reflexivity]. cbn [cs_ids]. unfold oset_add.
    apply zmem_in in I. rewrite I. reflexivity.
  - rewrite new_subset. cbn [fst]. rewrite deref_app_old by exact L. reflexivity.
Qed.

Lemma add_to_ext w k f g : (forall s, f (w_heap w) s = g (w_heap w) s) -> add_to w k f = add_to w k g.
Proof. intros E. unfold add_to. destruct (nth_error (w_colls w) k) as [[[] s]|]; [rewrite E| |]; reflexivity. Qed.

Lemma call_add w k f s o : step w o = add_to w k f -> nth_error (w_colls w) k = Some (Plain, s) ->
  call w o = Ok (fst (add_to w k f)).
Proof. intros S E. unfold call. rewrite S, (add_to_ok w k f s E). reflexivity. Qed.

(** add_core_subset walks over the live set of the cores of its argument, which may be one of
    the collection's own subsets: it never raises, and does what it would do with a copy. *)
Theorem C101_adding_a_subset :
  forall w k s r, nth_error (w_colls w) k = Some (Plain, s) ->
  forall w' x l, live_add_core_subset k r w w' x l <->
    step w (AddSubset k r) = (w', Ok tt) /\ x = None /\ l = cs_ids (deref (w_heap w) r).
Proof.
  intros w k s r E w' x l. unfold live_add_core_subset. cbv zeta.
  set (X := cs_x (deref (w_heap w) r)). set (Y := cs_y (deref (w_heap w) r)). set (l0 := cs_ids (deref (w_heap w) r)).
  pose (P := fun w1 : world => (exists s1, nth_error (w_colls w1) k = Some (Plain, s1)) /\ cs_ids (deref (w_heap w1) r) = l0).
  pose (f := fun w1 p => fst (add_to w1 k (fun h s => s_add_processor h s X Y p))).
  unfold ids_next, ids_iter.
  rewrite (loop_all (fun w => cs_ids (deref (w_heap w) r)) (fun p => p) (fun w p => call w (AddProcessor k X Y p)) f l0 P).
  - rewrite map_id. unfold f. rewrite (fold_add_to (fun p h s => s_add_processor h s X Y p) k l0 w s E). cbn [step].
    set (g := fun (h : heap) (s : subsets) => fold_left (fun hs p => s_add_processor (fst hs) (snd hs) X Y p) l0 (h, s)).
    rewrite (add_to_ext w k (fun h s => s_add_core_subset h s r) g) by reflexivity.
    rewrite (add_to_ok w k g s E). split; intros (A & B & C); subst; (split; [|auto]); [reflexivity|exact (eq_sym (f_equal fst A))].
  - intros o [_ H]. exact H.
  - intros o p [(s1 & E1) H] I. split; [exact (call_add o k _ s1 (AddProcessor k X Y p) eq_refl E1)|]. split; [apply (add_to_plain o k _ s1 E1)|].
    unfold f, add_to. rewrite E1. pose proof (processor_same (w_heap o) s1 X Y p r) as K. rewrite H in K. specialize (K I).
    destruct (s_add_processor (w_heap o) s1 X Y p) as [h2 s2]. exact K.
  - split; [eauto|reflexivity].
Qed.
Print Assumptions C101_adding_a_subset.

(** The same loop, with an OrderedDict in the set of the cores *)
Section OrderedLoop.
  Context {O A : Type}.
  Variable entries : O -> list A.
  Variable body : O -> A -> res O.
  Variable f : O -> A -> O.
  Variable l0 : list A.
  Variable P : O -> Prop.
  Hypothesis keeps : forall o, P o -> entries o = l0.
  Hypothesis works : forall o e, P o -> In e l0 -> body o e = Ok (f o e) /\ P (f o e).

  Lemma ordered_from n : forall i o, (List.length l0 - i = n)%nat -> (i <= List.length l0)%nat -> P o -> forall o' x l,
    for_loop (fun o => ordered_next (entries o)) body o (Some (List.length l0, i)) o' x l <->
    o' = fold_left f (skipn i l0) o /\ x = None /\ l = skipn i l0.
  Proof using keeps works.
    induction n as [|n IH]; intros i o L LE HP o' x l.
    - assert (skipn i l0 = []) as -> by (apply skipn_all2; lia). cbn [fold_left].
      assert (ordered_next (entries o) (Some (List.length l0, i)) = (None, Stops)) as N.
      { unfold ordered_next. assert (i = List.length l0) as -> by lia. rewrite Nat.eqb_refl. reflexivity. }
      split.
      + intros F. inversion F; subst; try congruence. auto.
      + intros (-> & -> & ->). eapply for_ends. exact N.
    - destruct (nth_error l0 i) as [e|] eqn:EI; [|apply nth_error_None in EI; lia].
      assert (skipn i l0 = e :: skipn (S i) l0) as S.
      { clear - EI. revert l0 EI. induction i as [|i IH]; intros [|a q] EI; try discriminate EI; [injection EI as ->; reflexivity|].
        cbn [skipn]. apply IH. exact EI. }
      rewrite S. cbn [fold_left].
      assert (ordered_next (entries o) (Some (List.length l0, i)) = (Some (List.length l0, Datatypes.S i), Gives e)) as N.
      { unfold ordered_next. rewrite (keeps o HP), Nat.eqb_refl, EI. destruct (Nat.eqb_spec i (List.length l0)); [lia|reflexivity]. }
      destruct (works o e HP (nth_error_In _ _ EI)) as [B HP'].
      assert (List.length l0 - Datatypes.S i = n)%nat as L' by lia. assert (Datatypes.S i <= List.length l0)%nat as LE' by lia.
      specialize (IH (Datatypes.S i) _ L' LE' HP').
      split.
      + intros F. inversion F as [? ? ? H|? ? ? ? H|? ? ? ? ? H H'|? ? ? ? ? ? ? ? H H' H'']; subst; try congruence.
        rewrite N in H. injection H as <- <-. rewrite B in H'. injection H' as <-. apply IH in H'' as (-> & -> & ->). auto.
      + intros (-> & -> & ->). eapply for_goes_on; [exact N|exact B|]. apply IH. auto.
  Qed.
End OrderedLoop.

Theorem C101_adding_a_subset_ordered :
  forall w k s r, nth_error (w_colls w) k = Some (Plain, s) ->
  forall w' x l, live_add_core_subset_ordered k r w w' x l <->
    step w (AddSubset k r) = (w', Ok tt) /\ x = None /\ l = cs_ids (deref (w_heap w) r).
Proof.
  intros w k s r E w' x l. rewrite <- (C101_adding_a_subset w k s r E w' x l).
  unfold live_add_core_subset, live_add_core_subset_ordered. cbv zeta.
  set (X := cs_x (deref (w_heap w) r)). set (Y := cs_y (deref (w_heap w) r)).
  pose (l0 := cs_ids (deref (w_heap w) r)).
  pose (P := fun w1 : world => (exists s1, nth_error (w_colls w1) k = Some (Plain, s1)) /\ cs_ids (deref (w_heap w1) r) = l0).
  pose (f := fun w1 p => fst (add_to w1 k (fun h s => s_add_processor h s X Y p))).
  assert (forall o, P o -> cs_ids (deref (w_heap o) r) = l0) as K1 by (intros o [_ H]; exact H).
  assert (forall o e, P o -> In e l0 -> call o (AddProcessor k X Y e) = Ok (f o e) /\ P (f o e)) as K2.
  { intros o p [(s1 & E1) H] I. split; [exact (call_add o k _ s1 (AddProcessor k X Y p) eq_refl E1)|]. split; [apply (add_to_plain o k _ s1 E1)|].
    unfold f, add_to. rewrite E1. pose proof (processor_same (w_heap o) s1 X Y p r) as K. rewrite H in K. specialize (K I).
    destruct (s_add_processor (w_heap o) s1 X Y p) as [h2 s2]. exact K. }
  assert (P w) as HP by (split; [eauto|reflexivity]).
  unfold ids_next, ids_iter, ids_next_ordered, ids_iter_ordered.
  rewrite (loop_all (fun w => cs_ids (deref (w_heap w) r)) (fun p => p) (fun w p => call w (AddProcessor k X Y p)) f l0 P K1 K2 w w' x l HP).
  unfold ordered_iter_of. fold l0.
  rewrite (ordered_from (fun w => cs_ids (deref (w_heap w) r)) (fun w p => call w (AddProcessor k X Y p)) f l0 P K1 K2 _ 0%nat w eq_refl (Nat.le_0_l _) HP w' x l).
  rewrite map_id. reflexivity.
Qed.
Print Assumptions C101_adding_a_subset_ordered.

(** Adding one of its own subsets to a collection changes nothing. *)
Lemma own_subset h s r : good h s -> In r (map snd s) -> s_add_core_subset h s r = (h, s).
Proof.
  intros (N & _ & G) I. apply in_map_iff in I as ([xy q] & E & I). cbn in E. subst q. destruct (G _ _ I) as [L X].
  unfold s_add_core_subset. set (ids := cs_ids (deref h r)).
  assert (forall ps, incl ps ids -> fold_left (fun hs p => s_add_processor (fst hs) (snd hs) (cs_x (deref h r)) (cs_y (deref h r)) p) ps (h, s) = (h, s)) as K;
    [|apply K; apply incl_refl].
  induction ps as [|p ps IH]; intros S; [reflexivity|]. cbn [fold_left fst snd].
  assert (s_add_processor h s (cs_x (deref h r)) (cs_y (deref h r)) p = (h, s)) as ->; [|apply IH; intros a A; apply S; cbn; auto].
  unfold s_add_processor. rewrite X, (in_dget xy_eqb xyeqb_eq s xy r N I). f_equal. unfold cs_add_processor.
  assert (zmem (cs_ids (deref h r)) p = true) as Z by (apply zmem_in; apply S; cbn; auto). unfold oset_add. rewrite Z.
  replace (mkSubset _ _ _) with (deref h r) by (destruct (deref h r); reflexivity). apply put_same. exact L.
Qed.

Lemma run_good ops k kd s : nth_error (w_colls (run ops)) k = Some (kd, s) -> good (w_heap (run ops)) s.
Proof.
  intros E. destruct (run_inv ops) as (I1 & I2 & _). assert (k < List.length (logs_of ops))%nat as L by (rewrite <- I1; apply nth_error_Some; congruence).
  apply nth_error_Some in L. destruct (nth_error (logs_of ops) k) as [lg|] eqn:G; [|congruence]. exact (proj1 (I2 _ _ _ _ E G)).
Qed.

(** add_core_subsets with a collection as argument - another one or the same - walks over its
    live dict: it never raises, and does what it would do with a list of the subsets. *)
Theorem C101_merging :
  forall ops k s j kj t, let w := run ops in
    nth_error (w_colls w) k = Some (Plain, s) -> nth_error (w_colls w) j = Some (kj, t) ->
  forall w' x l, live_add_core_subsets k j w w' x l <->
    step w (AddSubsets k (s_values t)) = (w', Ok tt) /\ x = None /\ l = s_values t.
Proof.
  intros ops k s j kj t w E Ej w' x l. unfold live_add_core_subsets.
  pose (P := fun w1 : world => (exists s1, nth_error (w_colls w1) k = Some (Plain, s1)) /\ entries_of j w1 = t /\ (j = k -> w1 = w)).
  pose (f := fun w1 r => fst (add_to w1 k (fun h s => s_add_core_subset h s r))).
  unfold subsets_next, subsets_iter.
  rewrite (loop_all (entries_of j) snd (fun w r => call w (AddSubset k r)) f t P).
  - unfold f. rewrite (fold_add_to (fun r h s => s_add_core_subset h s r) k (map snd t) w s E). cbn [step].
    set (g := fun (h : heap) (s : subsets) => fold_left (fun hs r => s_add_core_subset (fst hs) (snd hs) r) (map snd t) (h, s)).
    rewrite (add_to_ext w k (fun h s => s_add_core_subsets h s (s_values t)) g) by reflexivity.
    rewrite (add_to_ok w k g s E). split; intros (A & B & C); subst; (split; [|auto]); [reflexivity|exact (eq_sym (f_equal fst A))].
  - intros o (_ & H & _). exact H.
  - intros o e ((s1 & E1) & H & S) I. split; [exact (call_add o k _ s1 (AddSubset k (snd e)) eq_refl E1)|].
    split; [apply (add_to_plain o k _ s1 E1)|].
    assert (j = k -> f o (snd e) = w) as K.
    { intros J. rewrite (S J) in *. subst j. unfold f, add_to. rewrite E. assert (t = s) as -> by congruence.
      rewrite (own_subset (w_heap w) s (snd e)); [|exact (run_good ops k Plain s E)|apply in_map; exact I].
      cbn [fst]. rewrite put_id by exact E. destruct w; reflexivity. }
    split; [|exact K]. destruct (Nat.eq_dec j k) as [J|J]; [rewrite (K J), <- H, (S J); reflexivity|].
    rewrite <- H. unfold f, entries_of, add_to. rewrite E1. destruct (s_add_core_subset (w_heap o) s1 (snd e)) as [h2 s2].
    cbn [fst w_colls]. rewrite put_coll_nth. destruct (Nat.eqb_spec j k) as [Q|_]; [contradiction|reflexivity].
  - split; [eauto|]. split; [|reflexivity]. unfold entries_of. rewrite Ej. reflexivity.
Qed.
Print Assumptions C101_merging.

(** A collection that is merged into itself, or with one of its own subsets, stays as it is, to
    the last object. *)
Theorem C101_with_itself :
  forall ops k s, let w := run ops in nth_error (w_colls w) k = Some (Plain, s) ->
    step w (AddSubsets k (s_values s)) = (w, Ok tt) /\
    forall r, In r (s_values s) -> step w (AddSubset k r) = (w, Ok tt).
Proof.
  intros ops k s w E. pose proof (run_good ops k Plain s E) as G. fold w in G.
  assert (forall f, f (w_heap w) s = (w_heap w, s) -> add_to w k f = (w, Ok tt)) as K.
  { intros f F. unfold add_to. rewrite E, F, put_id by exact E. destruct w; reflexivity. }
  split; [|intros r I; cbn [step]; apply K, own_subset; auto].
  cbn [step]. apply K. unfold s_add_core_subsets.
  assert (forall rs, incl rs (s_values s) -> fold_left (fun hs r => s_add_core_subset (fst hs) (snd hs) r) rs (w_heap w, s) = (w_heap w, s)) as Z;
    [|apply Z, incl_refl].
  induction rs as [|r rs IH]; intros I; [reflexivity|]. cbn [fold_left fst snd].
  rewrite (own_subset _ _ r G) by (apply I; cbn; auto). apply IH. intros a A. apply I. cbn. auto.
Qed.
Print Assumptions C101_with_itself.

(** A caller who adds a core on a new chip to a collection in a loop over it: the body runs
    once, then the loop raises RuntimeError, and the chip has been added. *)
Theorem C101_new_chip_in_a_loop :
  forall w k s r0 rest body x y p w1,
    nth_error (w_colls w) k = Some (Plain, s) -> s_values s = r0 :: rest -> s_is_chip s x y = false ->
    call w (AddProcessor k x y p) = Ok w1 -> body w r0 = Ok w1 ->
  forall w' e l, for_loop (subsets_next k) body w (subsets_iter k w) w' e l <->
    w' = w1 /\ e = Some RuntimeErr /\ l = [r0].
Proof.
  intros w k s r0 rest body x y p w1 E V N C B w' e l.
  assert (entries_of k w = s) as ES by (unfold entries_of; rewrite E; reflexivity).
  assert (exists q, nth_error s 0 = Some (q, r0)) as (q & H0).
  { unfold s_values, dvalues in V. destruct s as [|[q r] s0]; [discriminate V|]. injection V as -> V. cbn. eauto. }
  set (n := List.length s).
  assert (List.length (entries_of k w1) = S n) as L1.
  { unfold call in C. cbn [step] in C. unfold add_to in C. rewrite E in C. unfold s_add_processor in C.
    unfold s_is_chip in N. apply (dmem_false xy_eqb xyeqb_eq) in N. pose proof (proj2 (dget_none xy_eqb xyeqb_eq s (x, y)) N) as G.
    rewrite G in C. rewrite new_subset in C. injection C as <-. unfold entries_of. cbn [w_colls].
    rewrite put_coll_nth, Nat.eqb_refl, E. cbn [option_map]. rewrite (dset_new xy_eqb xyeqb_eq) by exact N. rewrite app_length. cbn. lia. }
  assert (subsets_next k w (subsets_iter k w) = (mkIter true (Some n) 1, Gives r0)) as N0.
  { unfold subsets_next, subsets_iter, dict_next, iter_of. rewrite ES. fold n. cbn [it_live it_used it_pos].
    fold n. rewrite Nat.eqb_refl, H0. reflexivity. }
  assert (subsets_next k w1 (mkIter true (Some n) 1) = (mkIter true None 1, Raises RuntimeErr)) as N1.
  { unfold subsets_next, dict_next. cbn [it_live it_used it_pos]. rewrite L1. destruct (Nat.eqb_spec n (S n)); [lia|reflexivity]. }
  assert (for_loop (subsets_next k) body w (subsets_iter k w) w1 (Some RuntimeErr) [r0]) as F.
  { eapply for_goes_on; [exact N0|exact B|]. eapply for_iter_raises. exact N1. }
  split; [|intros (-> & -> & ->); exact F]. intros F'. destruct (for_loop_one _ _ _ _ _ _ _ F _ _ _ F') as (-> & -> & ->). auto.
Qed.
Print Assumptions C101_new_chip_in_a_loop.

(** ** A core on every chip *)
Definition holds (k : nat) (s : subsets) (w : world) : Prop :=
  nth_error (w_colls w) k = Some (Plain, s) /\ good (w_heap w) s.

Lemma put_core k s w xy r p : holds k s w -> In (xy, r) s ->
  let w' := fst (step w (AddProcessor k (fst xy) (snd xy) p)) in
  holds k s w' /\ (cs_x (deref (w_heap w) r), cs_y (deref (w_heap w) r)) = xy /\
  forall x y q, s_is_core (w_heap w') s x y q = true <-> s_is_core (w_heap w) s x y q = true \/ q = p /\ (x, y) = xy.
Proof.
  intros [E G] I. pose proof G as (N & M & C). destruct (C _ _ I) as [L X].
  assert (dget xy_eqb s xy = Some r) as D by (apply (in_dget xy_eqb xyeqb_eq); auto).
  cbn [step]. unfold add_to. rewrite E. unfold s_add_processor. rewrite <- surjective_pairing, D. cbn [fst w_heap w_colls].
  rewrite put_id by exact E. split; [split; [exact E|exact (proj1 (put_cont _ _ _ _ p G I))]|]. split; [exact X|].
  intros x y q. unfold s_is_core. destruct (dget xy_eqb s (x, y)) as [r'|] eqn:D'.
  - unfold cs_contains. unfold cs_add_processor. rewrite deref_put. destruct (Nat.eqb_spec r' r) as [->|NE]; cbn [andb].
    + apply Nat.ltb_lt in L. rewrite L. cbn [cs_ids].
      assert ((x, y) = xy) as XY by (destruct (good_get _ _ _ _ G D') as (_ & _ & H); congruence).
      rewrite !zmem_in, oset_add_in. intuition.
    + split; [auto|]. intros [H|[_ H]]; [exact H|]. congruence.
  - split; [discriminate|]. intros [H|[_ H]]; [discriminate|]. congruence.
Qed.

(** A caller who adds the core [p] on every chip of a collection in a loop over it: the loop
    comes to its end, with all the subsets, and does just these additions. *)
Theorem C101_core_on_every_chip :
  forall ops k s p, let w := run ops in
    nth_error (w_colls w) k = Some (Plain, s) ->
  let body := fun w r => call w (AddProcessor k (cs_x (deref (w_heap w) r)) (cs_y (deref (w_heap w) r)) p) in
  let w' := run (ops ++ map (fun e => AddProcessor k (fst (fst e)) (snd (fst e)) p) s) in
  (forall w1 x l, for_loop (subsets_next k) body w (subsets_iter k w) w1 x l <->
     w1 = w' /\ x = None /\ l = s_values s) /\
  nth_error (w_colls w') k = Some (Plain, s) /\
  forall x y q, s_is_core (w_heap w') s x y q = true <->
    s_is_core (w_heap w) s x y q = true \/ q = p /\ s_is_chip s x y = true.
Proof.
  intros ops k s p w E body w'. pose proof (run_good ops k Plain s E) as G. fold w in G.
  pose (f := fun w1 r => fst (step w1 (AddProcessor k (cs_x (deref (w_heap w1) r)) (cs_y (deref (w_heap w1) r)) p))).
  assert (forall l w1, holds k s w1 -> incl l s ->
    let w2 := fold_left (fun w o => fst (step w o)) (map (fun e => AddProcessor k (fst (fst e)) (snd (fst e)) p) l) w1 in
    fold_left f (map snd l) w1 = w2 /\ holds k s w2 /\
    forall x y q, s_is_core (w_heap w2) s x y q = true <-> s_is_core (w_heap w1) s x y q = true \/ q = p /\ In (x, y) (map fst l)) as K.
  { induction l as [|[xy r] l IH]; intros w1 H I; cbn [map fold_left fst snd].
    - split; [reflexivity|]. split; [exact H|]. cbn. tauto.
    - destruct (put_core k s w1 xy r p H (I _ (or_introl eq_refl))) as (H2 & X & S).
      assert (f w1 r = fst (step w1 (AddProcessor k (fst xy) (snd xy) p))) as -> by (unfold f; rewrite <- X; reflexivity).
      destruct (IH _ H2 (fun a A => I a (or_intror A))) as (A & B & C). split; [exact A|]. split; [exact B|].
      intros x y q. rewrite C, S. cbn [In]. intuition congruence. }
  destruct (K s w (conj E G) (incl_refl s)) as (A & [B _] & C).
  assert (w' = fold_left (fun w o => fst (step w o)) (map (fun e => AddProcessor k (fst (fst e)) (snd (fst e)) p) s) w) as EW
    by (unfold w', w, run; rewrite fold_left_app; reflexivity).
  rewrite EW. split; [|split; [exact B|]].
  - intros w1 x l. unfold subsets_next, subsets_iter. rewrite (loop_all (entries_of k) snd body f s (holds k s)).
    + rewrite A. reflexivity.
    + intros o [H _]. unfold entries_of. rewrite H. reflexivity.
    + intros o [xy r] H I. cbn [snd]. destruct (put_core k s o xy r p H I) as (H2 & X & _). split.
      * exact (call_add o k _ s (AddProcessor k _ _ p) eq_refl (proj1 H)).
      * unfold f. rewrite <- X in H2. exact H2.
    + split; [exact E|exact G].
  - intros x y q. rewrite C. unfold s_is_chip. rewrite (dmem_in xy_eqb xyeqb_eq). reflexivity.
Qed.
Print Assumptions C101_core_on_every_chip.

(** Not vacuous: a collection of two chips and a loop over it.  A core on a chip that is there
    does not disturb the iterator; a new chip does, for good.  A list of its own subsets. *)
Definition loop_ops : list op :=
  [NewSubset 0 0 [1; 2]; NewSubset 1 0 [3]; NewSubsets [0%nat; 1%nat]; NewFrozen [1%nat]].

Example C101_case :
  let w := run loop_ops in
  nth_error (w_colls w) 0 = Some (Plain, [((0, 0), 2%nat); ((1, 0), 3%nat)]) /\
  nth_error (w_colls w) 1 = Some (Frozen, [((1, 0), 4%nat)]) /\
  answers call (subsets_next 0%nat) w (subsets_iter 0%nat w)
    [Next; Change (AddProcessor 0 1 0 9); Change (AddProcessor 1 5 5 9); Next; Next; Change (AddProcessor 0 5 5 1); Next]
    = [Gives 2%nat; Gives 3%nat; Stops; Stops] /\
  answers call (subsets_next 0%nat) w (subsets_iter 0%nat w)
    [Next; Change (AddProcessor 0 5 5 1); Next; Change (SubsetAdd 2%nat 7); Next]
    = [Gives 2%nat; Raises RuntimeErr; Raises RuntimeErr] /\
  answers call (ids_next 2%nat) w (ids_iter 2%nat w) [Next; Change (AddProcessor 0 0 0 1); Next; Change (AddProcessor 0 0 0 5); Next]
    = [Gives 1; Gives 2; Raises RuntimeErr] /\
  answers call (ids_next_ordered 2%nat) w (ids_iter_ordered 2%nat w) [Next; Next; Change (AddProcessor 0 0 0 5); Next]
    = [Gives 1; Gives 2; Stops] /\
  answers call (ids_next_ordered 2%nat) w (ids_iter_ordered 2%nat w) [Next; Change (AddProcessor 0 0 0 5); Next; Next]
    = [Gives 1; Raises RuntimeErr; Stops] /\
  s_is_chip [((0, 0), 2%nat); ((1, 0), 3%nat)] 5 5 = false.
Proof. vm_compute. auto 10. Qed.
