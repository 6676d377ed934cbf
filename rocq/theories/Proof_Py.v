(** Lemmas about the Python substrate. *)
From Coq Require Import Lia ZifyBool Permutation Sorted.
From Verif Require Import Model_Py.

Section DictLemmas.
  Context {K V : Type} (eqb : K -> K -> bool).
  Hypothesis eqb_eq : forall a b, eqb a b = true <-> a = b.

  Lemma eqb_refl a : eqb a a = true.
  Proof. apply eqb_eq; auto. Qed.

  Lemma eqb_neq a b : a <> b -> eqb a b = false.
  Proof. intros H. destruct (eqb a b) eqn:E; auto. apply eqb_eq in E. contradiction. Qed.

  Lemma eqb_dec_spec a b : (a = b /\ eqb a b = true) \/ (a <> b /\ eqb a b = false).
  Proof.
    destruct (eqb a b) eqn:E.
    - left; split; auto. apply eqb_eq; auto.
    - right; split; auto. intros ->. rewrite eqb_refl in E. discriminate.
  Qed.

  Lemma dget_some_in (d : dict K V) k v : dget eqb d k = Some v -> In (k, v) d.
  Proof.
    induction d as [|[k' v'] d IH]; cbn; [discriminate|].
    destruct (eqb k' k) eqn:E.
    - injection 1 as ->. apply eqb_eq in E. subst. auto.
    - auto.
  Qed.

  Lemma dget_none (d : dict K V) k : dget eqb d k = None <-> ~ In k (dkeys d).
  Proof.
    induction d as [|[k' v'] d IH]; cbn; [tauto|].
    destruct (eqb k' k) eqn:E.
    - apply eqb_eq in E. subst. split; [discriminate|]. intros H. exfalso; auto.
    - rewrite IH. split; [|tauto]. intros H [->|?]; auto.
      rewrite eqb_refl in E. discriminate.
  Qed.

  Lemma dmem_in (d : dict K V) k : dmem eqb d k = true <-> In k (dkeys d).
  Proof.
    unfold dmem. destruct (dget eqb d k) as [v|] eqn:E.
    - split; auto. intros _. apply dget_some_in in E. apply in_map_iff. exists (k, v). auto.
    - apply dget_none in E. split; [discriminate|tauto].
  Qed.

  Lemma dmem_false (d : dict K V) k : dmem eqb d k = false <-> ~ In k (dkeys d).
  Proof. rewrite <- dmem_in. destruct (dmem eqb d k); intuition congruence. Qed.

  Lemma dmem_dget (d : dict K V) k : dmem eqb d k = true <-> exists v, dget eqb d k = Some v.
  Proof.
    unfold dmem. destruct (dget eqb d k) as [v|]; split; intros H; eauto; try discriminate.
    destruct H; discriminate.
  Qed.

  Lemma in_dget (d : dict K V) k v : NoDup (dkeys d) -> In (k, v) d -> dget eqb d k = Some v.
  Proof.
    induction d as [|[k' v'] d IH]; cbn; [tauto|].
    intros N [E|H].
    - injection E as -> ->. rewrite eqb_refl. auto.
    - inversion N as [|? ? Hn N']; subst. destruct (eqb k' k) eqn:E.
      + apply eqb_eq in E. subst. exfalso. apply Hn. apply in_map_iff. exists (k, v). auto.
      + apply IH; auto.
  Qed.

  Lemma dset_new (d : dict K V) k v : ~ In k (dkeys d) -> dset eqb d k v = d ++ [(k, v)].
  Proof.
    induction d as [|[k' v'] d IH]; cbn; auto. intros H.
    rewrite eqb_neq by tauto. rewrite IH by tauto. auto.
  Qed.

  Lemma dget_dset (d : dict K V) k v k' :
    dget eqb (dset eqb d k v) k' = if eqb k k' then Some v else dget eqb d k'.
  Proof.
    induction d as [|[j w] d IH]; cbn.
    - reflexivity.
    - destruct (eqb_dec_spec j k) as [[-> E]|[N E]]; rewrite E; cbn.
      + destruct (eqb k k'); auto.
      + rewrite IH. destruct (eqb_dec_spec k k') as [[-> E']|[N' E']]; rewrite E'; auto.
        rewrite E. auto.
  Qed.

  Lemma dkeys_dset_old (d : dict K V) k v : In k (dkeys d) ->
    dkeys (dset eqb d k v) = dkeys d.
  Proof.
    induction d as [|[j w] d IH]; cbn; [tauto|]. intros H.
    destruct (eqb_dec_spec j k) as [[-> E]|[N E]]; rewrite E; cbn; auto.
    f_equal. apply IH. destruct H; [contradiction|auto].
  Qed.

  Lemma dkeys_dset_new (d : dict K V) k v : ~ In k (dkeys d) ->
    dkeys (dset eqb d k v) = dkeys d ++ [k].
  Proof. intros H. rewrite dset_new by auto. unfold dkeys. rewrite map_app. reflexivity. Qed.

  Lemma in_dkeys_dset (d : dict K V) k v j :
    In j (dkeys (dset eqb d k v)) <-> In j (dkeys d) \/ j = k.
  Proof.
    destruct (dmem eqb d k) eqn:E.
    - apply dmem_in in E. rewrite dkeys_dset_old by auto. intuition (subst; auto).
    - apply dmem_false in E. rewrite dkeys_dset_new by auto. rewrite in_app_iff.
      cbn. intuition.
  Qed.

  Lemma nodup_snoc (l : list K) k : NoDup l -> ~ In k l -> NoDup (l ++ [k]).
  Proof.
    intros N H. apply Permutation_NoDup with (l := k :: l).
    - apply Permutation_cons_append.
    - constructor; auto.
  Qed.

  Lemma dset_nodup (d : dict K V) k v : NoDup (dkeys d) -> NoDup (dkeys (dset eqb d k v)).
  Proof.
    intros N. destruct (dmem eqb d k) eqn:E.
    - apply dmem_in in E. rewrite dkeys_dset_old; auto.
    - apply dmem_false in E. rewrite dkeys_dset_new by auto. apply nodup_snoc; auto.
  Qed.

  Lemma dget_app (d d' : dict K V) k :
    dget eqb (d ++ d') k = match dget eqb d k with Some v => Some v | None => dget eqb d' k end.
  Proof.
    induction d as [|[j w] d IH]; cbn; auto. destruct (eqb j k); auto.
  Qed.
End DictLemmas.

Lemma xyeqb_eq a b : xy_eqb a b = true <-> a = b.
Proof.
  destruct a as [x y], b as [x' y']. unfold xy_eqb; cbn.
  rewrite andb_true_iff, !Z.eqb_eq. split; [intros [-> ->]; auto|injection 1; auto].
Qed.

Lemma zmem_in l x : zmem l x = true <-> In x l.
Proof.
  unfold zmem. rewrite existsb_exists. split.
  - intros (y & H & E). apply Z.eqb_eq in E. subst; auto.
  - intros H. exists x. split; auto. apply Z.eqb_refl.
Qed.

Lemma zmem_false l x : zmem l x = false <-> ~ In x l.
Proof. rewrite <- zmem_in. destruct (zmem l x); intuition congruence. Qed.

(** *** Counters *)
Lemma ctotal_cincr c k : ctotal (cincr c k) = ctotal c + k.
Proof.
  unfold cincr, ctotal.
  destruct (dget Z.eqb c k) as [n|] eqn:E.
  - induction c as [|[j m] c IH]; cbn in *; [discriminate|].
    destruct (Z.eqb_spec j k) as [->|N].
    + injection E as ->. cbn. lia.
    + cbn. rewrite IH by auto. lia.
  - apply (dget_none Z.eqb Z.eqb_eq) in E. rewrite (dset_new Z.eqb Z.eqb_eq) by auto.
    rewrite fold_right_app. cbn.
    induction c as [|[j m] c IH]; cbn in *; [lia|]. rewrite IH by tauto. lia.
Qed.

Lemma in_cincr_keys c k j : In j (dkeys (cincr c k)) <-> In j (dkeys c) \/ j = k.
Proof.
  unfold cincr. destruct (dget Z.eqb c k); apply (in_dkeys_dset Z.eqb Z.eqb_eq).
Qed.

(** *** Sorting *)
Lemma zinsert_in x l y : In y (zinsert x l) <-> y = x \/ In y l.
Proof.
  induction l as [|a l IH]; cbn; [intuition|].
  destruct (x <=? a); cbn; rewrite ?IH; intuition.
Qed.

Lemma zsorted_in l y : In y (zsorted l) <-> In y l.
Proof.
  induction l as [|a l IH]; cbn; [tauto|]. rewrite zinsert_in, IH. intuition.
Qed.

Lemma zinsert_sorted x l : StronglySorted Z.le l -> StronglySorted Z.le (zinsert x l).
Proof.
  induction 1 as [|a l S IH F]; cbn; [repeat constructor|].
  destruct (Z.leb_spec x a).
  - constructor; [constructor; auto|]. constructor; auto.
    eapply Forall_impl; [|exact F]. cbn; intros; lia.
  - constructor; auto. apply Forall_forall. intros y Hy. apply zinsert_in in Hy.
    destruct Hy as [->|Hy]; [lia|]. rewrite Forall_forall in F. auto.
Qed.

Lemma zsorted_sorted l : StronglySorted Z.le (zsorted l).
Proof. induction l; cbn; [constructor|]. apply zinsert_sorted; auto. Qed.

Lemma zinsert_perm x l : Permutation (zinsert x l) (x :: l).
Proof.
  induction l as [|a l IH]; cbn; auto. destruct (x <=? a); auto.
  rewrite IH. apply perm_swap.
Qed.

Lemma zsorted_perm l : Permutation (zsorted l) l.
Proof. induction l as [|a l IH]; cbn; auto. rewrite zinsert_perm. constructor; auto. Qed.

Lemma zsorted_length l : List.length (zsorted l) = List.length l.
Proof. apply Permutation_length, zsorted_perm. Qed.

Lemma sorted_last l d x : StronglySorted Z.le l -> In x l -> x <= last l d.
Proof.
  induction 1 as [|a l S IH F]; cbn; [tauto|]. intros [<-|H].
  - destruct l as [|b l]; [lia|]. 
    rewrite Forall_forall in F. apply F. 
    destruct (exists_last (l := b :: l)) as (l' & z & E); [discriminate|].
    rewrite E, last_last, in_app_iff. cbn; auto.
  - destruct l as [|b l]; [destruct H|]. apply IH; auto.
Qed.

Lemma py_index_last {A} (l : list A) a : py_index (l ++ [a]) (-1) = Ok a.
Proof.
  unfold py_index. rewrite app_length. cbn [List.length].
  destruct (Z.ltb_spec (-1) 0); [|lia].
  set (n := Z.of_nat (List.length l + 1)).
  destruct (Z.ltb_spec (-1 + n) 0); [lia|]. destruct (Z.leb_spec n (-1 + n)); [lia|].
  cbn [orb]. replace (Z.to_nat (-1 + n)) with (List.length l) by lia.
  rewrite nth_error_app2, Nat.sub_diag by lia. reflexivity.
Qed.

Lemma zsum_app a b : zsum (a ++ b) = zsum a + zsum b.
Proof. induction a; cbn; [auto|]. unfold zsum in *; cbn. lia. Qed.

(** *** Ordered sets *)
Lemma oset_add_in l x y : In y (oset_add l x) <-> In y l \/ y = x.
Proof.
  unfold oset_add. destruct (zmem l x) eqn:E.
  - apply zmem_in in E. intuition (subst; auto).
  - rewrite in_app_iff. cbn. intuition.
Qed.

Lemma oset_add_nodup l x : NoDup l -> NoDup (oset_add l x).
Proof.
  intros N. unfold oset_add. destruct (zmem l x) eqn:E; auto.
  apply zmem_false in E. apply nodup_snoc; auto.
Qed.

Lemma oset_fold_in l : forall acc y, In y (fold_left oset_add l acc) <-> In y acc \/ In y l.
Proof.
  induction l as [|a l IH]; intros acc y; cbn; [tauto|].
  rewrite IH, oset_add_in. intuition.
Qed.

Lemma oset_of_in l y : In y (oset_of l) <-> In y l.
Proof. unfold oset_of. rewrite oset_fold_in. cbn. tauto. Qed.

Lemma oset_fold_nodup l : forall acc, NoDup acc -> NoDup (fold_left oset_add l acc).
Proof.
  induction l as [|a l IH]; intros acc N; cbn; auto. apply IH, oset_add_nodup; auto.
Qed.

Lemma oset_of_nodup l : NoDup (oset_of l).
Proof. apply oset_fold_nodup. constructor. Qed.

Lemma oset_fold_id l : forall acc, NoDup (acc ++ l) -> fold_left oset_add l acc = acc ++ l.
Proof.
  induction l as [|a l IH]; intros acc N; cbn; [rewrite app_nil_r; auto|].
  assert (~ In a acc) as H.
  { intros H. apply NoDup_remove_2 in N. apply N. apply in_app_iff; auto. }
  unfold oset_add at 2. rewrite (proj2 (zmem_false acc a) H).
  rewrite IH; rewrite <- app_assoc; cbn; auto.
Qed.

Lemma oset_of_id l : NoDup l -> oset_of l = l.
Proof. intros N. unfold oset_of. rewrite oset_fold_id; auto. Qed.

(** *** Sequencing *)
Lemma map_res_ok {A B} (f : A -> res B) (g : A -> B) l :
  (forall a, In a l -> f a = Ok (g a)) -> map_res f l = Ok (map g l).
Proof.
  induction l as [|a l IH]; intros H; cbn; auto.
  rewrite (H a) by (cbn; auto). cbn. rewrite IH by (intros; apply H; cbn; auto). reflexivity.
Qed.

Lemma fold_res_unit_ok {A} (f : A -> res unit) l :
  fold_res (fun _ a => f a) l tt = Ok tt <-> (forall a, In a l -> f a = Ok tt).
Proof.
  induction l as [|a l IH]; cbn; [split; auto; intros _ a []|].
  destruct (f a) as [[]|e] eqn:E; cbn.
  - rewrite IH. split; [intros H b [<-|Hb]; auto|intros H b Hb; apply H; auto].
  - split; [discriminate|]. intros H. rewrite (H a) in E by auto. discriminate.
Qed.

Lemma fold_res_unit_err {A} (f : A -> res unit) l x :
  (forall a e, In a l -> f a = Err e -> e = x) ->
  fold_res (fun _ a => f a) l tt <> Ok tt -> fold_res (fun _ a => f a) l tt = Err x.
Proof.
  induction l as [|a l IH]; intros H N; cbn in *; [congruence|].
  destruct (f a) as [[]|e] eqn:E; cbn in *.
  - apply IH; auto. intros; eapply H; eauto.
  - f_equal. eapply H; eauto.
Qed.

Lemma enumerate_in {A} (l : list A) i a :
  In (i, a) (enumerate l) <-> 0 <= i /\ nth_error l (Z.to_nat i) = Some a.
Proof.
  unfold enumerate, zrange. rewrite Z.sub_0_r, Nat2Z.id.
  assert (forall n, In (i, a) (combine (map (fun j => 0 + Z.of_nat j) (seq n (List.length l))) l) <->
    Z.of_nat n <= i /\ nth_error l (Z.to_nat i - n) = Some a) as K.
  { induction l as [|b l IH]; intros n; cbn [List.length seq map combine In].
    - split; [tauto|]. intros [_ H]. destruct (Z.to_nat i - n)%nat; discriminate.
    - rewrite IH. split.
      + intros [E|[H1 H2]].
        * injection E as <- <-. split; [lia|].
          replace (Z.to_nat (Z.of_nat n) - n)%nat with O by lia. reflexivity.
        * split; [lia|]. replace (Z.to_nat i - n)%nat with (S (Z.to_nat i - S n)) by lia. auto.
      + intros [H1 H2]. destruct (Z.to_nat i - n)%nat eqn:E.
        * left. cbn in H2. injection H2 as ->. f_equal. lia.
        * right. split; [lia|]. cbn in H2.
          replace (Z.to_nat i - S n)%nat with n0 by lia. auto. }
  rewrite (K 0%nat), Nat.sub_0_r. cbn. tauto.
Qed.
