(** The loop that mends one-way links while it reads them (C98) *)
From Verif Require Import Model_Py Model_Wrap Model_Version Model_Core Model_Machine
  Model_Mutate Model_Iter Spec_Iter Proof_Py Proof_Iter.
Require Import Lia.

Definition lk (m : machine) (p : XY) (i : Z) : option link :=
  match dget xy_eqb (m_chips m) p with Some c => get_link (c_router c) i | None => None end.

Definition dest (l : link) : XY := (l_destination_x l, l_destination_y l).

Record tidy (m : machine) : Prop := mkTidy {
  tidy_keys : NoDup (dkeys (m_chips m));
  tidy_xy : forall e, In e (m_chips m) -> fst e = c_xy (snd e)
}.

Definition closed (m : machine) : Prop :=
  forall p o l, 0 <= o < 6 -> lk m p o = Some l -> In (dest l) (dkeys (m_chips m)).

Lemma link_at_lk m x y i : is_link_at m x y i = false <-> lk m (x, y) i = None.
Proof.
  unfold is_link_at, lk. destruct (dget xy_eqb (m_chips m) (x, y)) as [c|]; [|tauto].
  unfold is_link, get_link, dmem. destruct (dget Z.eqb _ i); split; congruence.
Qed.

Lemma tidy_get m c : tidy m -> In c (chips m) -> dget xy_eqb (m_chips m) (c_xy c) = Some c.
Proof.
  intros [T1 T2] H. unfold chips, dvalues in H. apply in_map_iff in H as (e & <- & He).
  apply (in_dget xy_eqb xyeqb_eq); [exact T1|]. rewrite <- (T2 e He). destruct e; exact He.
Qed.

Lemma owl_list_in m c checks x y o b :
  In (x, y, o, b) (owl_list m c checks) <->
  c_xy c = (x, y) /\ In (o, b) checks /\
  exists l, get_link (c_router c) o = Some l /\ lk m (dest l) b = None.
Proof.
  unfold owl_list. rewrite in_flat_map. split.
  - intros ([o' b'] & H1 & H2).
    destruct (get_link (c_router c) o') as [l|] eqn:EL; [|destruct H2].
    destruct (is_link_at m (l_destination_x l) (l_destination_y l) b') eqn:EB; [destruct H2|].
    destruct H2 as [H2|[]]. inversion H2; subst. repeat split; [exact H1|].
    exists l. split; [exact EL|]. apply link_at_lk. exact EB.
  - intros (H1 & H2 & l & H3 & H4). exists (o, b). split; [exact H2|]. rewrite H3.
    apply link_at_lk in H4. rewrite H4. cbn. left. inversion H1; reflexivity.
Qed.

Lemma one_way_in m x y o b : tidy m ->
  In (x, y, o, b) (one_way_links m) <->
  In (o, b) LINK_CHECKS /\ exists l, lk m (x, y) o = Some l /\ lk m (dest l) b = None.
Proof.
  intros T. rewrite one_way_lists. unfold owl_lists. rewrite in_flat_map. split.
  - intros (c & Hc & Hq). apply owl_list_in in Hq as (H1 & H2 & l & H3 & H4).
    split; [exact H2|]. exists l. split; [|exact H4].
    unfold lk. rewrite <- H1, (tidy_get m c T Hc). exact H3.
  - intros (H1 & l & H2 & H3). unfold lk in H2.
    destruct (dget xy_eqb (m_chips m) (x, y)) as [c|] eqn:EC; [|discriminate].
    apply (dget_some_in xy_eqb xyeqb_eq) in EC. exists c. split.
    + unfold chips, dvalues. apply in_map_iff. exists ((x, y), c). auto.
    + apply owl_list_in. split; [|eauto]. symmetry. apply (tidy_xy m T _ EC).
Qed.

Lemma added_lk m p l m' : add_link_later m p l = Ok m' -> forall p' i,
  lk m' p' i = if xy_eqb p p' && (l_source_link_id l =? i) then Some l else lk m p' i.
Proof.
  intros E p' i. apply add_link_later_parts in E as (c & r & E1 & E2 & E3 & _).
  unfold lk. rewrite E3, (dget_dset xy_eqb xyeqb_eq).
  destruct (xy_eqb p p') eqn:EP; cbn [andb]; [|reflexivity].
  apply xyeqb_eq in EP. subst p'. rewrite E1. cbn [with_router c_router].
  unfold router_add_link in E2.
  destruct (dmem Z.eqb (r_links (c_router c)) (l_source_link_id l)); [discriminate|].
  inversion E2; subst. unfold get_link. cbn [r_links].
  rewrite (dget_dset Z.eqb Z.eqb_eq). reflexivity.
Qed.

Lemma added_keys m p l m' : add_link_later m p l = Ok m' -> dkeys (m_chips m') = dkeys (m_chips m).
Proof.
  intros E. apply add_link_later_parts in E as (c & r & E1 & _ & E2 & _). rewrite E2.
  apply dset_same_keys. apply (dget_some_in xy_eqb xyeqb_eq) in E1.
  unfold dkeys. apply in_map_iff. exists (p, c). auto.
Qed.

Lemma dset_in (d : dict XY chip) k v e : In e (dset xy_eqb d k v) -> In e d \/ (fst e = k /\ snd e = v).
Proof.
  induction d as [|[k' v'] d IH]; cbn.
  - intros [<-|[]]. auto.
  - destruct (xy_eqb k' k) eqn:EK; cbn.
    + apply xyeqb_eq in EK. intros [<-|H]; auto.
    + intros [<-|H]; auto. destruct (IH H); auto.
Qed.

Lemma added_tidy m p l m' : tidy m -> add_link_later m p l = Ok m' -> tidy m'.
Proof.
  intros T E. split.
  - rewrite (added_keys _ _ _ _ E). apply T.
  - apply add_link_later_parts in E as (c & r & E1 & _ & E2 & _). rewrite E2.
    intros e He. apply dset_in in He as [He|[-> ->]]; [apply T; exact He|].
    apply (dget_some_in xy_eqb xyeqb_eq) in E1. apply (tidy_xy m T _ E1).
Qed.

Lemma checks_bounds o b : In (o, b) LINK_CHECKS -> 0 <= o < 6 /\ 0 <= b < 6.
Proof.
  cbn. intros H.
  repeat (destruct H as [H|H]; [inversion H; subst; lia|]). destruct H.
Qed.

Lemma checks_twice o b c : In (o, b) LINK_CHECKS -> In (b, c) LINK_CHECKS -> c = o.
Proof.
  cbn. intros H1 H2.
  repeat (destruct H1 as [H1|H1]; [inversion H1; subst;
    repeat (destruct H2 as [H2|H2]; [inversion H2; subst; congruence|]); destruct H2|]).
  destruct H1.
Qed.

Lemma checks_once o b c : In (o, b) LINK_CHECKS -> In (o, c) LINK_CHECKS -> c = b.
Proof.
  cbn. intros H1 H2.
  repeat (destruct H1 as [H1|H1]; [inversion H1; subst;
    repeat (destruct H2 as [H2|H2]; [inversion H2; subst; congruence|]); destruct H2|]).
  destruct H1.
Qed.

(** one pass of the loop *)
Lemma mend_step m x y o b l : tidy m -> closed m -> In (o, b) LINK_CHECKS ->
  lk m (x, y) o = Some l -> lk m (dest l) b = None ->
  exists m', mend m (x, y, o, b) = Ok m' /\
    grow_machine m (AddLink (dest l) (mkLink (l_destination_x l) (l_destination_y l) b x y)) = Ok m' /\
    tidy m' /\ closed m' /\ dkeys (m_chips m') = dkeys (m_chips m) /\
    (forall p i, lk m' p i = if xy_eqb (dest l) p && (b =? i)
       then Some (mkLink (l_destination_x l) (l_destination_y l) b x y) else lk m p i) /\
    (forall q, In q (one_way_links m') -> In q (one_way_links m) /\ q <> (x, y, o, b)).
Proof.
  intros T CL HC H1 H2.
  set (nl := mkLink (l_destination_x l) (l_destination_y l) b x y).
  assert (HD : exists d, dget xy_eqb (m_chips m) (dest l) = Some d).
  { apply (dmem_dget xy_eqb). apply (dmem_in xy_eqb xyeqb_eq).
    apply (CL (x, y) o l); [|exact H1]. apply (checks_bounds _ _ HC). }
  destruct HD as (d & HD).
  assert (HA : exists m', add_link_later m (dest l) nl = Ok m').
  { unfold add_link_later, getitem, dgetitem. rewrite HD. cbn [bind].
    unfold router_add_link. cbn [l_source_link_id nl].
    unfold lk in H2. rewrite HD in H2. unfold get_link in H2.
    unfold dmem. rewrite H2. cbn [bind]. eauto. }
  destruct HA as (m' & HA). exists m'.
  pose proof (added_lk _ _ _ _ HA) as LK. cbn [l_source_link_id nl] in LK.
  pose proof (added_keys _ _ _ _ HA) as KS.
  assert (T' : tidy m') by (eapply added_tidy; eauto).
  assert (HX : In (x, y) (dkeys (m_chips m))).
  { unfold lk in H1. destruct (dget xy_eqb (m_chips m) (x, y)) as [c|] eqn:EC; [|discriminate].
    apply (dget_some_in xy_eqb xyeqb_eq) in EC. unfold dkeys. apply in_map_iff.
    exists ((x, y), c). auto. }
  split.
  { cbn [mend]. unfold lk in H1. unfold getitem, dgetitem.
    destruct (dget xy_eqb (m_chips m) (x, y)) as [c|]; [|discriminate]. cbn [bind].
    rewrite H1. exact HA. }
  split; [exact HA|]. split; [exact T'|]. split.
  { intros p i k Hi. rewrite LK, KS. destruct (xy_eqb (dest l) p && (b =? i)); [|apply CL; exact Hi].
    intros [= <-]. exact HX. }
  split; [exact KS|]. split; [exact LK|].
  intros [[[x' y'] o'] b'] Hq. apply (one_way_in m' x' y' o' b' T') in Hq as (Hc & l' & HL & HB).
  rewrite LK in HL.
  destruct (xy_eqb (dest l) (x', y') && (b =? o')) eqn:EQ.
  - apply andb_prop in EQ as [EQ1 EQ2]. apply xyeqb_eq in EQ1. apply Z.eqb_eq in EQ2. subst o'.
    assert (b' = o) by (eapply checks_twice; eauto). subst b'.
    inversion HL; subst l'. unfold dest in HB. cbn in HB. rewrite LK in HB.
    destruct (xy_eqb (dest l) (x, y) && (b =? o)); congruence.
  - rewrite LK in HB. destruct (xy_eqb (dest l) (dest l') && (b =? b')) eqn:EQ'; [discriminate|].
    split.
    + apply (one_way_in m x' y' o' b' T). eauto.
    + intros E. inversion E; subst. assert (l' = l) by congruence. subst l'.
      rewrite (eqb_refl xy_eqb xyeqb_eq), Z.eqb_refl in EQ'. discriminate.
Qed.

Lemma in_skipn {A} (x : A) k : forall l, In x (skipn k l) <-> exists i, (k <= i)%nat /\ nth_error l i = Some x.
Proof.
  induction k as [|k IH]; intros l.
  - cbn. split.
    + intros H. apply In_nth_error in H as (i & H). exists i. split; [lia|exact H].
    + intros (i & _ & H). eapply nth_error_In; eauto.
  - destruct l as [|a l]; cbn.
    + split; [tauto|]. intros (i & _ & H). destruct i; discriminate.
    + rewrite IH. split.
      * intros (i & Hi & H). exists (S i). split; [lia|exact H].
      * intros ([|i] & Hi & H); [lia|]. exists i. split; [lia|exact H].
Qed.

(** what is still one-way is still to come *)
Lemma todo_kept m g m' s : tidy m' -> grow_machine m g = Ok m' ->
  forall q, In q (owl_todo m s) -> In q (one_way_links m') -> In q (owl_todo m' s).
Proof.
  intros T' E [[[x y] o] b] HI HW.
  assert (K : forall i c checks, nth_error (chips m) i = Some c ->
    In (x, y, o, b) (owl_list m c checks) ->
    exists c', nth_error (chips m') i = Some c' /\ In (x, y, o, b) (owl_list m' c' checks)).
  { intros i c checks Hc Hq. apply owl_list_in in Hq as (H1 & H2 & _).
    destruct (grow_place _ _ _ _ _ E Hc) as (c' & Hc' & EX). exists c'. split; [exact Hc'|].
    apply (one_way_in m' x y o b T') in HW as (_ & l & HL & HB).
    apply owl_list_in. split; [congruence|]. split; [exact H2|]. exists l. split; [|exact HB].
    unfold lk in HL. rewrite <- H1, <- EX in HL.
    rewrite (tidy_get m' c' T' (nth_error_In _ _ Hc')) in HL. exact HL. }
  destruct s as [|it checks|]; cbn [owl_todo] in *.
  - exact HW.
  - apply in_or_app. apply in_app_or in HI as [HI|HI].
    + left. destruct (nth_error (chips m) (pred (it_pos it))) as [c|] eqn:EC; [|destruct HI].
      destruct (K _ _ _ EC HI) as (c' & -> & H). exact H.
    + right. unfold owl_lists in *. apply in_flat_map in HI as (c & Hc & Hq).
      apply in_skipn in Hc as (i & Hi & Hc). destruct (K _ _ _ Hc Hq) as (c' & Hc' & H).
      apply in_flat_map. exists c'. split; [|exact H]. apply in_skipn. eauto.
  - destruct HI.
Qed.

Definition owl_size (n : nat) (s : owl) : nat :=
  match s with
  | OwlNew => 7 * n + 7
  | OwlAt it checks => 7 * (n - it_pos it) + List.length checks
  | OwlEnd => 0
  end.

Lemma owl_smaller m s s' q : owl_next m s = (s', Gives q) ->
  (owl_size (List.length (chips m)) s' < owl_size (List.length (chips m)) s)%nat.
Proof.
  assert (K : forall it, owl_for m it = (s', Gives q) ->
    exists it' ch, s' = OwlAt it' ch /\ (it_pos it < it_pos it' <= List.length (chips m))%nat /\
      (List.length ch < 6)%nat).
  { intros it. unfold owl_for. intros E.
    destruct (it_used it) as [n|]; [destruct (Nat.eqb n _)|]; try discriminate.
    destruct (owl_chips_cases _ _ _ _ _ E) as [(H1 & H2 & _)|H]; [discriminate|].
    apply owl_goes_at in H as (c & q' & it' & ch & _ & -> & _ & _ & HP & _ & HL & _).
    exists it', ch. auto. }
  intros E. destruct s as [|it checks|]; cbn [owl_next] in E.
  - apply K in E as (it' & ch & -> & HP & HL). cbn [owl_size]. lia.
  - destruct (nth_error (chips m) (pred (it_pos it))) as [c|].
    + pose proof (owl_checks_cases m c checks) as H.
      destruct (owl_checks m c checks) as [[q' r]|].
      * inversion E; subst. destruct H as (_ & _ & H & _). cbn [owl_size]. lia.
      * apply K in E as (it' & ch & -> & HP & HL). cbn [owl_size]. lia.
    + apply K in E as (it' & ch & -> & HP & HL). cbn [owl_size]. lia.
  - discriminate.
Qed.

Lemma owl_no_raise m s s' a : owl_ok m s -> owl_next m s = (s', a) -> a = Stops \/ exists q, a = Gives q.
Proof.
  intros OK E. destruct (owl_next_todo _ _ _ _ OK E) as [_ H].
  destruct (owl_todo m s); destruct H as [H _]; eauto.
Qed.

Lemma len_chips m : List.length (chips m) = List.length (m_chips m).
Proof. apply map_length. Qed.

Lemma len_keys m : List.length (m_chips m) = List.length (dkeys (m_chips m)).
Proof. symmetry. apply map_length. Qed.

Lemma mend_loop k : forall m s, (owl_size (List.length (chips m)) s < k)%nat ->
  tidy m -> closed m -> owl_ok m s -> owl_in s -> incl (one_way_links m) (owl_todo m s) ->
  exists m' mended, for_loop owl_next mend m s m' None mended /\
    one_way_links m' = [] /\ dkeys (m_chips m') = dkeys (m_chips m) /\
    NoDup mended /\ incl mended (one_way_links m) /\
    (forall p i l, lk m' p i = Some l <->
       lk m p i = Some l \/
       exists x y o l0, In (x, y, o, i) mended /\ lk m (x, y) o = Some l0 /\ dest l0 = p /\
         l = mkLink (fst p) (snd p) i x y).
Proof.
  induction k as [|k IH]; intros m s HK T CL OK OI I1; [lia|].
  destruct (owl_next m s) as [s' a] eqn:E.
  destruct (owl_next_todo _ _ _ _ OK E) as [OK' HT].
  destruct (owl_next_in _ _ _ _ OI E) as [OI' HG].
  destruct (owl_todo m s) as [|[[[x y] o] b] rest] eqn:ET.
  - destruct HT as [-> ->]. exists m, []. split; [eapply for_ends; exact E|].
    split. { destruct (one_way_links m) as [|q r]; [reflexivity|]. destruct (I1 q); left; reflexivity. }
    split; [reflexivity|]. split; [constructor|]. split; [intros q []|].
    intros p i l. split; [auto|]. intros [H|(x & y & o & l0 & [] & _)]; exact H.
  - destruct HT as [-> HT]. pose proof (HG _ eq_refl) as HQ.
    pose proof HQ as HQ'. apply (one_way_in m x y o b T) in HQ' as (HC & l & HL & HB).
    destruct (mend_step m x y o b l T CL HC HL HB) as (m1 & EM & EG & T1 & CL1 & KS & LK & HW).
    assert (LEN : List.length (m_chips m1) = List.length (m_chips m)) by (rewrite !len_keys, KS; reflexivity).
    assert (EXT : forall p i j, lk m p i = Some j -> lk m1 p i = Some j).
    { intros p i j Hj. rewrite LK. destruct (xy_eqb (dest l) p && (b =? i)) eqn:EQ; [|exact Hj].
      apply andb_prop in EQ as [EQ1 EQ2]. apply xyeqb_eq in EQ1. apply Z.eqb_eq in EQ2. subst.
      congruence. }
    destruct (IH m1 s') as (m' & mended & F & O1 & O2 & O3 & O4 & O5).
    + rewrite !len_chips, LEN. pose proof (owl_smaller _ _ _ _ E) as HS. rewrite len_chips in *. lia.
    + exact T1.
    + exact CL1.
    + destruct s'; cbn [owl_ok] in *; auto. rewrite LEN. exact OK'.
    + exact OI'.
    + intros q Hq. destruct (HW q Hq) as [Hq1 Hq2]. apply (todo_kept m _ m1 s' T1 EG); [|exact Hq].
      rewrite HT. destruct (I1 q Hq1) as [Hq3|Hq3]; [congruence|exact Hq3].
    + exists m', ((x, y, o, b) :: mended).
      split; [eapply for_goes_on; [exact E|exact EM|exact F]|].
      split; [exact O1|]. split; [congruence|]. split.
      { constructor; [|exact O3]. intros HI. destruct (HW _ (O4 _ HI)) as [_ HN]. congruence. }
      split.
      { intros q [<-|Hq]; [exact HQ|]. apply HW. apply O4. exact Hq. }
      intros p i j. rewrite O5, LK. split.
      * intros [H|(x' & y' & o' & l0 & H1 & H2 & H3 & H4)].
        -- destruct (xy_eqb (dest l) p && (b =? i)) eqn:EQ; [|auto].
           apply andb_prop in EQ as [EQ1 EQ2]. apply xyeqb_eq in EQ1. apply Z.eqb_eq in EQ2. subst.
           right. exists x, y, o, l. split; [left; reflexivity|]. split; [exact HL|].
           split; [reflexivity|]. cbn. congruence.
        -- right. exists x', y', o', l0. split; [right; exact H1|]. split; [|auto].
           destruct (HW _ (O4 _ H1)) as [HO _]. apply (one_way_in m x' y' o' i T) in HO as (_ & l1 & HL1 & _).
           rewrite HL1. apply EXT in HL1. congruence.
      * intros [H|(x' & y' & o' & l0 & [H1|H1] & H2 & H3 & H4)].
        -- left. apply EXT in H. rewrite LK in H. exact H.
        -- inversion H1; subst. left. assert (l0 = l) by congruence. subst l0.
           rewrite (eqb_refl xy_eqb xyeqb_eq), Z.eqb_refl. reflexivity.
        -- right. exists x', y', o', l0. auto.
Qed.
