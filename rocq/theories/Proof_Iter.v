(** Lemmas for C98 *)
From Verif Require Import Model_Py Model_Wrap Model_Version Model_Core Model_Machine
  Model_Mutate Model_Iter Spec_Iter Proof_Py Proof_Concentric.
Require Import Lia.

Section Generic.
  Context {O C S A : Type}.
  Variable change : O -> C -> res O.
  Variable next : O -> S -> S * answer A.

  Lemma after_app e1 : forall o e2,
    after change o (e1 ++ e2) = after change (after change o e1) e2.
  Proof using. induction e1 as [|[|c] e1 IH]; intros o e2; cbn; auto. Qed.

  Lemma left_at_app e1 : forall o s e2,
    left_at change next o s (e1 ++ e2) =
    left_at change next (after change o e1) (left_at change next o s e1) e2.
  Proof using. induction e1 as [|[|c] e1 IH]; intros o s e2; cbn; auto. Qed.

  Lemma answers_app e1 : forall o s e2,
    answers change next o s (e1 ++ e2) = answers change next o s e1 ++
    answers change next (after change o e1) (left_at change next o s e1) e2.
  Proof using.
    induction e1 as [|[|c] e1 IH]; intros o s e2; cbn [app answers after left_at]; auto.
    destruct (next o s) as [s' a]. cbn [fst]. rewrite IH. reflexivity.
  Qed.

  Lemma answers_next o s evs :
    answers change next o s (evs ++ [Next]) = answers change next o s evs ++
    [snd (next (after change o evs) (left_at change next o s evs))].
  Proof using.
    rewrite answers_app. cbn. destruct (next _ _); reflexivity.
  Qed.

  Lemma answers_change o s evs c :
    answers change next o s (evs ++ [Change c]) = answers change next o s evs.
  Proof using. rewrite answers_app. cbn. apply app_nil_r. Qed.

  Lemma changed_cases o c :
    (exists o', change o c = Ok o' /\ changed change o c = o') \/ changed change o c = o.
  Proof using. unfold changed. destruct (change o c); eauto. Qed.

  Lemma after_keeps (P : O -> Prop) :
    (forall o c o', P o -> change o c = Ok o' -> P o') ->
    forall evs o, P o -> P (after change o evs).
  Proof using.
    intros K. induction evs as [|[|c] evs IH]; intros o Ho; cbn; auto.
    apply IH. destruct (changed_cases o c) as [(o' & E & ->)| ->]; eauto.
  Qed.
End Generic.

Lemma stopped_app {A} (p : list (answer A)) a : stopped (p ++ [a]) <-> stopped p \/ a = Stops.
Proof.
  unfold stopped. rewrite in_app_iff. cbn. intuition.
Qed.

Lemma given_app {A} (p : list (answer A)) q : given (p ++ q) = given p ++ given q.
Proof. unfold given. apply flat_map_app. Qed.

(** ** Iterators of a dict *)
Section Dicts.
  Context {O C E A : Type}.
  Variable change : O -> C -> res O.
  Variable entries : O -> list E.
  Variable view : E -> A.
  Hypothesis grows : forall o c o', change o c = Ok o' ->
    (List.length (entries o) <= List.length (entries o'))%nat.
  Let nxt (o : O) := dict_next view (entries o).

  Lemma after_longer evs o :
    (List.length (entries o) <= List.length (entries (after change o evs)))%nat.
  Proof using grows.
    apply (after_keeps change (fun o' => List.length (entries o) <= List.length (entries o'))%nat);
      [|lia].
    intros o1 c o2 H1 H2. apply grows in H2. lia.
  Qed.

  Definition dict_inv (o : O) (evs : list (event C)) : Prop :=
    let past := answers change nxt o (iter_of (entries o)) evs in
    let it := left_at change nxt o (iter_of (entries o)) evs in
    let now := List.length (entries (after change o evs)) in
    (it_live it = false <-> stopped past) /\
    (forall k, it_used it = Some k -> k = List.length (entries o)) /\
    (it_used it = None -> (List.length (entries o) < now)%nat) /\
    (it_live it = true -> now = List.length (entries o) ->
       it_used it = Some (List.length (entries o)) /\ it_pos it = List.length past).

  Lemma dict_invariant o evs : dict_inv o evs.
  Proof using grows.
    induction evs as [|ev evs IH] using rev_ind.
    - unfold dict_inv. cbn. unfold stopped. cbn. intuition congruence.
    - unfold dict_inv in *. destruct ev as [|c].
      + rewrite answers_next, left_at_app, after_app.
        cbn [after left_at].
        pose proof (after_longer evs o) as Ex.
        remember (left_at change nxt o (iter_of (entries o)) evs) as it.
        remember (answers change nxt o (iter_of (entries o)) evs) as past.
        remember (after change o evs) as o1. clear Heqit Heqpast Heqo1.
        destruct it as [live used pos]. cbn [it_live it_used it_pos] in IH.
        destruct IH as (I1 & I2 & I3 & I4).
        rewrite stopped_app, app_length. unfold nxt, dict_next.
        cbn [it_live it_used it_pos].
        destruct live; [|cbn; intuition congruence].
        assert (Hn : ~ stopped past) by (intros HS; apply I1 in HS; discriminate).
        destruct used as [n|].
        * rewrite (I2 n eq_refl) in *. clear I2.
          destruct (Nat.eqb_spec (List.length (entries o)) (List.length (entries o1))) as [EL|EL].
          -- destruct (I4 eq_refl (eq_sym EL)) as [_ EP].
             destruct (nth_error (entries o1) pos); cbn.
             ++ split; [intuition congruence|]. split; [intros k [= <-]; reflexivity|].
                split; [discriminate|]. intros _ _. split; [reflexivity|lia].
             ++ split; [intuition|]. split; [intros k [= <-]; reflexivity|].
                split; discriminate.
          -- cbn. split; [intuition congruence|]. split; [discriminate|].
             split; [|congruence]. intros _. lia.
        * cbn. split; [intuition congruence|]. split; [discriminate|].
          split; [auto|]. intros _ EL. specialize (I3 eq_refl). lia.
      + rewrite answers_change, left_at_app, after_app. cbn [after left_at].
        pose proof (after_longer evs o) as Ex.
        remember (left_at change nxt o (iter_of (entries o)) evs) as it.
        remember (after change o evs) as o1. clear Heqit Heqo1.
        destruct (changed_cases change o1 c) as [(o' & Ec & ->)| ->]; [|exact IH].
        destruct IH as (I1 & I2 & I3 & I4). pose proof (grows _ _ _ Ec) as Ee.
        split; [exact I1|]. split; [exact I2|]. split.
        * intros HN. specialize (I3 HN). lia.
        * intros HL EL. apply I4; [exact HL|lia].
  Qed.

  Lemma dict_answers o evs : exists a,
    answers change nxt o (iter_of (entries o)) (evs ++ [Next]) =
    answers change nxt o (iter_of (entries o)) evs ++ [a] /\
    answers_rightly (Z.of_nat (List.length (entries o)))
      (map view (entries (after change o evs)))
      (answers change nxt o (iter_of (entries o)) evs) a.
  Proof using grows.
    eexists. split; [apply answers_next|].
    destruct (dict_invariant o evs) as (I1 & I2 & I3 & I4).
    remember (left_at change nxt o (iter_of (entries o)) evs) as it.
    remember (answers change nxt o (iter_of (entries o)) evs) as past.
    remember (after change o evs) as o1. clear Heqit Heqpast Heqo1.
    destruct it as [live used pos]. cbn [it_live it_used it_pos] in *.
    unfold answers_rightly. rewrite map_length. unfold nxt, dict_next.
    cbn [it_live it_used it_pos].
    split; [|split].
    - intros HS. apply I1 in HS. subst. reflexivity.
    - intros HS EL. apply Nat2Z.inj in EL.
      assert (HL : live = true) by (destruct live; auto; destruct HS; apply I1; reflexivity).
      destruct (I4 HL EL) as [-> ->]. rewrite HL, EL, Nat.eqb_refl. unfold item_or_stop.
      rewrite nth_error_map. destruct (nth_error _ _); reflexivity.
    - intros HS EL.
      assert (HL : live = true) by (destruct live; auto; destruct HS; apply I1; reflexivity).
      rewrite HL. destruct used as [n|]; [|reflexivity].
      rewrite (I2 n eq_refl).
      destruct (Nat.eqb_spec (List.length (entries o)) (List.length (entries o1))) as [E1|E1];
        [|reflexivity]. congruence.
  Qed.
End Dicts.

(** ** add_chip and add_link *)
Lemma add_chip_parts m c m' : add_chip m c = Ok m' ->
  contains m (c_xy c) = false /\
  m_chips m' = m_chips m ++ [(c_xy c, c)] /\ m_kind m' = m_kind m /\
  m_width m' = m_width m /\ m_height m' = m_height m /\ m_ccm m' = m_ccm m /\
  (exists l, m_eth m' = m_eth m ++ l).
Proof.
  unfold add_chip. intros E.
  destruct (dmem xy_eqb (m_chips m) (c_xy c)) eqn:D; [discriminate|].
  assert (H : dset xy_eqb (m_chips m) (c_xy c) c = m_chips m ++ [(c_xy c, c)]).
  { apply (dset_new xy_eqb xyeqb_eq).
    apply (dmem_false xy_eqb xyeqb_eq). exact D. }
  split; [exact D|]. rewrite H in E. destruct (c_ip c); inversion E; subst; cbn; repeat split; eauto.
  exists []. symmetry; apply app_nil_r.
Qed.

Lemma add_link_parts r l r' : router_add_link r l = Ok r' ->
  exists e, r_links r' = r_links r ++ [e].
Proof.
  unfold router_add_link. intros E.
  destruct (dmem Z.eqb (r_links r) (l_source_link_id l)) eqn:D; [discriminate|].
  inversion E; subst; cbn. eexists.
  apply (dset_new Z.eqb Z.eqb_eq). apply (dmem_false Z.eqb Z.eqb_eq). exact D.
Qed.

Lemma contains_added m c m' : add_chip m c = Ok m' -> contains m' (c_xy c) = true.
Proof.
  intros E. destruct (add_chip_parts _ _ _ E) as (_ & Ec & _).
  unfold contains in *. rewrite Ec.
  apply (dmem_in xy_eqb xyeqb_eq).
  unfold dkeys in *. rewrite map_app, in_app_iff. cbn. auto.
Qed.

Lemma dset_same_keys (d : dict XY chip) k v : In k (dkeys d) -> dkeys (dset xy_eqb d k v) = dkeys d.
Proof.
  induction d as [|[k' v'] d IH]; cbn; [tauto|]. intros [H|H].
  - subst. rewrite (eqb_refl xy_eqb xyeqb_eq). reflexivity.
  - destruct (xy_eqb k' k); cbn; [reflexivity|]. f_equal. auto.
Qed.

Lemma add_link_later_parts m p l m' : add_link_later m p l = Ok m' ->
  exists c r, dget xy_eqb (m_chips m) p = Some c /\ router_add_link (c_router c) l = Ok r /\
  m_chips m' = dset xy_eqb (m_chips m) p (with_router c r) /\ m_kind m' = m_kind m /\
  m_width m' = m_width m /\ m_height m' = m_height m /\ m_ccm m' = m_ccm m /\
  m_eth m' = map (fun e => if xy_eqb (c_xy e) p then with_router e r else e) (m_eth m).
Proof.
  unfold add_link_later, getitem, dgetitem. intros E.
  destruct (dget xy_eqb (m_chips m) p) as [c|]; [|discriminate]. cbn in E.
  destruct (router_add_link (c_router c) l) as [r|] eqn:ER; [|discriminate]. cbn in E.
  inversion E; subst; cbn. exists c, r. repeat (split; [auto|]). reflexivity.
Qed.

(** the coordinates of the chips after a change *)
Lemma grow_keys m g m' : grow_machine m g = Ok m' ->
  dkeys (m_chips m') = dkeys (m_chips m) \/
  exists p, dkeys (m_chips m') = dkeys (m_chips m) ++ [p].
Proof.
  destruct g as [c|p l]; cbn [grow_machine]; intros E.
  - right. apply add_chip_parts in E as (_ & E & _). exists (c_xy c). rewrite E.
    unfold dkeys. apply map_app.
  - left. apply add_link_later_parts in E as (c & r & E1 & _ & E2 & _). rewrite E2.
    apply dset_same_keys. apply (dget_some_in xy_eqb xyeqb_eq) in E1.
    unfold dkeys. apply in_map_iff. exists (p, c). auto.
Qed.

Lemma grow_longer m g m' : grow_machine m g = Ok m' ->
  (List.length (m_chips m) <= List.length (m_chips m'))%nat.
Proof.
  intros E. apply grow_keys in E.
  assert (K : forall d : dict XY chip, List.length d = List.length (dkeys d))
    by (intros d; symmetry; apply map_length).
  rewrite !K. destruct E as [->|(p & ->)]; [lia|]. rewrite app_length. lia.
Qed.

Definition same_frame (m m' : machine) : Prop :=
  m_kind m' = m_kind m /\ m_width m' = m_width m /\ m_height m' = m_height m /\
  m_ccm m' = m_ccm m /\
  (forall p, contains m p = true -> contains m' p = true).

Lemma same_frame_refl m : same_frame m m.
Proof. repeat split; auto. Qed.

Lemma same_frame_trans a b c : same_frame a b -> same_frame b c -> same_frame a c.
Proof.
  intros (A1 & A2 & A3 & A4 & A5) (B1 & B2 & B3 & B4 & B5).
  repeat split; try congruence; auto.
Qed.

Lemma grow_frame m g m' : grow_machine m g = Ok m' -> same_frame m m'.
Proof.
  intros E. assert (HK : forall p, contains m p = true -> contains m' p = true).
  { intros p. unfold contains. rewrite !(dmem_in xy_eqb xyeqb_eq).
    destruct (grow_keys _ _ _ E) as [->|(q & ->)]; [auto|]. rewrite in_app_iff. auto. }
  destruct g as [c|p l]; cbn [grow_machine] in E.
  - destruct (add_chip_parts _ _ _ E) as (_ & _ & ? & ? & ? & ? & _). repeat split; auto.
  - destruct (add_link_later_parts _ _ _ _ E) as (c & r & _ & _ & _ & ? & ? & ? & ? & _).
    repeat split; auto.
Qed.

Lemma same_frame_add m c m' : add_chip m c = Ok m' -> same_frame m m'.
Proof. intros E. apply (grow_frame m (AddChip c) m' E). Qed.

Lemma same_frame_after evs m : same_frame m (after grow_machine m evs).
Proof.
  apply (after_keeps grow_machine (same_frame m)).
  - intros o c o' Ho E. eapply same_frame_trans; [exact Ho|]. eapply grow_frame; eauto.
  - apply same_frame_refl.
Qed.

Lemma on_machine_frame m m' ex ey : same_frame m m' -> on_machine m' ex ey = on_machine m ex ey.
Proof.
  intros (E1 & E2 & E3 & _). unfold on_machine. rewrite E1, E2, E3. reflexivity.
Qed.

Lemma m_xys_map m ex ey : m_xys m ex ey = map (on_machine m ex ey) (dkeys (m_ccm m)).
Proof.
  unfold m_xys, get_xys_by_ethernet, on_machine. destruct (m_kind m); reflexivity.
Qed.

(** ** Generators over a board *)
Section Board.
  Variables ex ey : Z.

  (** the two generators in one *)
  Fixpoint pick_next (keep : bool) (m : machine) (todo : list XY) : list XY * answer XY :=
    match todo with
    | [] => ([], Stops)
    | p :: r =>
        if Bool.eqb (contains m (on_machine m ex ey p)) keep
        then (r, Gives (on_machine m ex ey p)) else pick_next keep m r
    end.

  Lemma existing_pick m todo : existing_next ex ey m todo = pick_next true m todo.
  Proof using.
    induction todo as [|p r IH]; cbn; auto. destruct (contains _ _); cbn; auto.
  Qed.
  Lemma down_pick m todo : down_next ex ey m todo = pick_next false m todo.
  Proof using.
    induction todo as [|p r IH]; cbn; auto. destruct (contains _ _); cbn; auto.
  Qed.

  Lemma pick_find keep m todo r a : pick_next keep m todo = (r, a) ->
    a = match find (fun p => Bool.eqb (contains m p) keep) (map (on_machine m ex ey) todo) with
        | Some p => Gives p | None => Stops end.
  Proof using.
    revert r a. induction todo as [|p t IH]; cbn; intros r a E; [congruence|].
    destruct (Bool.eqb _ _); [congruence|]. eauto.
  Qed.

  Lemma pick_cases keep m todo r a : pick_next keep m todo = (r, a) ->
    (a = Stops /\ r = [] /\
       forall p, In p todo -> contains m (on_machine m ex ey p) = negb keep) \/
    (exists d p, todo = d ++ p :: r /\ a = Gives (on_machine m ex ey p) /\
       contains m (on_machine m ex ey p) = keep /\
       forall q, In q d -> contains m (on_machine m ex ey q) = negb keep).
  Proof using.
    revert r a. induction todo as [|p t IH]; cbn; intros r a E.
    - inversion E; subst. left. repeat split; auto. intros p [].
    - destruct (Bool.eqb (contains m (on_machine m ex ey p)) keep) eqn:B.
      + inversion E; subst. right. exists [], p. repeat split; auto.
        * apply eqb_prop in B. exact B.
        * intros q [].
      + assert (Hp : contains m (on_machine m ex ey p) = negb keep).
        { destruct (contains _ _), keep; cbn in *; congruence. }
        destruct (IH _ _ E) as [(-> & -> & H)|(d & q & -> & -> & H1 & H2)].
        * left. repeat split; auto. intros q [<-|Hq]; auto.
        * right. exists (p :: d), q. repeat split; auto. intros q' [<-|Hq]; auto.
  Qed.

  Lemma picked_app {A} (l k : list A) x y d : picked l k -> picked (l ++ [x]) (k ++ d ++ x :: y).
  Proof using.
    assert (N : forall z : list A, picked [] z) by (induction z; constructor; auto).
    induction 1; cbn.
    - induction d; cbn; [apply picked_taken; apply N|apply picked_left_out; auto].
    - apply picked_left_out; auto.
    - apply picked_taken; auto.
  Qed.

  Lemma picked_more {A} (l k d : list A) : picked l k -> picked l (k ++ d).
  Proof using.
    assert (N : forall z : list A, picked [] z) by (induction z; constructor; auto).
    induction 1; cbn; [apply N|apply picked_left_out; auto|apply picked_taken; auto].
  Qed.

  (** the board is what is passed and what is left; the passed ones that were not
      given did not fit at some time *)
  Definition pick_inv (keep : bool) (m : machine) (evs : list (event grow)) : Prop :=
    let nx := pick_next keep in
    let past := answers grow_machine nx m (board_iter m) evs in
    let todo := left_at grow_machine nx m (board_iter m) evs in
    exists done, dkeys (m_ccm m) = done ++ todo /\
      picked (given past) (map (on_machine m ex ey) done) /\
      (stopped past -> todo = []) /\
      (~ stopped past -> match rev (given past), rev (map (on_machine m ex ey) done) with
                         | [], [] => True
                         | p :: _, q :: _ => p = q
                         | _, _ => False
                         end) /\
      (forall e, ~ In (Raises e) past) /\
      (forall p, In p (map (on_machine m ex ey) done) -> In p (given past) \/
         exists e1 e2, evs = e1 ++ Next :: e2 /\ contains (after grow_machine m e1) p = negb keep).

  Lemma pick_invariant keep m evs : pick_inv keep m evs.
  Proof using.
    induction evs as [|ev evs IH] using rev_ind.
    - exists []. cbn. repeat split; auto; try constructor; try tauto.
    - destruct IH as (dn & I1 & I2 & I3 & I4 & I5 & I6). destruct ev as [|c].
      + unfold pick_inv. rewrite answers_next, left_at_app. cbn [left_at].
        pose proof (same_frame_after evs m) as SF.
        remember (left_at grow_machine (pick_next keep) m (board_iter m) evs) as todo.
        remember (answers grow_machine (pick_next keep) m (board_iter m) evs) as past.
        destruct (pick_next keep (after grow_machine m evs) todo) as [r a] eqn:E. cbn [fst snd].
        apply pick_cases in E. rewrite (on_machine_frame _ _ ex ey SF) in E.
        destruct E as [(-> & -> & H)|(d & p & Et & -> & H1 & H2)].
        * exists (dkeys (m_ccm m)). rewrite app_nil_r. split; [reflexivity|].
          rewrite given_app. cbn. rewrite app_nil_r. split.
          { rewrite I1, map_app. now apply picked_more. }
          split; [auto|]. split.
          { intros HS. destruct HS. apply stopped_app. auto. }
          split.
          { intros e HI. apply in_app_or in HI as [HI|[HI|[]]]; [eapply I5; eauto|discriminate]. }
          intros p Hp. rewrite I1, map_app in Hp. apply in_app_or in Hp as [Hp|Hp].
          -- destruct (I6 p Hp) as [Hg|(e1 & e2 & -> & Hc)]; [auto|].
             right. exists e1, (e2 ++ [Next]). rewrite <- app_assoc. auto.
          -- right. exists evs, []. split; [reflexivity|].
             apply in_map_iff in Hp as (q & <- & Hq). auto.
        * exists (dn ++ d ++ [p]). rewrite I1, Et, <- !app_assoc. split; [reflexivity|].
          rewrite given_app. cbn [given flat_map app]. rewrite !map_app. cbn [map]. split.
          { apply picked_app. exact I2. }
          split.
          { intros HS. apply stopped_app in HS as [HS|HS]; [|discriminate].
            rewrite (I3 HS) in Et. destruct d; discriminate. }
          split.
          { intros _. rewrite !rev_app_distr. cbn. reflexivity. }
          split.
          { intros e HI. apply in_app_or in HI as [HI|[HI|[]]]; [eapply I5; eauto|discriminate]. }
          intros q Hq. rewrite in_app_iff.
          apply in_app_or in Hq as [Hq|Hq]; [|apply in_app_or in Hq as [Hq|[Hq|[]]]].
          -- destruct (I6 q Hq) as [Hg|(e1 & e2 & -> & Hc)]; [auto|].
             right. exists e1, (e2 ++ [Next]). rewrite <- app_assoc. auto.
          -- right. exists evs, []. split; [reflexivity|].
             apply in_map_iff in Hq as (q' & <- & Hq). auto.
          -- left. right. subst. cbn. auto.
      + unfold pick_inv. rewrite answers_change, left_at_app. cbn [left_at].
        exists dn. repeat (split; [assumption|]).
        intros p Hp. destruct (I6 p Hp) as [Hg|(e1 & e2 & -> & Hc)]; [auto|].
        right. exists e1, (e2 ++ [Change c]). rewrite <- app_assoc. auto.
  Qed.
End Board.

(** ** one_way_links *)
Definition owl_list (m : machine) (c : chip) (checks : list (Z * Z)) : list (Z * Z * Z * Z) :=
  flat_map (fun ob =>
    let '(out, back) := ob in
    match get_link (c_router c) out with
    | Some l => if negb (is_link_at m (l_destination_x l) (l_destination_y l) back)
                then [(c_x c, c_y c, out, back)] else []
    | None => []
    end) checks.

Definition owl_lists (m : machine) (cs : list chip) : list (Z * Z * Z * Z) :=
  flat_map (fun c => owl_list m c LINK_CHECKS) cs.

Lemma one_way_lists m : one_way_links m = owl_lists m (chips m).
Proof. reflexivity. Qed.

Lemma owl_checks_cases m c checks :
  match owl_checks m c checks with
  | None => owl_list m c checks = []
  | Some (q, r) => owl_list m c checks = q :: owl_list m c r /\ incl r checks /\
      (List.length r < List.length checks)%nat /\
      exists out back, q = (c_x c, c_y c, out, back)
  end.
Proof.
  induction checks as [|[out back] r IH]; cbn [owl_checks owl_list flat_map]; auto.
  fold (owl_list m c r).
  destruct (get_link (c_router c) out) as [l|].
  - destruct (is_link_at m (l_destination_x l) (l_destination_y l) back); cbn [negb app].
    + destruct (owl_checks m c r) as [[q r']|]; [|exact IH].
      destruct IH as (H1 & H2 & H3 & H4). repeat split; auto. apply incl_tl; auto. cbn. lia.
    + repeat split; eauto. apply incl_tl, incl_refl.
  - cbn [app]. destruct (owl_checks m c r) as [[q r']|]; [|exact IH].
    destruct IH as (H1 & H2 & H3 & H4). repeat split; auto. apply incl_tl; auto. cbn. lia.
Qed.

(** what the outer loop does *)
Definition owl_goes (m : machine) (it : dict_iter) (cs : list chip) (s : owl)
  (a : answer (Z * Z * Z * Z)) : Prop :=
  exists pre c r q it' checks, cs = pre ++ c :: r /\ a = Gives q /\ s = OwlAt it' checks /\
     it_used it' = it_used it /\ it_pos it' = (it_pos it + List.length pre + 1)%nat /\
     incl checks LINK_CHECKS /\ (List.length checks < 6)%nat /\
     (exists out back, q = (c_x c, c_y c, out, back)) /\
     In q (owl_list m c LINK_CHECKS) /\
     owl_lists m cs = q :: owl_list m c checks ++ owl_lists m r.

Lemma owl_chips_cases m cs : forall it s a, owl_chips m it cs = (s, a) ->
  (owl_lists m cs = [] /\ a = Stops /\ s = OwlEnd) \/ owl_goes m it cs s a.
Proof.
  induction cs as [|c cs IH]; cbn [owl_chips]; intros it s a E.
  - left. inversion E; auto.
  - pose proof (owl_checks_cases m c LINK_CHECKS) as H.
    destruct (owl_checks m c LINK_CHECKS) as [[q r']|].
    + destruct H as (H1 & H2 & H3 & H4). inversion E; subst. right.
      exists [], c, cs, q, (mkIter true (it_used it) (S (it_pos it))), r'.
      split; [reflexivity|]. split; [reflexivity|]. split; [reflexivity|].
      split; [reflexivity|]. split; [cbn; lia|]. split; [exact H2|]. split; [exact H3|].
      split; [exact H4|]. split; [rewrite H1; left; reflexivity|].
      unfold owl_lists. cbn [flat_map]. rewrite H1. reflexivity.
    + destruct (IH _ _ _ E) as [(H1 & H2 & H3)|(pre & c' & r & q & it' & ch & H1 & H2 & H3 & H4 & H5 & H6 & H7 & H8 & H9 & H10)].
      * left. unfold owl_lists in *. cbn [flat_map]. rewrite H, H1. auto.
      * right. exists (c :: pre), c', r, q, it', ch. subst cs.
        split; [reflexivity|]. split; [exact H2|]. split; [exact H3|].
        split; [exact H4|]. split; [cbn in *; lia|]. split; [exact H6|]. split; [exact H7|].
        split; [exact H8|]. split; [exact H9|].
        unfold owl_lists in *. cbn [flat_map app]. rewrite H. exact H10.
Qed.

Lemma skipn_skipn' {A} a : forall b (l : list A), skipn a (skipn b l) = skipn (b + a) l.
Proof.
  intros b. induction b as [|b IH]; intros l; cbn; auto.
  destruct l; cbn; auto. apply skipn_nil.
Qed.

Lemma nth_skipn {A} i : forall (l : list A), nth_error (skipn i l) 0 = nth_error l i.
Proof. induction i as [|i IH]; intros [|x l]; cbn; auto. apply IH. Qed.

(** the chip the generator is at *)
Lemma owl_goes_at m it s a : owl_goes m it (skipn (it_pos it) (chips m)) s a ->
  exists c q it' checks, a = Gives q /\ s = OwlAt it' checks /\
    nth_error (chips m) (pred (it_pos it')) = Some c /\
    it_used it' = it_used it /\ (it_pos it < it_pos it' <= List.length (chips m))%nat /\
    incl checks LINK_CHECKS /\ (List.length checks < 6)%nat /\
    (exists out back, q = (c_x c, c_y c, out, back)) /\
    In q (owl_list m c LINK_CHECKS) /\
    owl_lists m (skipn (it_pos it) (chips m)) =
      q :: owl_list m c checks ++ owl_lists m (skipn (it_pos it') (chips m)).
Proof.
  intros (pre & c & r & q & it' & ch & H1 & H2 & H3 & H4 & H5 & H6 & H7 & H8 & H9 & H10).
  exists c, q, it', ch. split; [exact H2|]. split; [exact H3|].
  assert (HP : skipn (List.length pre) (skipn (it_pos it) (chips m)) = c :: r).
  { rewrite H1. rewrite skipn_app, skipn_all, Nat.sub_diag. reflexivity. }
  assert (HN : nth_error (chips m) (pred (it_pos it')) = Some c).
  { rewrite skipn_skipn' in HP. rewrite H5.
    replace (pred (it_pos it + List.length pre + 1)) with (it_pos it + List.length pre)%nat by lia.
    rewrite <- nth_skipn, HP. reflexivity. }
  split; [exact HN|]. split; [exact H4|]. split.
  { assert (pred (it_pos it') < List.length (chips m))%nat
      by (apply nth_error_Some; rewrite HN; discriminate). lia. }
  split; [exact H6|]. split; [exact H7|]. split; [exact H8|]. split; [exact H9|].
  rewrite H10. f_equal. f_equal. f_equal.
  assert (HS : skipn (List.length pre + 1) (skipn (it_pos it) (chips m)) = r).
  { rewrite H1. rewrite skipn_app, skipn_all2 by lia.
    replace (List.length pre + 1 - List.length pre)%nat with 1%nat by lia. reflexivity. }
  rewrite <- HS, H5, skipn_skipn'. f_equal. lia.
Qed.

Definition owl_todo (m : machine) (s : owl) : list (Z * Z * Z * Z) :=
  match s with
  | OwlNew => one_way_links m
  | OwlAt it checks =>
      match nth_error (chips m) (pred (it_pos it)) with
      | Some c => owl_list m c checks
      | None => []
      end ++ owl_lists m (skipn (it_pos it) (chips m))
  | OwlEnd => []
  end.

Definition owl_ok (m : machine) (s : owl) : Prop :=
  match s with
  | OwlAt it checks => it_used it = Some (List.length (m_chips m))
  | _ => True
  end.

Lemma owl_for_todo m it s a : it_used it = Some (List.length (m_chips m)) ->
  owl_for m it = (s, a) -> owl_ok m s /\
  match owl_lists m (skipn (it_pos it) (chips m)) with
  | [] => a = Stops /\ s = OwlEnd
  | q :: r => a = Gives q /\ owl_todo m s = r
  end.
Proof.
  intros EU E. unfold owl_for in E. rewrite EU, Nat.eqb_refl in E.
  destruct (owl_chips_cases _ _ _ _ _ E) as [(H1 & -> & ->)|H].
  - rewrite H1. cbn. auto.
  - apply owl_goes_at in H as (c & q & it' & ch & -> & -> & HN & HU & _ & _ & _ & _ & _ & ->).
    cbn [owl_ok owl_todo]. rewrite HN. split; [congruence|]. auto.
Qed.

Lemma owl_next_todo m s s' a : owl_ok m s -> owl_next m s = (s', a) ->
  owl_ok m s' /\
  match owl_todo m s with
  | [] => a = Stops /\ s' = OwlEnd
  | q :: r => a = Gives q /\ owl_todo m s' = r
  end.
Proof.
  intros OK E. destruct s as [|it checks|]; cbn [owl_next] in E.
  - apply (owl_for_todo m (chips_iter m)) in E; [|reflexivity]. exact E.
  - cbn [owl_ok] in OK. cbn [owl_todo].
    destruct (nth_error (chips m) (pred (it_pos it))) as [c|] eqn:EC.
    + pose proof (owl_checks_cases m c checks) as H.
      destruct (owl_checks m c checks) as [[q r]|].
      * inversion E; subst. destruct H as (H & _). cbn [owl_todo owl_ok]. rewrite H, EC. cbn. auto.
      * rewrite H. cbn [app]. apply owl_for_todo; auto.
    + cbn [app]. apply owl_for_todo; auto.
  - inversion E; subst. cbn. auto.
Qed.

Lemma owl_answers {C} (change : machine -> C -> res machine) k : forall m s, owl_ok m s ->
  answers change owl_next m s (repeat Next k) = map (item_or_stop (owl_todo m s)) (seq 0 k).
Proof.
  induction k as [|k IH]; intros m s OK; cbn [repeat answers seq map]; auto.
  destruct (owl_next m s) as [s' a] eqn:E.
  destruct (owl_next_todo _ _ _ _ OK E) as [OK' H].
  rewrite (IH _ _ OK'). rewrite <- seq_shift, map_map.
  destruct (owl_todo m s) as [|q r].
  - destruct H as [-> ->]. cbn [owl_todo]. f_equal.
    apply map_ext. intros i. unfold item_or_stop. destruct i; reflexivity.
  - destruct H as [-> ->]. reflexivity.
Qed.

Lemma no_next_answers {O C S A} (change : O -> C -> res O) (next : O -> S -> S * answer A) evs :
  no_next evs -> forall o s, answers change next o s evs = [] /\ left_at change next o s evs = s.
Proof.
  unfold no_next. induction evs as [|[|c] evs IH]; cbn; intros H o s; auto.
  destruct H. auto.
Qed.

Definition owl_in (s : owl) : Prop :=
  match s with
  | OwlAt it checks => incl checks LINK_CHECKS
  | _ => True
  end.

Lemma owl_list_incl m c a b : incl a b -> incl (owl_list m c a) (owl_list m c b).
Proof.
  intros H q. unfold owl_list. rewrite !in_flat_map. intros (x & Hx & Hq). eauto.
Qed.

Lemma owl_for_in m it s a : owl_for m it = (s, a) -> owl_in s /\
  forall q, a = Gives q -> In q (one_way_links m).
Proof.
  unfold owl_for. intros E.
  destruct (it_used it) as [n|]; [destruct (Nat.eqb n _)|].
  - destruct (owl_chips_cases _ _ _ _ _ E) as [(H1 & -> & ->)|H].
    + split; [exact I|discriminate].
    + apply owl_goes_at in H as (c & q & it' & ch & -> & -> & HN & _ & _ & HI & _ & _ & Hq & _).
      split; [exact HI|]. intros q' [= <-]. rewrite one_way_lists. unfold owl_lists.
      apply in_flat_map. exists c. split; [eapply nth_error_In; eauto|exact Hq].
  - inversion E; subst. split; [exact I|discriminate].
  - inversion E; subst. split; [exact I|discriminate].
Qed.

Lemma owl_next_in m s s' a : owl_in s -> owl_next m s = (s', a) -> owl_in s' /\
  forall q, a = Gives q -> In q (one_way_links m).
Proof.
  intros HI E. destruct s as [|it checks|]; cbn [owl_next] in E.
  - eapply owl_for_in; eauto.
  - destruct (nth_error (chips m) (pred (it_pos it))) as [c|] eqn:EC; [|eapply owl_for_in; eauto].
    pose proof (owl_checks_cases m c checks) as H.
    destruct (owl_checks m c checks) as [[q r]|]; [|eapply owl_for_in; eauto].
    inversion E; subst. destruct H as (H1 & H2 & _). split.
    + eapply incl_tran; eauto.
    + intros q' [= <-]. rewrite one_way_lists. unfold owl_lists.
      apply in_flat_map. exists c. split; [eapply nth_error_In; eauto|].
      apply (owl_list_incl m c checks); auto. rewrite H1. left; reflexivity.
  - inversion E; subst. split; [exact I|discriminate].
Qed.

Lemma owl_in_after {C} (change : machine -> C -> res machine) evs : forall m s, owl_in s ->
  owl_in (left_at change owl_next m s evs).
Proof.
  induction evs as [|[|c] evs IH]; intros m s HI; cbn [left_at]; auto.
  destruct (owl_next m s) as [s' a] eqn:E. cbn [fst]. apply IH.
  eapply owl_next_in; eauto.
Qed.

Definition at_end {A} (past : list (answer A)) : Prop :=
  In Stops past \/ exists e, In (Raises e) past.

Lemma at_end_app {A} (p : list (answer A)) a : at_end (p ++ [a]) <->
  at_end p \/ a = Stops \/ exists e, a = Raises e.
Proof.
  unfold at_end. rewrite in_app_iff. cbn. split.
  - intros [[H|[H|[]]]|(e & H)]; auto.
    rewrite in_app_iff in H. destruct H as [H|[H|[]]]; eauto.
  - intros [[H|(e & H)]|[H|(e & H)]]; subst; auto;
      right; exists e; rewrite in_app_iff; cbn; auto.
Qed.

(** the chip at a place in the order stays at its coordinates *)
Lemma grow_place m g m' i c : grow_machine m g = Ok m' -> nth_error (chips m) i = Some c ->
  exists c', nth_error (chips m') i = Some c' /\ c_xy c' = c_xy c.
Proof.
  destruct g as [d|p l]; cbn [grow_machine]; intros E H.
  - apply add_chip_parts in E as (_ & E & _). unfold chips, dvalues in *.
    rewrite E, map_app. exists c. split; [|reflexivity].
    rewrite nth_error_app1; [exact H|]. apply nth_error_Some. rewrite H. discriminate.
  - apply add_link_later_parts in E as (d & r & E1 & _ & E2 & _).
    unfold chips, dvalues in *. rewrite E2. clear E2.
    revert i E1 H. generalize (m_chips m) as ds.
    induction ds as [|[k v] ds IH]; cbn; intros i E1 H; [discriminate|].
    destruct (xy_eqb k p); cbn.
    + assert (v = d) by congruence. subst. destruct i as [|i]; cbn in *.
      * assert (d = c) by congruence. subst. exists (with_router c r). split; reflexivity.
      * exists c. split; [exact H|reflexivity].
    + destruct i as [|i]; cbn in *; [exists c; auto|]. apply IH; auto.
Qed.

Definition owl_track (n : nat) (past : list (answer (Z * Z * Z * Z))) (m : machine) (s : owl) : Prop :=
  match s with
  | OwlNew => False
  | OwlAt it checks => it_used it = Some n /\ ~ at_end past /\
      exists c p out back, nth_error (chips m) (pred (it_pos it)) = Some c /\
        past = p ++ [Gives (c_x c, c_y c, out, back)]
  | OwlEnd => at_end past
  end.

Lemma owl_for_track m it past s a n : it_used it = Some n -> ~ at_end past ->
  owl_for m it = (s, a) -> owl_track n (past ++ [a]) m s.
Proof.
  unfold owl_for. intros EU HE E. rewrite EU in E.
  destruct (Nat.eqb n (List.length (m_chips m))).
  - destruct (owl_chips_cases _ _ _ _ _ E) as [(H1 & -> & ->)|H].
    + cbn. apply at_end_app. auto.
    + apply owl_goes_at in H as (c & q & it' & ch & -> & -> & HN & HU & _ & _ & _ & (out & back & ->) & _ & _).
      cbn. split; [congruence|]. split.
      * intros HA. apply at_end_app in HA as [HA|[HA|(e & HA)]]; [auto|discriminate|discriminate].
      * eauto 6.
  - inversion E; subst. cbn. apply at_end_app. eauto.
Qed.

Lemma owl_next_track m past s s' a n : owl_track n past m s -> owl_next m s = (s', a) ->
  owl_track n (past ++ [a]) m s'.
Proof.
  intros T E. destruct s as [|it checks|]; cbn [owl_next] in E; [contradiction| |].
  - destruct T as (T1 & T2 & c & p & o & b & EC & _). rewrite EC in E.
    pose proof (owl_checks_cases m c checks) as H.
    destruct (owl_checks m c checks) as [[q r]|].
    + inversion E; subst. destruct H as (_ & _ & _ & out & back & ->). cbn.
      split; [auto|]. split; [|eauto 6].
      intros HA. apply at_end_app in HA as [HA|[HA|(e & HA)]]; [auto|discriminate|discriminate].
    + eapply owl_for_track; eauto.
  - inversion E; subst. cbn in *. apply at_end_app. auto.
Qed.

Lemma owl_grow_track m g past s n : owl_track n past m s ->
  owl_track n past (changed grow_machine m g) s.
Proof.
  destruct (changed_cases grow_machine m g) as [(m' & E & ->)| ->]; [|auto].
  destruct s as [|it checks|]; cbn [owl_track]; auto.
  intros (T1 & T2 & c & p & o & b & EC & EP). split; [exact T1|]. split; [exact T2|].
  destruct (grow_place _ _ _ _ _ E EC) as (c' & EC' & EX).
  exists c', p, o, b. split; [exact EC'|].
  assert (c_x c' = c_x c /\ c_y c' = c_y c) as [-> ->]; [|exact EP].
  unfold c_xy in EX. split; congruence.
Qed.

Lemma owl_track_after m e1 e2 : no_next e1 ->
  owl_track (List.length (m_chips (after grow_machine m e1)))
    (answers grow_machine owl_next m OwlNew (e1 ++ Next :: e2))
    (after grow_machine m (e1 ++ Next :: e2))
    (left_at grow_machine owl_next m OwlNew (e1 ++ Next :: e2)).
Proof.
  intros HN. destruct (no_next_answers grow_machine owl_next e1 HN m OwlNew) as [EA EL].
  rewrite answers_app, left_at_app, after_app, EA, EL. cbn [app].
  remember (after grow_machine m e1) as m1.
  induction e2 as [|ev e2 IH] using rev_ind.
  - cbn [answers left_at after]. destruct (owl_next m1 OwlNew) as [s' a] eqn:E. cbn [fst].
    apply (owl_for_track m1 (chips_iter m1) [] s' a); auto.
    unfold at_end; cbn. intros [[]|(e & [])].
  - change (Next :: e2 ++ [ev]) with ((Next :: e2) ++ [ev]).
    rewrite after_app, left_at_app. remember (Next :: e2) as es eqn:Hes. clear Hes.
    destruct ev as [|c].
    + rewrite answers_next. cbn [left_at after].
      destruct (owl_next (after grow_machine m1 es) _) as [s' a] eqn:E. cbn [fst snd].
      eapply owl_next_track; [exact IH|exact E].
    + rewrite answers_change. cbn [left_at after]. apply owl_grow_track. exact IH.
Qed.

Lemma answers_ext {O C S A} (change : O -> C -> res O) (n1 n2 : O -> S -> S * answer A) :
  (forall o s, n1 o s = n2 o s) ->
  forall evs o s, answers change n1 o s evs = answers change n2 o s evs.
Proof.
  intros H. induction evs as [|[|c] evs IH]; intros o s; cbn [answers]; auto.
  rewrite H. destruct (n2 o s). now rewrite IH.
Qed.

Lemma left_at_ext {O C S A} (change : O -> C -> res O) (n1 n2 : O -> S -> S * answer A) :
  (forall o s, n1 o s = n2 o s) ->
  forall evs o s, left_at change n1 o s evs = left_at change n2 o s evs.
Proof.
  intros H. induction evs as [|[|c] evs IH]; intros o s; cbn [left_at]; auto.
  rewrite H. apply IH.
Qed.

Lemma pick_local keep m ex ey evs :
  let past := answers grow_machine (pick_next ex ey keep) m (board_iter m) evs in
  exists passed rest,
    m_xys m ex ey = passed ++ rest /\
    picked (given past) passed /\
    (forall l p, ~ stopped past -> given past = l ++ [p] -> exists k, passed = k ++ [p]) /\
    (~ stopped past -> given past = [] -> passed = []) /\
    (stopped past -> rest = []) /\
    answers grow_machine (pick_next ex ey keep) m (board_iter m) (evs ++ [Next]) =
      past ++ [match find (fun p => Bool.eqb (contains (after grow_machine m evs) p) keep) rest with
               | Some p => Gives p | None => Stops end].
Proof.
  cbv zeta. destruct (pick_invariant ex ey keep m evs) as (dn & I1 & I2 & I3 & I4 & _ & _).
  rewrite answers_next.
  remember (left_at grow_machine (pick_next ex ey keep) m (board_iter m) evs) as todo.
  remember (answers grow_machine (pick_next ex ey keep) m (board_iter m) evs) as past.
  exists (map (on_machine m ex ey) dn), (map (on_machine m ex ey) todo).
  rewrite m_xys_map, I1, map_app. split; [reflexivity|]. split; [exact I2|].
  split; [|split; [|split]].
  - intros l p HS HG. specialize (I4 HS). rewrite HG, rev_app_distr in I4. cbn in I4.
    destruct (rev (map (on_machine m ex ey) dn)) as [|q r] eqn:ER; [contradiction|]. subst q.
    exists (rev r). rewrite <- (rev_involutive (map _ dn)), ER. reflexivity.
  - intros HS HG. specialize (I4 HS). rewrite HG in I4. cbn in I4.
    destruct (rev (map (on_machine m ex ey) dn)) as [|q r] eqn:ER; [|contradiction].
    rewrite <- (rev_involutive (map _ dn)), ER. reflexivity.
  - intros HS. rewrite (I3 HS). reflexivity.
  - f_equal. destruct (pick_next ex ey keep (after grow_machine m evs) todo) as [r a] eqn:E.
    cbn [snd]. apply pick_find in E.
    rewrite (on_machine_frame _ _ ex ey (same_frame_after evs m)) in E.
    rewrite E. reflexivity.
Qed.

Lemma find_ext {A} (f g : A -> bool) l : (forall x, f x = g x) -> find f l = find g l.
Proof. intros H. induction l; cbn; auto. rewrite H, IHl. reflexivity. Qed.

(** for loops *)
Lemma for_loop_one {O S A} (next : O -> S -> S * answer A) body o s o1 x1 l1 :
  for_loop next body o s o1 x1 l1 -> forall o2 x2 l2, for_loop next body o s o2 x2 l2 ->
  o2 = o1 /\ x2 = x1 /\ l2 = l1.
Proof.
  induction 1; intros o2 x2 l2 H2; inversion H2; subst;
    match goal with
    | H : next ?o ?s = _, H' : next ?o ?s = _ |- _ => rewrite H in H'; inversion H'; subst
    end; auto;
    match goal with
    | H : body ?o ?s = _, H' : body ?o ?s = _ |- _ => rewrite H in H'; inversion H'; subst
    end; auto.
  match goal with
  | H : for_loop _ _ ?o ?s ?a ?b ?c, IH : forall _ _ _, for_loop _ _ ?o ?s _ _ _ -> _ |- _ =>
      destruct (IH _ _ _ H) as (-> & -> & ->)
  end. auto.
Qed.

Lemma XY_dec (p q : XY) : {p = q} + {p <> q}.
Proof. decide equality; apply Z.eq_dec. Defined.
