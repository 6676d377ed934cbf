(** Proofs about the collections of cores. *)
From Coq Require Import Lia.
From Verif Require Import Model_Py Model_Subsets Spec_Subsets Proof_Py.
Open Scope list_scope.
Open Scope Z_scope.

(** ** The specification functions *)
Section Firsts.
  Context {A : Type} (dec : forall a b : A, {a = b} + {a <> b}).

  Lemma firsts_snoc l x :
    firsts dec (l ++ [x]) = if in_dec dec x l then firsts dec l else firsts dec l ++ [x].
  Proof using.
    unfold firsts. rewrite rev_app_distr. cbn [rev app nodup].
    destruct (in_dec dec x (rev l)) as [I|I]; destruct (in_dec dec x l) as [J|J]; auto.
    - exfalso. apply J. apply in_rev. auto.
    - exfalso. apply I. rewrite <- in_rev. auto.
  Qed.

  Lemma firsts_in l x : In x (firsts dec l) <-> In x l.
  Proof using. unfold firsts. rewrite <- in_rev, nodup_In, <- in_rev. tauto. Qed.

  Lemma firsts_nodup l : NoDup (firsts dec l).
  Proof using. unfold firsts. apply NoDup_rev, NoDup_nodup. Qed.
End Firsts.

Definition gadd (g : list (XY * list Z)) (xy : XY) (p : Z) : list (XY * list Z) :=
  match dget xy_eqb g xy with
  | None => dset xy_eqb g xy [p]
  | Some l => dset xy_eqb g xy (oset_add l p)
  end.

Lemma xyeqb_refl xy : xy_eqb xy xy = true.
Proof. apply xyeqb_eq. auto. Qed.
Lemma xyeqb_neq a b : a <> b -> xy_eqb a b = false.
Proof. intros N. apply not_true_iff_false. rewrite xyeqb_eq. auto. Qed.

Lemma dget_map {B} (f : XY -> B) ks xy :
  dget xy_eqb (map (fun k => (k, f k)) ks) xy = if in_dec chip_dec xy ks then Some (f xy) else None.
Proof.
  induction ks as [|k ks IH]; cbn [map dget]; auto.
  destruct (chip_dec k xy) as [->|N].
  - rewrite xyeqb_refl. destruct (in_dec chip_dec xy (xy :: ks)) as [|H]; auto. exfalso. apply H. cbn. auto.
  - rewrite xyeqb_neq, IH by auto.
    destruct (in_dec chip_dec xy ks) as [I|I], (in_dec chip_dec xy (k :: ks)) as [J|J]; auto;
      exfalso; cbn in J; tauto.
Qed.

Lemma dset_map {B} (f : XY -> B) ks xy v : NoDup ks -> In xy ks ->
  dset xy_eqb (map (fun k => (k, f k)) ks) xy v =
  map (fun k => (k, if xy_eqb k xy then v else f k)) ks.
Proof.
  induction ks as [|k ks IH]; intros N I; cbn [map dset]; [destruct I|].
  apply NoDup_cons_iff in N as [N1 N2].
  destruct (chip_dec k xy) as [->|D].
  - rewrite xyeqb_refl. f_equal. apply map_ext_in. intros k H. rewrite xyeqb_neq; auto. intros ->. auto.
  - rewrite xyeqb_neq by auto. f_equal. apply IH; auto. cbn in I. tauto.
Qed.

Lemma on_chip_snoc xy l a p :
  on_chip xy (l ++ [(a, p)]) = on_chip xy l ++ (if xy_eqb a xy then [p] else []).
Proof.
  unfold on_chip. rewrite filter_app, map_app. f_equal. cbn. destruct (xy_eqb a xy); auto.
Qed.

Lemma on_chip_in xy l p : In p (on_chip xy l) <-> In (xy, p) l.
Proof.
  unfold on_chip. rewrite in_map_iff. split.
  - intros ([a q] & <- & H). apply filter_In in H as [H E]. cbn in *. apply xyeqb_eq in E. subst. auto.
  - intros H. exists (xy, p). split; auto. apply filter_In. split; auto. apply xyeqb_refl.
Qed.

Lemma oset_firsts l p : oset_add (firsts Z.eq_dec l) p = firsts Z.eq_dec (l ++ [p]).
Proof.
  rewrite firsts_snoc. unfold oset_add. destruct (zmem (firsts Z.eq_dec l) p) eqn:E.
  - apply zmem_in in E. apply firsts_in in E. destruct (in_dec Z.eq_dec p l); tauto.
  - apply zmem_false in E. rewrite firsts_in in E. destruct (in_dec Z.eq_dec p l); tauto.
Qed.

Lemma grouped_snoc l xy p : grouped (l ++ [(xy, p)]) = gadd (grouped l) xy p.
Proof.
  unfold gadd, grouped. rewrite dget_map, map_app. cbn [map chip_of fst].
  rewrite firsts_snoc.
  destruct (in_dec chip_dec xy (firsts chip_dec (map chip_of l))) as [I|I].
  - rewrite dset_map; auto using firsts_nodup. apply firsts_in in I.
    match goal with |- context [if ?d then firsts _ _ else _] => destruct d as [_|J]; [|tauto] end.
    apply map_ext. intros k. f_equal. rewrite on_chip_snoc. destruct (chip_dec xy k) as [<-|D].
    + rewrite xyeqb_refl. rewrite <- oset_firsts. auto.
    + rewrite !xyeqb_neq by auto. rewrite app_nil_r. auto.
  - rewrite firsts_in in I.
    match goal with |- context [if ?d then firsts _ _ else _] => destruct d as [J|_]; [tauto|] end.
    rewrite (dset_new xy_eqb xyeqb_eq).
    2: { unfold dkeys. rewrite map_map. cbn. rewrite map_id, firsts_in. auto. }
    rewrite map_app. cbn [map]. f_equal.
    + apply map_ext_in. intros k H. f_equal. rewrite on_chip_snoc. rewrite xyeqb_neq, app_nil_r; auto.
      intros <-. apply I. apply firsts_in in H. auto.
    + f_equal. f_equal. rewrite on_chip_snoc, xyeqb_refl.
      assert (on_chip xy l = []) as ->; [|reflexivity].
      destruct (on_chip xy l) as [|q r] eqn:E; auto. exfalso. apply I.
      assert (In q (on_chip xy l)) as H by (rewrite E; cbn; auto). apply on_chip_in in H.
      apply in_map_iff. exists (xy, q). auto.
Qed.

Definition gadds (g : list (XY * list Z)) (l : list core) : list (XY * list Z) :=
  fold_left (fun g c => gadd g (chip_of c) (snd c)) l g.

Lemma grouped_app l l' : grouped (l ++ l') = gadds (grouped l) l'.
Proof.
  revert l. induction l' as [|[xy p] l' IH]; intros l; [rewrite app_nil_r; auto|].
  cbn [gadds fold_left]. change (l ++ (xy, p) :: l') with (l ++ [(xy, p)] ++ l').
  rewrite app_assoc, IH, grouped_snoc. reflexivity.
Qed.

Lemma gadds_app g l l' : gadds g (l ++ l') = gadds (gadds g l) l'.
Proof. unfold gadds. apply fold_left_app. Qed.

Lemma dset_same (g : list (XY * list Z)) xy l : dget xy_eqb g xy = Some l -> dset xy_eqb g xy l = g.
Proof.
  induction g as [|[k v] g IH]; cbn; [discriminate|].
  destruct (xy_eqb k xy); [intros X; injection X as ->; auto|intros X; rewrite IH; auto].
Qed.

(** Adding what is there changes nothing. *)
Lemma gadd_old g xy p l : dget xy_eqb g xy = Some l -> In p l -> gadd g xy p = g.
Proof.
  intros E H. unfold gadd. rewrite E. unfold oset_add.
  assert (zmem l p = true) as -> by (apply zmem_in; auto). apply dset_same. auto.
Qed.

Lemma gadds_old g l : (forall c, In c l -> exists ps, dget xy_eqb g (chip_of c) = Some ps /\ In (snd c) ps) ->
  gadds g l = g.
Proof.
  induction l as [|c l IH]; intros H; auto. unfold gadds in *. cbn [fold_left].
  destruct (H c) as (ps & E & I); [cbn; auto|]. rewrite (gadd_old _ _ _ _ E I). apply IH.
  intros; apply H; cbn; auto.
Qed.

Lemma grouped_get l xy ps : dget xy_eqb (grouped l) xy = Some ps -> ps = firsts Z.eq_dec (on_chip xy l).
Proof. unfold grouped. rewrite dget_map. destruct (in_dec _ _ _); congruence. Qed.

Lemma grouped_has l xy p : In (xy, p) l <-> exists ps, dget xy_eqb (grouped l) xy = Some ps /\ In p ps.
Proof.
  split.
  - intros H. exists (firsts Z.eq_dec (on_chip xy l)). split.
    + unfold grouped. rewrite dget_map. destruct (in_dec _ _ _) as [|N]; auto. exfalso. apply N.
      apply firsts_in, in_map_iff. exists (xy, p). auto.
    + apply firsts_in, on_chip_in, H.
  - intros (ps & E & I). apply grouped_get in E. subst ps. apply firsts_in in I. apply on_chip_in in I. auto.
Qed.

(** ** The heap *)
Lemma put_length h r c : List.length (put h r c) = List.length h.
Proof. revert r. induction h as [|a h IH]; intros [|r]; cbn; auto. Qed.

Lemma deref_put h r c r' : deref (put h r c) r' = if (Nat.eqb r' r && Nat.ltb r (List.length h))%bool then c else deref h r'.
Proof.
  unfold deref. revert r r'. induction h as [|a h IH]; intros [|r] [|r']; cbn [put nth List.length]; auto.
  - cbn. destruct (Nat.eqb r' r); reflexivity.
  - rewrite IH. reflexivity.
Qed.

Lemma deref_put_other h r c r' : r' <> r -> deref (put h r c) r' = deref h r'.
Proof. intros N. rewrite deref_put. apply Nat.eqb_neq in N. rewrite N. auto. Qed.

Lemma deref_put_same h r c : (r < List.length h)%nat -> deref (put h r c) r = c.
Proof. intros L. rewrite deref_put, Nat.eqb_refl. apply Nat.ltb_lt in L. rewrite L. auto. Qed.

Lemma deref_app_old h l r : (r < List.length h)%nat -> deref (h ++ l) r = deref h r.
Proof. intros L. unfold deref. apply app_nth1. auto. Qed.

Lemma deref_snoc h c : deref (h ++ [c]) (List.length h) = c.
Proof. unfold deref. rewrite app_nth2, Nat.sub_diag; auto. Qed.

Lemma deref_beyond h r : (List.length h <= r)%nat -> cs_ids (deref h r) = [].
Proof. intros L. unfold deref. rewrite nth_overflow by auto. reflexivity. Qed.

Lemma add_snoc h x y ids p :
  cs_add_processor (h ++ [mkSubset x y ids]) (List.length h) p = h ++ [mkSubset x y (oset_add ids p)].
Proof.
  unfold cs_add_processor. rewrite deref_snoc. cbn [cs_x cs_y cs_ids].
  generalize (mkSubset x y (oset_add ids p)) as c'. generalize (mkSubset x y ids) as c. clear. intros c c'.
  induction h as [|a h IH]; cbn; auto. f_equal. auto.
Qed.

Lemma new_subset h x y ps : new_core_subset h x y ps = (h ++ [mkSubset x y (oset_of ps)], List.length h).
Proof.
  unfold new_core_subset. f_equal. unfold oset_of. generalize (@nil Z) at 1 2 as acc.
  induction ps as [|p ps IH]; intros acc; cbn [fold_left]; auto. rewrite add_snoc. apply IH.
Qed.

(** ** Collections *)
Definition good (h : heap) (s : subsets) : Prop :=
  NoDup (map fst s) /\ NoDup (map snd s) /\
  forall xy r, In (xy, r) s -> (r < List.length h)%nat /\ (cs_x (deref h r), cs_y (deref h r)) = xy.

Definition cont (h : heap) (s : subsets) : list (XY * list Z) :=
  map (fun xr => (fst xr, cs_ids (deref h (snd xr)))) s.

Lemma contents_cont h s : good h s -> contents h s = cont h s.
Proof.
  intros (_ & _ & G). unfold contents, cont, s_values, dvalues. rewrite map_map. apply map_ext_in.
  intros [xy r] H. cbn. apply G in H as [_ H]. rewrite H. auto.
Qed.

Lemma cont_get h s xy : dget xy_eqb (cont h s) xy = option_map (fun r => cs_ids (deref h r)) (dget xy_eqb s xy).
Proof.
  induction s as [|[k r] s IH]; cbn; auto. destruct (xy_eqb k xy); auto.
Qed.

Lemma cont_ext h h' s : (forall xy r, In (xy, r) s -> cs_ids (deref h' r) = cs_ids (deref h r)) ->
  cont h' s = cont h s.
Proof. intros H. apply map_ext_in. intros [xy r] I. cbn. f_equal. eauto. Qed.

(** What an addition may do *)
Definition grows (h : heap) (s : subsets) (h' : heap) (s' : subsets) : Prop :=
  (List.length h <= List.length h')%nat /\
  (forall r, (r < List.length h)%nat -> ~ In r (map snd s) -> deref h' r = deref h r) /\
  (forall r, In r (map snd s') -> In r (map snd s) \/ (List.length h <= r)%nat) /\
  (forall r, In r (map snd s) -> In r (map snd s')) /\
  (forall r, (List.length h <= r < List.length h')%nat -> In r (map snd s')).

Lemma grows_refl h s : grows h s h s.
Proof. split; [auto|]. split; auto. split; auto. split; auto. intros; lia. Qed.

Lemma grows_trans h s h1 s1 h2 s2 : grows h s h1 s1 -> grows h1 s1 h2 s2 -> grows h s h2 s2.
Proof.
  intros (A1 & A2 & A3 & A4 & A5) (B1 & B2 & B3 & B4 & B5). split; [lia|]. split; [|split; [|split]].
  - intros r L N. rewrite B2, A2; auto; [lia|]. intros H. apply A3 in H as [H|H]; [auto|lia].
  - intros r H. apply B3 in H as [H|H]; [apply A3 in H as [H|H]; auto|right; lia].
  - auto.
  - intros r L. destruct (Nat.lt_ge_cases r (List.length h1)); [apply B4, A5; lia|apply B5; lia].
Qed.

Lemma good_get h s xy r : good h s -> dget xy_eqb s xy = Some r ->
  In (xy, r) s /\ (r < List.length h)%nat /\ (cs_x (deref h r), cs_y (deref h r)) = xy.
Proof.
  intros (_ & _ & G) E. apply (dget_some_in xy_eqb xyeqb_eq) in E. split; auto.
Qed.

(** Adding to the subset of one chip *)
Lemma put_cont h s xy r p : good h s -> In (xy, r) s ->
  good (cs_add_processor h r p) s /\ cont (cs_add_processor h r p) s = gadd (cont h s) xy p.
Proof.
  intros G I. pose proof G as (G1 & G2 & G3). destruct (G3 _ _ I) as [L X].
  assert (dget xy_eqb s xy = Some r) as E by (apply (in_dget xy_eqb xyeqb_eq); auto).
  set (c := mkSubset (cs_x (deref h r)) (cs_y (deref h r)) (oset_add (cs_ids (deref h r)) p)).
  assert (cs_add_processor h r p = put h r c) as -> by reflexivity. split.
  - split; [|split]; auto. intros xy' r' H. rewrite put_length. destruct (G3 _ _ H) as [L' X'].
    split; auto. destruct (Nat.eq_dec r' r) as [->|N].
    + rewrite deref_put_same by auto. exact X'.
    + rewrite deref_put_other; auto.
  - unfold gadd. rewrite cont_get, E. cbn [option_map]. 
    clear E X G G3. revert I G1 G2 L. induction s as [|[k r'] s IH]; intros I G1 G2 L; [destruct I|].
    cbn [map] in G1, G2. apply NoDup_cons_iff in G1 as [N1 G1]. apply NoDup_cons_iff in G2 as [N2 G2].
    cbn [cont map fst snd dset] in *. destruct I as [I|I].
    + injection I as -> ->. rewrite xyeqb_refl, deref_put_same by auto. f_equal.
      apply map_ext_in. intros [k' r'] H. cbn. f_equal. rewrite deref_put_other; auto. intros ->.
      apply N2. apply in_map_iff. exists (k', r). auto.
    + assert (k <> xy) as D1.
      { intros ->. apply N1. apply in_map_iff. exists (xy, r). auto. }
      assert (r' <> r) as D2.
      { intros ->. apply N2. apply in_map_iff. exists (xy, r). auto. }
      rewrite xyeqb_neq by auto. rewrite deref_put_other by auto. f_equal. apply IH; auto.
Qed.

Lemma add_proc h s x y p h' s' : good h s -> s_add_processor h s x y p = (h', s') ->
  good h' s' /\ cont h' s' = gadd (cont h s) (x, y) p /\ grows h s h' s'.
Proof.
  intros G. unfold s_add_processor. destruct (dget xy_eqb s (x, y)) as [r|] eqn:E.
  - intros X. injection X as <- <-. destruct (good_get _ _ _ _ G E) as (I & L & _).
    destruct (put_cont h s (x, y) r p G I) as [A B]. split; auto. split; auto.
    unfold cs_add_processor. split; [rewrite put_length; auto|]. split; [|split; [|split]]; auto.
    + intros r' L' N. apply deref_put_other. intros ->. apply N. apply in_map_iff. exists ((x, y), r). auto.
    + intros r'. rewrite put_length. lia.
  - rewrite new_subset. cbn [oset_of fold_left oset_add zmem existsb app]. intros X. injection X as <- <-.
    assert (~ In (x, y) (map fst s)) as N by (apply (dget_none xy_eqb xyeqb_eq) in E; auto).
    rewrite (dset_new xy_eqb xyeqb_eq) by auto. pose proof G as (G1 & G2 & G3).
    split; [|split].
    + split; [|split].
      * rewrite map_app. cbn. apply nodup_snoc; auto.
      * rewrite map_app. cbn. apply nodup_snoc; auto. intros H. apply in_map_iff in H as ([k r] & X & H).
        apply G3 in H. cbn in *. lia.
      * intros xy r H. rewrite app_length. cbn. apply in_app_iff in H as [H|[H|[]]].
        -- apply G3 in H as [L X]. split; [lia|]. rewrite deref_app_old by auto. auto.
        -- injection H as <- <-. split; [lia|]. rewrite deref_snoc. auto.
    + unfold gadd. rewrite cont_get, E. cbn [option_map]. rewrite (dset_new xy_eqb xyeqb_eq).
      2: { unfold cont, dkeys. rewrite map_map. exact N. }
      unfold cont. rewrite map_app. cbn [map fst snd]. rewrite deref_snoc. cbn [cs_ids]. f_equal.
      apply map_ext_in. intros [k r] H. cbn. rewrite deref_app_old; auto. apply G3 in H. tauto.
    + split; [rewrite app_length; lia|]. split; [|split; [|split]].
      * intros r L _. apply deref_app_old. auto.
      * intros r H. rewrite map_app in H. cbn in H. apply in_app_iff in H as [H|[<-|[]]]; auto.
      * intros r H. rewrite map_app. apply in_app_iff. auto.
      * intros r. rewrite app_length. cbn. intros L. rewrite map_app. apply in_app_iff. right. cbn. lia.
Qed.

Lemma add_procs x y ps : forall h s h' s', good h s ->
  fold_left (fun hs p => s_add_processor (fst hs) (snd hs) x y p) ps (h, s) = (h', s') ->
  good h' s' /\ cont h' s' = gadds (cont h s) (map (fun p => (x, y, p)) ps) /\ grows h s h' s'.
Proof.
  induction ps as [|p ps IH]; intros h s h' s' G; cbn [fold_left fst snd map].
  - intros X. injection X as <- <-. split; auto. split; auto using grows_refl.
  - destruct (s_add_processor h s x y p) as [h1 s1] eqn:E. intros X.
    destruct (add_proc _ _ _ _ _ _ _ G E) as (G1 & C1 & W1). destruct (IH _ _ _ _ G1 X) as (G2 & C2 & W2).
    split; auto. split; [|eapply grows_trans; eauto]. rewrite C2, C1. reflexivity.
Qed.

Lemma add_subset h s r h' s' : good h s -> s_add_core_subset h s r = (h', s') ->
  good h' s' /\ cont h' s' = gadds (cont h s) (cores_of h r) /\ grows h s h' s'.
Proof. intros G E. apply (add_procs _ _ _ _ _ _ _ G E). Qed.

(** The cores of an own subset are there. *)
Lemma own_cores h s r : good h s -> In r (map snd s) -> gadds (cont h s) (cores_of h r) = cont h s.
Proof.
  intros G I. apply in_map_iff in I as ([xy r'] & E & I). cbn in E. subst r'. pose proof G as (G1 & G2 & G3).
  apply gadds_old. intros c H. unfold cores_of in H. apply in_map_iff in H as (p & <- & H).
  destruct (G3 _ _ I) as [_ X]. exists (cs_ids (deref h r)). cbn [chip_of fst snd]. split; auto.
  unfold chip_of. cbn [fst]. rewrite X, cont_get.
  assert (dget xy_eqb s xy = Some r) as -> by (apply (in_dget xy_eqb xyeqb_eq); auto). reflexivity.
Qed.

(** Adding several: the cores may be read before. *)
Lemma add_subsets_from h0 s0 rs : good h0 s0 -> forall h s h' s', good h s -> grows h0 s0 h s ->
  (forall r, In r (map snd s0) -> gadds (cont h s) (cores_of h0 r) = cont h s) ->
  fold_left (fun hs r => s_add_core_subset (fst hs) (snd hs) r) rs (h, s) = (h', s') ->
  good h' s' /\ cont h' s' = gadds (cont h s) (flat_map (cores_of h0) rs) /\ grows h0 s0 h' s'.
Proof.
  intros G0. induction rs as [|r rs IH]; intros h s h' s' G W O; cbn [fold_left fst snd flat_map].
  - intros X. injection X as <- <-. auto.
  - destruct (s_add_core_subset h s r) as [h1 s1] eqn:E. intros X.
    destruct (add_subset _ _ _ _ _ G E) as (G1 & C1 & W1).
    assert (gadds (cont h s) (cores_of h r) = gadds (cont h s) (cores_of h0 r)) as Q.
    { destruct (in_dec Nat.eq_dec r (map snd s0)) as [I|I].
      - rewrite O by auto. apply own_cores; auto. destruct W as (_ & _ & _ & W & _). auto.
      - destruct (Nat.lt_ge_cases r (List.length h0)) as [L|L].
        + unfold cores_of. destruct W as (_ & W & _). rewrite W by auto. auto.
        + assert (cores_of h0 r = []) as -> by (unfold cores_of; rewrite deref_beyond; auto).
          destruct (Nat.lt_ge_cases r (List.length h)) as [L'|L'].
          * apply own_cores; auto. destruct W as (_ & _ & _ & _ & W). apply W. lia.
          * unfold cores_of. rewrite deref_beyond; auto. }
    assert (forall r, In r (map snd s0) -> gadds (cont h1 s1) (cores_of h0 r) = cont h1 s1) as O'.
    { intros r' I. specialize (O r' I). rewrite C1. clear - O G.
      (* what is there stays there *)
      assert (forall l c g ps, dget xy_eqb g (chip_of c) = Some ps -> In (snd c) ps ->
        exists ps', dget xy_eqb (gadds g l) (chip_of c) = Some ps' /\ In (snd c) ps') as M.
      { clear. induction l as [|[xy p] l IH]; intros c g ps E I; cbn; [eauto|].
        unfold gadds in *. cbn [fold_left chip_of fst snd]. unfold chip_of in *. cbn [fst].
        assert (exists ps', dget xy_eqb (gadd g xy p) (fst c) = Some ps' /\ In (snd c) ps') as (ps' & E' & I').
        { unfold gadd. destruct (dget xy_eqb g xy) as [l'|] eqn:X; rewrite (dget_dset xy_eqb xyeqb_eq).
          - destruct (chip_dec xy (fst c)) as [D|D].
            + rewrite D, xyeqb_refl. eexists. split; eauto. apply oset_add_in. left. congruence.
            + rewrite xyeqb_neq by auto. eauto.
          - destruct (chip_dec xy (fst c)) as [D|D]; [congruence|]. rewrite xyeqb_neq by auto. eauto. }
        eapply IH; eauto. }
      assert (forall l g, gadds g l = g -> forall c, In c l ->
         exists ps, dget xy_eqb g (chip_of c) = Some ps /\ In (snd c) ps) as K.
      { intros l g Eq c I. rewrite <- Eq. clear Eq. revert g. induction l as [|[xy p] l IH]; intros g; [destruct I|].
        unfold gadds in *. cbn [fold_left chip_of fst snd]. destruct I as [I|I].
        - subst c. cbn. assert (exists ps, dget xy_eqb (gadd g xy p) xy = Some ps /\ In p ps) as (ps & E & J).
          { unfold gadd. destruct (dget xy_eqb g xy) as [l'|] eqn:X; rewrite (dget_dset xy_eqb xyeqb_eq), xyeqb_refl.
            - eexists. split; eauto. apply oset_add_in. auto.
            - eexists. split; eauto. cbn. auto. }
          apply (M l (xy, p) _ ps E J).
        - apply IH. auto. }
      apply gadds_old. intros c I. destruct (K _ _ O c I) as (ps & E & J). eapply M; eauto. }
    destruct (IH _ _ _ _ G1 (grows_trans _ _ _ _ _ _ W W1) O' X) as (G2 & C2 & W2).
    split; auto. split; auto. rewrite C2, C1, Q, gadds_app. reflexivity.
Qed.

Lemma add_subsets h s rs h' s' : good h s -> s_add_core_subsets h s rs = (h', s') ->
  good h' s' /\ cont h' s' = gadds (cont h s) (flat_map (cores_of h) rs) /\ grows h s h' s'.
Proof.
  intros G E. apply (add_subsets_from h s rs G h s h' s'); auto using grows_refl.
  intros r I. apply own_cores; auto.
Qed.

Lemma good_nil h : good h [].
Proof. split; [constructor|]. split; [constructor|]. intros xy r []. Qed.

Lemma new_coll h rs h' s' : new_subsets h rs = (h', s') ->
  good h' s' /\ cont h' s' = grouped (flat_map (cores_of h) rs) /\ grows h [] h' s'.
Proof.
  intros E. destruct (add_subsets h [] rs h' s' (good_nil h) E) as (A & B & C). split; auto. split; auto.
  rewrite B. symmetry. apply (grouped_app []).
Qed.

Lemma frozen_same h rs : new_frozen h rs = new_subsets h rs.
Proof.
  unfold new_frozen, new_subsets. generalize (h, @nil (XY * ref)). induction rs as [|r rs IH]; intros [h1 s1]; auto.
  cbn [fold_left fst snd]. apply IH.
Qed.

(** ** Intersection *)
Lemma cs_intersect_eq h r other : (other < List.length h)%nat ->
  cs_intersect h r other =
  (h ++ [mkSubset (cs_x (deref h r)) (cs_y (deref h r))
     (oset_of (filter (zmem (cs_ids (deref h other))) (cs_ids (deref h r))))], List.length h).
Proof.
  intros L. unfold cs_intersect. rewrite new_subset. cbn [oset_of fold_left]. f_equal.
  generalize (cs_x (deref h r)) (cs_y (deref h r)). intros x y. unfold oset_of.
  generalize (cs_ids (deref h r)). intros l. generalize (@nil Z) as acc. revert l.
  induction l as [|p l IH]; intros acc; cbn [fold_left filter]; auto.
  unfold cs_contains at 2. rewrite deref_app_old by auto.
  destruct (zmem (cs_ids (deref h other)) p); [rewrite add_snoc|]; apply IH.
Qed.

Definition inter_of (h : heap) (b : subsets) (xr : XY * ref) : list core :=
  match dget xy_eqb b (fst xr) with
  | None => []
  | Some other => map (fun p => (fst xr, p)) (filter (zmem (cs_ids (deref h other))) (cs_ids (deref h (snd xr))))
  end.

Lemma intersect_ok h0 a b h' s' : good h0 a -> good h0 b ->
  (forall xy r, In (xy, r) a -> NoDup (cs_ids (deref h0 r))) ->
  s_intersect h0 a b = (h', s') ->
  good h' s' /\ cont h' s' = gadds [] (flat_map (inter_of h0 b) a) /\
  (List.length h0 <= List.length h')%nat /\ (forall r, (r < List.length h0)%nat -> deref h' r = deref h0 r) /\
  (forall r, In r (map snd s') -> (List.length h0 <= r)%nat).
Proof.
  intros GA GB ND. unfold s_intersect.
  assert (forall l h s g,
    (forall xy r, In (xy, r) l -> In (xy, r) a) ->
    good h s -> cont h s = g -> (List.length h0 <= List.length h)%nat ->
    (forall r, (r < List.length h0)%nat -> deref h r = deref h0 r) ->
    (forall r, In r (map snd s) -> (List.length h0 <= r)%nat) ->
    fold_left (fun hs xr =>
      let '(h, result) := hs in
      let '(xy, r) := xr in
      if s_contains_xy b xy then
        match s_getitem b xy with
        | Err _ => hs
        | Ok other =>
            let '(h, subset) := cs_intersect h r other in
            if cs_len h subset =? 0 then (h, result) else s_add_core_subset h result subset
        end
      else hs) l (h, s) = (h', s') ->
    good h' s' /\ cont h' s' = gadds g (flat_map (inter_of h0 b) l) /\
    (List.length h0 <= List.length h')%nat /\ (forall r, (r < List.length h0)%nat -> deref h' r = deref h0 r) /\
    (forall r, In r (map snd s') -> (List.length h0 <= r)%nat)) as K.
  { induction l as [|[xy r] l IH]; intros h s g IA G C L D R; cbn [fold_left].
    - intros X. injection X as <- <-. cbn. auto.
    - cbn [flat_map]. rewrite gadds_app.
      destruct (proj2 (proj2 GA) xy r (IA xy r (or_introl eq_refl))) as [Lr Xr].
      unfold inter_of at 1. cbn [fst snd].
      unfold s_contains_xy, s_is_chip, s_getitem, dgetitem, dmem. destruct xy as [x y]. cbn [fst snd].
      destruct (dget xy_eqb b (x, y)) as [other|] eqn:E.
      2: { intros X. apply (IH h s g); auto. intros; apply IA; cbn; auto. }
      destruct (good_get _ _ _ _ GB E) as (_ & Lo & _).
      rewrite cs_intersect_eq by lia. rewrite !D by auto.
      set (sub := filter (zmem (cs_ids (deref h0 other))) (cs_ids (deref h0 r))).
      assert (oset_of sub = sub) as ->.
      { apply oset_of_id. apply NoDup_filter. apply (ND (x, y)). apply IA. cbn. auto. }
      injection Xr as X1 X2. rewrite X1, X2.
      assert (cs_len (h ++ [mkSubset x y sub]) (List.length h) = Z.of_nat (List.length sub)) as ->.
      { unfold cs_len. rewrite deref_snoc. reflexivity. }
      set (h1 := h ++ [mkSubset x y sub]).
      assert (List.length h1 = S (List.length h)) as L1 by (unfold h1; rewrite app_length; cbn; lia).
      assert (forall q, (q < List.length h)%nat -> deref h1 q = deref h q) as D1
        by (intros; apply deref_app_old; auto).
      assert (good h1 s) as G1.
      { destruct G as (Q1 & Q2 & Q3). split; [|split]; auto. intros xy q H. destruct (Q3 _ _ H) as [Q4 Q5].
        split; [lia|]. rewrite D1; auto. }
      assert (cont h1 s = g) as C1.
      { rewrite <- C. apply cont_ext. intros xy q H. f_equal. apply D1. apply G in H. lia. }
      destruct (Z.of_nat (List.length sub) =? 0) eqn:Z0.
      + assert (sub = []) as -> by (destruct sub; [auto|cbn in Z0; lia]). intros X.
        apply (IH h1 s g); auto; [intros; apply IA; cbn; auto|lia|]. intros q Hq. rewrite D1, D; auto. lia.
      + destruct (s_add_core_subset h1 s (List.length h)) as [h2 s2] eqn:E2. intros X.
        destruct (add_subset _ _ _ _ _ G1 E2) as (G2 & C2 & (W1 & W2 & W3 & _)).
        apply (IH h2 s2 _); auto.
        * intros; apply IA; cbn; auto.
        * rewrite C2, C1. f_equal. unfold cores_of, h1. rewrite deref_snoc. reflexivity.
        * lia.
        * intros q Hq. rewrite W2, D1, D; auto; try lia. intros H. apply R in H. lia.
        * intros q Hq. apply W3 in Hq as [Hq|Hq]; [apply R; auto|lia]. }
  intros X. apply (K a h0 [] []); auto using good_nil. intros r [].
Qed.

(** ** Histories *)
Definition inv (w : world) (logs : list (list core)) : Prop :=
  List.length (w_colls w) = List.length logs /\
  (forall k kd s l, nth_error (w_colls w) k = Some (kd, s) -> nth_error logs k = Some l ->
     good (w_heap w) s /\ cont (w_heap w) s = grouped l) /\
  (forall k1 k2 c1 c2 r, nth_error (w_colls w) k1 = Some c1 -> nth_error (w_colls w) k2 = Some c2 ->
     In r (map snd (snd c1)) -> In r (map snd (snd c2)) -> k1 = k2).

Lemma combine_nth {A B} (f : nat * A -> B) l k :
  nth_error (map f (combine (seq 0 (List.length l)) l)) k = option_map (fun x => f (k, x)) (nth_error l k).
Proof.
  assert (forall n, nth_error (map f (combine (seq n (List.length l)) l)) k =
    option_map (fun x => f ((n + k)%nat, x)) (nth_error l k)) as K; [|apply (K O)].
  revert k. induction l as [|a l IH]; intros k n; cbn; [destruct k; auto|].
  destruct k as [|k]; cbn; [rewrite Nat.add_0_r; auto|]. rewrite IH. rewrite Nat.add_succ_r. auto.
Qed.

Lemma combine_length {A B} (f : nat * A -> B) l :
  List.length (map f (combine (seq 0 (List.length l)) l)) = List.length l.
Proof. rewrite map_length, combine_length, seq_length. lia. Qed.

Lemma upd_nth logs k new j :
  nth_error (upd logs k new) j = option_map (fun l => if Nat.eqb j k then l ++ new else l) (nth_error logs j).
Proof. unfold upd. rewrite combine_nth. reflexivity. Qed.

Lemma put_coll_length l k c : List.length (put_coll l k c) = List.length l.
Proof. revert k. induction l as [|a l IH]; intros [|k]; cbn; auto. Qed.

Lemma put_coll_nth l k c j :
  nth_error (put_coll l k c) j = if Nat.eqb j k then option_map (fun _ => c) (nth_error l j) else nth_error l j.
Proof.
  revert k j. induction l as [|a l IH]; intros [|k] [|j]; cbn; auto; try (destruct (Nat.eqb j k); auto; fail).
Qed.

Lemma good_ext h h' s : good h s -> (List.length h <= List.length h')%nat ->
  (forall r, In r (map snd s) -> deref h' r = deref h r) -> good h' s /\ cont h' s = cont h s.
Proof.
  intros (A & B & C) L D. split.
  - split; auto. split; auto. intros xy r H. destruct (C _ _ H) as [C1 C2]. split; [lia|].
    rewrite D; auto. apply in_map_iff. exists (xy, r). auto.
  - apply cont_ext. intros xy r H. f_equal. apply D. apply in_map_iff. exists (xy, r). auto.
Qed.

Lemma inv_ref w logs k c r : inv w logs -> nth_error (w_colls w) k = Some c -> In r (map snd (snd c)) ->
  (r < List.length (w_heap w))%nat.
Proof.
  intros (I1 & I2 & _) E H. destruct c as [kd s].
  assert (k < List.length logs)%nat as L by (rewrite <- I1; apply nth_error_Some; congruence).
  destruct (nth_error logs k) as [l|] eqn:X; [|apply nth_error_None in X; lia].
  destruct (I2 _ _ _ _ E X) as [(_ & _ & G) _]. cbn in H. apply in_map_iff in H as ([xy q] & <- & H).
  apply G in H. tauto.
Qed.

Lemma inv_heap w logs h' : inv w logs -> (List.length (w_heap w) <= List.length h')%nat ->
  (forall r, (r < List.length (w_heap w))%nat -> deref h' r = deref (w_heap w) r) ->
  inv (mkWorld h' (w_colls w)) logs.
Proof.
  intros I L D. pose proof I as (I1 & I2 & I3). split; [|split]; cbn [w_colls w_heap]; auto.
  intros k kd s l E X. destruct (I2 _ _ _ _ E X) as [G C].
  destruct (good_ext (w_heap w) h' s G L) as [G' C'].
  - intros r H. apply D. apply (inv_ref w logs k (kd, s) r I E H).
  - split; auto. congruence.
Qed.

Lemma inv_put w logs k kd s h' s' new : inv w logs -> nth_error (w_colls w) k = Some (kd, s) ->
  grows (w_heap w) s h' s' -> good h' s' -> cont h' s' = gadds (cont (w_heap w) s) new ->
  inv (mkWorld h' (put_coll (w_colls w) k (kd, s'))) (upd logs k new).
Proof.
  intros I E (W1 & W2 & W3 & _) G C. pose proof I as (I1 & I2 & I3). split; [|split]; cbn [w_colls w_heap].
  - rewrite put_coll_length. unfold upd. rewrite combine_length. auto.
  - intros j kd' s2 l. rewrite put_coll_nth, upd_nth. destruct (Nat.eqb_spec j k) as [->|N].
    + rewrite E. cbn [option_map]. destruct (nth_error logs k) as [l0|] eqn:X; [|discriminate]. cbn.
      intros Y Z. injection Y as <- <-. injection Z as <-. split; auto.
      rewrite C. destruct (I2 _ _ _ _ E X) as [_ ->]. symmetry. apply grouped_app.
    + destruct (nth_error logs j) as [l0|] eqn:X; [|discriminate]. cbn. intros Y Z. injection Z as <-.
      destruct (I2 _ _ _ _ Y X) as [G' C']. rewrite <- C'. apply good_ext; auto.
      intros r H. apply W2; [apply (inv_ref w logs j (kd', s2) r I Y H)|].
      intros H'. apply N. symmetry. apply (I3 k j (kd, s) (kd', s2) r); auto.
  - intros k1 k2 c1 c2 r. rewrite !put_coll_nth. intros E1 E2 H1 H2.
    destruct (Nat.eqb_spec k1 k) as [->|N1], (Nat.eqb_spec k2 k) as [->|N2]; auto.
    + exfalso. rewrite E in E1. injection E1 as <-. cbn in H1. apply W3 in H1 as [H1|H1].
      * apply N2. symmetry. apply (I3 k k2 (kd, s) c2 r); auto.
      * pose proof (inv_ref w logs k2 c2 r I E2 H2). lia.
    + exfalso. rewrite E in E2. injection E2 as <-. cbn in H2. apply W3 in H2 as [H2|H2].
      * apply N1. apply (I3 k1 k c1 (kd, s) r); auto.
      * pose proof (inv_ref w logs k1 c1 r I E1 H1). lia.
    + apply (I3 k1 k2 c1 c2 r); auto.
Qed.

Lemma inv_snoc w logs kd h' s' new : inv w logs -> (List.length (w_heap w) <= List.length h')%nat ->
  (forall r, (r < List.length (w_heap w))%nat -> deref h' r = deref (w_heap w) r) ->
  (forall r, In r (map snd s') -> (List.length (w_heap w) <= r)%nat) ->
  good h' s' -> cont h' s' = grouped new ->
  inv (mkWorld h' (w_colls w ++ [(kd, s')])) (logs ++ [new]).
Proof.
  intros I L D R G C. pose proof (inv_heap w logs h' I L D) as J. pose proof J as (J1 & J2 & J3).
  cbn [w_colls w_heap] in *.
  assert (forall k (c : kind * subsets), nth_error (w_colls w ++ [(kd, s')]) k = Some c ->
    nth_error (w_colls w) k = Some c \/ (k = List.length (w_colls w) /\ c = (kd, s'))) as S.
  { intros k c H. destruct (Nat.lt_ge_cases k (List.length (w_colls w))) as [Lk|Lk].
    - rewrite nth_error_app1 in H by auto. auto.
    - rewrite nth_error_app2 in H by auto. destruct (k - List.length (w_colls w))%nat as [|n] eqn:Q.
      + right. split; [lia|]. cbn in H. congruence.
      + cbn in H. destruct n; discriminate. }
  split; [|split]; cbn [w_colls w_heap].
  - rewrite !app_length. cbn. lia.
  - intros k kd2 s2 l E X. apply S in E as [E|[-> E]].
    + rewrite nth_error_app1 in X by (rewrite <- J1; apply nth_error_Some; congruence). eauto.
    + injection E as -> ->. rewrite J1, nth_error_app2, Nat.sub_diag in X by auto. cbn in X. injection X as <-.
      auto.
  - intros k1 k2 c1 c2 r E1 E2 H1 H2. apply S in E1 as [E1|[-> ->]], E2 as [E2|[-> ->]]; auto.
    + apply (J3 k1 k2 c1 c2 r); auto.
    + exfalso. cbn in H2. apply R in H2. pose proof (inv_ref w logs k1 c1 r I E1 H1). lia.
    + exfalso. cbn in H1. apply R in H1. pose proof (inv_ref w logs k2 c2 r I E2 H2). lia.
Qed.

Lemma subset_add_cont h s r p : good h s ->
  good (cs_add_processor h r p) s /\
  cont (cs_add_processor h r p) s =
    gadds (cont h s) (map (fun xy => (xy, p)) (map fst (filter (fun xr => Nat.eqb (snd xr) r) s))).
Proof.
  intros G. destruct (in_dec Nat.eq_dec r (map snd s)) as [I|I].
  - apply in_map_iff in I as ([xy r'] & E & I). cbn in E. subst r'.
    destruct (put_cont h s xy r p G I) as [A B]. split; auto. rewrite B.
    assert (filter (fun xr => Nat.eqb (snd xr) r) s = [(xy, r)]) as ->; [|reflexivity].
    destruct G as (_ & N & _). clear - N I. induction s as [|[k q] s IH]; [destruct I|]. cbn [map] in N.
    apply NoDup_cons_iff in N as [N1 N2]. cbn [filter snd].
    assert (forall s', ~ In r (map snd s') -> filter (fun xr : XY * ref => Nat.eqb (snd xr) r) s' = []) as F.
    { clear. induction s' as [|[k q] s' IH]; intros H; auto. cbn in *. destruct (Nat.eqb_spec q r); [tauto|auto]. }
    destruct I as [I|I].
    + injection I as -> ->. rewrite Nat.eqb_refl. f_equal. apply F. auto.
    + destruct (Nat.eqb_spec q r) as [->|D]; [|apply IH; auto].
      exfalso. apply N1. apply in_map_iff. exists (xy, r). auto.
  - assert (filter (fun xr => Nat.eqb (snd xr) r) s = []) as ->.
    { clear - I. induction s as [|[k q] s IH]; auto. cbn in *. destruct (Nat.eqb_spec q r); [tauto|auto]. }
    cbn. apply good_ext; auto.
    + unfold cs_add_processor. rewrite put_length. auto.
    + intros q H. apply deref_put_other. intros ->. auto.
Qed.

Lemma flat_map_filter {A B} (f : B -> bool) (g : A -> list B) l :
  filter f (flat_map g l) = flat_map (fun a => filter f (g a)) l.
Proof. induction l as [|a l IH]; cbn; auto. rewrite filter_app, IH. auto. Qed.

Lemma filter_map_comm {A B} (f : B -> bool) (g : A -> B) l : filter f (map g l) = map g (filter (fun a => f (g a)) l).
Proof. induction l as [|a l IH]; cbn; auto. destruct (f (g a)); cbn; rewrite IH; auto. Qed.

Lemma inter_log h a b la lb : cont h a = grouped la -> cont h b = grouped lb ->
  flat_map (inter_of h b) a = filter (in_log lb) (listing la).
Proof.
  intros A B. unfold listing. rewrite <- A. rewrite flat_map_filter. unfold cont.
  rewrite !flat_map_concat_map, map_map. f_equal. apply map_ext. intros [xy r]. cbn [fst snd].
  rewrite filter_map_comm. unfold inter_of. cbn [fst snd].
  pose proof (cont_get h b xy) as G. rewrite B in G.
  assert (forall p, in_log lb (xy, p) = match dget xy_eqb b xy with
    | None => false | Some q => zmem (cs_ids (deref h q)) p end) as K.
  { intros p. unfold in_log. destruct (in_dec core_dec (xy, p) lb) as [I|I].
    - apply grouped_has in I as (ps & E & H). rewrite G in E. destruct (dget xy_eqb b xy); [|discriminate].
      cbn in E. injection E as <-. symmetry. apply zmem_in. auto.
    - destruct (dget xy_eqb b xy) as [q|]; auto. symmetry. apply zmem_false. intros H. apply I.
      apply grouped_has. eexists. split; [exact G|auto]. }
  destruct (dget xy_eqb b xy) as [q|] eqn:E.
  - f_equal. apply filter_ext. intros p. rewrite K. auto.
  - assert (filter (fun p => in_log lb (xy, p)) (cs_ids (deref h r)) = []) as ->; auto.
    generalize (cs_ids (deref h r)). induction l as [|p l IH]; auto. cbn. rewrite K. auto.
Qed.

Lemma cont_nodup h s l : cont h s = grouped l -> forall xy r, In (xy, r) s -> NoDup (cs_ids (deref h r)).
Proof.
  intros C xy r H. assert (In (xy, cs_ids (deref h r)) (cont h s)) as K.
  { apply in_map_iff. exists (xy, r). auto. }
  rewrite C in K. unfold grouped in K. apply in_map_iff in K as (k & E & _). injection E as -> <-. apply firsts_nodup.
Qed.

Lemma inv_step w logs o : inv w logs -> inv (fst (step w o)) (log_step w logs o).
Proof.
  intros I. pose proof I as (I1 & I2 & I3).
  assert (forall k c, nth_error (w_colls w) k = Some c -> exists l, nth_error logs k = Some l) as LG.
  { intros k c E. destruct (nth_error logs k) eqn:X; eauto. apply nth_error_None in X.
    assert (k < List.length (w_colls w))%nat by (apply nth_error_Some; congruence). lia. }
  destruct o as [x y ps|r p|r other|rs|rs|k x y p|k r|k rs|k x y|a b]; cbn [step log_step].
  - rewrite new_subset. apply inv_heap; auto.
    + cbn. rewrite app_length. lia.
    + intros q L. apply deref_app_old. auto.
  - cbn [fst]. split; [|split]; cbn [w_colls w_heap].
    + rewrite combine_length. auto.
    + intros k kd s l E X. destruct (LG _ _ E) as [l0 Q].
      rewrite combine_nth in X. change (option_map (fun x : list core => x ++ map (fun xy => (xy, p)) (handed_out w k r))
        (nth_error logs k) = Some l) in X. rewrite Q in X.
      assert (l = l0 ++ map (fun xy => (xy, p)) (handed_out w k r)) as -> by (cbn [option_map] in X; congruence).
      destruct (I2 _ _ _ _ E Q) as [G C].
      destruct (subset_add_cont (w_heap w) s r p G) as [G' C']. split; auto. rewrite C', C, grouped_app.
      unfold handed_out. rewrite E. reflexivity.
    + auto.
  - destruct (Nat.lt_ge_cases other (List.length (w_heap w))) as [L|L].
    + rewrite cs_intersect_eq by auto. apply inv_heap; auto.
      * cbn. rewrite app_length. lia.
      * intros q Lq. apply deref_app_old. auto.
    + cbn [fst]. assert (forall l h, (List.length (w_heap w) < List.length h)%nat ->
        (forall q, (q < List.length (w_heap w))%nat -> deref h q = deref (w_heap w) q) ->
        inv (mkWorld (fold_left (fun h p => if cs_contains h other p then
          cs_add_processor h (List.length (w_heap w)) p else h) l h) (w_colls w)) logs) as K.
      { induction l as [|p l IH]; intros h Lh D; cbn [fold_left].
        - apply inv_heap; auto. lia.
        - destruct (cs_contains h other p); [|apply IH; auto].
          apply IH; unfold cs_add_processor; [rewrite put_length; auto|]. intros q Lq.
          rewrite deref_put_other; auto. lia. }
      unfold cs_intersect. rewrite new_subset. cbn [fst]. apply K.
      * rewrite app_length. cbn. lia.
      * intros q Lq. apply deref_app_old. auto.
  - destruct (new_subsets (w_heap w) rs) as [h' s'] eqn:E. cbn [fst].
    destruct (new_coll _ _ _ _ E) as (G & C & (W1 & W2 & W3 & _)). apply inv_snoc; auto.
    intros q H. apply W3 in H as [[]|H]; auto.
  - rewrite frozen_same. destruct (new_subsets (w_heap w) rs) as [h' s'] eqn:E. cbn [fst].
    destruct (new_coll _ _ _ _ E) as (G & C & (W1 & W2 & W3 & _)). apply inv_snoc; auto.
    intros q H. apply W3 in H as [[]|H]; auto.
  - unfold add_to, is_plain. destruct (nth_error (w_colls w) k) as [[[] s]|] eqn:E; auto.
    destruct (s_add_processor (w_heap w) s x y p) as [h' s'] eqn:X. cbn [fst].
    destruct (LG _ _ E) as [l El]. destruct (I2 _ _ _ _ E El) as [G C].
    destruct (add_proc _ _ _ _ _ _ _ G X) as (G' & C' & W). apply (inv_put w logs k Plain s); auto.
  - unfold add_to, is_plain. destruct (nth_error (w_colls w) k) as [[[] s]|] eqn:E; auto.
    destruct (s_add_core_subset (w_heap w) s r) as [h' s'] eqn:X. cbn [fst].
    destruct (LG _ _ E) as [l El]. destruct (I2 _ _ _ _ E El) as [G C].
    destruct (add_subset _ _ _ _ _ G X) as (G' & C' & W). apply (inv_put w logs k Plain s); auto.
  - unfold add_to, is_plain. destruct (nth_error (w_colls w) k) as [[[] s]|] eqn:E; auto.
    destruct (s_add_core_subsets (w_heap w) s rs) as [h' s'] eqn:X. cbn [fst].
    destruct (LG _ _ E) as [l El]. destruct (I2 _ _ _ _ E El) as [G C].
    destruct (add_subsets _ _ _ _ _ G X) as (G' & C' & W). apply (inv_put w logs k Plain s); auto.
  - destruct (nth_error (w_colls w) k) as [[kd s]|] eqn:E; auto. cbn [fst]. unfold s_for_chip.
    destruct (dget xy_eqb s (x, y)); [destruct w; auto|]. rewrite new_subset. cbn [fst]. apply inv_heap; auto.
    + rewrite app_length. lia.
    + intros q L. apply deref_app_old. auto.
  - unfold exists_coll. destruct (nth_error (w_colls w) a) as [[ka sa]|] eqn:Ea; [|auto].
    destruct (nth_error (w_colls w) b) as [[kb sb]|] eqn:Eb; [|auto]. cbn [andb].
    destruct (LG _ _ Ea) as [la La], (LG _ _ Eb) as [lb Lb].
    destruct (I2 _ _ _ _ Ea La) as [Ga Ca], (I2 _ _ _ _ Eb Lb) as [Gb Cb].
    destruct (s_intersect (w_heap w) sa sb) as [h' s'] eqn:X. cbn [fst].
    destruct (intersect_ok _ _ _ _ _ Ga Gb (cont_nodup _ _ _ Ca) X) as (G & C & L & D & R).
    apply inv_snoc; auto. rewrite C, (inter_log _ _ _ _ _ Ca Cb).
    rewrite (nth_error_nth _ _ [] La), (nth_error_nth _ _ [] Lb). symmetry. apply (grouped_app []).
Qed.

Lemma logs_snoc ops o : logs_of (ops ++ [o]) = log_step (run ops) (logs_of ops) o.
Proof.
  unfold logs_of, run. rewrite fold_left_app. cbn [fold_left fst snd]. f_equal.
  generalize (mkWorld [] []) (@nil (list core)). induction ops as [|a ops IH]; intros w l; cbn; auto.
Qed.

Lemma run_snoc ops o : run (ops ++ [o]) = fst (step (run ops) o).
Proof. unfold run. rewrite fold_left_app. reflexivity. Qed.

Lemma run_inv ops : inv (run ops) (logs_of ops).
Proof.
  induction ops as [|o ops IH] using rev_ind.
  - split; [reflexivity|]. split; [intros [|k]; discriminate|]. intros [|k]; discriminate.
  - rewrite logs_snoc, run_snoc. apply inv_step. auto.
Qed.
