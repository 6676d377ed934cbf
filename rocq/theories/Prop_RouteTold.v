(** C96: what the exceptions of routing entries and routes say. *)
From Coq Require Import Lia ZifyBool String Ascii Permutation.
From Verif Require Import Model_Py Model_Core Model_Str Model_Virtual Model_Text Model_Told Model_ItemText
  Model_Routing Model_Repr Model_Fault Model_RouteTold Spec_Routing Proof_Py Proof_Str Proof_Board Proof_Routing Proof_Repr.
Open Scope string_scope.
Open Scope list_scope.
Open Scope Z_scope.

Definition unworded {A} (r : answer A) : res A := match r with inl a => Ok a | inr (e, _) => Err e end.
(** A way of listing sets *)
Definition lists (order : list Z -> list Z) : Prop := forall s, Permutation (order s) s.

Lemma lists_in order s x : lists order -> (In x (order s) <-> In x s).
Proof. intros O. split; apply Permutation_in; [|apply Permutation_sym]; apply O. Qed.

Lemma fold_checked (bad : Z -> bool) (x : exn * string) (g : Z -> Z) l :
  (forall p, bad p = false -> 0 <= g p) -> forall r,
  fold_answer (fun r p => if bad p then inr x else abind (shl1_told (g p)) (fun b => inl (Z.lor r b))) l r =
  if existsb bad l then inr x else inl (fold_left (fun r p => Z.lor r (Z.shiftl 1 (g p))) l r).
Proof.
  intros G. induction l as [|a l IH]; intros r; cbn [fold_answer existsb fold_left]; auto.
  destruct (bad a) eqn:B; auto. cbn [orb]. unfold shl1_told at 1.
  replace (g a <? 0) with false by (specialize (G a B); lia). cbn [abind]. apply IH.
Qed.
Lemma fold_ext {A B} (f g : B -> A -> answer B) l : (forall b a, f b a = g b a) -> forall b, fold_answer f l b = fold_answer g l b.
Proof.
  intros E. induction l as [|a l IH]; intros b; cbn; auto. rewrite E. destruct (g b a); cbn; auto.
Qed.
Lemma fold_shift (g : Z -> Z) l r :
  fold_answer (fun r p => abind (shl1_told (g p)) (fun b => inl (Z.lor r b))) l r =
  if existsb (fun p => g p <? 0) l then inr (ValueError, "negative shift count")
  else inl (fold_left (fun r p => Z.lor r (Z.shiftl 1 (g p))) l r).
Proof.
  rewrite <- (fold_checked (fun p => g p <? 0)) by (intros; lia). apply fold_ext. intros b a.
  destruct (g a <? 0) eqn:Q; auto. unfold shl1_told. rewrite Q. reflexivity.
Qed.
Lemma fold_shift_res (g : Z -> Z) l : forall r,
  fold_res (fun r p => do b <- shl1 (g p) ; Ok (Z.lor r b)) l r =
  if existsb (fun p => g p <? 0) l then Err ValueError
  else Ok (fold_left (fun r p => Z.lor r (Z.shiftl 1 (g p))) l r).
Proof.
  induction l as [|a l IH]; intros r; cbn [fold_res existsb fold_left]; auto.
  unfold shl1 at 1. destruct (g a <? 0); cbn [bind orb]; auto.
Qed.

Lemma calc_told order ps ls : lists order ->
  calc_route_told order ps ls =
  match calc_spinnaker_route ps ls with Ok r => inl r | Err _ => inr (ValueError, "negative shift count") end.
Proof.
  intros O. rewrite (calc_route_same ps ls (order ps) (order ls)) by (intros x; symmetry; apply lists_in; auto).
  unfold calc_route_told, calc_spinnaker_route. rewrite (fold_shift (fun p => MAX_LINKS_PER_ROUTER + p)).
  rewrite (fold_shift_res (fun p => MAX_LINKS_PER_ROUTER + p)). destruct (existsb _ (order ps)); cbn [abind bind]; auto.
  rewrite (fold_shift (fun p => p)), (fold_shift_res (fun p => p)). destruct (existsb _ (order ls)); auto.
Qed.

Lemma convert_cases order e : lists order ->
  convert_told order e =
  if existsb (fun p => (p >=? 18) || (p <? 0)) (processor_ids e)
  then refusal_told (InvalidParameterE "route.processor_ids" (set_text order (processor_ids e)) "Processor IDs must be between 0 and 17")
  else if existsb (fun l => (l >=? 6) || (l <? 0)) (link_ids e)
  then refusal_told (InvalidParameterE "route.link_ids" (set_text order (link_ids e)) "Link IDs must be between 0 and 5")
  else match calc_spinnaker_route (processor_ids e) (link_ids e) with Ok r => inl r | Err x => inr (x, "") end.
Proof.
  intros O. unfold convert_told, refusal_told.
  assert (X : forall b s, existsb b (order s) = existsb b s).
  { intros b s. apply Bool.eq_iff_eq_true. rewrite !existsb_exists. split; intros (x & I & B); exists x; split; auto;
      apply (lists_in order s x O); auto. }
  rewrite (fold_checked (fun p => (p >=? MAX_CORES_PER_ROUTER) || (p <? 0)) _ (fun p => MAX_LINKS_PER_ROUTER + p))
    by (unfold MAX_LINKS_PER_ROUTER; intros; lia).
  rewrite X. destruct (existsb _ (processor_ids e)) eqn:P; [reflexivity|]. cbn [abind].
  rewrite (fold_checked (fun p => (p >=? MAX_LINKS_PER_ROUTER) || (p <? 0)) _ (fun p => p)) by (intros; lia).
  rewrite X. destruct (existsb _ (link_ids e)) eqn:L; [reflexivity|].
  rewrite (calc_route_same (processor_ids e) (link_ids e) (order (processor_ids e)) (order (link_ids e)))
    by (intros x; symmetry; apply lists_in; auto).
  unfold calc_spinnaker_route.
  rewrite (fold_shift_res (fun p => MAX_LINKS_PER_ROUTER + p)), X.
  assert (P' : existsb (fun p => MAX_LINKS_PER_ROUTER + p <? 0) (processor_ids e) = false).
  { apply Bool.not_true_iff_false. rewrite existsb_exists. intros (p & I & B).
    apply Bool.not_true_iff_false in P. apply P. rewrite existsb_exists. exists p. split; auto.
    unfold MAX_LINKS_PER_ROUTER, MAX_CORES_PER_ROUTER in *. lia. }
  rewrite P'. cbn [bind]. rewrite (fold_shift_res (fun p => p)), X.
  assert (L' : existsb (fun p => p <? 0) (link_ids e) = false).
  { apply Bool.not_true_iff_false. rewrite existsb_exists. intros (p & I & B).
    apply Bool.not_true_iff_false in L. apply L. rewrite existsb_exists. exists p. split; auto.
    unfold MAX_LINKS_PER_ROUTER, MAX_CORES_PER_ROUTER in *. lia. }
  rewrite L'. reflexivity.
Qed.

Theorem C96_same_routes : forall order, lists order ->
  (forall ps ls ip il d r, unworded (new_entry_told order ps ls ip il d r) = new_entry ps ls ip il d r) /\
  (forall e, unworded (convert_told order e) = convert_entry_to_route e).
Proof.
  intros order O. split.
  - intros ps ls ip il d r. unfold new_entry_told, new_entry. destruct r as [n|].
    + destruct ps, ls, il, ip; reflexivity.
    + destruct ps as [P|], ls as [L|], d as [b|]; try reflexivity. rewrite calc_told by auto.
      destruct (calc_route_cases (frozenset (ids_list P)) (frozenset (ids_list L))) as [[A B]|A].
      * destruct (calc_route_ok _ _ A B) as (r & -> & _). cbn [abind bind].
        destruct il, ip; try reflexivity. destruct (ids_list L) as [|l [|]]; reflexivity.
      * rewrite calc_route_err by auto. reflexivity.
  - intros e. rewrite convert_cases by auto. unfold convert_entry_to_route.
    assert (D : routable_ids (processor_ids e) (link_ids e) <->
      existsb (fun p => (p >=? 18) || (p <? 0)) (processor_ids e) = false /\
      existsb (fun l => (l >=? 6) || (l <? 0)) (link_ids e) = false).
    { unfold routable_ids. rewrite <- !Bool.not_true_iff_false, !existsb_exists. split.
      - intros [P L]. split; intros (x & I & B); [apply P in I|apply L in I]; lia.
      - intros [P L]. split; intros x I.
        + destruct ((x >=? 18) || (x <? 0)) eqn:B; [exfalso; eauto|lia].
        + destruct ((x >=? 6) || (x <? 0)) eqn:B; [exfalso; eauto|lia]. }
    destruct (existsb _ (processor_ids e)) eqn:P.
    { rewrite convert_bad; [reflexivity|]. intros R. apply D in R as [R _]. congruence. }
    destruct (existsb _ (link_ids e)) eqn:L.
    { rewrite convert_bad; [reflexivity|]. intros R. apply D in R as [_ R]. congruence. }
    rewrite convert_calc by (apply D; auto). destruct (calc_spinnaker_route _ _); reflexivity.
Qed.
Print Assumptions C96_same_routes.

(** Ids as text *)
Definition braces (ids : list Z) : string := cat ["frozenset({"; String.concat ", " (map dec ids); "})"].

(** What is listed: each member of the set once. *)
Theorem C96_listed_once : forall order e, lists order -> made_entry e ->
  (NoDup (order (processor_ids e)) /\ forall p, In p (order (processor_ids e)) <-> In p (processor_ids e)) /\
  (NoDup (order (link_ids e)) /\ forall l, In l (order (link_ids e)) <-> In l (link_ids e)).
Proof.
  intros order e O M. destruct (ids_nodup e M) as [P L].
  split; (split; [eapply Permutation_NoDup; [apply Permutation_sym, O|auto]|intros x; apply lists_in; auto]).
Qed.
Print Assumptions C96_listed_once.

Theorem C96_ids_out_of_range : forall order e, lists order -> made_entry e -> forall x t,
  convert_told order e = inr (x, t) <->
  x = InvalidParameter /\
  ((exists p, In p (processor_ids e) /\ ~ 0 <= p <= 17) /\
   t = cat ["It is invalid to set route.processor_ids to "; braces (order (processor_ids e));
            ": Processor IDs must be between 0 and 17"]
   \/
   (forall p, In p (processor_ids e) -> 0 <= p <= 17) /\ (exists l, In l (link_ids e) /\ ~ 0 <= l <= 5) /\
   t = cat ["It is invalid to set route.link_ids to "; braces (order (link_ids e));
            ": Link IDs must be between 0 and 5"]).
Proof.
  intros order e O M x t. rewrite convert_cases by auto.
  assert (N : forall s, s <> [] -> set_text order s = braces (order s)).
  { intros s NE. unfold set_text, braces. destruct (order s) as [|a l] eqn:Q; auto. exfalso. apply NE.
    specialize (O s). rewrite Q in O. apply Permutation_nil in O. auto. }
  assert (P : existsb (fun p => (p >=? 18) || (p <? 0)) (processor_ids e) = true <-> exists p, In p (processor_ids e) /\ ~ 0 <= p <= 17).
  { rewrite existsb_exists. split; intros (p & I & B); exists p; (split; [auto|lia]). }
  assert (L : existsb (fun p => (p >=? 6) || (p <? 0)) (link_ids e) = true <-> exists p, In p (link_ids e) /\ ~ 0 <= p <= 5).
  { rewrite existsb_exists. split; intros (p & I & B); exists p; (split; [auto|lia]). }
  assert (T : forall a b c, raised_text (InvalidParameterE a b c) = cat ["It is invalid to set "; a; " to "; b; ": "; c]) by reflexivity.
  unfold refusal_told. rewrite !T. clear T.
  destruct (existsb _ (processor_ids e)).
  - assert (E : exists p, In p (processor_ids e) /\ ~ 0 <= p <= 17) by (apply P; auto).
    rewrite N by (intros Z0; rewrite Z0 in E; destruct E as (? & [] & _)). clear N. cbn [raised_class]. split.
    + intros H. split; [congruence|]. left. split; [auto|].
      apply (f_equal (fun r => match r with inr p => snd p | inl _ => t end)) in H. cbn [snd] in H. rewrite <- H.
      clear. cbn. rewrite ?app_assoc_s. reflexivity.
    + intros (-> & [[_ ->]|[F _]]).
      * f_equal; f_equal; cbn; rewrite ?app_assoc_s; reflexivity.
      * destruct E as (p & I & B). apply F in I. lia.
  - assert (F : forall p, In p (processor_ids e) -> 0 <= p <= 17).
    { intros p I. destruct (Z.le_gt_cases 0 p), (Z.le_gt_cases p 17); try lia;
        exfalso; enough (false = true) by discriminate; apply P; exists p; split; auto; lia. }
    destruct (existsb _ (link_ids e)).
    + assert (E : exists p, In p (link_ids e) /\ ~ 0 <= p <= 5) by (apply L; auto).
      rewrite (N (link_ids e)) by (intros Z0; rewrite Z0 in E; destruct E as (? & [] & _)). cbn [raised_class]. split.
      * intros H. split; [congruence|]. right. split; [auto|]. split; [auto|].
        apply (f_equal (fun r => match r with inr p => snd p | inl _ => t end)) in H. cbn [snd] in H. rewrite <- H.
        clear. cbn. rewrite ?app_assoc_s. reflexivity.
      * intros (-> & [[(p & I & B) _]|(_ & _ & ->)]); [apply F in I; lia|].
        f_equal; f_equal; cbn; rewrite ?app_assoc_s; reflexivity.
    + destruct (calc_route_ok (processor_ids e) (link_ids e)) as (r & -> & _).
      { intros p I. apply F in I. lia. }
      { intros l I. destruct (Z.le_gt_cases 0 l); auto. exfalso. enough (false = true) by discriminate. apply L.
        exists l. split; auto. lia. }
      split; [discriminate|]. intros (_ & [[(p & I & B) _]|(_ & E & _)]); [apply F in I; lia|].
      apply L in E. discriminate E.
Qed.
Print Assumptions C96_ids_out_of_range.

(** The arguments of a constructor that are not meant to go together *)
Definition misused (ps ls : option ids) (ip il : option Z) (d : option bool) (r : option Z) : Prop :=
  r = None /\ (ps = None \/ ls = None \/ d <> None) \/
  r <> None /\ (ps <> None \/ ls <> None \/ ip <> None \/ il <> None).

Theorem C96_entry : forall order, lists order -> forall ps ls ip il d r x t,
  new_entry_told order ps ls ip il d r = inr (x, t) <->
  x = AssertionError /\ t = "" /\ misused ps ls ip il d r \/
  ~ misused ps ls ip il d r /\ exists procs links, ps = Some procs /\ ls = Some links /\
    let impossible := (exists p, In p (ids_list procs) /\ p < -6) \/ (exists l, In l (ids_list links) /\ l < 0) in
    (x = ValueError /\ t = "negative shift count" /\ impossible \/
     ~ impossible /\ x = InvalidParameter /\ il <> None /\ exists p, ip = Some p /\
       t = cat ["It is invalid to set incoming_processor to "; dec p;
                ": The incoming direction for a path can only be from either one link or one processors, not both"]).
Proof.
  intros order O ps ls ip il d r x t.
  destruct r as [n|].
  - unfold new_entry_told, misused. split.
    + intros H. left.
      assert (G : ps <> None \/ ls <> None \/ ip <> None \/ il <> None).
      { destruct ps, ls, il, ip; try discriminate H; clear H;
          first [left; discriminate|right; left; discriminate|right; right; left; discriminate|right; right; right; discriminate]. }
      split; [|split].
      * destruct ps, ls, il, ip; congruence.
      * destruct ps, ls, il, ip; congruence.
      * right. split; [discriminate|auto].
    + intros [(-> & -> & [[F _]|[_ G]])|(N & procs & links & -> & -> & _)]; [discriminate F| |].
      * destruct ps, ls, il, ip; try reflexivity. exfalso. destruct G as [G|[G|[G|G]]]; auto.
      * exfalso. apply N. right. split; [discriminate|]. left. discriminate.
  - assert (MI : misused ps ls ip il d None <-> (ps = None \/ ls = None \/ d <> None)).
    { unfold misused. split; [intros [[_ G]|[G _]]; [auto|congruence]|auto]. }
    rewrite MI. clear MI.
    assert (GC : (exists P L, ps = Some P /\ ls = Some L /\ d = None) \/
                 ((ps = None \/ ls = None \/ d <> None) /\ new_entry_told order ps ls ip il d None = inr (AssertionError, ""))).
    { destruct ps as [P|]; [|right; split; auto]. destruct ls as [L|]; [|right; split; auto].
      destruct d as [b|]; [right; split; [right; right; discriminate|reflexivity]|]. left. eauto. }
    destruct GC as [(P & L & -> & -> & ->)|[G ->]].
    2:{ split.
        - intros H. left. split; [congruence|]. split; [congruence|auto].
        - intros [(-> & -> & _)|(N & _)]; [reflexivity|]. exfalso; auto. }
    unfold new_entry_told. rewrite calc_told by auto. cbv zeta.
    assert (F : forall s y, In y (frozenset s) <-> In y s) by (intros; apply frozenset_in).
    destruct (calc_route_cases (frozenset (ids_list P)) (frozenset (ids_list L))) as [[A B]|A].
    + destruct (calc_route_ok _ _ A B) as (r & -> & _). cbn [abind].
      assert (NI : ~ ((exists p, In p (ids_list P) /\ p < -6) \/ (exists l, In l (ids_list L) /\ l < 0))).
      { intros [(p & I & Q)|(l & I & Q)]; [apply (proj2 (F _ _)), A in I|apply (proj2 (F _ _)), B in I]; lia. }
      destruct il as [i|], ip as [p|].
      * unfold refusal_told. cbn [raised_class]. split.
        -- intros H. right. split; [intros [Q|[Q|Q]]; congruence|]. exists P, L. split; auto. split; auto. right.
           split; auto. split; [congruence|]. split; [discriminate|]. exists p. split; auto.
           apply (f_equal (fun r => match r with inr p => snd p | inl _ => t end)) in H. cbn [snd] in H. rewrite <- H.
           clear. cbn. rewrite ?app_assoc_s. reflexivity.
        -- intros [(_ & _ & [Q|[Q|Q]])|(_ & P' & L' & EP & EL & [(_ & _ & I)|(_ & -> & _ & p' & EQ & ->)])]; try congruence.
           ++ injection EP as <-. injection EL as <-. contradiction.
           ++ injection EQ as <-. f_equal; f_equal; cbn; rewrite ?app_assoc_s; reflexivity.
      * split; [destruct (ids_list L) as [|? [|]]; discriminate|].
        intros [(_ & _ & [Q|[Q|Q]])|(_ & P' & L' & EP & EL & [(_ & _ & I)|(_ & _ & _ & p' & EQ & _)])]; try congruence.
        injection EP as <-. injection EL as <-. contradiction.
      * split; [discriminate|].
        intros [(_ & _ & [Q|[Q|Q]])|(_ & P' & L' & EP & EL & [(_ & _ & I)|(_ & _ & Q & _)])]; try congruence.
        injection EP as <-. injection EL as <-. contradiction.
      * split; [discriminate|].
        intros [(_ & _ & [Q|[Q|Q]])|(_ & P' & L' & EP & EL & [(_ & _ & I)|(_ & _ & Q & _)])]; try congruence.
        injection EP as <-. injection EL as <-. contradiction.
    + rewrite calc_route_err by auto. cbn [abind].
      assert (I : (exists p, In p (ids_list P) /\ p < -6) \/ (exists l, In l (ids_list L) /\ l < 0)).
      { destruct A as [(p & I & Q)|(l & I & Q)]; apply (proj1 (F _ _)) in I; [left; exists p|right; exists l]; auto. }
      split.
      * intros H. right. split; [intros [Q|[Q|Q]]; congruence|]. exists P, L. split; auto. split; auto. left.
        split; [congruence|]. split; [congruence|auto].
      * intros [(_ & _ & [Q|[Q|Q]])|(_ & P' & L' & EP & EL & [(-> & -> & _)|(N & _)])]; try congruence.
        exfalso. injection EP as <-. injection EL as <-. contradiction.
Qed.
Print Assumptions C96_entry.

(** An entry with the processors 20 and 3 and the link 7, the identity and the reverse as orders *)
Example C96_case :
  exists e, new_entry_told (@rev Z) (Some (ManyIds [20; 3; 20])) (Some (OneId 7)) None None None None = inl e /\
    made_entry e /\ lists (@rev Z) /\ lists (fun s => s) /\
    convert_told (@rev Z) e = inr (InvalidParameter,
      "It is invalid to set route.processor_ids to frozenset({3, 20}): Processor IDs must be between 0 and 17") /\
    convert_told (fun s => s) e = inr (InvalidParameter,
      "It is invalid to set route.processor_ids to frozenset({20, 3}): Processor IDs must be between 0 and 17") /\
    new_entry_told (@rev Z) (Some (OneId 3)) (Some (OneId (-1))) None None None None = inr (ValueError, "negative shift count") /\
    new_entry_told (@rev Z) (Some (OneId 3)) None None None None None = inr (AssertionError, "") /\
    new_entry_told (@rev Z) (Some (OneId 3)) (Some (OneId 1)) (Some 4) (Some 5) None None = inr (InvalidParameter,
      "It is invalid to set incoming_processor to 4: The incoming direction for a path can only be from either one link or one processors, not both").
Proof.
  eexists. split; [reflexivity|]. split.
  { apply (made_new (Some (ManyIds [20; 3; 20])) (Some (OneId 7)) None None None None). reflexivity. }
  split; [intros s; apply Permutation_sym, Permutation_rev|]. split; [intros s; apply Permutation_refl|].
  repeat (split; [vm_compute; reflexivity|]). vm_compute. reflexivity.
Qed.
