(** C99: what the data view and writer say when they refuse, over every history of calls. *)
From Coq Require Import String Lia.
From Verif Require Import Model_Py Model_Wrap Model_Version Model_Core Model_Machine Model_Factory Model_Virtual Model_Text
  Model_View Model_Told Model_ViewTold Spec_View Spec_Told Spec_ViewTold Proof_View Prop_View Prop_Physical Prop_Told.
Open Scope string_scope.
Open Scope list_scope.
Open Scope Z_scope.

Lemma forget_tmap {A} (f : A -> value) (r : told A) : without_texts (tmap f r) = vmap f (without_texts r).
Proof. destruct r as [l [a|[e t]]]; reflexivity. Qed.

Lemma forget_get_version e d d' r : get_machine_version_told e d = (d', r) ->
  get_machine_version e d = (d', without_texts r).
Proof.
  unfold get_machine_version_told, get_machine_version. destruct (d_version d); [intros [= <- <-]; reflexivity|].
  rewrite <- forget_factory. destruct (version_factory_told _ _) as [l [v|[x t]]]; cbn.
  - destruct (dict_true _ && dict_true _); intros [= <- <-]; reflexivity.
  - intros [= <- <-]; reflexivity.
Qed.

Lemma forget_of_res {A} (r : res A) : without_texts (of_res r) = r.
Proof. destruct r; reflexivity. Qed.

(** It is the view of C49-C52 that says this. *)
Theorem C99_same_view :
  (forall e d o, plain_step e d o =
     match plain_told e d o with Some (d', t) => Some (d', without_texts t) | None => None end) /\
  (forall e d tr d' r, get_run e d tr d' r <->
     exists t, get_machine_told e d tr d' t /\ without_texts t = r) /\
  (forall x y t, without_texts (get_chip_at_told x y t) =
     match without_texts t with Ok m => getitem m (x, y) | Err ex => Err ex end).
Proof.
  split; [|split].
  - intros e d o.
    assert (D : match plain_step e d o with Some (d, r) => Some (d, r) | None => None end =
      match match plain_step e d o with Some (d, r) => Some (d, of_res r) | None => None end with
      | Some (d', t) => Some (d', without_texts t) | None => None end).
    { destruct (plain_step e d o) as [[d' r]|]; [rewrite forget_of_res|]; reflexivity. }
    assert (E : plain_step e d o = match plain_step e d o with Some (d, r) => Some (d, r) | None => None end)
      by (destruct (plain_step e d o) as [[d' r]|]; reflexivity).
    destruct o; try (rewrite E at 1; exact D); clear D E.
    + unfold plain_step, plain_told. destruct (get_machine_version_told e d) as [d' r] eqn:G.
      rewrite (forget_get_version _ _ _ _ G), forget_tmap. reflexivity.
    + unfold plain_step, plain_told, set_v_to_p_map, set_v_to_p_map_told.
      destruct (dict_true (d_quad_map d)); [reflexivity|]. destruct (d_v_to_p d); reflexivity.
    + unfold plain_step, plain_told, get_physical_core_id, get_physical_core_id_told.
      destruct (d_v_to_p d) as [m|]; [|reflexivity]. unfold dgetitem.
      destruct (dget xy_eqb m xy) as [l|]; [|reflexivity]. cbn [bind]. destruct (py_index l p); reflexivity.
    + unfold plain_step, plain_told, get_physical_quad, get_physical_quad_told.
      assert (Q : forall q, vmap VQuad (dgetitem Z.eqb q p) = without_texts (tmap VQuad (quad_in q p))).
      { intros q. unfold dgetitem, quad_in. destruct (dget Z.eqb q p); reflexivity. }
      destruct (d_quad_map d) as [q|]; [rewrite Q; reflexivity|].
      destruct (get_machine_version_told e d) as [d' [l r]] eqn:G. rewrite (forget_get_version _ _ _ _ G).
      destruct r as [v|[x t]]; cbn [without_texts snd]; [|reflexivity].
      destruct (d_quad_map d') as [q|]; [|reflexivity].
      rewrite Q. unfold tbind. destruct (quad_in q p) as [l' [b|[x t]]]; reflexivity.
    + destruct m; reflexivity.
    + destruct g; reflexivity.
  - intros e d tr d' r. split.
    + intros H. inversion H; subst.
      * eexists. split; [apply THave; eassumption|reflexivity].
      * eexists. split; [apply TNone; eassumption|reflexivity].
      * destruct r0 as [[]|x].
        -- exists ([], match d_machine d' with None => inr (MachineExc, no_machine_made) | Some m => inl m end).
           split; [eapply TReturned; eassumption|]. destruct (d_machine d'); reflexivity.
        -- exists ([], inr (x, "")). split; [eapply TRaised; eassumption|reflexivity].
    + intros (t & H & <-). inversion H; subst.
      * apply GHave; assumption.
      * apply GNone; assumption.
      * eapply (GGen e d g tr d' (Err x)); eassumption.
      * replace (without_texts _) with (match Ok tt with Err x => Err x | Ok _ => match d_machine d' with None => Err MachineExc | Some m => Ok m end end : res machine)
          by (destruct (d_machine d'); reflexivity).
        apply (GGen e d g tr d' (Ok tt)); assumption.
  - intros x y [l [m|[e t]]]; [|reflexivity]. unfold get_chip_at_told, tbind, chip_in.
    cbn [without_texts snd]. destruct (getitem m (x, y)); reflexivity.
Qed.
Print Assumptions C99_same_view.

Lemma map_after_reset tr t : resets (op_of t) = true -> map_after (tr ++ [t]) = None.
Proof. intros R. rewrite map_after_snoc. destruct t as [[e o] r]. cbn in *. destruct o; try discriminate R; reflexivity. Qed.

Lemma map_after_keeps tr t : resets (op_of t) = false -> map_held tr -> map_held (tr ++ [t]).
Proof.
  unfold map_held. intros R (m & M). rewrite map_after_snoc. destruct t as [[e o] r]. cbn in *.
  destruct o; try discriminate R; eauto. destruct r; eauto.
Qed.

Lemma map_after_new tr e m r : map_after (tr ++ [(e, SetVtoP m, Ok r)]) = Some m.
Proof. rewrite map_after_snoc. reflexivity. Qed.

Lemma map_held_was_set tr : map_held tr <-> was_set tr.
Proof.
  split.
  - induction tr as [|t tr IH] using rev_ind; [intros (m & H); discriminate H|]. intros H.
    destruct (resets (op_of t)) eqn:R; [destruct H as (m & H); rewrite map_after_reset in H by exact R; discriminate H|].
    destruct t as [[e o] r].
    assert (N : (exists m v, o = SetVtoP m /\ r = Ok v) \/ map_held tr).
    { destruct H as (m & H). rewrite map_after_snoc in H. cbn in H, R. unfold map_held.
      destruct o; try discriminate R; eauto. destruct r; eauto. }
    destruct N as [(m & v & -> & ->)|N].
    + exists tr, e, m, v, []. split; [reflexivity|]. intros s [].
    + destruct (IH N) as (b & e1 & m1 & r1 & a & -> & F). exists b, e1, m1, r1, (a ++ [(e, o, r)]).
      split; [rewrite <- app_assoc; reflexivity|]. intros s S. apply in_app_or in S as [S|[<-|[]]]; auto.
  - intros (b & e & m & r & a & -> & F). induction a as [|t a IH] using rev_ind.
    + exists m. apply map_after_new.
    + rewrite app_comm_cons, app_assoc. apply map_after_keeps.
      * apply F. apply in_or_app. right. left. reflexivity.
      * apply IH. intros s S. apply F. apply in_or_app. left. exact S.
Qed.

Lemma quads_known_true tr d : reach tr d -> (dict_true (d_quad_map d) = true <-> quads_known tr).
Proof.
  intros R. destruct (reach_held _ _ R) as (V & _ & Q). unfold quads_known. rewrite Q, <- V.
  destruct (d_version d) as [v|]; [rewrite quads_true|]; split.
  - intros H. exists v. auto.
  - intros (w & [= ->] & H). exact H.
  - discriminate.
  - intros (w & H & _). discriminate H.
Qed.

Lemma map_held_some tr d : reach tr d -> (d_v_to_p d <> None <-> was_set tr).
Proof.
  intros R. destruct (reach_held _ _ R) as (_ & M & _). rewrite <- map_held_was_set. unfold map_held. rewrite M.
  destruct (map_after tr) as [m|]; split; intros H; eauto; try discriminate; [congruence|destruct H; discriminate].
Qed.

Lemma ids_held_true tr d : reach tr d -> (dict_true (d_v_to_p d) = true <-> ids_held tr).
Proof.
  intros R. destruct (reach_held _ _ R) as (_ & M & _). unfold ids_held. rewrite M.
  destruct (map_after tr) as [[|x m]|]; cbn; split; try discriminate.
  - intros (m & [= <-] & N). congruence.
  - intros _. exists (x :: m). split; [reflexivity|discriminate].
  - auto.
  - intros (m & H & _). discriminate H.
Qed.

Lemma py_index_mid {A} (b : list A) p a : py_index (b ++ p :: a) (Z.of_nat (List.length b)) = Ok p.
Proof.
  unfold py_index. rewrite app_length. cbn [List.length].
  replace (Z.of_nat (List.length b) <? 0) with false by (symmetry; apply Z.ltb_ge; lia). cbn [orb].
  replace (Z.of_nat (List.length b) <? 0) with false by (symmetry; apply Z.ltb_ge; lia). cbn [orb].
  replace (_ <=? _) with false by (symmetry; apply Z.leb_gt; lia).
  rewrite Nat2Z.id, nth_error_app2 by lia. rewrite Nat.sub_diag. reflexivity.
Qed.

(** set_v_to_p_map says that there are quads when a version with quads is known, else that it is the
    second call when one has worked since the last reset, and works in all other cases, after which
    the ids are those of the map given and another call is the second. *)
Theorem C99_set_map :
  forall tr d e m, reach tr d ->
  (quads_known tr -> plain_told e d (SetVtoP m) = Some (d, ([], inr (MachineExc, both_maps)))) /\
  (~ quads_known tr -> was_set tr -> plain_told e d (SetVtoP m) = Some (d, ([], inr (MachineExc, second_map)))) /\
  (~ quads_known tr -> ~ was_set tr -> exists d', plain_told e d (SetVtoP m) = Some (d', ([], inl VNone)) /\
     (forall e' m', plain_told e' d' (SetVtoP m') = Some (d', ([], inr (MachineExc, second_map)))) /\
     (forall e' xy p, dget xy_eqb m xy = None ->
        plain_told e' d' (GetPhysicalCoreId xy p) =
          Some (d', ([], inr (KeyError, cat ["("; dec (fst xy); ", "; dec (snd xy); ")"])))) /\
     (forall e' xy before p after, dget xy_eqb m xy = Some (before ++ p :: after) ->
        plain_told e' d' (GetPhysicalCoreId xy (Z.of_nat (List.length before))) = Some (d', ([], inl (VInt p))))).
Proof.
  intros tr d e m R. rewrite <- (quads_known_true _ _ R), <- (map_held_some _ _ R).
  unfold plain_told at 1 2 3, set_v_to_p_map_told. destruct (dict_true (d_quad_map d)) eqn:DQ.
  - split; [intros _; reflexivity|]. split; intros N; congruence.
  - split; [discriminate|]. destruct (d_v_to_p d) as [m'|].
    + split; [intros _ _; reflexivity|]. intros _ N. exfalso. apply N. discriminate.
    + split; [congruence|]. intros _ _. eexists. split; [reflexivity|]. split; [|split].
      * intros e' m'. unfold plain_told, set_v_to_p_map_told. cbn [d_quad_map d_v_to_p]. rewrite DQ. reflexivity.
      * intros e' xy p N. unfold plain_told, get_physical_core_id_told. cbn [d_v_to_p]. rewrite N. reflexivity.
      * intros e' xy b p a N. unfold plain_told, get_physical_core_id_told. cbn [d_v_to_p]. rewrite N.
        rewrite py_index_mid. reflexivity.
Qed.
Print Assumptions C99_set_map.

(** get_machine_version gives the version known and says nothing; when none is known it says what
    version_factory says; only when that gives a version with quads and ids are held does it raise
    itself, and then only once: the version is known from then on. *)
Theorem C99_get_version :
  forall tr d e, reach tr d ->
  (forall v, version_after tr = Some v -> plain_told e d GetMachineVersion = Some (d, ([], inl (VVersion v)))) /\
  (version_after tr = None -> forall log x, version_factory_told (e_config e) (e_minor e) = (log, inr x) ->
     plain_told e d GetMachineVersion = Some (d, (log, inr x))) /\
  (version_after tr = None -> forall log v, version_factory_told (e_config e) (e_minor e) = (log, inl v) ->
     exists d', (forall e', plain_told e' d' GetMachineVersion = Some (d', ([], inl (VVersion v)))) /\
     (has_quads v = true -> ids_held tr ->
        plain_told e d GetMachineVersion = Some (d', (log, inr (MachineExc, both_maps)))) /\
     (has_quads v = false \/ ~ ids_held tr ->
        plain_told e d GetMachineVersion = Some (d', (log, inl (VVersion v))))).
Proof.
  intros tr d e R. destruct (reach_held _ _ R) as (V & _ & _). pose proof (ids_held_true _ _ R) as I.
  rewrite <- V. clear V. split; [|split].
  - intros v V. unfold plain_told, get_machine_version_told. rewrite V. reflexivity.
  - intros V log x F. unfold plain_told, get_machine_version_told. rewrite V, F. reflexivity.
  - intros V log v F.
    exists (mkData (d_all_monitors d) (d_eth_monitors d) (d_machine d) (d_generator d) (Some v)
              (quads_maps (v_id v)) (d_user_accessed d) (d_v_to_p d)).
    split; [intros e'; reflexivity|]. unfold plain_told, get_machine_version_told. rewrite V, F.
    cbn [d_quad_map d_v_to_p]. rewrite quads_true. split.
    + intros Q N. apply I in N. rewrite Q, N. reflexivity.
    + intros [Q|N]; [rewrite Q; reflexivity|]. destruct (dict_true (d_v_to_p d)).
      * exfalso. apply N, I. reflexivity.
      * rewrite Bool.andb_false_r. reflexivity.
Qed.
Print Assumptions C99_get_version.

Lemma cat_cons a l : cat (a :: l) = (a ++ cat l)%string.
Proof. reflexivity. Qed.

(** version_factory itself says neither of these texts. *)
Lemma factory_other_text c minor log t : version_factory_told c minor = (log, inr (MachineExc, t)) ->
  t <> both_maps /\ t <> second_map.
Proof.
  intros F. assert (R : first_reason c minor t) by (apply C88_refused_with_the_first_reason; eauto).
  destruct R as (r & R & _).
  assert (S : forall v w h, size_wrong v w h t -> t <> both_maps /\ t <> second_map).
  { intros v w h S. destruct S; rewrite cat_cons; split; discriminate. }
  destruct R; eauto; rewrite ?cat_cons; split; discriminate.
Qed.

(** Who says that there can not be both: exactly a set_v_to_p_map after a version with quads is
    known, and the call that first reads such a version while ids are held. *)
Theorem C99_both_maps :
  forall tr d e o log, reach tr d ->
  ((exists d', plain_told e d o = Some (d', (log, inr (MachineExc, both_maps)))) <->
   (exists m, o = SetVtoP m /\ quads_known tr /\ log = []) \/
   (reads_version o = true /\ version_after tr = None /\ ids_held tr /\
    exists v, version_factory_told (e_config e) (e_minor e) = (log, inl v) /\ has_quads v = true)).
Proof.
  intros tr d e o log R. pose proof (quads_known_true _ _ R) as QK. pose proof (ids_held_true _ _ R) as I.
  destruct (reach_held _ _ R) as (V & _ & Q).
  assert (SILENT : forall (x : option (data * res value)) d', match x with Some (d, r) => Some (d, of_res r) | None => None end =
    Some (d', (log, inr (MachineExc, both_maps))) -> False).
  { intros [[d1 [v|x]]|] d' H; discriminate H. }
  assert (VT : (exists d', get_machine_version_told e d = (d', (log, inr (MachineExc, both_maps)))) <->
    version_after tr = None /\ ids_held tr /\
    exists v, version_factory_told (e_config e) (e_minor e) = (log, inl v) /\ has_quads v = true).
  { unfold get_machine_version_told. rewrite <- V, <- I. destruct (d_version d) as [v0|].
    - split; [intros (d' & H); discriminate H|]. intros (H & _). discriminate H.
    - destruct (version_factory_told (e_config e) (e_minor e)) as [l [v|[x t]]] eqn:F.
      + cbn [d_quad_map d_v_to_p]. rewrite quads_true. split.
        * destruct (has_quads v) eqn:HQ; [|intros (d' & H); discriminate H].
          destruct (dict_true (d_v_to_p d)); [|intros (d' & H); discriminate H].
          intros (d' & H). injection H as _ <-. split; [reflexivity|]. split; [reflexivity|]. exists v. auto.
        * intros (_ & T & v' & H & HQ). injection H as -> ->. rewrite HQ, T. eexists. reflexivity.
      + split; [|intros (_ & _ & v & H & _); discriminate H].
        intros (d' & H). injection H as _ <- -> ->. exfalso. exact (proj1 (factory_other_text _ _ _ _ F) eq_refl). }
  split.
  - intros (d' & H). destruct o; try (exfalso; match type of H with plain_told _ _ ?o = _ => exact (SILENT (plain_step e d o) _ H) end).
    + right. split; [reflexivity|]. apply VT. unfold plain_told in H.
      destruct (get_machine_version_told e d) as [d1 [l [v|x]]]; [discriminate H|]. unfold tmap in H. cbn [fst snd] in H. exists d1. injection H as _ -> ->. reflexivity.
    + left. exists map. split; [reflexivity|]. unfold plain_told, set_v_to_p_map_told in H.
      destruct (dict_true (d_quad_map d)) eqn:D.
      * split; [apply QK; reflexivity|]. unfold traise, tmap in H. cbn [fst snd] in H. congruence.
      * destruct (d_v_to_p d); discriminate H.
    + exfalso. unfold plain_told, get_physical_core_id_told in H.
      destruct (d_v_to_p d) as [m|]; [|discriminate H]. destruct (dget xy_eqb m xy) as [l|]; [|discriminate H].
      destruct (py_index l p); discriminate H.
    + right. split; [reflexivity|]. apply VT. unfold plain_told, get_physical_quad_told in H.
      assert (QI : forall q l d1, Some (d1, tmap VQuad (let '(l', b) := quad_in q p in (l ++ l', b))) =
        Some (d', (log, inr (MachineExc, both_maps))) -> False).
      { intros q l d1 X. unfold quad_in in X. destruct (dget Z.eqb q p); discriminate X. }
      destruct (d_quad_map d) as [q|].
      * exfalso. unfold quad_in in H. destruct (dget Z.eqb q p); discriminate H.
      * destruct (get_machine_version_told e d) as [d1 [l [v|x]]].
        -- exfalso. unfold tbind in H. destruct (d_quad_map d1) as [q|]; [exact (QI _ _ _ H)|discriminate H].
        -- unfold tbind, tmap in H. cbn [fst snd] in H. exists d1. injection H as _ -> ->. reflexivity.
    + exfalso. destruct m; discriminate H.
    + exfalso. destruct g; discriminate H.
  - intros [(m & -> & K & ->)|(RV & VI)].
    + exists d. apply QK in K. unfold plain_told, set_v_to_p_map_told. rewrite K. reflexivity.
    + pose proof VI as (VN & _). apply VT in VI as (d' & VI). exists d'. rewrite <- V in VN. rewrite VN in Q.
      destruct o; try discriminate RV; unfold plain_told.
      * rewrite VI. reflexivity.
      * unfold get_physical_quad_told. rewrite Q, VI. reflexivity.
Qed.
Print Assumptions C99_both_maps.

(** Who says that a call is the second: exactly a set_v_to_p_map when one has worked since the last
    reset and no version with quads is known. *)
Theorem C99_second_map :
  forall tr d e o log, reach tr d ->
  ((exists d', plain_told e d o = Some (d', (log, inr (MachineExc, second_map)))) <->
   exists m, o = SetVtoP m /\ was_set tr /\ ~ quads_known tr /\ log = []).
Proof.
  intros tr d e o log R. split.
  - intros (d' & H).
    assert (SILENT : forall (x : option (data * res value)), match x with Some (d, r) => Some (d, of_res r) | None => None end =
      Some (d', (log, inr (MachineExc, second_map))) -> False).
    { intros [[d1 [v|x]]|] E; discriminate E. }
    assert (VT : forall d1, get_machine_version_told e d = (d1, (log, inr (MachineExc, second_map))) -> False).
    { intros d1 E. unfold get_machine_version_told in E. destruct (d_version d); [discriminate E|].
      destruct (version_factory_told _ _) as [l [v|[x t]]] eqn:F.
      - destruct (dict_true _ && dict_true _); discriminate E.
      - injection E as _ <- -> ->. exact (proj2 (factory_other_text _ _ _ _ F) eq_refl). }
    destruct o; try (exfalso; match type of H with plain_told _ _ ?o = _ => exact (SILENT (plain_step e d o) H) end); try (exfalso; cbn in H; discriminate H).
    + exfalso. unfold plain_told in H. destruct (get_machine_version_told e d) as [d1 [l [v|x]]]; [discriminate H|].
      apply (VT d1). unfold tmap in H. cbn [fst snd] in H. injection H as _ -> ->. reflexivity.
    + exists map. split; [reflexivity|]. rewrite <- (quads_known_true _ _ R), <- (map_held_some _ _ R).
      unfold plain_told, set_v_to_p_map_told in H. destruct (dict_true (d_quad_map d)); [discriminate H|].
      destruct (d_v_to_p d); [|discriminate H]. unfold traise, tmap in H. cbn [fst snd] in H.
      split; [discriminate|]. split; [discriminate|]. congruence.
    + exfalso. unfold plain_told, get_physical_core_id_told in H.
      destruct (d_v_to_p d) as [m|]; [|discriminate H]. destruct (dget xy_eqb m xy) as [l|]; [|discriminate H].
      destruct (py_index l p); discriminate H.
    + exfalso. unfold plain_told, get_physical_quad_told in H.
      destruct (d_quad_map d) as [q|].
      * unfold quad_in in H. destruct (dget Z.eqb q p); discriminate H.
      * destruct (get_machine_version_told e d) as [d1 [l [v|x]]].
        -- unfold tbind in H. destruct (d_quad_map d1) as [q|]; [|discriminate H].
           unfold quad_in in H. destruct (dget Z.eqb q p); discriminate H.
        -- apply (VT d1). unfold tbind, tmap in H. cbn [fst snd] in H. injection H as _ -> ->. reflexivity.
    + exfalso. destruct m; discriminate H.
    + exfalso. destruct g; discriminate H.
  - intros (m & -> & W & N & ->). exists d. apply (C99_set_map tr d e m R); assumption.
Qed.
Print Assumptions C99_second_map.

Lemma py_index_range {A} (l : list A) p :
  match py_index l p with
  | Ok _ => - Z.of_nat (List.length l) <= p < Z.of_nat (List.length l)
  | Err x => x = IndexError /\ ~ (- Z.of_nat (List.length l) <= p < Z.of_nat (List.length l))
  end.
Proof.
  unfold py_index. set (n := Z.of_nat (List.length l)).
  destruct ((_ <? 0) || (n <=? _)) eqn:B.
  - split; [reflexivity|]. apply Bool.orb_true_iff in B as [B|B]; [apply Z.ltb_lt in B|apply Z.leb_le in B];
      destruct (p <? 0) eqn:P; [apply Z.ltb_lt in P|apply Z.ltb_ge in P|apply Z.ltb_lt in P|apply Z.ltb_ge in P]; lia.
  - apply Bool.orb_false_iff in B as [B1 B2]. apply Z.ltb_ge in B1. apply Z.leb_gt in B2.
    destruct (nth_error l _) eqn:E.
    + destruct (p <? 0) eqn:P; [apply Z.ltb_lt in P|apply Z.ltb_ge in P]; lia.
    + apply nth_error_None in E. fold n in B1. exfalso. unfold n in B2.
      destruct (p <? 0) eqn:P; lia.
Qed.

Lemma raised_eq (d1 d2 : data) (l1 l2 : list said) (t1 t2 : exn * string) :
  Some (d1, (l1, inr t1) : told value) = Some (d2, (l2, inr t2)) <-> d1 = d2 /\ l1 = l2 /\ t1 = t2.
Proof.
  split.
  - intros H. inversion H. auto.
  - intros (-> & -> & ->). reflexivity.
Qed.
Lemma given_eq (d1 d2 : data) (l1 l2 : list said) (v w : version) :
  Some (d1, (l1, inl (VVersion v)) : told value) = Some (d2, (l2, inl (VVersion w))) <-> d1 = d2 /\ l1 = l2 /\ v = w.
Proof.
  split.
  - intros H. inversion H. auto.
  - intros (-> & -> & ->). reflexivity.
Qed.

(** What get_physical_core_id and get_physical_quad say is missing: the map, the chip, or the core.
    get_physical_quad reads the version when no map of quads is there, and says what that says. *)
Theorem C99_what_is_missing :
  forall tr d e, reach tr d ->
  (forall xy p t, plain_told e d (GetPhysicalCoreId xy p) = Some (d, ([], inr t)) <->
     match map_after tr with
     | None => t = (DataNotAvailable, "v_to_p map")
     | Some m =>
         match dget xy_eqb m xy with
         | None => t = (KeyError, cat ["("; dec (fst xy); ", "; dec (snd xy); ")"])
         | Some l => t = (IndexError, "index out of range") /\
             ~ (- Z.of_nat (List.length l) <= p < Z.of_nat (List.length l))
         end
     end) /\
  (forall v p t, version_after tr = Some v ->
     (plain_told e d (GetPhysicalQuad p) = Some (d, ([], inr t)) <->
      match quads_maps (v_id v) with
      | None => t = (DataNotAvailable, "quad_map")
      | Some q => dget Z.eqb q p = None /\ t = (KeyError, dec p)
      end)) /\
  (forall p d' t log, version_after tr = None ->
     (plain_told e d (GetPhysicalQuad p) = Some (d', (log, inr t)) <->
      plain_told e d GetMachineVersion = Some (d', (log, inr t)) \/
      exists v, plain_told e d GetMachineVersion = Some (d', (log, inl (VVersion v))) /\
        match quads_maps (v_id v) with
        | None => t = (DataNotAvailable, "quad_map")
        | Some q => dget Z.eqb q p = None /\ t = (KeyError, dec p)
        end)).
Proof.
  intros tr d e R. destruct (reach_held _ _ R) as (V & M & Q). rewrite <- V, <- M. split; [|split].
  - intros xy p t. unfold plain_told, get_physical_core_id_told.
    destruct (d_v_to_p d) as [m|]; [|unfold missing, tmap; cbn [fst snd]; rewrite raised_eq; intuition].
    destruct (dget xy_eqb m xy) as [l|]; [|unfold tmap, pair_key; cbn [fst snd]; rewrite raised_eq; intuition].
    pose proof (py_index_range l p) as P. destruct (py_index l p) as [n|x].
    + split; [intros H; discriminate H|]. intros [_ N]. exfalso. exact (N P).
    + destruct P as [-> P]. unfold tmap. cbn [fst snd]. rewrite raised_eq. split.
      * intros (_ & _ & <-). split; [reflexivity|exact P].
      * intros [-> _]. auto.
  - intros v p t VA. rewrite VA in Q. unfold plain_told, get_physical_quad_told. rewrite Q.
    destruct (quads_maps (v_id v)) as [q|].
    + unfold quad_in. destruct (dget Z.eqb q p) as [x|]; unfold tret, tmap; cbn [fst snd].
      * split; [intros H; discriminate H|]. intros [H _]. discriminate H.
      * rewrite raised_eq. split; [intros (_ & _ & <-); auto|]. intros [_ ->]. auto.
    + unfold get_machine_version_told. rewrite VA, Q. unfold tret, tbind, missing, tmap. cbn [fst snd app].
      rewrite raised_eq. intuition.
  - intros p d' t log VA. rewrite VA in Q. unfold plain_told, get_physical_quad_told. rewrite Q.
    destruct (get_machine_version_told e d) as [d1 [l r]] eqn:G.
    destruct r as [v|x]; unfold tbind, tmap; cbn [fst snd].
    + assert (QM : d_quad_map d1 = quads_maps (v_id v)).
      { unfold get_machine_version_told in G. rewrite VA in G.
        destruct (version_factory_told _ _) as [l' [v'|x]]; [|discriminate G].
        destruct (dict_true _ && dict_true _); [discriminate G|]. injection G as <- _ ->. reflexivity. }
      rewrite QM. split.
      * intros H. right. exists v. rewrite given_eq. destruct (quads_maps (v_id v)) as [q|].
        -- unfold quad_in in H. destruct (dget Z.eqb q p); [discriminate H|]. cbn [fst snd] in H.
           rewrite app_nil_r in H. apply raised_eq in H as (-> & -> & <-). auto.
        -- unfold missing in H. cbn [fst snd] in H. rewrite app_nil_r in H. apply raised_eq in H as (-> & -> & <-). auto.
      * intros [H|(w & H & K)]; [discriminate H|]. apply given_eq in H as (-> & -> & <-).
        destruct (quads_maps (v_id v)) as [q|].
        -- destruct K as [K ->]. unfold quad_in. rewrite K. cbn [fst snd]. rewrite app_nil_r. reflexivity.
        -- subst t. unfold missing. cbn [fst snd]. rewrite app_nil_r. reflexivity.
    + rewrite !raised_eq. split; [intros H; left; exact H|]. intros [H|(w & H & _)]; [exact H|discriminate H].
Qed.
Print Assumptions C99_what_is_missing.

(** What get_machine and get_chip_at say: that there is no machine when there is none and no
    generator; what the generator raised; that it made no machine when it returned without one;
    and nothing otherwise.  A chip that the machine lacks is named. *)
Theorem C99_get_machine :
  forall tr d e, reach tr d ->
  (forall m, machine_after tr = Some m -> stale e = false ->
     forall tr' d' t, get_machine_told e d tr' d' t <-> tr' = [] /\ d' = touch e d /\ t = ([], inl m)) /\
  (machine_after tr = None \/ stale e = true -> generator_after tr = None ->
     forall tr' d' t, get_machine_told e d tr' d' t <->
       tr' = [] /\ d' = touch e d /\ t = ([], inr (DataNotAvailable, "machine"))) /\
  (machine_after tr = None \/ stale e = true -> forall g, generator_after tr = Some g ->
     forall tr' d' log t r, get_machine_told e d tr' d' (log, t) <->
       (exists x text, gen_run e g (touch e d) tr' d' (Err x) /\ t = inr (x, text)) \/
       (gen_run e g (touch e d) tr' d' (Ok tt) /\
        match machine_after (tr ++ (e, GetMachine, r) :: tr') with
        | Some m => t = inl m
        | None => t = inr (MachineExc, no_machine_made)
        end)) /\
  (forall x y log m, get_chip_at_told x y (log, inl m) =
     (log, match dget xy_eqb (m_chips m) (x, y) with
           | Some c => inl c
           | None => inr (KeyError, cat ["("; dec x; ", "; dec y; ")"])
           end)) /\
  (forall x y log p, get_chip_at_told x y (log, inr p) = (log, inr p)).
Proof.
  intros tr d e R. destruct (reach_inv _ _ R) as [I1 I2 _ _ _].
  assert (TM : machine_after tr = None \/ stale e = true -> d_machine (touch e d) = None).
  { rewrite <- I1. unfold touch, stale. destruct (e_user_mode e); cbn.
    - destruct (e_soft_reset e); intros [H|H]; congruence.
    - intros [H|H]; congruence. }
  assert (TG : d_generator (touch e d) = generator_after tr) by (rewrite <- I2; unfold touch; destruct (e_user_mode e); reflexivity).
  split; [|split; [|split; [|split]]].
  - intros m A S tr' d' t.
    assert (H0 : d_machine (touch e d) = Some m).
    { rewrite <- A, <- I1. unfold touch, stale in *. destruct (e_user_mode e); auto. cbn in *. rewrite S. auto. }
    split.
    + intros H. inversion H; subst; try congruence. split; [reflexivity|]. split; [reflexivity|].
      unfold tret. congruence.
    + intros (-> & -> & ->). apply THave. exact H0.
  - intros A G tr' d' t. specialize (TM A). split.
    + intros H. inversion H; subst; try congruence. auto.
    + intros (-> & -> & ->). apply TNone; congruence.
  - intros A g G tr' d' log t r. specialize (TM A).
    assert (MA : forall x, gen_run e g (touch e d) tr' d' x -> machine_after (tr ++ (e, GetMachine, r) :: tr') = d_machine d').
    { intros x H. assert (GR : get_run e d tr' d' (match x with Err x => Err x | Ok _ =>
        match d_machine d' with None => Err MachineExc | Some m => Ok m end end)) by (eapply GGen; eauto; congruence).
      apply CGet in GR. pose proof (call_inv _ _ _ _ _ _ _ R GR) as [J _ _ _ _].
      rewrite J. unfold machine_after. rewrite !fold_left_app. reflexivity. }
    split.
    + intros H. inversion H; subst; try congruence.
      * left. exists x, text. assert (g0 = g) as -> by congruence. auto.
      * right. assert (g0 = g) as -> by congruence. split; [assumption|]. erewrite MA by eassumption.
        destruct (d_machine d'); reflexivity.
    + intros [(x & text & H & ->)|(H & M)].
      * eapply TRaised; eauto. congruence.
      * erewrite MA in M by eassumption.
        replace t with (match d_machine d' with
            | None => inr (MachineExc, "machine generator did not generate machine")
            | Some m => inl m
            end) by (destruct (d_machine d'); symmetry; exact M).
        eapply TReturned; eauto. congruence.
  - intros x y log m. unfold get_chip_at_told, tbind, chip_in, getitem, dgetitem.
    destruct (dget xy_eqb (m_chips m) (x, y)); cbn [fst snd tret]; unfold tret; rewrite app_nil_r; reflexivity.
  - reflexivity.
Qed.
Print Assumptions C99_get_machine.

(** A thing that is no Machine, or that cannot be called, is refused by name and nothing changes. *)
Theorem C99_wrong_types :
  forall e d,
  plain_told e d (SetMachine None) = Some (d, ([], inr (TypeError, "machine should be a Machine"))) /\
  plain_told e d (SetMachineGenerator None) = Some (d, ([], inr (TypeError, "machine_generator must be callable"))) /\
  (forall m, exists d', plain_told e d (SetMachine (Some m)) = Some (d', ([], inl VNone))) /\
  (forall g, exists d', plain_told e d (SetMachineGenerator (Some g)) = Some (d', ([], inl VNone))).
Proof. intros e d. repeat split; intros; eexists; reflexivity. Qed.
Print Assumptions C99_wrong_types.

(** ** A history *)
Definition told_env (n : Z) : env := demo_env n.
Definition told_map : dict XY (list Z) := [((0, 0), [4; 5])].

(** With a map of ids and then a Spin2 version: the clash is told once, the map cannot be set again,
    and both kinds of ids are answered from then on. *)
Example C99_case :
  exists tr d1 d2,
    reach tr d1 /\ was_set tr /\ ids_held tr /\ ~ quads_known tr /\
    plain_told (told_env 201) d1 (SetVtoP told_map) = Some (d1, ([], inr (MachineExc, second_map))) /\
    (exists log, plain_told (told_env 201) d1 GetMachineVersion = Some (d2, (log, inr (MachineExc, both_maps)))) /\
    plain_told (told_env 201) d2 (SetVtoP told_map) = Some (d2, ([], inr (MachineExc, both_maps))) /\
    plain_told (told_env 201) d2 (GetPhysicalCoreId (0, 0) 2) = Some (d2, ([], inr (IndexError, "index out of range"))) /\
    plain_told (told_env 201) d2 (GetPhysicalCoreId (0, 1) 0) = Some (d2, ([], inr (KeyError, "(0, 1)"))) /\
    plain_told (told_env 201) d2 (GetPhysicalQuad 1000) = Some (d2, ([], inr (KeyError, "1000"))) /\
    plain_told (told_env 5) data_new (GetPhysicalCoreId (0, 1) 0) =
      Some (data_new, ([], inr (DataNotAvailable, "v_to_p map"))) /\
    get_machine_told (told_env 5) data_new [] data_new ([], inr (DataNotAvailable, "machine")).
Proof.
  exists [(told_env 201, SetVtoP told_map, Ok VNone)].
  eexists. eexists.
  split.
  { unfold reach. change [(told_env 201, SetVtoP told_map, Ok VNone)] with ([(told_env 201, SetVtoP told_map, Ok VNone)] ++ [] : trace).
    eapply runs_cons; [apply CPlain; vm_compute; reflexivity|apply runs_nil]. }
  split. { exists [], (told_env 201), told_map, VNone, []. split; [reflexivity|]. intros t []. }
  split. { exists told_map. split; [reflexivity|discriminate]. }
  split. { intros (v & H & _). vm_compute in H. discriminate H. }
  split; [vm_compute; reflexivity|].
  split; [eexists; vm_compute; reflexivity|].
  do 4 (split; [vm_compute; reflexivity|]).
  split; [vm_compute; reflexivity|].
  apply (TNone (told_env 5) data_new); reflexivity.
Qed.
