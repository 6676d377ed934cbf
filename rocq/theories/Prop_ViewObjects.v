(** C87: the view holds the objects themselves. *)
From Coq Require Import String Lia.
From Verif Require Import Model_Py Model_Wrap Model_Version Model_Core Model_Machine Model_Factory Model_Virtual Model_Text Model_View
  Spec_View Proof_View Model_ViewObjects Spec_ViewObjects Prop_View.
Open Scope list_scope.
Open Scope Z_scope.

Scheme ocall_mut := Minimality for ocall Sort Prop
with oget_run_mut := Minimality for oget_run Sort Prop
with ogen_run_mut := Minimality for ogen_run Sort Prop
with omock_rest_mut := Minimality for omock_rest Sort Prop
with oruns_mut := Minimality for oruns Sort Prop.

(** Histories as steps of single entries *)
Definition ostep (s : objects) (t : env * objects * oop * res ovalue) (s' : objects) : Prop :=
  before t = s /\
  (object_step (oenv_of t) s (oop_of t) = Some (s', ores_of t) \/
   (exists o, oop_of t = OView o /\ asks_machine o = true) /\ s' = o_touch (oenv_of t) s).

Inductive osteps : objects -> otrace -> objects -> Prop :=
| os_nil s : osteps s [] s
| os_cons s t s1 tr s2 : ostep s t s1 -> osteps s1 tr s2 -> osteps s (t :: tr) s2.

Lemma osteps_app s tr s1 tr' s2 : osteps s tr s1 -> osteps s1 tr' s2 -> osteps s (tr ++ tr') s2.
Proof. induction 1; intros; cbn; auto. econstructor; eauto. Qed.

Lemma oruns_steps s tr s' : oruns s tr s' -> osteps s tr s'.
Proof.
  revert s tr s'.
  apply (oruns_mut (fun _ s _ tr s' _ => osteps s tr s')
    (fun e s tr s' _ => osteps (o_touch e s) tr s')
    (fun _ _ s tr s' _ => osteps s tr s')
    (fun _ s _ tr s' _ => osteps s tr s')
    (fun s tr s' => osteps s tr s')); intros; try (constructor; fail); auto.
  - econstructor; [split; [|left; cbn; eassumption]; reflexivity|constructor].
  - econstructor; [split; [|right; cbn; split; [eexists; split; reflexivity|reflexivity]]; reflexivity|auto].
  - econstructor; [split; [|right; cbn; split; [eexists; split; reflexivity|reflexivity]]; reflexivity|auto].
  - econstructor; [split; [reflexivity|left]|eassumption]. cbn. rewrite H. destruct rv; reflexivity.
  - subst. econstructor; [split; [reflexivity|left; reflexivity]|].
    econstructor; [split; [reflexivity|left]|constructor]. cbn -[Nat.ltb].
    rewrite app_length. cbn -[Nat.ltb].
    destruct (Nat.ltb_spec (List.length (ob_machines s)) (List.length (ob_machines s) + 1)); [reflexivity|lia].
  - eapply osteps_app; eauto.
Qed.

Lemma ocall_steps e s o tr s' r : ocall e s o tr s' r -> osteps s tr s'.
Proof. intros H. apply oruns_steps. rewrite <- (app_nil_r tr). econstructor; eauto. constructor. Qed.

(** What one entry does to each part *)
Lemma version_frame e s s' r : o_get_machine_version e s = (s', r) ->
  ob_machines s' = ob_machines s /\ ob_maps s' = ob_maps s /\ o_machine (ob_data s') = o_machine (ob_data s) /\
  o_v_to_p (ob_data s') = o_v_to_p (ob_data s).
Proof.
  unfold o_get_machine_version. destruct (o_version (ob_data s)); [intros [= <- <-]; auto|].
  destruct (version_factory _ _); [|intros [= <- <-]; auto].
  cbn. destruct (_ && _); intros [= <- <-]; auto.
Qed.

Lemma quad_frame e s s' p r : o_get_physical_quad e s p = (s', r) ->
  ob_machines s' = ob_machines s /\ ob_maps s' = ob_maps s /\ o_machine (ob_data s') = o_machine (ob_data s) /\
  o_v_to_p (ob_data s') = o_v_to_p (ob_data s).
Proof.
  unfold o_get_physical_quad. destruct (o_quad_map (ob_data s)); [intros [= <- <-]; auto|].
  destruct (o_get_machine_version e s) as [s1 [v|x]] eqn:V; apply version_frame in V; [|intros [= <- <-]; auto].
  destruct (o_quad_map (ob_data s1)); intros [= <- <-]; auto.
Qed.

Lemma touch_frame e s : ob_machines (o_touch e s) = ob_machines s /\ ob_maps (o_touch e s) = ob_maps s /\
  o_machine (ob_data (o_touch e s)) = (if stale e then None else o_machine (ob_data s)) /\
  o_v_to_p (ob_data (o_touch e s)) = o_v_to_p (ob_data s).
Proof. unfold o_touch, stale. destruct (e_user_mode e), (e_soft_reset e); auto. Qed.

Lemma view_frame e s o s' r : view_step e s o = Some (s', r) ->
  ob_machines s' = ob_machines s /\ ob_maps s' = ob_maps s /\
  o_machine (ob_data s') = match o with ClearMachine | HardReset | Setup | Mock => None | _ => o_machine (ob_data s) end /\
  o_v_to_p (ob_data s') = match o with HardReset | Setup | Mock => None | _ => o_v_to_p (ob_data s) end.
Proof.
  destruct o; cbn; intros H; try discriminate H;
    try (injection H as <- <-; auto; fail).
  - destruct (o_get_machine_version e s) as [s1 r1] eqn:V. apply version_frame in V. injection H as <- <-. auto.
  - destruct (o_get_physical_quad e s p) as [s1 r1] eqn:V. apply quad_frame in V. injection H as <- <-. auto.
  - destruct g; injection H as <- <-; auto.
Qed.

Lemma ostep_frame s t s' : ostep s t s' ->
  ob_machines s' = machines_after (ob_machines s) [t] /\ ob_maps s' = maps_after (ob_maps s) [t] /\
  o_machine (ob_data s') = object_after (o_machine (ob_data s)) [t] /\
  o_v_to_p (ob_data s') = map_object_after (o_v_to_p (ob_data s)) [t].
Proof.
  destruct t as [[[e s0] o] r]. cbn. unfold ostep, oenv_of, oop_of, ores_of, before. cbn.
  intros [-> [H|[(o' & -> & A) ->]]].
  2:{ destruct (touch_frame e s) as (-> & -> & -> & ->). destruct o'; try discriminate A; auto. }
  destruct o as [o|k|[k|]|m|k|k m|k m]; cbn -[Nat.ltb] in H.
  - destruct (view_step e s o) as [[s1 r1]|] eqn:V; [|discriminate H].
    assert (s' = s1) as -> by (destruct r1; injection H as <- <-; auto).
    apply view_frame in V as V'. destruct V' as (-> & -> & -> & ->).
    repeat split; destruct o; auto; discriminate V.
  - destruct (_ <? _)%nat; [|discriminate H]. unfold o_set_v_to_p_map in H.
    destruct (dict_true _); [injection H as <- <-; auto|].
    destruct (o_v_to_p (ob_data s)) eqn:E; injection H as <- <-; cbn; auto.
  - destruct (_ <? _)%nat; [|discriminate H]. injection H as <- <-. auto.
  - injection H as <- <-. auto.
  - injection H as <- <-. auto.
  - injection H as <- <-. auto.
  - destruct (_ <? _)%nat; [|discriminate H]. injection H as <- <-. auto.
  - destruct (_ <? _)%nat; [|discriminate H]. injection H as <- <-. auto.
Qed.

Lemma osteps_frame s tr s' : osteps s tr s' ->
  ob_machines s' = machines_after (ob_machines s) tr /\ ob_maps s' = maps_after (ob_maps s) tr /\
  o_machine (ob_data s') = object_after (o_machine (ob_data s)) tr /\
  o_v_to_p (ob_data s') = map_object_after (o_v_to_p (ob_data s)) tr.
Proof.
  induction 1 as [s|s t s1 tr s2 H S IH]; [auto|].
  apply ostep_frame in H as (A & B & C & D).
  destruct IH as (A' & B' & C' & D'). rewrite A', B', C', D', A, B, C, D. auto.
Qed.

(** No call of the view changes a Machine or a map: they are as the program made and
    changed them. *)
Theorem C87_objects_change_by_the_program_only :
  (forall e s o tr s' r, ocall e s o tr s' r ->
     ob_machines s' = machines_after (ob_machines s) tr /\ ob_maps s' = maps_after (ob_maps s) tr) /\
  (forall tr s, oreach tr s -> ob_machines s = machines_after [] tr /\ ob_maps s = maps_after [] tr).
Proof.
  split.
  - intros e s o tr s' r H. apply ocall_steps, osteps_frame in H. tauto.
  - intros tr s H. apply oruns_steps, osteps_frame in H. tauto.
Qed.
Print Assumptions C87_objects_change_by_the_program_only.

(** Which objects the view holds *)
Theorem C87_object_held :
  forall tr s, oreach tr s ->
    o_machine (ob_data s) = object_after None tr /\ o_v_to_p (ob_data s) = map_object_after None tr.
Proof. intros tr s H. apply oruns_steps, osteps_frame in H. tauto. Qed.
Print Assumptions C87_object_held.

(** ** References stay inside *)
Definition inside (s : objects) : Prop :=
  (forall r, o_machine (ob_data s) = Some r -> (r < List.length (ob_machines s))%nat) /\
  (forall k, o_v_to_p (ob_data s) = Some k -> (k < List.length (ob_maps s))%nat).

Lemma assign_length {A} (l : list A) : forall r a, List.length (assign l r a) = List.length l.
Proof. induction l as [|b l IH]; intros [|r] a; cbn; auto. Qed.

Lemma assign_same {A} (l : list A) : forall r a, (r < List.length l)%nat -> nth_error (assign l r a) r = Some a.
Proof. induction l as [|b l IH]; intros [|r] a H; cbn in *; auto; try lia. apply IH. lia. Qed.

Lemma assign_other {A} (l : list A) : forall r r' a, r <> r' -> nth_error (assign l r a) r' = nth_error l r'.
Proof. induction l as [|b l IH]; intros [|r] [|r'] a H; cbn in *; auto; try congruence. Qed.

Lemma inside_step s t s' : ostep s t s' -> inside s -> inside s'.
Proof.
  intros H [I1 I2]. pose proof (ostep_frame _ _ _ H) as (A & B & C & D).
  destruct t as [[[e s0] o] r]. unfold ostep, oenv_of, oop_of, ores_of, before in *. cbn -[Nat.ltb] in *.
  destruct H as [-> H]. unfold inside. rewrite A, B, C, D. clear A B C D.
  unfold machines_after, maps_after, object_after, map_object_after, oenv_of, oop_of, ores_of. cbn.
  destruct o as [o|k|[k|]|m|k|k m|k m]; cbn -[Nat.ltb] in *; try (split; auto; fail).
  - split.
    + intros r0. destruct o; auto; try (intros X; discriminate X); destruct (stale e); auto; intros X; discriminate X.
    + intros r0. destruct o; auto; intros X; discriminate X.
  - split; auto. destruct r as [o'|]; auto. intros r0 [= <-].
    destruct (Nat.ltb_spec k (List.length (ob_maps s))); auto.
    destruct H as [H|[(o0 & X & _) _]]; [discriminate H|discriminate X].
  - split; auto. intros r0 [= <-].
    destruct (Nat.ltb_spec k (List.length (ob_machines s))); auto.
    destruct H as [H|[(o0 & X & _) _]]; [discriminate H|discriminate X].
  - split; auto. intros r0 X. rewrite app_length. apply I1 in X. cbn. lia.
  - split; auto. intros r0 X. rewrite app_length. apply I2 in X. cbn. lia.
  - split; auto. rewrite assign_length. auto.
  - split; auto. rewrite assign_length. auto.
Qed.

Lemma inside_steps s tr s' : osteps s tr s' -> inside s -> inside s'.
Proof. induction 1; auto. intros I. apply IHosteps. eapply inside_step; eauto. Qed.

Lemma inside_reach tr s : oreach tr s -> inside s.
Proof. intros H. apply oruns_steps in H. apply (inside_steps _ _ _ H). split; intros r X; discriminate X. Qed.

(** get_machine gives the object that was set, as it is now, whatever was done to it in
    the meantime, and so does get_chip_at. *)
Theorem C87_same_object_given :
  forall tr s e r, oreach tr s -> object_after None tr = Some r -> stale e = false ->
  exists m, nth_error (machines_after [] tr) r = Some m /\
  (forall tr' s' res, ocall e s (OView GetMachine) tr' s' res <->
     tr' = [(e, s, OView GetMachine, Ok (OMachine r m))] /\ res = Ok (OMachine r m) /\ s' = o_touch e s) /\
  (forall x y tr' s' res, ocall e s (OView (GetChipAt x y)) tr' s' res <->
     tr' = [(e, s, OView (GetChipAt x y), res)] /\
     res = (match getitem m (x, y) with Ok c => Ok (OOther (VChip c)) | Err ex => Err ex end) /\ s' = o_touch e s).
Proof.
  intros tr s e r R O S.
  pose proof (C87_object_held _ _ R) as [H _]. rewrite O in H.
  destruct (C87_objects_change_by_the_program_only) as [_ M]. destruct (M _ _ R) as [M1 _].
  destruct (inside_reach _ _ R) as [I _]. apply I in H as L. rewrite <- M1.
  destruct (nth_error (ob_machines s) r) as [m|] eqn:N; [|apply nth_error_None in N; lia].
  exists m. split; auto.
  destruct (touch_frame e s) as (T1 & T2 & T3 & T4). rewrite S, H in T3.
  assert (forall tr' s' res, oget_run e s tr' s' res <-> tr' = [] /\ s' = o_touch e s /\ res = Ok (r, m)) as G.
  { intros tr' s' res. split.
    - intros G. inversion G; subst; try congruence.
      assert (k = r) as -> by congruence. assert (m0 = m) as -> by congruence. auto.
    - intros (-> & -> & ->). apply OGHave; auto. }
  split.
  - intros tr' s' res. split.
    + intros C. inversion C as [? ? ? ? ? P| |]; subst; [discriminate P|].
      apply G in H0 as (-> & -> & ->). auto.
    + intros (-> & -> & ->). eapply OCGet; [apply G; eauto|reflexivity].
  - intros x y tr' s' res. split.
    + intros C. inversion C as [? ? ? ? ? P| |]; subst; [discriminate P|].
      apply G in H0 as (-> & -> & ->). auto.
    + intros (-> & -> & ->). eapply OCChip; [apply G; eauto|reflexivity].
Qed.
Print Assumptions C87_same_object_given.

(** ** As values *)

Lemma seen_touch e s : inside s -> seen (o_touch e s) = touch e (seen s).
Proof.
  intros _. unfold seen, o_touch, touch, held_machine, held_map. destruct (e_user_mode e); [|reflexivity].
  destruct (e_soft_reset e); reflexivity.
Qed.

Lemma seen_version e s : get_machine_version e (seen s) =
  (seen (fst (o_get_machine_version e s)), snd (o_get_machine_version e s)).
Proof.
  unfold get_machine_version, o_get_machine_version. cbn. destruct (o_version (ob_data s)); [reflexivity|].
  destruct (version_factory _ _); [|reflexivity]. unfold held_map, seen. cbn.
  destruct (_ && _); reflexivity.
Qed.

Lemma held_machine_some s r : inside s -> o_machine (ob_data s) = Some r ->
  exists m, nth_error (ob_machines s) r = Some m /\ held_machine s = Some m.
Proof.
  intros [I _] H. apply I in H as L. unfold held_machine. rewrite H.
  destruct (nth_error (ob_machines s) r) eqn:N; eauto. apply nth_error_None in N. lia.
Qed.

Lemma held_map_some s r : inside s -> o_v_to_p (ob_data s) = Some r ->
  exists m, nth_error (ob_maps s) r = Some m /\ held_map s = Some m.
Proof.
  intros [_ I] H. apply I in H as L. unfold held_map. rewrite H.
  destruct (nth_error (ob_maps s) r) eqn:N; eauto. apply nth_error_None in N. lia.
Qed.

Lemma held_machine_none s : o_machine (ob_data s) = None -> held_machine s = None.
Proof. intros H. unfold held_machine. rewrite H. reflexivity. Qed.
Lemma held_map_none s : o_v_to_p (ob_data s) = None -> held_map s = None.
Proof. intros H. unfold held_map. rewrite H. reflexivity. Qed.

Lemma view_seen e s o s' r : inside s -> view_step e s o = Some (s', r) ->
  plain_step e (seen s) o = Some (seen s', r).
Proof.
  intros I. destruct o; cbn; intros H; try discriminate H;
    try (injection H as <- <-; reflexivity).
  - injection H as <- <-. unfold held_machine. destruct (o_machine (ob_data s)) as [k|] eqn:M; [|reflexivity].
    destruct (held_machine_some _ _ I M) as (m & -> & _). reflexivity.
  - injection H as <- <-. unfold held_machine. destruct (o_machine (ob_data s)) as [k|] eqn:M; [|reflexivity].
    destruct (held_machine_some _ _ I M) as (m & -> & _). reflexivity.
  - rewrite seen_version. destruct (o_get_machine_version e s) as [s1 r1]. injection H as <- <-. reflexivity.
  - unfold get_physical_quad, o_get_physical_quad in *. cbn.
    destruct (o_quad_map (ob_data s)); [injection H as <- <-; reflexivity|].
    rewrite seen_version. destruct (o_get_machine_version e s) as [s1 [v|x]]; cbn; [|injection H as <- <-; reflexivity].
    destruct (o_quad_map (ob_data s1)); injection H as <- <-; reflexivity.
  - injection H as <- <-. unfold get_physical_string, o_get_physical_string. cbn.
    destruct (o_v_to_p (ob_data s)) as [k|] eqn:M.
    + destruct (held_map_some _ _ I M) as (m & _ & E). rewrite E. unfold get_physical_core_id, o_get_physical_core_id. cbn.
      rewrite E. reflexivity.
    + rewrite (held_map_none _ M). reflexivity.
  - destruct g; injection H as <- <-; reflexivity.
Qed.

Lemma nth_error_grow {A} (l : list A) a r : (r < List.length l)%nat -> nth_error (l ++ [a]) r = nth_error l r.
Proof. intros H. apply nth_error_app1. auto. Qed.

Lemma runs_same d d' : d = d' -> runs d [] d'.
Proof. intros <-. constructor. Qed.

(** One call without a generator *)
Lemma step_seen e s o s' r : inside s -> object_step e s o = Some (s', r) ->
  held_map_kept [(e, s, o, r)] -> runs (seen s) (shown (e, s, o, r)) (seen s').
Proof.
  intros I H K. unfold shown, before, oop_of, ores_of, oenv_of. cbn.
  destruct o as [o|k|[k|]|m|k|k m|k m]; cbn -[Nat.ltb] in H.
  - destruct (view_step e s o) as [[s1 r1]|] eqn:V; [|discriminate H].
    apply view_seen in V; auto.
    apply (runs_cons e (seen s) o [(e, o, result_of r)] (seen s') (result_of r) [] (seen s')); [|constructor].
    destruct r1; injection H as <- <-; cbn; apply CPlain; auto.
  - destruct (Nat.ltb_spec k (List.length (ob_maps s))) as [L|]; [|discriminate H].
    destruct (nth_error (ob_maps s) k) as [m|] eqn:N; [|apply nth_error_None in N; lia].
    apply (runs_cons e (seen s) (SetVtoP m) [(e, SetVtoP m, result_of r)] (seen s') (result_of r) [] (seen s')); [|constructor].
    apply CPlain. cbn. unfold set_v_to_p_map, o_set_v_to_p_map in *. cbn.
    destruct (dict_true _); [injection H as <- <-; reflexivity|].
    destruct (o_v_to_p (ob_data s)) as [k'|] eqn:M.
    + destruct (held_map_some _ _ I M) as (m' & _ & E). rewrite E. injection H as <- <-. reflexivity.
    + rewrite (held_map_none _ M). injection H as <- <-. unfold seen, held_map. cbn. rewrite N. reflexivity.
  - destruct (Nat.ltb_spec k (List.length (ob_machines s))) as [L|]; [|discriminate H].
    destruct (nth_error (ob_machines s) k) as [m|] eqn:N; [|apply nth_error_None in N; lia].
    apply (runs_cons e (seen s) (SetMachine (Some m)) [(e, SetMachine (Some m), result_of r)] (seen s') (result_of r) [] (seen s')); [|constructor].
    apply CPlain. injection H as <- <-. unfold seen, held_machine. cbn. rewrite N. reflexivity.
  - apply (runs_cons e (seen s) (SetMachine None) [(e, SetMachine None, result_of r)] (seen s') (result_of r) [] (seen s')); [|constructor].
    apply CPlain. injection H as <- <-. reflexivity.
  - injection H as <- <-. apply runs_same.
    unfold seen at 1 2. cbn. f_equal. unfold held_machine. cbn.
    destruct (o_machine (ob_data s)) as [k|] eqn:M; auto. rewrite nth_error_grow; auto. apply I. auto.
  - injection H as <- <-. apply runs_same.
    unfold seen at 1 2. cbn. f_equal. unfold held_map. cbn.
    destruct (o_v_to_p (ob_data s)) as [k'|] eqn:M; auto. rewrite nth_error_grow; auto. apply I. auto.
  - destruct (Nat.ltb_spec k (List.length (ob_machines s))) as [L|]; [|discriminate H]. injection H as <- <-.
    destruct (o_machine (ob_data s)) as [k'|] eqn:M; [destruct (Nat.eqb_spec k' k) as [->|D]|].
    + eapply (runs_cons e (seen s) (SetMachine (Some m)) [(e, SetMachine (Some m), Ok VNone)] _ (Ok VNone) [] _); [|constructor].
      apply CPlain. cbn. unfold seen, held_machine. cbn. rewrite M, assign_same; auto.
    + apply runs_same. unfold seen at 1 2. cbn. f_equal. unfold held_machine. cbn.
      rewrite M, assign_other; auto.
    + apply runs_same. unfold seen at 1 2. cbn. f_equal. unfold held_machine. cbn.
      rewrite M; auto.
  - destruct (Nat.ltb_spec k (List.length (ob_maps s))) as [L|]; [|discriminate H]. injection H as <- <-.
    apply runs_same. unfold seen at 1 2. cbn. f_equal. unfold held_map. cbn.
    destruct (o_v_to_p (ob_data s)) as [k'|] eqn:M; auto. rewrite assign_other; auto. intros <-.
    eapply K; [left; reflexivity|reflexivity|exact M].
Qed.

Lemma runs_app d tr d1 tr' d2 : runs d tr d1 -> runs d1 tr' d2 -> runs d (tr ++ tr') d2.
Proof. induction 1; intros; cbn; auto. rewrite <- app_assoc. econstructor; eauto. Qed.

Definition second (r : res (ref * machine)) : res machine := match r with Ok p => Ok (snd p) | Err x => Err x end.

Lemma kept_app a b : held_map_kept (a ++ b) -> held_map_kept a /\ held_map_kept b.
Proof. intros K. split; intros t k m H; apply K; apply in_or_app; auto. Qed.
Lemma kept_cons a b : held_map_kept (a :: b) -> held_map_kept b.
Proof. intros K t k m H; apply K; right; auto. Qed.

Lemma oruns_seen s tr s' : oruns s tr s' -> inside s -> held_map_kept tr ->
  inside s' /\ runs (seen s) (flat_map shown tr) (seen s').
Proof.
  revert s tr s'.
  apply (oruns_mut
    (fun e s o tr s' r => inside s -> held_map_kept tr -> inside s' /\ runs (seen s) (flat_map shown tr) (seen s'))
    (fun e s tr s' r => inside s -> held_map_kept tr ->
       inside s' /\ get_run e (seen s) (flat_map shown tr) (seen s') (second r))
    (fun e g s tr s' r => inside s -> held_map_kept tr ->
       inside s' /\ gen_run e g (seen s) (flat_map shown tr) (seen s') r)
    (fun e s rv tr s' r => inside s -> held_map_kept tr ->
       inside s' /\ mock_rest e (seen s) rv (flat_map shown tr) (seen s') r)
    (fun s tr s' => inside s -> held_map_kept tr -> inside s' /\ runs (seen s) (flat_map shown tr) (seen s')));
    intros.
  - split.
    + apply (inside_step s (e, s, o, r)); auto. split; [reflexivity|left; exact H].
    + cbn [flat_map]. rewrite app_nil_r. apply step_seen; auto.
  - destruct (H0 H2 (kept_cons _ _ H3)) as [A B]. split; auto. cbn [flat_map]. subst res.
    apply (CGet e (seen s) (flat_map shown tr) (seen s') (second r)) in B.
    rewrite <- (app_nil_r (_ ++ _)).
    destruct r as [[k m]|x]; (eapply runs_cons; [exact B|constructor]).
  - destruct (H0 H2 (kept_cons _ _ H3)) as [A B]. split; auto. cbn [flat_map]. subst res.
    apply (CChip e (seen s) x y (flat_map shown tr) (seen s') (second r) _) with (2 := eq_refl) in B.
    rewrite <- (app_nil_r (_ ++ _)).
    destruct r as [[k m]|ex]; [|eapply runs_cons; [exact B|constructor]].
    cbn [second snd] in B. destruct (getitem m (x, y)); (eapply runs_cons; [exact B|constructor]).
  - assert (inside (o_touch e s)) as J.
    { destruct H1 as [I1 I2]. destruct (touch_frame e s) as (T1 & T2 & T3 & T4). split.
      - intros r. rewrite T1, T3. destruct (stale e); auto. intros X; discriminate X.
      - intros r. rewrite T2, T4. auto. }
    split; auto. rewrite seen_touch; auto. cbn. apply GHave. rewrite <- seen_touch; auto. cbn. unfold held_machine. rewrite H.
    destruct (touch_frame e s) as (T1 & _). rewrite T1. auto.
  - assert (inside (o_touch e s)) as J.
    { destruct H1 as [I1 I2]. destruct (touch_frame e s) as (T1 & T2 & T3 & T4). split.
      - intros r. rewrite T1, T3. destruct (stale e); auto. intros X; discriminate X.
      - intros r. rewrite T2, T4. auto. }
    split; auto. rewrite seen_touch; auto. cbn. apply GNone; rewrite <- seen_touch; auto. cbn. apply held_machine_none. auto.
  - assert (inside (o_touch e s)) as J.
    { destruct H4 as [I1 I2]. destruct (touch_frame e s) as (T1 & T2 & T3 & T4). split.
      - intros r0. rewrite T1, T3. destruct (stale e); auto. intros X; discriminate X.
      - intros r0. rewrite T2, T4. auto. }
    destruct (H2 J H5) as [A B]. split; auto. rewrite seen_touch in B; auto.
    replace (second res) with (match r with Err x => Err x
       | Ok _ => match d_machine (seen s') with None => Err MachineExc | Some m => Ok m end end).
    + eapply GGen; eauto; rewrite <- seen_touch; auto. cbn. apply held_machine_none. auto.
    + destruct r as [u|x]; [|subst; auto]. cbn. unfold held_machine.
      destruct (o_machine (ob_data s')); [|subst; auto]. destruct H3 as (m & -> & ->). auto.
  - destruct (H0 H1 H2) as [A B]. split; auto. apply RUser. auto.
  - pose proof (seen_version e s) as V. rewrite H in V. cbn in V.
    assert (inside s1) as J.
    { destruct (version_frame _ _ _ _ H) as (A & B & C & D). unfold inside. rewrite A, B, C, D. auto. }
    destruct (H1 J (kept_cons _ _ H3)) as [A B]. split; auto. cbn [flat_map].
    replace (shown _) with [(e, GetMachineVersion, vmap VVersion rv)] by (destruct rv; reflexivity).
    eapply RMock; eauto.
  - split; auto. constructor.
  - split; auto. constructor. auto.
  - assert (inside s2) as J.
    { subst. destruct H2 as [I1 I2]. split; cbn; auto. intros r [= <-]. rewrite app_length. cbn. lia. }
    split; auto. subst. cbn. unfold before, oop_of, ores_of, oenv_of. cbn.
    assert (nth_error (ob_machines s ++ [m]) (Datatypes.length (ob_machines s)) = Some m) as N.
    { rewrite nth_error_app2; auto. rewrite Nat.sub_diag. reflexivity. }
    unfold shown, before, oop_of, ores_of, oenv_of. cbn. rewrite N. cbn.
    replace (seen (with_data _ _)) with (set_d_machine (seen s) (Some m)); [apply MSet; auto|].
    unfold seen, set_d_machine, held_machine. cbn. rewrite N. reflexivity.
  - split; auto. constructor.
  - apply kept_app in H4 as [K1 K2]. destruct (H0 H3 K1) as [A B]. destruct (H2 A K2) as [C D]. split; auto.
    rewrite flat_map_app. eapply runs_app; eauto.
Qed.

(** To someone who sees values the history is one of Model_View, in which a change of the
    machine held is a set_machine: so C49 to C52 hold for programs that change their
    machines. *)
Theorem C87_as_values :
  forall tr s, oreach tr s -> held_map_kept tr -> reach (flat_map shown tr) (seen s).
Proof.
  intros tr s R K.
  apply (oruns_seen _ _ _ R); auto. split; intros r X; discriminate X.
Qed.
Print Assumptions C87_as_values.

(** ** Concrete histories *)

(** Runs calls that need no generator. *)
Fixpoint oexec (s : objects) (l : list (env * oop)) : option (otrace * objects) :=
  match l with
  | [] => Some ([], s)
  | (e, o) :: l' =>
      match object_step e s o with
      | Some (s', r) => match oexec s' l' with Some (tr, s'') => Some ((e, s, o, r) :: tr, s'') | None => None end
      | None => None
      end
  end.

Lemma oexec_runs l : forall s tr s', oexec s l = Some (tr, s') -> oruns s tr s'.
Proof.
  induction l as [|[e o] l IH]; cbn; intros s tr s' H; [injection H as <- <-; constructor|].
  destruct (object_step e s o) as [[s1 r1]|] eqn:E; [|discriminate H].
  destruct (oexec s1 l) as [[tr2 s2]|] eqn:A; [|discriminate H]. injection H as <- <-.
  apply (oruns_cons e s o [(e, s, o, r1)] s1 r1); [apply OCPlain; auto|auto].
Qed.

(** C50 forbids a map of physical ids next to a map of quads.  An empty map is let in,
    and its owner can fill it afterwards: no call raises, and both are there.  So the
    condition of C87_as_values is needed. *)
Theorem C87_exclusive_refuted :
  exists tr s, oreach tr s /\ (forall t, In t tr -> exists v, ores_of t = Ok v) /\ ~ held_map_kept tr /\
    (exists tr1 s1 n, ocall (demo_env 248) s (OView (GetPhysicalCoreId (0, 0) 1)) tr1 s1 (Ok (OOther (VInt n)))) /\
    (exists tr2 s2 q, ocall (demo_env 248) s (OView (GetPhysicalQuad 3)) tr2 s2 (Ok (OOther (VQuad q)))).
Proof.
  set (e := demo_env 248).
  destruct (oexec (mkObjects [] [] odata_new)
    [(e, ONewMap []); (e, OSetVtoP 0%nat); (e, OView GetMachineVersion); (e, OChangeMap 0%nat [((0, 0), [0; 5])])])
    as [[tr s]|] eqn:E; [|vm_compute in E; discriminate E].
  exists tr, s. split; [apply (oexec_runs _ _ _ _ E)|].
  vm_compute in E. injection E as <- <-. split; [|split; [|split]].
  - intros t [<-|[<-|[<-|[<-|[]]]]]; eexists; reflexivity.
  - intros K. eapply K; [right; right; right; left; reflexivity|reflexivity|reflexivity].
  - do 3 eexists. apply OCPlain. vm_compute. reflexivity.
  - do 3 eexists. apply OCPlain. vm_compute. reflexivity.
Qed.
Print Assumptions C87_exclusive_refuted.

(** A machine is set, changed through the object that the program kept, and given by the
    view as changed; the other machine of the program is not seen. *)
Definition grown_machine : machine := new_machine NoWrap 8 8 [] "grown"%string.

Example C87_case :
  let e := demo_env 5 in
  exists tr s, oreach tr s /\ held_map_kept tr /\ object_after None tr = Some 0%nat /\
    machines_after [] tr = [grown_machine; empty_machine] /\
    map (fun t => op_of t) (flat_map shown tr) =
      [SetMachine (Some empty_machine); SetMachine (Some grown_machine); HasExistingMachine] /\
    ocall e s (OView GetMachine) [(e, s, OView GetMachine, Ok (OMachine 0%nat grown_machine))] s
      (Ok (OMachine 0%nat grown_machine)).
Proof.
  set (e := demo_env 5).
  destruct (oexec (mkObjects [] [] odata_new)
    [(e, ONewMachine empty_machine); (e, OSetMachine (Some 0%nat)); (e, ONewMachine grown_machine);
     (e, OChangeMachine 0%nat grown_machine); (e, OChangeMachine 1%nat empty_machine); (e, OView HasExistingMachine)])
    as [[tr s]|] eqn:E; [|discriminate E].
  exists tr, s. split; [apply (oexec_runs _ _ _ _ E)|]. apply oexec_runs in E as R.
  injection E as <- <-.
  split; [|split; [|split; [|split]]]; try reflexivity.
  - intros t k m H. repeat (destruct H as [<-|H]; [intros X; discriminate X|]). destruct H.
  - eapply OCGet; [apply OGHave; reflexivity|reflexivity].
Qed.
