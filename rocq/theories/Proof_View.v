(** Proofs about the machine data view. *)
From Coq Require Import String Lia.
From Verif Require Import Model_Py Model_Version Model_Core Model_Machine Model_Factory Model_Virtual Model_Text Model_View Spec_View.
Open Scope list_scope.
Open Scope Z_scope.

(** Histories as steps of single entries *)
Definition mstep (d : data) (t : env * op * res value) (d' : data) : Prop :=
  plain_step (env_of t) d (op_of t) = Some (d', res_of t) \/
  (asks_machine (op_of t) = true /\ d' = touch (env_of t) d).

Inductive msteps : data -> trace -> data -> Prop :=
| ms_nil d : msteps d [] d
| ms_cons d t d1 tr d2 : mstep d t d1 -> msteps d1 tr d2 -> msteps d (t :: tr) d2.

Lemma msteps_app d tr d1 tr' d2 : msteps d tr d1 -> msteps d1 tr' d2 -> msteps d (tr ++ tr') d2.
Proof. induction 1; intros; cbn; auto. econstructor; eauto. Qed.

Lemma msteps_split tr : forall d tr' d2, msteps d (tr ++ tr') d2 -> exists d1, msteps d tr d1 /\ msteps d1 tr' d2.
Proof.
  induction tr as [|t tr IH]; cbn; intros d tr' d2 H.
  - exists d. split; auto. constructor.
  - inversion H; subst. destruct (IH _ _ _ H5) as (d3 & A & B). exists d3. split; auto. econstructor; eauto.
Qed.

Scheme call_mut := Minimality for call Sort Prop
with get_run_mut := Minimality for get_run Sort Prop
with gen_run_mut := Minimality for gen_run Sort Prop
with mock_rest_mut := Minimality for mock_rest Sort Prop
with runs_mut := Minimality for runs Sort Prop.
Lemma runs_micro d tr d' : runs d tr d' -> msteps d tr d'.
Proof.
  revert d tr d'.
  apply (runs_mut (fun _ d _ tr d' _ => msteps d tr d')
    (fun e d tr d' _ => msteps (touch e d) tr d')
    (fun _ _ d tr d' _ => msteps d tr d')
    (fun _ d _ tr d' _ => msteps d tr d')
    (fun d tr d' => msteps d tr d')); intros; try (constructor; fail); auto.
  - econstructor; [left; cbn; eassumption|constructor].
  - econstructor; [right; cbn; eauto|auto].
  - econstructor; [right; cbn; eauto|auto].
  - econstructor; [left; cbn; rewrite H; reflexivity|auto].
  - econstructor; [left; reflexivity|constructor].
  - eapply msteps_app; eauto.
Qed.

Lemma call_micro e d o tr d' r : call e d o tr d' r -> msteps d tr d'.
Proof. intros H. apply runs_micro. rewrite <- (app_nil_r tr). econstructor; eauto. constructor. Qed.

(** Induction from the start of a history *)
Lemma micro_ind (Inv : trace -> data -> Prop) :
  (forall pre d t d', Inv pre d -> mstep d t d' -> Inv (pre ++ [t]) d') ->
  forall d tr d', msteps d tr d' -> forall pre, Inv pre d -> Inv (pre ++ tr) d'.
Proof.
  intros H d tr d' S. induction S; intros pre I.
  - rewrite app_nil_r. auto.
  - replace (pre ++ t :: tr) with ((pre ++ [t]) ++ tr) by (rewrite <- app_assoc; reflexivity). eauto.
Qed.

(** What one entry does to each field *)
Ltac cases_step t H :=
  destruct t as [[e o] r]; cbn [env_of op_of res_of fst snd] in *;
  destruct H as [H|[Ha ->]];
  [ destruct o; cbn in H; try discriminate
  | destruct o; cbn in Ha; try discriminate ].

Lemma version_cases e d d' r : get_machine_version e d = (d', r) ->
  d_machine d' = d_machine d /\ d_generator d' = d_generator d /\ d_all_monitors d' = d_all_monitors d /\
  d_eth_monitors d' = d_eth_monitors d /\ d_user_accessed d' = d_user_accessed d /\ d_v_to_p d' = d_v_to_p d.
Proof.
  unfold get_machine_version. destruct (d_version d); [intros [= <- <-]; repeat split|].
  destruct (version_factory _ _); [|intros [= <- <-]; repeat split].
  cbn. destruct (_ && _); intros [= <- <-]; repeat split.
Qed.

Lemma quad_cases e d p d' r : get_physical_quad e d p = (d', r) ->
  d_machine d' = d_machine d /\ d_generator d' = d_generator d /\ d_all_monitors d' = d_all_monitors d /\
  d_eth_monitors d' = d_eth_monitors d /\ d_user_accessed d' = d_user_accessed d /\ d_v_to_p d' = d_v_to_p d.
Proof.
  unfold get_physical_quad. destruct (d_quad_map d); [intros [= <- <-]; repeat split|].
  destruct (get_machine_version e d) as [d1 [v|x]] eqn:E; apply version_cases in E.
  - destruct (d_quad_map d1); intros [= <- <-]; auto.
  - intros [= <- <-]; auto.
Qed.

Lemma vtop_cases d m d' r : set_v_to_p_map d m = (d', r) ->
  d_machine d' = d_machine d /\ d_generator d' = d_generator d /\ d_all_monitors d' = d_all_monitors d /\
  d_eth_monitors d' = d_eth_monitors d /\ d_user_accessed d' = d_user_accessed d /\
  d_version d' = d_version d /\ d_quad_map d' = d_quad_map d /\
  ((exists u, r = Ok u) /\ d_v_to_p d = None /\ d_v_to_p d' = Some m /\ dict_true (d_quad_map d) = false
   \/ r = Err MachineExc /\ d_v_to_p d' = d_v_to_p d).
Proof.
  unfold set_v_to_p_map. destruct (dict_true (d_quad_map d)) eqn:Q; [intros [= <- <-]; repeat split; auto|].
  destruct (d_v_to_p d) eqn:V; intros [= <- <-]; cbn; repeat split; auto. left. eauto.
Qed.

(** The machine, the generator, the user flag *)
Definition fields (d : data) := (d_machine d, d_generator d, d_user_accessed d).

Lemma step_machine d t d' : mstep d t d' ->
  d_machine d' = (match op_of t with
    | SetMachine (Some m) => Some m
    | ClearMachine | HardReset | Setup | Mock => None
    | GetMachine | GetChipAt _ _ => if stale (env_of t) then None else d_machine d
    | _ => d_machine d
    end) /\
  d_generator d' = (match op_of t with
    | SetMachineGenerator (Some g) => Some (UserGen g)
    | Mock => Some MockGen
    | Setup => None
    | _ => d_generator d
    end) /\
  d_user_accessed d' = (if resets (op_of t) then false
     else (asks_machine (op_of t) && e_user_mode (env_of t)) || d_user_accessed d) /\
  d_eth_monitors d' = (if resets (op_of t) then 0 else if is_add (op_of t) then d_eth_monitors d + 1 else d_eth_monitors d) /\
  d_all_monitors d' = (if resets (op_of t) then 0 else if is_add_all (op_of t) then d_all_monitors d + 1 else d_all_monitors d).
Proof.
  intros H. cases_step t H; cbn;
  try (match type of H with Some _ = Some _ => injection H as <- <- end; cbn; auto 6; fail).
  - destruct (get_machine_version e d) as [d1 r1] eqn:E. apply version_cases in E as (A & B & C & D & F & G).
    injection H as <- <-. auto.
  - destruct (set_v_to_p_map d map) as [d1 r1] eqn:E. apply vtop_cases in E as (A & B & C & D & F & G).
    injection H as <- <-. auto.
  - destruct (get_physical_quad e d p) as [d1 r1] eqn:E. apply quad_cases in E as (A & B & C & D & F & G).
    injection H as <- <-. auto.
  - destruct m; injection H as <- <-; cbn; auto.
  - destruct g; injection H as <- <-; cbn; auto.
  - destruct all_chips; injection H as <- <-; cbn; auto.
  - unfold touch, stale. destruct (e_user_mode e) eqn:U; cbn; auto 6.
  - unfold touch, stale. destruct (e_user_mode e) eqn:U; cbn; auto 6.
Qed.

Lemma machine_snoc tr t : machine_after (tr ++ [t]) = match op_of t with
    | SetMachine (Some m) => Some m
    | ClearMachine | HardReset | Setup | Mock => None
    | GetMachine | GetChipAt _ _ => if stale (env_of t) then None else machine_after tr
    | _ => machine_after tr
    end.
Proof. unfold machine_after. rewrite fold_left_app. reflexivity. Qed.

Lemma generator_snoc tr t : generator_after (tr ++ [t]) = match op_of t with
    | SetMachineGenerator (Some g) => Some (UserGen g)
    | Mock => Some MockGen
    | Setup => None
    | _ => generator_after tr
    end.
Proof. unfold generator_after. rewrite fold_left_app. reflexivity. Qed.

Lemma since_snoc f tr t : since f (tr ++ [t]) = if f (op_of t) then [] else since f tr ++ [t].
Proof. unfold since. rewrite fold_left_app. reflexivity. Qed.

Lemma count_snoc f tr t : count f (tr ++ [t]) = count f tr + (if f (op_of t) then 1 else 0).
Proof.
  unfold count. rewrite filter_app, app_length. cbn. destruct (f (op_of t)); cbn; lia.
Qed.

(** A history without such calls *)
Lemma since_none f tr : (forall t, In t tr -> f (op_of t) = false) -> forall pre, since f (pre ++ tr) = since f pre ++ tr.
Proof.
  induction tr as [|t tr IH]; intros H pre; [rewrite !app_nil_r; auto|].
  replace (pre ++ t :: tr) with ((pre ++ [t]) ++ tr) by (rewrite <- app_assoc; reflexivity).
  rewrite IH by (intros; apply H; right; auto). rewrite since_snoc, (H t) by (left; auto).
  rewrite <- app_assoc. reflexivity.
Qed.

Lemma since_last f tr t tr' : f (op_of t) = true -> (forall t, In t tr' -> f (op_of t) = false) ->
  since f (tr ++ t :: tr') = tr'.
Proof.
  intros H1 H2. replace (tr ++ t :: tr') with ((tr ++ [t]) ++ tr') by (rewrite <- app_assoc; reflexivity).
  rewrite since_none by auto. rewrite since_snoc, H1. reflexivity.
Qed.

Record view_inv (tr : trace) (d : data) : Prop := {
  vi_machine : d_machine d = machine_after tr;
  vi_generator : d_generator d = generator_after tr;
  vi_user : d_user_accessed d = existsb (fun t => asks_machine (op_of t) && e_user_mode (env_of t)) (since resets tr);
  vi_eth : d_eth_monitors d = count is_add (since resets tr);
  vi_all : d_all_monitors d = count is_add_all (since resets tr)
}.

Lemma view_inv_step pre d t d' : view_inv pre d -> mstep d t d' -> view_inv (pre ++ [t]) d'.
Proof.
  intros [I1 I2 I3 I4 I5] H. apply step_machine in H as (A & B & C & D & E).
  split; rewrite ?machine_snoc, ?generator_snoc, ?since_snoc.
  - rewrite A, I1. auto.
  - rewrite B, I2. auto.
  - rewrite C, I3. destruct (resets (op_of t)); auto. rewrite existsb_app. cbn.
    rewrite Bool.orb_false_r, Bool.orb_comm. auto.
  - rewrite D, I4. destruct (resets (op_of t)); auto. rewrite count_snoc. destruct (is_add _); lia.
  - rewrite E, I5. destruct (resets (op_of t)); auto. rewrite count_snoc. destruct (is_add_all _); lia.
Qed.

Lemma view_inv_new : view_inv [] data_new.
Proof. split; reflexivity. Qed.

Lemma reach_inv tr d : reach tr d -> view_inv tr d.
Proof.
  intros H. apply runs_micro in H. apply (micro_ind view_inv view_inv_step _ _ _ H []). apply view_inv_new.
Qed.

Lemma call_inv tr d e o tr' d' r : reach tr d -> call e d o tr' d' r -> view_inv (tr ++ tr') d'.
Proof.
  intros H1 H2. apply reach_inv in H1. apply call_micro in H2. apply (micro_ind view_inv view_inv_step _ _ _ H2 _ H1).
Qed.

Lemma runs_app d tr d1 tr' d2 : runs d tr d1 -> runs d1 tr' d2 -> runs d (tr ++ tr') d2.
Proof. induction 1; intros; cbn; auto. rewrite <- app_assoc. econstructor; eauto. Qed.

Lemma reach_call tr d e o tr' d' r : reach tr d -> call e d o tr' d' r -> reach (tr ++ tr') d'.
Proof.
  intros H1 H2. eapply runs_app; eauto.
  rewrite <- (app_nil_r tr'). econstructor; eauto. constructor.
Qed.

(** Plain calls happen exactly as [plain_step] says. *)
Lemma call_plain e d o tr d' r : asks_machine o = false -> call e d o tr d' r ->
  tr = [(e, o, r)] /\ plain_step e d o = Some (d', r).
Proof. intros A H. inversion H; subst; auto; discriminate. Qed.

(** ** The maps and the version *)
Lemma plain_maps e d o d' r : plain_step e d o = Some (d', r) -> reads_version o = false ->
  d_version d' = (if forgets_all o then None else d_version d) /\
  d_quad_map d' = (if forgets_all o then None else d_quad_map d).
Proof.
  intros H R. destruct o; cbn in *; try discriminate;
  try (injection H as <- <-; cbn; auto; fail).
  - destruct (set_v_to_p_map d map) as [d1 r1] eqn:E. apply vtop_cases in E as (A & B & C & D & F & G & I & _).
    injection H as <- <-. auto.
  - destruct m; injection H as <- <-; auto.
  - destruct g; injection H as <- <-; auto.
Qed.

(** The quad map is that of the version; when it clashes, a call said so. *)
Definition maps_inv (tr : trace) (d : data) : Prop :=
  d_quad_map d = (match d_version d with Some v => quads_maps (v_id v) | None => None end) /\
  (dict_true (d_quad_map d) = true -> dict_true (d_v_to_p d) = true ->
   exists t, In t (since resets tr) /\ reads_version (op_of t) = true /\ res_of t = Err MachineExc).

Lemma version_maps e d d' r : get_machine_version e d = (d', r) ->
  d_quad_map d = (match d_version d with Some v => quads_maps (v_id v) | None => None end) ->
  d_quad_map d' = (match d_version d' with Some v => quads_maps (v_id v) | None => None end) /\
  (d' = d /\ (d_version d = None -> exists x, r = Err x) \/
   dict_true (d_quad_map d') && dict_true (d_v_to_p d') = false \/ r = Err MachineExc) /\
  (forall v, d_version d = Some v -> d' = d /\ r = Ok v).
Proof.
  unfold get_machine_version. destruct (d_version d) as [v0|] eqn:V.
  - intros [= <- <-] Q. rewrite V. split; auto. split; [left; split; [auto|discriminate]|]. intros v [= ->]. auto.
  - intros H Q. destruct (version_factory _ _) as [v|x]; [|injection H as <- <-; rewrite V; split; auto; split; [left; eauto|discriminate]].
    cbn in H. destruct (dict_true (quads_maps (v_id v)) && dict_true (d_v_to_p d)) eqn:T; injection H as <- <-; cbn; split; auto;
    split; auto; discriminate.
Qed.

Lemma maps_inv_step pre d t d' : maps_inv pre d -> mstep d t d' -> maps_inv (pre ++ [t]) d'.
Proof.
  intros [I1 I2] H.
  assert (forall d1, d_version d1 = d_version d -> d_quad_map d1 = d_quad_map d ->
    (dict_true (d_v_to_p d1) = true -> dict_true (d_v_to_p d) = true \/ dict_true (d_quad_map d) = false) ->
    resets (op_of t) = false -> maps_inv (pre ++ [t]) d1) as KEEP.
  { intros d1 A B C D. split; [rewrite A, B; auto|]. rewrite B. intros E F. rewrite since_snoc, D.
    destruct (C F) as [G|G]; [|congruence].
    destruct (I2 E G) as (s & S1 & S2). exists s. split; auto. apply in_or_app. auto. }
  destruct H as [H|[Ha ->]].
  2:{ apply KEEP; unfold touch; try (destruct (e_user_mode _); auto; fail).
      destruct t as [[e o] r]; destruct o; cbn in *; auto; discriminate. }
  destruct (reads_version (op_of t)) eqn:R.
  - (* the version is read *)
    assert (resets (op_of t) = false) as RS by (destruct t as [[e o] r]; destruct o; cbn in *; auto; discriminate).
    assert (exists r1, (get_machine_version (env_of t) d = (d', r1) /\
       (r1 = Err MachineExc -> res_of t = Err MachineExc)) \/ d' = d) as (r1 & [[H1 H2]| ->]).
    { destruct t as [[e o] r]; destruct o; cbn in *; try discriminate.
      - destruct (get_machine_version e d) as [d1 r1]. exists r1. left. injection H as <- <-. split; auto. intros ->. auto.
      - unfold get_physical_quad in H. destruct (d_quad_map d); [injection H as <- <-; exists (Err KeyError); auto|].
        destruct (get_machine_version e d) as [d1 [v|x]]; exists (if true then Err x else Err x) || exists (Ok v); left.
        + destruct (d_quad_map d1); injection H as <- <-; split; auto; discriminate.
        + injection H as <- <-. split; auto. intros [= ->]. auto. }
    + destruct (version_cases _ _ _ _ H1) as (_ & _ & _ & _ & _ & VP).
      destruct (version_maps _ _ _ _ H1 I1) as (A & B & C). split; auto. intros E F.
      rewrite since_snoc, RS. destruct B as [[-> _]|[B|B]].
      * destruct (I2 E F) as (s & S1 & S2). exists s. split; auto. apply in_or_app. auto.
      * rewrite E, F in B. discriminate.
      * exists t. split; [apply in_or_app; right; left; auto|]. auto.
    + apply KEEP; auto.
  - destruct (plain_maps _ _ _ _ _ H R) as [A B].
    destruct (forgets_all (op_of t)) eqn:FA.
    + split; [rewrite A, B; auto|]. rewrite B. discriminate.
    + destruct (resets (op_of t)) eqn:RS.
      * destruct t as [[e o] r]; destruct o; cbn in *; try discriminate. injection H as <- <-. cbn. split; auto.
        cbn. discriminate.
      * apply KEEP; auto. destruct t as [[e o] r]; destruct o; cbn in *; try discriminate;
        try (injection H as <- <-; cbn; auto; fail).
        -- destruct (set_v_to_p_map d map) as [d1 r1] eqn:E. apply vtop_cases in E as (_ & _ & _ & _ & _ & _ & _ & D).
           injection H as <- <-. destruct D as [(_ & _ & _ & D)|[_ D]]; [auto|]. rewrite D. auto.
        -- destruct m; injection H as <- <-; auto.
        -- destruct g; injection H as <- <-; auto.
Qed.

Lemma reach_maps tr d : reach tr d -> maps_inv tr d.
Proof.
  intros H. apply runs_micro in H. apply (micro_ind maps_inv maps_inv_step _ _ _ H []). split; [reflexivity|discriminate].
Qed.

(** The map set stays until a reset. *)
Lemma vtop_stays d tr d' : msteps d tr d' -> (forall t, In t tr -> resets (op_of t) = false) ->
  forall m, d_v_to_p d = Some m -> d_v_to_p d' = Some m.
Proof.
  induction 1 as [|d t d1 tr d2 H S IH]; intros R m V; auto. apply IH; [intros; apply R; right; auto|].
  specialize (R t (or_introl eq_refl)).
  cases_step t H; try (cbn in R; discriminate); try (injection H as <- <-; cbn; auto; fail).
  - destruct (get_machine_version e d) as [d3 r1] eqn:E. apply version_cases in E as (_ & _ & _ & _ & _ & G).
    injection H as <- <-. congruence.
  - destruct (set_v_to_p_map d map) as [d3 r1] eqn:E. apply vtop_cases in E as (_ & _ & _ & _ & _ & _ & _ & D).
    injection H as <- <-. destruct D as [(_ & D & _)|[_ D]]; congruence.
  - destruct (get_physical_quad e d p) as [d3 r1] eqn:E. apply quad_cases in E as (_ & _ & _ & _ & _ & G).
    injection H as <- <-. congruence.
  - match type of H with (match ?x with _ => _ end) = _ => destruct x end; injection H as <- <-; cbn; auto.
  - destruct g; injection H as <- <-; cbn; auto.
  - unfold touch. destruct (e_user_mode _); auto.
  - unfold touch. destruct (e_user_mode _); auto.
Qed.

(** The version stays until everything is forgotten. *)
Lemma version_stays d tr d' : msteps d tr d' -> (forall t, In t tr -> forgets_all (op_of t) = false) ->
  forall v, d_version d = Some v -> d_version d' = Some v.
Proof.
  induction 1 as [|d t d1 tr d2 H S IH]; intros R v V; auto. apply IH; [intros; apply R; right; auto|].
  specialize (R t (or_introl eq_refl)).
  assert (forall e d3 r1, get_machine_version e d = (d3, r1) -> d_version d3 = Some v) as G.
  { intros e d3 r1 E. unfold get_machine_version in E. rewrite V in E. injection E as <- _. auto. }
  destruct H as [H|[_ ->]]; [|unfold touch; destruct (e_user_mode _); auto].
  destruct (reads_version (op_of t)) eqn:RV.
  - destruct t as [[e o] r]; destruct o; cbn in *; try discriminate.
    + destruct (get_machine_version e d) as [d3 r1] eqn:E. injection H as <- <-. eauto.
    + unfold get_physical_quad in H. destruct (d_quad_map d); [injection H as <- <-; auto|].
      destruct (get_machine_version e d) as [d3 [v1|x]] eqn:E; [destruct (d_quad_map d3)|]; injection H as <- <-; eauto.
  - destruct (plain_maps _ _ _ _ _ H RV) as [A _]. rewrite R in A. congruence.
Qed.

(** Without a reading of the version there is none. *)
Lemma reach_unread tr d : reach tr d -> (forall t, In t (since forgets_all tr) -> reads_version (op_of t) = false) ->
  d_version d = None.
Proof.
  intros R. apply runs_micro in R.
  apply (micro_ind (fun tr d => (forall t, In t (since forgets_all tr) -> reads_version (op_of t) = false) ->
     d_version d = None)) with (pre := []) (2 := R); [|reflexivity].
  clear tr d R. intros pre d t d' I H N. rewrite since_snoc in N.
  destruct (forgets_all (op_of t)) eqn:F.
  - destruct H as [H|[H _]]; [|destruct (op_of t); discriminate].
    destruct (plain_maps _ _ _ _ _ H) as [A _]; [destruct (op_of t); auto; discriminate|]. rewrite F in A. auto.
  - assert (d_version d = None) as V by (apply I; intros; apply N, in_or_app; auto).
    assert (reads_version (op_of t) = false) as RV by (apply N, in_or_app; right; left; auto).
    destruct H as [H|[_ ->]]; [|unfold touch; destruct (e_user_mode _); auto].
    destruct (plain_maps _ _ _ _ _ H RV) as [A _]. rewrite F in A. congruence.
Qed.

(** A map that is held was set. *)
Lemma reach_vtop tr d : reach tr d -> forall m, d_v_to_p d = Some m ->
  exists t, In t (since resets tr) /\ op_of t = SetVtoP m /\ res_of t = Ok VNone.
Proof.
  intros R. apply runs_micro in R.
  apply (micro_ind (fun tr d => forall m, d_v_to_p d = Some m ->
     exists t, In t (since resets tr) /\ op_of t = SetVtoP m /\ res_of t = Ok VNone)) with (pre := []) (2 := R); [|discriminate].
  clear tr d R. intros pre d t d' I H m V. rewrite since_snoc.
  assert (d_v_to_p d = Some m -> resets (op_of t) = false ->
    exists s, In s (if resets (op_of t) then [] else since resets pre ++ [t]) /\ op_of s = SetVtoP m /\ res_of s = Ok VNone) as K.
  { intros D ->. destruct (I _ D) as (s & A & B). exists s. split; auto. apply in_or_app; auto. }
  cases_step t H; try (injection H as <- <-; cbn in V; try discriminate; auto; fail).
  - destruct (get_machine_version e d) as [d3 r1] eqn:E. apply version_cases in E as (_ & _ & _ & _ & _ & G).
    injection H as <- <-. apply K; auto. congruence.
  - destruct (set_v_to_p_map d map) as [d3 r1] eqn:E. apply vtop_cases in E as (_ & _ & _ & _ & _ & _ & _ & D).
    injection H as <- <-. destruct D as [((u & ->) & _ & D & _)|[_ D]]; [|apply K; auto; congruence].
    eexists. split; [apply in_or_app; right; left; reflexivity|]. cbn. split; auto. congruence.
  - destruct (get_physical_quad e d p) as [d3 r1] eqn:E. apply quad_cases in E as (_ & _ & _ & _ & _ & G).
    injection H as <- <-. apply K; auto. congruence.
  - match type of H with (match ?x with _ => _ end) = _ => destruct x end; injection H as <- <-; apply K; auto.
  - destruct g; injection H as <- <-; apply K; auto.
  - apply K; auto. unfold touch in V. destruct (e_user_mode _); auto.
  - apply K; auto. unfold touch in V. destruct (e_user_mode _); auto.
Qed.
