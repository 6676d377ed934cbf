(** Chip objects by identity: the heap version of machine_repair and the version by value. *)
From Coq Require Import Lia Arith.
From Verif Require Import Model_Py Model_Wrap Model_Version Model_Core Model_Machine Model_Repair
  Model_Mutate Model_Heap Spec_Machine Spec_Repair Spec_Heap Proof_Py Proof_Board Proof_Wrap
  Proof_Concentric Proof_Machine Proof_Report Proof_Repair Proof_RepairEnd Proof_Again.
Open Scope list_scope.
Open Scope Z_scope.

(** ** The heap *)
Lemma deref_old s t i : (i < List.length s)%nat -> deref (s ++ t) i = deref s i.
Proof. intros L. unfold deref. apply app_nth1. exact L. Qed.

Lemma deref_new s c : deref (s ++ [c]) (List.length s) = c.
Proof. unfold deref. rewrite app_nth2 by lia. rewrite Nat.sub_diag. reflexivity. Qed.

Lemma store_length s : forall i c, List.length (store s i c) = List.length s.
Proof. induction s as [|a s IH]; intros [|i] c; cbn; auto. Qed.

Lemma deref_store s : forall i j c, (i < List.length s)%nat ->
  deref (store s i c) j = if Nat.eqb j i then c else deref s j.
Proof.
  unfold deref. induction s as [|a s IH]; intros i j c L; [cbn in L; lia|].
  destruct i as [|i], j as [|j]; cbn in *; auto. apply IH. lia.
Qed.

(** References that exist. *)
Definition inside (s : heap) (h : hmachine) : Prop :=
  (forall p i, In (p, i) (h_chips h) -> (i < List.length s)%nat) /\
  (forall i, In i (h_eth h) -> exists p, In (p, i) (h_chips h)).

Lemma view_change s s' h : inside s h ->
  (forall p i, In (p, i) (h_chips h) -> deref s' i = deref s i) -> view s' h = view s h.
Proof.
  intros [I1 I2] D. unfold view. f_equal.
  - apply map_ext_in. intros i Hi. destruct (I2 i Hi) as [p Hp]. eauto.
  - apply map_ext_in. intros [p i] Hi. cbn [fst snd]. f_equal. eauto.
Qed.

Lemma view_more s t h : inside s h -> view (s ++ t) h = view s h.
Proof. intros I. apply view_change; auto. intros p i H. apply deref_old. apply I in H. auto. Qed.

Lemma inside_more s t h : inside s h -> inside (s ++ t) h.
Proof. intros [I1 I2]. split; auto. intros p i H. apply I1 in H. rewrite app_length. lia. Qed.

Lemma view_chips s h : chips (view s h) = map (deref s) (dvalues (h_chips h)).
Proof. unfold chips, view, dvalues. cbn [m_chips]. rewrite !map_map. reflexivity. Qed.

Lemma view_dget s (d : dict XY ref) p : dget xy_eqb (map (fun e => (fst e, deref s (snd e))) d) p =
  option_map (deref s) (dget xy_eqb d p).
Proof. induction d as [|[q i] d IH]; cbn; auto. destruct (xy_eqb q p); auto. Qed.

Lemma view_dmem s d p : dmem xy_eqb (map (fun e => (fst e, deref s (snd e))) d) p = dmem xy_eqb d p.
Proof. unfold dmem. rewrite view_dget. destruct (dget xy_eqb d p); reflexivity. Qed.

Lemma view_dset s d p i : map (fun e => (fst e, deref s (snd e))) (dset xy_eqb d p i) =
  dset xy_eqb (map (fun e => (fst e, deref s (snd e))) d) p (deref s i).
Proof. induction d as [|[q j] d IH]; cbn; auto. destruct (xy_eqb q p); cbn; congruence. Qed.

Lemma object_view s h p : get_chip_at (view s h) (fst p) (snd p) = option_map (deref s) (object_at h p).
Proof. destruct p. unfold get_chip_at, object_at. cbn [view m_chips fst snd]. apply view_dget. Qed.

(** ** add_chip *)
Lemma hadd_view s n i :
  match hadd_chip s n i with
  | Ok n' => add_chip (view s n) (deref s i) = Ok (view s n')
  | Err e => add_chip (view s n) (deref s i) = Err e
  end.
Proof.
  unfold hadd_chip, add_chip. cbn [view m_chips]. rewrite view_dmem.
  destruct (dmem xy_eqb (h_chips n) (c_xy (deref s i))); [reflexivity|].
  destruct (c_ip (deref s i)) eqn:IP; unfold view;
    cbn [m_kind m_width m_height m_ccm m_eth m_spin m_fpga m_boot m_origin m_cores_counter
      m_links_counter m_entries_counter m_sdram_counter h_kind h_width h_height h_ccm h_eth h_spin
      h_fpga h_boot h_chips h_origin h_cores_counter h_links_counter h_entries_counter
      h_sdram_counter]; rewrite view_dset, ?map_app; reflexivity.
Qed.

Definition eth_of (s : heap) (d : dict XY ref) : list ref :=
  dvalues (filter (fun e => match c_ip (deref s (snd e)) with Some _ => true | None => false end) d).

Lemma eth_of_more s t d : (forall p i, In (p, i) d -> (i < List.length s)%nat) ->
  eth_of (s ++ t) d = eth_of s d.
Proof.
  intros H. unfold eth_of. f_equal. apply filter_ext_in. intros [p i] Hi. cbn [snd].
  rewrite deref_old; eauto.
Qed.

Lemma hadd_parts s n i n' : hadd_chip s n i = Ok n' ->
  h_chips n' = h_chips n ++ [(c_xy (deref s i), i)] /\
  (h_eth n = eth_of s (h_chips n) -> h_eth n' = eth_of s (h_chips n')).
Proof.
  unfold hadd_chip. destruct (dmem xy_eqb (h_chips n) (c_xy (deref s i))) eqn:M; [discriminate|].
  apply (dmem_false xy_eqb xyeqb_eq) in M. rewrite (dset_new xy_eqb xyeqb_eq) by auto.
  unfold eth_of, dvalues. destruct (c_ip (deref s i)) eqn:IP; intros E; apply Ok_inj in E; subst n';
    cbn [h_chips h_eth]; split; auto; intros ->; rewrite filter_app, map_app; cbn [filter map snd];
    rewrite IP; cbn [map snd]; rewrite ?app_nil_r; reflexivity.
Qed.

(** ** The loop of _machine_ignore *)
Definition in_order (s : heap) (n : hmachine) : Prop :=
  (forall p i, In (p, i) (h_chips n) -> (i < List.length s)%nat) /\ h_eth n = eth_of s (h_chips n).

Lemma in_order_inside s n : in_order s n -> inside s n.
Proof.
  intros [I1 I2]. split; auto. intros i H. rewrite I2 in H. unfold eth_of, dvalues in H.
  apply in_map_iff in H as ([p j] & E & H). cbn in E. subst j. apply filter_In in H as [H _]. eauto.
Qed.

Lemma in_order_more s t n : in_order s n -> in_order (s ++ t) n.
Proof.
  intros [I1 I2]. split.
  - intros p i H. apply I1 in H. rewrite app_length. lia.
  - rewrite eth_of_more; auto.
Qed.

(** The object [j] of the new machine made of the object [i] of heap [s]. *)
Definition from_object (s s' : heap) (dl : list (Z * Z * Z * Z)) (i j : ref) : Prop :=
  if touched dl (c_xy (deref s i))
  then (List.length s <= j)%nat /\ deref s' j = reduce dl (deref s i)
  else j = i.

Definition loop_step dc dl := (fun n ch => if xymem dc (c_xy ch) then Ok n
      else do ch' <- copy_chip dl ch ; add_chip n ch').

Lemma copy_plain dl ch : touched dl (c_xy ch) = false -> copy_chip dl ch = Ok ch.
Proof. intros T. unfold copy_chip. fold (touched dl (c_xy ch)). rewrite T. reflexivity. Qed.

Lemma ignore_loop dc dl rs : forall s n, in_order s n ->
  (forall i, In i rs -> (i < List.length s)%nat /\ proper (deref s i)) ->
  match fold_res (hignore_step dc dl) rs (s, n) with
  | Ok (s', n') =>
      (exists t, s' = s ++ t) /\ in_order s' n' /\
      fold_res (loop_step dc dl) (map (deref s) rs) (view s n) = Ok (view s' n') /\
      (forall p j, In (p, j) (h_chips n') -> In (p, j) (h_chips n) \/
         exists i, In i rs /\ p = c_xy (deref s i) /\ from_object s s' dl i j)
  | Err e => fold_res (loop_step dc dl) (map (deref s) rs) (view s n) = Err e
  end.
Proof.
  induction rs as [|i rs IH]; intros s n O R; cbn [fold_res map].
  { repeat split; auto; try apply O. exists []. rewrite app_nil_r. auto. }
  destruct (R i (or_introl eq_refl)) as [Li Pi].
  assert (forall j, In j rs -> (j < List.length s)%nat /\ proper (deref s j)) as R'
    by (intros j Hj; apply R; right; auto).
  unfold hignore_step at 1. unfold loop_step at 1 3.
  destruct (xymem dc (c_xy (deref s i))) eqn:X; cbn [bind].
  { specialize (IH s n O R'). destruct (fold_res (hignore_step dc dl) rs (s, n)) as [[s' n']|e]; auto.
    destruct IH as (A & B & C & D). split; [exact A|]. split; [exact B|]. split; [exact C|].
    intros p j H. destruct (D p j H) as [D1|(k & D1 & D2)]; auto. right. exists k. split; auto. right; auto. }
  unfold hcopy_chip. fold (touched dl (c_xy (deref s i))).
  destruct (touched dl (c_xy (deref s i))) eqn:T.
  - rewrite (copy_eq dl _ Pi). cbn [bind alloc fst snd].
    set (c' := reduce dl (deref s i)). set (s1 := s ++ [c']).
    assert (deref s1 (List.length s) = c') as D1 by apply deref_new.
    pose proof (hadd_view s1 n (List.length s)) as HV. rewrite D1 in HV.
    unfold s1 in HV at 2 4. rewrite (view_more s [c'] n (in_order_inside _ _ O)) in HV. fold s1 in HV.
    destruct (hadd_chip s1 n (List.length s)) as [n1|e] eqn:HA; rewrite HV; cbn [bind]; auto.
    apply hadd_parts in HA as [HC HE]. rewrite D1 in HC.
    assert (c_xy c' = c_xy (deref s i)) as CX by apply reduce_xy. rewrite CX in HC.
    assert (in_order s1 n1) as O1.
    { split.
      - intros p j H. rewrite HC, in_app_iff in H. unfold s1. rewrite app_length. cbn [List.length].
        destruct H as [H|[H|[]]]; [apply O in H; lia|]. assert (j = List.length s) by congruence. lia.
      - apply HE. apply (in_order_more s [c'] n O). }
    assert (forall j, In j rs -> (j < List.length s1)%nat /\ proper (deref s1 j)) as R1.
    { intros j Hj. destruct (R' j Hj) as [Lj Pj]. unfold s1. rewrite deref_old by auto. split; auto.
      rewrite app_length. lia. }
    specialize (IH s1 n1 O1 R1).
    assert (map (deref s1) rs = map (deref s) rs) as EM.
    { apply map_ext_in. intros j Hj. apply deref_old. apply R'; auto. }
    rewrite EM in IH.
    destruct (fold_res (hignore_step dc dl) rs (s1, n1)) as [[s' n']|e]; [|exact IH].
    destruct IH as ([t ->] & B & C & D). split; [exists (c' :: t); unfold s1; rewrite <- app_assoc; auto|].
    split; [exact B|]. split; [exact C|]. intros p j H.
    destruct (D p j H) as [D2|(k & D2 & D3 & D4)].
    + rewrite HC in D2. apply in_app_iff in D2 as [D2|[D2|[]]]; auto. right. exists i.
      split; [left; auto|]. assert (p = c_xy (deref s i)) as -> by congruence.
      assert (j = List.length s) as -> by congruence. split; auto. unfold from_object. rewrite T.
      split; [lia|]. rewrite deref_old by (unfold s1; rewrite app_length; cbn; lia). exact D1.
    + right. exists k. split; [right; auto|]. destruct (R' k D2) as [Lk _].
      unfold from_object in *. unfold s1 in D3 at 1. rewrite deref_old in D3 by auto. split; auto.
      assert (deref s1 k = deref s k) as DK by (apply deref_old; auto). rewrite DK in D4.
      destruct (touched dl (c_xy (deref s k))); auto. destruct D4 as [D4 D5]. split; auto.
      unfold s1 in D4. rewrite app_length in D4. lia.
  - rewrite (copy_plain dl _ T). cbn [bind fst snd].
    pose proof (hadd_view s n i) as HV.
    destruct (hadd_chip s n i) as [n1|e] eqn:HA; rewrite HV; cbn [bind]; auto.
    apply hadd_parts in HA as [HC HE].
    assert (in_order s n1) as O1.
    { split; [|apply HE; apply O]. intros p j H. rewrite HC, in_app_iff in H.
      destruct H as [H|[H|[]]]; [apply O in H; auto|]. assert (j = i) by congruence. subst. auto. }
    specialize (IH s n1 O1 R'). destruct (fold_res (hignore_step dc dl) rs (s, n1)) as [[s' n']|e]; auto.
    destruct IH as (A & B & C & D). split; [exact A|]. split; [exact B|]. split; [exact C|].
    intros p j H. destruct (D p j H) as [D1|(k & D1 & D2)].
    + rewrite HC in D1. apply in_app_iff in D1 as [D1|[D1|[]]]; auto. right. exists i.
      split; [left; auto|]. split; [congruence|]. unfold from_object. rewrite T. congruence.
    + right. exists k. split; auto. right; auto.
Qed.

(** ** The SpiNNaker and FPGA links *)
Definition only_spin (m m' : machine) : Prop :=
  m' = mkMachine (m_kind m) (m_width m) (m_height m) (m_ccm m) (m_eth m) (m_spin m') (m_fpga m)
    (m_boot m) (m_chips m) (m_origin m) (m_cores_counter m) (m_links_counter m) (m_entries_counter m)
    (m_sdram_counter m).

Definition only_fpga (m m' : machine) : Prop :=
  m' = mkMachine (m_kind m) (m_width m) (m_height m) (m_ccm m) (m_eth m) (m_spin m) (m_fpga m')
    (m_boot m) (m_chips m) (m_origin m) (m_cores_counter m) (m_links_counter m) (m_entries_counter m)
    (m_sdram_counter m).

Lemma only_spin_refl m : only_spin m m. Proof. destruct m. reflexivity. Qed.
Lemma only_fpga_refl m : only_fpga m m. Proof. destruct m. reflexivity. Qed.
Lemma only_spin_trans a b c : only_spin a b -> only_spin b c -> only_spin a c.
Proof. unfold only_spin. intros H1 H2. rewrite H2, H1. reflexivity. Qed.
Lemma only_fpga_trans a b c : only_fpga a b -> only_fpga b c -> only_fpga a c.
Proof. unfold only_fpga. intros H1 H2. rewrite H2, H1. reflexivity. Qed.

Lemma fold_res_rel {S A} (R : S -> S -> Prop) (f : S -> A -> res S) (l : list A) :
  (forall s, R s s) -> (forall a b c, R a b -> R b c -> R a c) ->
  (forall s a s', f s a = Ok s' -> R s s') -> forall s s', fold_res f l s = Ok s' -> R s s'.
Proof.
  intros RR RT RF. induction l as [|a l IH]; intros s s' E; cbn in E.
  - apply Ok_inj in E. subst. auto.
  - destruct (f s a) as [s1|] eqn:F; [|discriminate]. cbn [bind] in E. eapply RT; eauto.
Qed.

Lemma fold_left_rel {S A} (R : S -> S -> Prop) (f : S -> A -> S) (l : list A) :
  (forall s, R s s) -> (forall a b c, R a b -> R b c -> R a c) ->
  (forall s a, R s (f s a)) -> forall s, R s (fold_left f l s).
Proof.
  intros RR RT RF. induction l as [|a l IH]; intros s; cbn; auto. eapply RT; [apply RF|apply IH].
Qed.

Lemma spin_only v m m' : add_spinnaker_links v m = Ok m' -> only_spin m m'.
Proof.
  unfold add_spinnaker_links. apply fold_res_rel; [apply only_spin_refl|apply only_spin_trans|].
  intros s e s' E. destruct (c_ip e) as [ip|]; [|discriminate]. apply Ok_inj in E. subst s'.
  apply fold_left_rel; [apply only_spin_refl|apply only_spin_trans|].
  intros q [i [[lx ly] l]]. cbn. destruct (m_global q lx ly (c_x e) (c_y e)) as [gx gy].
  destruct (get_chip_at q gx gy) as [c|]; [destruct (negb (is_link (c_router c) l))|];
    try apply only_spin_refl. reflexivity.
Qed.

Lemma fpga_only v m m' : add_fpga_links v m = Ok m' -> only_fpga m m'.
Proof.
  unfold add_fpga_links. apply fold_res_rel; [apply only_fpga_refl|apply only_fpga_trans|].
  intros s e s' E. destruct (c_ip e) as [ip|]; [|discriminate]. apply Ok_inj in E. subst s'.
  apply fold_left_rel; [apply only_fpga_refl|apply only_fpga_trans|].
  intros q [[[[lx ly] l] f] fl]. cbn. destruct (m_global q lx ly (c_x e) (c_y e)) as [gx gy].
  destruct (get_chip_at q gx gy) as [c|]; try apply only_fpga_refl. reflexivity.
Qed.

Lemma hspin_view v s n :
  match hadd_spinnaker_links v s n with
  | Ok n' => add_spinnaker_links v (view s n) = Ok (view s n') /\ h_chips n' = h_chips n /\ h_eth n' = h_eth n
  | Err e => add_spinnaker_links v (view s n) = Err e
  end.
Proof.
  unfold hadd_spinnaker_links. destruct (add_spinnaker_links v (view s n)) as [m'|e] eqn:E; cbn [bind]; auto.
  apply spin_only in E. unfold only_spin in E. rewrite E at 1. auto.
Qed.

Lemma hfpga_view v s n :
  match hadd_fpga_links v s n with
  | Ok n' => add_fpga_links v (view s n) = Ok (view s n') /\ h_chips n' = h_chips n /\ h_eth n' = h_eth n
  | Err e => add_fpga_links v (view s n) = Err e
  end.
Proof.
  unfold hadd_fpga_links. destruct (add_fpga_links v (view s n)) as [m'|e] eqn:E; cbn [bind]; auto.
  apply fpga_only in E. unfold only_fpga in E. rewrite E at 1. auto.
Qed.

(** ** _machine_ignore *)
Lemma held_order v s h : held v s h -> in_order s h.
Proof. intros H. split; apply H. Qed.

Lemma ignore_view v s h dc dl : in_order s h -> Forall proper (chips (view s h)) ->
  match hmachine_ignore v s h dc dl with
  | Ok (s', n) =>
      (exists t, s' = s ++ t) /\ in_order s' n /\
      machine_ignore v (view s h) dc dl = Ok (view s' n) /\
      (forall p j, In (p, j) (h_chips n) ->
         exists i, In i (dvalues (h_chips h)) /\ p = c_xy (deref s i) /\ from_object s s' dl i j)
  | Err e => machine_ignore v (view s h) dc dl = Err e
  end.
Proof.
  intros O F. unfold hmachine_ignore, machine_ignore, hcreate_machine, create_machine.
  cbn [view m_width m_height].
  destruct (verify_size v (Some (h_width h)) (Some (h_height h))) as [[]|e]; cbn [bind]; auto.
  set (n0 := hnew_machine _ _ _ _ _).
  match goal with |- context [fold_res _ _ (new_machine ?a ?b ?c ?d ?o)] =>
    change (new_machine a b c d o) with (view s n0) end.
  assert (in_order s n0) as O0 by (split; [intros p i []|reflexivity]).
  assert (forall i, In i (dvalues (h_chips h)) -> (i < List.length s)%nat /\ proper (deref s i)) as R.
  { intros i Hi. split.
    - unfold dvalues in Hi. apply in_map_iff in Hi as ([p j] & <- & Hi). apply O in Hi. auto.
    - rewrite Forall_forall in F. apply F. rewrite view_chips. apply in_map. auto. }
  pose proof (ignore_loop dc dl _ s n0 O0 R) as L. fold (loop_step dc dl).
  change (mkMachine (h_kind h) (h_width h) (h_height h) (h_ccm h) (map (deref s) (h_eth h)) (h_spin h)
    (h_fpga h) (h_boot h) (map (fun e => (fst e, deref s (snd e))) (h_chips h)) (h_origin h)
    (h_cores_counter h) (h_links_counter h) (h_entries_counter h) (h_sdram_counter h)) with (view s h).
  rewrite view_chips.
  destruct (fold_res (hignore_step dc dl) (dvalues (h_chips h)) (s, n0)) as [[s' n1]|e]; rewrite ?L; cbn [bind]; auto.
  destruct L as (A & B & C & D). rewrite C. cbn [bind fst snd].
  pose proof (hspin_view v s' n1) as S1. destruct (hadd_spinnaker_links v s' n1) as [n2|e]; [|rewrite S1; reflexivity].
  destruct S1 as (S1 & S2 & S3). rewrite S1. cbn [bind].
  pose proof (hfpga_view v s' n2) as P1. destruct (hadd_fpga_links v s' n2) as [n3|e]; [|rewrite P1; reflexivity].
  destruct P1 as (P1 & P2 & P3). rewrite P1. cbn [bind].
  destruct (validate v (view s' n3)) as [[]|e]; cbn [bind]; auto.
  split; [exact A|]. split.
  { destruct B as [B1 B2]. split; rewrite P2, S2; [exact B1|]. rewrite P3, S3. exact B2. }
  split; [reflexivity|]. intros p j H. rewrite P2, S2 in H. destruct (D p j H) as [[]|X]. exact X.
Qed.

(** ** machine_repair *)
Lemma step_findings repair v m removed : repair_step repair v m removed =
  do f <- findings repair m removed ;
  match dead_chips f, dead_links f with
  | [], [] => Ok None
  | _, _ => do n <- machine_ignore v m (dead_chips f) (dead_links f) ; Ok (Some n)
  end.
Proof.
  unfold repair_step, findings.
  destruct (report_chips _ _ (unreachable_incoming_local_chips m) _) as [s1|]; cbn [bind]; auto.
  destruct (report_chips _ _ (unreachable_outgoing_local_chips m) _) as [s2|]; cbn [bind]; auto.
  destruct (report_links _ _ _ _) as [s3|]; cbn [bind]; auto.
  destruct (report_parents _ _ _) as [s4|]; cbn [bind]; auto.
  destruct (negb repair && has_error s4); reflexivity.
Qed.

Lemma findings_links repair m removed f : findings repair m removed = Ok f ->
  dead_links f = round_links repair m removed.
Proof.
  unfold findings. rewrite report_chips_eq.
  destruct (checks (check_chip m) (unreachable_incoming_local_chips m)) as [[]|]; cbn [bind]; [|discriminate].
  rewrite report_chips_eq.
  destruct (checks (check_chip m) (unreachable_outgoing_local_chips m)) as [[]|]; cbn [bind]; [|discriminate].
  rewrite report_links_eq.
  destruct (checks (check_link m removed) (one_way_links m)) as [[]|]; cbn [bind]; [|discriminate].
  rewrite report_parents_eq.
  destruct (checks (check_parent m) (chips m)) as [[]|]; cbn [bind]; [|discriminate].
  rewrite fold_parents, !fold_chips, fold_links. cbn [dead_chips dead_links has_error app].
  match goal with |- (if ?b then _ else _) = _ -> _ => destruct b end; [discriminate|].
  intros E. apply Ok_inj in E. subst f. reflexivity.
Qed.

(** Object [j] of the result made of object [i]: the same, or a new one for a chip that lost
    a link. *)
Definition lost (a b : chip) : Prop :=
  exists l k, get_link (c_router a) l = Some k /\ get_link (c_router b) l = None.
Definition fewer (a b : chip) : Prop :=
  forall l k, get_link (c_router b) l = Some k -> get_link (c_router a) l = Some k.
Definition came (s s' : heap) (i j : ref) : Prop :=
  (j = i /\ (i < List.length s)%nat /\ deref s' j = deref s i) \/
  ((List.length s <= j)%nat /\ c_xy (deref s' j) = c_xy (deref s i) /\
   fewer (deref s i) (deref s' j) /\ lost (deref s i) (deref s' j)).

Lemma step_view repair v s h removed : in_order s h -> good (view s h) ->
  match hrepair_step repair v s h removed with
  | Ok (Some (s', n)) =>
      (exists t, s' = s ++ t) /\ in_order s' n /\
      repair_step repair v (view s h) removed = Ok (Some (view s' n)) /\
      (forall p j, In (p, j) (h_chips n) ->
         exists i, In (p, i) (h_chips h) /\ came s s' i j)
  | Ok None => repair_step repair v (view s h) removed = Ok None
  | Err e => repair_step repair v (view s h) removed = Err e
  end.
Proof.
  intros O [W F]. unfold hrepair_step. rewrite step_findings.
  destruct (findings repair (view s h) removed) as [f|e] eqn:E; cbn [bind]; auto.
  apply findings_links in E.
  pose proof (ignore_view v s h (dead_chips f) (dead_links f) O F) as I.
  assert (forall x, match hmachine_ignore v s h (dead_chips f) (dead_links f) with
    | Ok (s', n) => (exists t, s' = s ++ t) /\ in_order s' n /\
      machine_ignore v (view s h) (dead_chips f) (dead_links f) = Ok (view s' n) /\
      (forall p j, In (p, j) (h_chips n) -> exists i, In (p, i) (h_chips h) /\ came s s' i j)
    | Err e => machine_ignore v (view s h) (dead_chips f) (dead_links f) = Err e end ->
    x = hmachine_ignore v s h (dead_chips f) (dead_links f) ->
    match (do sn <- x ; Ok (Some sn)) with
  | Ok (Some (s', n)) =>
      (exists t, s' = s ++ t) /\ in_order s' n /\
      (do n <- machine_ignore v (view s h) (dead_chips f) (dead_links f) ; Ok (Some n)) = Ok (Some (view s' n)) /\
      (forall p j, In (p, j) (h_chips n) ->
         exists i, In (p, i) (h_chips h) /\ came s s' i j)
  | Ok None => (do n <- machine_ignore v (view s h) (dead_chips f) (dead_links f) ; Ok (Some n)) = Ok None
  | Err e => (do n <- machine_ignore v (view s h) (dead_chips f) (dead_links f) ; Ok (Some n)) = Err e
  end) as K.
  { intros x H ->. destruct (hmachine_ignore v s h (dead_chips f) (dead_links f)) as [[s' n]|e]; cbn [bind].
    - destruct H as (A & B & C & D). rewrite C. cbn [bind]. auto.
    - rewrite H. reflexivity. }
  assert (match hmachine_ignore v s h (dead_chips f) (dead_links f) with
    | Ok (s', n) => (exists t, s' = s ++ t) /\ in_order s' n /\
      machine_ignore v (view s h) (dead_chips f) (dead_links f) = Ok (view s' n) /\
      (forall p j, In (p, j) (h_chips n) -> exists i, In (p, i) (h_chips h) /\ came s s' i j)
    | Err e => machine_ignore v (view s h) (dead_chips f) (dead_links f) = Err e end) as H.
  { destruct (hmachine_ignore v s h (dead_chips f) (dead_links f)) as [[s' n]|e]; auto.
    destruct I as ([t ->] & B & C & D). split; [eauto|]. split; [exact B|]. split; [exact C|].
    intros p j Hj. destruct (D p j Hj) as (i & Hi & -> & FO). exists i.
    unfold dvalues in Hi. apply in_map_iff in Hi as ([q i'] & X & Hi). cbn in X. subst i'.
    assert (In (q, deref s i) (m_chips (view s h))) as M.
    { cbn [view m_chips]. apply in_map_iff. exists (q, i). auto. }
    assert (In (deref s i) (chips (view s h)) /\ q = c_xy (deref s i)) as [Hc ->].
    { rewrite (wf_chips _ W) in M. apply in_map_iff in M as (c & X & Hc). assert (c = deref s i) by congruence.
      subst c. split; [exact Hc|congruence]. }
    split; [exact Hi|]. unfold from_object in FO. unfold came.
    destruct (touched (dead_links f) (c_xy (deref s i))) eqn:T.
    - right. destruct FO as [FO1 FO2]. rewrite FO2. split; [exact FO1|]. split; [apply reduce_xy|].
      rewrite Forall_forall in F. pose proof (F _ Hc) as P.
      split; [intros l k G; apply (reduce_link _ _ _ _ P) in G; tauto|].
      destruct (c_xy (deref s i)) as [x y] eqn:Q. apply touched_spec in T as (l & b & T).
      pose proof T as T0. rewrite E in T0.
      destruct (round_links_real repair _ removed _ W Hc x y l b T0 (eq_sym Q)) as [k K0].
      exists l, k. split; [exact K0|].
      destruct (get_link (c_router (reduce (dead_links f) (deref s i))) l) as [k'|] eqn:G; auto.
      apply (reduce_link _ _ _ _ P) in G as [_ G]. rewrite Q in G.
      assert (gone (dead_links f) (x, y) l = true) by (apply gone_spec; eauto). congruence.
    - left. subst j. apply O in Hi. split; [reflexivity|]. split; [exact Hi|]. apply deref_old. exact Hi. }
  specialize (K _ H eq_refl).
  destruct (dead_chips f) as [|c0 dc], (dead_links f) as [|t0 dl]; [reflexivity|exact K|exact K|exact K].
Qed.

Lemma came_trans s1 s2 s3 i j k : (exists t, s2 = s1 ++ t) -> (exists t, s3 = s2 ++ t) ->
  (i < List.length s1)%nat -> came s1 s2 i j -> came s2 s3 j k -> came s1 s3 i k.
Proof.
  intros [t ->] [t' ->] L A B. unfold came in *. rewrite app_length in B.
  destruct A as [(-> & _ & A3)|(A1 & A2 & A3 & A4)], B as [(-> & B2 & B3)|(B1 & B2 & B3 & B4)].
  - left. split; auto. split; auto. congruence.
  - right. rewrite A3 in B2, B3, B4. repeat split; auto. lia.
  - right. rewrite B3. auto.
  - right. split; [lia|]. split; [congruence|]. split.
    + intros l q G. auto.
    + destruct A4 as (l & q & G1 & G2). exists l, q. split; auto.
      destruct (get_link (c_router (deref ((s1 ++ t) ++ t') k)) l) as [q'|] eqn:G; auto.
      apply B3 in G. congruence.
Qed.

Lemma hrepairs_view repair v s h removed r : hrepairs repair v s h removed r ->
  in_order s h -> good (view s h) ->
  match r with
  | Ok (s', n) =>
      (exists t, s' = s ++ t) /\ in_order s' n /\ good (view s' n) /\
      repairs repair v (view s h) removed (Ok (view s' n)) /\
      (forall p j, In (p, j) (h_chips n) -> exists i, In (p, i) (h_chips h) /\ came s s' i j)
  | Err e => repairs repair v (view s h) removed (Err e)
  end.
Proof.
  induction 1 as [s h removed e E|s h removed E|s h removed s' n r E R IH]; intros O G;
    pose proof (step_view repair v s h removed O G) as S; rewrite E in S.
  - constructor 1. exact S.
  - split; [exists []; rewrite app_nil_r; auto|]. split; [exact O|]. split; [exact G|].
    split; [constructor 2; exact S|]. intros p j H. exists j. split; auto. left. split; auto. split; auto.
    apply O in H. auto.
  - destruct S as (A & B & C & D). pose proof (good_next _ _ _ _ _ G C) as Gn. specialize (IH B Gn).
    destruct r as [[s2 n2]|e]; [|econstructor 3; eauto].
    destruct IH as (A2 & B2 & G2 & R2 & D2).
    split; [destruct A as [t ->], A2 as [t' ->]; exists (t ++ t'); rewrite <- app_assoc; auto|].
    split; [exact B2|]. split; [exact G2|]. split; [econstructor 3; eauto|].
    intros p k H. destruct (D2 p k H) as (j & Hj & Cj). destruct (D p j Hj) as (i & Hi & Ci).
    exists i. split; auto. apply (came_trans s s' s2 i j k); auto. apply O in Hi. auto.
Qed.

Lemma repairs_hrepairs repair v m removed r : repairs repair v m removed r ->
  forall s h, in_order s h -> good (view s h) -> m = view s h ->
  exists R, hrepairs repair v s h removed R /\
    r = match R with Ok (s', n) => Ok (view s' n) | Err e => Err e end.
Proof.
  induction 1 as [m removed e E|m removed E|m removed n r E R IH]; intros s h O G ->;
    pose proof (step_view repair v s h removed O G) as S;
    destruct (hrepair_step repair v s h removed) as [[[s' n']|]|e'] eqn:HS.
  - destruct S as (_ & _ & S & _). congruence.
  - congruence.
  - exists (Err e'). split; [constructor 1; auto|congruence].
  - destruct S as (_ & _ & S & _). congruence.
  - exists (Ok (s, h)). split; [constructor 2; auto|auto].
  - congruence.
  - destruct S as (A & B & C & D). pose proof (good_next _ _ _ _ _ G C) as Gn.
    assert (n = view s' n') as X by congruence. destruct (IH s' n' B Gn X) as (R' & H1 & H2).
    exists R'. split; auto. econstructor 3; eauto.
  - congruence.
  - congruence.
Qed.
