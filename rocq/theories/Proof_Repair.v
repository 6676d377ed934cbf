From Coq Require Import Lia ZifyBool Permutation.
From Verif Require Import Model_Py Model_Wrap Model_Version Model_Core Model_Machine Model_Repair
  Spec_Hops Spec_Version Spec_Machine Spec_Router Spec_Repair
  Proof_Wrap Proof_Py Proof_Board Proof_Version Proof_Machine Proof_Report.
Open Scope list_scope.
Open Scope Z_scope.

(** ** Folds that check and then update *)
Lemma fold_res_ext {S A} (f g : S -> A -> res S) l : (forall s a, In a l -> f s a = g s a) ->
  forall s, fold_res f l s = fold_res g l s.
Proof.
  induction l as [|a l IH]; intros H s; cbn [fold_res]; auto.
  rewrite H by (left; auto). destruct (g s a); cbn [bind]; auto.
  apply IH. intros; apply H; right; auto.
Qed.

Definition checks {A} (check : A -> res unit) (l : list A) : res unit :=
  fold_res (fun _ a => check a) l tt.

Lemma fold_updates {A S} (check : A -> res unit) (upd : S -> A -> S) l : forall s,
  fold_res (fun s a => do _ <- check a ; Ok (upd s a)) l s =
  do _ <- checks check l ; Ok (fold_left upd l s).
Proof.
  unfold checks. induction l as [|a l IH]; intros s; cbn [fold_res fold_left]; auto.
  destruct (check a) as [[]|e]; cbn [bind]; auto.
Qed.

Lemma checks_ok {A} (check : A -> res unit) l :
  checks check l = Ok tt <-> forall a, In a l -> check a = Ok tt.
Proof. apply fold_res_unit_ok. Qed.

Lemma checks_err {A} (check : A -> res unit) l e :
  checks check l = Err e -> exists a, In a l /\ check a = Err e.
Proof.
  unfold checks. induction l as [|a l IH]; cbn [fold_res]; [discriminate|].
  destruct (check a) as [[]|e'] eqn:C; cbn [bind].
  - intros H. destruct (IH H) as (b & Hb & X). exists b. cbn. auto.
  - intros [= <-]. exists a. cbn. auto.
Qed.

(** ** The reports *)
Definition check_eth (m : machine) (ch : chip) : res unit :=
  do _ <- getitem m (c_eth_x ch, c_eth_y ch) ; Ok tt.

Definition check_chip (m : machine) (xy : XY) : res unit :=
  do ch <- getitem m xy ; check_eth m ch.

Lemma report_chips_eq repair m xys s :
  report_chips repair m xys s =
  do _ <- checks (check_chip m) xys ; Ok (fold_left (add_dead_chip repair) xys s).
Proof.
  unfold report_chips. rewrite <- fold_updates. apply fold_res_ext. intros s' xy _.
  unfold check_chip, check_eth. destruct (getitem m xy) as [ch|]; cbn [bind]; auto.
  destruct (getitem m (c_eth_x ch, c_eth_y ch)); reflexivity.
Qed.

Definition expected_link (m : machine) (removed : list XY) (t : Z * Z * Z * Z) : bool :=
  let '(x, y, out, _) := t in
  match m_over m x y out with Ok d => xymem removed d | Err _ => false end.

Definition check_link (m : machine) (removed : list XY) (t : Z * Z * Z * Z) : res unit :=
  let '(x, y, out, _) := t in
  do d <- m_over m x y out ;
  if xymem removed d then Ok tt else uni_direction_message m d x y.

Definition link_update (repair : bool) m removed (s : repair_state) t : repair_state :=
  if repair || expected_link m removed t then add_dead_link s t
  else mkRepair (dead_chips s) (dead_links s) true.

Lemma report_links_eq repair m removed s :
  report_links repair m removed s =
  do _ <- checks (check_link m removed) (one_way_links m) ;
  Ok (fold_left (link_update repair m removed) (one_way_links m) s).
Proof.
  unfold report_links. rewrite <- fold_updates. apply fold_res_ext. intros s' t _.
  destruct t as [[[x y] o] b]. unfold check_link, link_update, expected_link.
  destruct (m_over m x y o) as [d|]; cbn [bind]; auto.
  destruct (xymem removed d); cbn [bind]; [destruct repair; reflexivity|].
  destruct (uni_direction_message m d x y) as [[]|]; cbn [bind]; auto. destruct repair; reflexivity.
Qed.

Definition orphan (m : machine) (ch : chip) : bool :=
  match c_parent ch with
  | None => false
  | Some p => match m_over m (c_x ch) (c_y ch) p with
              | Ok q => negb (is_chip_at m (fst q) (snd q))
              | Err _ => false
              end
  end.

Definition check_parent (m : machine) (ch : chip) : res unit :=
  match c_parent ch with
  | None => Ok tt
  | Some p => do q <- m_over m (c_x ch) (c_y ch) p ;
              if is_chip_at m (fst q) (snd q) then Ok tt else check_eth m ch
  end.

Lemma report_parents_eq repair m s :
  report_parents repair m s =
  do _ <- checks (check_parent m) (chips m) ;
  Ok (fold_left (fun s ch => if orphan m ch then add_dead_chip repair s (c_xy ch) else s) (chips m) s).
Proof.
  unfold report_parents. rewrite <- fold_updates. apply fold_res_ext. intros s' ch _.
  unfold check_parent, orphan, check_eth. destruct (c_parent ch); cbn [bind]; auto.
  destruct (m_over m (c_x ch) (c_y ch) z) as [q|]; cbn [bind]; auto.
  destruct (is_chip_at m (fst q) (snd q)); cbn [bind negb]; auto.
  destruct (getitem m (c_eth_x ch, c_eth_y ch)); reflexivity.
Qed.

Lemma fold_chips repair xys : forall s, fold_left (add_dead_chip repair) xys s =
  mkRepair (dead_chips s ++ (if repair then xys else [])) (dead_links s)
    (has_error s || (negb repair && negb (match xys with [] => true | _ => false end))).
Proof.
  induction xys as [|a l IH]; intros s; cbn [fold_left].
  - destruct s, repair; cbn; rewrite ?app_nil_r, ?orb_false_r; auto.
  - rewrite IH. destruct s, repair; cbn; rewrite <- ?app_assoc; cbn; rewrite ?orb_true_r; auto.
Qed.

Lemma fold_links repair m removed l : forall s, fold_left (link_update repair m removed) l s =
  mkRepair (dead_chips s) (dead_links s ++ filter (fun t => repair || expected_link m removed t) l)
    (has_error s || negb (forallb (fun t => repair || expected_link m removed t) l)).
Proof.
  induction l as [|a l IH]; intros s; cbn [fold_left filter forallb].
  - destruct s; cbn; rewrite app_nil_r, orb_false_r; auto.
  - rewrite IH. unfold link_update, add_dead_link.
    destruct (repair || expected_link m removed a); cbn [dead_chips dead_links has_error andb negb].
    + rewrite <- app_assoc. reflexivity.
    + rewrite orb_true_r. reflexivity.
Qed.

Lemma fold_parents repair m l : forall s,
  fold_left (fun s ch => if orphan m ch then add_dead_chip repair s (c_xy ch) else s) l s =
  fold_left (add_dead_chip repair) (map c_xy (filter (orphan m) l)) s.
Proof.
  induction l as [|a l IH]; intros s; cbn [fold_left filter map]; auto.
  rewrite IH. destruct (orphan m a); reflexivity.
Qed.

Definition all_checks (m : machine) (removed : list XY) : res unit :=
  do _ <- checks (check_chip m) (unreachable_incoming_local_chips m) ;
  do _ <- checks (check_chip m) (unreachable_outgoing_local_chips m) ;
  do _ <- checks (check_link m removed) (one_way_links m) ;
  checks (check_parent m) (chips m).

Definition bad_chips (m : machine) : list XY :=
  unreachable_incoming_local_chips m ++ unreachable_outgoing_local_chips m ++
  map c_xy (filter (orphan m) (chips m)).

Definition isnil {A} (l : list A) : bool := match l with [] => true | _ => false end.

(** repair_step in one go. *)
Lemma step_eq repair v m removed :
  repair_step repair v m removed =
  do _ <- all_checks m removed ;
  let dc := if repair then bad_chips m else [] in
  let dl := filter (fun t => repair || expected_link m removed t) (one_way_links m) in
  if negb repair && (negb (isnil (bad_chips m)) ||
       negb (forallb (expected_link m removed) (one_way_links m))) then Err MachineExc
  else match dc, dl with
       | [], [] => Ok None
       | _, _ => do n <- machine_ignore v m dc dl ; Ok (Some n)
       end.
Proof.
  unfold repair_step, all_checks. rewrite report_chips_eq.
  destruct (checks (check_chip m) (unreachable_incoming_local_chips m)) as [[]|]; cbn [bind]; auto.
  rewrite report_chips_eq.
  destruct (checks (check_chip m) (unreachable_outgoing_local_chips m)) as [[]|]; cbn [bind]; auto.
  rewrite report_links_eq.
  destruct (checks (check_link m removed) (one_way_links m)) as [[]|]; cbn [bind]; auto.
  rewrite report_parents_eq.
  destruct (checks (check_parent m) (chips m)) as [[]|]; cbn [bind]; auto.
  rewrite fold_parents, !fold_chips, fold_links.
  cbn [dead_chips dead_links has_error app].
  assert (forall {X} (a : list X) b, negb (match a ++ b with [] => true | _ => false end) =
     negb (match a with [] => true | _ => false end) || negb (match b with [] => true | _ => false end)) as NA
    by (intros X [|] b; reflexivity).
  destruct repair; cbn [negb andb orb].
  - unfold bad_chips. rewrite <- app_assoc. reflexivity.
  - rewrite !app_nil_r. unfold bad_chips, isnil. rewrite !NA. cbn [orb].
    match goal with |- (if ?a then _ else _) = (if ?b then _ else _) =>
      replace a with b; [reflexivity|] end.
    destruct (unreachable_incoming_local_chips m), (unreachable_outgoing_local_chips m),
      (forallb (expected_link m removed) (one_way_links m)), (map c_xy (filter (orphan m) (chips m)));
      reflexivity.
Qed.

(** ** Chips and routers *)
Definition router_ok (r : router) : Prop :=
  r_links r = map (fun l => (l_source_link_id l, l)) (router_links r) /\
  NoDup (map l_source_link_id (router_links r)).

Lemma new_router_ok links n r : new_router links n = Ok r ->
  router_ok r /\ router_links r = links /\ r_entries r = n.
Proof.
  unfold new_router. intros E.
  cut (forall r0, router_ok r0 -> fold_res router_add_link links r0 = Ok r ->
    router_ok r /\ router_links r = router_links r0 ++ links /\ r_entries r = r_entries r0).
  { intros H. destruct (H (mkRouter [] n)) as (A & B & C); auto. split; [reflexivity|constructor]. }
  clear E. induction links as [|l links IH]; intros r0 [W N] E; cbn [fold_res] in E.
  - apply Ok_inj in E. subst r0. rewrite app_nil_r. repeat split; auto.
  - unfold router_add_link in E at 1.
    destruct (dmem Z.eqb (r_links r0) (l_source_link_id l)) eqn:D; [discriminate|]. cbn [bind] in E.
    apply (dmem_false Z.eqb Z.eqb_eq) in D.
    assert (dkeys (r_links r0) = map l_source_link_id (router_links r0)) as KE.
    { rewrite W at 1. unfold dkeys. rewrite map_map. reflexivity. }
    set (r1 := mkRouter _ _) in E.
    assert (router_links r1 = router_links r0 ++ [l]) as R1.
    { unfold router_links, r1. cbn [r_links]. rewrite (dset_new Z.eqb Z.eqb_eq) by auto.
      unfold dvalues. rewrite map_app. reflexivity. }
    destruct (IH r1) as (A & B & C); auto.
    + split.
      * rewrite R1, map_app, <- W. unfold r1. cbn [r_links].
        rewrite (dset_new Z.eqb Z.eqb_eq) by auto. reflexivity.
      * rewrite R1, map_app. apply nodup_snoc; auto. rewrite <- KE. auto.
    + split; auto. split; auto. rewrite B, R1, <- app_assoc. reflexivity.
Qed.

Lemma router_make r : router_ok r -> new_router (router_links r) (r_entries r) = Ok r.
Proof.
  intros [W N]. unfold new_router.
  assert (forall ls d, NoDup (dkeys d ++ map l_source_link_id ls) ->
    fold_res router_add_link ls (mkRouter d (r_entries r)) =
    Ok (mkRouter (d ++ map (fun l => (l_source_link_id l, l)) ls) (r_entries r))) as K.
  { induction ls as [|l ls IH]; intros d ND; cbn [fold_res map].
    - rewrite app_nil_r. auto.
    - cbn [map] in ND. unfold router_add_link at 1. cbn [r_links r_entries].
      assert (~ In (l_source_link_id l) (dkeys d)) as NI.
      { intros X. apply NoDup_remove_2 in ND. apply ND. apply in_or_app. auto. }
      assert (dmem Z.eqb d (l_source_link_id l) = false) as ->
        by (apply (dmem_false Z.eqb Z.eqb_eq); auto).
      cbn [bind]. rewrite (dset_new Z.eqb Z.eqb_eq) by auto. rewrite IH.
      + rewrite <- app_assoc. reflexivity.
      + unfold dkeys in *. rewrite map_app, <- app_assoc. exact ND. }
  rewrite K by exact N. cbn [app]. rewrite <- W. destruct r; reflexivity.
Qed.

Definition proper (ch : chip) : Prop := router_ok (c_router ch) /\ NoDup (c_tags ch).

Lemma made_chip_proper ch : made_chip ch -> proper ch.
Proof.
  intros (x & y & sc & pl & ls & n & r & sd & ex & ey & ip & tags & parent & R & ->).
  split; [cbn; eapply new_router_ok; eauto|]. cbn [new_chip c_tags].
  destruct tags as [t|]; [apply oset_of_nodup|]. destruct ip; [apply oset_of_nodup|constructor].
Qed.

Lemma proper_made_chip ch : proper ch -> made_chip ch.
Proof.
  intros [R T]. exists (c_x ch), (c_y ch), (c_scamp ch), (c_placable ch), (router_links (c_router ch)),
    (r_entries (c_router ch)), (c_router ch), (c_sdram ch), (c_eth_x ch), (c_eth_y ch), (c_ip ch),
    (Some (c_tags ch)), (c_parent ch).
  split; [apply router_make; auto|]. unfold new_chip. rewrite oset_of_id by auto. destruct ch; reflexivity.
Qed.

Lemma get_link_in r l k : router_ok r ->
  get_link r l = Some k <-> In k (router_links r) /\ l_source_link_id k = l.
Proof.
  intros [W N]. unfold get_link. rewrite W. split.
  - intros H. apply (dget_some_in Z.eqb Z.eqb_eq) in H. apply in_map_iff in H as (k' & E & H).
    injection E as E1 E2. subst k'. auto.
  - intros [H E]. apply (in_dget Z.eqb Z.eqb_eq).
    + unfold dkeys. rewrite map_map. exact N.
    + apply in_map_iff. exists k. split; congruence.
Qed.

Lemma is_link_get r l : is_link r l = true <-> exists k, get_link r l = Some k.
Proof.
  unfold is_link, get_link, dmem. destruct (dget Z.eqb (r_links r) l); split; eauto; try discriminate.
  intros [? ?]. discriminate.
Qed.

(** ** copy_chip *)
Definition gone (dl : list (Z * Z * Z * Z)) (p : XY) (l : Z) : bool :=
  existsb (fun t => let '(x, y, d, _) := t in xy_eqb (x, y) p && (d =? l)) dl.
Definition touched (dl : list (Z * Z * Z * Z)) (p : XY) : bool :=
  existsb (fun t => let '(x, y, _, _) := t in xy_eqb (x, y) p) dl.

Lemma gone_spec dl x y l : gone dl (x, y) l = true <-> exists b, In (x, y, l, b) dl.
Proof.
  unfold gone. rewrite existsb_exists. split.
  - intros ([[[x' y'] d] b] & H & E). apply andb_true_iff in E as [E1 E2].
    apply xyeqb_eq in E1. apply Z.eqb_eq in E2. injection E1 as -> ->. subst d. eauto.
  - intros [b H]. exists (x, y, l, b). split; auto. apply andb_true_iff. split.
    + apply xyeqb_eq. auto.
    + apply Z.eqb_eq. auto.
Qed.

Lemma touched_spec dl x y : touched dl (x, y) = true <-> exists l b, In (x, y, l, b) dl.
Proof.
  unfold touched. rewrite existsb_exists. split.
  - intros ([[[x' y'] d] b] & H & E). apply xyeqb_eq in E. injection E as -> ->. eauto.
  - intros (l & b & H). exists (x, y, l, b). split; auto. apply xyeqb_eq. auto.
Qed.

Definition reduce (dl : list (Z * Z * Z * Z)) (ch : chip) : chip :=
  if touched dl (c_xy ch) then
    let ls := filter (fun l => negb (gone dl (c_xy ch) (l_source_link_id l))) (router_links (c_router ch)) in
    mkChip (c_x ch) (c_y ch) (c_scamp ch) (c_placable ch)
      (mkRouter (map (fun l => (l_source_link_id l, l)) ls) (r_entries (c_router ch)))
      (c_sdram ch) (c_eth_x ch) (c_eth_y ch) (c_ip ch) (c_tags ch) None
  else ch.

Lemma nodup_map_filter {A B} (g : A -> B) f l : NoDup (map g l) -> NoDup (map g (filter f l)).
Proof.
  induction l as [|a l IH]; intros N; cbn; [constructor|]. inversion N; subst.
  destruct (f a); auto. cbn. constructor; auto. intros X. apply H1.
  apply in_map_iff in X as (b & E & X). apply filter_In in X as [X _]. rewrite <- E. apply in_map; auto.
Qed.

Lemma reduce_router dl ch : proper ch -> touched dl (c_xy ch) = true ->
  router_links (c_router (reduce dl ch)) =
    filter (fun l => negb (gone dl (c_xy ch) (l_source_link_id l))) (router_links (c_router ch)) /\
  router_ok (c_router (reduce dl ch)).
Proof.
  intros [[W N] _] T. unfold reduce. rewrite T. cbn [c_router].
  set (ls := filter _ _).
  assert (router_links (mkRouter (map (fun l => (l_source_link_id l, l)) ls) (r_entries (c_router ch))) = ls) as E.
  { unfold router_links, dvalues. cbn [r_links]. rewrite map_map. cbn. apply map_id. }
  split; auto. split.
  - cbn [r_links]. rewrite E. reflexivity.
  - rewrite E. apply nodup_map_filter. auto.
Qed.

Lemma copy_eq dl ch : proper ch -> copy_chip dl ch = Ok (reduce dl ch).
Proof.
  intros P. unfold copy_chip. fold (touched dl (c_xy ch)).
  destruct (touched dl (c_xy ch)) eqn:T.
  - destruct (reduce_router dl ch P T) as [E R]. cbv zeta.
    change (fun l : link => negb (existsb (fun t => let '(x, y, d, _) := t in
      xy_eqb (x, y) (c_xy ch) && (d =? l_source_link_id l)) dl))
      with (fun l : link => negb (gone dl (c_xy ch) (l_source_link_id l))).
    rewrite <- E. pose proof (router_make _ R) as M.
    assert (r_entries (c_router (reduce dl ch)) = r_entries (c_router ch)) as RE
      by (unfold reduce; rewrite T; reflexivity).
    rewrite RE in M. rewrite M. cbn [bind]. unfold new_chip. rewrite oset_of_id by apply P.
    unfold reduce. rewrite T. reflexivity.
  - unfold reduce. rewrite T. reflexivity.
Qed.

Lemma reduce_xy dl ch : c_xy (reduce dl ch) = c_xy ch.
Proof. unfold reduce. destruct (touched dl (c_xy ch)); reflexivity. Qed.

Lemma reduce_proper dl ch : proper ch -> proper (reduce dl ch).
Proof.
  intros P. destruct (touched dl (c_xy ch)) eqn:T.
  - split; [apply reduce_router; auto|]. unfold reduce. rewrite T. apply P.
  - unfold reduce. rewrite T. auto.
Qed.

Lemma reduce_link dl ch l k : proper ch ->
  get_link (c_router (reduce dl ch)) l = Some k <->
  get_link (c_router ch) l = Some k /\ gone dl (c_xy ch) l = false.
Proof.
  intros P. destruct (touched dl (c_xy ch)) eqn:T.
  - destruct (reduce_router dl ch P T) as [E R]. rewrite !get_link_in by (auto; apply P).
    rewrite E, filter_In, negb_true_iff. split.
    + intros [[H G] <-]. auto.
    + intros [[H <-] G]. auto.
  - assert (gone dl (c_xy ch) l = false) as G.
    { apply not_true_iff_false. intros X. destruct (c_xy ch) as [x y] eqn:Q.
      apply gone_spec in X as [b X]. assert (touched dl (x, y) = true) by (apply touched_spec; eauto).
      congruence. }
    unfold reduce. rewrite T. tauto.
Qed.

Lemma filter_length_lt {A} (f : A -> bool) l a : In a l -> f a = false ->
  (List.length (filter f l) < List.length l)%nat.
Proof.
  induction l as [|b l IH]; intros H E; [destruct H|]. cbn.
  assert (List.length (filter f l) <= List.length l)%nat as LE.
  { clear. induction l as [|b l IH]; cbn; [lia|]. destruct (f b); cbn; lia. }
  destruct H as [->|H].
  - rewrite E. lia.
  - specialize (IH H E). destruct (f b); cbn; lia.
Qed.

Lemma filter_length_le {A} (f : A -> bool) l : (List.length (filter f l) <= List.length l)%nat.
Proof. induction l as [|b l IH]; cbn; [lia|]. destruct (f b); cbn; lia. Qed.

Lemma links_length r : Z.of_nat (List.length (router_links r)) = router_len r.
Proof. unfold router_links, router_len, dvalues. rewrite map_length. reflexivity. Qed.

Lemma reduce_len dl ch : proper ch ->
  router_len (c_router (reduce dl ch)) <= router_len (c_router ch) /\
  (forall l k, get_link (c_router ch) l = Some k -> gone dl (c_xy ch) l = true ->
     router_len (c_router (reduce dl ch)) < router_len (c_router ch)).
Proof.
  intros P. destruct (touched dl (c_xy ch)) eqn:T.
  - destruct (reduce_router dl ch P T) as [E R]. rewrite <- !links_length, E. split.
    + apply inj_le. apply filter_length_le.
    + intros l k H G. apply inj_lt. apply get_link_in in H as [H <-]; [|apply P].
      apply (filter_length_lt _ _ k); auto. rewrite G. auto.
  - unfold reduce. rewrite T. split; [lia|]. intros l k H G. exfalso.
    destruct (c_xy ch) as [x y] eqn:Q. apply gone_spec in G as [b G].
    assert (touched dl (x, y) = true) by (apply touched_spec; eauto). congruence.
Qed.

(** ** machine_ignore *)
Definition survivors (dc : list XY) (dl : list (Z * Z * Z * Z)) (cs : list chip) : list chip :=
  map (reduce dl) (filter (fun ch => negb (xymem dc (c_xy ch))) cs).

Lemma ignore_fold dc dl v cs : forall n, wf n -> Forall proper cs ->
  NoDup (map c_xy (chips n) ++ map c_xy cs) ->
  exists n1, fold_res (fun n ch => if xymem dc (c_xy ch) then Ok n
      else do ch' <- copy_chip dl ch ; add_chip n ch') cs n = Ok n1 /\
    wf n1 /\ chips n1 = chips n ++ survivors dc dl cs /\
    m_kind n1 = m_kind n /\ m_width n1 = m_width n /\ m_height n1 = m_height n /\
    m_ccm n1 = m_ccm n /\ m_origin n1 = m_origin n /\
    fst (history v n (map CallAddChip (survivors dc dl cs))) = n1.
Proof.
  induction cs as [|ch cs IH]; intros n W F N; cbn [fold_res].
  - exists n. unfold survivors. cbn. rewrite app_nil_r. repeat split; auto; apply W.
  - inversion F; subst. unfold survivors. cbn [filter].
    destruct (xymem dc (c_xy ch)) eqn:X; cbn [bind negb].
    + apply IH; auto. cbn [map] in N. apply NoDup_remove_1 in N. auto.
    + rewrite copy_eq by auto. cbn [bind].
      pose proof (add_chip_wf n (reduce dl ch) W) as A. rewrite reduce_xy in A.
      destruct (add_chip n (reduce dl ch)) as [n'|e] eqn:AE.
      2: { exfalso. destruct A as [_ A]. cbn [map] in N. apply NoDup_remove_2 in N. apply N.
           apply in_or_app. auto. }
      destruct A as (W' & C' & A1 & A2 & A3 & A4 & A5 & A6 & A7 & _). cbn [bind].
      destruct (IH n') as (n1 & E1 & R1 & R2 & R3 & R4 & R5 & R6 & R7 & R8); auto.
      { rewrite C', map_app, <- app_assoc. cbn [map app]. rewrite reduce_xy. exact N. }
      exists n1. split; [exact E1|]. split; [exact R1|]. split.
      { rewrite R2, C', <- app_assoc. reflexivity. }
      repeat (split; [congruence|]).
      cbn [map history exec]. rewrite AE. unfold survivors in R8.
      destruct (history v n' _) as [m2 es]. exact R8.
Qed.

Lemma history_app v a : forall m b, fst (history v m (a ++ b)) = fst (history v (fst (history v m a)) b).
Proof.
  induction a as [|c a IH]; intros m b; cbn [app history]; [reflexivity|].
  destruct (exec v m c) as [m1 e]. specialize (IH m1 b).
  destruct (history v m1 (a ++ b)), (history v m1 a). exact IH.
Qed.

Lemma ignore_spec v m dc dl : wf m -> Forall proper (chips m) ->
  match machine_ignore v m dc dl with
  | Ok n =>
      supported v (m_width m) (m_height m) /\
      made v n /\ wf n /\ Forall proper (chips n) /\ chips n = survivors dc dl (chips m) /\
      m_width n = m_width m /\ m_height n = m_height m /\
      m_kind n = machine_class v (m_width m) (m_height m) /\
      m_ccm n = chip_core_map v /\ m_origin n = "Fixed"%string /\ validate v n = Ok tt
  | Err e => e = MachineExc
  end.
Proof.
  intros W F. unfold machine_ignore.
  destruct (verify_raises v (Some (m_width m)) (Some (m_height m))) as [VS|VS].
  2: { unfold create_machine. rewrite VS. reflexivity. }
  assert (supported v (m_width m) (m_height m)) as S by (apply verify_supported; auto).
  rewrite create_some by auto. cbn [bind].
  set (n0 := new_machine _ _ _ _ _).
  destruct (ignore_fold dc dl v (chips m) n0 (wf_new _ _ _ _ _) F) as
    (n1 & E1 & W1 & C1 & K1 & K2 & K3 & K4 & K5 & K6); [apply W|].
  rewrite E1. cbn [bind].
  destruct (add_spin_same v n1 W1) as (n2 & E2 & S2). rewrite E2. cbn [bind].
  assert (wf n2) as W2 by (eapply same_wf; eauto).
  destruct (add_fpga_same v n2 W2) as (n3 & E3 & S3). rewrite E3. cbn [bind].
  assert (wf n3) as W3 by (eapply same_wf; eauto).
  assert (same_but_links n1 n3) as S13 by (eapply same_trans; eauto).
  destruct (proj2 (validate_spec v n3 W3)) as [VA|VA]; rewrite VA; cbn [bind]; [|reflexivity].
  assert (chips n3 = survivors dc dl (chips m)) as C3.
  { rewrite (same_chips _ _ S13), C1. reflexivity. }
  destruct S13 as (T1 & T2 & T3 & T4 & _ & _ & _ & T8 & _). unfold n0 in *.
  cbn [new_machine m_kind m_width m_height m_ccm m_origin] in *.
  split; auto. split.
  { exists (machine_class v (m_width m) (m_height m)), (m_width m), (m_height m), (chip_core_map v),
      "Fixed"%string, (map CallAddChip (survivors dc dl (chips m)) ++ [CallAddSpinnakerLinks; CallAddFpgaLinks]).
    rewrite history_app, K6. cbn [history exec]. rewrite E2. cbn. rewrite E3. reflexivity. }
  split; auto. split.
  { rewrite C3. apply Forall_forall. intros ch H. apply in_map_iff in H as (ch0 & <- & H).
    apply filter_In in H as [H _]. apply reduce_proper. rewrite Forall_forall in F. auto. }
  repeat split; auto; congruence.
Qed.

(** ** One round *)
Lemma in_survivors dc dl cs ch : In ch (survivors dc dl cs) <->
  exists ch0, In ch0 cs /\ ~ In (c_xy ch0) dc /\ ch = reduce dl ch0.
Proof.
  unfold survivors. rewrite in_map_iff. split.
  - intros (ch0 & <- & H). apply filter_In in H as [H X]. exists ch0. split; auto. split; auto.
    intros Y. apply xymem_in in Y. rewrite Y in X. discriminate.
  - intros (ch0 & H & N & ->). exists ch0. split; auto. apply filter_In. split; auto.
    destruct (xymem dc (c_xy ch0)) eqn:X; auto. apply xymem_in in X. tauto.
Qed.

Definition round_chips (repair : bool) (m : machine) : list XY := if repair then bad_chips m else [].
Definition round_links (repair : bool) (m : machine) (removed : list XY) :=
  filter (fun t => repair || expected_link m removed t) (one_way_links m).

Lemma step_inv repair v m removed r : repair_step repair v m removed = Ok r ->
  all_checks m removed = Ok tt /\
  (repair = false -> bad_chips m = [] /\ forall t, In t (one_way_links m) -> expected_link m removed t = true) /\
  ((r = None /\ round_chips repair m = [] /\ round_links repair m removed = []) \/
   (exists n, r = Some n /\ (round_chips repair m <> [] \/ round_links repair m removed <> []) /\
      machine_ignore v m (round_chips repair m) (round_links repair m removed) = Ok n)).
Proof.
  rewrite step_eq. unfold round_chips, round_links.
  destruct (all_checks m removed) as [[]|e]; cbn [bind]; [|discriminate].
  intros E. split; auto.
  match type of E with (if ?b then _ else _) = _ => destruct b eqn:Q end; [discriminate|].
  split.
  - intros ->. cbn [negb andb] in Q. apply orb_false_iff in Q as [Q1 Q2].
    apply negb_false_iff in Q1, Q2. split.
    + destruct (bad_chips m); auto. discriminate.
    + intros t Ht. rewrite forallb_forall in Q2. auto.
  - set (dc := if repair then bad_chips m else []) in *.
    set (dl := filter _ _) in *. destruct dc as [|a dc'] eqn:D1.
    + destruct dl as [|b dl'] eqn:D2.
      * left. apply Ok_inj in E. auto.
      * right. destruct (machine_ignore v m [] (b :: dl')) as [n|]; [|discriminate].
        cbn in E. apply Ok_inj in E. exists n. repeat split; auto. right. discriminate.
    + right. destruct (machine_ignore v m (a :: dc') dl) as [n|]; [|discriminate].
      cbn in E. apply Ok_inj in E. exists n. repeat split; auto. left. discriminate.
Qed.

Definition weight (m : machine) : Z :=
  zsum (map (fun ch => 1 + router_len (c_router ch)) (chips m)).

Lemma bad_in m p : wf m -> In p (bad_chips m) -> exists ch, In ch (chips m) /\ c_xy ch = p.
Proof.
  intros W H. unfold bad_chips in H. rewrite !in_app_iff in H. destruct H as [H|[H|H]].
  - apply incoming_local_spec in H as (ch & G & _); auto. apply get_chip_in in G as [H E]; auto.
    exists ch. rewrite E. destruct p; auto.
  - apply outgoing_local_spec in H as (ch & G & _); auto. apply get_chip_in in G as [H E]; auto.
    exists ch. rewrite E. destruct p; auto.
  - apply in_map_iff in H as (ch & E & H). apply filter_In in H as [H _]. eauto.
Qed.

Lemma survivors_weight dc dl cs : Forall proper cs ->
  let w := fun l => zsum (map (fun ch => 1 + router_len (c_router ch)) l) in
  w (survivors dc dl cs) <= w cs /\
  ((exists ch, In ch cs /\ (In (c_xy ch) dc \/
      exists l k, get_link (c_router ch) l = Some k /\ gone dl (c_xy ch) l = true)) ->
   w (survivors dc dl cs) < w cs).
Proof.
  intros F w. induction cs as [|ch cs IH].
  - split; [cbn; lia|]. intros (ch & [] & _).
  - inversion F; subst. destruct (IH H2) as [I1 I2].
    assert (0 <= router_len (c_router ch)) as P0 by (unfold router_len; lia).
    destruct (reduce_len dl ch H1) as [L1 L2].
    unfold survivors in *. cbn [filter]. destruct (xymem dc (c_xy ch)) eqn:X; cbn [negb].
    + unfold w in *. cbn [map zsum fold_right]. unfold zsum in *. cbn [fold_right]. split; [lia|lia].
    + cbn [map]. unfold w in *. cbn [map]. unfold zsum in *. cbn [fold_right]. split; [lia|].
      intros (c' & [<-|Hc] & R).
      * destruct R as [R|(l & k & R1 & R2)].
        -- apply xymem_in in R. congruence.
        -- specialize (L2 l k R1 R2). lia.
      * assert (exists ch, In ch cs /\ (In (c_xy ch) dc \/
          exists l k, get_link (c_router ch) l = Some k /\ gone dl (c_xy ch) l = true)) as Z0 by eauto.
        specialize (I2 Z0). lia.
Qed.

Lemma step_weight repair v m removed n : wf m -> Forall proper (chips m) ->
  repair_step repair v m removed = Ok (Some n) -> weight n < weight m.
Proof.
  intros W F E. apply step_inv in E as (_ & _ & [(X & _)|(n' & X & NE & IG)]); [discriminate|].
  injection X as <-. pose proof (ignore_spec v m (round_chips repair m) (round_links repair m removed) W F) as I.
  rewrite IG in I. destruct I as (_ & _ & _ & _ & C & _). unfold weight. rewrite C.
  apply survivors_weight; auto. destruct NE as [NE|NE].
  - destruct (round_chips repair m) as [|p l] eqn:R; [congruence|].
    assert (In p (bad_chips m)) as Hp.
    { unfold round_chips in R. destruct repair; [rewrite R; left; auto|discriminate]. }
    apply bad_in in Hp as (ch & Hc & EX); auto. exists ch. split; auto. left. rewrite EX. left; auto.
  - destruct (round_links repair m removed) as [|[[[x y] o] b] l] eqn:R; [congruence|].
    assert (In (x, y, o, b) (one_way_links m)) as Ht.
    { assert (In (x, y, o, b) (round_links repair m removed)) as Q by (rewrite R; left; auto).
      unfold round_links in Q. apply filter_In in Q. tauto. }
    apply (one_way_spec m x y o b W) in Ht as (ch & k & G & _ & _ & GL & _).
    apply get_chip_in in G as [Hc EX]; auto. exists ch. split; auto. right. exists o, k. split; auto.
    rewrite EX. apply gone_spec. exists b. left. auto.
Qed.

Lemma step_next repair v m removed n : wf m -> Forall proper (chips m) ->
  repair_step repair v m removed = Ok (Some n) ->
  supported v (m_width m) (m_height m) /\
  made v n /\ wf n /\ Forall proper (chips n) /\
  chips n = survivors (round_chips repair m) (round_links repair m removed) (chips m) /\
  m_width n = m_width m /\ m_height n = m_height m /\
  m_kind n = machine_class v (m_width m) (m_height m) /\
  m_ccm n = chip_core_map v /\ m_origin n = "Fixed"%string /\ validate v n = Ok tt.
Proof.
  intros W F E. apply step_inv in E as (_ & _ & [(X & _)|(n' & X & NE & IG)]); [discriminate|].
  injection X as <-. pose proof (ignore_spec v m (round_chips repair m) (round_links repair m removed) W F) as I.
  rewrite IG in I. exact I.
Qed.

Lemma weight_pos m : 0 <= weight m.
Proof.
  unfold weight, zsum. induction (chips m) as [|a l IH]; cbn [map fold_right]; [lia|].
  unfold router_len at 1. lia.
Qed.

Lemma repairs_total repair v : forall m removed, wf m -> Forall proper (chips m) ->
  exists r, repairs repair v m removed r.
Proof.
  cut (forall k m removed, weight m <= Z.of_nat k -> wf m -> Forall proper (chips m) ->
    exists r, repairs repair v m removed r).
  { intros H m removed W F. apply (H (Z.to_nat (weight m))); auto. pose proof (weight_pos m). lia. }
  induction k as [|k IH]; intros m removed L W F;
    (destruct (repair_step repair v m removed) as [[n|]|e] eqn:E;
      [|exists (Ok m); apply repairs_done; auto|exists (Err e); apply repairs_raises; auto]).
  - pose proof (step_weight _ _ _ _ _ W F E). pose proof (weight_pos n). lia.
  - pose proof (step_weight _ _ _ _ _ W F E) as SW.
    destruct (step_next _ _ _ _ _ W F E) as (_ & _ & Wn & Fn & _).
    destruct (IH n []) as [r R]; auto; [lia|]. exists r. eapply repairs_again; eauto.
Qed.

Lemma repairs_det repair v m removed r : repairs repair v m removed r ->
  forall r', repairs repair v m removed r' -> r = r'.
Proof.
  induction 1 as [m removed e E|m removed E|m removed n r E R IH]; intros r' R'; inversion R'; subst;
    try congruence; auto.
  apply IH. replace n with n0 by congruence. auto.
Qed.
