From Coq Require Import Lia ZifyBool Permutation.
From Verif Require Import Model_Py Model_Wrap Model_Version Model_Core Model_Machine
  Spec_Hops Spec_Machine Spec_Boards Proof_Wrap Proof_Concentric Proof_Py Proof_Board.

(** ** The invariant *)
Record wf (m : machine) : Prop := mkWf {
  wf_chips : m_chips m = map (fun c => (c_xy c, c)) (chips m);
  wf_nodup : NoDup (map c_xy (chips m));
  wf_eth : m_eth m = filter has_ip (chips m);
  wf_boot : forall a, m_boot m = Some a <->
      exists c, In c (chips m) /\ c_xy c = (0, 0) /\ c_ip c = Some a;
  wf_cores : ctotal (m_cores_counter m) = zsum (map n_processors (chips m));
  wf_links : ctotal (m_links_counter m) =
      zsum (map (fun c => router_len (c_router c)) (chips m));
  wf_entries : forall n, In n (dkeys (m_entries_counter m)) <->
      exists c, In c (chips m) /\ r_entries (c_router c) = n
}.

Lemma wf_new k w h ccm o : wf (new_machine k w h ccm o).
Proof.
  split; cbn; auto; try constructor.
  - discriminate.
  - intros (c & [] & _).
  - intros [].
  - intros (c & [] & _).
Qed.

Lemma keys_xy m : wf m -> dkeys (m_chips m) = map c_xy (chips m).
Proof.
  intros W. rewrite (wf_chips m W) at 1. unfold dkeys. rewrite map_map. reflexivity.
Qed.

Lemma wf_keys m : wf m -> NoDup (dkeys (m_chips m)).
Proof. intros W. rewrite keys_xy by auto. apply W. Qed.

Lemma contains_in m p : wf m -> contains m p = true <-> In p (map c_xy (chips m)).
Proof.
  intros W. unfold contains. rewrite (dmem_in xy_eqb xyeqb_eq), keys_xy by auto. tauto.
Qed.

Lemma get_chip_in m x y c : wf m ->
  get_chip_at m x y = Some c <-> In c (chips m) /\ c_xy c = (x, y).
Proof.
  intros W. unfold get_chip_at. split.
  - intros E. apply (dget_some_in xy_eqb xyeqb_eq) in E.
    rewrite (wf_chips m W) in E. apply in_map_iff in E as (c' & E & H). assert (c' = c) as -> by congruence. split; [auto|congruence].
  - intros [H E]. apply (in_dget xy_eqb xyeqb_eq); [apply wf_keys; auto|].
    rewrite (wf_chips m W). apply in_map_iff. exists c. rewrite E. auto.
Qed.

Lemma get_chip_none m x y : wf m ->
  get_chip_at m x y = None <-> ~ In (x, y) (map c_xy (chips m)).
Proof.
  intros W. unfold get_chip_at. rewrite (dget_none xy_eqb xyeqb_eq), keys_xy by auto. tauto.
Qed.

Lemma chip_unique m c c' : wf m -> In c (chips m) -> In c' (chips m) ->
  c_xy c = c_xy c' -> c = c'.
Proof.
  intros W H H' E. destruct (c_xy c) as [x y] eqn:X.
  assert (get_chip_at m x y = Some c) as G by (apply get_chip_in; auto).
  assert (get_chip_at m x y = Some c') as G' by (apply get_chip_in; auto). congruence.
Qed.

Lemma is_link_at_spec m x y l : wf m ->
  is_link_at m x y l = true <->
  exists c, In c (chips m) /\ c_xy c = (x, y) /\ is_link (c_router c) l = true.
Proof.
  intros W. unfold is_link_at.
  change (dget xy_eqb (m_chips m) (x, y)) with (get_chip_at m x y).
  destruct (get_chip_at m x y) as [c|] eqn:E.
  - apply get_chip_in in E as [H X]; auto. split; [eauto|].
    intros (c' & H' & X' & L). assert (c = c') as -> by (apply (chip_unique m); congruence).
    auto.
  - apply get_chip_none in E; auto. split; [discriminate|].
    intros (c' & H' & X' & _). exfalso. apply E. apply in_map_iff. eauto.
Qed.

Lemma at_xy_spec x y c : at_xy x y c = true <-> c_xy c = (x, y).
Proof.
  unfold at_xy, c_xy. rewrite andb_true_iff, !Z.eqb_eq. split; [intros [-> ->]; auto|].
  intros [= -> ->]; auto.
Qed.

Lemma existsb_at m c : wf m ->
  dmem xy_eqb (m_chips m) (c_xy c) = existsb (at_xy (c_x c) (c_y c)) (chips m).
Proof.
  intros W. destruct (existsb _ _) eqn:E.
  - apply existsb_exists in E as (c' & H & X). apply at_xy_spec in X.
    apply (dmem_in xy_eqb xyeqb_eq). rewrite keys_xy by auto. apply in_map_iff.
    exists c'. split; auto.
  - apply (dmem_false xy_eqb xyeqb_eq). rewrite keys_xy by auto. intros H.
    apply in_map_iff in H as (c' & X & H).
    assert (existsb (at_xy (c_x c) (c_y c)) (chips m) = true); [|congruence].
    apply existsb_exists. exists c'. split; auto. apply at_xy_spec. auto.
Qed.

(** ** add_chip *)
Lemma add_chip_wf m c : wf m ->
  match add_chip m c with
  | Ok m' => wf m' /\ chips m' = chips m ++ [c] /\
      m_kind m' = m_kind m /\ m_width m' = m_width m /\ m_height m' = m_height m /\
      m_ccm m' = m_ccm m /\ m_spin m' = m_spin m /\ m_fpga m' = m_fpga m /\
      m_origin m' = m_origin m /\ ~ In (c_xy c) (map c_xy (chips m))
  | Err e => e = AlreadyExists /\ In (c_xy c) (map c_xy (chips m))
  end.
Proof.
  intros W. unfold add_chip. destruct (dmem xy_eqb (m_chips m) (c_xy c)) eqn:E.
  { apply (dmem_in xy_eqb xyeqb_eq) in E. rewrite keys_xy in E; auto. }
  apply (dmem_false xy_eqb xyeqb_eq) in E.
  assert (dset xy_eqb (m_chips m) (c_xy c) c = m_chips m ++ [(c_xy c, c)]) as D
    by (apply (dset_new xy_eqb xyeqb_eq); auto).
  assert (forall m', m_chips m' = dset xy_eqb (m_chips m) (c_xy c) c ->
     chips m' = chips m ++ [c]) as C.
  { intros m' H. unfold chips. rewrite H, D. unfold dvalues. rewrite map_app. reflexivity. }
  rewrite keys_xy in E by auto.
  destruct (c_ip c) as [ip|] eqn:I;
  (match goal with |- wf ?x /\ _ => set (m' := x) end;
   assert (chips m' = chips m ++ [c]) as C' by (apply C; reflexivity);
   split; [|repeat split; auto]; split; rewrite ?C';
   [ cbn [m_chips m']; rewrite D, map_app; cbn; f_equal; apply W
   | rewrite map_app; cbn; apply nodup_snoc; auto; apply W
   | cbn [m_eth m']; rewrite filter_app; cbn; unfold has_ip at 2; rewrite I, ?app_nil_r;
     rewrite (wf_eth m W); reflexivity
   |
   | cbn [m_cores_counter m']; rewrite ctotal_cincr, (wf_cores m W), map_app, zsum_app; cbn; lia
   | cbn [m_links_counter m']; rewrite ctotal_cincr, (wf_links m W), map_app, zsum_app; cbn; lia
   | intros n; cbn [m_entries_counter m']; rewrite in_cincr_keys, (wf_entries m W);
     setoid_rewrite in_app_iff; cbn;
     split; [intros [(c' & H & X)| ->]; eauto|
             intros (c' & [H|[<-|[]]] & X); eauto] ]).
  - intros a. cbn [m_boot m']. setoid_rewrite in_app_iff.
    destruct (xy_eqb (c_xy c) (0, 0)) eqn:Z.
    + apply xyeqb_eq in Z. split.
      * intros [= <-]. exists c. cbn. auto.
      * intros (c' & [H|[<-|[]]] & X & Y); [|congruence].
        exfalso. apply E. rewrite Z. apply in_map_iff. eauto.
    + rewrite (wf_boot m W). split.
      * intros (c' & H & X & Y). exists c'. auto.
      * intros (c' & [H|[<-|[]]] & X & Y); [eauto|]. apply xyeqb_eq in X. congruence.
  - intros a. cbn [m_boot m']. setoid_rewrite in_app_iff. rewrite (wf_boot m W). split.
    + intros (c' & H & X & Y). exists c'. auto.
    + intros (c' & [H|[<-|[]]] & X & Y); [eauto|congruence].
Qed.

Lemma add_chip_enter m c : wf m ->
  match add_chip m c with
  | Ok m' => enter (chips m) c = (chips m', None)
  | Err e => enter (chips m) c = (chips m, Some e)
  end.
Proof.
  intros W. pose proof (add_chip_wf m c W) as A. unfold enter.
  rewrite <- (existsb_at m c W).
  destruct (add_chip m c) as [m'|e] eqn:E; unfold add_chip in E.
  - destruct (dmem xy_eqb (m_chips m) (c_xy c)); [discriminate|].
    f_equal. symmetry. apply A.
  - destruct A as [-> A]. destruct (dmem xy_eqb (m_chips m) (c_xy c)) eqn:X; auto.
    destruct (c_ip c); discriminate.
Qed.

Lemma add_chips_wf cs : forall m, wf m ->
  let '(m', e) := add_chips m cs in
  wf m' /\ enter_all (chips m) cs = (chips m', e) /\
  m_kind m' = m_kind m /\ m_width m' = m_width m /\ m_height m' = m_height m /\
  m_ccm m' = m_ccm m /\ m_spin m' = m_spin m /\ m_fpga m' = m_fpga m /\
  m_origin m' = m_origin m.
Proof.
  induction cs as [|c cs IH]; intros m W; cbn.
  - repeat split; auto; apply W.
  - pose proof (add_chip_wf m c W) as A. pose proof (add_chip_enter m c W) as B.
    destruct (add_chip m c) as [m'|e].
    + rewrite B. specialize (IH m' (proj1 A)). destruct (add_chips m' cs) as [m'' e].
      destruct A as (_ & _ & A). intuition congruence.
    + rewrite B. repeat split; auto; apply W.
Qed.

(** ** Adding links *)
Definition same_but_links (m m' : machine) : Prop :=
  m_kind m' = m_kind m /\ m_width m' = m_width m /\ m_height m' = m_height m /\
  m_ccm m' = m_ccm m /\ m_eth m' = m_eth m /\ m_boot m' = m_boot m /\
  m_chips m' = m_chips m /\ m_origin m' = m_origin m /\
  m_cores_counter m' = m_cores_counter m /\ m_links_counter m' = m_links_counter m /\
  m_entries_counter m' = m_entries_counter m /\ m_sdram_counter m' = m_sdram_counter m.

Lemma same_refl m : same_but_links m m.
Proof. repeat split. Qed.

Lemma same_trans m m' m'' : same_but_links m m' -> same_but_links m' m'' ->
  same_but_links m m''.
Proof. unfold same_but_links. intuition congruence. Qed.

Lemma same_wf m m' : same_but_links m m' -> wf m -> wf m'.
Proof.
  intros S W. unfold same_but_links in S.
  destruct S as (S1 & S2 & S3 & S4 & S5 & S6 & S7 & S8 & S9 & S10 & S11 & S12).
  assert (chips m' = chips m) as C by (unfold chips; congruence).
  split; rewrite ?C, ?S5, ?S6, ?S7, ?S9, ?S10, ?S11; apply W.
Qed.

Lemma same_chips m m' : same_but_links m m' -> chips m' = chips m.
Proof. intros S. unfold chips. unfold same_but_links in S. intuition congruence. Qed.

Lemma spin_step_same ip e m s : same_but_links m (add_spinnaker_step ip e m s).
Proof.
  destruct s as [i [[lx ly] l]]. cbn. destruct (m_global m lx ly (c_x e) (c_y e)) as [gx gy].
  destruct (get_chip_at m gx gy) as [c|]; [destruct (negb (is_link (c_router c) l))|];
    repeat split.
Qed.

Lemma spin_steps_same ip e ss : forall m,
  same_but_links m (fold_left (add_spinnaker_step ip e) ss m).
Proof.
  induction ss as [|s ss IH]; intros m; cbn; [apply same_refl|].
  eapply same_trans; [apply spin_step_same|apply IH].
Qed.

Lemma fpga_step_same ip e m s : same_but_links m (add_fpga_step ip e m s).
Proof.
  destruct s as [[[[lx ly] l] f] fl]. cbn.
  destruct (m_global m lx ly (c_x e) (c_y e)) as [gx gy].
  destruct (get_chip_at m gx gy) as [c|]; repeat split.
Qed.

Lemma fpga_steps_same ip e ss : forall m,
  same_but_links m (fold_left (add_fpga_step ip e) ss m).
Proof.
  induction ss as [|s ss IH]; intros m; cbn; [apply same_refl|].
  eapply same_trans; [apply fpga_step_same|apply IH].
Qed.

Lemma spin_fold_same v es : forall m, Forall (fun e => has_ip e = true) es ->
  exists m', fold_res (fun m e =>
    match c_ip e with
    | None => Err AssertionError
    | Some ip => Ok (fold_left (add_spinnaker_step ip e) (enumerate (spinnaker_links v)) m)
    end) es m = Ok m' /\ same_but_links m m'.
Proof.
  induction es as [|e es IH]; intros m F; cbn.
  - exists m. split; auto. apply same_refl.
  - inversion F as [|? ? H F']; subst. unfold has_ip in H.
    destruct (c_ip e) as [ip|]; [|discriminate]. cbn [bind].
    destruct (IH (fold_left (add_spinnaker_step ip e) (enumerate (spinnaker_links v)) m) F')
      as (m' & E & S).
    exists m'. split; auto. eapply same_trans; [apply spin_steps_same|exact S].
Qed.

Lemma fpga_fold_same v es : forall m, Forall (fun e => has_ip e = true) es ->
  exists m', fold_res (fun m e =>
    match c_ip e with
    | None => Err AssertionError
    | Some ip => Ok (fold_left (add_fpga_step ip e) (fpga_links v) m)
    end) es m = Ok m' /\ same_but_links m m'.
Proof.
  induction es as [|e es IH]; intros m F; cbn.
  - exists m. split; auto. apply same_refl.
  - inversion F as [|? ? H F']; subst. unfold has_ip in H.
    destruct (c_ip e) as [ip|]; [|discriminate]. cbn [bind].
    destruct (IH (fold_left (add_fpga_step ip e) (fpga_links v) m) F')
      as (m' & E & S).
    exists m'. split; auto. eapply same_trans; [apply fpga_steps_same|exact S].
Qed.

Lemma eth_all_ip m : wf m -> Forall (fun e => has_ip e = true) (m_eth m).
Proof.
  intros W. rewrite (wf_eth m W). apply Forall_forall. intros c H.
  apply filter_In in H. tauto.
Qed.

Lemma add_spin_same v m : wf m -> exists m', add_spinnaker_links v m = Ok m' /\
  same_but_links m m'.
Proof. intros W. apply spin_fold_same. apply eth_all_ip; auto. Qed.

Lemma add_fpga_same v m : wf m -> exists m', add_fpga_links v m = Ok m' /\
  same_but_links m m'.
Proof. intros W. apply fpga_fold_same. apply eth_all_ip; auto. Qed.

(** ** Histories *)
Lemma exec_wf v m a : wf m ->
  let '(m', e) := exec v m a in
  wf m' /\ book_exec (chips m) a = (chips m', e) /\
  m_kind m' = m_kind m /\ m_width m' = m_width m /\ m_height m' = m_height m /\
  m_ccm m' = m_ccm m /\ m_origin m' = m_origin m.
Proof.
  intros W. destruct a as [c|cs| |]; cbn [exec book_exec].
  - pose proof (add_chip_wf m c W) as A. pose proof (add_chip_enter m c W) as B.
    destruct (add_chip m c) as [m'|e]; [|repeat split; auto; apply W].
    destruct A as (A1 & A2 & A). intuition congruence.
  - pose proof (add_chips_wf cs m W) as A. destruct (add_chips m cs) as [m' e].
    intuition congruence.
  - destruct (add_spin_same v m W) as (m' & -> & S). cbn.
    pose proof (same_wf m m' S W). pose proof (same_chips m m' S).
    unfold same_but_links in S. intuition congruence.
  - destruct (add_fpga_same v m W) as (m' & -> & S). cbn.
    pose proof (same_wf m m' S W). pose proof (same_chips m m' S).
    unfold same_but_links in S. intuition congruence.
Qed.

Lemma history_wf v calls : forall m, wf m ->
  let '(m', es) := history v m calls in
  wf m' /\ book (chips m) calls = (chips m', es) /\
  m_kind m' = m_kind m /\ m_width m' = m_width m /\ m_height m' = m_height m /\
  m_ccm m' = m_ccm m /\ m_origin m' = m_origin m.
Proof.
  induction calls as [|a calls IH]; intros m W; cbn [history book].
  - repeat split; auto; apply W.
  - pose proof (exec_wf v m a W) as A. destruct (exec v m a) as [m1 e].
    destruct A as (W1 & B & A). rewrite B. specialize (IH m1 W1).
    destruct (history v m1 calls) as [m2 es]. destruct IH as (W2 & B2 & A2).
    rewrite B2. intuition congruence.
Qed.

Lemma made_wf v m : made v m -> wf m.
Proof.
  intros (k & w & h & ccm & o & calls & ->).
  pose proof (history_wf v calls _ (wf_new k w h ccm o)) as H.
  destruct (history v _ calls). apply H.
Qed.

Lemma find_at m x y : wf m -> get_chip_at m x y = find (at_xy x y) (chips m).
Proof.
  intros W. destruct (find (at_xy x y) (chips m)) as [c|] eqn:F.
  - apply find_some in F as [H E]. apply at_xy_spec in E. apply get_chip_in; auto.
  - apply get_chip_none; auto. intros H. apply in_map_iff in H as (c & E & H).
    pose proof (find_none _ _ F c H) as N. apply at_xy_spec in E. congruence.
Qed.

(** ** C07 *)
Lemma chips_by_ethernet m ex ey : wf m ->
  exists cs, get_chips_by_ethernet m ex ey = Ok cs /\ map c_xy cs = m_existing m ex ey /\
    Forall (fun c => In c (chips m)) cs.
Proof.
  intros W. unfold get_chips_by_ethernet.
  assert (forall l, (forall p, In p l -> contains m p = true) ->
    exists cs, map_res (fun p => getitem m p) l = Ok cs /\ map c_xy cs = l /\
      Forall (fun c => In c (chips m)) cs) as K.
  { induction l as [|p l IH]; intros H; cbn.
    - exists []. auto.
    - destruct IH as (cs & E & E' & F); [intros; apply H; cbn; auto|].
      pose proof (H p (or_introl eq_refl)) as Hp. unfold contains in Hp.
      apply dmem_dget in Hp as [c Hc]. assert (getitem m p = Ok c) as -> by (unfold getitem, dgetitem; rewrite Hc; auto).
      cbn [bind]. rewrite E. cbn [bind]. exists (c :: cs).
      destruct p as [x y]. change (get_chip_at m x y = Some c) in Hc.
      apply get_chip_in in Hc as [I X]; auto.
      split; auto. split; [cbn; congruence|]. constructor; auto. }
  apply K. intros p Hp. unfold m_existing in Hp. rewrite existing_filter in Hp.
  apply filter_In in Hp. tauto.
Qed.

(** ** C22 *)
Lemma has_address_truthy c : ip_truthy (c_ip c) = true <-> has_address c.
Proof.
  unfold has_address, ip_truthy. destruct (c_ip c) as [a|].
  - rewrite negb_true_iff, String.eqb_neq. split; [eauto|]. intros (b & [= <-] & H). auto.
  - split; [discriminate|]. intros (b & H & _). discriminate.
Qed.

Lemma legal_spec v x y : illegal_ethernet_message v x y = false <-> legal_ethernet v x y.
Proof.
  assert (forall n d, 0 < d -> n mod d = 0 <-> (d | n)) as D
    by (intros; apply Z.mod_divide; lia).
  destruct v; cbn.
  - lia.
  - rewrite <- !D by lia. destruct (Z.eqb_spec (x mod 4) 0), (Z.eqb_spec ((x + y) mod 12) 0);
      cbn [negb]; split; try discriminate; tauto.
  - lia.
  - rewrite <- !D by lia. destruct (Z.eqb_spec (x mod 4) 0), (Z.eqb_spec ((x + y) mod 12) 0);
      cbn [negb]; split; try discriminate; tauto.
Qed.

Lemma validate_chip_spec v m c :
  (validate_chip v m c = Ok tt <-> chip_well_formed v m c) /\
  (validate_chip v m c = Ok tt \/ validate_chip v m c = Err MachineExc).
Proof.
  assert (minimum_cores_expected v = fewest_cores v) as MC by (destruct v; reflexivity).
  unfold validate_chip, chip_well_formed. rewrite MC. clear MC.
  destruct (Z.ltb_spec (c_x c) 0); [split; [split; [discriminate|lia]|auto]|].
  destruct (Z.ltb_spec (c_y c) 0); [split; [split; [discriminate|lia]|auto]|].
  destruct (Z.geb_spec (c_x c) (m_width m)); [split; [split; [discriminate|lia]|auto]|].
  destruct (Z.geb_spec (c_y c) (m_height m)); [split; [split; [discriminate|lia]|auto]|].
  destruct (Z.ltb_spec (n_processors c) (fewest_cores v));
    [split; [split; [discriminate|lia]|auto]|].
  destruct (ip_truthy (c_ip c)) eqn:T.
  - apply has_address_truthy in T. pose proof (legal_spec v (c_x c) (c_y c)) as L.
    destruct (illegal_ethernet_message v (c_x c) (c_y c)).
    + split; auto. split; [discriminate|]. intros (_ & _ & _ & X & _).
      specialize (X T). apply L in X. discriminate.
    + split; auto. split; auto. intros _. split; [lia|]; split; [lia|]; split; [lia|]; split; [intros _; apply L; auto|tauto].
  - assert (~ has_address c) as N by (rewrite <- has_address_truthy; congruence).
    assert (is_chip_at m (c_eth_x c) (c_eth_y c) = true <->
            exists e, get_chip_at m (c_eth_x c) (c_eth_y c) = Some e) as L1
      by (unfold is_chip_at, get_chip_at; apply dmem_dget).
    pose proof (dmem_in xy_eqb xyeqb_eq (m_ccm m) (m_local m c)) as L2.
    unfold local_xys.
    destruct (is_chip_at m (c_eth_x c) (c_eth_y c)); cbn [negb].
    + destruct (dmem xy_eqb (m_ccm m) (m_local m c)); cbn [negb]; split; auto.
      * split; auto. intros _. split; [lia|]; split; [lia|]; split; [lia|]; split; [tauto|]. intros _. tauto.
      * split; [discriminate|]. intros (_ & _ & _ & _ & X). destruct (X N) as [_ X'].
        apply L2 in X'. discriminate.
    + split; auto. split; [discriminate|]. intros (_ & _ & _ & _ & X).
      destruct (X N) as [X' _]. apply L1 in X'. discriminate.
Qed.

Lemma validate_spec v m : wf m ->
  (validate v m = Ok tt <-> well_formed v m) /\
  (validate v m = Ok tt \/ validate v m = Err MachineExc).
Proof.
  intros W. unfold validate, well_formed.
  assert ((exists a, m_boot m = Some a) <->
    exists c a, get_chip_at m 0 0 = Some c /\ c_ip c = Some a) as B.
  { split.
    - intros [a E]. apply (wf_boot m W) in E as (c & H & X & I). exists c, a.
      split; auto. apply get_chip_in; auto.
    - intros (c & a & G & I). apply get_chip_in in G as [H X]; auto.
      exists a. apply (wf_boot m W). eauto. }
  rewrite <- B. destruct (m_boot m) as [a|].
  2: { split; auto. split; [discriminate|]. intros [[a X] _]. discriminate. }
  assert ((exists b, Some a = Some b) <-> True) as -> by (split; eauto).
  assert (fold_res (fun _ c => validate_chip v m c) (chips m) tt = Ok tt \/
    fold_res (fun _ c => validate_chip v m c) (chips m) tt = Err MachineExc) as FE.
  { destruct (fold_res (fun _ c => validate_chip v m c) (chips m) tt) as [[]|e] eqn:E; auto.
    right. rewrite <- E. apply fold_res_unit_err; [|congruence].
    intros c e' _ X. destruct (proj2 (validate_chip_spec v m c)); congruence. }
  assert (fold_res (fun _ c => validate_chip v m c) (chips m) tt = Ok tt <->
    forall c, In c (chips m) -> chip_well_formed v m c) as FS.
  { rewrite fold_res_unit_ok. split; intros H c Hc; apply (validate_chip_spec v m c); auto. }
  unfold ethernet_connected_chips.
  destruct (Z.gtb_spec (Z.of_nat (List.length (m_eth m))) 1) as [G|G]; cbn [andb];
    destruct (supports_multiple_boards v); cbn [negb].
  - split; auto. rewrite FS. split; [|tauto]. intros H. split; [exact I|]; split; [discriminate|exact H].
  - split; auto. split; [discriminate|]. intros (_ & X & _). specialize (X eq_refl). lia.
  - split; auto. rewrite FS. split; [|tauto]. intros H. split; [exact I|]; split; [discriminate|exact H].
  - split; auto. rewrite FS. split; [|tauto]. intros H. split; [exact I|]; split; [lia|exact H].
Qed.

(** ** C23 *)
Definition boards_xys (m : machine) : list XY :=
  flat_map (fun e => m_xys m (c_x e) (c_y e)) (m_eth m).

Definition used (m : machine) (p : XY) : Prop :=
  In p (map c_xy (chips m)) \/ In p (boards_xys m).

Lemma search_spec used h fuel : forall x p, unused_search used h fuel x = Ok p ->
  x <= fst p /\ 0 <= snd p < h /\ used p = false /\
  (forall x' y', x <= x' -> 0 <= y' < h ->
     x' < fst p \/ (x' = fst p /\ y' < snd p) -> used (x', y') = true).
Proof.
  induction fuel as [|fuel IH]; intros x p; cbn [unused_search]; [discriminate|].
  destruct (find _ _) as [y|] eqn:F.
  - intros [= <-]. cbn [fst snd]. apply find_some in F as F'. destruct F' as [I U].
    apply in_zrange in I. apply negb_true_iff in U. repeat split; try lia; auto.
    intros x' y' Hx Hy [L|[-> L]]; [lia|].
    (* earlier rows *)
    assert (forall l1 l2 y0, zrange 0 h = l1 ++ y0 :: l2 -> True) by auto.
    clear - F L Hy.
    assert (forall n k, 0 <= k -> find (fun y => negb (used (x, y)))
              (map (fun i => k + Z.of_nat i) (seq 0 n)) = Some y ->
              forall y', k <= y' < y -> used (x, y') = true) as K.
    { induction n as [|n IHn]; intros k Hk E y0 Hy0; cbn in E; [discriminate|].
      destruct (negb (used (x, k + 0))) eqn:N.
      - injection E as <-. lia.
      - apply negb_false_iff in N. rewrite Z.add_0_r in N.
        destruct (Z.eq_dec y0 k) as [->|]; auto.
        apply (IHn (k + 1)); try lia.
        rewrite <- seq_shift, map_map in E.
        erewrite map_ext; [exact E|]. intros a. cbn. lia. }
    unfold zrange in F. apply (K _ 0 ltac:(lia) F). lia.
  - intros E. apply IH in E as (E1 & E2 & E3 & E4). repeat split; auto; try lia.
    intros x' y' Hx Hy L. destruct (Z.eq_dec x' x) as [->|].
    + pose proof (find_none _ _ F y' (proj2 (in_zrange _ _ _) Hy)) as N.
      apply negb_false_iff in N. auto.
    + apply E4; auto; lia.
Qed.

Lemma search_terminates used h (l : list XY) :
  0 < h -> (forall p, used p = true -> In p l) ->
  forall fuel x, (List.length l < fuel)%nat -> exists p, unused_search used h fuel x = Ok p.
Proof.
  intros Hh HU fuel x HF.
  destruct (unused_search used h fuel x) as [p|e] eqn:E; [eauto|]. exfalso.
  assert (forall fuel x e, unused_search used h fuel x = Err e ->
     forall i, (i < fuel)%nat -> used (x + Z.of_nat i, 0) = true) as K.
  { clear - Hh. induction fuel as [|fuel IH]; intros x e E i Hi; [lia|].
    cbn [unused_search] in E. destruct (find _ _) as [y|] eqn:F; [discriminate|].
    destruct i as [|i].
    - pose proof (find_none _ _ F 0 (proj2 (in_zrange 0 h 0) ltac:(lia))) as N.
      apply negb_false_iff in N. rewrite Z.add_0_r. auto.
    - replace (x + Z.of_nat (S i)) with (x + 1 + Z.of_nat i) by lia.
      eapply IH; [exact E|lia]. }
  specialize (K _ _ _ E).
  assert (incl (map (fun i => (x + Z.of_nat i, 0)) (seq 0 fuel)) l) as I.
  { intros p Hp. apply in_map_iff in Hp as (i & <- & Hi). apply in_seq in Hi.
    apply HU, K. apply Hi. }
  apply NoDup_incl_length in I.
  - rewrite map_length, seq_length in I. exact (Nat.lt_irrefl _ (Nat.le_lt_trans _ _ _ I HF)).
  - apply FinFun.Injective_map_NoDup; [|apply seq_NoDup].
    intros i j X. assert (x + Z.of_nat i = x + Z.of_nat j) by congruence. lia.
Qed.

Lemma used_spec m p : wf m ->
  (contains m p || xymem (boards_xys m) p)%bool = true <-> used m p.
Proof.
  intros W. rewrite orb_true_iff, contains_in, xymem_in by auto. reflexivity.
Qed.

Lemma unused_spec m : wf m -> 0 < m_height m ->
  exists p, get_unused_xy m = Ok p /\
    0 <= fst p /\ 0 <= snd p < m_height m /\ ~ used m p /\
    (forall x y, 0 <= x -> 0 <= y < m_height m ->
       x < fst p \/ (x = fst p /\ y < snd p) -> used m (x, y)).
Proof.
  intros W H. unfold get_unused_xy. fold (boards_xys m). cbv zeta.
  set (u := fun p0 : XY => (contains m p0 || xymem (boards_xys m) p0)%bool).
  destruct (search_terminates u (m_height m) (map c_xy (chips m) ++ boards_xys m) H)
    with (fuel := S (List.length (m_chips m) + List.length (boards_xys m))) (x := 0)
    as [p E].
  - intros p Hp. apply (used_spec m p W) in Hp. apply in_app_iff. exact Hp.
  - rewrite app_length, map_length. unfold chips, dvalues. rewrite map_length. lia.
  - exists p. split; auto. apply search_spec in E as (E1 & E2 & E3 & E4).
    repeat split; try lia.
    + intros Hu. apply (used_spec m p W) in Hu. unfold u in E3. congruence.
    + intros x y Hx Hy L. apply (used_spec m _ W). apply (E4 x y); auto.
Qed.

Lemma unused_unique m p p' : 
  0 <= fst p -> 0 <= snd p < m_height m -> ~ used m p ->
  (forall x y, 0 <= x -> 0 <= y < m_height m ->
       x < fst p \/ (x = fst p /\ y < snd p) -> used m (x, y)) ->
  0 <= fst p' -> 0 <= snd p' < m_height m -> ~ used m p' ->
  (forall x y, 0 <= x -> 0 <= y < m_height m ->
       x < fst p' \/ (x = fst p' /\ y < snd p') -> used m (x, y)) -> p = p'.
Proof.
  destruct p as [a b], p' as [a' b']. cbn [fst snd]. intros.
  assert ((a < a' \/ (a = a' /\ b < b')) \/ (a' < a \/ (a' = a /\ b' < b)) \/ (a = a' /\ b = b'))
    as [L|[L|[-> ->]]] by lia; auto; exfalso; auto.
Qed.
