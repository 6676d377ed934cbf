From Coq Require Import Lia ZifyBool Permutation Sorted.
From Verif Require Import Model_Py Model_Wrap Model_Float Model_Geometry Model_Version Model_Core
  Model_Machine Model_Str Model_Ignore Model_Virtual Model_Repair Model_Json
  Spec_Hops Spec_Board Spec_Version Spec_Machine Spec_Router Spec_Str Spec_Virtual Spec_Repair Spec_Json
  Proof_Wrap Proof_Py Proof_Board Proof_Version Proof_Machine Proof_Report Proof_Str Proof_Virtual
  Proof_VirtualMachine Proof_Links Proof_Repair Proof_RepairEnd.
Open Scope list_scope.
Open Scope Z_scope.

(** ** Reading back what was written *)
Lemma j_ints l : map_res j_int (map JInt l) = Ok l.
Proof. induction l as [|a l IH]; cbn; [auto|]. rewrite IH. reflexivity. Qed.

Lemma zlist_eqb_eq a : forall b, zlist_eqb a b = true <-> a = b.
Proof.
  unfold zlist_eqb. induction a as [|x a IH]; intros [|y b]; cbn; split; intros H; try discriminate; auto.
  - rewrite andb_true_iff in H. destruct H as [H1 H2]. rewrite andb_true_iff in H2. destruct H2 as [H2 H3].
    apply Z.eqb_eq in H2. subst. f_equal. apply IH. rewrite H1, H3. reflexivity.
  - injection H as -> ->. rewrite Z.eqb_refl. cbn. apply IH. auto.
Qed.

Definition res_of (d : desc) : json * Z * Z * list json :=
  (JInt (d_monitors d), d_entries d, d_sdram d, map JInt (d_tags d)).

Lemma resources_back d : exists o, j_obj (json_of_desc d) = Ok o /\ j_resources o = Ok (res_of d).
Proof. eexists. split; reflexivity. Qed.

Definition desc_now (ch : chip) : desc :=
  mkDesc (n_scamp_processors ch) (int_value (r_entries (c_router ch))) (c_sdram ch) (c_tags ch).

Lemma desc_of_now ch : desc_of ch = desc_now ch.
Proof. unfold desc_of, desc_now, n_processors, n_placable_processors, n_scamp_processors. f_equal. lia. Qed.

Lemma exceptions_back ch d :
  j_exceptions (describe_exceptions ch d) (res_of d) = Ok (res_of (desc_now ch)).
Proof.
  unfold describe_exceptions, res_of, desc_now. cbn [d_monitors d_entries d_sdram d_tags].
  destruct (n_scamp_processors ch =? d_monitors d) eqn:E1;
  destruct (int_value (r_entries (c_router ch)) =? d_entries d) eqn:E2;
  destruct (c_sdram ch =? d_sdram d) eqn:E3;
  destruct (zlist_eqb (c_tags ch) (d_tags d)) eqn:E4;
  try apply Z.eqb_eq in E1; try apply Z.eqb_eq in E2; try apply Z.eqb_eq in E3; try apply zlist_eqb_eq in E4;
  cbn; rewrite ?E1, ?E2, ?E3, ?E4; reflexivity.
Qed.

(** The links made for a chip. *)
Definition back_links (k : wrap) (w h : Z) (ch : chip) : list link :=
  flat_map (straight k w h ch) [0; 1; 2; 3; 4; 5].

Lemma straight_ids k w h ch l a : In a (straight k w h ch l) -> l_source_link_id a = l.
Proof.
  unfold straight. destruct (xy_over_link _ _ _ _ _ _) as [[dx dy]|]; [|intros []].
  destruct (is_link _ _); [|intros []]. intros [<-|[]]. reflexivity.
Qed.

Lemma back_nodup k w h ch : NoDup (map l_source_link_id (back_links k w h ch)).
Proof.
  unfold back_links.
  assert (forall ids, NoDup ids -> NoDup (map l_source_link_id (flat_map (straight k w h ch) ids)) /\
    forall i, In i (map l_source_link_id (flat_map (straight k w h ch) ids)) -> In i ids) as K.
  { induction ids as [|i ids IH]; intros N; cbn [flat_map map]; [split; [constructor|intros ? []]|].
    inversion N; subst. destruct IH as [IH1 IH2]; auto. rewrite map_app. split.
    - unfold straight at 1. destruct (xy_over_link _ _ _ _ _ _) as [[dx dy]|]; [|exact IH1].
      destruct (is_link _ _); [|exact IH1]. cbn. constructor; auto.
    - intros j H. apply in_app_or in H as [H|H]; [|right; auto].
      apply in_map_iff in H as (a & <- & H). left. symmetry. eapply straight_ids; eauto. }
  apply K. repeat constructor; cbn; lia.
Qed.

Lemma router_of_links ls n : NoDup (map l_source_link_id ls) ->
  new_router ls n = Ok (mkRouter (map (fun l => (l_source_link_id l, l)) ls) n).
Proof.
  intros N. pose proof (router_make (mkRouter (map (fun l => (l_source_link_id l, l)) ls) n)) as H.
  unfold router_links, dvalues in H. cbn [r_links r_entries] in H. rewrite map_map in H. cbn [snd] in H.
  rewrite map_id in H. apply H. unfold router_ok, router_links, dvalues. cbn [r_links].
  assert (map snd (map (fun l : link => (l_source_link_id l, l)) ls) = ls) as ->.
  { rewrite map_map. cbn [snd]. apply map_id. }
  auto.
Qed.

Definition dead (ch : chip) : list Z :=
  filter (fun l => negb (is_link (c_router ch) l)) (zrange 0 6).

Lemma dead_spec ch l : 0 <= l < 6 -> existsb (j_eq_int l) (map JInt (dead ch)) = negb (is_link (c_router ch) l).
Proof.
  intros H. destruct (is_link (c_router ch) l) eqn:E; cbn [negb].
  - apply not_true_is_false. intros X. apply existsb_exists in X as (a & I & X).
    apply in_map_iff in I as (n & <- & I). cbn in X. apply Z.eqb_eq in X. subst n.
    apply filter_In in I as [_ I]. rewrite E in I. discriminate.
  - apply existsb_exists. exists (JInt l). split; [|cbn; lia]. apply in_map. apply filter_In.
    rewrite in_zrange, E. auto.
Qed.

Lemma make_links m ch :
  fold_res (fun links l =>
      if existsb (j_eq_int l) (map JInt (dead ch)) then Ok links
      else do (dx, dy) <- m_over m (c_x ch) (c_y ch) l ; Ok (links ++ [mkLink (c_x ch) (c_y ch) l dx dy]))
    (zrange 0 6) [] = Ok (back_links (m_kind m) (m_width m) (m_height m) ch).
Proof.
  unfold back_links.
  assert (forall ids acc, (forall l, In l ids -> 0 <= l < 6) ->
    fold_res (fun links l =>
      if existsb (j_eq_int l) (map JInt (dead ch)) then Ok links
      else do (dx, dy) <- m_over m (c_x ch) (c_y ch) l ; Ok (links ++ [mkLink (c_x ch) (c_y ch) l dx dy]))
    ids acc = Ok (acc ++ flat_map (straight (m_kind m) (m_width m) (m_height m) ch) ids)) as K.
  { induction ids as [|i ids IH]; intros acc H; cbn [fold_res flat_map]; [rewrite app_nil_r; auto|].
    rewrite dead_spec by (apply H; left; auto).
    unfold straight at 1, m_over.
    destruct (over_six (m_kind m) (m_width m) (m_height m) (c_x ch) (c_y ch) i) as [[dx dy] E];
      [apply H; left; auto|]. rewrite E.
    destruct (is_link (c_router ch) i); cbn [negb bind].
    - unfold m_over in IH. rewrite IH by (intros; apply H; right; auto). rewrite <- app_assoc. reflexivity.
    - unfold m_over in IH. rewrite IH by (intros; apply H; right; auto). reflexivity. }
  rewrite K; [reflexivity|]. intros l. rewrite in_zrange. auto.
Qed.

Lemma int_value_min n : int_value n = Z.min n 2147483647.
Proof. unfold int_value, JAVA_MAX_INT. destruct (n <? 2147483647) eqn:E; lia. Qed.

Lemma chip_read m ch dstd deth : proper ch ->
  j_chip m (res_of dstd) (res_of deth) (describe_chip ch dstd deth) =
  if n_scamp_processors ch =? 1
  then add_chip m (chip_back (m_kind m) (m_width m) (m_height m) ch)
  else Err NotImplementedErr.
Proof.
  intros [R T]. pose proof (make_links m ch) as ML.
  unfold describe_chip. fold (dead ch).
  assert (forall (ip : option string) D details, 
    details = [("cores"%string, JInt (n_processors ch));
     ("ethernet"%string, JArr [JInt (c_eth_x ch); JInt (c_eth_y ch)])] ++
      (match dead ch with [] => [] | _ => [("deadLinks"%string, JArr (map JInt (dead ch)))] end) ++
      (match ip with Some a => [("ipAddress"%string, JStr a)] | None => [] end) ->
    ip = c_ip ch -> D = (match ip with Some _ => deth | None => dstd end) ->
    j_chip m (res_of dstd) (res_of deth)
      (JArr ([JInt (c_x ch); JInt (c_y ch); JObj details] ++
        match describe_exceptions ch D with [] => [] | _ => [JObj (describe_exceptions ch D)] end)) =
    if n_scamp_processors ch =? 1
    then add_chip m (chip_back (m_kind m) (m_width m) (m_height m) ch)
    else Err NotImplementedErr) as K.
  { intros ip D details DE IP HD. pose proof (exceptions_back ch D) as X.
    assert (dget String.eqb details "cores"%string = Some (JInt (n_processors ch))) as G1
      by (subst details; reflexivity).
    assert (dget String.eqb details "ethernet"%string = Some (JArr [JInt (c_eth_x ch); JInt (c_eth_y ch)])) as G2
      by (subst details; reflexivity).
    assert (dget String.eqb details "ipAddress"%string = option_map JStr ip) as G3
      by (subst details; destruct (dead ch), ip; reflexivity).
    assert (match dget String.eqb details "deadLinks"%string with Some a => j_ary a | None => Ok [] end
      = Ok (map JInt (dead ch))) as G4
      by (subst details; destruct (dead ch), ip; reflexivity).
    clear DE.
    assert (match describe_exceptions ch D with [] => [] | _ => [JObj (describe_exceptions ch D)] end =
      match describe_exceptions ch D with [] => [] | _ :: _ => [JObj (describe_exceptions ch D)] end) as E0 by reflexivity.
    unfold j_chip. set (ex := describe_exceptions ch D) in *.
    set (j := [JInt (c_x ch); JInt (c_y ch); JObj details] ++ _). cbn [j_ary bind].
    assert (py_index j 2 = Ok (JObj details)) as I2 by (unfold j; destruct ex; reflexivity).
    assert (py_index j 0 = Ok (JInt (c_x ch))) as I0 by (unfold j; destruct ex; reflexivity).
    assert (py_index j 1 = Ok (JInt (c_y ch))) as I1 by (unfold j; destruct ex; reflexivity).
    assert ((if Z.of_nat (List.length j) >? 3
         then do e <- (do a <- py_index j 3 ; j_obj a) ; j_exceptions e (res_of D)
         else Ok (res_of D)) = Ok (res_of (desc_now ch))) as I3.
    { unfold j. destruct ex as [|p q] eqn:EX.
      - cbn. exact X.
      - cbn [app List.length]. change (Z.of_nat 4 >? 3) with true. cbn iota.
        cbn [py_index]. change (py_index _ 3) with (@Ok json (JObj (p :: q))). cbn [bind j_obj]. exact X. }
    rewrite I2, I0, I1. cbn [bind j_obj j_int].
    unfold jget, dgetitem. rewrite G1, G2. cbn [bind j_ary].
    rewrite G3.
    assert ((match option_map JStr ip with
             | Some a => do a0 <- j_str a; Ok (Some a0, res_of deth)
             | None => Ok (None, res_of dstd) end) = Ok (c_ip ch, res_of D)) as I4.
    { subst D. rewrite <- IP. destruct ip; reflexivity. }
    rewrite I4. cbn [bind]. rewrite I3. unfold res_of at 1. cbn [bind].
    cbn [desc_now d_monitors d_entries d_sdram d_tags j_eq_int].
    destruct (n_scamp_processors ch =? 1) eqn:N1; cbn [negb]; [|reflexivity].
    rewrite G4. cbn [bind]. rewrite ML. cbn [bind].
    rewrite router_of_links by apply back_nodup. cbn [bind j_int]. rewrite j_ints. cbn [bind].
    f_equal. unfold new_chip, chip_back. rewrite oset_of_id by auto. rewrite int_value_min. reflexivity. }
  destruct (c_ip ch) as [a|] eqn:IP; cbn iota beta.
  - rewrite <- (K (Some a) deth _ eq_refl); auto.
  - rewrite <- (K None dstd _ eq_refl); auto. rewrite app_nil_r. reflexivity.
Qed.

(** ** The machine *)
Lemma back_xy k w h ch : c_xy (chip_back k w h ch) = c_xy ch.
Proof. reflexivity. Qed.

Lemma read_chips v k w h dstd deth cs : forall m, wf m ->
  m_kind m = k -> m_width m = w -> m_height m = h -> Forall proper cs ->
  NoDup (map c_xy (chips m) ++ map c_xy cs) ->
  let f := fold_res (fun m aj => j_chip m (res_of dstd) (res_of deth) aj)
             (map (fun ch => describe_chip ch dstd deth) cs) m in
  if forallb (fun ch => n_scamp_processors ch =? 1) cs then
    exists n, f = Ok n /\ wf n /\ chips n = chips m ++ map (chip_back k w h) cs /\
      fst (history v m (map CallAddChip (map (chip_back k w h) cs))) = n
  else f = Err NotImplementedErr.
Proof.
  induction cs as [|ch cs IH]; intros m W K1 K2 K3 F N; cbn [map fold_res forallb].
  - exists m. rewrite app_nil_r. auto.
  - inversion F; subst. cbv zeta in *. rewrite chip_read by auto.
    destruct (n_scamp_processors ch =? 1); cbn [andb bind]; [|reflexivity].
    set (ch' := chip_back _ _ _ ch).
    pose proof (add_chip_wf m ch' W) as A.
    destruct (add_chip m ch') as [n'|e] eqn:AE.
    2: { exfalso. destruct A as [_ A]. cbn [map] in N. apply NoDup_remove_2 in N. apply N.
         apply in_or_app. left. exact A. }
    destruct A as (W' & C' & A1 & A2 & A3 & A4 & A5 & A6 & A7 & _). cbn [bind].
    specialize (IH n' W' A1 A2 A3 H2).
    assert (NoDup (map c_xy (chips n') ++ map c_xy cs)) as N'.
    { rewrite C', map_app, <- app_assoc. exact N. }
    specialize (IH N'). destruct (forallb _ cs); [|exact IH].
    destruct IH as (n & E & Wn & Cn & Hn). exists n. split; [exact E|]. split; [exact Wn|]. split.
    + rewrite Cn, C', <- app_assoc. reflexivity.
    + cbn [history exec]. fold ch'. rewrite AE. destruct (history v n' _) as [m2 es]. exact Hn.
Qed.

Definition std_of (m : machine) : option chip :=
  if n_chips m >? 1 then find (fun c => match c_ip c with None => true | Some _ => false end) (chips m)
  else match boot_chip m with Ok b => Some b | _ => None end.

Definition written (m : machine) (b s : chip) : jobject :=
  [("height"%string, JInt (m_height m)); ("width"%string, JInt (m_width m));
      ("root"%string, JArr [JInt 0; JInt 0]);
      ("standardResources"%string, json_of_desc (desc_of s));
      ("ethernetResources"%string, json_of_desc (desc_of b));
      ("chips"%string, JArr (map (fun c => describe_chip c (desc_of s) (desc_of b)) (chips m)))].

Lemma to_json_ok m j : to_json m = Ok j -> exists b s, get_chip_at m 0 0 = Some b /\ j = written m b s.
Proof.
  unfold to_json, boot_chip, get_chip_at, dgetitem. destruct (dget _ _ _) as [b|]; [|discriminate]. cbn [bind].
  destruct (n_chips m >? 1).
  - destruct (find _ _) as [s|]; [|discriminate]. cbn [bind]. intros H. apply Ok_inj in H. subst j.
    exists b, s. auto.
  - cbn [bind]. intros H. apply Ok_inj in H. subst j. exists b, b. auto.
Qed.

Lemma read_back v m b s : wf m -> Forall proper (chips m) ->
  machine_from_json v (written m b s) =
  match verify_size v (Some (m_width m)) (Some (m_height m)) with
  | Err e => Err e
  | Ok _ =>
      if forallb (fun ch => n_scamp_processors ch =? 1) (chips m) then
        Ok (machine_of v (m_width m) (m_height m) "Json"
             (map (chip_back (machine_class v (m_width m) (m_height m)) (m_width m) (m_height m)) (chips m)))
      else Err NotImplementedErr
  end.
Proof.
  intros W F. unfold machine_from_json.
  change (jget (written m b s) "width") with (@Ok json (JInt (m_width m))).
  change (jget (written m b s) "height") with (@Ok json (JInt (m_height m))). cbn [bind j_int].
  destruct (verify_raises v (Some (m_width m)) (Some (m_height m))) as [VS|VS].
  2: { unfold create_machine. rewrite VS. reflexivity. }
  assert (supported v (m_width m) (m_height m)) as S by (apply verify_supported; auto).
  rewrite create_some by auto. rewrite VS. cbn [bind].
  change (jget (written m b s) "standardResources") with (@Ok json (json_of_desc (desc_of s))).
  change (jget (written m b s) "ethernetResources") with (@Ok json (json_of_desc (desc_of b))).
  cbn [bind]. destruct (resources_back (desc_of s)) as (o1 & J1 & R1). rewrite J1. cbn [bind]. rewrite R1.
  cbn [bind]. destruct (resources_back (desc_of b)) as (o2 & J2 & R2). rewrite J2. cbn [bind]. rewrite R2.
  cbn [bind]. change (jget (written m b s) "chips") with
    (@Ok json (JArr (map (fun c => describe_chip c (desc_of s) (desc_of b)) (chips m)))). cbn [bind j_ary].
  set (k := machine_class v (m_width m) (m_height m)).
  set (n0 := new_machine _ _ _ _ _).
  pose proof (read_chips v k (m_width m) (m_height m) (desc_of s) (desc_of b) (chips m) n0
    (wf_new _ _ _ _ _) eq_refl eq_refl eq_refl F) as RC. cbv zeta in RC.
  assert (NoDup (map c_xy (chips n0) ++ map c_xy (chips m))) as N by apply W. specialize (RC N).
  destruct (forallb _ (chips m)).
  2: { rewrite RC. reflexivity. }
  destruct RC as (n1 & E1 & W1 & C1 & H1). rewrite E1. cbn [bind].
  destruct (add_spin_same v n1 W1) as (n2 & E2 & S2). rewrite E2. cbn [bind].
  assert (wf n2) as W2 by (eapply same_wf; eauto).
  destruct (add_fpga_same v n2 W2) as (n3 & E3 & S3). rewrite E3.
  unfold machine_of. rewrite history_app. fold k n0. rewrite H1. cbn [history exec]. rewrite E2. cbn [history exec].
  rewrite E3. reflexivity.
Qed.

Lemma machine_of_chips v w h o cs : NoDup (map c_xy cs) ->
  let m := machine_of v w h o cs in
  wf m /\ made v m /\ chips m = cs /\ m_kind m = machine_class v w h /\ m_width m = w /\ m_height m = h /\
  m_ccm m = chip_core_map v /\ m_origin m = o.
Proof.
  intros N. cbv zeta. set (n0 := new_machine (machine_class v w h) w h (chip_core_map v) o).
  assert (made v (machine_of v w h o cs)) as M by (unfold machine_of, made; eauto 10).
  split; [eapply made_wf; eauto|]. split; [exact M|].
  unfold machine_of. fold n0. rewrite history_app.
  assert (forall cs n, wf n -> NoDup (map c_xy (chips n) ++ map c_xy cs) ->
    let n1 := fst (history v n (map CallAddChip cs)) in
    wf n1 /\ chips n1 = chips n ++ cs /\ m_kind n1 = m_kind n /\ m_width n1 = m_width n /\
    m_height n1 = m_height n /\ m_ccm n1 = m_ccm n /\ m_origin n1 = m_origin n) as K.
  { clear. induction cs as [|ch cs IH]; intros n W N; cbn [map history]; cbv zeta.
    - rewrite app_nil_r. repeat (split; [solve [auto]|]). auto.
    - pose proof (add_chip_wf n ch W) as A. cbn [exec].
      destruct (add_chip n ch) as [n'|e] eqn:AE.
      2: { exfalso. destruct A as [_ A]. cbn [map] in N. apply NoDup_remove_2 in N. apply N.
           apply in_or_app. left. exact A. }
      destruct A as (W' & C' & A1 & A2 & A3 & A4 & A5 & A6 & A7 & _).
      destruct (IH n') as (R1 & R2 & R3 & R4 & R5 & R6 & R7); auto.
      { rewrite C', map_app, <- app_assoc. exact N. }
      destruct (history v n' _) as [m2 es]. cbn [fst] in *. split; [exact R1|]. split.
      { rewrite R2, C', <- app_assoc. reflexivity. }
      repeat (split; [congruence|]). congruence. }
  destruct (K cs n0 (wf_new _ _ _ _ _) N) as (R1 & R2 & R3 & R4 & R5 & R6 & R7). cbv zeta in *.
  set (n1 := fst _) in *. clearbody n1.
  destruct (add_spin_same v n1 R1) as (n2 & E2 & S2).
  assert (wf n2) as W2 by (eapply same_wf; eauto).
  destruct (add_fpga_same v n2 W2) as (n3 & E3 & S3).
  cbn [history exec]. rewrite E2. cbn [history exec]. rewrite E3. cbn [fst].
  assert (same_but_links n1 n3) as S13 by (eapply same_trans; eauto).
  rewrite (same_chips _ _ S13). destruct S13 as (T1 & T2 & T3 & T4 & _ & _ & _ & T8 & _).
  cbn [n0 new_machine m_kind m_width m_height m_ccm m_origin] in *.
  split; [exact R2|]. repeat (split; [congruence|]). congruence.
Qed.

(** ** Chips that come back unchanged *)
Lemma back_same k w h ch : proper ch ->
  c_scamp ch = [0] -> c_placable ch = zrange 1 (n_processors ch) ->
  r_entries (c_router ch) <= 2147483647 -> c_parent ch = None ->
  StronglySorted Z.lt (map fst (router_iter (c_router ch))) ->
  (forall l k', get_link (c_router ch) l = Some k' ->
     0 <= l < 6 /\ l_source_x k' = c_x ch /\ l_source_y k' = c_y ch /\
     xy_over_link k w h (c_x ch) (c_y ch) l = Ok (l_destination_x k', l_destination_y k')) ->
  chip_back k w h ch = ch.
Proof.
  intros [R T] Sc Pl En Pa So St.
  assert (map (fun l => (l_source_link_id l, l)) (back_links k w h ch) = r_links (c_router ch)) as E.
  { pose proof R as [RL RN]. rewrite RL. f_equal.
    assert (forall lo n ls, StronglySorted Z.lt (map l_source_link_id ls) ->
      (forall a, In a ls -> lo <= l_source_link_id a < lo + Z.of_nat n) ->
      (forall a, In a ls -> straight k w h ch (l_source_link_id a) = [a]) ->
      (forall l, lo <= l < lo + Z.of_nat n -> ~ In l (map l_source_link_id ls) -> straight k w h ch l = []) ->
      flat_map (straight k w h ch) (zrange lo (lo + Z.of_nat n)) = ls) as K.
    { intros lo n. revert lo. induction n as [|n IH]; intros lo ls SS Hr Hi Ho.
      - destruct ls as [|a ls]; [|specialize (Hr a (or_introl eq_refl)); lia].
        replace (lo + Z.of_nat 0) with lo by lia. unfold zrange. replace (lo - lo) with 0 by lia. reflexivity.
      - assert (zrange lo (lo + Z.of_nat (S n)) = lo :: zrange (lo + 1) (lo + 1 + Z.of_nat n)) as ->.
        { unfold zrange. replace (Z.to_nat (lo + Z.of_nat (S n) - lo)) with (S n) by lia.
          replace (Z.to_nat (lo + 1 + Z.of_nat n - (lo + 1))) with n by lia.
          cbn [seq map]. f_equal; [lia|]. rewrite <- seq_shift, map_map. apply map_ext. intros. lia. }
        cbn [flat_map].
        destruct (in_dec Z.eq_dec lo (map l_source_link_id ls)) as [I|I].
        + destruct ls as [|a ls]; [destruct I|]. cbn [map] in SS. inversion SS as [|? ? S1 S2]; subst.
          assert (l_source_link_id a = lo) as L.
          { destruct I as [I|I]; auto. rewrite Forall_forall in S2. specialize (S2 _ I).
            specialize (Hr a (or_introl eq_refl)). lia. }
          rewrite <- L at 1. rewrite (Hi a (or_introl eq_refl)). cbn [app]. f_equal. apply IH; auto.
          * intros b Hb. rewrite Forall_forall in S2.
            specialize (S2 _ (in_map l_source_link_id _ _ Hb)). specialize (Hr b (or_intror Hb)). lia.
          * intros b Hb. apply Hi. right. auto.
          * intros l Hl NI. apply Ho; [lia|]. cbn [map In]. intros [X|X]; [lia|auto].
        + rewrite Ho by (auto; lia). cbn [app]. apply IH; auto.
          * intros a Ha. specialize (Hr a Ha). assert (l_source_link_id a <> lo); [|lia].
            intros X. apply I. rewrite <- X. apply in_map. auto.
          * intros l Hl NI. apply Ho; auto. lia. }
    unfold back_links. change [0; 1; 2; 3; 4; 5] with (zrange 0 (0 + Z.of_nat 6)).
    assert (forall a, In a (router_links (c_router ch)) ->
      get_link (c_router ch) (l_source_link_id a) = Some a) as G.
    { intros a Ha. apply get_link_in; auto. }
    apply K.
    - unfold router_iter in So. rewrite RL, map_map in So. exact So.
    - intros a Ha. apply G in Ha. apply St in Ha. lia.
    - intros a Ha. pose proof (G a Ha) as Ga. destruct (St _ _ Ga) as (Hl & X & Y & O).
      unfold straight. rewrite O. unfold is_link, dmem. unfold get_link in Ga. rewrite Ga.
      rewrite <- X, <- Y. destruct a; reflexivity.
    - intros l Hl NI. unfold straight. destruct (xy_over_link _ _ _ _ _ _) as [[dx dy]|]; auto.
      destruct (is_link (c_router ch) l) eqn:IL; auto. exfalso. apply NI.
      unfold is_link, dmem in IL. destruct (dget _ _ _) as [a|] eqn:GE; [|discriminate].
      change (get_link (c_router ch) l = Some a) in GE. apply get_link_in in GE as [GE <-]; auto.
      apply in_map. auto. }
  unfold chip_back. fold (back_links k w h ch). rewrite E, <- Pl, Z.min_l by auto.
  destruct ch as [x y sc pl [rl re] sd ex ey ip tg pa]. cbn in *. subst. reflexivity.
Qed.

(** ** The origin *)
Lemma spin_step_origin o ip e m s :
  add_spinnaker_step ip e (with_origin o m) s = with_origin o (add_spinnaker_step ip e m s).
Proof.
  destruct s as [s [[lx ly] l]]. unfold add_spinnaker_step.
  change (m_global (with_origin o m)) with (m_global m).
  destruct (m_global m lx ly (c_x e) (c_y e)) as [gx gy].
  change (get_chip_at (with_origin o m)) with (get_chip_at m).
  destruct (get_chip_at m gx gy) as [c|]; auto. destruct (negb _); auto.
Qed.

Lemma fpga_step_origin o ip e m s :
  add_fpga_step ip e (with_origin o m) s = with_origin o (add_fpga_step ip e m s).
Proof.
  destruct s as [[[[lx ly] l] f] fl]. unfold add_fpga_step.
  change (m_global (with_origin o m)) with (m_global m).
  destruct (m_global m lx ly (c_x e) (c_y e)) as [gx gy].
  change (get_chip_at (with_origin o m)) with (get_chip_at m).
  destruct (get_chip_at m gx gy) as [c|]; auto.
Qed.

Lemma exec_origin v o m a : exec v (with_origin o m) a = (with_origin o (fst (exec v m a)), snd (exec v m a)).
Proof.
  assert (forall c, add_chip (with_origin o m) c =
    match add_chip m c with Ok n => Ok (with_origin o n) | Err e => Err e end) as AC.
  { intros c. unfold add_chip. cbn [with_origin m_chips]. destruct (dmem _ _ _); auto.
    destruct (c_ip c); reflexivity. }
  assert (forall ip e ss m, fold_left (add_spinnaker_step ip e) ss (with_origin o m) =
    with_origin o (fold_left (add_spinnaker_step ip e) ss m)) as SP.
  { intros ip e. induction ss as [|s ss IH]; intros n; cbn [fold_left]; auto.
    rewrite spin_step_origin. apply IH. }
  assert (forall ip e ss m, fold_left (add_fpga_step ip e) ss (with_origin o m) =
    with_origin o (fold_left (add_fpga_step ip e) ss m)) as FP.
  { intros ip e. induction ss as [|s ss IH]; intros n; cbn [fold_left]; auto.
    rewrite fpga_step_origin. apply IH. }
  destruct a as [c|cs| |]; cbn [exec].
  - rewrite AC. destruct (add_chip m c); reflexivity.
  - clear AC. revert m. induction cs as [|c cs IH]; intros m; cbn [add_chips]; auto.
    assert (add_chip (with_origin o m) c =
      match add_chip m c with Ok n => Ok (with_origin o n) | Err e => Err e end) as AC.
    { unfold add_chip. cbn [with_origin m_chips]. destruct (dmem _ _ _); auto.
      destruct (c_ip c); reflexivity. }
    rewrite AC. destruct (add_chip m c); auto.
  - unfold add_spinnaker_links. change (m_eth (with_origin o m)) with (m_eth m).
    generalize (m_eth m) as es. intros es.
    assert (forall es n, fold_res (fun m e => match c_ip e with None => Err AssertionError
        | Some ip => Ok (fold_left (add_spinnaker_step ip e) (enumerate (spinnaker_links v)) m) end)
        es (with_origin o n) =
      match fold_res (fun m e => match c_ip e with None => Err AssertionError
        | Some ip => Ok (fold_left (add_spinnaker_step ip e) (enumerate (spinnaker_links v)) m) end) es n
      with Ok n => Ok (with_origin o n) | Err e => Err e end) as K.
    { clear es. induction es as [|e es IH]; intros n; cbn [fold_res]; auto.
      destruct (c_ip e); cbn [bind]; auto. rewrite SP. apply IH. }
    rewrite K. destruct (fold_res _ es m); reflexivity.
  - unfold add_fpga_links. change (m_eth (with_origin o m)) with (m_eth m).
    generalize (m_eth m) as es. intros es.
    assert (forall es n, fold_res (fun m e => match c_ip e with None => Err AssertionError
        | Some ip => Ok (fold_left (add_fpga_step ip e) (fpga_links v) m) end)
        es (with_origin o n) =
      match fold_res (fun m e => match c_ip e with None => Err AssertionError
        | Some ip => Ok (fold_left (add_fpga_step ip e) (fpga_links v) m) end) es n
      with Ok n => Ok (with_origin o n) | Err e => Err e end) as K.
    { clear es. induction es as [|e es IH]; intros n; cbn [fold_res]; auto.
      destruct (c_ip e); cbn [bind]; auto. rewrite FP. apply IH. }
    rewrite K. destruct (fold_res _ es m); reflexivity.
Qed.

Lemma history_origin v o calls : forall m,
  fst (history v (with_origin o m) calls) = with_origin o (fst (history v m calls)).
Proof.
  induction calls as [|a calls IH]; intros m; cbn [history]; auto.
  rewrite exec_origin. destruct (exec v m a) as [m1 e]. cbn [fst snd]. specialize (IH m1).
  destruct (history v (with_origin o m1) calls), (history v m1 calls). exact IH.
Qed.

Lemma machine_of_origin v w h o o' cs : machine_of v w h o' cs = with_origin o' (machine_of v w h o cs).
Proof. unfold machine_of. rewrite <- history_origin. reflexivity. Qed.

Lemma virtual_machine_of c V w h b m : virtual_machine c V w h b = Ok m ->
  m = machine_of (v_id V) w h "Virtual" (chips m).
Proof.
  intros E. apply virtual_built in E as (dch & dco & dl & B & _).
  destruct (b_rest _ _ _ _ _ _ _ _ B) as (eths & uc & L & U & C & m1 & m2 & _ & _ & H & E2 & E3 & _).
  cbv zeta in C. rewrite <- C in H. unfold machine_of. rewrite history_app.
  unfold start in H. rewrite <- H. cbn [history exec]. rewrite E2. cbn [history exec]. rewrite E3. reflexivity.
Qed.

Lemma vlinks_sorted m unused conf xy ls : StronglySorted Z.lt ls ->
  StronglySorted Z.lt (map l_source_link_id (vlinks_from m unused conf xy ls)) /\
  forall l, In l (map l_source_link_id (vlinks_from m unused conf xy ls)) -> In l ls.
Proof.
  unfold vlinks_from. induction ls as [|l ls IH]; intros N; cbn [flat_map map].
  - split; [constructor|intros l []].
  - inversion N as [|? ? N' NI]; subst. destruct (IH N') as [I1 I2].
    destruct (link_mem unused (fst xy, snd xy, l)); cbn [app map];
      [split; auto; intros k Hk; right; apply I2; exact Hk|].
    destruct (dmem xy_eqb conf _); cbn [app map l_source_link_id].
    + split.
      * constructor; auto. apply Forall_forall. intros k Hk. rewrite Forall_forall in NI. apply NI, I2, Hk.
      * intros k [<-|Hk]; [left; auto|right; apply I2; exact Hk].
    + split; auto; intros k Hk; right; apply I2; exact Hk.
Qed.

Lemma sorted_zrange (l : list Z) : forall a b, StronglySorted Z.lt l ->
  (forall p, In p l <-> a <= p < b) -> l = zrange a b.
Proof.
  induction l as [|x l IH]; intros a b SS H.
  - assert (b <= a) as L by (destruct (Z.le_gt_cases b a); auto; exfalso; apply (H a); lia).
    unfold zrange. replace (Z.to_nat (b - a)) with O by lia. reflexivity.
  - inversion SS as [|? ? S1 S2]; subst. rewrite Forall_forall in S2.
    assert (a <= x < b) as X by (apply H; left; auto).
    assert (x = a) as ->.
    { assert (In a (x :: l)) as I by (apply H; lia). destruct I as [->|I]; auto. specialize (S2 _ I). lia. }
    assert (zrange a b = a :: zrange (a + 1) b) as ->.
    { unfold zrange. replace (Z.to_nat (b - a)) with (S (Z.to_nat (b - (a + 1)))) by lia.
      cbn [seq map]. f_equal; [lia|]. rewrite <- seq_shift, map_map. apply map_ext. intros. lia. }
    f_equal. apply IH; auto. intros p. split.
    + intros I. assert (a <= p < b) by (apply H; right; auto). specialize (S2 _ I). lia.
    + intros I. assert (In p (a :: l)) as [->|J] by (apply H; lia); auto. lia.
Qed.

Lemma zrange_length a b : Z.of_nat (List.length (zrange a b)) = Z.max 0 (b - a).
Proof. unfold zrange. rewrite map_length, seq_length. lia. Qed.

(** ** Machines read from any description *)
Lemma bind_ok {A B} (x : res A) (f : A -> res B) b : bind x f = Ok b -> exists a, x = Ok a /\ f a = Ok b.
Proof. destruct x; cbn; [eauto|discriminate]. Qed.

Definition read_chip (k : wrap) (w h : Z) (ch : chip) : Prop :=
  made_chip ch /\ c_scamp ch = [0] /\ c_placable ch = zrange 1 (n_processors ch) /\ c_parent ch = None /\
  StronglySorted Z.lt (map fst (router_iter (c_router ch))) /\
  forall l k', get_link (c_router ch) l = Some k' ->
     0 <= l < 6 /\ l_source_x k' = c_x ch /\ l_source_y k' = c_y ch /\
     xy_over_link k w h (c_x ch) (c_y ch) l = Ok (l_destination_x k', l_destination_y k').

Lemma j_chip_add m std eth aj m' : j_chip m std eth aj = Ok m' ->
  exists ch, add_chip m ch = Ok m' /\ read_chip (m_kind m) (m_width m) (m_height m) ch.
Proof.
  unfold j_chip. intros E.
  apply bind_ok in E as (j & _ & E). apply bind_ok in E as (details & _ & E).
  apply bind_ok in E as (x & _ & E). apply bind_ok in E as (y & _ & E).
  apply bind_ok in E as (board & _ & E).
  destruct board as [|bx [|by_ [|? ?]]]; try discriminate.
  apply bind_ok in E as ([ip s] & _ & E). apply bind_ok in E as ([[[mon en] sd] tg] & _ & E).
  destruct (negb (j_eq_int 1 mon)); [discriminate|].
  apply bind_ok in E as (dd & _ & E). apply bind_ok in E as (links & L & E).
  apply bind_ok in E as (r & R & E). apply bind_ok in E as (n & _ & E).
  apply bind_ok in E as (ex & _ & E). apply bind_ok in E as (ey & _ & E).
  apply bind_ok in E as (tags & _ & E).
  eexists. split; [exact E|]. 
  assert (forall ids acc out, StronglySorted Z.lt (map l_source_link_id acc ++ ids) ->
    (forall l, In l ids -> 0 <= l < 6) ->
    (forall a, In a acc -> 0 <= l_source_link_id a < 6 /\ l_source_x a = x /\ l_source_y a = y /\
       m_over m x y (l_source_link_id a) = Ok (l_destination_x a, l_destination_y a)) ->
    fold_res (fun links l =>
      if existsb (j_eq_int l) dd then Ok links
      else do (dx, dy) <- m_over m x y l ; Ok (links ++ [mkLink x y l dx dy])) ids acc = Ok out ->
    StronglySorted Z.lt (map l_source_link_id out) /\
    (forall a, In a out -> 0 <= l_source_link_id a < 6 /\ l_source_x a = x /\ l_source_y a = y /\
       m_over m x y (l_source_link_id a) = Ok (l_destination_x a, l_destination_y a))) as K.
  { clear. induction ids as [|i ids IH]; intros acc out SS HR HA; cbn [fold_res].
    - intros H. apply Ok_inj in H. subst out. rewrite app_nil_r in SS. auto.
    - destruct (existsb (j_eq_int i) dd); cbn [bind].
      + apply IH; auto; [|intros; apply HR; right; auto].
        clear - SS. induction (map l_source_link_id acc) as [|z zs IHz]; cbn in *.
        * inversion SS; auto.
        * inversion SS as [|? ? S1 S2]; subst. constructor; auto. rewrite Forall_forall in *.
          intros p Hp. apply S2. rewrite in_app_iff in *. cbn [In]. tauto.
      + destruct (over_six (m_kind m) (m_width m) (m_height m) x y i) as [[dx dy] Q]; [apply HR; left; auto|].
        unfold m_over at 1. rewrite Q. cbn [bind]. apply IH; auto.
        * rewrite map_app, <- app_assoc. exact SS.
        * intros; apply HR; right; auto.
        * intros a Ha. apply in_app_or in Ha as [Ha|[<-|[]]]; auto. cbn. split; [apply HR; left; auto|].
          split; auto. }
  destruct (K (zrange 0 6) [] links) as [K1 K2]; auto.
  { cbn [map app]. vm_compute. repeat (constructor; [|repeat (constructor; [reflexivity|]); constructor]). constructor. }
  { intros l. rewrite in_zrange. auto. }
  { intros a []. }
  clear K L. destruct (new_router_ok _ _ _ R) as (RO & RL & RE).
  split.
  { exists x, y, [0], (zrange 1 n), links, en, r, sd, ex, ey, ip, (Some tags), None. auto. }
  cbn [new_chip c_scamp c_placable c_parent c_router c_x c_y]. split; auto. split.
  { unfold n_processors. cbn [new_chip c_scamp c_placable]. change (Z.of_nat (List.length [0])) with 1.
    rewrite zrange_length. unfold zrange. f_equal. f_equal. lia. }
  split; auto. split.
  { unfold router_iter. destruct RO as [RO _]. rewrite RO, map_map. rewrite RL. exact K1. }
  intros l k' G. apply get_link_in in G as [G <-]; auto. rewrite RL in G. apply K2 in G. exact G.
Qed.

Lemma j_chips_read v std eth cs : forall m m', wf m ->
  fold_res (fun m aj => j_chip m std eth aj) cs m = Ok m' ->
  exists chs, List.length chs = List.length cs /\ Forall (read_chip (m_kind m) (m_width m) (m_height m)) chs /\
    wf m' /\ chips m' = chips m ++ chs /\
    fst (history v m (map CallAddChip chs)) = m'.
Proof.
  induction cs as [|aj cs IH]; intros m m' W; cbn [fold_res]; intros E.
  - apply Ok_inj in E. subst. exists []. rewrite app_nil_r. repeat (split; [solve [auto]|]). auto.
  - apply bind_ok in E as (m1 & E1 & E). apply j_chip_add in E1 as (ch & A & RC).
    pose proof (add_chip_wf m ch W) as AW. rewrite A in AW.
    destruct AW as (W' & C' & A1 & A2 & A3 & A4 & A5 & A6 & A7 & _).
    destruct (IH m1 m' W' E) as (chs & H1 & H2 & H3 & H4 & H5).
    rewrite A1, A2, A3 in H2. exists (ch :: chs). cbn [List.length map]. split; [congruence|].
    split; [constructor; auto|]. split; auto. split.
    + rewrite H4, C', <- app_assoc. reflexivity.
    + cbn [history exec]. rewrite A. destruct (history v m1 _). exact H5.
Qed.

Lemma from_json_read v o m : machine_from_json v o = Ok m ->
  exists w h, jget o "width" = Ok w /\ jget o "height" = Ok h /\
    j_int w = Ok (m_width m) /\ j_int h = Ok (m_height m) /\
    supported v (m_width m) (m_height m) /\
    Forall (read_chip (machine_class v (m_width m) (m_height m)) (m_width m) (m_height m)) (chips m) /\
    m = machine_of v (m_width m) (m_height m) "Json" (chips m) /\
    exists cs, jget o "chips" = Ok (JArr cs) /\ List.length cs = List.length (chips m).
Proof.
  unfold machine_from_json. intros E.
  apply bind_ok in E as (w & Ew & E). apply bind_ok in Ew as (jw & Jw & Ew).
  apply bind_ok in E as (h & Eh & E). apply bind_ok in Eh as (jh & Jh & Eh).
  apply bind_ok in E as (m0 & E0 & E). apply bind_ok in E as (std & _ & E).
  apply bind_ok in E as (eth & _ & E). apply bind_ok in E as (cs & Ec & E).
  apply bind_ok in E as (m1 & E1 & E). apply bind_ok in E as (m2 & E2 & E3).
  assert (supported v w h) as S.
  { unfold create_machine in E0. apply bind_ok in E0 as ([] & VS & _). apply verify_supported; auto. }
  rewrite create_some in E0 by auto. apply Ok_inj in E0. subst m0. cbn iota in E1.
  set (n0 := new_machine _ _ _ _ _) in *.
  destruct (j_chips_read v _ _ _ _ _ (wf_new _ _ _ _ _) E1) as (chs & LC & RC & W1 & C1 & H1).
  fold n0 in RC. cbn [n0 new_machine m_kind m_width m_height] in RC.
  assert (m = machine_of v w h "Json" chs) as M.
  { unfold machine_of. rewrite history_app. unfold n0 in H1. rewrite H1. cbn [history exec]. rewrite E2.
    cbn [history exec]. rewrite E3. reflexivity. }
  assert (NoDup (map c_xy chs)) as N.
  { cbn in C1. rewrite <- C1. apply W1. }
  destruct (machine_of_chips v w h "Json" chs N) as (Wm & _ & Cm & _ & Wi & He & _). rewrite <- M in *.
  exists jw, jh. rewrite Wi, He, Cm. split; auto. split; auto. split; auto. split; auto.
  split; auto. split; auto. split; auto.
  apply bind_ok in Ec as (jc & Jc & Ec). unfold j_ary in Ec. destruct jc; try discriminate.
  apply Ok_inj in Ec. subst. eauto.
Qed.
