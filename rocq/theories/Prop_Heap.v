(** C84: which chip objects the repaired machine shares with the original. *)
From Coq Require Import Lia Arith.
From Verif Require Import Model_Py Model_Wrap Model_Version Model_Core Model_Machine Model_Repair
  Model_Mutate Model_Heap Spec_Machine Spec_Repair Spec_Heap Proof_Py Proof_Board Proof_Wrap
  Proof_Concentric Proof_Machine Proof_Report Proof_Repair Proof_RepairEnd Proof_Again Proof_Heap
  Prop_Repair.
Open Scope list_scope.
Open Scope Z_scope.

Lemma held_good v s h : held v s h -> good (view s h).
Proof. intros H. apply (made_good v). apply H. Qed.

(** Machines by value are what machines of objects look like. *)
Theorem C84_every_machine :
  forall v m, made_machine v m -> exists s h, held v s h /\ view s h = m.
Proof.
  intros v m M. pose proof (made_good v m M) as [W F].
  set (cs := chips m). set (rs := seq 0 (List.length cs)).
  set (d := combine (map c_xy cs) rs).
  assert (forall cs0 pre, cs = pre ++ cs0 ->
    map (fun e => (fst e, deref cs (snd e))) (combine (map c_xy cs0) (seq (List.length pre) (List.length cs0))) =
    map (fun c => (c_xy c, c)) cs0) as K.
  { induction cs0 as [|c cs0 IH]; intros pre E; cbn [map combine List.length seq]; auto. f_equal.
    - cbn [fst snd]. f_equal. rewrite E. unfold deref. rewrite app_nth2, Nat.sub_diag by lia. reflexivity.
    - specialize (IH (pre ++ [c])). rewrite app_length, Nat.add_1_r in IH. apply IH.
      rewrite <- app_assoc. exact E. }
  assert (map (fun e => (fst e, deref cs (snd e))) d = m_chips m) as D.
  { rewrite (wf_chips m W). apply (K cs []). reflexivity. }
  exists cs, (mkHeapMachine (m_kind m) (m_width m) (m_height m) (m_ccm m) (eth_of cs d) (m_spin m)
    (m_fpga m) (m_boot m) d (m_origin m) (m_cores_counter m) (m_links_counter m)
    (m_entries_counter m) (m_sdram_counter m)).
  assert (map (deref cs) (eth_of cs d) = m_eth m) as E.
  { rewrite (wf_eth m W). fold cs. assert (cs = map (fun e => deref cs (snd e)) d) as C.
    { unfold cs at 1. unfold chips, dvalues. rewrite <- D, map_map. reflexivity. }
    transitivity (filter has_ip (map (fun e => deref cs (snd e)) d)); [|f_equal; symmetry; exact C].
    unfold eth_of, dvalues. rewrite map_map. generalize d. clear. intros d.
    induction d as [|e d IH]; cbn [filter map]; auto. unfold has_ip at 1.
    destruct (c_ip (deref cs (snd e))); cbn [map]; congruence. }
  match goal with |- held _ _ ?h /\ _ => assert (view cs h = m) as V end.
  { unfold view. cbn [h_kind h_width h_height h_ccm h_eth h_spin h_fpga h_boot h_chips h_origin
      h_cores_counter h_links_counter h_entries_counter h_sdram_counter]. rewrite D, E. destruct m; reflexivity. }
  split; [|exact V]. split; cbn [h_chips h_eth].
  - intros p i H. apply in_combine_r in H. apply in_seq in H. lia.
  - reflexivity.
  - rewrite V. exact M.
Qed.
Print Assumptions C84_every_machine.

(** The calls on objects end as the calls on values: with the same exception, or with a
    machine that looks the same. *)
Theorem C84_same_outcome :
  forall repair v s h removed, held v s h ->
    forall r, repairs repair v (view s h) removed r <->
      exists R, hrepairs repair v s h removed R /\
        r = match R with Ok (s', h') => Ok (view s' h') | Err e => Err e end.
Proof.
  intros repair v s h removed H r. pose proof (held_order v s h H) as O. pose proof (held_good v s h H) as G. split.
  - intros R. apply (repairs_hrepairs _ _ _ _ _ R s h O G eq_refl).
  - intros (R & HR & ->). pose proof (hrepairs_view _ _ _ _ _ _ HR O G) as K.
    destruct R as [[s' n]|e]; [apply K|exact K].
Qed.
Print Assumptions C84_same_outcome.

(** The original, and every other machine there is, looks after the call as before. *)
Theorem C84_others_unchanged :
  forall repair v s h removed s' h', held v s h ->
    hrepairs repair v s h removed (Ok (s', h')) ->
    held v s' h' /\
    (forall g, held v s g -> view s' g = view s g) /\
    (forall i, (i < List.length s)%nat -> deref s' i = deref s i).
Proof.
  intros repair v s h removed s' h' H R. pose proof (held_order v s h H) as O. pose proof (held_good v s h H) as G.
  pose proof (hrepairs_view _ _ _ _ _ _ R O G) as ([t ->] & O' & G' & RR & _).
  split; [|split].
  - split; [apply O'|apply O'|].
    destruct (C33_new_machine repair v _ removed _ (held_made _ _ _ H) RR) as [X|X]; [|apply X].
    rewrite X. apply H.
  - intros g Hg. apply view_more. apply in_order_inside. apply (held_order v). exact Hg.
  - intros i L. apply deref_old. exact L.
Qed.
Print Assumptions C84_others_unchanged.

Lemma object_in h p i : NoDup (dkeys (h_chips h)) -> object_at h p = Some i <-> In (p, i) (h_chips h).
Proof.
  intros N. unfold object_at. split.
  - apply (dget_some_in xy_eqb xyeqb_eq).
  - apply (in_dget xy_eqb xyeqb_eq). exact N.
Qed.

Lemma good_keys s h : good (view s h) -> NoDup (dkeys (h_chips h)).
Proof.
  intros [W _]. pose proof (wf_nodup _ W) as N. pose proof (wf_chips _ W) as C.
  assert (dkeys (h_chips h) = map c_xy (chips (view s h))) as ->; auto.
  unfold dkeys. transitivity (map fst (m_chips (view s h))); [cbn [view m_chips]; rewrite map_map; reflexivity|].
  rewrite C, map_map. reflexivity.
Qed.

Lemma good_place s h p i : good (view s h) -> In (p, i) (h_chips h) -> p = c_xy (deref s i).
Proof.
  intros [W _] H. assert (In (p, deref s i) (m_chips (view s h))) as M.
  { cbn [view m_chips]. apply in_map_iff. exists (p, i). auto. }
  rewrite (wf_chips _ W) in M. apply in_map_iff in M as (c & X & _). congruence.
Qed.

(** A chip of the result was at the same place of the original; it is the same object exactly
    when it kept all its links, and otherwise an object that did not exist before the call. *)
Theorem C84_same_object_iff_links_kept :
  forall repair v s h removed s' h', held v s h ->
    hrepairs repair v s h removed (Ok (s', h')) ->
    forall p j, object_at h' p = Some j -> exists i, object_at h p = Some i /\
      (j = i <-> kept_links (deref s i) (deref s' j)) /\
      (j <> i -> (List.length s <= j < List.length s')%nat).
Proof.
  intros repair v s h removed s' h' H R p j Hj.
  pose proof (held_order v s h H) as O. pose proof (held_good v s h H) as G.
  pose proof (hrepairs_view _ _ _ _ _ _ R O G) as (A & O' & G' & RR & K).
  apply object_in in Hj; [|apply (good_keys s'); exact G'].
  destruct (K p j Hj) as (i & Hi & C). exists i.
  split; [apply object_in; [apply (good_keys s)|]; auto|]. destruct C as [(-> & L & D)|(L & _ & _ & (l & k & G1 & G2))].
  - split; [|congruence]. split; auto. intros _ l. rewrite D. reflexivity.
  - apply O in Hi. apply O' in Hj. split; [|lia]. split; [intros ->; lia|].
    intros X. specialize (X l). congruence.
Qed.
Print Assumptions C84_same_object_iff_links_kept.

(** ** Links added later *)
Lemma store_chips s i c' d : (i < List.length s)%nat -> NoDup (dkeys d) -> forall p, In (p, i) d ->
  (forall q, In (q, i) d -> q = p) ->
  map (fun e => (fst e, deref (store s i c') (snd e))) d =
  dset xy_eqb (map (fun e => (fst e, deref s (snd e))) d) p c'.
Proof.
  intros L. induction d as [|[q j] d IH]; intros N p Hp U; [destruct Hp|].
  inversion N as [|? ? N1 N2]; subst. cbn [map dset fst snd]. rewrite deref_store by auto.
  destruct (xy_eqb q p) eqn:E.
  - apply xyeqb_eq in E. subst q.
    assert (j = i) as ->.
    { destruct Hp as [Hp|Hp]; [congruence|]. exfalso. apply N1. apply in_map_iff. exists (p, i). auto. }
    rewrite Nat.eqb_refl. f_equal. apply map_ext_in. intros [q j] Hq. cbn [fst snd]. f_equal.
    rewrite deref_store by auto. destruct (Nat.eqb j i) eqn:J; auto. apply Nat.eqb_eq in J. subst j.
    exfalso. apply N1. rewrite <- (U q (or_intror Hq)). apply in_map_iff. exists (q, i). auto.
  - destruct Hp as [Hp|Hp].
    { assert (q = p) by congruence. subst. rewrite (proj2 (xyeqb_eq p p) eq_refl) in E. discriminate. }
    destruct (Nat.eqb j i) eqn:J.
    { apply Nat.eqb_eq in J. subst j. rewrite (U q (or_introl eq_refl)) in E.
      rewrite (proj2 (xyeqb_eq p p) eq_refl) in E. discriminate. }
    f_equal. apply IH; auto. intros q' Hq'. apply U. right. auto.
Qed.

(** A link added through machine [g], as machine [g'] sees it. *)
Lemma link_seen s g p l s2 : hadd_link s g p l = Ok s2 -> in_order s g -> good (view s g) ->
  forall g', in_order s g' -> good (view s g') ->
  (share g g' p -> add_link_later (view s g') p l = Ok (view s2 g')) /\
  (~ share g g' p -> view s2 g' = view s g').
Proof.
  intros E O G g' O' G'. unfold hadd_link in E. unfold dgetitem in E.
  destruct (dget xy_eqb (h_chips g) p) as [i|] eqn:D; [|discriminate]. cbn [bind] in E.
  destruct (router_add_link (c_router (deref s i)) l) as [r|] eqn:R; [|discriminate]. cbn [bind] in E.
  apply Ok_inj in E. subst s2. pose proof D as D0. apply (dget_some_in xy_eqb xyeqb_eq) in D0.
  pose proof (good_place _ _ _ _ G D0) as PX. pose proof (proj1 O _ _ D0) as L.
  set (c' := with_router (deref s i) r).
  split.
  - intros (i' & S1 & S2). assert (i' = i) by (unfold object_at in S1; congruence). subst i'.
    pose proof (good_keys _ _ G') as N. pose proof S2 as S3. apply object_in in S3; auto.
    assert (forall q, In (q, i) (h_chips g') -> q = p) as U.
    { intros q Hq. apply (good_place _ _ _ _ G') in Hq. congruence. }
    unfold add_link_later, getitem, dgetitem. cbn [view m_chips]. rewrite view_dget. unfold object_at in S2. rewrite S2.
    cbn [option_map bind]. rewrite R. cbn [bind]. f_equal. unfold view.
    cbn [m_kind m_width m_height m_ccm m_eth m_spin m_fpga m_boot m_origin m_cores_counter
      m_links_counter m_entries_counter m_sdram_counter]. fold c'.
    rewrite (store_chips s i c' (h_chips g') L N p S3 U). f_equal.
    rewrite map_map. apply map_ext_in. intros j Hj. rewrite deref_store by auto.
    destruct (proj2 (in_order_inside _ _ O') j Hj) as [q Hq]. pose proof (good_place _ _ _ _ G' Hq) as Q.
    destruct (Nat.eqb j i) eqn:J.
    + apply Nat.eqb_eq in J. subst j. rewrite <- PX. rewrite (proj2 (xyeqb_eq p p) eq_refl). reflexivity.
    + rewrite <- Q. destruct (xy_eqb q p) eqn:X; auto. apply xyeqb_eq in X. rewrite X in Hq. exfalso.
      apply Nat.eqb_neq in J. apply J. apply object_in in Hq; auto. unfold object_at in Hq. congruence.
  - intros NS. apply view_change; [apply in_order_inside; auto|]. intros q j Hq. rewrite deref_store by auto.
    destruct (Nat.eqb j i) eqn:J; auto. apply Nat.eqb_eq in J. subst j. exfalso. apply NS. exists i.
    split; [exact D|]. apply object_in; [apply (good_keys _ _ G')|].
    rewrite PX, <- (good_place _ _ _ _ G' Hq). exact Hq.
Qed.

(** A link added to a chip of one of the two machines after the repair appears on that machine;
    and on the other exactly when the two share the chip object, which is when the chip came
    through the repair with all its links. *)
Theorem C84_links_added_later :
  forall repair v s h removed s' h' p l s2, held v s h ->
    hrepairs repair v s h removed (Ok (s', h')) ->
    (hadd_link s' h p l = Ok s2 ->
       add_link_later (view s h) p l = Ok (view s2 h) /\
       (share h h' p -> add_link_later (view s' h') p l = Ok (view s2 h')) /\
       (~ share h h' p -> view s2 h' = view s' h')) /\
    (hadd_link s' h' p l = Ok s2 ->
       add_link_later (view s' h') p l = Ok (view s2 h') /\
       (share h h' p -> add_link_later (view s h) p l = Ok (view s2 h)) /\
       (~ share h h' p -> view s2 h = view s h)).
Proof.
  intros repair v s h removed s' h' p l s2 H R.
  destruct (C84_others_unchanged repair v s h removed s' h' H R) as (H' & V & _).
  specialize (V h H). pose proof (held_order v s h H) as O. pose proof (held_good v s h H) as G.
  pose proof (held_order v s' h' H') as O'. pose proof (held_good v s' h' H') as G'.
  pose proof (hrepairs_view _ _ _ _ _ _ R O G) as ([t E] & _).
  assert (in_order s' h) as O2 by (rewrite E; apply in_order_more; exact O).
  assert (good (view s' h)) as G2 by (rewrite V; exact G).
  assert (forall g, object_at g p <> None -> share g g p) as SS.
  { intros g X. destruct (object_at g p) as [i|] eqn:Y; [|congruence]. exists i. auto. }
  assert (forall g, hadd_link s' g p l = Ok s2 -> share g g p) as S1.
  { intros g X. apply SS. unfold hadd_link, dgetitem in X. unfold object_at.
    destruct (dget xy_eqb (h_chips g) p); [discriminate|discriminate X]. }
  assert (share h' h p <-> share h h' p) as SY by (unfold share; split; intros (i & A & B); eauto).
  split; intros A.
  - destruct (link_seen _ _ _ _ _ A O2 G2 h O2 G2) as [X _]. destruct (link_seen _ _ _ _ _ A O2 G2 h' O' G') as [Y Z].
    rewrite V in X. auto.
  - destruct (link_seen _ _ _ _ _ A O' G' h' O' G') as [X _]. destruct (link_seen _ _ _ _ _ A O' G' h O2 G2) as [Y Z].
    rewrite V in Y, Z. rewrite <- SY. auto.
Qed.
Print Assumptions C84_links_added_later.

(** ** A case *)
Definition heap_demo : heap := chips demo_broken.
Definition heap_machine : hmachine :=
  mkHeapMachine (m_kind demo_broken) 8 8 (m_ccm demo_broken) [0%nat] [] [] (m_boot demo_broken)
    [((0, 0), 0%nat); ((1, 0), 1%nat); ((0, 1), 2%nat); ((1, 1), 3%nat); ((2, 1), 4%nat)]
    (m_origin demo_broken) (m_cores_counter demo_broken) (m_links_counter demo_broken)
    (m_entries_counter demo_broken) (m_sdram_counter demo_broken).

Lemma heap_held : held V5 heap_demo heap_machine /\ view heap_demo heap_machine = demo_broken.
Proof.
  assert (view heap_demo heap_machine = demo_broken) as V by (vm_compute; reflexivity).
  split; [|exact V]. split.
  - intros p i H. assert (List.length heap_demo = 5%nat) as -> by (vm_compute; reflexivity).
    cbn [heap_machine h_chips In] in H. repeat (destruct H as [H|H]; [injection H as _ <-; lia|]). destruct H.
  - vm_compute. reflexivity.
  - rewrite V. exact demo_broken_made.
Qed.

(** Chip (1, 1) lost a link, chip (0, 0) did not: a link added to chip (0, 0) of the original
    appears on the repaired machine, whose count of links does not tell; one added to
    chip (1, 1) does not appear. *)
Theorem C84_independent_copy_refuted :
  exists s' h' l s2, held V5 heap_demo heap_machine /\
    hrepairs true V5 heap_demo heap_machine [] (Ok (s', h')) /\
    hadd_link s' heap_machine (0, 0) l = Ok s2 /\
    is_link_at (view s' h') 0 0 (l_source_link_id l) = false /\
    is_link_at (view s2 h') 0 0 (l_source_link_id l) = true.
Proof.
  destruct (hrepair_step true V5 heap_demo heap_machine []) as [[[s1 h1]|]|e] eqn:E1;
    [|vm_compute in E1; discriminate E1|vm_compute in E1; discriminate E1].
  assert (match hrepair_step true V5 heap_demo heap_machine [] with
    | Ok (Some (s1, h1)) => match hrepair_step true V5 s1 h1 [] with Ok None =>
        match hadd_link s1 heap_machine (0, 0) (mkLink 0 0 3 7 0) with
        | Ok s2 => is_link_at (view s1 h1) 0 0 3 = false /\ is_link_at (view s2 h1) 0 0 3 = true
        | Err _ => False end | _ => False end | _ => False end) as K by (vm_compute; auto).
  rewrite E1 in K. destruct (hrepair_step true V5 s1 h1 []) as [[|]|] eqn:E2; try contradiction K.
  destruct (hadd_link s1 heap_machine (0, 0) (mkLink 0 0 3 7 0)) as [s2|] eqn:E3; [|contradiction K].
  exists s1, h1, (mkLink 0 0 3 7 0), s2. split; [apply heap_held|]. split; [|split; [exact E3|exact K]].
  econstructor 3; [exact E1|]. constructor 2. exact E2.
Qed.
Print Assumptions C84_independent_copy_refuted.

(** In that machine chip (1, 1) is a new object, the three others are shared. *)
Example C84_case :
  match hrepair_step true V5 heap_demo heap_machine [] with
  | Ok (Some (s1, h1)) =>
      h_chips h1 = [((0, 0), 0%nat); ((1, 0), 1%nat); ((0, 1), 2%nat); ((1, 1), 5%nat)] /\
      hrepair_step true V5 s1 h1 [] = Ok None /\
      is_link_at (view s1 heap_machine) 1 1 0 = true /\ is_link_at (view s1 h1) 1 1 0 = false /\
      match hadd_link s1 heap_machine (1, 1) (mkLink 1 1 2 1 2) with
      | Ok s2 => is_link_at (view s2 heap_machine) 1 1 2 = true /\ view s2 h1 = view s1 h1
      | Err _ => False
      end
  | _ => False
  end.
Proof. vm_compute. repeat split. Qed.
