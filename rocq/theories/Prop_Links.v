(** C24, C25 continued: all SpiNNaker and FPGA links, how many there are, and how the
    FPGA links are numbered. *)
From Coq Require Import Lia ZifyBool Permutation.
From Verif Require Import Model_Py Model_Wrap Model_Version Model_Core Model_Machine Model_Links
  Spec_Hops Spec_Board Spec_Machine Proof_Wrap Proof_Concentric Proof_Py Proof_Board
  Proof_Machine Proof_Links Proof_Json Prop_Machine.
Open Scope Z_scope.

Section Filled.
  Context {K V : Type} (eqb : K -> K -> bool).
  Hypothesis eqb_eq : forall a b, eqb a b = true <-> a = b.

  Lemma fill_nodup kvs : forall d : dict K V, NoDup (dkeys d) -> NoDup (dkeys (fill eqb d kvs)).
  Proof using eqb_eq.
    induction kvs as [|[k v] kvs IH]; intros d N; cbn [fill fold_left fst snd]; auto.
    apply IH. apply dset_nodup; auto.
  Qed.

  Lemma dset_same (d : dict K V) k v : dget eqb d k = Some v -> dset eqb d k v = d.
  Proof using.
    induction d as [|[k' v'] d IH]; cbn; [discriminate|]. destruct (eqb k' k).
    - intros H. injection H as ->. reflexivity.
    - intros H. rewrite IH; auto.
  Qed.

  Lemma fill_same kvs : forall d : dict K V,
    (forall k v, In (k, v) kvs -> dget eqb d k = Some v) -> fill eqb d kvs = d.
  Proof using.
    induction kvs as [|[k v] kvs IH]; intros d H; cbn [fill fold_left fst snd]; auto.
    rewrite dset_same by (apply H; left; auto). apply IH. intros; apply H; right; auto.
  Qed.

  Lemma dget_in (d : dict K V) k v : NoDup (dkeys d) -> (In (k, v) d <-> dget eqb d k = Some v).
  Proof using eqb_eq.
    intros N. split; [|apply (dget_some_in eqb eqb_eq)].
    induction d as [|[k' v'] d IH]; cbn in *; [tauto|]. inversion N as [|? ? N1 N2]; subst.
    intros [E|I].
    - injection E as -> ->. rewrite (eqb_refl eqb eqb_eq). reflexivity.
    - destruct (eqb k' k) eqn:E; [|auto]. apply eqb_eq in E. subst. exfalso. apply N1.
      apply in_map_iff. exists (k, v). auto.
  Qed.
End Filled.

Lemma machine_eq m m' : same_but_links m m' -> m_spin m' = m_spin m -> m_fpga m' = m_fpga m -> m' = m.
Proof.
  unfold same_but_links. destruct m, m'; cbn. intros S E F. 
  destruct S as (-> & -> & -> & -> & -> & -> & -> & -> & -> & -> & -> & ->). congruence.
Qed.

(** Every present SpiNNaker link is listed twice, by board and by chip, and nothing else is
    listed; adding the links again changes nothing. *)
Theorem C24_all_spinnaker_links :
  forall v m, made_of_chips m -> boards_apart v m ->
  exists m', add_spinnaker_links v m = Ok m' /\
    NoDup (map fst (spinnaker_links_items m')) /\
    (forall key d, In (key, d) (spinnaker_links_items m') <->
       exists e id, spin_present v m e id d /\
         (key = (Board (sl_addr d), id) \/ key = (AtXY (sl_x d, sl_y d), id))) /\
    add_spinnaker_links v m' = Ok m'.
Proof.
  intros v m M A. apply made_of_chips_wf in M as (W & S0 & F0).
  destruct (add_spin_same v m W) as (m' & E & SM). exists m'. split; [auto|].
  pose proof (spin_lookup v m m' S0 A E SM) as L.
  pose proof (spin_fold_pairs v m (m_eth m) m m' (same_refl m) E) as [SP _]. rewrite S0 in SP.
  assert (NoDup (dkeys (m_spin m'))) as N by (rewrite SP; apply (fill_nodup _ spin_key_eq); constructor).
  split; [exact N|]. split.
  - intros key d. unfold spinnaker_links_items. rewrite (dget_in _ spin_key_eq _ _ _ N). apply L.
  - assert (wf m') as W' by (eapply same_wf; eauto).
    destruct (add_spin_same v m' W') as (m2 & E2 & S2). rewrite E2. f_equal. 
    pose proof (spin_fold_pairs v m (m_eth m') m' m2 SM E2) as [SP2 F2].
    apply machine_eq; auto. rewrite SP2. apply (fill_same _).
    intros k d H. rewrite SP. apply (fill_functional _ spin_key_eq); [apply spin_functional; auto|].
    destruct SM as (_ & _ & _ & _ & SE & _). rewrite SE in H. exact H.
Qed.
Print Assumptions C24_all_spinnaker_links.

(** Every present FPGA link is kept by board, by chip and by Ethernet chip, which is the same
    as by chip for the links of the Ethernet chip itself.  n_fpga_links counts all these,
    not the links. *)
Theorem C25_n_fpga_links :
  forall v m, made_of_chips m -> boards_apart v m ->
  exists m' present, add_fpga_links v m = Ok m' /\
    NoDup present /\
    (forall e f fl d, In (e, f, fl, d) present <-> fpga_present v m e f fl d) /\
    n_fpga_links m' = 3 * Z.of_nat (List.length present) -
      Z.of_nat (List.length (filter (fun p => let '(e, _, _, d) := p in xy_eqb (c_xy e) (fl_x d, fl_y d)) present)) /\
    add_fpga_links v m' = Ok m'.
Proof.
  intros v m M A. apply made_of_chips_wf in M as (W & S0 & F0).
  destruct (add_fpga_same v m W) as (m' & E & SM). exists m'.
  pose proof (fpga_lookup v m m' W F0 A E SM) as L.
  pose proof (fpga_fold_pairs v m (m_eth m) m m' (same_refl m) E) as [SP _]. rewrite F0 in SP.
  assert (NoDup (dkeys (m_fpga m'))) as N by (rewrite SP; apply (fill_nodup _ fpga_key_eq); constructor).
  (* the present links *)
  set (one := fun (e : chip) (s : Z * Z * Z * Z * Z) =>
    let '(lx, ly, l, f, fl) := s in
    let '(gx, gy) := m_global m lx ly (c_x e) (c_y e) in
    match c_ip e, get_chip_at m gx gy with
    | Some a, Some c => [(e, f, fl, mkFpgaLink fl f gx gy l a)]
    | _, _ => []
    end).
  set (P := flat_map (fun e => flat_map (one e) (fpga_links v)) (m_eth m)).
  assert (forall e f fl d, In (e, f, fl, d) P <-> fpga_present v m e f fl d) as PI.
  { intros e f fl d. unfold P, fpga_present. rewrite in_flat_map. split.
    - intros (e' & He & H). apply in_flat_map in H as ([[[[lx ly] l] f'] fl'] & Hs & H). unfold one in H.
      destruct (m_global m lx ly (c_x e') (c_y e')) as [gx gy] eqn:G.
      destruct (c_ip e') as [a|] eqn:I; [|destruct H]. destruct (get_chip_at m gx gy) as [c|] eqn:C; [|destruct H].
      destruct H as [H|[]]. injection H as <- <- <- <-. exists lx, ly, l, gx, gy, c, a. repeat split; auto.
    - intros (lx & ly & l & gx & gy & c & a & He & I & Hs & G & C & ->). exists e. split; auto.
      apply in_flat_map. exists (lx, ly, l, f, fl). split; auto. unfold one. rewrite G, I, C. left; auto. }
  assert (NoDup P) as NP.
  { assert (forall e s q, In q (one e s) -> fst (fst (fst q)) = e /\ (snd (fst (fst q)), snd (fst q)) = (snd (fst s), snd s)) as OE.
    { intros e [[[[lx ly] l] f'] fl'] q H. unfold one in H. destruct (m_global _ _ _ _ _) as [gx gy].
      destruct (c_ip e), (get_chip_at m gx gy); try destruct H. subst; auto. destruct H. }
    unfold P. apply nodup_flat_map.
    - destruct W as [_ WN WE _ _ _ _]. rewrite WE. apply NoDup_filter. apply NoDup_map_inv in WN. exact WN.
    - intros e He. apply nodup_flat_map.
      + destruct v; try exact (NoDup_nil _). apply (NoDup_map_inv (fun s : Z*Z*Z*Z*Z => (snd (fst s), snd s))).
        apply nodup_b_spec. vm_compute. reflexivity.
      + intros s Hs. destruct s as [[[[lx ly] l] f'] fl']. unfold one. destruct (m_global _ _ _ _ _) as [gx gy].
        destruct (c_ip e), (get_chip_at m gx gy); repeat constructor; auto.
      + intros s s' q Hs Hs' Hq Hq'. destruct (OE _ _ _ Hq) as [_ E1]. destruct (OE _ _ _ Hq') as [_ E2].
        destruct s as [[[[lx ly] l] f] fl], s' as [[[[lx' ly'] l'] f'] fl']. cbn [fst snd] in E1, E2.
        assert (f = f' /\ fl = fl') as [<- <-] by (split; congruence).
        pose proof (fpga_links_unique _ _ _ _ _ _ _ _ _ Hs Hs') as X. congruence.
    - intros e e' q He He' Hq Hq'. apply in_flat_map in Hq as (s & _ & Hq). apply in_flat_map in Hq' as (s' & _ & Hq').
      destruct (OE _ _ _ Hq) as [E1 _]. destruct (OE _ _ _ Hq') as [E2 _]. congruence. }
  exists P. split; [auto|]. split; [auto|]. split; [auto|]. split.
  - (* the keys *)
    set (keys := fun (p : chip * Z * Z * fpga_link_data) => let '(e, f, fl, d) := p in
      (Board (fl_addr d), f, fl) :: (AtXY (fl_x d, fl_y d), f, fl) ::
      (if xy_eqb (c_xy e) (fl_x d, fl_y d) then [] else [(AtXY (c_xy e), f, fl)])).
    assert (forall p k, In p P -> (In k (keys p) <->
      let '(e, f, fl, d) := p in (k = (Board (fl_addr d), f, fl) \/ k = (AtXY (fl_x d, fl_y d), f, fl) \/
       k = (AtXY (c_xy e), f, fl)))) as KI.
    { intros [[[e f] fl] d] k _. cbn [keys]. destruct (xy_eqb (c_xy e) (fl_x d, fl_y d)) eqn:X.
      - apply xyeqb_eq in X. rewrite X. cbn [In]. intuition congruence.
      - cbn [In]. intuition congruence. }
    assert (Permutation (dkeys (m_fpga m')) (flat_map keys P)) as PM.
    { apply NoDup_Permutation; auto.
      - apply nodup_flat_map; auto.
        + intros [[[e f] fl] d] _. cbn [keys]. destruct (xy_eqb (c_xy e) (fl_x d, fl_y d)) eqn:X.
          * repeat constructor; cbn; intuition discriminate.
          * repeat constructor; cbn; try (intuition discriminate).
            intros [Y|[]]. assert (c_xy e = (fl_x d, fl_y d)) as Z0 by congruence. apply (f_equal negb) in X. rewrite (proj2 (xyeqb_eq _ _) Z0) in X. discriminate.
        + intros p p' k Hp Hp' Hk Hk'. apply KI in Hk; auto. apply KI in Hk'; auto.
          destruct p as [[[e f] fl] d], p' as [[[e' f'] fl'] d'].
          apply PI in Hp, Hp'.
          assert (dget fpga_key_eqb (m_fpga m') k = Some d) as G1 by (apply L; eauto 6).
          assert (dget fpga_key_eqb (m_fpga m') k = Some d') as G2 by (apply L; eauto 6).
          assert (d = d') as <- by congruence.
          assert (f = f' /\ fl = fl') as [<- <-].
          { destruct Hk as [Hk|[Hk|Hk]], Hk' as [Hk'|[Hk'|Hk']]; split; congruence. }
          assert (e = e') as <-; [|reflexivity].
          destruct Hp as (? & ? & ? & ? & ? & ? & a & He & I & _ & _ & _ & D).
          destruct Hp' as (? & ? & ? & ? & ? & ? & a' & He' & I' & _ & _ & _ & D').
          destruct A as (_ & A & _). apply A; auto. left. subst d. congruence.
      - intros k. rewrite in_flat_map. split.
        + intros H. apply in_map_iff in H as ([k' d] & <- & H). cbn [fst].
          apply (dget_in _ fpga_key_eq _ _ _ N) in H. apply L in H as (e & f & fl & HP & HK).
          exists (e, f, fl, d). apply PI in HP. split; auto. apply KI; auto.
        + intros (p & Hp & Hk). apply KI in Hk; auto. destruct p as [[[e f] fl] d]. apply PI in Hp.
          assert (dget fpga_key_eqb (m_fpga m') k = Some d) as G1 by (apply L; eauto 6).
          apply (dget_some_in _ fpga_key_eq) in G1. apply in_map_iff. exists (k, d). auto. }
    apply Permutation_length in PM. unfold dkeys in PM. rewrite map_length in PM.
    unfold n_fpga_links. rewrite PM. clearbody P. clear -P. induction P as [|p P IH]; [reflexivity|].
    assert (flat_map keys (p :: P) = keys p ++ flat_map keys P) as -> by reflexivity.
    rewrite app_length, Nat2Z.inj_add. unfold fpga_key in IH. rewrite IH. clear IH. destruct p as [[[e f] fl] d]. cbn [filter]. unfold keys.
    destruct (xy_eqb (c_xy e) (fl_x d, fl_y d)); cbn [List.length]; lia.
  - assert (wf m') as W' by (eapply same_wf; eauto).
    destruct (add_fpga_same v m' W') as (m2 & E2 & S2). rewrite E2. f_equal. 
    pose proof (fpga_fold_pairs v m (m_eth m') m' m2 SM E2) as [SP2 F2].
    apply machine_eq; auto. rewrite SP2. apply (fill_same _).
    intros k d H. rewrite SP. apply (fill_functional _ fpga_key_eq); [apply fpga_functional; auto|].
    destruct SM as (_ & _ & _ & _ & SE & _). rewrite SE in H. exact H.
Qed.
Print Assumptions C25_n_fpga_links.

(** The documentation of n_fpga_links says "the number of FPGA links": on a full SpiNN-5 board
    with its 48 FPGA links it answers 141. *)
Definition full_board : machine :=
  fst (history V5 (new_machine NoWrap 8 8 (chip_core_map V5) "")
    (map (fun p => CallAddChip (demo_chip (fst p) (snd p) [] (if xy_eqb p (0, 0) then Some "10.0.0.1"%string else None)))
       (dkeys (chip_core_map V5)))).

Lemma full_board_made : made_of_chips full_board.
Proof.
  exists NoWrap, 8, 8, (chip_core_map V5), EmptyString, V5,
    (map (fun p => demo_chip (fst p) (snd p) [] (if xy_eqb p (0, 0) then Some "10.0.0.1"%string else None))
       (dkeys (chip_core_map V5))). vm_compute. reflexivity.
Qed.

Lemma full_board_apart : boards_apart V5 full_board.
Proof.
  split; [vm_compute; reflexivity|].
  assert (ethernet_connected_chips full_board = [demo_chip 0 0 [] (Some "10.0.0.1"%string)]) as -> by (vm_compute; reflexivity). split.
  - intros e e' [<-|[]] [<-|[]] _. reflexivity.
  - intros e [<-|[]]. split; [apply nodup_b_spec; vm_compute; reflexivity|]. vm_compute. tauto.
Qed.

Theorem C25_n_fpga_links_counts_links_refuted :
  made_of_chips full_board /\ boards_apart V5 full_board /\
  exists m', add_fpga_links V5 full_board = Ok m' /\ n_fpga_links m' = 141 /\
    List.length (fpga_links V5) = 48%nat.
Proof.
  split; [exact full_board_made|]. split; [exact full_board_apart|].
  destruct (add_fpga_links V5 full_board) as [m'|] eqn:E; [|vm_compute in E; discriminate].
  exists m'. split; [reflexivity|]. split; [|reflexivity].
  assert (match add_fpga_links V5 full_board with Ok m => n_fpga_links m =? 141 | _ => false end = true) as H
    by (vm_compute; reflexivity).
  rewrite E in H. apply Z.eqb_eq. exact H.
Qed.
Print Assumptions C25_n_fpga_links_counts_links_refuted.

(** How the FPGA links are numbered: clockwise round the edge of the board, starting at chip
    (7, 3) link 0.  From one edge link turn to the next link clockwise of the same chip; if that
    leads to a chip of the board go on from there, one link anticlockwise of the way back. *)
Definition clockwise (p : XY) (l : Z) : XY * Z :=
  let r := (l - 1) mod 6 in
  if on_board_b (vadd p (link_vec r)) then (vadd p (link_vec r), (l + 1) mod 6) else (p, r).

Theorem C25_fpga_numbering_goes_round_the_edge :
  In (7, 3, 0, 0, 0) (fpga_links V5) /\
  forall lx ly l f fl, In (lx, ly, l, f, fl) (fpga_links V5) ->
    let '(p', l') := clockwise (lx, ly) l in
    let '(f', fl') := next_fpga_link f fl in
    In (fst p', snd p', l', if f' =? 3 then 0 else f', fl') (fpga_links V5).
Proof.
  assert (forallb (fun s : Z * Z * Z * Z * Z => let '(lx, ly, l, f, fl) := s in
    let '(p', l') := clockwise (lx, ly) l in
    let '(f', fl') := next_fpga_link f fl in
    existsb (fun s' : Z * Z * Z * Z * Z => let '(a, b, c, d, e) := s' in
       (a =? fst p') && (b =? snd p') && (c =? l') && (d =? if f' =? 3 then 0 else f') && (e =? fl'))
      (fpga_links V5)) (fpga_links V5) = true) as H by (vm_compute; reflexivity).
  split; [vm_compute; tauto|]. intros lx ly l f fl I.
  apply (proj1 (forallb_forall _ _) H) in I. cbv beta iota in I.
  destruct (clockwise (lx, ly) l) as [p' l']. destruct (next_fpga_link f fl) as [f' fl'].
  apply existsb_exists in I as ([[[[a b] c] d] e] & I & E). 
  repeat (apply andb_prop in E as [E ?]).
  repeat match goal with K : (_ =? _) = true |- _ => apply Z.eqb_eq in K end.
  subst. exact I.
Qed.
Print Assumptions C25_fpga_numbering_goes_round_the_edge.

Example C24_all_case : exists m', add_spinnaker_links V5 demo = Ok m' /\
  spinnaker_links_items m' = [((Board "10.0.0.1", 0), mkSpinLink 0 0 0 4 "10.0.0.1");
                              ((AtXY (0, 0), 0), mkSpinLink 0 0 0 4 "10.0.0.1")].
Proof. eexists. split; [reflexivity|]. reflexivity. Qed.

Example C25_numbering_case : clockwise (7, 3) 0 = ((7, 3), 5) /\ clockwise (7, 3) 5 = ((6, 2), 0) /\
  next_fpga_link 0 15 = (1, 0).
Proof. repeat split. Qed.
