(** C74: faults with a way round them do not cut a machine. *)
From Coq Require Import Lia ZifyBool Znumtheory.
From Verif Require Import Model_Py Model_Wrap Model_Float Model_Geometry Model_Version Model_Core
  Model_Machine Model_Str Model_Ignore Model_Factory Model_Virtual
  Spec_Hops Spec_Board Spec_Version Spec_Machine Spec_Router Spec_Boards Spec_Str Spec_Virtual Spec_Walk Spec_Counts Spec_Detour
  Proof_Wrap Proof_Py Proof_Board Proof_Version Proof_Machine Proof_Report Proof_Str Proof_Virtual
  Proof_VirtualMachine Proof_Faultfree Proof_Walk Prop_Board Prop_Walk Proof_Counts Prop_Counts.
Open Scope list_scope.
Open Scope Z_scope.

Lemma turn l : 0 <= l < 6 ->
  vadd (link_vec ((l + 1) mod 6)) (link_vec ((l + 5) mod 6)) = link_vec l /\
  vadd (link_vec ((l + 5) mod 6)) (link_vec ((l + 1) mod 6)) = link_vec l /\
  vadd (link_vec l) (link_vec ((l + 2) mod 6)) = link_vec ((l + 1) mod 6) /\
  vadd (link_vec l) (link_vec ((l + 3) mod 6)) = (0, 0).
Proof. intros H. destruct (link_cases l H) as [->|[->|[->|[->|[->| ->]]]]]; repeat split; reflexivity. Qed.

Section Round.
Context {c : config} {V : version} {w h : Z} {m : machine} {dch : list ignore_chip}
  {dco : list ignore_core} {dl : list ignore_link}.
Hypothesis B : built c V w h m dch dco dl.
Hypothesis Hl : links_have_detours m.
Hypothesis Hc : dead_chips_apart (v_id V) m.

Lemma over_eq p l : 0 <= l < 6 ->
  m_over m (fst p) (snd p) l = Ok (red (m_kind m) w h (vadd p (link_vec l))).
Proof using B.
  clear Hl Hc. intros R. unfold m_over. rewrite over_red by (auto; apply (start_good B)).
  rewrite <- surjective_pairing, (b_width _ _ _ _ _ _ _ _ B), (b_height _ _ _ _ _ _ _ _ B). reflexivity.
Qed.

Lemma link_walk p l : link_at m (fst p) (snd p) l ->
  0 <= l < 6 /\ walk m p 1 (red (m_kind m) w h (vadd p (link_vec l))).
Proof using B.
  clear Hl Hc. intros (ch & k & G & K).
  pose proof (proj1 (built_link B _ _ _ _ _ G) K) as (R & _ & dx & dy & O & -> & ch' & G').
  split; auto. rewrite over_eq in O by auto. apply Ok_inj in O. rewrite O.
  eapply walk_link; [exact G|exact K|]. eapply walk_stay. exact G'.
Qed.

Lemma hop p l : is_chip_at m (fst p) (snd p) = true -> 0 <= l < 6 ->
  let q := red (m_kind m) w h (vadd p (link_vec l)) in
  is_chip_at m (fst q) (snd q) = true -> exists n, walk m p n q.
Proof using B Hl.
  clear Hc. intros Cp R q Cq. destruct (Hl p l q Cp R (over_eq p l R) Cq) as [L|(l1 & l2 & r & LL & L1 & O & L2)].
  - apply link_walk in L as [_ L]. eauto.
  - exists (1 + 1)%nat. apply link_walk in L1 as [R1 W1], L2 as [R2 W2].
    rewrite over_eq in O by auto. apply Ok_inj in O. subst r. eapply walk_app; [exact W1|].
    replace q with (red (m_kind m) w h (vadd (red (m_kind m) w h (vadd p (link_vec l1))) (link_vec l2))); [exact W2|].
    rewrite red_add, vadd_assoc. unfold q. do 2 f_equal.
    destruct (turn l R) as (T1 & T2 & _). destruct LL as [[-> ->]|[-> ->]]; auto.
Qed.

(** Round a place without a chip. *)
Lemma ring p e d n : place_of (v_id V) w h p e d n -> is_chip_at m (fst p) (snd p) = false ->
  forall l, 0 <= l < 6 ->
  exists k, walk m (red (m_kind m) w h (vadd p (link_vec l))) k (red (m_kind m) w h (vadd p (link_vec ((l + 1) mod 6)))).
Proof using B Hl Hc.
  intros P D l R.
  assert (forall l, 0 <= l < 6 -> is_chip_at m (fst (red (m_kind m) w h (vadd p (link_vec l))))
    (snd (red (m_kind m) w h (vadd p (link_vec l)))) = true) as A.
  { intros l0 R0. destruct (Hc p e d n) with (l := l0) as (q & O & C); auto.
    - rewrite (b_width _ _ _ _ _ _ _ _ B), (b_height _ _ _ _ _ _ _ _ B). exact P.
    - rewrite over_eq in O by auto. apply Ok_inj in O. rewrite O. exact C. }
  assert (0 <= (l + 2) mod 6 < 6) as R2 by (apply Z.mod_pos_bound; lia).
    assert (0 <= (l + 1) mod 6 < 6) as R1 by (apply Z.mod_pos_bound; lia).
    replace (red (m_kind m) w h (vadd p (link_vec ((l + 1) mod 6)))) with
      (red (m_kind m) w h (vadd (red (m_kind m) w h (vadd p (link_vec l))) (link_vec ((l + 2) mod 6)))).
  - apply hop; auto. rewrite red_add, vadd_assoc. destruct (turn l R) as (_ & _ & -> & _). auto.
  - rewrite red_add, vadd_assoc. destruct (turn l R) as (_ & _ & -> & _). reflexivity.
Qed.

Lemma ring_walk p e d n q k : place_of (v_id V) w h p e d n -> is_chip_at m (fst p) (snd p) = false ->
  forall l, 0 <= l < 6 -> walk m (red (m_kind m) w h (vadd p (link_vec l))) k q ->
  forall l', 0 <= l' < 6 -> exists k', walk m (red (m_kind m) w h (vadd p (link_vec l'))) k' q.
Proof using B Hl Hc.
  intros P D l R W.
  assert (forall j : nat, exists k', walk m (red (m_kind m) w h (vadd p (link_vec ((l - Z.of_nat j) mod 6)))) k' q) as K.
  { induction j as [|j [k' IH]].
    - exists k. replace ((l - Z.of_nat 0) mod 6) with l; auto. rewrite Z.sub_0_r, Z.mod_small; auto.
    - destruct (ring p e d n P D ((l - Z.of_nat (S j)) mod 6)) as [k1 W1]; [apply Z.mod_pos_bound; lia|].
      exists (k1 + k')%nat. eapply walk_app; [exact W1|].
      replace (((l - Z.of_nat (S j)) mod 6 + 1) mod 6) with ((l - Z.of_nat j) mod 6); auto.
      rewrite Zplus_mod_idemp_l. f_equal. lia. }
  intros l' R'. destruct (K (Z.to_nat ((l - l') mod 6))) as [k' W'].
  exists k'. replace l' with ((l - Z.of_nat (Z.to_nat ((l - l') mod 6))) mod 6); auto.
  rewrite Z2Nat.id by (apply Z.mod_pos_bound; lia). rewrite Zminus_mod_idemp_r.
  replace (l - (l - l')) with l' by lia. apply Z.mod_small. auto.
Qed.
End Round.

(** Whatever else is down: when a chip that is down has its six neighbours, and two
    chips next to each other are linked or have a detour, there is a way from every
    chip to every chip. *)
Theorem C74_still_connected :
  forall c V w h check m,
    virtual_machine c V w h check = Ok m ->
    dead_chips_apart (v_id V) m -> links_have_detours m -> connected m.
Proof.
  intros c V w h b m E Hc Hl. apply virtual_built in E as (dch & dco & dl & B & _).
  pose proof (b_sup _ _ _ _ _ _ _ _ B) as S.
  set (c0 := mkConfig None None None None None None false None None None None None None true).
  destruct (virtual_cases c0 V w h) as [(m0 & dch0 & dco0 & dl0 & B0 & E0 & _)|[_ X]].
  2: { exfalso. destruct (X S [] [] []) as (i & [] & _). repeat split. }
  assert (connected m0) as C0 by (apply (C65_connected c0 V w h false m0 E0); reflexivity).
  destruct (b_read _ _ _ _ _ _ _ _ B0) as (R1 & R2 & R3).
  assert (dch0 = []) as -> by (cbn in R1; congruence).
  assert (forall x y, (exists ch, get_chip_at m0 x y = Some ch) <-> exists e d n, place_of (v_id V) w h (x, y) e d n) as P0.
  { intros x y. rewrite (built_present B0). cbn. tauto. }
  intros p q Hp Hq.
  assert (exists n, walk m0 p n q) as [n W0].
  { apply C0; apply chip_there, P0; [apply chip_there in Hp as [ch G]|apply chip_there in Hq as [ch G]];
      destruct (proj1 (built_present B _ _) (ex_intro _ ch G)) as [PL _]; exact PL. }
  assert ((is_chip_at m (fst p) (snd p) = true -> exists k, walk m p k q) /\
          (is_chip_at m (fst p) (snd p) = false -> forall l, 0 <= l < 6 ->
             exists k, walk m (red (m_kind m) w h (vadd p (link_vec l))) k q)) as [K _]; [|auto].
  clear Hp. induction W0 as [p ch G|p ch l k n q G K W IH].
  - split; [|congruence]. intros _. exists 0%nat. apply chip_there in Hq as [ch' G']. eapply walk_stay; eauto.
  - specialize (IH Hq) as [IH1 IH2].
    pose proof (proj1 (built_link B0 _ _ _ _ _ G) K) as (R & _ & dx & dy & O & -> & ch' & G').
    cbn [l_destination_x l_destination_y fst snd] in *.
    assert ((dx, dy) = red (m_kind m) w h (vadd p (link_vec l))) as D.
    { rewrite (over_eq B0) in O by auto. apply Ok_inj in O. rewrite <- O, (b_kind _ _ _ _ _ _ _ _ B), (b_kind _ _ _ _ _ _ _ _ B0).
      reflexivity. }
    destruct (proj1 (P0 _ _) (ex_intro _ _ G)) as (e & d & j & PL). rewrite <- surjective_pairing in PL.
    destruct (proj1 (P0 _ _) (ex_intro _ _ G')) as (e' & d' & j' & PL').
    split.
    + intros Cp. destruct (is_chip_at m dx dy) eqn:Cd.
      * destruct (IH1 eq_refl) as [k2 W2]. destruct (hop B Hl p l Cp R) as [k1 W1].
        { rewrite <- D. exact Cd. }
        exists (k1 + k2)%nat. eapply walk_app; [exact W1|]. rewrite <- D. exact W2.
      * specialize (IH2 eq_refl ((l + 3) mod 6) ltac:(apply Z.mod_pos_bound; lia)) as [k2 W2].
        exists k2. replace p with (red (m_kind m) w h (vadd (dx, dy) (link_vec ((l + 3) mod 6)))); [exact W2|].
        rewrite D, red_add, vadd_assoc. destruct (turn l R) as (_ & _ & _ & ->).
        replace (vadd p (0, 0)) with p by (unfold vadd; cbn [fst snd]; rewrite !Z.add_0_r; apply surjective_pairing).
        apply red_canon. apply chip_there in Cp as [cp Gp]. apply (built_inside B) in Gp.
        rewrite <- surjective_pairing in Gp. apply inside_canonical. exact Gp.
    + intros Cp. destruct (is_chip_at m dx dy) eqn:Cd.
      * destruct (IH1 eq_refl) as [k2 W2]. rewrite D in W2.
        apply (ring_walk B Hl Hc p e d j q k2 PL Cp l R W2).
      * exfalso. destruct (Hc p e d j) with (l := l) as (q' & O' & C'); auto.
        { rewrite (b_width _ _ _ _ _ _ _ _ B), (b_height _ _ _ _ _ _ _ _ B). exact PL. }
        rewrite (over_eq B) in O' by auto. apply Ok_inj in O'. rewrite <- D in O'. subst q'. cbn [fst snd] in C'. congruence.
Qed.
Print Assumptions C74_still_connected.

(** When the machine wraps both ways every point of it is a place. *)
Lemma full_place v w h p : v = V5 \/ v = V248 -> size48 w h -> (12 | w) -> (12 | h) -> inside w h p ->
  exists e d n, place_of v w h p e d n.
Proof.
  intros Hv S48 Dw Dh I. assert (supported v w h) as S by (destruct Hv as [-> | ->]; exact S48).
  destruct (layout_exists _ w h S) as [eths L].
  destruct (C10_boards_tile v Hv w h S48 eths (lay_eths _ _ _ _ L)) as (_ & _ & T).
  destruct (T Dw Dh p I) as (e & He & H).
  apply (in_xys v w h _ _ p Hv) in H as (d & D & H).
  apply (board48 v Hv) in D. apply expected_in in D as [n D]. exists e, d, n.
  split; [apply L; auto|]. split; auto. apply lands_spot; auto.
Qed.

Lemma ignore_chip_dec (a b : ignore_chip) : {a = b} + {a <> b}.
Proof. repeat decide equality. Qed.

(** On a machine that wraps both ways: as many chips as you like can be down, when no
    two of them are next to each other there is still a way from every chip to every chip. *)
Theorem C74_scattered_chips :
  forall c V w h check m down_chips,
    v_id V = V5 \/ v_id V = V248 -> (12 | w) -> (12 | h) ->
    virtual_machine c V w h check = Ok m ->
    parse_chips (cfg_down_chips c) = Ok down_chips -> parse_links (cfg_down_links c) = Ok [] ->
    (forall x y l q, In (mkIgnoreChip x y None) down_chips -> inside w h (x, y) -> 0 <= l < 6 ->
       m_over m x y l = Ok q -> ~ In (mkIgnoreChip (fst q) (snd q) None) down_chips) ->
    connected m.
Proof.
  intros c V w h b m dch0 Hv Dw Dh E PC PL A.
  pose proof E as E0. apply virtual_built in E as (dch & dco & dl & B & _).
  destruct (b_read _ _ _ _ _ _ _ _ B) as (R1 & R2 & R3).
  assert (dch0 = dch) as -> by congruence. assert (dl = []) as -> by congruence.
  pose proof (b_sup _ _ _ _ _ _ _ _ B) as S.
  assert (size48 w h) as S48 by (destruct Hv as [H|H]; rewrite H in S; exact S).
  apply (C74_still_connected _ _ _ _ _ _ E0).
  - intros p e d n P D l R. rewrite (b_width _ _ _ _ _ _ _ _ B), (b_height _ _ _ _ _ _ _ _ B) in P.
    assert (In (mkIgnoreChip (fst p) (snd p) None) dch) as I.
    { destruct (in_dec ignore_chip_dec (mkIgnoreChip (fst p) (snd p) None) dch) as [I|I]; auto. exfalso.
      assert (is_chip_at m (fst p) (snd p) = true) as X; [|congruence].
      apply chip_there, (built_present B). split; auto. rewrite <- surjective_pairing. eauto. }
    assert (inside w h p) as Ip by (destruct P as (_ & _ & La); apply La).
    eexists. split; [apply (over_eq B); auto|].
    assert (inside w h (fst p, snd p)) as Ip2 by (rewrite <- surjective_pairing; exact Ip).
    pose proof (A (fst p) (snd p) l _ I Ip2 R (over_eq B p l R)) as A1.
    apply chip_there, (built_present B). split; auto. rewrite <- surjective_pairing.
    apply full_place; auto. rewrite (b_kind _ _ _ _ _ _ _ _ B).
    pose proof (size48_pos w h S48) as [Pw Ph].
    unfold red. destruct (class_wraps (v_id V) w h Hv) as [Wx Wy].
    assert (w mod 12 = 0 /\ h mod 12 = 0) as [W1 W2] by (split; apply Z.mod_divide; auto; lia).
    rewrite Wx, Wy, W1, W2. cbn [Z.eqb fst snd vadd]. split; cbn [fst snd]; apply Z.mod_pos_bound; lia.
  - intros p l q Cp R O Cq. left. apply chip_there in Cp as [ch G].
    destruct (get_link (c_router ch) l) as [k|] eqn:K; [exists ch, k; auto|]. exfalso.
    apply chip_there in Cq as [ch' G'].
    assert (get_link (c_router ch) l = Some (mkLink (fst p) (snd p) l (fst q) (snd q))) as X; [|congruence].
    apply (built_link B _ _ _ _ _ G). split; auto. split.
    + unfold link_down. destruct Hv as [-> | ->]; intros [[]|[]]; discriminate.
    + exists (fst q), (snd q). rewrite <- surjective_pairing. eauto.
Qed.
Print Assumptions C74_scattered_chips.

(** On a 12 x 12 machine with four chips and, elsewhere, links down. *)
Definition detour_cfg : config :=
  mkConfig None None None None None None false None (Some "11,0:2,1:5,5:9,4"%string) None None None None true.
Definition detour_links_cfg : config :=
  mkConfig None None None None None None false None (Some "11,0:2,1:5,5:9,4"%string) (Some "7,8,1:8,9,4:3,9,0:4,9,3"%string) None None None true.

Definition holds_6 (f : Z -> bool) : bool := forallb f (zrange 0 6).
Definition link_b (m : machine) (p : XY) (l : Z) : bool :=
  match get_chip_at m (fst p) (snd p) with
  | Some ch => match get_link (c_router ch) l with Some _ => true | None => false end
  | None => false
  end.
Definition detour_b (m : machine) (p : XY) (l : Z) : bool :=
  existsb (fun t : Z * Z => link_b m p (fst t) &&
    match m_over m (fst p) (snd p) (fst t) with Ok r => link_b m r (snd t) | Err _ => false end)
    [((l + 1) mod 6, (l + 5) mod 6); ((l + 5) mod 6, (l + 1) mod 6)].
Definition points (m : machine) : list XY :=
  flat_map (fun y => map (fun x => (x, y)) (zrange 0 (m_width m))) (zrange 0 (m_height m)).
Definition detours_b (m : machine) : bool :=
  forallb (fun p => holds_6 (fun l =>
    match m_over m (fst p) (snd p) l with
    | Ok q => negb (is_chip_at m (fst p) (snd p) && is_chip_at m (fst q) (snd q)) || link_b m p l || detour_b m p l
    | Err _ => false
    end)) (points m).
Definition apart_b (m : machine) : bool :=
  forallb (fun p => is_chip_at m (fst p) (snd p) || holds_6 (fun l =>
    match m_over m (fst p) (snd p) l with Ok q => is_chip_at m (fst q) (snd q) | Err _ => false end)) (points m).

Lemma in_points m p : In p (points m) <-> inside (m_width m) (m_height m) p.
Proof.
  unfold points, inside. rewrite in_flat_map. destruct p as [x y]. cbn [fst snd]. split.
  - intros (y' & Hy & H). apply in_map_iff in H as (x' & E & Hx). apply in_zrange in Hx, Hy. injection E as <- <-. lia.
  - intros [Hx Hy]. exists y. split; [apply in_zrange; lia|]. apply in_map_iff. exists x. split; auto. apply in_zrange; lia.
Qed.

Lemma link_b_at m p l : link_b m p l = true -> link_at m (fst p) (snd p) l.
Proof.
  unfold link_b, link_at. destruct (get_chip_at m (fst p) (snd p)) as [ch|]; [|discriminate].
  destruct (get_link (c_router ch) l) as [k|] eqn:K; [|discriminate]. eauto.
Qed.

Lemma detours_ok c V w h check m : virtual_machine c V w h check = Ok m ->
  detours_b m = true -> apart_b m = true -> links_have_detours m /\ dead_chips_apart (v_id V) m.
Proof.
  intros E D A. apply virtual_built in E as (dch & dco & dl & B & _). unfold detours_b, apart_b in *.
  rewrite forallb_forall in D, A. split.
  - intros p l q Cp R O Cq. specialize (D p). unfold holds_6 in D. rewrite forallb_forall in D.
    assert (In p (points m)) as I.
    { apply in_points. rewrite (b_width _ _ _ _ _ _ _ _ B), (b_height _ _ _ _ _ _ _ _ B).
      apply chip_there in Cp as [ch G]. apply (built_inside B) in G. rewrite <- surjective_pairing in G. exact G. }
    specialize (D I l ltac:(apply in_zrange; lia)). rewrite O, Cp, Cq in D. cbn [andb negb orb] in D.
    apply orb_true_iff in D as [D|D]; [left; apply link_b_at; auto|right].
    unfold detour_b in D. apply existsb_exists in D as ([l1 l2] & I2 & D). cbn [fst snd] in D.
    apply andb_true_iff in D as [D1 D2]. destruct (m_over m (fst p) (snd p) l1) as [r|] eqn:O1; [|discriminate].
    exists l1, l2, r. split; [destruct I2 as [X|[X|[]]]; injection X as <- <-; auto|].
    split; [apply link_b_at; auto|]. split; auto. apply link_b_at; auto.
  - intros p e d n P Cp l R. specialize (A p). rewrite Cp in A. cbn [orb] in A. unfold holds_6 in A. rewrite forallb_forall in A.
    assert (In p (points m)) as I by (apply in_points; destruct P as (_ & _ & La); apply La).
    specialize (A I l ltac:(apply in_zrange; lia)). destruct (m_over m (fst p) (snd p) l) as [q|]; [|discriminate]. eauto.
Qed.

Lemma detour_facts :
  match virtual_machine detour_links_cfg notch_version 12 12 true with
  | Ok m => detours_b m && apart_b m && negb (is_chip_at m 5 5) && is_chip_at m 7 8 && is_chip_at m 8 9 &&
      negb (link_b m (7, 8) 1)
  | Err _ => false
  end = true.
Proof. vm_compute. reflexivity. Qed.

Example C74_case :
  exists m, virtual_machine detour_links_cfg notch_version 12 12 true = Ok m /\
    dead_chips_apart (v_id notch_version) m /\ links_have_detours m /\
    is_chip_at m 5 5 = false /\ is_chip_at m 7 8 = true /\ is_chip_at m 8 9 = true /\ link_b m (7, 8) 1 = false.
Proof.
  pose proof detour_facts as F. destruct (virtual_machine detour_links_cfg notch_version 12 12 true) as [m|] eqn:E; [|discriminate].
  exists m. repeat (apply andb_true_iff in F as [F ?]). destruct (detours_ok _ _ _ _ _ _ E) as [H5 H6]; auto.
  repeat match goal with H : negb _ = true |- _ => apply negb_true_iff in H end. auto 10.
Qed.

Lemma scattered_facts :
  match virtual_machine detour_cfg notch_version 12 12 true with
  | Ok m => forallb (fun p => holds_6 (fun l => match m_over m (fst p) (snd p) l with
      | Ok q => is_chip_at m (fst q) (snd q)
      | Err _ => false end)) [(11, 0); (2, 1); (5, 5); (9, 4)]
  | Err _ => false
  end = true.
Proof. vm_compute. reflexivity. Qed.

Example C74_scattered_case :
  exists m, virtual_machine detour_cfg notch_version 12 12 true = Ok m /\
    parse_chips (cfg_down_chips detour_cfg) =
      Ok [mkIgnoreChip 11 0 None; mkIgnoreChip 2 1 None; mkIgnoreChip 5 5 None; mkIgnoreChip 9 4 None] /\
    parse_links (cfg_down_links detour_cfg) = Ok [] /\
    (forall x y l q, In (mkIgnoreChip x y None) [mkIgnoreChip 11 0 None; mkIgnoreChip 2 1 None; mkIgnoreChip 5 5 None; mkIgnoreChip 9 4 None] ->
       inside 12 12 (x, y) -> 0 <= l < 6 -> m_over m x y l = Ok q ->
       ~ In (mkIgnoreChip (fst q) (snd q) None) [mkIgnoreChip 11 0 None; mkIgnoreChip 2 1 None; mkIgnoreChip 5 5 None; mkIgnoreChip 9 4 None]).
Proof.
  pose proof scattered_facts as F. destruct (virtual_machine detour_cfg notch_version 12 12 true) as [m|] eqn:E; [|discriminate].
  exists m. split; auto.
  assert (parse_chips (cfg_down_chips detour_cfg) =
      Ok [mkIgnoreChip 11 0 None; mkIgnoreChip 2 1 None; mkIgnoreChip 5 5 None; mkIgnoreChip 9 4 None]) as PC by (vm_compute; reflexivity).
  split; [exact PC|]. split; [reflexivity|].
  intros x y l q I Ip R O N. rewrite forallb_forall in F. specialize (F (x, y)). unfold holds_6 in F. rewrite forallb_forall in F.
  assert (In (x, y) [(11, 0); (2, 1); (5, 5); (9, 4)]) as J.
  { destruct I as [X|[X|[X|[X|[]]]]]; injection X as <- <-; cbn; auto 6. }
  specialize (F J l ltac:(apply in_zrange; lia)). cbn [fst snd] in F. rewrite O in F.
  apply chip_there in F as [ch G].
  apply virtual_built in E as (dch & dco & dl & B & _). destruct (b_read _ _ _ _ _ _ _ _ B) as (R1 & _).
  rewrite PC in R1. apply Ok_inj in R1. subst dch.
  destruct (proj1 (built_present B _ _) (ex_intro _ ch G)) as [_ ND]. apply ND, N.
Qed.
