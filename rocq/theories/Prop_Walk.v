(** C64, C65: distances and reachability over the links that a machine really has. *)
From Coq Require Import Lia ZifyBool Znumtheory.
From Verif Require Import Model_Py Model_Wrap Model_Float Model_Geometry Model_Version Model_Core
  Model_Machine Model_Str Model_Ignore Model_Virtual
  Spec_Hops Spec_Board Spec_Version Spec_Machine Spec_Boards Spec_Str Spec_Virtual Spec_Walk
  Proof_Wrap Proof_Py Proof_Board Proof_Version Proof_Machine Proof_Report Proof_Str Proof_Virtual
  Proof_VirtualMachine Proof_Faultfree Proof_Walk.
Open Scope list_scope.
Open Scope Z_scope.

(** ** C64 *)

(** Whatever is down, no way over the links is shorter than get_vector_length says. *)
Theorem C64_no_shorter_way :
  forall c V w h check m,
    virtual_machine c V w h check = Ok m ->
  forall p q n, walk m p n q ->
    get_vector_length (m_kind m) (m_width m) (m_height m) p q <= Z.of_nat n.
Proof.
  intros c V w h b m E p q n W. apply virtual_built in E as (dch & dco & dl & B & _).
  apply (walk_bound B _ _ _ W).
Qed.
Print Assumptions C64_no_shorter_way.

Lemma length_0 k w h p : good_size k w h -> canonical k w h p -> get_vector_length k w h p p = 0.
Proof. intros G C. apply (length_zero k w h p p G C C). auto. Qed.

Lemma walk_four c V m dco : v_id V = V3 -> built c V 2 2 m [] dco [] ->
  forall p q, inside 2 2 p -> inside 2 2 q ->
  walk m p (Z.to_nat (get_vector_length (m_kind m) (m_width m) (m_height m) p q)) q.
Proof.
  intros E B.
  assert (forall p, inside 2 2 p -> exists ch, get_chip_at m (fst p) (snd p) = Some ch) as ALL.
  { intros [x y] [I1 I2]. cbn [fst snd] in I1, I2. apply (free_chip B). exists (0, 0), (x, y), 18. rewrite E. split; [reflexivity|].
    assert ((x = 0 \/ x = 1) /\ (y = 0 \/ y = 1)) as [[-> | ->] [-> | ->]] by lia;
      (split; [vm_compute; tauto|]; split; [unfold inside; cbn; lia|]; cbn; split;
        [intros _; exists 0; reflexivity|]; split; [tauto|]; split; [intros _; exists 0; reflexivity|tauto]). }
  assert (forall p q l, inside 2 2 p -> inside 2 2 q -> 0 <= l < 6 -> ~ link_down V3 [] (fst p) (snd p) l ->
    xy_over_link FullWrap 2 2 (fst p) (snd p) l = Ok q -> walk m p 1 q) as ST.
  { intros p q l Ip Iq Hl N O. destruct (ALL p Ip) as [ch G], (ALL q Iq) as [ch' G'].
    destruct q as [qx qy].
    apply (walk_link m p ch l (mkLink (fst p) (snd p) l qx qy) 0); auto.
    - apply (built_link B _ _ _ _ _ G). rewrite E. split; auto. split; auto. exists qx, qy.
      split; [|eauto]. unfold m_over. rewrite (b_kind _ _ _ _ _ _ _ _ B), (b_width _ _ _ _ _ _ _ _ B),
        (b_height _ _ _ _ _ _ _ _ B), E. exact O.
    - apply (walk_stay m (qx, qy) ch' G'). }
  rewrite (b_kind _ _ _ _ _ _ _ _ B), (b_width _ _ _ _ _ _ _ _ B), (b_height _ _ _ _ _ _ _ _ B), E.
  intros [x y] [x' y'] I J. pose proof I as [I1 I2]. pose proof J as [J1 J2]. cbn [fst snd] in I1, I2, J1, J2.
  assert ((x = 0 \/ x = 1) /\ (y = 0 \/ y = 1) /\ (x' = 0 \/ x' = 1) /\ (y' = 0 \/ y' = 1))
    as ([-> | ->] & [-> | ->] & [-> | ->] & [-> | ->]) by lia;
  cbn [machine_class];
  first
   [ destruct (ALL _ I) as [ch G]; exact (walk_stay m _ ch G)
   | apply (ST _ _ 0); [assumption|assumption|lia|intros [[]|[_ X]]; cbn in X; lia|reflexivity]
   | apply (ST _ _ 1); [assumption|assumption|lia|intros [[]|[_ X]]; cbn in X; lia|reflexivity]
   | apply (ST _ _ 2); [assumption|assumption|lia|intros [[]|[_ X]]; cbn in X; lia|reflexivity]
   | apply (ST _ _ 3); [assumption|assumption|lia|intros [[]|[_ X]]; cbn in X; lia|reflexivity]
   | apply (ST _ _ 4); [assumption|assumption|lia|intros [[]|[_ X]]; cbn in X; lia|reflexivity] ].
Qed.

(** On a machine of one board, or one that wraps in both dimensions, with no chip and
    no link down, get_vector_length is the number of links of the shortest way. *)
Theorem C64_distance_is_walked :
  forall c V w h check m,
    virtual_machine c V w h check = Ok m ->
    parse_chips (cfg_down_chips c) = Ok [] -> parse_links (cfg_down_links c) = Ok [] ->
    (v_id V = V3 \/ v_id V = V201 \/ (w = 8 /\ h = 8) \/ ((12 | w) /\ (12 | h))) ->
  forall p q, is_chip_at m (fst p) (snd p) = true -> is_chip_at m (fst q) (snd q) = true ->
    let n := get_vector_length (m_kind m) (m_width m) (m_height m) p q in
    walk m p (Z.to_nat n) q /\ (forall k, walk m p k q -> n <= Z.of_nat k).
Proof.
  intros c V w h b m E P1 P3 K p q Hp Hq n. split; [|intros k; apply (C64_no_shorter_way c V w h b m E)].
  apply virtual_built in E as (dch & dco & dl & B & _).
  destruct (b_read _ _ _ _ _ _ _ _ B) as (R1 & R2 & R3).
  assert (dch = []) as -> by congruence. assert (dl = []) as -> by congruence. clear R1 R2 R3 P1 P3.
  apply chip_there in Hp as [ch G], Hq as [ch' G'].
  pose proof (built_inside B _ _ _ G) as I. pose proof (built_inside B _ _ _ G') as J.
  rewrite <- surjective_pairing in I, J.
  pose proof (b_sup _ _ _ _ _ _ _ _ B) as S.
  destruct (v_id V) eqn:VE.
  - destruct S as [-> ->]. apply (walk_four c V m dco VE B); auto.
  - assert (v_id V = V5 \/ v_id V = V248) as V48 by auto.
    destruct K as [K|[K|[[-> ->]|[Kw Kh]]]]; try discriminate.
    + assert (board_origin (v_id V) 8 8 (0, 0)) as O.
      { rewrite VE. split; [split; exists 0; reflexivity|]. unfold board_fits, inside. cbn. lia. }
      destruct (layout_exists (v_id V) 8 8 (b_sup _ _ _ _ _ _ _ _ B)) as [eths L].
      assert (forall r ch, get_chip_at m (fst r) (snd r) = Some ch -> on_board r /\ r = spot (v_id V) 8 8 r (0, 0)) as OB.
      { intros r ch0 Gr. destruct (proj1 (built_present B _ _) (ex_intro _ ch0 Gr)) as [(e & d & k & P) _].
        apply (place_spot B eths) in P as (He & Hd & Q); auto.
        rewrite <- surjective_pairing in Q.
        apply (lay_origin _ _ _ _ L) in He. rewrite VE in He. destruct He as [_ [[F1 F2] [F3 F4]]].
        assert (~ (12 | 8)) as N8 by (intros [t T]; lia). specialize (F3 N8). specialize (F4 N8).
        destruct e as [ex ey]. cbn [fst snd] in *. assert (ex = 0) as -> by lia. assert (ey = 0) as -> by lia.
        assert (on_board d) as Od by (apply (board48 (v_id V) V48); apply expected_in; eauto).
        assert (spot (v_id V) 8 8 d (0, 0) = d) as Sd.
        { unfold spot. rewrite vadd_0. rewrite VE. destruct d. reflexivity. }
        rewrite Sd in Q. subst d. auto. }
      destruct (OB p ch G) as [Op Sp], (OB q ch' G') as [Oq Sq].
      unfold n. rewrite (b_kind _ _ _ _ _ _ _ _ B), VE.
      change (get_vector_length (machine_class V5 8 8) (m_width m) (m_height m) p q) with (nw_get_vector_length p q).
      rewrite Sp at 1. rewrite Sq at 2.
      apply (board_walk B V48); auto.
    + assert (exists links, route (m_kind m) (m_width m) (m_height m) p q links /\ Z.of_nat (List.length links) = n)
        as (links & R & N).
      { apply length_shortest; [apply (start_good B)| |];
          rewrite (b_width _ _ _ _ _ _ _ _ B), (b_height _ _ _ _ _ _ _ _ B); apply inside_canonical; auto. }
      rewrite <- N, Nat2Z.id. apply (route_walk B V48 Kw Kh); auto.
  - destruct S as [-> ->].
    assert (p = (0, 0) /\ q = (0, 0)) as [-> ->].
    { destruct p, q, I as [I1 I2], J as [J1 J2]. cbn [fst snd] in *. split; apply pair_eq; lia. }
    unfold n. rewrite length_0; [apply (walk_stay m _ ch G)|apply (start_good B)|].
    rewrite (b_width _ _ _ _ _ _ _ _ B), (b_height _ _ _ _ _ _ _ _ B). apply inside_canonical; auto.
  - assert (v_id V = V5 \/ v_id V = V248) as V48 by auto.
    destruct K as [K|[K|[[-> ->]|[Kw Kh]]]]; try discriminate.
    + assert (board_origin (v_id V) 8 8 (0, 0)) as O.
      { rewrite VE. split; [split; exists 0; reflexivity|]. unfold board_fits, inside. cbn. lia. }
      destruct (layout_exists (v_id V) 8 8 (b_sup _ _ _ _ _ _ _ _ B)) as [eths L].
      assert (forall r ch, get_chip_at m (fst r) (snd r) = Some ch -> on_board r /\ r = spot (v_id V) 8 8 r (0, 0)) as OB.
      { intros r ch0 Gr. destruct (proj1 (built_present B _ _) (ex_intro _ ch0 Gr)) as [(e & d & k & P) _].
        apply (place_spot B eths) in P as (He & Hd & Q); auto.
        rewrite <- surjective_pairing in Q.
        apply (lay_origin _ _ _ _ L) in He. rewrite VE in He. destruct He as [_ [[F1 F2] [F3 F4]]].
        assert (~ (12 | 8)) as N8 by (intros [t T]; lia). specialize (F3 N8). specialize (F4 N8).
        destruct e as [ex ey]. cbn [fst snd] in *. assert (ex = 0) as -> by lia. assert (ey = 0) as -> by lia.
        assert (on_board d) as Od by (apply (board48 (v_id V) V48); apply expected_in; eauto).
        assert (spot (v_id V) 8 8 d (0, 0) = d) as Sd.
        { unfold spot. rewrite vadd_0. rewrite VE. destruct d. reflexivity. }
        rewrite Sd in Q. subst d. auto. }
      destruct (OB p ch G) as [Op Sp], (OB q ch' G') as [Oq Sq].
      unfold n. rewrite (b_kind _ _ _ _ _ _ _ _ B), VE.
      change (get_vector_length (machine_class V248 8 8) (m_width m) (m_height m) p q) with (nw_get_vector_length p q).
      rewrite Sp at 1. rewrite Sq at 2.
      apply (board_walk B V48); auto.
    + assert (exists links, route (m_kind m) (m_width m) (m_height m) p q links /\ Z.of_nat (List.length links) = n)
        as (links & R & N).
      { apply length_shortest; [apply (start_good B)| |];
          rewrite (b_width _ _ _ _ _ _ _ _ B), (b_height _ _ _ _ _ _ _ _ B); apply inside_canonical; auto. }
      rewrite <- N, Nat2Z.id. apply (route_walk B V48 Kw Kh); auto.
Qed.
Print Assumptions C64_distance_is_walked.

(** The hypothesis on the size is needed: the edge of several boards that do not wrap
    has notches, and the way around one can be longer than get_vector_length says. *)
Definition notch_cfg : config :=
  mkConfig None None None None None None false None None None None None None true.
Definition notch_version : version := mkVersion V5 18 100.

Definition leads_away (m : machine) (q : XY) (n : Z) (k : link) : bool :=
  n <=? get_vector_length (m_kind m) (m_width m) (m_height m) (l_destination_x k, l_destination_y k) q.

Lemma notch_facts :
  match virtual_machine notch_cfg notch_version 28 16 true with
  | Ok m => is_chip_at m 11 15 && is_chip_at m 20 15 &&
      (get_vector_length (m_kind m) (m_width m) (m_height m) (11, 15) (20, 15) =? 9) &&
      match get_chip_at m 11 15 with
      | Some ch => forallb (leads_away m (20, 15) 9) (router_links (c_router ch))
      | None => false
      end
  | Err _ => false
  end = true.
Proof. vm_compute. reflexivity. Qed.

Theorem C64_distance_is_walked_everywhere_refuted :
  exists c V m p q,
    virtual_machine c V 28 16 true = Ok m /\
    parse_chips (cfg_down_chips c) = Ok [] /\ parse_links (cfg_down_links c) = Ok [] /\
    is_chip_at m (fst p) (snd p) = true /\ is_chip_at m (fst q) (snd q) = true /\
    get_vector_length (m_kind m) (m_width m) (m_height m) p q = 9 /\
    forall n, walk m p n q -> (10 <= n)%nat.
Proof.
  exists notch_cfg, notch_version.
  pose proof notch_facts as F.
  destruct (virtual_machine notch_cfg notch_version 28 16 true) as [m|e] eqn:E; [|discriminate].
  exists m, (11, 15), (20, 15).
  apply andb_true_iff in F as [F F4]. apply andb_true_iff in F as [F F3]. apply andb_true_iff in F as [F1 F2].
  destruct (get_chip_at m 11 15) as [ch|] eqn:G; [|discriminate].
  split; [auto|]. split; [reflexivity|]. split; [reflexivity|].
  split; [exact F1|]. split; [exact F2|]. split; [apply Z.eqb_eq; exact F3|].
  intros n W. inversion W as [? ? ? X1 X2|? ch' l k n' ? G' K W']; subst.
  change (get_chip_at m 11 15 = Some ch') in G'. assert (ch' = ch) as -> by congruence.
  rewrite forallb_forall in F4. unfold get_link in K.
  apply (dget_some_in Z.eqb Z.eqb_eq) in K.
  assert (leads_away m (20, 15) 9 k = true) as L.
  { apply F4. unfold router_links, dvalues. apply (in_map snd) in K. exact K. }
  unfold leads_away in L.
  pose proof (C64_no_shorter_way _ _ _ _ _ _ E _ _ _ W'). lia.
Qed.
Print Assumptions C64_distance_is_walked_everywhere_refuted.

Example C64_case :
  exists m, virtual_machine notch_cfg notch_version 12 24 true = Ok m /\
  parse_chips (cfg_down_chips notch_cfg) = Ok [] /\ parse_links (cfg_down_links notch_cfg) = Ok [] /\
  ((12 | 12) /\ (12 | 24)) /\
  is_chip_at m 0 0 = true /\ is_chip_at m 9 17 = true /\
  get_vector_length (m_kind m) (m_width m) (m_height m) (0, 0) (9, 17) = 7.
Proof.
  eexists.
  split; [vm_compute; reflexivity|]. split; [reflexivity|]. split; [reflexivity|].
  split; [split; [exists 1|exists 2]; reflexivity|].
  split; [vm_compute; reflexivity|]. split; vm_compute; reflexivity.
Qed.

(** ** C65 *)

(** A virtual machine with no chip and no link down is in one piece, whatever its
    version and size, and whichever cores are down. *)
Theorem C65_connected :
  forall c V w h check m,
    virtual_machine c V w h check = Ok m ->
    parse_chips (cfg_down_chips c) = Ok [] -> parse_links (cfg_down_links c) = Ok [] ->
    connected m.
Proof.
  intros c V w h b m E P1 P3. apply virtual_built in E as (dch & dco & dl & B & _).
  destruct (b_read _ _ _ _ _ _ _ _ B) as (R1 & R2 & R3).
  assert (dch = []) as -> by congruence. assert (dl = []) as -> by congruence. clear R1 R2 R3 P1 P3.
  pose proof (b_sup _ _ _ _ _ _ _ _ B) as S.
  destruct (v_id V) eqn:VE.
  2, 4: apply (connected48 B); auto.
  - destruct S as [-> ->]. intros p q Hp Hq.
    apply chip_there in Hp as [ch G], Hq as [ch' G'].
    pose proof (built_inside B _ _ _ G) as I. pose proof (built_inside B _ _ _ G') as J.
    rewrite <- surjective_pairing in I, J.
    eexists. apply (walk_four c V m dco VE B); auto.
  - destruct S as [-> ->]. intros p q Hp Hq.
    apply chip_there in Hp as [ch G], Hq as [ch' G'].
    pose proof (built_inside B _ _ _ G) as I. pose proof (built_inside B _ _ _ G') as J.
    rewrite <- surjective_pairing in I, J. exists 0%nat.
    assert (q = p) as ->.
    { destruct p, q, I as [I1 I2], J as [J1 J2]. cbn [fst snd] in *. apply pair_eq; lia. }
    apply (walk_stay m _ ch G).
Qed.
Print Assumptions C65_connected.

(** With chips down the machine can fall apart, and it is built and validated all the same. *)
Definition cut_cfg : config :=
  mkConfig None None None None None None false None (Some "1,0:1,1:0,1"%string) None None None None true.

Lemma cut_facts :
  match virtual_machine cut_cfg notch_version 8 8 true with
  | Ok m => is_ok (validate (v_id notch_version) m) && is_chip_at m 0 0 && is_chip_at m 2 2 &&
      match get_chip_at m 0 0 with
      | Some ch => match r_links (c_router ch) with [] => true | _ => false end
      | None => false
      end
  | Err _ => false
  end = true.
Proof. vm_compute. reflexivity. Qed.

Theorem C65_connected_with_faults_refuted :
  exists c V m, virtual_machine c V 8 8 true = Ok m /\ is_ok (validate (v_id V) m) = true /\ ~ connected m.
Proof.
  exists cut_cfg, notch_version. pose proof cut_facts as F.
  destruct (virtual_machine cut_cfg notch_version 8 8 true) as [m|e] eqn:E; [|discriminate].
  exists m. apply andb_true_iff in F as [F F4]. apply andb_true_iff in F as [F F3].
  apply andb_true_iff in F as [F1 F2]. split; [auto|]. split; [exact F1|].
  destruct (get_chip_at m 0 0) as [ch|] eqn:G; [|discriminate].
  intros C. destruct (C (0, 0) (2, 2) F2 F3) as [n W].
  inversion W as [? ? ? X1 X2|? ch' l k n' ? G' K W']; subst.
  change (get_chip_at m 0 0 = Some ch') in G'. assert (ch' = ch) as -> by congruence.
  unfold get_link in K. destruct (r_links (c_router ch)); discriminate.
Qed.
Print Assumptions C65_connected_with_faults_refuted.

Example C65_case :
  (exists m, virtual_machine notch_cfg notch_version 28 16 true = Ok m) /\
  parse_chips (cfg_down_chips notch_cfg) = Ok [] /\ parse_links (cfg_down_links notch_cfg) = Ok [].
Proof.
  split; [|split; reflexivity].
  destruct (virtual_machine notch_cfg notch_version 28 16 true) as [m|e] eqn:E; [eauto|].
  assert (is_ok (virtual_machine notch_cfg notch_version 28 16 true) = true) as K by (vm_compute; reflexivity).
  rewrite E in K. discriminate.
Qed.
