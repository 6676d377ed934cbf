(** C18: version_factory. *)
From Coq Require Import Lia.
From Verif Require Import Model_Py Model_Version Model_Str Model_Factory Spec_Board Spec_Version
  Spec_Factory Proof_Board Proof_Version Proof_Factory.
Open Scope Z_scope.

Lemma consistent_says c minor r v : cfg_says c minor r -> consistent c minor v ->
  match r with None => True | Some n => means n v end.
Proof.
  intros S (C1 & C2 & C3 & _). destruct r as [n|]; auto.
  destruct S as [[S _]|(S & s & o & v' & S1 & S2 & S3 & ->)]; [auto|].
  destruct (C3 s S1) as (o' & G & X). rewrite (group_unique s o o' S2 G) in S3.
  assert (v_number v = v_number v') as E by congruence. rewrite <- E. apply means_number.
Qed.

(** Whatever the version from the cfg and from the urls is, [v] fits both. *)
Definition fits (r : option Z) (v : vid) : Prop :=
  match r with None => True | Some n => means n v end.

Lemma says_consistent c minor r u v : cfg_says c minor r -> fits r v ->
  (u = None -> cfg_spalloc_server c = None /\ cfg_remote_spinnaker_url c = None) -> fits u v ->
  (forall n, u = Some n -> n = 5 /\
     (cfg_spalloc_server c <> None \/ cfg_remote_spinnaker_url c <> None)) ->
  size_ok c v -> at_most_one_source c ->
  (r <> None \/ u <> None \/ cfg_width c <> None) -> consistent c minor v.
Proof.
  intros S F U1 F2 U2 SZ M A. unfold consistent.
  split; [|split; [|split; [|split; [|split; [|split]]]]].
  - intros n E. destruct r as [n'|]; [|destruct S; congruence].
    destruct S as [[S1 S2]|(S1 & _)]; [|congruence]. cbn in F. congruence.
  - destruct r as [n'|]; [destruct S as [[S1 S2]|(S1 & _)]; auto|destruct S; auto].
  - intros s E. destruct r as [n'|]; [|destruct S; congruence].
    destruct S as [[S1 S2]|(S1 & s' & o & v' & E' & G & N & ->)]; [congruence|].
    assert (s' = s) by congruence. subst s'. exists o. split; auto.
    cbn in F. rewrite (means_unique _ _ _ F (means_number v')). auto.
  - intros X. destruct u as [n|]; [|destruct (U1 eq_refl); tauto].
    destruct (U2 n eq_refl) as [-> _]. cbn in F2. apply (means_unique 5); auto. cbn. auto.
  - exact SZ.
  - exact M.
  - destruct A as [A|[A|A]]; auto 6.
    + destruct r as [n|]; [|congruence]. destruct S as [[S _]|(_ & s & _ & _ & S & _)].
      * left. congruence.
      * right. left. congruence.
    + destruct u as [n|]; [|congruence]. destruct (U2 n eq_refl) as [_ [X|X]]; auto 6.
Qed.

Lemma new_version_size c v V : new_version c v = Ok V -> size_ok c v /\ V = limited c v.
Proof.
  destruct (new_version_cases c v) as [[E S]|[E S]]; rewrite E; intros X; [|discriminate].
  apply Ok_inj in X. auto.
Qed.

Lemma factory_spec c minor :
  match version_factory c minor with
  | Ok V => consistent c minor (v_id V) /\ V = limited c (v_id V) /\
            ~ (v_id V = V248 /\ cfg_width c <> None)
  | Err e => e = MachineExc /\ forall v, consistent c minor v -> v = V248 /\ cfg_width c <> None
  end.
Proof.
  unfold version_factory.
  destruct (cfg_version_cases c minor) as [(r & E & S)|[E N]]; rewrite E; cbn [bind];
    [|split; auto; intros v C; destruct (N v C)].
  destruct (url_cases c) as [(u & E1 & M & U)|[E1 M]]; rewrite E1; cbn [bind];
    [|split; auto; intros v C; exfalso; apply M; apply C].
  assert (forall v, consistent c minor v -> fits r v /\ fits u v /\ size_ok c v) as K.
  { intros v C. split; [apply (consistent_says c minor r v S C)|]. split.
    - destruct u as [n|]; cbn; auto. destruct U as [-> U].
      destruct C as (_ & _ & _ & C & _). rewrite (C U). cbn. auto.
    - apply C. }
  assert (forall v, fits r v -> fits u v -> size_ok c v ->
    (r <> None \/ u <> None \/ cfg_width c <> None) -> consistent c minor v) as B.
  { intros v F F2 SZ A. apply says_consistent with (r := r) (u := u); auto.
    - intros ->. auto.
    - intros n ->. auto. }
  destruct (size_cases c) as [(E2 & W & H)|[(w & h & sv & E2 & NV & W & H & SV)|[E2 N2]]];
    rewrite E2; cbn [bind].
  3: { split; auto. intros v C. exfalso. apply (N2 v). apply K; auto. }
  - (* no size *)
    destruct r as [n|], u as [u|].
    + destruct (number_cases c n) as [(v & F & X & SZ)|[X NX]]; rewrite X; cbn [bind].
      2: { split; auto. intros v C. destruct (NX v); apply (K v C). }
      destruct (number_cases c u) as [(v' & F' & X' & SZ')|[X' NX]]; rewrite X'; cbn [bind].
      2: { split; auto. intros v2 C. destruct (NX v2); apply (K v2 C). }
      destruct (vid_eqb (v_id (limited c v)) (v_id (limited c v'))) eqn:Q; cbn [bind].
      * apply vid_eqb_eq in Q. cbn in Q. subst v'. cbn. split; [apply B; auto; left; discriminate|].
        split; auto. rewrite W. tauto.
      * split; auto. intros v2 C. exfalso. destruct (K v2 C) as (A1 & A2 & _). cbn in A1, A2.
        rewrite (means_unique _ _ _ F A1), (means_unique _ _ _ F' A2) in Q. cbn in Q.
        assert (vid_eqb v2 v2 = true) by (apply vid_eqb_eq; auto). congruence.
    + destruct (number_cases c n) as [(v & F & X & SZ)|[X NX]]; rewrite X; cbn [bind].
      * cbn. split; [apply B; cbn; auto; left; discriminate|]. split; auto. rewrite W. tauto.
      * split; auto. intros v C. destruct (NX v); apply (K v C).
    + destruct (number_cases c u) as [(v & F & X & SZ)|[X NX]]; rewrite X; cbn [bind].
      * cbn. split; [apply B; cbn; auto; right; left; discriminate|]. split; auto. rewrite W. tauto.
      * split; auto. intros v C. destruct (NX v); apply (K v C).
    + split; auto. intros v C. exfalso. destruct S as [S1 S2], U as [U1 U2].
      destruct C as (_ & _ & _ & _ & _ & _ & C). rewrite S1, S2, U1, U2, W in C. tauto.
  - (* size *)
    assert (cfg_width c <> None) as WN by congruence.
    assert (forall v, size_ok c v -> v <> V248 -> v = sv) as SU.
    { intros v SZ NE. destruct SZ as [[SZ _]|(w' & h' & W' & H' & SP)]; [congruence|].
      rewrite W in W'. rewrite H in H'. injection W' as <-. injection H' as <-. auto. }
    assert (forall v, means (v_number sv) v -> v = sv) as SM
      by (intros v X; apply (means_unique _ _ _ X (means_number sv))).
    assert (forall x, x = limited c (v_id x) -> fits r (v_id x) -> fits u (v_id x) ->
      size_ok c (v_id x) ->
      (forall v, consistent c minor v -> v = v_id x) ->
      match (do sized <- number_to_version c (v_number sv);
             if vid_eqb (v_id x) (v_id sized) then Ok x else Err MachineExc) with
      | Ok V => consistent c minor (v_id V) /\ V = limited c (v_id V) /\
            ~ (v_id V = V248 /\ cfg_width c <> None)
      | Err e => e = MachineExc /\ forall v, consistent c minor v -> v = V248 /\ cfg_width c <> None
      end) as FIN.
    { intros x L FR FU SZ UN.
      destruct (number_cases c (v_number sv)) as [(v & F & X & SZ')|[X NX]]; rewrite X; cbn [bind].
      - apply SM in F. subst v. destruct (vid_eqb (v_id x) (v_id (limited c sv))) eqn:Q.
        + apply vid_eqb_eq in Q. cbn in Q. split; [apply B; auto|]. split; auto. intros [Q' _].
          congruence.
        + split; auto. intros v C. assert (v = v_id x) by auto. subst v. split; auto.
          destruct (v_id x) eqn:EX; auto; exfalso;
          (assert (v_id x = sv) as Y by (rewrite EX; apply SU; auto; discriminate));
          rewrite EX in Y; subst sv; discriminate.
      - split; auto. intros v C. assert (v = v_id x) by auto. subst v. split; auto.
        destruct (v_id x) eqn:EX; auto; exfalso;
        apply (NX sv); auto using means_number;
        (assert (v_id x = sv) as Y by (rewrite EX; apply SU; auto; discriminate));
        rewrite <- Y, EX; exact SZ. }
    destruct r as [n|], u as [u|].
    + destruct (number_cases c n) as [(v & F & X & SZ)|[X NX]]; rewrite X; cbn [bind].
      2: { split; auto. intros v C. destruct (NX v); apply (K v C). }
      destruct (number_cases c u) as [(v' & F' & X' & SZ')|[X' NX]]; rewrite X'; cbn [bind].
      2: { split; auto. intros v2 C. destruct (NX v2); apply (K v2 C). }
      destruct (vid_eqb (v_id (limited c v)) (v_id (limited c v'))) eqn:Q; cbn [bind].
      * apply vid_eqb_eq in Q. cbn in Q. subst v'. apply FIN; auto.
        intros v2 C. apply (means_unique n); auto. apply (K v2 C).
      * split; auto. intros v2 C. exfalso. destruct (K v2 C) as (A1 & A2 & _). cbn in A1, A2.
        rewrite (means_unique _ _ _ F A1), (means_unique _ _ _ F' A2) in Q. cbn in Q.
        assert (vid_eqb v2 v2 = true) by (apply vid_eqb_eq; auto). congruence.
    + destruct (number_cases c n) as [(v & F & X & SZ)|[X NX]]; rewrite X; cbn [bind].
      2: { split; auto. intros v C. destruct (NX v); apply (K v C). }
      apply FIN; cbn; auto. intros v2 C. apply (means_unique n); auto. apply (K v2 C).
    + destruct (number_cases c u) as [(v & F & X & SZ)|[X NX]]; rewrite X; cbn [bind].
      2: { split; auto. intros v C. destruct (NX v); apply (K v C). }
      apply FIN; cbn; auto. intros v2 C. apply (means_unique u); auto. apply (K v2 C).
    + destruct (number_cases c (v_number sv)) as [(v & F & X & SZ)|[X NX]]; rewrite X.
      * apply SM in F. subst v. cbn. split; [apply B; cbn; auto|]. split; auto. tauto.
      * split; auto. intros v C. destruct (K v C) as (_ & _ & SZ). split; auto.
        destruct v; auto; exfalso; apply (NX sv); auto using means_number;
        (rewrite <- (SU _ SZ) by discriminate); exact SZ.
Qed.

(** C18: a version is returned exactly when it agrees with every setting that says
    something about the version and at least one does - except that a 248 board
    is refused if a size is given. *)
Theorem C18_returned_version :
  forall c minor V,
    version_factory c minor = Ok V <->
    consistent c minor (v_id V) /\ new_version c (v_id V) = Ok V /\
    ~ (v_id V = V248 /\ cfg_width c <> None).
Proof.
  intros c minor V. pose proof (factory_spec c minor) as F. split.
  - intros E. rewrite E in F. destruct F as (F1 & F2 & F3). split; auto. split; auto.
    destruct (new_version_cases c (v_id V)) as [[X _]|[_ X]]; [congruence|].
    exfalso. apply X. apply F1.
  - intros (C & N & X). destruct (version_factory c minor) as [V'|e] eqn:E.
    + destruct F as (F1 & F2 & F3). apply new_version_size in N as [SZ N].
      assert (v_id V' = v_id V) as Q.
      { destruct (cfg_version_cases c minor) as [(r & _ & S)|[_ Y]]; [|destruct (Y _ C)].
        pose proof (consistent_says _ _ _ _ S C) as P1. pose proof (consistent_says _ _ _ _ S F1) as P2.
        destruct r as [n|]; [apply (means_unique n); auto|]. destruct S as [S1 S2].
        destruct C as (_ & _ & _ & C4 & C5 & _ & C7).
        destruct F1 as (_ & _ & _ & F4 & F5 & _ & _).
        destruct C7 as [Y|[Y|[Y|[Y|Y]]]]; try congruence; try (rewrite C4, F4 by auto; auto).
        destruct (size_cases c) as [(_ & W & _)|[(w & h & sv & _ & _ & W & H & SV)|[_ Z]]].
        - congruence.
        - destruct C5 as [[C5 _]|(w1 & h1 & W1 & H1 & SP1)]; [congruence|].
          destruct F5 as [[F5 _]|(w2 & h2 & W2 & H2 & SP2)]; [congruence|].
          rewrite W in W1, W2. rewrite H in H1, H2. injection W1 as <-. injection W2 as <-.
          injection H1 as <-. injection H2 as <-. rewrite (SV (v_id V)), (SV (v_id V')); auto.
        - exfalso. apply (Z (v_id V)). exact C5. }
      congruence.
    + destruct F as [_ F]. destruct (X (F _ C)).
Qed.
Print Assumptions C18_returned_version.

(** Otherwise SpinnMachineException, in particular on conflicting sources, when no
    setting says anything, and on only one of width and height. *)
Theorem C18_otherwise_raises :
  forall c minor e, version_factory c minor = Err e -> e = MachineExc.
Proof. intros c minor e E. pose proof (factory_spec c minor) as F. rewrite E in F. apply F. Qed.
Print Assumptions C18_otherwise_raises.

Theorem C18_conflicts_raise :
  forall c minor,
    ~ at_most_one_source c \/
    (cfg_version c <> None /\ cfg_versions c <> None) \/
    (cfg_width c = None <-> cfg_height c <> None) \/
    (cfg_version c = None /\ cfg_versions c = None /\ cfg_spalloc_server c = None /\
     cfg_remote_spinnaker_url c = None /\ cfg_width c = None /\ cfg_height c = None) ->
    version_factory c minor = Err MachineExc.
Proof.
  intros c minor H. destruct (version_factory c minor) as [V|e] eqn:E.
  - exfalso. apply C18_returned_version in E as ((C1 & C2 & C3 & C4 & C5 & C6 & C7) & _).
    destruct H as [H|[[H1 H2]|[H|(H1 & H2 & H3 & H4 & H5 & H6)]]].
    + auto.
    + destruct C2; auto.
    + destruct C5 as [[W S]|(w & h & W & S & _)]; rewrite W, S in H; destruct H as [H1 H2].
      * apply H1; auto.
      * assert (Some w = None) by (apply H2; discriminate). discriminate.
    + destruct C7 as [C7|[C7|[C7|[C7|C7]]]]; auto.
  - f_equal. eapply C18_otherwise_raises; eauto.
Qed.
Print Assumptions C18_conflicts_raise.

(** A 248 board with its own size in the cfg agrees with all settings but is refused. *)
Theorem C18_consistent_settings_accepted_refuted :
  let c := mkConfig (Some 248) None (Some 8) (Some 8) None None false None None None
             None None None true in
  consistent c 10 V248 /\ version_factory c 10 = Err MachineExc.
Proof.
  split; [|vm_compute; reflexivity]. unfold consistent. cbn [cfg_version cfg_versions
    cfg_spalloc_server cfg_remote_spinnaker_url cfg_width cfg_height supported].
  split; [intros n [= <-]; reflexivity|]. split; [auto|]. split; [discriminate|]. split; [tauto|].
  split; [|split].
  - right. exists 8, 8. split; [auto|]. split; [auto|]. left. auto.
  - apply Nat.leb_le. reflexivity.
  - left. discriminate.
Qed.

(** A text names a group in whatever case, with blanks, - and _ anywhere; every other
    text raises. *)
Theorem C18_names_of_groups :
  forall s,
    (forall options, options_from_string s = Ok options <-> group_named s options) /\
    ((forall options, ~ group_named s options) <-> options_from_string s = Err MachineExc).
Proof.
  intros s. destruct (options_spec s) as [(o & E & G & _)|[E N]]; rewrite E; split.
  - intros o'. split; [intros H; apply Ok_inj in H; subst; auto|]. intros G'. rewrite (group_unique s o o' G G'). reflexivity.
  - split; [intros N; destruct (N o G)|discriminate].
  - intros o'. split; [discriminate|]. intros G. destruct (N o' G).
  - tauto.
Qed.
Print Assumptions C18_names_of_groups.

(** The groups are what their names say: all versions, those with boards of four chips or
    more, of more than four, of 8 by 8, and with FPGA links. *)
Theorem C18_groups :
  options_from_string "any" = Ok (map v_number [V3; V5; V201; V248]) /\
  options_from_string "four plus" =
    Ok (map v_number (filter (fun v => 4 <=? n_chips_per_board v) [V3; V5; V201; V248])) /\
  options_from_string "big" =
    Ok (map v_number (filter (fun v => 4 <? n_chips_per_board v) [V3; V5; V201; V248])) /\
  options_from_string "eight by eigth" =
    Ok (map v_number (filter (fun v => xy_eqb (board_shape v) (8, 8)) [V3; V5; V201; V248])) /\
  options_from_string "with fpgas" =
    Ok (map v_number (filter (fun v => negb (Nat.eqb (List.length (fpga_links v)) 0)) [V3; V5; V201; V248])).
Proof. vm_compute. auto. Qed.
Print Assumptions C18_groups.

(** The name of the group of 8 by 8 boards has a typing error: the correct name raises. *)
Theorem C18_eight_by_eight_refuted :
  options_from_string "eight by eight" = Err MachineExc.
Proof. reflexivity. Qed.
Print Assumptions C18_eight_by_eight_refuted.

Example C18_names_case :
  loosely "FOUR_PLUS" "four plus" /\ options_from_string "FOUR_PLUS" = Ok [3; 5; 248] /\
  ~ loosely "five" "four plus".
Proof.
  split; [apply shorten_loosely; vm_compute; reflexivity|]. split; [reflexivity|].
  intros H. apply shorten_loosely in H. vm_compute in H. discriminate.
Qed.

Example C18_case :
  let c := mkConfig None (Some "B_i-G"%string) None None None None false None None None
             None (Some "server"%string) None false in
  consistent c 10 V5 /\ version_factory c 10 = new_version c V5 /\
  version_factory c 11 = Err MachineExc /\
  (exists V, new_version c V5 = Ok V).
Proof.
  split; [|vm_compute; eauto]. unfold consistent. cbn.
  split; [discriminate|]. split; [auto|]. split.
  { intros s [= <-]. exists [5; 248]. split; [|reflexivity].
    apply group_named_iff. exists "Big"%string. cbn. auto. }
  split; [auto|]. split; [auto|]. split; [apply Nat.leb_le; reflexivity|].
  right. left. discriminate.
Qed.
