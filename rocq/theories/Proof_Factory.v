From Coq Require Import Lia.
From Verif Require Import Model_Py Model_Version Model_Str Model_Factory Spec_Board Spec_Version
  Spec_Factory Proof_Py Proof_Board Proof_Version.

Definition limited (c : config) (v : vid) : version :=
  mkVersion v (set_max_cores_per_chip c (default_max_cores v))
              (set_max_sdram_per_chip c (default_max_sdram v)).

Definition size_ok (c : config) (v : vid) : Prop :=
  (cfg_width c = None /\ cfg_height c = None) \/
   (exists w h, cfg_width c = Some w /\ cfg_height c = Some h /\ supported v w h).

Lemma new_version_cases c v :
  (new_version c v = Ok (limited c v) /\ size_ok c v) \/
  (new_version c v = Err MachineExc /\ ~ size_ok c v).
Proof.
  unfold new_version, verify_config_width_height, size_ok.
  destruct (cfg_width c) as [w|], (cfg_height c) as [h|].
  - destruct (verify_raises v (Some w) (Some h)) as [E|E]; rewrite E; cbn [bind].
    + left. split; auto. right. exists w, h. split; auto. split; auto. apply verify_supported; auto.
    + right. split; auto. intros [[X _]|(w' & h' & X & Y & S)]; [discriminate|].
      injection X as <-. injection Y as <-. apply verify_supported in S. congruence.
  - right. split; auto. intros [[X _]|(w' & h' & X & Y & S)]; discriminate.
  - right. split; auto. intros [[_ X]|(w' & h' & X & Y & S)]; discriminate.
  - left. split; auto.
Qed.

Lemma number_cases c n :
  (exists v, means n v /\ number_to_version c n = Ok (limited c v) /\ size_ok c v) \/
  (number_to_version c n = Err MachineExc /\ forall v, means n v -> ~ size_ok c v).
Proof.
  unfold number_to_version.
  assert (forall n v v', means n v -> means n v' -> v = v') as U.
  { intros k v v'. destruct v, v'; cbn; auto; intros [->| ->] || intros ->; lia. }
  assert (forall v, means n v ->
    (exists v, means n v /\ new_version c v = Ok (limited c v) /\ size_ok c v) /\
      new_version c v = Ok (limited c v) \/
    (new_version c v = Err MachineExc /\ forall v, means n v -> ~ size_ok c v)) as K.
  { intros v M. destruct (new_version_cases c v) as [[E S]|[E S]].
    - left. split; eauto.
    - right. split; auto. intros v' M'. rewrite (U n v' v M' M). auto. }
  destruct (Z.eqb_spec n 2) as [->|N2]; [|destruct (Z.eqb_spec n 3) as [->|N3]];
    cbn [orb]; try (destruct (K V3) as [[(v & M & E & S) E']|[E S]]; [cbn; lia| |]);
    try (left; exists V3; repeat split; [cbn; lia|exact E'|
         destruct (new_version_cases c V3) as [[_ ?]|[? _]]; [auto|congruence]]);
    try (right; split; auto; fail).
  destruct (Z.eqb_spec n 4) as [->|N4]; [|destruct (Z.eqb_spec n 5) as [->|N5]];
    cbn [orb]; try (destruct (K V5) as [[(v & M & E & S) E']|[E S]]; [cbn; lia| |]);
    try (left; exists V5; repeat split; [cbn; lia|exact E'|
         destruct (new_version_cases c V5) as [[_ ?]|[? _]]; [auto|congruence]]);
    try (right; split; auto; fail).
  destruct (Z.eqb_spec n 201) as [->|N201].
  { destruct (K V201) as [[(v & M & E & S) E']|[E S]]; [reflexivity| |right; auto].
    left; exists V201; repeat split; [exact E'|].
    destruct (new_version_cases c V201) as [[_ ?]|[? _]]; [auto|congruence]. }
  destruct (Z.eqb_spec n 248) as [->|N248].
  { destruct (K V248) as [[(v & M & E & S) E']|[E S]]; [reflexivity| |right; auto].
    left; exists V248; repeat split; [exact E'|].
    destruct (new_version_cases c V248) as [[_ ?]|[? _]]; [auto|congruence]. }
  right. split; auto. intros v M. exfalso. destruct v; cbn in M; lia.
Qed.

Lemma means_number v : means (v_number v) v.
Proof. destruct v; cbn; auto. Qed.

Lemma means_unique n v v' : means n v -> means n v' -> v = v'.
Proof. destruct v, v'; cbn; auto; intros [->| ->] || intros ->; lia. Qed.

(** ** Names of groups *)

Definition group_shortened (s : string) (options : list Z) : Prop :=
  exists text, In (text, options) VERSION_STRINGS /\ shorten s = shorten text.

Definition dropped (a : ascii) : bool := (Ascii.eqb a " " || Ascii.eqb a "-" || Ascii.eqb a "_")%char.

Lemma dropped_in a : dropped a = true <-> In a [" "; "-"; "_"]%char.
Proof.
  unfold dropped. rewrite !orb_true_iff, !Ascii.eqb_eq. cbn. intuition auto.
Qed.

Definition all_chars : list ascii := map ascii_of_nat (seq 0 256).
Lemma in_all_chars a : In a all_chars.
Proof.
  unfold all_chars. rewrite <- (ascii_nat_embedding a). apply in_map. apply in_seq.
  pose proof (nat_ascii_bounded a). lia.
Qed.

Lemma lower_dropped a : dropped (lower_char a) = dropped a.
Proof.
  assert (forallb (fun a => Bool.eqb (dropped (lower_char a)) (dropped a)) all_chars = true) as F by (vm_compute; reflexivity).
  rewrite forallb_forall in F. apply Bool.eqb_prop. apply F. apply in_all_chars.
Qed.

Lemma shorten_cons a s :
  shorten (String a s) = if dropped a then shorten s else String (lower_char a) (shorten s).
Proof.
  rewrite <- lower_dropped. unfold shorten, dropped. cbn [lower]. generalize (lower_char a), (lower s). clear a s. intros a s.
  cbn [remove_char]. destruct (Ascii.eqb a "_") eqn:E1; [rewrite !orb_true_r; reflexivity|].
  cbn [remove_char]. destruct (Ascii.eqb a "-") eqn:E2; [rewrite orb_true_r; reflexivity|].
  cbn [remove_char]. destruct (Ascii.eqb a " ") eqn:E3; reflexivity.
Qed.

Definition same_b (a b : ascii) : bool :=
  Ascii.eqb a b || existsb (fun n =>
    (Ascii.eqb a (ascii_of_nat (65 + n)) && Ascii.eqb b (ascii_of_nat (97 + n))) ||
    (Ascii.eqb b (ascii_of_nat (65 + n)) && Ascii.eqb a (ascii_of_nat (97 + n)))) (seq 0 26).

Lemma same_b_spec a b : same_b a b = true <-> same_letter a b.
Proof.
  unfold same_b, same_letter. rewrite orb_true_iff, Ascii.eqb_eq, existsb_exists. split.
  - intros [H|(n & I & H)]; [auto|]. right. exists n. apply in_seq in I. split; [lia|].
    rewrite orb_true_iff, !andb_true_iff, !Ascii.eqb_eq in H. exact H.
  - intros [H|(n & I & H)]; [auto|]. right. exists n. split; [apply in_seq; lia|].
    rewrite orb_true_iff, !andb_true_iff, !Ascii.eqb_eq. exact H.
Qed.

Lemma same_lower a b : same_letter a b <-> lower_char a = lower_char b.
Proof.
  split.
  - intros [->|(n & H & [[-> ->]|[-> ->]])]; [reflexivity| |];
      do 26 (destruct n as [|n]; [vm_compute; reflexivity|]); lia.
  - intros E. apply same_b_spec.
    assert (forallb (fun a => let c := lower_char a in forallb (fun b => if Ascii.eqb c (lower_char b) then same_b a b else true)
      all_chars) all_chars = true) as F by (vm_compute; reflexivity).
    rewrite forallb_forall in F. specialize (F a (in_all_chars a)). cbv zeta in F. rewrite forallb_forall in F.
    specialize (F b (in_all_chars b)). rewrite E, Ascii.eqb_refl in F. exact F.
Qed.

Lemma shorten_loosely s t : shorten s = shorten t <-> loosely s t.
Proof.
  split.
  - revert t. induction s as [|a s IH]; intros t E.
    + induction t as [|b t IHt]; [constructor|]. rewrite shorten_cons in E.
      destruct (dropped b) eqn:D; [|discriminate]. apply dropped_in in D. constructor; auto.
    + rewrite shorten_cons in E. destruct (dropped a) eqn:D.
      { apply dropped_in in D. apply loosely_left; auto. }
      induction t as [|b t IHt]; [discriminate|]. rewrite shorten_cons in E. destruct (dropped b) eqn:D'.
      * apply dropped_in in D'. apply loosely_right; auto.
      * injection E as E1 E2. apply loosely_both; [apply same_lower; auto|auto].
  - induction 1 as [|a s t H _ IH|b s t H _ IH|a b s t H _ IH]; [reflexivity| | |].
    + apply dropped_in in H. rewrite shorten_cons, H. exact IH.
    + apply dropped_in in H. rewrite shorten_cons, H. exact IH.
    + apply same_lower in H. rewrite !shorten_cons.
      assert (dropped a = dropped b) as -> by (rewrite <- (lower_dropped a), H; apply lower_dropped).
      destruct (dropped b); [exact IH|]. congruence.
Qed.

Lemma group_table :
  map (fun g => (shorten (fst g), map v_number (snd g))) named_groups =
  map (fun g => (shorten (fst g), snd g)) VERSION_STRINGS.
Proof. reflexivity. Qed.

Lemma group_named_iff s o : group_named s o <-> group_shortened s o.
Proof.
  split.
  - intros (t & vs & H & L & ->). apply shorten_loosely in L.
    apply (in_map (fun g => (shorten (fst g), map v_number (snd g)))) in H. rewrite group_table in H.
    apply in_map_iff in H as ([t' o'] & E & H). cbn [fst snd] in E. injection E as E1 E2. subst o'.
    exists t'. split; [exact H|congruence].
  - intros (t & H & E). apply (in_map (fun g => (shorten (fst g), snd g))) in H. rewrite <- group_table in H.
    apply in_map_iff in H as ([t' vs] & E' & H). cbn [fst snd] in E'. injection E' as E1 E2. subst o.
    exists t', vs. split; [exact H|]. split; [|reflexivity]. apply shorten_loosely. congruence.
Qed.

Lemma options_spec s :
  (exists o, options_from_string s = Ok o /\ group_named s o /\ o <> [] /\
     (forall n, In n o -> exists v, n = v_number v)) \/
  (options_from_string s = Err MachineExc /\ forall o, ~ group_named s o).
Proof.
  unfold options_from_string. destruct (find _ VERSION_STRINGS) as [[t o]|] eqn:F.
  - left. exists o. apply find_some in F as [H E]. apply String.eqb_eq in E.
    split; auto. split; [apply group_named_iff; exists t; auto|].
    assert (o <> [] /\ (forall n, In n o -> exists v, n = v_number v)); [|tauto].
    cbn in H. destruct H as [H|[H|[H|[H|[H|[]]]]]]; injection H as <- <-; (split; [discriminate|]);
      intros n Hn; cbn in Hn; decompose [or] Hn; try contradiction; subst;
      first [exists V3; reflexivity|exists V5; reflexivity|exists V201; reflexivity|exists V248; reflexivity].
  - right. split; auto. intros o G. apply group_named_iff in G as (t & H & E).
    pose proof (find_none _ _ F _ H) as X. cbn [fst] in X. rewrite E, String.eqb_refl in X. discriminate.
Qed.

Lemma group_unique s o o' : group_named s o -> group_named s o' -> o = o'.
Proof.
  intros G G'. apply group_named_iff in G as (t & H & E), G' as (t' & H' & E'). rewrite E in E'. clear E. cbn in H, H'.
  destruct H as [H|[H|[H|[H|[H|[]]]]]]; injection H as <- <-;
  destruct H' as [H'|[H'|[H'|[H'|[H'|[]]]]]]; injection H' as <- <-; auto; vm_compute in E';
  discriminate.
Qed.

Lemma nth_mod {A} (o : list A) minor : o <> [] ->
  exists a, nth_error o (Z.to_nat (minor mod Z.of_nat (List.length o))) = Some a /\
    py_index o (minor mod Z.of_nat (List.length o)) = Ok a /\ In a o.
Proof.
  intros N. assert (0 < Z.of_nat (List.length o)) as P by (destruct o; [congruence|cbn; lia]).
  pose proof (Z.mod_pos_bound minor _ P) as B. set (j := minor mod _) in *.
  destruct (nth_error o (Z.to_nat j)) as [a|] eqn:E.
  - exists a. split; auto. split; [|eapply nth_error_In; eauto]. unfold py_index.
    destruct (j <? 0) eqn:J; [lia|]. rewrite J. cbn [orb].
    destruct (Z.of_nat (List.length o) <=? j) eqn:K; [lia|]. rewrite E. auto.
  - apply nth_error_None in E. lia.
Qed.

(** What _get_cfg_version gives: the number selected by the cfg, if any. *)
Definition cfg_says (c : config) (minor : Z) (r : option Z) : Prop :=
  match r with
  | None => cfg_version c = None /\ cfg_versions c = None
  | Some n => (cfg_version c = Some n /\ cfg_versions c = None) \/
      (cfg_version c = None /\ exists s o v, cfg_versions c = Some s /\ group_named s o /\
         nth_error o (Z.to_nat (minor mod Z.of_nat (List.length o))) = Some n /\ n = v_number v)
  end.

Lemma cfg_version_cases c minor :
  (exists r, get_cfg_version c minor = Ok r /\ cfg_says c minor r) \/
  (get_cfg_version c minor = Err MachineExc /\ forall v, ~ consistent c minor v).
Proof.
  unfold get_cfg_version. destruct (cfg_versions c) as [s|] eqn:VS.
  - destruct (cfg_version c) as [n|] eqn:V.
    + right. split; auto. intros v (_ & [X|X] & _); congruence.
    + destruct (options_spec s) as [(o & E & G & N & A)|[E G]]; rewrite E; cbn [bind].
      * destruct (nth_mod o minor N) as (a & N1 & N2 & N3).
        assert (Z.of_nat (List.length o) =? 0 = false) as ->
          by (apply Z.eqb_neq; destruct o; [congruence|cbn; lia]).
        rewrite N2. cbn [bind]. left. exists (Some a). split; auto. cbn. right. split; auto.
        destruct (A a N3) as [v ->]. exists s, o, v. auto.
      * right. split; auto. intros v (_ & _ & X & _). destruct (X s VS) as (o & Y & _).
        exact (G o Y).
  - left. exists (cfg_version c). split; auto. unfold cfg_says.
    destruct (cfg_version c); auto.
Qed.

Lemma url_cases c :
  (exists r, get_url_version c = Ok r /\ at_most_one_source c /\
     match r with
     | None => cfg_spalloc_server c = None /\ cfg_remote_spinnaker_url c = None
     | Some n => n = 5 /\ (cfg_spalloc_server c <> None \/ cfg_remote_spinnaker_url c <> None)
     end) \/
  (get_url_version c = Err MachineExc /\ ~ at_most_one_source c).
Proof.
  unfold get_url_version, at_most_one_source.
  destruct (cfg_spalloc_server c), (cfg_remote_spinnaker_url c), (cfg_machine_name c),
    (cfg_virtual_board c); cbn;
  first [right; split; [reflexivity|lia] |
         left; eexists; split; [reflexivity|]; split; [lia|]; auto; split; auto;
         first [left; discriminate|right; discriminate]].
Qed.

Lemma size_cases c :
  (get_size_version c = Ok None /\ cfg_width c = None /\ cfg_height c = None) \/
  (exists w h v, get_size_version c = Ok (Some (v_number v)) /\ v <> V248 /\
     cfg_width c = Some w /\ cfg_height c = Some h /\
     (forall v', v' <> V248 -> supported v' w h -> v' = v)) \/
  (get_size_version c = Err MachineExc /\ forall v, ~ size_ok c v).
Proof.
  unfold get_size_version, size_ok. destruct (cfg_height c) as [h|], (cfg_width c) as [w|].
  - right. left.
    destruct ((h =? w) && (w =? 2))%bool eqn:E2; [|destruct ((h =? w) && (w =? 1))%bool eqn:E1].
    + exists w, h, V3. repeat split; try discriminate. apply andb_true_iff in E2 as [A B].
      intros v' N S. destruct v'; auto; try congruence; exfalso; cbn in S.
      * destruct S as [S|S]; lia.
      * lia.
    + exists w, h, V201. repeat split; try discriminate. apply andb_true_iff in E1 as [A B].
      intros v' N S. destruct v'; auto; try congruence; exfalso; cbn in S.
      * lia.
      * destruct S as [S|S]; lia.
    + exists w, h, V5. repeat split; try discriminate. intros v' N S.
      destruct v'; auto; try congruence; exfalso; cbn in S.
      * apply andb_false_iff in E2. lia.
      * apply andb_false_iff in E1. lia.
  - right. right. split; auto. intros v [[X Y]|(w' & h' & X & Y & _)]; discriminate.
  - right. right. split; auto. intros v [[X Y]|(w' & h' & X & Y & _)]; discriminate.
  - left. auto.
Qed.

Lemma vid_eqb_eq a b : vid_eqb a b = true <-> a = b.
Proof. destruct a, b; cbn; split; congruence. Qed.
