(** C88: version_factory says why it refuses.  C89: what the limits make it log. *)
From Coq Require Import String Ascii Lia.
From Verif Require Import Model_Py Model_Version Model_Str Model_Factory Model_Virtual Model_Text Model_Repr
  Model_Identity Model_Told Spec_Board Spec_Version Spec_Factory Spec_Told Proof_Version Proof_Virtual Proof_Repr Prop_Factory.
Open Scope string_scope.
Open Scope list_scope.
Open Scope Z_scope.

(** ** The texts are told by the functions of Model_Factory and Model_Version *)
Lemma forget_bind {A B} (r : told A) (f : A -> told B) (g : res A) (h : A -> res B) :
  without_texts r = g -> (forall a, without_texts (f a) = h a) -> without_texts (tbind r f) = bind g h.
Proof.
  intros <- F. destruct r as [l [a|[e t]]]; unfold without_texts, tbind; cbn; auto.
  specialize (F a). unfold without_texts in F. destruct (f a) as [l' b]. cbn in *. auto.
Qed.

Lemma forget_verify v w h : without_texts (verify_size_told v w h) = verify_size v w h.
Proof.
  unfold verify_size_told, verify_size, verify_size_impl_told, verify_size_impl.
  destruct w as [w|], h as [h|]; try reflexivity.
  repeat match goal with |- context [if ?b then _ else _] => destruct b; try reflexivity end.
  all: destruct v; try reflexivity.
  all: repeat match goal with |- context [if ?b then _ else _] => destruct b; try reflexivity end.
Qed.

Lemma forget_new c v : without_texts (new_version_told c v) = new_version c v.
Proof.
  unfold new_version_told, new_version.
  apply forget_bind.
  - unfold verify_config_told, verify_config_width_height.
    destruct (cfg_width c), (cfg_height c); try reflexivity. apply forget_verify.
  - intros _. unfold set_max_cores_told, set_max_sdram_told, set_max_cores_per_chip, set_max_sdram_per_chip.
    destruct (cfg_max_machine_core c) as [m|], (cfg_max_sdram c) as [k|];
    repeat match goal with |- context [if ?b then _ else _] => destruct b end; reflexivity.
Qed.

Lemma forget_options s : without_texts (options_told s) = options_from_string s.
Proof. unfold options_told, options_from_string. destruct (find _ _); reflexivity. Qed.

Lemma forget_of_res {A} (r : res A) : without_texts (of_res r) = r.
Proof. destruct r; reflexivity. Qed.

Lemma bind_ret {A} (r : res A) : bind r (fun x => Ok x) = r.
Proof. destruct r; reflexivity. Qed.

Lemma forget_cfg c minor : without_texts (get_cfg_told c minor) = get_cfg_version c minor.
Proof.
  unfold get_cfg_told. rewrite <- (bind_ret (get_cfg_version c minor)). apply forget_bind.
  - unfold get_cfg_version. destruct (cfg_versions c) as [s|]; [|reflexivity].
    destruct (cfg_version c); [reflexivity|]. apply forget_bind; [apply forget_options|].
    intros o. cbv zeta. destruct (_ =? 0); [reflexivity|].
    apply forget_bind; [apply forget_of_res|reflexivity].
  - intros [n|]; reflexivity.
Qed.

Lemma forget_url c : without_texts (get_url_told c) = get_url_version c.
Proof.
  unfold get_url_told, get_url_version.
  repeat match goal with |- context [if ?b then _ else _] => destruct b; try reflexivity end.
Qed.

Lemma forget_size c : without_texts (get_size_told c) = get_size_version c.
Proof.
  unfold get_size_told, get_size_version. destruct (cfg_height c), (cfg_width c); try reflexivity.
  repeat match goal with |- context [if ?b then _ else _] => destruct b; try reflexivity end.
Qed.

Lemma forget_number c n : without_texts (number_told c n) = number_to_version c n.
Proof.
  unfold number_told, number_to_version.
  repeat match goal with |- context [if ?b then _ else _] => destruct b; try apply forget_new end.
  reflexivity.
Qed.

Lemma forget_factory c minor : without_texts (version_factory_told c minor) = version_factory c minor.
Proof.
  unfold version_factory_told, version_factory.
  apply forget_bind; [apply forget_cfg|]. intros a.
  apply forget_bind; [apply forget_url|]. intros u.
  apply forget_bind; [apply forget_size|]. intros s.
  apply forget_bind.
  - destruct a as [n|], u as [k|]; try reflexivity.
    + apply forget_bind; [apply forget_number|]. intros x.
      apply forget_bind; [apply forget_number|]. intros y.
      destruct (vid_eqb _ _); reflexivity.
    + apply forget_bind; [apply forget_number|]. reflexivity.
    + apply forget_bind; [apply forget_number|]. reflexivity.
  - intros v. destruct s as [k|], v as [x|]; try reflexivity.
    + apply forget_bind; [apply forget_number|]. intros y. destruct (vid_eqb _ _); reflexivity.
    + rewrite <- (forget_number c k). unfold tbind, tlog. destruct (number_told c k) as [l b]. reflexivity.
Qed.

(** ** The parts *)
Lemma wrong_unique v w h t t' : size_wrong v w h t -> size_wrong v w h t' -> t = t'.
Proof.
  intros A B; destruct A; destruct B; try reflexivity; exfalso;
    repeat match goal with H : _ \/ _ |- _ => destruct H | H : _ /\ _ |- _ => destruct H end; subst;
    try discriminate; try lia; try contradiction.
Qed.

Lemma divides4 n : n mod 4 = 0 <-> (4 | n).
Proof. split; [apply Z.mod_divide; lia|intros H; apply Z.mod_divide in H; lia]. Qed.

Lemma verify_told v w h :
  (exists t, size_wrong v w h t /\ verify_size_told v (Some w) (Some h) = ([], inr (MachineExc, t))) \/
  ((forall t, ~ size_wrong v w h t) /\ verify_size_told v (Some w) (Some h) = ([], inl tt)).
Proof.
  unfold verify_size_told.
  destruct (Z.leb_spec w 0) as [W|W].
  { left. eexists. split; [apply wrong_width; lia|reflexivity]. }
  destruct (Z.leb_spec h 0) as [H|H].
  { left. eexists. split; [apply wrong_height; lia|reflexivity]. }
  assert (Big : v = V5 \/ v = V248 \/ v = V3 \/ v = V201) by (destruct v; auto).
  assert (D48 : v = V5 \/ v = V248 ->
    verify_size_impl_told v w h = verify_size_impl_told V5 w h) by (intros [->| ->]; reflexivity).
  assert (no48 : v = V3 \/ v = V201 \/ v = V5 \/ v = V248) by (destruct v; auto).
  destruct no48 as [->|[->|B]].
  - unfold verify_size_impl_told. destruct (Z.eqb_spec w 2) as [->|N]; cbn [negb].
    + destruct (Z.eqb_spec h 2) as [->|N]; cbn [negb].
      * right. split; [|reflexivity]. intros t S. destruct S; intuition (try lia; try discriminate).
      * left. eexists. split; [apply wrong_height; auto|reflexivity].
    + left. eexists. split; [apply wrong_width; auto|reflexivity].
  - unfold verify_size_impl_told. destruct (Z.eqb_spec w 1) as [->|N]; cbn [negb].
    + destruct (Z.eqb_spec h 1) as [->|N]; cbn [negb].
      * right. split; [|reflexivity]. intros t S. destruct S; intuition (try lia; try discriminate).
      * left. eexists. split; [apply wrong_height; auto|reflexivity].
    + left. eexists. split; [apply wrong_width; auto|reflexivity].
  - rewrite (D48 B). unfold verify_size_impl_told.
    assert (Not3 : v <> V3 /\ v <> V201) by (destruct B; subst; split; discriminate).
    destruct (Z.leb_spec w 8) as [W8|W8].
    + destruct (Z.eqb_spec w 8) as [->|N8]; cbn [andb].
      * destruct (Z.eqb_spec h 8) as [->|M8].
        -- right. split; [|reflexivity]. intros t S.
           destruct S; intuition (try lia; try contradiction; try discriminate).
        -- left. eexists. split; [apply wrong_board; auto; lia|reflexivity].
      * left. eexists. split; [apply wrong_board; auto; lia|reflexivity].
    + destruct (Z.leb_spec h 8) as [H8|H8].
      { left. eexists. split; [apply wrong_board; auto; lia|reflexivity]. }
      destruct (Z.eqb_spec (w mod 4) 0) as [M|M]; cbn [negb].
      2: { left. eexists. split; [apply wrong_columns; auto; rewrite <- divides4; auto|reflexivity]. }
      destruct (Z.eqb_spec (h mod 4) 0) as [K|K]; cbn [negb].
      2: { left. eexists. split; [apply wrong_rows; auto; rewrite <- divides4; auto|reflexivity]. }
      right. split; [|reflexivity]. apply divides4 in M, K. intros t S.
      destruct S; intuition (try lia; try contradiction; try congruence).
Qed.

Lemma limits_told c v :
  exists V, v_id V = v /\
    (tell cores <- set_max_cores_told c v (default_max_cores v) ;
     tell sdram <- set_max_sdram_told c v (default_max_sdram v) ;
     tret (mkVersion v cores sdram)) = (limits_said c v, inl V).
Proof.
  unfold limits_said, set_max_cores_told, set_max_sdram_told, tbind, tlog, tret.
  generalize (default_max_cores v) (default_max_sdram v). intros a b.
  destruct (cfg_max_machine_core c) as [m|], (cfg_max_sdram c) as [k|];
    unfold Z.gtb, Z.ltb;
    repeat match goal with |- context [?x ?= ?y] => destruct (x ?= y) end;
    eexists; (split; [|cbn; reflexivity]); reflexivity.
Qed.

Lemma new_told_size c v w h : size c w h ->
  (exists t, size_wrong v w h t /\ new_version_told c v = ([], inr (MachineExc, t))) \/
  ((forall t, ~ size_wrong v w h t) /\ exists V, v_id V = v /\ new_version_told c v = (limits_said c v, inl V)).
Proof.
  intros [W H]. unfold new_version_told, verify_config_told. rewrite W, H.
  destruct (verify_told v w h) as [(t & S & E)|(S & E)]; rewrite E.
  - left. exists t. auto.
  - right. split; auto. destruct (limits_told c v) as (V & I & L). exists V. split; auto.
    unfold tbind at 1. rewrite L. reflexivity.
Qed.

Lemma new_told_plain c v : cfg_width c = None -> cfg_height c = None ->
  exists V, v_id V = v /\ new_version_told c v = (limits_said c v, inl V).
Proof.
  intros W H. unfold new_version_told, verify_config_told. rewrite W, H.
  destruct (limits_told c v) as (V & I & L). exists V. split; auto.
  unfold tbind at 1, tret at 1. rewrite L. reflexivity.
Qed.

Lemma means_unique n v v' : means n v -> means n v' -> v = v'.
Proof. destruct v, v'; cbn; intros; try reflexivity; lia. Qed.

Lemma number_cases c n :
  (exists v, means n v /\ number_told c n = new_version_told c v) \/
  ((forall v, ~ means n v) /\ number_told c n = traise (cat ["Unexpected cfg [Machine]version "; dec n])).
Proof.
  unfold number_told.
  destruct (Z.eqb_spec n 2); [left; exists V3; cbn; auto|].
  destruct (Z.eqb_spec n 3); [left; exists V3; cbn; auto|].
  destruct (Z.eqb_spec n 4); [left; exists V5; cbn; auto|].
  destruct (Z.eqb_spec n 5); [left; exists V5; cbn; auto|].
  destruct (Z.eqb_spec n 201); [left; exists V201; cbn; auto|].
  destruct (Z.eqb_spec n 248); [left; exists V248; cbn; auto|].
  right. split; [|reflexivity]. intros []; cbn; lia.
Qed.

Lemma groups_nonempty s o : group_named s o -> (0 < List.length o)%nat.
Proof.
  intros (t & vs & I & _ & ->). rewrite map_length.
  cbn in I. repeat destruct I as [I|I]; try (injection I as <- <-; cbn; lia). destruct I.
Qed.

Lemma group_unique s o o' : group_named s o -> group_named s o' -> o = o'.
Proof.
  intros A B. destruct (C18_names_of_groups s) as [F _].
  apply F in A. apply F in B. congruence.
Qed.

Lemma asks_unique c minor n n' : asks c minor n -> asks c minor n' -> n = n'.
Proof.
  intros [[A B]|(s & o & A & B & G & E)] [[A' B']|(s' & o' & A' & B' & G' & E')]; try congruence.
  assert (s' = s) by congruence. subst s'. rewrite (group_unique _ _ _ G' G) in E'. congruence.
Qed.

Definition no_version_warning : said :=
  Warning "The cfg has no version. This is deprecated! Please add a version".

Lemma py_index_nth {A} (l : list A) i : 0 <= i < Z.of_nat (List.length l) ->
  exists a, nth_error l (Z.to_nat i) = Some a /\ py_index l i = Ok a.
Proof.
  intros H. destruct (nth_error l (Z.to_nat i)) as [a|] eqn:E.
  - exists a. split; auto. unfold py_index. cbv zeta.
    replace (i <? 0) with false by (symmetry; apply Z.ltb_ge; lia). cbv iota.
    replace (i <? 0) with false by (symmetry; apply Z.ltb_ge; lia).
    replace (Z.of_nat (List.length l) <=? i) with false by (symmetry; apply Z.leb_gt; lia).
    cbn [orb]. rewrite E. reflexivity.
  - apply nth_error_None in E. lia.
Qed.

Lemma cfg_cases c minor :
  (exists n s, cfg_version c = Some n /\ cfg_versions c = Some s /\
     get_cfg_told c minor =
     ([], inr (MachineExc, cat ["Both version="; dec n; " and versions="; repr_str s; " found in cfg"]))) \/
  (exists s, cfg_version c = None /\ cfg_versions c = Some s /\ (forall o, ~ group_named s o) /\
     get_cfg_told c minor = ([], inr (MachineExc, cat ["No version for value="; repr_str s]))) \/
  (exists n, asks c minor n /\ get_cfg_told c minor = ([], inl (Some n))) \/
  (cfg_version c = None /\ cfg_versions c = None /\
   get_cfg_told c minor = ([no_version_warning], inl None)).
Proof.
  unfold get_cfg_told.
  destruct (cfg_versions c) as [s|] eqn:S.
  - destruct (cfg_version c) as [n|] eqn:N; [left; exists n, s; auto|]. right.
    destruct (C18_names_of_groups s) as [F G].
    pose proof (forget_options s) as O. unfold options_told in *.
    destruct (find _ _) as [[text options]|] eqn:Fd.
    + right. left. cbn in O. symmetry in O. apply F in O. pose proof (groups_nonempty _ _ O) as L.
      assert (M : 0 <= minor mod Z.of_nat (List.length options) < Z.of_nat (List.length options))
        by (apply Z.mod_pos_bound; lia).
      destruct (py_index_nth options _ M) as (n & E & P). exists n. split.
      { right. exists s, options. auto. }
      cbn [snd]. unfold tbind at 2, tret at 1. cbn [app].
      replace (Z.of_nat (List.length options) =? 0) with false by (symmetry; apply Z.eqb_neq; lia).
      rewrite P. reflexivity.
    + left. exists s. split; auto. split; auto. cbn in O. split; [apply G; auto|reflexivity].
  - right. right. destruct (cfg_version c) as [n|] eqn:N.
    + left. exists n. split; [left; auto|reflexivity].
    + right. auto.
Qed.

Lemma asks_number c minor n : asks c minor n -> has_number c = true.
Proof. unfold has_number. intros [[A B]|(s & o & A & B & _)]; rewrite A, B; reflexivity. Qed.

Lemma is_some_given {A} (o : option A) : is_some o = true <-> given o.
Proof. unfold given. destruct o; cbn; split; intros; try discriminate; try reflexivity; contradiction. Qed.
Lemma is_some_none {A} (o : option A) : is_some o = false <-> o = None.
Proof. destruct o; cbn; split; intros H; try discriminate H; reflexivity. Qed.

Lemma url_cases c :
  (exists r t, (r < 9)%nat /\ (3 <= r)%nat /\ (forall minor, reason c minor r t) /\
     (forall minor r' t', reason c minor r' t' -> (3 <= r')%nat -> (r <= r')%nat) /\
     get_url_told c = ([], inr (MachineExc, t))) \/
  ((forall minor r t, reason c minor r t -> (r < 3)%nat \/ (9 <= r)%nat) /\
   ((server c /\ has_server c = true /\ get_url_told c = ([], inl (Some 5))) \/
    (~ server c /\ has_server c = false /\ get_url_told c = ([], inl None)))).
Proof.
  assert (Low : forall minor r t (P : Prop), reason c minor r t -> (3 <= r)%nat -> (r < 9)%nat ->
    (given (cfg_spalloc_server c) -> given (cfg_remote_spinnaker_url c) -> r = 3%nat -> P) ->
    (given (cfg_spalloc_server c) -> given (cfg_machine_name c) -> r = 4%nat -> P) ->
    (given (cfg_spalloc_server c) -> cfg_virtual_board c = true -> r = 5%nat -> P) ->
    (given (cfg_remote_spinnaker_url c) -> given (cfg_machine_name c) -> r = 6%nat -> P) ->
    (given (cfg_remote_spinnaker_url c) -> cfg_virtual_board c = true -> r = 7%nat -> P) ->
    (given (cfg_machine_name c) -> cfg_virtual_board c = true -> r = 8%nat -> P) -> P).
  { intros minor r t P R A B. destruct R; intros; try lia; auto. }
  unfold get_url_told, server, has_server.
  destruct (is_some (cfg_spalloc_server c)) eqn:S; destruct (is_some (cfg_remote_spinnaker_url c)) eqn:U;
    destruct (is_some (cfg_machine_name c)) eqn:M; destruct (cfg_virtual_board c) eqn:B;
    rewrite ?is_some_given, ?is_some_none in *; cbn [orb].
  all: try (left; do 2 eexists; split; [|split; [|split; [intros minor; first
      [ apply spalloc_and_remote; assumption | apply spalloc_and_name; assumption
      | apply spalloc_and_virtual; assumption | apply remote_and_name; assumption
      | apply remote_and_virtual; assumption | apply name_and_virtual; assumption ]
      | split; [|reflexivity]]]]; [lia|lia|];
      intros minor r' t' R L; destruct (Nat.lt_ge_cases r' 9); [|lia];
      apply (Low minor r' t' _ R L); auto; intros; try lia; unfold given in *; congruence).
  all: right; split; [intros minor r t R; destruct (Nat.lt_ge_cases r 3); auto;
      destruct (Nat.lt_ge_cases r 9); auto; exfalso;
      apply (Low minor r t _ R); auto; intros; unfold given in *; congruence|].
  all: first [left; split; [auto|split; reflexivity]
             |right; split; [unfold given; intros [X|X]; congruence|split; reflexivity]].
Qed.

Lemma taken_unique w h v v' : taken_for w h v -> taken_for w h v' -> v = v'.
Proof. destruct v, v'; cbn; intros; try reflexivity; exfalso; try assumption; lia. Qed.

Lemma size_unique c w h w' h' : size c w h -> size c w' h' -> w' = w /\ h' = h.
Proof. intros [A B] [A' B']. rewrite A in A'. rewrite B in B'. split; congruence. Qed.

Lemma size_cases c minor :
  (exists t, reason c minor 9 t /\ get_size_told c = ([], inr (MachineExc, t))) \/
  ((forall t, ~ reason c minor 9 t) /\
   ((cfg_width c = None /\ cfg_height c = None /\ get_size_told c = ([], inl None)) \/
    (exists w h v s, size c w h /\ taken_for w h v /\ means s v /\ get_size_told c = ([], inl (Some s))))).
Proof.
  assert (Nine : forall r t, reason c minor r t -> r = 9%nat ->
    (given (cfg_width c) /\ cfg_height c = None) \/ (given (cfg_height c) /\ cfg_width c = None)).
  { intros r t R E. destruct R; try lia; auto. }
  unfold get_size_told. destruct (cfg_height c) as [h|] eqn:H; destruct (cfg_width c) as [w|] eqn:W.
  - right. split.
    { intros t R. destruct (Nine _ _ R eq_refl) as [[A B]|[A B]]; congruence. }
    right. exists w, h.
    destruct (Z.eqb_spec h w) as [->|N]; cbn [andb].
    + destruct (Z.eqb_spec w 2) as [->|]; [exists V3, 3; cbn; repeat split; auto|].
      destruct (Z.eqb_spec w 1) as [->|]; [exists V201, 201; cbn; repeat split; auto|].
      exists V5, 5. cbn. repeat split; auto; lia.
    + exists V5, 5. cbn. repeat split; auto; lia.
  - left. eexists. split; [apply height_alone; auto; unfold given; congruence|reflexivity].
  - left. eexists. split; [apply width_alone; auto; unfold given; congruence|reflexivity].
  - right. split; [|left; auto].
    intros t R. destruct (Nine _ _ R eq_refl) as [[A B]|[A B]]; unfold given in A; congruence.
Qed.

Definition account (c : config) (minor : Z) (r : told version) : Prop :=
  match r with
  | (l, inl V) => (forall r t, ~ reason c minor r t) /\ l = success_log c (v_id V)
  | (l, inr (e, t)) => e = MachineExc /\ first_reason c minor t
  end.

Lemma vid_eqb_spec a b : vid_eqb a b = true <-> a = b.
Proof. destruct a, b; cbn; split; intros H; try discriminate H; reflexivity. Qed.
Lemma vid_eqb_refl a : vid_eqb a a = true.
Proof. destruct a; reflexivity. Qed.
Lemma vid_eqb_neq a b : a <> b -> vid_eqb a b = false.
Proof. destruct a, b; intros H; try reflexivity; exfalso; apply H; reflexivity. Qed.

Lemma new_cases c v :
  (cfg_width c = None /\ cfg_height c = None) \/ (exists w h, size c w h) ->
  (exists w h t, size c w h /\ size_wrong v w h t /\ new_version_told c v = ([], inr (MachineExc, t))) \/
  ((forall w h t, size c w h -> ~ size_wrong v w h t) /\
   exists V, v_id V = v /\ new_version_told c v = (limits_said c v, inl V)).
Proof.
  intros [[W H]|(w & h & S)].
  - right. split; [|apply new_told_plain; auto]. intros w h t [A B]. congruence.
  - destruct (new_told_size c v w h S) as [(t & R & E)|[R E]].
    + left. exists w, h, t. auto.
    + right. split; [|auto]. intros w' h' t S'. destruct (size_unique _ _ _ _ _ S S') as [-> ->]. auto.
Qed.

Lemma number_of c n v : means n v -> number_told c n = new_version_told c v.
Proof.
  intros M. destruct (number_cases c n) as [(v' & M' & E)|[N _]].
  - rewrite (means_unique _ _ _ M M'). auto.
  - exfalso. apply (N v M).
Qed.

Lemma not_wrong v w h : (forall t, ~ size_wrong v w h t) <-> supported v w h.
Proof.
  rewrite <- verify_supported, <- forget_verify.
  destruct (verify_told v w h) as [(t & S & E)|[S E]]; rewrite E; cbn; split; intros H; auto.
  - exfalso. apply (H t S).
  - discriminate H.
Qed.

Lemma taken_supported v v' w h : supported v w h -> taken_for w h v' -> supported v' w h.
Proof.
  intros S T. destruct v'; cbn in T; auto; try contradiction.
  destruct v; cbn in S; auto; exfalso; lia.
Qed.

(** The number of the cfg, the server and the size, when each is well formed *)
Lemma account_rest c minor cfg_v url_v size_v l :
  (forall r t, reason c minor r t -> (10 <= r)%nat) ->
  match cfg_v with
  | Some n => asks c minor n /\ l = []
  | None => cfg_version c = None /\ cfg_versions c = None /\ l = [no_version_warning]
  end ->
  match url_v with
  | Some u => server c /\ has_server c = true /\ u = 5
  | None => ~ server c /\ has_server c = false
  end ->
  match size_v with
  | Some s => exists w h v, size c w h /\ taken_for w h v /\ means s v
  | None => cfg_width c = None /\ cfg_height c = None
  end ->
  account c minor
   (let '(l', r) :=
    (tell v <- match cfg_v with
          | None =>
              match url_v with
              | None => tret None
              | Some u => tell x <- number_told c u ; tret (Some x)
              end
          | Some n =>
              match url_v with
              | None => tell x <- number_told c n ; tret (Some x)
              | Some u =>
                  tell version_cfg <- number_told c n ;
                  tell version_url <- number_told c u ;
                  if vid_eqb (v_id version_cfg) (v_id version_url)
                  then tret (Some version_cfg) else version_error c "Incorrect version" cfg_v
              end
          end ;
     match size_v with
     | None => match v with None => version_error c "No version" None | Some x => tret x end
     | Some s =>
         match v with
         | None =>
             tell _ <- tlog [Warning "Please add a version to your cfg file."] ;
             number_told c s
         | Some x =>
             tell sized <- number_told c s ;
             if vid_eqb (v_id x) (v_id sized) then tret x
             else traise "cfg width and height do not match other cfg setting."
         end
     end) in (l ++ l', r)).
Proof.
  intros Low Cfg Url Size.
  assert (Z : (cfg_width c = None /\ cfg_height c = None) \/ (exists w h, size c w h)).
  { destruct size_v as [s|]; [|left; auto]. destruct Size as (w & h & v & S & _). right. eauto. }
  assert (HS : has_size c = match size_v with Some _ => true | None => false end).
  { unfold has_size. destruct size_v as [s|]; [|destruct Size as [-> _]; reflexivity].
    destruct Size as (w & h & v & [-> _] & _). reflexivity. }
  assert (SZ : forall s, size_v = Some s -> exists v V, means s v /\ v_id V = v /\
    (forall w h, size c w h -> taken_for w h v) /\
    ((exists w h t, size c w h /\ size_wrong v w h t /\ number_told c s = ([], inr (MachineExc, t))) \/
     ((forall w h t, size c w h -> ~ size_wrong v w h t) /\ number_told c s = (limits_said c v, inl V)))).
  { intros s ->. destruct Size as (w & h & v & S & T & M).
    rewrite (number_of c s v M).
    assert (TT : forall w h, size c w h -> taken_for w h v).
    { intros w' h' S'. destruct (size_unique _ _ _ _ _ S S') as [-> ->]. auto. }
    destruct (new_cases c v Z) as [(w' & h' & t & A & B & E)|[A (V & I & E)]].
    - exists v, (mkVersion v 0 0). repeat (split; [auto; fail|]). left. eauto 6.
    - exists v, V. repeat (split; [auto; fail|]). right. auto. }
  (* the end, once the settings other than the size agree on [v] *)
  assert (End : forall v V k l', v_id V = v -> means k v -> (asks c minor k \/ (server c /\ k = 5)) ->
    (forall w h t, size c w h -> ~ size_wrong v w h t) ->
    (forall n, asks c minor n -> means n v) -> (server c -> v = V5) ->
    l ++ l' ++ (if has_size c then limits_said c v else []) = success_log c v ->
    account c minor
      (let '(l1, r) :=
         (let '(l2, b) :=
            match size_v with
            | None => tret V
            | Some s =>
                tell sized <- number_told c s ;
                if vid_eqb (v_id V) (v_id sized) then tret V
                else traise "cfg width and height do not match other cfg setting."
            end in (l' ++ l2, b)) in (l ++ l1, r))).
  { intros v V k l' I M K Fine N5 S5 Log.
    assert (High : forall r t, reason c minor r t -> r = 15%nat /\
       exists w h v' n, size c w h /\ taken_for w h v' /\ (asks c minor n \/ (server c /\ n = 5)) /\ ~ means n v').
    { intros r t R. pose proof (Low r t R). destruct R; try lia.
      - exfalso. match goal with H : asks c minor ?n, X : forall v, ~ means ?n v |- _ => exact (X v (N5 n H)) end.
      - exfalso. match goal with H : asks c minor _ |- _ => apply N5 in H end.
        match goal with H : means ?n _, H' : means ?n _ |- _ => rewrite (means_unique _ _ _ H H') in * end.
        eapply Fine; eauto.
      - exfalso. match goal with H : server c |- _ => rewrite (S5 H) in Fine end. eapply Fine; eauto.
      - exfalso. match goal with H : server c |- _ => apply S5 in H end.
        match goal with H : asks c minor _ |- _ => apply N5 in H end. congruence.
      - exfalso. destruct K as [[[A B]|(x & y & A & B & _)]|[A _]]; try congruence; contradiction.
      - exfalso. destruct K as [[[A B]|(x & y & A & B & _)]|[A _]]; try congruence; contradiction.
      - split; auto. do 4 eexists. eauto. }
    assert (Sup : forall w h, size c w h -> supported v w h) by (intros; apply not_wrong; eauto).
    destruct size_v as [s|].
    - destruct (SZ s eq_refl) as (v' & V' & M' & I' & T & [(w & h & t & S & B & E)|[G E]]).
      + exfalso. apply (proj2 (not_wrong v' w h)) with t; auto. eapply taken_supported; eauto.
      + rewrite E. unfold tbind. destruct Size as (w & h & v1 & S & T1 & _).
        destruct (vid_eqb (v_id V) (v_id V')) eqn:Q.
        * apply vid_eqb_spec in Q. unfold tret. cbn -[limits_said success_log]. split.
          -- intros r t R. destruct (High r t R) as (_ & w1 & h1 & v2 & n & S1 & T2 & Ask & Bad).
             pose proof (T _ _ S1) as T3. rewrite (taken_unique _ _ _ _ T2 T3) in Bad.
             apply Bad. rewrite <- I', <- Q, I. destruct Ask as [Ask|[Srv ->]]; [auto|].
             rewrite (S5 Srv). cbn. auto.
          -- rewrite app_nil_r. rewrite I. rewrite <- Log, HS. repeat f_equal. congruence.
        * unfold traise. cbn -[limits_said success_log]. split; auto. exists 15%nat. split.
          -- eapply (size_of_another c minor w h v'); eauto. intros Mk.
             rewrite (means_unique _ _ _ M Mk) in I. rewrite I, I', vid_eqb_refl in Q. discriminate Q.
          -- intros r' t' R. destruct (High r' t' R) as [-> _]. auto.
    - unfold tret. cbn -[limits_said success_log]. split.
      + intros r t R. destruct (High r t R) as (_ & w & h & _ & _ & [W _] & _). destruct Size. congruence.
      + rewrite I, <- Log, HS. reflexivity. }
  destruct cfg_v as [n|].
  - destruct Cfg as [A ->].
    assert (AU : forall k, asks c minor k -> k = n) by (intros; eapply asks_unique; eauto).
    pose proof (asks_number _ _ _ A) as HN.
    destruct (number_cases c n) as [(v & M & N)|[N E]].
    2: { destruct url_v as [u|]; rewrite E; cbn; (split; [reflexivity|]);
         exists 10%nat; (split; [apply unknown_number; auto|exact Low]). }
    assert (Low11 : forall r t, reason c minor r t -> (11 <= r)%nat).
    { intros r t R. pose proof (Low r t R). destruct R; try lia.
      exfalso. match goal with H : asks c minor ?k, X : forall v, ~ means ?k v |- _ => rewrite (AU k H) in X; exact (X v M) end. }
    destruct (new_cases c v Z) as [(w & h & t & S & B & E)|[G (V & I & E)]].
    { destruct url_v as [u|]; rewrite N, E; cbn; (split; [reflexivity|]);
        exists 11%nat; (split; [eapply size_of_version; eauto|exact Low11]). }
    assert (Low12 : forall r t, reason c minor r t -> (12 <= r)%nat).
    { intros r t R. pose proof (Low11 r t R). destruct R; try lia.
      exfalso. match goal with H : asks c minor _ |- _ => apply AU in H; subst end.
      match goal with H : means n _, H' : means n _ |- _ => rewrite (means_unique _ _ _ H H') in * end.
      eapply G; eauto. }
    destruct url_v as [u|].
    + destruct Url as (Srv & HSrv & ->). rewrite N, (number_of c 5 V5) by (cbn; auto). rewrite E.
      destruct (new_cases c V5 Z) as [(w & h & t & S & B & E5)|[G5 (V' & I' & E5)]]; rewrite E5.
      { cbn. split; [reflexivity|]. exists 12%nat. split; [eapply size_of_server; eauto|exact Low12]. }
      assert (Low13 : forall r t, reason c minor r t -> (13 <= r)%nat).
      { intros r t R. pose proof (Low12 r t R). destruct R; try lia. exfalso. eapply G5; eauto. }
      cbn [tbind]. rewrite I, I'. destruct (vid_eqb v V5) eqn:Q.
      * apply vid_eqb_spec in Q.
        assert (M5 : means n V5) by (rewrite <- Q; exact M).
        specialize (End V5 V n (limits_said c V5 ++ limits_said c V5)).
        cbn [tbind tret app] in End |- *. rewrite app_nil_r. rewrite Q.
        apply End; auto.
        -- congruence.
        -- intros k Ak. apply AU in Ak. subst k. auto.
        -- unfold success_log. rewrite HN, HSrv. cbn [orb app]. rewrite <- app_assoc. reflexivity.
      * cbn. split; [reflexivity|]. exists 13%nat. split; [|exact Low13].
        apply version_of_server; auto. intros M5. rewrite (means_unique _ _ _ M M5) in Q. discriminate Q.
    + destruct Url as (NS & HSrv). rewrite N, E.
      specialize (End v V n (limits_said c v)). cbn [tbind tret app] in End |- *. rewrite app_nil_r.
      apply End; auto.
      -- intros k Ak. apply AU in Ak. subst k. auto.
      -- intros X. contradiction.
      -- unfold success_log. rewrite HN, HSrv. cbn [orb app]. reflexivity.
  - destruct Cfg as (N & NV & ->).
    assert (NA : forall k, ~ asks c minor k) by (intros k [[X _]|(x & y & _ & X & _)]; congruence).
    assert (HN : has_number c = false) by (unfold has_number; rewrite N, NV; reflexivity).
    destruct url_v as [u|].
    + destruct Url as (Srv & HSrv & ->). rewrite (number_of c 5 V5) by (cbn; auto).
      destruct (new_cases c V5 Z) as [(w & h & t & S & B & E5)|[G5 (V' & I' & E5)]]; rewrite E5.
      { cbn. split; [reflexivity|]. exists 12%nat. split; [eapply size_of_server; eauto|].
        intros r t' R. pose proof (Low r t' R). destruct R; try lia; exfalso; eapply NA; eauto. }
      specialize (End V5 V' 5 (limits_said c V5)). cbn [tbind tret] in End |- *. rewrite app_nil_r.
      apply End; auto.
      -- cbn. auto.
      -- intros k Ak. exfalso. eapply NA; eauto.
      -- unfold success_log. rewrite HN, HSrv. cbn [orb app]. reflexivity.
    + destruct Url as (NS & HSrv). cbn [tbind tret].
      assert (Low14 : forall r t, reason c minor r t -> (14 <= r)%nat).
      { intros r t R. pose proof (Low r t R). destruct R; try lia; exfalso; try (eapply NA; eauto; fail); contradiction. }
      destruct size_v as [s|].
      * assert (Low15 : forall r t, reason c minor r t -> (15 <= r)%nat).
        { intros r t R. pose proof (Low14 r t R). destruct R; try lia.
          destruct Size as (w1 & h1 & v1 & [WW HH] & _). congruence. }
        destruct (SZ s eq_refl) as (v' & V' & M' & I' & T & [(w & h & t & S & B & E)|[G E]]); rewrite E.
        -- cbn. split; [reflexivity|]. exists 15%nat. split; [|exact Low15]. eapply size_alone; eauto.
        -- cbn -[limits_said success_log]. split.
           ++ intros r t R. pose proof (Low15 r t R). destruct R; try lia.
              ** match goal with H1 : size c ?w ?h, H2 : taken_for ?w ?h ?v |- _ =>
                   rewrite (taken_unique _ _ _ _ H2 (T _ _ H1)) in * end. eapply G; eauto.
              ** match goal with H : _ \/ _ |- _ => destruct H as [X|[X _]] end;
                   [eapply NA; eauto|contradiction].
           ++ rewrite I'. unfold success_log. rewrite HN, HSrv, HS. reflexivity.
      * unfold version_error, traise. cbn -[cat]. split; [reflexivity|]. exists 14%nat. split; [|exact Low14].
        destruct Size as [W H].
        assert (SP : cfg_spalloc_server c = None /\ cfg_remote_spinnaker_url c = None).
        { unfold server, given in NS. destruct (cfg_spalloc_server c), (cfg_remote_spinnaker_url c); auto;
            exfalso; apply NS; [left|left|right]; discriminate. }
        destruct SP as [SP RP]. rewrite W, H, SP, RP.
        pose proof (nothing_given c minor N NV NS W H) as R. exact R.
Qed.

Theorem told_factory c minor : account c minor (version_factory_told c minor).
Proof.
  unfold version_factory_told.
  destruct (cfg_cases c minor) as [(n & s & N & S & E)|[(s & N & S & G & E)|C]].
  - rewrite E. cbn. split; [reflexivity|]. exists 1%nat. split; [apply both_version_and_versions; auto|].
    intros r t R. destruct R; lia.
  - rewrite E. cbn. split; [reflexivity|]. exists 2%nat. split; [apply unknown_group; auto|].
    intros r t R. destruct R; try lia. congruence.
  - assert (Low3 : forall r t, reason c minor r t -> (3 <= r)%nat).
    { intros r t R. destruct R; try lia; exfalso.
      - destruct C as [(k & [[A B]|(x & y & A & B & _)] & _)|(A & B & _)]; congruence.
      - destruct C as [(k & [[A B]|(x & y & A & B & G & _)] & _)|(A & B & _)]; try congruence.
        assert (x = s) by congruence. subst x. match goal with X : forall o, ~ group_named s o |- _ => exact (X y G) end. }
    assert (EX : exists cfg_v l, get_cfg_told c minor = (l, inl cfg_v) /\
       match cfg_v with
       | Some n => asks c minor n /\ l = []
       | None => cfg_version c = None /\ cfg_versions c = None /\ l = [no_version_warning]
       end).
    { destruct C as [(k & A & E)|(A & B & E)]; rewrite E; do 2 eexists; (split; [reflexivity|]); cbn; auto. }
    destruct EX as (cfg_v & l & E & Cfg). rewrite E. clear C.
    destruct (url_cases c) as [(r & t & R9 & R3 & R & F & U)|[F U]].
    { rewrite U. cbn. split; [reflexivity|]. exists r. split; auto. intros r' t' R'. eapply F; eauto. }
    assert (Low9 : forall r t, reason c minor r t -> (9 <= r)%nat).
    { intros r t R. destruct (F _ _ _ R); [|lia]. pose proof (Low3 _ _ R). lia. }
    assert (UX : exists url_v, get_url_told c = ([], inl url_v) /\
       match url_v with
       | Some u => server c /\ has_server c = true /\ u = 5
       | None => ~ server c /\ has_server c = false
       end).
    { destruct U as [(A & B & U)|(A & B & U)]; rewrite U; eexists; (split; [reflexivity|]); cbn; auto. }
    destruct UX as (url_v & -> & Url).
    destruct (size_cases c minor) as [(t & R & Z)|[Z S]].
    { rewrite Z. cbn. split; [reflexivity|]. exists 9%nat. split; auto. }
    assert (Low10 : forall r t, reason c minor r t -> (10 <= r)%nat).
    { intros r t R. pose proof (Low9 _ _ R). destruct (Nat.eq_dec r 9) as [->|]; [|lia]. exfalso. eapply Z; eauto. }
    assert (SX : exists size_v, get_size_told c = ([], inl size_v) /\
       match size_v with
       | Some s => exists w h v, size c w h /\ taken_for w h v /\ means s v
       | None => cfg_width c = None /\ cfg_height c = None
       end).
    { destruct S as [(A & B & S)|(w & h & v & s & A & B & D & S)]; rewrite S; eexists; (split; [reflexivity|]); cbn; eauto 6. }
    destruct SX as (size_v & -> & Size).
    pose proof (account_rest c minor cfg_v url_v size_v l Low10 Cfg Url Size) as Q.
    unfold tbind at 1. unfold tbind at 1. unfold tbind at 1. cbn [app].
    match goal with Q : account _ _ (let '(a, b) := ?X in _) |- account _ _ ?G =>
      destruct X as [l1 b]; exact Q end.
Qed.

Lemma reason_text c minor r t t' : reason c minor r t -> reason c minor r t' -> t = t'.
Proof.
  intros A B.
  destruct A; inversion B; subst; try reflexivity;
    repeat match goal with
    | H : asks c minor ?a, H' : asks c minor ?b |- _ =>
        assert_fails (constr_eq a b); pose proof (asks_unique _ _ _ _ H H'); subst
    | H : cfg_version c = Some ?a, H' : cfg_version c = Some ?b |- _ =>
        assert_fails (constr_eq a b); assert (a = b) by congruence; subst
    | H : cfg_versions c = Some ?a, H' : cfg_versions c = Some ?b |- _ =>
        assert_fails (constr_eq a b); assert (a = b) by congruence; subst
    | H : size c ?a ?b, H' : size c ?a' ?b' |- _ =>
        assert_fails (constr_eq a a'); destruct (size_unique _ _ _ _ _ H H') as [? ?]; subst
    | H : means ?n ?v, H' : means ?n ?v' |- _ =>
        assert_fails (constr_eq v v'); pose proof (means_unique _ _ _ H H'); subst
    | H : taken_for ?w ?h ?v, H' : taken_for ?w ?h ?v' |- _ =>
        assert_fails (constr_eq v v'); pose proof (taken_unique _ _ _ _ H H'); subst
    end; try reflexivity; try (eapply wrong_unique; eassumption); exfalso; unfold given in *; try congruence.
  all: match goal with
    | K : asks _ _ _ \/ _ |- _ => destruct K as [[[X Y]|(x & y & X & Y & _)]|[X _]]; try congruence; contradiction
    end.
Qed.

(** C88: every exception of version_factory has the text of the first reason that holds, and
    says nothing else; a version is returned exactly when no reason holds. *)
Theorem C88_refused_with_the_first_reason :
  forall c minor t,
    (exists log, version_factory_told c minor = (log, inr (MachineExc, t))) <-> first_reason c minor t.
Proof.
  intros c minor t. pose proof (told_factory c minor) as A.
  destruct (version_factory_told c minor) as [l [V|[e t0]]]; cbn in A.
  - destruct A as [A _]. split.
    + intros (log & H). discriminate H.
    + intros (r & R & _). exfalso. eapply A; eauto.
  - destruct A as [-> F]. split.
    + intros (log & H). injection H as _ <-. auto.
    + intros G. exists l. destruct F as (r & R & Rm), G as (r' & R' & Rm').
      pose proof (Rm _ _ R'). pose proof (Rm' _ _ R). assert (r' = r) by lia. subst r'.
      rewrite (reason_text _ _ _ _ _ R R'). reflexivity.
Qed.
Print Assumptions C88_refused_with_the_first_reason.

Theorem C88_accepted_without_a_reason :
  forall c minor,
    (exists log V, version_factory_told c minor = (log, inl V)) <-> (forall r t, ~ reason c minor r t).
Proof.
  intros c minor. pose proof (told_factory c minor) as A.
  destruct (version_factory_told c minor) as [l [V|[e t0]]]; cbn in A.
  - destruct A as [A _]. split; [auto|]. intros _. eauto.
  - destruct A as [-> (r & R & _)]. split.
    + intros (log & V & H). discriminate H.
    + intros N. exfalso. eapply N; eauto.
Qed.
Print Assumptions C88_accepted_without_a_reason.

(** It is the version_factory of C18, and the constructors of the versions, that say this. *)
Theorem C88_same_factory :
  (forall c minor, without_texts (version_factory_told c minor) = version_factory c minor) /\
  (forall c v, without_texts (new_version_told c v) = new_version c v) /\
  (forall v w h, without_texts (verify_size_told v w h) = verify_size v w h).
Proof. split; [|split]; intros; [apply forget_factory|apply forget_new|apply forget_verify]. Qed.
Print Assumptions C88_same_factory.

(** verify_size says which of width and height is wrong. *)
Theorem C88_size_text :
  forall v w h t,
    verify_size_told v (Some w) (Some h) = ([], inr (MachineExc, t)) <-> size_wrong v w h t.
Proof.
  intros v w h t. destruct (verify_told v w h) as [(t' & S & E)|[S E]]; rewrite E; split; intros H.
  - injection H as <-. auto.
  - rewrite (wrong_unique _ _ _ _ _ S H). reflexivity.
  - discriminate H.
  - exfalso. eapply S; eauto.
Qed.
Print Assumptions C88_size_text.

(** That a constructor names the setting that is missing is false: with only one of width and
    height the names are swapped.  version_factory never says this text. *)
Theorem C88_missing_setting_named_refuted :
  forall c v,
    (forall h, cfg_width c = None -> cfg_height c = Some h ->
       new_version_told c v = ([], inr (MachineExc, "the cfg has a [Machine]width None but a no height"))) /\
    (forall w, cfg_width c = Some w -> cfg_height c = None ->
       new_version_told c v =
       ([], inr (MachineExc, cat ["the cfg has a [Machine]height "; dec w; " but a no width"]))) /\
    (forall minor log e rest,
       version_factory_told c minor <> (log, inr (e, ("the cfg has a [Machine]" ++ rest)%string))).
Proof.
  intros c v. split; [|split].
  - intros h W H. unfold new_version_told, verify_config_told. rewrite W, H. reflexivity.
  - intros w W H. unfold new_version_told, verify_config_told. rewrite W, H. reflexivity.
  - intros minor log e rest E. pose proof (told_factory c minor) as A. rewrite E in A.
    destruct A as [_ (r & R & _)].
    assert (S : forall t v w h, size_wrong v w h t -> t <> ("the cfg has a [Machine]" ++ rest)%string).
    { intros t v0 w h W X. destruct W; cbn in X; discriminate X. }
    remember ("the cfg has a [Machine]" ++ rest)%string as text eqn:T.
    destruct R; try (cbn in T; discriminate T); try (eapply S; eauto; fail).
Qed.
Print Assumptions C88_missing_setting_named_refuted.

(** Settings that disagree, a group that does not exist, and nothing that gives a version. *)
Definition told_cfg (version : option Z) (versions : option string) (w h cores sdram : option Z)
  (spalloc name : option string) : config :=
  mkConfig version versions w h sdram cores false None None None None spalloc name false.
Example C88_case :
  (forall minor, first_reason (told_cfg (Some 3) None (Some 8) (Some 8) None None (Some "s'1") None) minor
     "Unexpected width=8") /\
  snd (version_factory_told (told_cfg (Some 3) None None None None None (Some "s'1") None) 10) =
  inr (MachineExc, "Incorrect version with cfg [Machine] values version=3, machine_name=None, spalloc_server=""s'1"", remote_spinnaker_url=None, virtual_board=False, width=None, and height=None") /\
  snd (version_factory_told (told_cfg None (Some "six") None None None None None None) 10) =
  inr (MachineExc, "No version for value='six'") /\
  snd (version_factory_told (told_cfg None None None None None None None (Some "SpiNNaker1M")) 10) =
  inr (MachineExc, "No version with cfg [Machine] values version=None, machine_name='SpiNNaker1M', spalloc_server=None, remote_spinnaker_url=None, virtual_board=False, width=None, and height=None") /\
  (exists log V, version_factory_told (told_cfg (Some 5) None (Some 8) (Some 8) None None None None) 10 = (log, inl V)).
Proof.
  split.
  - intros minor. apply C88_refused_with_the_first_reason. eexists. vm_compute. reflexivity.
  - split; [vm_compute; reflexivity|]. split; [vm_compute; reflexivity|]. split; [vm_compute; reflexivity|].
    eexists. eexists. vm_compute. reflexivity.
Qed.

(** ** C89 *)
(** C89: when a version is returned, the log says whether the cfg names no version, and tells the
    limits of the cfg once for each kind of setting that determines the version. *)
Theorem C89_log :
  forall c minor log V,
    version_factory_told c minor = (log, inl V) -> log = success_log c (v_id V).
Proof.
  intros c minor log V E. pose proof (told_factory c minor) as A. rewrite E in A. apply A.
Qed.
Print Assumptions C89_log.

Lemma new_told_fields c v log V : new_version_told c v = (log, inl V) ->
  log = limits_said c v /\ max_cores_per_chip V = set_max_cores_per_chip c (default_max_cores v) /\
  max_sdram_per_chip V = set_max_sdram_per_chip c (default_max_sdram v).
Proof.
  intros E. pose proof (forget_new c v) as F. rewrite E in F. cbn in F.
  assert (L : log = limits_said c v).
  { unfold new_version_told in E. destruct (limits_told c v) as (V' & _ & L). unfold tbind at 1 in E.
    rewrite L in E. unfold verify_config_told in E.
    destruct (cfg_width c) as [w|], (cfg_height c) as [h|]; cbn -[limits_said verify_size_told] in E; try discriminate E.
    - destruct (verify_told v w h) as [(t & _ & Q)|[_ Q]]; rewrite Q in E; cbn -[limits_said] in E.
      + discriminate E.
      + injection E as E _. symmetry. exact E.
    - injection E as E _. symmetry. exact E. }
  split; auto. unfold new_version in F.
  destruct (verify_config_width_height c v); [|discriminate F].
  cbn in F. injection F as ->. split; reflexivity.
Qed.

(** The warning about cores tells the number of cores that the version now has. *)
Theorem C89_cores_warning_is_right :
  forall c v log V n,
    new_version_told c v = (log, inl V) ->
    (In (Warning (cat ["Max cores per chip reduced to "; dec n;
                       " due to cfg setting [Machine]max_machine_core"])) log <->
     max_cores_per_chip V = n /\ n < default_max_cores v).
Proof.
  intros c v log V n E. destruct (new_told_fields _ _ _ _ E) as (-> & C & _). rewrite C.
  unfold limits_said, set_max_cores_per_chip. rewrite in_app_iff.
  assert (No : In (Warning (cat ["Max cores per chip reduced to "; dec n;
      " due to cfg setting [Machine]max_machine_core"]))
      match cfg_max_sdram c with
      | Some k => match k ?= default_max_sdram v with
                  | Eq => []
                  | Lt => [Warning (cat ["Max SDRAM per chip reduced to "; dec (default_max_sdram v);
                             " due to cfg setting [Machine]max_sdram_allowed_per_chip"])]
                  | Gt => [Info (cat ["Ignoring csg setting [Machine]max_sdram_allowed_per_chip "; dec k;
                             " as it is larger than "; dec (default_max_sdram v); " which is the default for a ";
                             version_name v; " board "])]
                  end
      | None => []
      end -> False).
  { destruct (cfg_max_sdram c) as [k|]; [|intros []].
    destruct (k ?= default_max_sdram v); cbn -[dec default_max_sdram]; try tauto; intros [X|[]]; discriminate X. }
  destruct (cfg_max_machine_core c) as [m|].
  - destruct (Z.compare_spec m (default_max_cores v)) as [X|X|X].
    + subst m. rewrite Z.ltb_irrefl. split; [|lia]. intros [[]|H]; [destruct (No H)].
    + replace (m <? default_max_cores v) with true by (symmetry; apply Z.ltb_lt; auto). split.
      * intros [[H|[]]|H]; [|destruct (No H)].
        assert (W : forall a b, Warning a = Warning b -> a = b) by (intros a b Q; injection Q; auto).
        apply W in H. clear W. unfold cat, fold_right in H. apply app_inj_l in H.
        apply dec_then in H; [|reflexivity|reflexivity]. destruct H as (-> & _). auto.
      * intros [-> _]. left. left. reflexivity.
    + replace (m <? default_max_cores v) with false by (symmetry; apply Z.ltb_ge; lia). split; [|lia].
      intros [[H|[]]|H]; [discriminate H|destruct (No H)].
  - split; [|lia]. intros [[]|H]; destruct (No H).
Qed.
Print Assumptions C89_cores_warning_is_right.

(** That the warning about SDRAM tells the SDRAM that a chip now has is false: it tells the
    SDRAM that the chip would have had. *)
Theorem C89_sdram_warning_is_right_refuted :
  forall c v log V n,
    new_version_told c v = (log, inl V) ->
    (In (Warning (cat ["Max SDRAM per chip reduced to "; dec n;
                       " due to cfg setting [Machine]max_sdram_allowed_per_chip"])) log <->
     n = default_max_sdram v /\ max_sdram_per_chip V < n).
Proof.
  intros c v log V n E. destruct (new_told_fields _ _ _ _ E) as (-> & _ & C). rewrite C.
  unfold limits_said, set_max_sdram_per_chip. rewrite in_app_iff.
  assert (No : In (Warning (cat ["Max SDRAM per chip reduced to "; dec n;
      " due to cfg setting [Machine]max_sdram_allowed_per_chip"]))
      match cfg_max_machine_core c with
      | Some k => match k ?= default_max_cores v with
                  | Eq => []
                  | Lt => [Warning (cat ["Max cores per chip reduced to "; dec k;
                             " due to cfg setting [Machine]max_machine_core"])]
                  | Gt => [Info (cat ["Ignoring csg setting [Machine]max_machine_core "; dec k;
                             " as it is larger than "; dec (default_max_cores v); " which is the default for a ";
                             version_name v; " board "])]
                  end
      | None => []
      end -> False).
  { destruct (cfg_max_machine_core c) as [k|]; [|intros []].
    destruct (k ?= default_max_cores v); cbn -[dec default_max_cores]; try tauto; intros [X|[]]; discriminate X. }
  generalize dependent (default_max_sdram v). intros d C.
  destruct (cfg_max_sdram c) as [m|].
  - destruct (Z.compare_spec m d) as [X|X|X].
    + subst m. rewrite Z.ltb_irrefl. split; [|lia]. intros [H|[]]; [destruct (No H)].
    + replace (m <? d) with true by (symmetry; apply Z.ltb_lt; auto). split.
      * intros [H|[H|[]]]; [destruct (No H)|].
        assert (W : forall a b, Warning a = Warning b -> a = b) by (intros a b Q; injection Q; auto).
        apply W in H. clear W. unfold cat, fold_right in H. apply app_inj_l in H.
        apply dec_then in H; [|reflexivity|reflexivity]. destruct H as (<- & _). auto.
      * intros [-> _]. right. left. reflexivity.
    + replace (m <? d) with false by (symmetry; apply Z.ltb_ge; lia). split; [|lia].
      intros [H|[H|[]]]; [destruct (No H)|discriminate H].
  - split; [|lia]. intros [H|[]]; destruct (No H).
Qed.
Print Assumptions C89_sdram_warning_is_right_refuted.

(** A version, a server and a size: the limits are told three times, and the warning has the
    old amount of SDRAM. *)
Example C89_case :
  exists V, max_sdram_per_chip V = 1000 /\ max_cores_per_chip V = 10 /\
  version_factory_told (told_cfg (Some 5) None (Some 8) (Some 8) (Some 10) (Some 1000) (Some "s") None) 10 =
  (let limits := [Warning "Max cores per chip reduced to 10 due to cfg setting [Machine]max_machine_core";
                  Warning "Max SDRAM per chip reduced to 123469792 due to cfg setting [Machine]max_sdram_allowed_per_chip"] in
   limits ++ limits ++ limits, inl V).
Proof. eexists. split; [|split; [|vm_compute; reflexivity]]; reflexivity. Qed.
