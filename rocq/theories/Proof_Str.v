From Coq Require Import Lia ZifyBool.
From Verif Require Import Model_Py Model_Version Model_Str Model_Ignore Spec_Str Proof_Py.
Open Scope string_scope.

(** ** Appending *)
Lemma app_nil_s s : s ++ "" = s.
Proof. induction s; cbn; congruence. Qed.

Lemma app_assoc_s a b c : (a ++ b) ++ c = a ++ b ++ c.
Proof. induction a; cbn; congruence. Qed.

Lemma every_app P a b : every P (a ++ b) <-> every P a /\ every P b.
Proof. induction a; cbn; tauto. Qed.

Lemma every_impl (P Q : ascii -> Prop) s : (forall c, P c -> Q c) -> every P s -> every Q s.
Proof. intros H. induction s; cbn; auto. intros [? ?]. auto. Qed.

Lemma app_empty a b : a ++ b = "" <-> a = "" /\ b = "".
Proof. destruct a; cbn; split; try tauto; try (intros [? ?]); congruence. Qed.

Lemma value_app a : forall acc b, value_from acc (a ++ b) = value_from (value_from acc a) b.
Proof. induction a as [|c a IH]; cbn; auto. Qed.

(** ** Characters *)
Lemma is_digit_spec c : is_digit c = true <-> digit_char c.
Proof. unfold is_digit, digit_char. rewrite andb_true_iff, !Nat.leb_le. tauto. Qed.

Lemma is_space_spec c : is_space c = true <-> space_char c.
Proof.
  unfold is_space, space_char. rewrite orb_true_iff, andb_true_iff, !Nat.leb_le, Nat.eqb_eq. tauto.
Qed.

Lemma digit_not_space c : digit_char c -> is_space c = false.
Proof.
  intros H. apply not_true_iff_false. rewrite is_space_spec.
  unfold space_char, digit_char in *. lia.
Qed.

Lemma all_digits_spec s : all_digits s = true <-> every digit_char s.
Proof.
  induction s as [|c s IH]; cbn; [tauto|]. rewrite andb_true_iff, is_digit_spec, IH. tauto.
Qed.

Lemma some_digits_spec s : some_digits s = true <-> s <> "" /\ every digit_char s.
Proof.
  unfold some_digits. destruct s as [|c s].
  - split; [discriminate|tauto].
  - rewrite all_digits_spec. split; [split; [discriminate|auto]|tauto].
Qed.

(** ** Stripping *)
Lemma rstrip_spaces s : every space_char s -> rstrip s = "".
Proof.
  induction s as [|c s IH]; cbn; auto. intros [H1 H2]. rewrite IH by auto.
  apply is_space_spec in H1. rewrite H1. reflexivity.
Qed.

Lemma rstrip_app s t : rstrip t <> "" -> rstrip (s ++ t) = s ++ rstrip t.
Proof.
  intros N. induction s as [|c s IH]; cbn; auto. rewrite IH.
  destruct (s ++ rstrip t) eqn:E; auto. apply app_empty in E. tauto.
Qed.

Lemma rstrip_app_spaces s t : every space_char t -> rstrip (s ++ t) = rstrip s.
Proof.
  intros H. induction s as [|c s IH]; cbn; [apply rstrip_spaces; auto|]. rewrite IH. auto.
Qed.

Lemma rstrip_solid s : every (fun c => is_space c = false) s -> rstrip s = s.
Proof.
  induction s as [|c s IH]; cbn; auto. intros [H1 H2]. rewrite IH by auto.
  destruct s; auto. rewrite H1. auto.
Qed.

Lemma rstrip_split s : exists t, s = rstrip s ++ t /\ every space_char t.
Proof.
  induction s as [|c s (t & E & H)]; [exists ""; cbn; auto|].
  cbn. destruct (rstrip s) as [|a r] eqn:R.
  - destruct (is_space c) eqn:S.
    + exists (String c s). split; auto. cbn. split; [apply is_space_spec; auto|].
      rewrite E. cbn. auto.
    + exists t. split; auto. cbn in *. congruence.
  - exists t. split; auto. cbn in *. congruence.
Qed.

Lemma lstrip_app s t : every space_char s -> lstrip (s ++ t) = lstrip t.
Proof.
  induction s as [|c s IH]; cbn; auto. intros [H1 H2]. apply is_space_spec in H1. rewrite H1. auto.
Qed.

Lemma lstrip_split s : exists t, s = t ++ lstrip s /\ every space_char t.
Proof.
  induction s as [|c s (t & E & H)]; [exists ""; cbn; auto|].
  cbn. destruct (is_space c) eqn:S.
  - exists (String c t). split; [cbn; congruence|]. cbn. split; auto. apply is_space_spec; auto.
  - exists "". cbn. auto.
Qed.

(** ** Digits *)
Lemma grouped_nonempty s u : grouped s u -> s <> "" /\ u <> "".
Proof.
  induction 1 as [|s t u N D H IH]; auto.
  split; intros E; apply app_empty in E; tauto.
Qed.

Lemma grouped_digits s u : grouped s u -> every digit_char u.
Proof. induction 1; auto. apply every_app. auto. Qed.

Lemma grouped_chars s u : grouped s u -> every (fun c => digit_char c \/ c = "_"%char) s.
Proof.
  induction 1 as [s N D|s t u N D H IH].
  - eapply every_impl; [|exact D]. auto.
  - apply every_app. split; [eapply every_impl; [|exact D]; auto|]. cbn. auto.
Qed.

Lemma grouped_cons c s u : digit_char c -> grouped s u -> grouped (String c s) (String c u).
Proof.
  intros H G. inversion G as [? N D|? t u' N D G'].
  - constructor; [discriminate|cbn; auto].
  - subst. change (String c (s0 ++ "_" ++ t)) with (String c s0 ++ "_" ++ t).
    change (String c (s0 ++ u')) with (String c s0 ++ u'). constructor; auto; [discriminate|cbn; auto].
Qed.

Lemma int_digits_spec s : forall acc n,
  (int_digits acc false s = Some n <-> exists u, grouped s u /\ n = value_from acc u) /\
  (int_digits acc true s = Some n <->
     (s = "" /\ n = acc) \/
     (exists u, grouped s u /\ n = value_from acc u) \/
     (exists t u, s = "_" ++ t /\ grouped t u /\ n = value_from acc u)).
Proof.
  induction s as [|c s IH]; intros acc n.
  - cbn. split; split.
    + discriminate.
    + intros (u & G & _). apply grouped_nonempty in G. tauto.
    + intros E. left. split; congruence.
    + intros [[_ ->]|[(u & G & _)|(t & u & E & _)]]; auto; [|discriminate].
      apply grouped_nonempty in G. tauto.
  - assert (forall acc, (is_digit c = true ->
      (int_digits (10 * acc + digit_value c) true s = Some n <->
       exists u, grouped (String c s) u /\ n = value_from acc u))) as KD.
    { intros a Hd. apply is_digit_spec in Hd.
      destruct (IH (10 * a + digit_value c)%Z n) as [_ IHt]. rewrite IHt. split.
      - intros [[-> ->]|[(u & G & ->)|(t & u & -> & G & ->)]].
        + exists (String c ""). split; [|reflexivity]. constructor; [discriminate|cbn; auto].
        + exists (String c u). split; [apply grouped_cons; auto|reflexivity].
        + exists (String c u). split; [|reflexivity].
          apply (MoreGroups (String c "") t u); auto; [discriminate|cbn; auto].
      - intros (u & G & ->). inversion G as [? N D|s1 t u' N D G' E1 E2].
        + subst. cbn [every] in D. destruct D as [_ D]. destruct s as [|c' s].
          * left. cbn. auto.
          * right. left. exists (String c' s). split; [|reflexivity].
            constructor; [discriminate|auto].
        + destruct s1 as [|c1 s1]; [congruence|]. cbn in E1. injection E1 as -> <-.
          subst u. destruct s1 as [|c2 s1].
          * right. right. exists t, u'. cbn. auto.
          * right. left. exists (String c2 s1 ++ u'). split; [|reflexivity].
            cbn [every] in D. constructor; [discriminate|cbn; tauto|auto]. }
    assert (forall u, grouped (String c s) u -> is_digit c = true) as KG.
    { intros u G. inversion G as [? N D|s1 t u' N D G' E1 E2].
      - cbn in D. apply is_digit_spec. tauto.
      - destruct s1 as [|c1 s1]; [congruence|]. cbn in E1. injection E1 as -> <-.
        cbn in D. apply is_digit_spec. tauto. }
    cbn [int_digits]. destruct (is_digit c) eqn:Hd; split.
    + apply KD; auto.
    + rewrite (KD acc eq_refl). split; [auto|].
      intros [[E _]|[H|(t & u & E & _)]]; auto; [discriminate|].
      cbn in E. injection E as -> _. discriminate.
    + rewrite andb_false_r. split; [discriminate|]. intros (u & G & _). apply KG in G. discriminate.
    + rewrite andb_true_r. destruct (Ascii.eqb_spec c "_") as [->|N].
      * destruct (IH acc n) as [IHf _]. rewrite IHf. split.
        -- intros (u & G & ->). right. right. exists s, u. auto.
        -- intros [[E _]|[(u & G & _)|(t & u & E & G & ->)]]; [discriminate| |].
           ++ apply KG in G. discriminate.
           ++ cbn in E. injection E as ->. eauto.
      * split; [discriminate|]. intros [[E _]|[(u & G & _)|(t & u & E & _)]]; [discriminate| |].
        -- apply KG in G. discriminate.
        -- cbn in E. injection E as -> _. congruence.
Qed.

Definition sign_split (s : string) : bool * string :=
  match s with
  | String "-" r => (true, r)
  | String "+" r => (false, r)
  | _ => (false, s)
  end.

Lemma py_int_unfold s : py_int s =
  let '(neg, body) := sign_split (lstrip (rstrip s)) in
  match int_digits 0 false body with
  | Some n => Ok (if neg then - n else n)%Z
  | None => Err ValueError
  end.
Proof. reflexivity. Qed.

Lemma sign_split_spec s : let '(neg, body) := sign_split s in
  (neg = true /\ s = "-" ++ body) \/ (neg = false /\ (s = body \/ s = "+" ++ body)).
Proof.
  destruct s as [|c s]; cbn; auto.
  destruct c as [[] [] [] [] [] [] [] []]; cbn; auto.
Qed.

Lemma sign_split_digit c r : digit_char c -> sign_split (String c r) = (false, String c r).
Proof.
  intros H. destruct c as [[] [] [] [] [] [] [] []]; cbn in *; auto; exfalso;
  unfold digit_char in H; cbn in H; lia.
Qed.

Theorem py_int_spec s z : py_int s = Ok z <-> int_text s z.
Proof.
  rewrite py_int_unfold. split.
  - destruct (rstrip_split s) as (after & E1 & H1).
    destruct (lstrip_split (rstrip s)) as (before & E2 & H2).
    pose proof (sign_split_spec (lstrip (rstrip s))) as SS.
    destruct (sign_split (lstrip (rstrip s))) as [neg body].
    destruct (int_digits 0 false body) as [n|] eqn:D; [|discriminate].
    intros E. injection E as E. destruct (int_digits_spec body 0%Z n) as [DS _].
    apply DS in D as (u & G & ->).
    assert (forall sg, lstrip (rstrip s) = sg ++ body ->
      s = before ++ sg ++ body ++ after) as KS.
    { intros sg X. rewrite X in E2. rewrite E1 at 1. rewrite E2. rewrite !app_assoc_s. reflexivity. }
    destruct SS as [[-> X]|[-> [X|X]]].
    + exists before, "-", body, u, after. repeat split; auto.
    + exists before, "", body, u, after. repeat split; auto.
    + exists before, "+", body, u, after. repeat split; auto.
  - intros (before & sg & body & u & after & -> & Hb & Ha & G & Hz).
    assert (every (fun c => is_space c = false) body) as SB.
    { eapply every_impl; [|apply (grouped_chars _ _ G)]. intros c [H| ->]; [|reflexivity].
      apply digit_not_space; auto. }
    assert (rstrip (before ++ sg ++ body ++ after) = before ++ sg ++ body) as ->.
    { rewrite <- !app_assoc_s. rewrite rstrip_app_spaces by auto. rewrite !app_assoc_s.
      rewrite <- (app_assoc_s before). rewrite rstrip_app; rewrite rstrip_solid by auto.
      - rewrite app_assoc_s. auto.
      - apply grouped_nonempty in G. tauto. }
    rewrite lstrip_app by auto.
    destruct (int_digits_spec body 0%Z (value_from 0 u)) as [DS _].
    assert (int_digits 0 false body = Some (value_from 0 u)) as D by (apply DS; eauto).
    destruct Hz as [[[->| ->] ->]|[-> ->]].
    + assert (exists c r, body = String c r /\ digit_char c) as (c & r & -> & Hc).
      { destruct body as [|c r]; [apply grouped_nonempty in G; tauto|]. exists c, r. split; auto.
        inversion G as [? N D'|s1 t u' N D' G' E1 E2].
        - cbn in D'. tauto.
        - destruct s1 as [|c1 s1]; [congruence|]. cbn in E1. injection E1 as -> <-.
          cbn in D'. tauto. }
      cbn [append]. cbn [lstrip]. rewrite (digit_not_space c Hc), (sign_split_digit c r Hc), D. auto.
    + cbn [append lstrip is_space]. change (is_space "+") with false. cbn iota.
      change (sign_split (String "+" body)) with (false, body). cbv beta iota. rewrite D. auto.
    + cbn [append lstrip is_space]. change (is_space "-") with false. cbn iota.
      change (sign_split (String "-" body)) with (true, body). cbv beta iota. rewrite D. auto.
Qed.

Lemma py_int_err s : (exists z, py_int s = Ok z) \/ py_int s = Err ValueError.
Proof.
  rewrite py_int_unfold. destruct (sign_split _) as [neg body].
  destruct (int_digits 0 false body); eauto.
Qed.

Lemma numeral_int s n : numeral s n -> py_int s = Ok n.
Proof.
  intros (N & D & ->). apply py_int_spec. exists "", "", s, s, "".
  repeat split; auto; cbn; auto.
  - rewrite app_nil_s. auto.
  - constructor; auto.
Qed.

Lemma neg_numeral_int s n : numeral s n -> py_int ("-" ++ s) = Ok (- n)%Z.
Proof.
  intros (N & D & ->). apply py_int_spec. exists "", "-", s, s, "".
  repeat split; auto; cbn; auto.
  - rewrite app_nil_s. auto.
  - constructor; auto.
Qed.

Lemma value_nonneg s : forall acc, (0 <= acc)%Z -> every digit_char s -> (0 <= value_from acc s)%Z.
Proof.
  induction s as [|c s IH]; cbn [value_from every]; auto. intros acc H [D E]. apply IH; auto.
  unfold digit_char in D. lia.
Qed.

Lemma int_text_chars s z : int_text s z ->
  every (fun c => c <> ","%char /\ c <> ":"%char) s.
Proof.
  intros (b & sg & body & u & a & -> & Hb & Ha & G & Hz).
  assert (forall c, space_char c -> c <> ","%char /\ c <> ":"%char) as KS.
  { intros c H. split; intros ->; unfold space_char in H; cbn in H; lia. }
  repeat rewrite every_app. repeat split.
  - eapply every_impl; [|exact Hb]. auto.
  - destruct Hz as [[[->| ->] _]|[-> _]]; cbn; repeat split; discriminate.
  - eapply every_impl; [|apply (grouped_chars _ _ G)]. intros c [H| ->].
    + split; intros ->; unfold digit_char in H; cbn in H; lia.
    + split; discriminate.
  - eapply every_impl; [|exact Ha]. auto.
Qed.

(** ** Splitting *)
Lemma split_nonempty c s : split_on c s <> [].
Proof.
  destruct s as [|a r]; cbn; [discriminate|]. destruct (Ascii.eqb a c); [discriminate|].
  destruct (split_on c r); discriminate.
Qed.

Lemma split_without c s : without c s -> split_on c s = [s].
Proof.
  unfold without. induction s as [|a r IH]; cbn; auto. intros [N H]. rewrite IH by auto.
  destruct (Ascii.eqb_spec a c); [congruence|]. auto.
Qed.

Lemma split_app c s t : without c s -> split_on c (s ++ String c t) = s :: split_on c t.
Proof.
  unfold without. induction s as [|a r IH]; cbn; intros H.
  - rewrite Ascii.eqb_refl. auto.
  - destruct H as [N H]. rewrite IH by auto. destruct (Ascii.eqb_spec a c); [congruence|]. auto.
Qed.

Lemma split_join c s : s = String.concat (String c "") (split_on c s) /\
  Forall (without c) (split_on c s).
Proof.
  unfold without. induction s as [|a r [IH1 IH2]]; cbn [split_on].
  - cbn. repeat constructor.
  - destruct (Ascii.eqb_spec a c) as [->|N].
    + split; [|constructor; [exact I|auto]].
      destruct (split_on c r) as [|h t] eqn:E; [apply split_nonempty in E; tauto|].
      change (String.concat (String c "") ("" :: h :: t))
        with ("" ++ String c "" ++ String.concat (String c "") (h :: t)).
      cbn [append]. congruence.
    + destruct (split_on c r) as [|h t] eqn:E; [apply split_nonempty in E; tauto|].
      inversion IH2 as [|? ? Hh Ht]. subst. split; [|constructor; auto; cbn; auto].
      destruct t as [|h' t]; cbn [String.concat append] in *; congruence.
Qed.

Lemma split_concat c l : l <> [] -> Forall (without c) l ->
  split_on c (String.concat (String c "") l) = l.
Proof.
  intros N F. induction F as [|s l Hs Hl IH]; [congruence|].
  destruct l as [|t l]; [apply split_without; auto|].
  change (String.concat (String c "") (s :: t :: l))
    with (s ++ String c (String.concat (String c "") (t :: l))).
  rewrite split_app by auto. f_equal. apply IH. discriminate.
Qed.

(** ** Cores *)
Lemma skip_dashes_spec s : exists d, s = d ++ skip_dashes s /\ every (fun c => c = "-"%char) d /\
  (forall r, skip_dashes s <> String "-" r).
Proof.
  induction s as [|c s (d & E & H & N)].
  - exists "". cbn. repeat split; auto. discriminate.
  - destruct (Ascii.eqb_spec c "-") as [->|X].
    + exists (String "-" d). cbn. repeat split; auto. congruence.
    + assert (skip_dashes (String c s) = String c s) as ->.
      { cbn. destruct c as [[] [] [] [] [] [] [] []]; auto. congruence. }
      exists "". cbn. repeat split; auto. intros r Y. congruence.
Qed.

Lemma skip_dashes_cons s : skip_dashes (String "-" s) = skip_dashes s.
Proof. reflexivity. Qed.

Lemma skip_dashes_digit c s : digit_char c -> skip_dashes (String c s) = String c s.
Proof.
  intros H. destruct c as [[] [] [] [] [] [] [] []]; auto.
  exfalso. unfold digit_char in H. cbn in H. lia.
Qed.

Lemma numeral_head s n : numeral s n -> exists c r, s = String c r /\ digit_char c.
Proof. intros (N & D & _). destruct s as [|c r]; [congruence|]. cbn in D. exists c, r. tauto. Qed.

Lemma core_single_numeral s n : numeral s n -> core_single s = true.
Proof.
  intros H. destruct (numeral_head s n H) as (c & r & -> & Hc). unfold core_single.
  rewrite skip_dashes_digit by auto. apply some_digits_spec. split; [discriminate|apply H].
Qed.

Lemma core_single_neg s n : numeral s n -> core_single ("-" ++ s) = true.
Proof. intros H. exact (core_single_numeral s n H). Qed.

Lemma span_app s c t : every digit_char s -> is_digit c = false ->
  span_digits (s ++ String c t) = (s, String c t).
Proof.
  intros H N. induction s as [|a s IH]; cbn.
  - rewrite N. auto.
  - cbn in H. destruct H as [Ha H]. apply is_digit_spec in Ha. rewrite Ha, IH by auto. auto.
Qed.

Lemma span_spec s : let '(a, b) := span_digits s in s = a ++ b /\ every digit_char a.
Proof.
  induction s as [|c s IH]; cbn; auto. destruct (is_digit c) eqn:D; [|cbn; auto].
  destruct (span_digits s) as [a b]. destruct IH as [-> H]. cbn. split; auto. split; auto.
  apply is_digit_spec; auto.
Qed.

Lemma core_range_spec s a b : core_range s = Some (a, b) <->
  s = a ++ "-" ++ b /\ (a <> "" /\ every digit_char a) /\ (b <> "" /\ every digit_char b).
Proof.
  unfold core_range. split.
  - pose proof (span_spec s) as SP. destruct (span_digits s) as [x rest]. destruct SP as [-> Hx].
    destruct x as [|c x]; [discriminate|]. destruct rest as [|k rest]; [discriminate|].
    destruct (Ascii.eqb_spec k "-") as [->|N].
    + destruct (some_digits rest) eqn:SD; [|discriminate]. intros E. injection E as <- <-.
      apply some_digits_spec in SD. split; auto. split; auto. split; auto. discriminate.
    + destruct k as [[] [] [] [] [] [] [] []]; try discriminate; congruence.
  - intros (-> & [N1 D1] & B). cbn [append]. rewrite span_app by auto.
    destruct a as [|c a]; [congruence|]. apply some_digits_spec in B. rewrite B. auto.
Qed.

Lemma range_not_single a b n m : numeral a n -> numeral b m -> core_single (a ++ "-" ++ b) = false.
Proof.
  intros Ha Hb. destruct (numeral_head a n Ha) as (c & r & -> & Hc). unfold core_single.
  cbn [append]. rewrite skip_dashes_digit by auto.
  apply not_true_iff_false. rewrite some_digits_spec. intros [_ H].
  change (String c (r ++ String "-" b)) with (String c r ++ String "-" b) in H.
  apply every_app in H as [_ H]. cbn in H. destruct H as [H _]. unfold digit_char in H. cbn in H. lia.
Qed.

Lemma core_field_parse v s ps : core_field s ps -> parse_cores_string v s = Ok ps.
Proof.
  intros [(n & H & ->)|[(t & n & H & -> & ->)|(a & b & lo & hi & Ha & Hb & -> & ->)]];
    unfold parse_cores_string.
  - rewrite (core_single_numeral s n H), (numeral_int s n H). auto.
  - rewrite (core_single_neg t n H), (neg_numeral_int t n H). auto.
  - rewrite (range_not_single a b lo hi Ha Hb).
    assert (core_range (a ++ "-" ++ b) = Some (a, b)) as ->.
    { apply core_range_spec. destruct Ha as (? & ? & _), Hb as (? & ? & _). auto. }
    rewrite (numeral_int a lo Ha), (numeral_int b hi Hb). auto.
Qed.

(** What CORE_SINGLE matches, parsed by int. *)
Lemma core_single_cases s : core_single s = true ->
  (exists n, numeral s n) \/ (exists t n, numeral t n /\ s = "-" ++ t) \/
  (exists t, s = "--" ++ t /\ py_int s = Err ValueError).
Proof.
  unfold core_single. intros H. destruct (skip_dashes_spec s) as (d & E & D & _).
  apply some_digits_spec in H. set (t := skip_dashes s) in *.
  assert (numeral t (value_from 0 t)) as NT by (split; [apply H|split; [apply H|auto]]).
  destruct d as [|c1 d].
  - left. exists (value_from 0 t). rewrite E. auto.
  - cbn in D. destruct D as [-> D]. destruct d as [|c2 d].
    + right. left. exists t, (value_from 0 t). auto.
    + cbn in D. destruct D as [-> D]. right. right. exists (d ++ t). split; auto.
      destruct (py_int_err s) as [[z P]|P]; auto. exfalso.
      apply py_int_spec in P as (b & sg & body & u & a & X & Hb & Ha & G & Hz).
      rewrite E in X. cbn in X. destruct b as [|cb b].
      * destruct Hz as [[[->| ->] _]|[-> _]]; cbn in X.
        -- pose proof (grouped_chars _ _ G) as GC. destruct body as [|cb body];
             [apply grouped_nonempty in G; tauto|]. cbn in X. injection X as <- _.
           cbn in GC. destruct GC as [[GC|GC] _]; [unfold digit_char in GC; cbn in GC; lia|discriminate].
        -- discriminate.
        -- injection X as X. pose proof (grouped_chars _ _ G) as GC. destruct body as [|cb body];
             [apply grouped_nonempty in G; tauto|]. cbn in X. injection X as <- _.
           cbn in GC. destruct GC as [[GC|GC] _]; [unfold digit_char in GC; cbn in GC; lia|discriminate].
      * cbn in X. injection X as <- _. cbn in Hb. destruct Hb as [Hb _].
        unfold space_char in Hb. cbn in Hb. lia.
Qed.

Lemma digit_numeral c : is_digit c = true -> numeral (String c "") (digit_value c).
Proof.
  intros H. apply is_digit_spec in H. split; [discriminate|]. split; [cbn; auto|].
  unfold digit_value. cbn. lia.
Qed.

Lemma core_quad_spec s x y p : core_quad s = Some (x, y, p) <->
  exists a b c, is_digit a = true /\ is_digit b = true /\ is_digit c = true /\
    s = String a ("." ++ String b ("." ++ String c "")) /\
    x = String a "" /\ y = String b "" /\ p = String c "".
Proof.
  split.
  - unfold core_quad. destruct s as [|a s]; [discriminate|].
    destruct s as [|d1 s]; [discriminate|].
    destruct (Ascii.eqb_spec d1 ".") as [->|N];
      [|destruct d1 as [[] [] [] [] [] [] [] []]; try discriminate; congruence].
    destruct s as [|b s]; [discriminate|]. destruct s as [|d2 s]; [discriminate|].
    destruct (Ascii.eqb_spec d2 ".") as [->|N];
      [|destruct d2 as [[] [] [] [] [] [] [] []]; try discriminate; congruence].
    destruct s as [|c s]; [discriminate|]. destruct s as [|? s]; [|discriminate].
    destruct (is_digit a && is_digit b && is_digit c)%bool eqn:D; [|discriminate].
    apply andb_true_iff in D as [D D3]. apply andb_true_iff in D as [D1 D2].
    intros E. injection E as <- <- <-. exists a, b, c. repeat split; auto.
  - intros (a & b & c & D1 & D2 & D3 & -> & -> & -> & ->). cbn. rewrite D1, D2, D3. auto.
Qed.

(** ** The sets *)
Lemma set_add_in {A} (eqb : A -> A -> bool) (E : forall a b, eqb a b = true <-> a = b) s a x :
  In x (set_add eqb s a) <-> In x s \/ x = a.
Proof.
  unfold set_add. destruct (existsb (eqb a) s) eqn:X.
  - apply existsb_exists in X as (b & Hb & X). apply E in X. subst b.
    split; [auto|]. intros [H| ->]; auto.
  - rewrite in_app_iff. cbn. intuition.
Qed.

Lemma set_adds_in {A} (eqb : A -> A -> bool) (E : forall a b, eqb a b = true <-> a = b) l :
  forall s x, In x (fold_left (set_add eqb) l s) <-> In x s \/ In x l.
Proof.
  induction l as [|a l IH]; cbn; intros s x; [tauto|]. rewrite IH, (set_add_in eqb E). intuition.
Qed.

Lemma set_add_nodup {A} (eqb : A -> A -> bool) (E : forall a b, eqb a b = true <-> a = b) s a :
  NoDup s -> NoDup (set_add eqb s a).
Proof.
  intros N. unfold set_add. destruct (existsb (eqb a) s) eqn:X; auto.
  apply nodup_snoc; auto. intros H.
  assert (existsb (eqb a) s = true); [|congruence]. apply existsb_exists. exists a. split; auto.
  apply E; auto.
Qed.

Lemma set_adds_nodup {A} (eqb : A -> A -> bool) (E : forall a b, eqb a b = true <-> a = b) l :
  forall s, NoDup s -> NoDup (fold_left (set_add eqb) l s).
Proof. induction l as [|a l IH]; cbn; auto. intros s N. apply IH, set_add_nodup; auto. Qed.

Lemma ip_eqb_eq a b : ip_eqb a b = true <-> a = b.
Proof.
  destruct a, b; cbn; split; try congruence; try (intros; discriminate).
  - intros H. apply String.eqb_eq in H. congruence.
  - intros H. injection H as ->. apply String.eqb_refl.
Qed.

Lemma ignore_chip_eqb_eq a b : ignore_chip_eqb a b = true <-> a = b.
Proof.
  destruct a as [x y i], b as [x' y' i']. unfold ignore_chip_eqb. cbn [ich_x ich_y ich_ip].
  rewrite !andb_true_iff, !Z.eqb_eq, ip_eqb_eq. split; [intros [[-> ->] ->]; auto|].
  intros E; injection E; auto.
Qed.

Lemma ignore_core_eqb_eq a b : ignore_core_eqb a b = true <-> a = b.
Proof.
  destruct a as [x y p i], b as [x' y' p' i']. unfold ignore_core_eqb. cbn [ico_x ico_y ico_p ico_ip].
  rewrite !andb_true_iff, !Z.eqb_eq, ip_eqb_eq. split; [intros [[[-> ->] ->] ->]; auto|].
  intros E; injection E; auto.
Qed.

Lemma ignore_link_eqb_eq a b : ignore_link_eqb a b = true <-> a = b.
Proof.
  destruct a as [x y p i], b as [x' y' p' i']. unfold ignore_link_eqb. cbn [ili_x ili_y ili_link ili_ip].
  rewrite !andb_true_iff, !Z.eqb_eq, ip_eqb_eq. split; [intros [[[-> ->] ->] ->]; auto|].
  intros E; injection E; auto.
Qed.

(** ** Single items *)
Lemma without_of_int s z c : int_text s z -> c = ","%char \/ c = ":"%char -> without c s.
Proof.
  intros H Hc. eapply every_impl; [|apply (int_text_chars s z H)].
  intros a [H1 H2]. destruct Hc; subst; auto.
Qed.

Lemma chip_text_parse s c : chip_text s c -> parse_single_chip s = Ok c.
Proof.
  intros (tx & ty & Hx & Hy & P & ->). unfold parse_single_chip, new_ignore_chip, with_ip.
  pose proof (without_of_int tx _ "," Hx (or_introl eq_refl)) as Wx.
  pose proof (without_of_int ty _ "," Hy (or_introl eq_refl)) as Wy.
  apply py_int_spec in Hx. apply py_int_spec in Hy.
  destruct c as [x y [ip|]]; cbn [ich_x ich_y ich_ip] in *.
  - rewrite app_assoc_s. cbn [append]. rewrite split_app, split_app, split_without by (auto; apply P).
    rewrite Hx, Hy. auto.
  - cbn [append]. rewrite split_app, split_without by auto. rewrite Hx, Hy. auto.
Qed.

Lemma chip_parse_text s c : without ":" s -> parse_single_chip s = Ok c -> chip_text s c.
Proof.
  unfold parse_single_chip, new_ignore_chip. intros W.
  destruct (split_join "," s) as [J F].
  destruct (split_on "," s) as [|x [|y [|ip [|? ?]]]] eqn:E; try discriminate.
  - destruct (py_int_err x) as [[zx Hx]|Hx]; rewrite Hx; [|discriminate]. cbn [bind].
    destruct (py_int_err y) as [[zy Hy]|Hy]; rewrite Hy; [|discriminate]. cbn [bind].
    intros X. injection X as <-. exists x, y. cbn [ich_x ich_y ich_ip with_ip plain].
    apply py_int_spec in Hx. apply py_int_spec in Hy. auto.
  - destruct (py_int_err x) as [[zx Hx]|Hx]; rewrite Hx; [|discriminate]. cbn [bind].
    destruct (py_int_err y) as [[zy Hy]|Hy]; rewrite Hy; [|discriminate]. cbn [bind].
    intros X. injection X as <-. exists x, y. cbn [ich_x ich_y ich_ip with_ip plain].
    apply py_int_spec in Hx. apply py_int_spec in Hy. repeat split; auto.
    + inversion F as [|? ? ? F1]. inversion F1 as [|? ? ? F2]. inversion F2. auto.
    + rewrite J in W. cbn [String.concat append] in W. unfold without in *.
      apply every_app in W as [_ W]. cbn in W. destruct W as [_ W].
      apply every_app in W as [_ W]. cbn in W. tauto.
    + rewrite J. cbn [String.concat append]. rewrite app_assoc_s. reflexivity.
Qed.

Lemma chip_parse_err s e : parse_single_chip s = Err e -> e = ValueError.
Proof.
  unfold parse_single_chip, new_ignore_chip.
  destruct (split_on "," s) as [|x [|y [|ip [|? ?]]]]; try congruence.
  - destruct (py_int_err x) as [[zx Hx]|Hx]; rewrite Hx; cbn [bind]; [|congruence].
    destruct (py_int_err y) as [[zy Hy]|Hy]; rewrite Hy; cbn [bind]; congruence.
  - destruct (py_int_err x) as [[zx Hx]|Hx]; rewrite Hx; cbn [bind]; [|congruence].
    destruct (py_int_err y) as [[zy Hy]|Hy]; rewrite Hy; cbn [bind]; congruence.
Qed.

Lemma link_text_parse s c : link_text s c -> parse_single_link s = Ok c.
Proof.
  intros (tx & ty & tl & Hx & Hy & Hl & P & ->). unfold parse_single_link, new_ignore_link, with_ip.
  pose proof (without_of_int tx _ "," Hx (or_introl eq_refl)) as Wx.
  pose proof (without_of_int ty _ "," Hy (or_introl eq_refl)) as Wy.
  pose proof (without_of_int tl _ "," Hl (or_introl eq_refl)) as Wl.
  apply py_int_spec in Hx. apply py_int_spec in Hy. apply py_int_spec in Hl.
  destruct c as [x y l [ip|]]; cbn [ili_x ili_y ili_link ili_ip] in *.
  - rewrite ?app_assoc_s. cbn [append]. rewrite ?app_assoc_s. cbn [append].
    rewrite split_app, split_app, split_app, split_without by (auto; apply P).
    rewrite Hx, Hy, Hl. auto.
  - cbn [append]. rewrite split_app, split_app, split_without by auto. rewrite Hx, Hy, Hl. auto.
Qed.

Lemma link_parse_text s c : without ":" s -> parse_single_link s = Ok c -> link_text s c.
Proof.
  unfold parse_single_link, new_ignore_link. intros W.
  destruct (split_join "," s) as [J F].
  destruct (split_on "," s) as [|x [|y [|l [|ip [|? ?]]]]] eqn:E; try discriminate.
  - destruct (py_int_err x) as [[zx Hx]|Hx]; rewrite Hx; [|discriminate]. cbn [bind].
    destruct (py_int_err y) as [[zy Hy]|Hy]; rewrite Hy; [|discriminate]. cbn [bind].
    destruct (py_int_err l) as [[zl Hl]|Hl]; rewrite Hl; [|discriminate]. cbn [bind].
    intros X. injection X as <-. exists x, y, l. cbn [ili_x ili_y ili_link ili_ip with_ip plain].
    apply py_int_spec in Hx. apply py_int_spec in Hy. apply py_int_spec in Hl. auto 6.
  - destruct (py_int_err x) as [[zx Hx]|Hx]; rewrite Hx; [|discriminate]. cbn [bind].
    destruct (py_int_err y) as [[zy Hy]|Hy]; rewrite Hy; [|discriminate]. cbn [bind].
    destruct (py_int_err l) as [[zl Hl]|Hl]; rewrite Hl; [|discriminate]. cbn [bind].
    intros X. injection X as <-. exists x, y, l. cbn [ili_x ili_y ili_link ili_ip with_ip plain].
    apply py_int_spec in Hx. apply py_int_spec in Hy. apply py_int_spec in Hl. repeat split; auto.
    + inversion F as [|? ? ? F1]. inversion F1 as [|? ? ? F2]. inversion F2 as [|? ? ? F3].
      inversion F3. auto.
    + rewrite J in W. cbn [String.concat append] in W. unfold without in *.
      apply every_app in W as [_ W]. cbn in W. destruct W as [_ W].
      apply every_app in W as [_ W]. cbn in W. destruct W as [_ W].
      apply every_app in W as [_ W]. cbn in W. tauto.
    + rewrite J. cbn [String.concat append]. rewrite !app_assoc_s. cbn [append].
      rewrite ?app_assoc_s. reflexivity.
Qed.

Lemma link_parse_err s e : parse_single_link s = Err e -> e = ValueError.
Proof.
  unfold parse_single_link, new_ignore_link.
  destruct (split_on "," s) as [|x [|y [|l [|ip [|? ?]]]]]; try congruence;
  (destruct (py_int_err x) as [[zx Hx]|Hx]; rewrite Hx; cbn [bind]; [|congruence];
   destruct (py_int_err y) as [[zy Hy]|Hy]; rewrite Hy; cbn [bind]; [|congruence];
   destruct (py_int_err l) as [[zl Hl]|Hl]; rewrite Hl; cbn [bind]; congruence).
Qed.

Lemma core_text_parse v s cs : core_text s cs -> parse_single_core v s = Ok cs.
Proof.
  intros (tx & ty & tp & x & y & ps & ip & Hx & Hy & Hp & P & -> & ->).
  unfold parse_single_core, new_ignore_core, with_ip.
  pose proof (without_of_int tx _ "," Hx (or_introl eq_refl)) as Wx.
  pose proof (without_of_int ty _ "," Hy (or_introl eq_refl)) as Wy.
  assert (without "," tp) as Wp.
  { assert (forall t n, numeral t n -> without "," t) as K.
    { intros t n (_ & D & _). eapply every_impl; [|exact D]. intros c Hc ->.
      unfold digit_char in Hc. cbn in Hc. lia. }
    destruct Hp as [(n & H & _)|[(t & n & H & -> & _)|(a & b & lo & hi & Ha & Hb & -> & _)]].
    - eapply K; eauto.
    - cbn. split; [discriminate|eapply K; eauto].
    - unfold without. rewrite every_app. split; [eapply K; eauto|]. cbn.
      split; [discriminate|eapply K; eauto]. }
  apply py_int_spec in Hx. apply py_int_spec in Hy. pose proof (core_field_parse v tp ps Hp) as HP.
  assert (forall ip, map_res (fun c => do x0 <- py_int tx; do y0 <- py_int ty;
            Ok (mkIgnoreCore x0 y0 c ip)) ps = Ok (map (fun p => mkIgnoreCore x y p ip) ps)) as M.
  { intros i. apply map_res_ok. intros a _. rewrite Hx, Hy. auto. }
  destruct ip as [ip|].
  - rewrite ?app_assoc_s. cbn [append]. rewrite ?app_assoc_s. cbn [append].
    rewrite split_app, split_app, split_app, split_without by (auto; apply P).
    rewrite HP. apply M.
  - cbn [append]. rewrite split_app, split_app, split_without by auto. rewrite HP. apply M.
Qed.

(** ** Lists of items *)
Lemma lower_comma s : lower s = "none" -> without "," s.
Proof.
  intros E. destruct s as [|a [|b [|c [|d [|? ?]]]]]; cbn in E; try discriminate.
  injection E as E1 E2 E3 E4. unfold without. cbn.
  repeat split; intros ->; discriminate.
Qed.

Lemma parse_fold {A B} (eqb : A -> A -> bool) (E : forall a b, eqb a b = true <-> a = b)
  (single : string -> res (list A)) (txt : string -> B -> Prop) (items : B -> list A) :
  (forall s b, txt s b -> single s = Ok (items b)) ->
  forall texts bs, Forall2 txt texts bs -> forall acc, NoDup acc ->
  exists l, fold_res (fun acc t =>
             do is <- single t ; Ok (fold_left (set_add eqb) is acc)) texts acc = Ok l /\
    NoDup l /\ forall x, In x l <-> In x acc \/ In x (flat_map items bs).
Proof.
  intros K texts bs F. induction F as [|t b texts bs H F IH]; intros acc N.
  - exists acc. cbn. split; auto. split; auto. tauto.
  - cbn [fold_res]. rewrite (K t b H). cbn [bind].
    destruct (IH (fold_left (set_add eqb) (items b) acc)) as (l & L1 & L2 & L3).
    { apply set_adds_nodup; auto. }
    exists l. split; auto. split; auto. intros x. rewrite L3, (set_adds_in eqb E). cbn [flat_map].
    rewrite in_app_iff. tauto.
Qed.

Lemma parse_fold_inv {A} (eqb : A -> A -> bool) (E : forall a b, eqb a b = true <-> a = b)
  (single : string -> res (list A)) :
  forall texts acc l, fold_res (fun acc t =>
             do is <- single t ; Ok (fold_left (set_add eqb) is acc)) texts acc = Ok l ->
  exists ls, Forall2 (fun t i => single t = Ok i) texts ls.
Proof.
  induction texts as [|t texts IH]; intros acc l.
  - intros _. exists []. constructor.
  - cbn [fold_res]. destruct (single t) as [i|e] eqn:S; [|discriminate]. cbn [bind]. intros H.
    destruct (IH _ _ H) as (ls & F). exists (i :: ls). constructor; auto.
Qed.

Lemma parse_fold_err {A} (eqb : A -> A -> bool) (single : string -> res (list A)) (P : exn -> Prop) :
  (forall s e, single s = Err e -> P e) ->
  forall texts acc e, fold_res (fun acc t =>
             do is <- single t ; Ok (fold_left (set_add eqb) is acc)) texts acc = Err e -> P e.
Proof.
  intros K. induction texts as [|t texts IH]; intros acc e; [discriminate|].
  cbn [fold_res]. destruct (single t) as [i|e'] eqn:S; cbn [bind]; eauto.
  intros X. injection X as <-. eauto.
Qed.
