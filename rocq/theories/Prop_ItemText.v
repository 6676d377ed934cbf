(** C91: what the parsers of down items say about a text they refuse. *)
From Coq Require Import Lia String Ascii.
From Verif Require Import Model_Py Model_Version Model_Str Model_Ignore Model_Virtual Model_Text Model_Told
  Model_ItemText Spec_Str Spec_ItemText Proof_Py Proof_Str Prop_Parse.
Open Scope string_scope.
Open Scope list_scope.
Open Scope Z_scope.

(** ** Without the texts it is the model of C17 and C45 *)
Lemma unworded_bind {A B} (r : A + (exn * string)) (f : A -> B + (exn * string)) (r' : res A) (f' : A -> res B) :
  unworded r = r' -> (forall a, unworded (f a) = f' a) -> unworded (abind r f) = bind r' f'.
Proof. intros <- H. destruct r as [a|[e t]]; cbn; auto. Qed.
Lemma unworded_int s : unworded (int_told s) = py_int s.
Proof. unfold int_told. destruct (py_int s); reflexivity. Qed.
Lemma unworded_map {A B} (f : A -> B + (exn * string)) (g : A -> res B) l :
  (forall a, unworded (f a) = g a) -> unworded (map_answer f l) = map_res g l.
Proof.
  intros H. induction l as [|a l IH]; cbn; auto. apply unworded_bind; auto. intros b. apply unworded_bind; auto.
Qed.
Lemma unworded_fold {A B} (f : B -> A -> B + (exn * string)) (g : B -> A -> res B) l :
  (forall b a, unworded (f b a) = g b a) -> forall b, unworded (fold_answer f l b) = fold_res g l b.
Proof.
  intros H. induction l as [|a l IH]; intros b; cbn; auto. apply unworded_bind; auto.
Qed.
Lemma unworded_quad v x y p : unworded (quad_told v x y p) = qx_qy_qp_to_id v x y p.
Proof. unfold quad_told. destruct (qx_qy_qp_to_id v x y p) as [|[]]; reflexivity. Qed.
Lemma unworded_field v s : unworded (parse_cores_told v s) = parse_cores_string v s.
Proof.
  unfold parse_cores_told, parse_cores_string. destruct (core_single s).
  { apply unworded_bind; auto using unworded_int. }
  destruct (core_range s) as [[a b]|].
  { apply unworded_bind; auto using unworded_int. intros lo. apply unworded_bind; auto using unworded_int. }
  unfold version_parse_cores_told, version_parse_cores_string.
  destruct v; auto; destruct (core_quad s) as [[[a b] c]|]; auto;
    (apply unworded_bind; [apply unworded_int|intros qx]); (apply unworded_bind; [apply unworded_int|intros qy]);
    (apply unworded_bind; [apply unworded_int|intros qp]); (apply unworded_bind; [apply unworded_quad|reflexivity]).
Qed.
Lemma unworded_new_core x y p ip : unworded (new_core_told x y p ip) = new_ignore_core x y p ip.
Proof.
  unfold new_core_told, new_ignore_core. apply unworded_bind; [apply unworded_int|intros].
  apply unworded_bind; [apply unworded_int|reflexivity].
Qed.
Lemma unworded_single_chip s : unworded (single_chip_told s) = parse_single_chip s.
Proof.
  unfold single_chip_told, parse_single_chip, new_chip_told, new_ignore_chip.
  destruct (split_on "," s) as [|x [|y [|i [|]]]]; auto;
    (apply unworded_bind; [apply unworded_int|intros]); (apply unworded_bind; [apply unworded_int|reflexivity]).
Qed.
Lemma unworded_single_link s : unworded (single_link_told s) = parse_single_link s.
Proof.
  unfold single_link_told, parse_single_link, new_link_told, new_ignore_link.
  destruct (split_on "," s) as [|x [|y [|l [|i [|]]]]]; auto;
    (apply unworded_bind; [apply unworded_int|intros]); (apply unworded_bind; [apply unworded_int|intros]);
    (apply unworded_bind; [apply unworded_int|reflexivity]).
Qed.
Lemma unworded_single_core v s : unworded (single_core_told v s) = parse_single_core v s.
Proof.
  unfold single_core_told, parse_single_core.
  destruct (split_on "," s) as [|x [|y [|p [|i [|]]]]]; auto;
    (apply unworded_bind; [apply unworded_field|intros ps]); apply unworded_map; intros; apply unworded_new_core.
Qed.
Lemma unworded_items {A} eqb (f : string -> list A + (exn * string)) g text :
  (forall s, unworded (f s) = g s) -> unworded (items_told eqb f text) = parse_items eqb g text.
Proof.
  intros H. unfold items_told, parse_items. destruct text as [s|]; auto. destruct (String.eqb (lower s) "none"); auto.
  apply unworded_fold. intros b a. apply unworded_bind; auto.
Qed.

Theorem C91_same_parsers :
  (forall v s, unworded (parse_cores_told v s) = parse_cores_string v s) /\
  (forall text, unworded (chips_told text) = parse_chips text) /\
  (forall v text, unworded (cores_told v text) = parse_cores v text) /\
  (forall text, unworded (links_told text) = parse_links text).
Proof.
  split; [intros; apply unworded_field|]. split; [|split].
  - intros text. apply unworded_items. intros s. apply unworded_bind; [apply unworded_single_chip|reflexivity].
  - intros v text. apply unworded_items. intros s. apply unworded_single_core.
  - intros text. apply unworded_items. intros s. apply unworded_bind; [apply unworded_single_link|reflexivity].
Qed.
Print Assumptions C91_same_parsers.

(** ** Fields *)
Lemma fields_split s fs : fields s fs <-> split_on "," s = fs.
Proof.
  split.
  - intros (N & F & ->). apply split_concat; auto.
  - intros <-. split; [apply split_nonempty|]. destruct (split_join "," s) as [J W]. auto.
Qed.

Lemma int_cases s :
  (exists n, int_text s n /\ int_told s = inl n) \/ (not_int s /\ int_told s = inr (ValueError, int_problem s)).
Proof.
  unfold int_told. destruct (py_int_err s) as [[z E]|E]; rewrite E.
  - left. exists z. split; auto. apply py_int_spec. auto.
  - right. split; auto. intros z Z. apply py_int_spec in Z. congruence.
Qed.

Ltac same_fields :=
  repeat match goal with
  | H : fields ?s ?a |- _ => apply fields_split in H
  | H : split_on "," ?s = _, K : split_on "," ?s = _ |- _ => rewrite H in K; injection K; clear K; intros; subst
  end.
Ltac ints :=
  match goal with
  | |- context [int_told ?x] =>
      let n := fresh "n" in let I := fresh "I" in let E := fresh "E" in
      destruct (int_cases x) as [(n & I & E)|[I E]]; rewrite E; cbn [abind]
  end.

Lemma chip_fault_told s e t : single_chip_told s = inr (e, t) <-> chip_fault s e t.
Proof.
  unfold single_chip_told. split.
  - destruct (split_on "," s) as [|x [|y [|i [|j r]]]] eqn:F;
      try (intros H; injection H as <- <-; eapply chip_shape; [apply fields_split; exact F|];
           intros a b rest R; unfold address; first [discriminate R | injection R as <- <- <-; cbn; lia]).
    all: unfold new_chip_told; ints; [|intros H; injection H as <- <-; eapply chip_x;
           [apply fields_split; exact F|unfold address; cbn; lia|auto]].
    all: ints; [intros H; discriminate H|intros H; injection H as <- <-; eapply chip_y;
           [apply fields_split; exact F|unfold address; cbn; lia|eauto|auto]].
  - intros [fs F N|x y rest F A I|x y rest n F A I J].
    + apply fields_split in F. rewrite F.
      destruct fs as [|x [|y [|i [|j r]]]]; auto; exfalso; (eapply N; [reflexivity|unfold address; cbn; lia]).
    + apply fields_split in F. rewrite F. destruct rest as [|i [|j r]]; [| |unfold address in A; cbn in A; lia];
        unfold new_chip_told; (ints; [exfalso; eapply I; eauto|reflexivity]).
    + apply fields_split in F. rewrite F. destruct rest as [|i [|j r]]; [| |unfold address in A; cbn in A; lia];
        unfold new_chip_told; (ints; [|exfalso; eapply I0; eauto]); (ints; [exfalso; eapply J; eauto|reflexivity]).
Qed.

Lemma link_fault_told s e t : single_link_told s = inr (e, t) <-> link_fault s e t.
Proof.
  unfold single_link_told. split.
  - destruct (split_on "," s) as [|x [|y [|l [|i [|j r]]]]] eqn:F;
      try (intros H; injection H as <- <-; eapply link_shape; [apply fields_split; exact F|];
           intros a b c rest R; unfold address; first [discriminate R | injection R as <- <- <- <-; cbn; lia]).
    all: unfold new_link_told; ints; [|intros H; injection H as <- <-; eapply link_x;
           [apply fields_split; exact F|unfold address; cbn; lia|auto]].
    all: ints; [|intros H; injection H as <- <-; eapply link_y;
           [apply fields_split; exact F|unfold address; cbn; lia|eauto|auto]].
    all: ints; [intros H; discriminate H|intros H; injection H as <- <-; eapply link_id;
           [apply fields_split; exact F|unfold address; cbn; lia|eauto|eauto|auto]].
  - intros [fs F N|x y l rest F A I|x y l rest n F A I J|x y l rest n k F A I J K]; apply fields_split in F; rewrite F.
    + destruct fs as [|x [|y [|l [|i [|j r]]]]]; auto; exfalso; (eapply N; [reflexivity|unfold address; cbn; lia]).
    + destruct rest as [|i [|j r]]; [| |unfold address in A; cbn in A; lia];
        unfold new_link_told; (ints; [exfalso; eapply I; eauto|reflexivity]).
    + destruct rest as [|i [|j r]]; [| |unfold address in A; cbn in A; lia];
        unfold new_link_told; (ints; [|exfalso; eapply I0; eauto]); (ints; [exfalso; eapply J; eauto|reflexivity]).
    + destruct rest as [|i [|j r]]; [| |unfold address in A; cbn in A; lia];
        unfold new_link_told; (ints; [|exfalso; eapply I0; eauto]); (ints; [|exfalso; eapply I1; eauto]);
        (ints; [exfalso; eapply K; eauto|reflexivity]).
Qed.

(** ** The field for the cores *)
Lemma field_ok v s ps : parse_cores_told v s = inl ps <-> core_field_on v s ps.
Proof.
  rewrite <- C17_accepted_texts, <- unworded_field. destruct (parse_cores_told v s) as [a|[e t]]; cbn; split; congruence.
Qed.

Lemma dash_not_digit : ~ digit_char "-".
Proof. unfold digit_char. cbn. lia. Qed.

Lemma two_dashes_single s : two_dashes s <-> core_single s = true /\ py_int s = Err ValueError.
Proof.
  split.
  - intros (d & g & n & D & N & ->).
    assert (S : core_single ("--" ++ d ++ g) = true).
    { unfold core_single. cbn [append skip_dashes]. cbn. induction d as [|c d IH]; cbn [append].
      - destruct N as (N1 & N2 & _). destruct g as [|c g]; [congruence|].
        assert (skip_dashes (String c g) = String c g) as ->.
        { cbn in N2. destruct N2 as [N2 _]. destruct c as [[] [] [] [] [] [] [] []]; try reflexivity.
          exfalso. apply dash_not_digit. exact N2. }
        apply some_digits_spec. auto.
      - cbn in D. destruct D as [-> D]. cbn. auto. }
    split; auto. apply core_single_cases in S as [(k & K)|[(t & k & K & E)|(t & E & P)]]; auto; exfalso.
    + destruct K as (_ & K & _). cbn in K. apply dash_not_digit. apply K.
    + injection E as <-. destruct K as (_ & K & _). cbn in K. apply dash_not_digit. apply K.
  - intros [S P]. unfold core_single in S. destruct (skip_dashes_spec s) as (d & E & D & _).
    apply some_digits_spec in S. set (t := skip_dashes s) in *.
    assert (NT : numeral t (value_from 0 t)) by (split; [apply S|split; [apply S|auto]]).
    destruct d as [|c1 d].
    + exfalso. cbn in E. rewrite E in P. rewrite (numeral_int _ _ NT) in P. discriminate P.
    + cbn in D. destruct D as [-> D]. destruct d as [|c2 d].
      * exfalso. rewrite E in P. rewrite (neg_numeral_int _ _ NT) in P. discriminate P.
      * cbn in D. destruct D as [-> D]. exists d, t, (value_from 0 t). auto.
Qed.

Lemma quad_text_numerals s x y p : quad_text s x y p -> forall x' y' p', quad_text s x' y' p' -> x = x' /\ y = y' /\ p = p'.
Proof.
  intros (a & b & c & A & B & C & ->) x' y' p' (a' & b' & c' & A' & B' & C' & E).
  injection E as <- <- <-. destruct A as (_ & _ & ->), B as (_ & _ & ->), C as (_ & _ & ->).
  destruct A' as (_ & _ & ->), B' as (_ & _ & ->), C' as (_ & _ & ->). auto.
Qed.

Lemma quad_parse v s x y p : spin2 v -> quad_text s x y p ->
  parse_cores_string v s = match qx_qy_qp_to_id v x y p with Ok id => Ok [id] | Err e => Err e end.
Proof.
  intros V (a & b & c & A & B & C & ->). destruct C17_meaning as (_ & _ & _ & M). apply M; auto.
Qed.

Lemma field_told_fault v s e t : parse_cores_told v s = inr (e, t) -> core_field_fault v s e t.
Proof.
  intros H. assert (N : forall ps, ~ core_field_on v s ps) by (intros ps P; apply field_ok in P; congruence).
  unfold parse_cores_told in H. destruct (core_single s) eqn:S.
  { destruct (int_cases s) as [(n & I & E)|[I E]]; rewrite E in H; cbn in H; [discriminate H|].
    injection H as <- <-. apply dashes. apply two_dashes_single. split; auto.
    destruct (py_int_err s) as [[z P]|P]; auto. exfalso. apply (I z). apply py_int_spec. auto. }
  assert (ND : ~ two_dashes s) by (intros D; apply two_dashes_single in D as [D _]; congruence).
  destruct (core_range s) as [[a b]|] eqn:R.
  { exfalso. apply core_range_spec in R as (-> & [A1 A2] & [B1 B2]).
    eapply N. left. right. right. exists a, b. do 2 eexists.
    split; [repeat split; auto|]. split; [repeat split; auto|]. eauto. }
  unfold version_parse_cores_told in H.
  assert (NQ : core_quad s = None -> forall x y p, ~ quad_text s x y p).
  { intros Q x y p (a & b & c & (_ & A & _) & (_ & B & _) & (_ & C & _) & E).
    assert (core_quad s = Some (String a "", String b "", String c "")) as X.
    { apply core_quad_spec. exists a, b, c. cbn in A, B, C. rewrite !is_digit_spec. intuition. }
    congruence. }
  destruct (core_quad s) as [[[qa qb] qc]|] eqn:Q.
  - destruct (proj1 (core_quad_spec _ _ _ _) Q) as (a & b & c & Ha & Hb & Hc & E & -> & -> & ->).
    assert (V : spin2 v \/ (v = V3 \/ v = V5)) by (destruct v; unfold spin2; auto).
    destruct V as [V|V].
    + assert (NA : forall d, is_digit d = true -> int_told (String d "") = inl (value_from 0 (String d ""))).
      { intros d D. unfold int_told. rewrite (numeral_int _ (value_from 0 (String d ""))); auto.
        split; [discriminate|]. split; [|reflexivity]. cbn. split; auto. apply is_digit_spec. auto. }
      assert (QT : quad_text s (value_from 0 (String a "")) (value_from 0 (String b "")) (value_from 0 (String c ""))).
      { exists a, b, c. unfold numeral. cbn [every]. rewrite <- !is_digit_spec. repeat split; auto; discriminate. }
      assert (H' : abind (quad_told v (value_from 0 (String a "")) (value_from 0 (String b "")) (value_from 0 (String c "")))
                     (fun id => inl [id]) = inr (e, t)).
      { destruct V as [-> | ->]; rewrite !NA in H by auto; exact H. }
      unfold quad_told in H'.
      destruct (quad_errors v (value_from 0 (String a "")) (value_from 0 (String b "")) (value_from 0 (String c "")) V)
        as [[id I]|I]; rewrite I in H'; cbn in H'; [discriminate H'|].
      apply (f_equal (fun r => match r with inr p => p | inl _ => (e, t) end)) in H'.
      apply pair_equal_spec in H' as [<- <-].
      apply unknown_quad; auto. intros id J. discriminate (eq_trans (eq_sym I) J).
    + assert (H' : inr (ConfigExc, cat [s; " does not represent cores for Version 1 boards"]) = (inr (e, t) : list Z + (exn * string)))
        by (destruct V as [-> | ->]; exact H).
      apply (f_equal (fun r => match r with inr p => p | inl _ => (e, t) end)) in H'.
      apply pair_equal_spec in H' as [<- <-].
      replace (cat [s; " does not represent cores for Version 1 boards"]) with
        (cat [s; " does not represent cores for Version "; match v with V3 | V5 => "1" | _ => "2" end; " boards"])
        by (destruct V as [-> | ->]; cbn; reflexivity).
      apply not_cores; auto. intros x y p W. destruct V as [-> | ->], W; discriminate.
  - specialize (NQ eq_refl).
    assert (H' : inr (ConfigExc, cat [s; " does not represent cores for Version "; match v with V3 | V5 => "1" | _ => "2" end; " boards"])
                 = (inr (e, t) : list Z + (exn * string))) by (destruct v; exact H).
    apply (f_equal (fun r => match r with inr p => p | inl _ => (e, t) end)) in H'.
    apply pair_equal_spec in H' as [<- <-]. apply not_cores; auto.
Qed.

Lemma field_fault_unique v s e t e' t' : core_field_fault v s e t -> core_field_fault v s e' t' -> e = e' /\ t = t'.
Proof.
  intros [D|x y p V Q I|N D Q] [D'|x' y' p' V' Q' I'|N' D' Q']; auto; try contradiction;
    try (exfalso; eapply Q'; eauto; fail); try (exfalso; eapply Q; eauto; fail).
  - exfalso. destruct D as (d & g & n & _ & _ & ->), Q' as (a & b & c & A & _ & _ & E). injection E as <- _.
    destruct A as (_ & [A _] & _). apply dash_not_digit. exact A.
  - exfalso. destruct D' as (d & g & n & _ & _ & ->), Q as (a & b & c & A & _ & _ & E). injection E as <- _.
    destruct A as (_ & [A _] & _). apply dash_not_digit. exact A.
  - destruct (quad_text_numerals _ _ _ _ Q _ _ _ Q') as (-> & -> & ->). auto.
Qed.

Lemma field_fault_refused v s e t ps : core_field_fault v s e t -> ~ core_field_on v s ps.
Proof.
  intros F P. apply C17_accepted_texts in P. destruct F as [D|x y p V Q I|N D Q].
  - apply two_dashes_single in D as [S E]. unfold parse_cores_string in P. rewrite S, E in P. discriminate P.
  - rewrite (quad_parse _ _ _ _ _ V Q) in P. destruct (qx_qy_qp_to_id v x y p) eqn:J; [|discriminate P].
    eapply I; eauto.
  - apply C17_accepted_texts in P. eapply N; eauto.
Qed.

Lemma field_fault_told v s e t : parse_cores_told v s = inr (e, t) <-> core_field_fault v s e t.
Proof.
  split; [apply field_told_fault|]. intros F. destruct (parse_cores_told v s) as [ps|[e' t']] eqn:E.
  - exfalso. apply field_ok in E. eapply field_fault_refused; eauto.
  - apply field_told_fault in E. destruct (field_fault_unique _ _ _ _ _ _ F E) as [-> ->]. reflexivity.
Qed.

(** C91, the field for the cores: what parse_cores_string says. *)
Theorem C91_cores_text :
  forall v s e t,
    (parse_cores_told v s = inr (e, t) <-> core_field_fault v s e t) /\
    ((exists ps, core_field_on v s ps) \/ exists e' t', core_field_fault v s e' t').
Proof.
  intros v s e t. split; [apply field_fault_told|]. destruct (parse_cores_told v s) as [ps|[e' t']] eqn:E.
  - left. exists ps. apply field_ok. auto.
  - right. exists e', t'. apply field_fault_told. auto.
Qed.
Print Assumptions C91_cores_text.

Lemma cores_made x y ip ps e t : map_answer (fun c => new_core_told x y c ip) ps = inr (e, t) <->
  ps <> [] /\ e = ValueError /\ ((not_int x /\ t = int_problem x) \/ (exists n, int_text x n) /\ not_int y /\ t = int_problem y).
Proof.
  destruct (int_cases x) as [(n & I & E)|[I E]].
  - destruct (int_cases y) as [(k & J & F)|[J F]].
    + assert (O : exists l, map_answer (fun c => new_core_told x y c ip) ps = inl l).
      { induction ps as [|p ps [l IH]]; cbn [map_answer]; [eauto|]. unfold new_core_told at 1.
        rewrite E, F. cbn [abind]. rewrite IH. cbn. eauto. }
      destruct O as [l ->]. split; [discriminate|]. intros (_ & _ & [[X _]|(_ & X & _)]); exfalso; eapply X; eauto.
    + destruct ps as [|p ps]; cbn; [split; [discriminate|intros ([] & _); auto]|].
      unfold new_core_told at 1. rewrite E, F. cbn. split.
      * intros H. injection H as <- <-. split; [discriminate|]. split; auto. right. eauto.
      * intros (_ & -> & [[X _]|(_ & _ & ->)]); auto. exfalso; eapply X; eauto.
  - destruct ps as [|p ps]; cbn; [split; [discriminate|intros ([] & _); auto]|].
    unfold new_core_told at 1. rewrite E. cbn. split.
    + intros H. injection H as <- <-. split; [discriminate|]. auto.
    + intros (_ & -> & [[_ ->]|[[k X] _]]); auto. exfalso; eapply I; eauto.
Qed.

Lemma core_fault_told v s e t : single_core_told v s = inr (e, t) <-> core_fault v s e t.
Proof.
  assert (B : forall x y p rest ip, split_on "," s = x :: y :: p :: rest -> address rest ->
     (abind (parse_cores_told v p) (map_answer (fun c => new_core_told x y c ip)) = inr (e, t) <-> core_fault v s e t)).
  { intros x y p rest ip F A. apply fields_split in F. destruct (parse_cores_told v p) as [ps|[e' t']] eqn:P; cbn [abind].
    - rewrite cores_made. apply field_ok in P. split.
      + intros (N & -> & [[X ->]|((n & X) & Y & ->)]); [eapply core_x|eapply core_y]; eauto.
      + intros [fs F' N|x' y' p' r' e0 t0 F' A' C|x' y' p' r' ps' F' A' C N X|x' y' p' r' ps' n F' A' C N X Y].
        * exfalso. same_fields. subst. eapply N; eauto.
        * exfalso. same_fields. eapply field_fault_refused; eauto.
        * same_fields. apply field_ok in C, P. assert (ps' = ps) by congruence. subst. auto.
        * same_fields. apply field_ok in C, P. assert (ps' = ps) by congruence. subst. eauto 10.
    - apply field_fault_told in P. split.
      + intros H. injection H as <- <-. eapply core_p; eauto.
      + intros [fs F' N|x' y' p' r' e0 t0 F' A' C|x' y' p' r' ps' F' A' C N X|x' y' p' r' ps' n F' A' C N X Y].
        * exfalso. same_fields. subst. eapply N; eauto.
        * same_fields. destruct (field_fault_unique _ _ _ _ _ _ P C) as [-> ->]. reflexivity.
        * exfalso. same_fields. eapply field_fault_refused; eauto.
        * exfalso. same_fields. eapply field_fault_refused; eauto. }
  unfold single_core_told.
  destruct (split_on "," s) as [|x [|y [|p [|i [|j r]]]]] eqn:F;
    try (eapply B; [reflexivity|unfold address; cbn; lia]); clear B; split;
    try (intros H; injection H as <- <-; eapply core_shape; [apply fields_split; exact F|];
         intros a b c rest R; unfold address; first [discriminate R | injection R as <- <- <- <-; cbn; lia]);
    intros [fs F' N|x' y' p' r' e0 t0 F' A' C|x' y' p' r' ps' F' A' C N X|x' y' p' r' ps' n F' A' C N X Y]; auto;
    exfalso; apply fields_split in F'; rewrite F in F'; try discriminate F'; injection F' as <- <- <- <-;
    unfold address in A'; cbn in A'; lia.
Qed.

(** ** Lists of items *)
Lemma items_fault {A} (eqb : A -> A -> bool) (single : string -> list A + (exn * string))
  (fault : string -> exn -> string -> Prop) (F : forall s e t, single s = inr (e, t) <-> fault s e t) s e t :
  items_told eqb single (Some s) = inr (e, t) <-> first_fault fault s e t.
Proof.
  unfold items_told, first_fault.
  set (f := fun acc t0 => abind (single t0) (fun items => inl (fold_left (set_add eqb) items acc))).
  assert (L : forall l acc, fold_answer f l acc = inr (e, t) <->
     exists before item after, l = before ++ item :: after /\
       (forall b e' t', In b before -> ~ fault b e' t') /\ fault item e t).
  { induction l as [|a l IH]; intros acc; cbn [fold_answer].
    - split; [discriminate|]. intros (b & i & c & E & _). destruct b; discriminate E.
    - unfold f at 1. destruct (single a) as [items|[e' t']] eqn:S; cbn [abind].
      + rewrite IH. split.
        * intros (b & i & c & -> & B & I). exists (a :: b), i, c. split; auto. split; auto.
          intros x e' t' [<-|X] Y; [|eapply B; eauto]. apply F in Y. congruence.
        * intros (b & i & c & E & B & I). destruct b as [|x b]; cbn in E; injection E as <- ->.
          -- exfalso. apply F in I. congruence.
          -- exists b, i, c. split; auto. split; auto. intros y e' t' Y. apply B. right; auto.
      + split.
        * intros H. injection H as <- <-. exists [], a, l. split; auto. split; [intros ? ? ? []|]. apply F. auto.
        * intros (b & i & c & E & B & I). destruct b as [|x b]; cbn in E; injection E as <- ->.
          -- apply F in I. congruence.
          -- exfalso. apply F in S. eapply (B a); [left; auto|exact S]. }
  destruct (String.eqb_spec (lower s) "none") as [N|N].
  - split; [discriminate|tauto].
  - rewrite L. destruct (split_join ":" s) as [J W]. split.
    + intros (b & i & c & E & B & I). split; auto. exists b, i, c. rewrite <- E. repeat split; auto.
    + intros (_ & b & i & c & -> & W' & B & I). exists b, i, c. split; auto.
      apply joined_split; auto. destruct b; discriminate.
Qed.

(** C91.  parse_string of each class raises with text t exactly if t tells the fault of the first
    wrong item. *)
Theorem C91_first_wrong_item :
  (forall s e t, chips_told (Some s) = inr (e, t) <-> first_fault chip_fault s e t) /\
  (forall s e t, links_told (Some s) = inr (e, t) <-> first_fault link_fault s e t) /\
  (forall v s e t, cores_told v (Some s) = inr (e, t) <-> first_fault (core_fault v) s e t).
Proof.
  split; [|split].
  - intros s e t. apply items_fault. intros a e' t'. rewrite <- chip_fault_told.
    destruct (single_chip_told a) as [x|[e1 t1]]; cbn; split; intros H; try discriminate H; injection H as <- <-; auto.
  - intros s e t. apply items_fault. intros a e' t'. rewrite <- link_fault_told.
    destruct (single_link_told a) as [x|[e1 t1]]; cbn; split; intros H; try discriminate H; injection H as <- <-; auto.
  - intros v s e t. apply items_fault. apply core_fault_told.
Qed.
Print Assumptions C91_first_wrong_item.

(** An item has a fault exactly if it is not the text of a chip, link or cores (C45). *)
Theorem C91_fault_or_item :
  (forall s, without ":" s -> ((exists e t, chip_fault s e t) <-> ~ exists c, chip_text s c)) /\
  (forall s, without ":" s -> ((exists e t, link_fault s e t) <-> ~ exists l, link_text s l)) /\
  (forall v s, without ":" s -> ((exists e t, core_fault v s e t) <-> ~ exists cs, core_item_on v s cs)).
Proof.
  split; [|split].
  - intros s W. split.
    + intros (e & t & F) (c & C). apply chip_fault_told in F. apply chip_text_parse in C.
      rewrite <- unworded_single_chip, F in C. discriminate C.
    + intros N. destruct (single_chip_told s) as [c|[e t]] eqn:E.
      * exfalso. apply N. exists c. apply chip_parse_text; auto. rewrite <- unworded_single_chip, E. reflexivity.
      * exists e, t. apply chip_fault_told. auto.
  - intros s W. split.
    + intros (e & t & F) (c & C). apply link_fault_told in F. apply link_text_parse in C.
      rewrite <- unworded_single_link, F in C. discriminate C.
    + intros N. destruct (single_link_told s) as [c|[e t]] eqn:E.
      * exfalso. apply N. exists c. apply link_parse_text; auto. rewrite <- unworded_single_link, E. reflexivity.
      * exists e, t. apply link_fault_told. auto.
  - intros v s W. split.
    + intros (e & t & F) (c & C). apply core_fault_told in F. apply C45_one_core_item in C; auto.
      rewrite <- unworded_single_core, F in C. discriminate C.
    + intros N. destruct (single_core_told v s) as [c|[e t]] eqn:E.
      * exfalso. apply N. exists c. apply C45_one_core_item; auto. rewrite <- unworded_single_core, E. reflexivity.
      * exists e, t. apply core_fault_told. auto.
Qed.
Print Assumptions C91_fault_or_item.

Example C91_case :
  chips_told (Some "1,2:3:4,x") = inr (ValueError, "Unexpected downed_chip: 3") /\
  chips_told (Some "1,2: 3,it's") = inr (ValueError, "invalid literal for int() with base 10: ""it's""") /\
  links_told (Some "1,2,3:4,5,6,10.0.0.1,7") = inr (ValueError, "Unexpected downed_link: 4,5,6,10.0.0.1,7") /\
  cores_told V5 (Some "1,2,3:x,y,5-4:1,2,1.1.1") =
    inr (ConfigExc, "1.1.1 does not represent cores for Version 1 boards") /\
  cores_told V248 (Some "1,2,9.9.9") = inr (KeyError, "(9, 9, 9)") /\
  cores_told V248 (Some "1,2,--4") = inr (ValueError, "invalid literal for int() with base 10: '--4'") /\
  first_fault chip_fault "1,2:3:4,x" ValueError "Unexpected downed_chip: 3".
Proof.
  repeat (split; [vm_compute; reflexivity|]). apply C91_first_wrong_item. vm_compute. reflexivity.
Qed.
