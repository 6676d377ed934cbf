(** C17, C45, C46: texts of cores and of down items. *)
From Coq Require Import Lia Sorted.
From Verif Require Import Model_Py Model_Version Model_Str Model_Ignore Spec_Str Proof_Board Proof_Py
  Proof_Version Proof_Str.
Open Scope string_scope.

Lemma quad_errors v x y p : v = V201 \/ v = V248 ->
  (exists id, qx_qy_qp_to_id v x y p = Ok id) \/ qx_qy_qp_to_id v x y p = Err KeyError.
Proof. intros H. apply (quad_bijection v H). Qed.

Lemma zrange_sorted lo hi : StronglySorted Z.lt (zrange lo hi).
Proof.
  unfold zrange. generalize (Z.to_nat (hi - lo)). intros n. clear hi.
  cut (forall k, StronglySorted Z.lt (map (fun i => (lo + Z.of_nat i)%Z) (seq k n))); [auto|].
  induction n as [|n IH]; intros k; cbn; constructor; auto.
  apply Forall_forall. intros z H. apply in_map_iff in H as (i & <- & H). apply in_seq in H. lia.
Qed.

Lemma parse_inv v s r : parse_cores_string v s = Ok r -> core_field_on v s r.
Proof.
  unfold parse_cores_string. destruct (core_single s) eqn:S.
  - apply core_single_cases in S as [(n & N)|[(t & n & N & ->)|(t & _ & E)]].
    + rewrite (numeral_int s n N). cbn [bind]. intros X. apply Ok_inj in X. subst r.
      left. left. eauto.
    + rewrite (neg_numeral_int t n N). cbn [bind]. intros X. apply Ok_inj in X. subst r.
      left. right. left. eauto.
    + rewrite E. discriminate.
  - destruct (core_range s) as [[a b]|] eqn:R.
    + apply core_range_spec in R as (-> & [A1 A2] & [B1 B2]).
      assert (numeral a (value_from 0 a)) as NA by (repeat split; auto).
      assert (numeral b (value_from 0 b)) as NB by (repeat split; auto).
      rewrite (numeral_int _ _ NA), (numeral_int _ _ NB). cbn [bind].
      intros X. apply Ok_inj in X. subst r. left. right. right. do 4 eexists. eauto.
    + assert (v = V201 \/ v = V248 \/ version_parse_cores_string v s = Err ConfigExc) as C
        by (destruct v; auto).
      destruct (core_quad s) as [[[qx qy] qp]|] eqn:Q.
      * intros X. assert (v = V201 \/ v = V248) as HV.
        { destruct C as [C|[C|C]]; auto. congruence. }
        apply core_quad_spec in Q as Q'.
        destruct Q' as (a & b & c & Ha & Hb & Hc & -> & -> & -> & ->).
        assert (version_parse_cores_string v (String a ("." ++ String b ("." ++ String c ""))) =
          do id <- qx_qy_qp_to_id v (digit_value a) (digit_value b) (digit_value c) ; Ok [id]) as E.
        { unfold version_parse_cores_string. rewrite Q.
          rewrite (numeral_int _ _ (digit_numeral a Ha)), (numeral_int _ _ (digit_numeral b Hb)),
            (numeral_int _ _ (digit_numeral c Hc)).
          destruct HV; subst v; reflexivity. }
        rewrite E in X. clear E.
        destruct (qx_qy_qp_to_id v _ _ _) as [id|] eqn:I; [|discriminate]. cbn [bind] in X.
        apply Ok_inj in X. subst r. right. exists a, b, c. do 4 eexists.
        split; [exact HV|]. split; [apply digit_numeral; exact Ha|].
        split; [apply digit_numeral; exact Hb|]. split; [apply digit_numeral; exact Hc|]. eauto.
      * intros X. destruct C as [-> |[-> |C]]; [| |congruence];
          cbn [version_parse_cores_string] in X; rewrite Q in X; discriminate.
Qed.

Lemma digit_of_numeral c n : numeral (String c "") n -> is_digit c = true /\ n = digit_value c.
Proof.
  intros (_ & [D _] & ->). apply is_digit_spec in D. split; auto.
Qed.

Lemma quad_not_others a b c : is_digit a = true ->
  core_single (String a ("." ++ String b ("." ++ String c ""))) = false /\
  core_range (String a ("." ++ String b ("." ++ String c ""))) = None.
Proof.
  intros H. split.
  - unfold core_single. rewrite skip_dashes_digit by (apply is_digit_spec; auto).
    apply not_true_iff_false. rewrite some_digits_spec. intros [_ X]. cbn in X.
    destruct X as [_ [X _]]. unfold digit_char in X. cbn in X. lia.
  - unfold core_range. cbn [span_digits append]. rewrite H. reflexivity.
Qed.

Lemma parse_field v s r : core_field_on v s r -> parse_cores_string v s = Ok r.
Proof.
  intros [H|(a & b & c & qx & qy & qp & id & HV & Ha & Hb & Hc & -> & E & ->)].
  - apply core_field_parse; auto.
  - pose proof (numeral_int _ _ Ha) as Ia. pose proof (numeral_int _ _ Hb) as Ib.
    pose proof (numeral_int _ _ Hc) as Ic.
    apply digit_of_numeral in Ha as [Da _]. apply digit_of_numeral in Hb as [Db _].
    apply digit_of_numeral in Hc as [Dc _].
    unfold parse_cores_string. destruct (quad_not_others a b c Da) as [-> ->].
    assert (core_quad (String a ("." ++ String b ("." ++ String c ""))) =
      Some (String a "", String b "", String c "")) as Q.
    { apply core_quad_spec. exists a, b, c. auto 8. }
    unfold version_parse_cores_string. rewrite Q.
    destruct HV; subst v; rewrite Ia, Ib, Ic; cbn [bind]; rewrite E; reflexivity.
Qed.

(** C17: the texts that are accepted, and what they mean. *)
Theorem C17_accepted_texts :
  forall v s r, parse_cores_string v s = Ok r <-> core_field_on v s r.
Proof. split; [apply parse_inv|apply parse_field]. Qed.
Print Assumptions C17_accepted_texts.

(** Spelled out: a decimal id, a range, and quad coordinates. *)
Theorem C17_meaning :
  (forall v s n, numeral s n -> parse_cores_string v s = Ok [n]) /\
  (forall v s n, numeral s n -> parse_cores_string v ("-" ++ s) = Ok [(- n)%Z]) /\
  (forall v a b lo hi, numeral a lo -> numeral b hi ->
     exists r, parse_cores_string v (a ++ "-" ++ b) = Ok r /\
       StronglySorted Z.lt r /\ (forall p, In p r <-> lo <= p <= hi)%Z) /\
  (forall v a b c qx qy qp, v = V201 \/ v = V248 ->
     numeral (String a "") qx -> numeral (String b "") qy -> numeral (String c "") qp ->
     parse_cores_string v (String a ("." ++ String b ("." ++ String c ""))) =
       match qx_qy_qp_to_id v qx qy qp with Ok id => Ok [id] | Err e => Err e end).
Proof.
  split; [|split; [|split]].
  - intros v s n H. apply parse_field. left. left. eauto.
  - intros v s n H. apply parse_field. left. right. left. eauto.
  - intros v a b lo hi Ha Hb. exists (zrange lo (hi + 1)). split; [|split].
    + apply parse_field. left. right. right. do 4 eexists. eauto.
    + apply zrange_sorted.
    + intros p. rewrite in_zrange. lia.
  - intros v a b c qx qy qp HV Ha Hb Hc.
    destruct (quad_errors v qx qy qp HV) as [[id E]|E]; rewrite E.
    + apply parse_field. right. do 7 eexists. eauto 8.
    + pose proof (numeral_int _ _ Ha) as Ia. pose proof (numeral_int _ _ Hb) as Ib.
      pose proof (numeral_int _ _ Hc) as Ic.
      apply digit_of_numeral in Ha as [Da _]. apply digit_of_numeral in Hb as [Db _].
      apply digit_of_numeral in Hc as [Dc _].
      unfold parse_cores_string. destruct (quad_not_others a b c Da) as [-> ->].
      assert (core_quad (String a ("." ++ String b ("." ++ String c ""))) =
        Some (String a "", String b "", String c "")) as Q.
      { apply core_quad_spec. exists a, b, c. auto 8. }
      unfold version_parse_cores_string. rewrite Q.
      destruct HV; subst v; rewrite Ia, Ib, Ic; cbn [bind]; rewrite E; reflexivity.
Qed.
Print Assumptions C17_meaning.

(** Everything else raises: ValueError for two or more dashes before a numeral,
    KeyError for quad coordinates that no core has, ConfigException otherwise. *)
Theorem C17_other_texts_raise :
  forall v s, (forall r, ~ core_field_on v s r) ->
    (parse_cores_string v s = Err ValueError /\ exists t, s = "--" ++ t) \/
    (parse_cores_string v s = Err KeyError /\ (v = V201 \/ v = V248) /\
       exists a b c, s = String a ("." ++ String b ("." ++ String c ""))) \/
    parse_cores_string v s = Err ConfigExc.
Proof.
  intros v s N. unfold parse_cores_string. destruct (core_single s) eqn:S.
  { apply core_single_cases in S as [(n & H)|[(t & n & H & ->)|(t & -> & E)]].
    - exfalso. apply (N [n]). left. left. eauto.
    - exfalso. apply (N [(- n)%Z]). left. right. left. eauto.
    - left. rewrite E. eauto. }
  destruct (core_range s) as [[a b]|] eqn:R.
  { exfalso. apply core_range_spec in R as (-> & [A1 A2] & [B1 B2]).
    eapply N. left. right. right. exists a, b. do 2 eexists.
    split; [repeat split; auto|]. split; [repeat split; auto|]. eauto. }
  right. destruct (core_quad s) as [[[qx qy] qp]|] eqn:Q.
  2: { right. unfold version_parse_cores_string. rewrite Q. destruct v; auto. }
  apply core_quad_spec in Q as Q'. destruct Q' as (a & b & c & Ha & Hb & Hc & E & -> & -> & ->).
  assert (v = V201 \/ v = V248 \/ version_parse_cores_string v s = Err ConfigExc) as C
    by (destruct v; auto).
  assert (v = V201 \/ v = V248 \/ (v <> V201 /\ v <> V248)) as [HV|[HV|[X1 X2]]]
    by (destruct v; auto; right; right; split; discriminate).
  3: { right. destruct C as [C|[C|C]]; auto; congruence. }
  all: assert (v = V201 \/ v = V248) as HV' by auto;
    left; unfold version_parse_cores_string; rewrite Q;
    rewrite (numeral_int _ _ (digit_numeral a Ha)), (numeral_int _ _ (digit_numeral b Hb)),
            (numeral_int _ _ (digit_numeral c Hc)); cbn [bind];
    destruct (quad_errors v (digit_value a) (digit_value b) (digit_value c) HV') as [[id I]|I];
    [exfalso; apply (N [id]); right; exists a, b, c; do 4 eexists;
     split; [exact HV'|]; split; [apply digit_numeral; exact Ha|];
     split; [apply digit_numeral; exact Hb|]; split; [apply digit_numeral; exact Hc|]; eauto
    |subst v; rewrite I; cbn [bind]; split; auto; split; eauto].
Qed.
Print Assumptions C17_other_texts_raise.

Example C17_case :
  numeral "017" 17 /\ parse_cores_string V5 "017" = Ok [17%Z] /\
  parse_cores_string V5 "-4" = Ok [(-4)%Z] /\
  parse_cores_string V5 "3-6" = Ok [3; 4; 5; 6]%Z /\
  parse_cores_string V5 "6-3" = Ok [] /\
  parse_cores_string V248 "1.2.3" = (do id <- qx_qy_qp_to_id V248 1 2 3 ; Ok [id]) /\
  (exists id, qx_qy_qp_to_id V248 1 2 3 = Ok id) /\
  parse_cores_string V248 "9.9.9" = Err KeyError /\
  parse_cores_string V5 "1.2.3" = Err ConfigExc /\
  parse_cores_string V5 "--5" = Err ValueError /\
  parse_cores_string V5 " 5" = Err ConfigExc.
Proof.
  repeat match goal with |- _ /\ _ => split end; try (vm_compute; reflexivity).
  - split; [discriminate|]. split; [|reflexivity].
    cbn [every]. unfold digit_char. repeat split; vm_compute; lia.
  - eexists. vm_compute. reflexivity.
Qed.

(** ** C45 *)

Lemma joined_split texts : texts <> [] -> Forall (without ":") texts ->
  split_on ":" (joined texts) = texts.
Proof. intros. apply split_concat; auto. Qed.

Lemma chip_text_plain s c : chip_text s c -> without ":" s /\ ~ without "," s.
Proof.
  intros (tx & ty & Hx & Hy & P & ->). unfold without.
  pose proof (without_of_int _ _ ":" Hx (or_intror eq_refl)) as Wx.
  pose proof (without_of_int _ _ ":" Hy (or_intror eq_refl)) as Wy. unfold without in *.
  destruct (ich_ip c) as [a|]; cbn [with_ip plain] in *; unfold without in *;
    repeat (rewrite every_app || cbn [every append]); split;
    try (repeat split; (discriminate || tauto)); intros X; decompose [and] X; congruence.
Qed.

Lemma link_text_plain s c : link_text s c -> without ":" s /\ ~ without "," s.
Proof.
  intros (tx & ty & tl & Hx & Hy & Hl & P & ->). unfold without.
  pose proof (without_of_int _ _ ":" Hx (or_intror eq_refl)) as Wx.
  pose proof (without_of_int _ _ ":" Hy (or_intror eq_refl)) as Wy.
  pose proof (without_of_int _ _ ":" Hl (or_intror eq_refl)) as Wl. unfold without in *.
  destruct (ili_ip c) as [a|]; cbn [with_ip plain] in *; unfold without in *;
    repeat (rewrite every_app || cbn [every append]); split;
    try (repeat split; (discriminate || tauto)); intros X; decompose [and] X; congruence.
Qed.

(** A list of texts of which one contains a comma is not the word none. *)
Lemma joined_not_none texts t : In t texts -> ~ without "," t -> lower (joined texts) <> "none".
Proof.
  intros H N E. apply lower_comma in E. apply N. clear N. unfold joined in E.
  induction texts as [|s l IH]; [destruct H|].
  destruct l as [|u l].
  - destruct H as [->|[]]. exact E.
  - change (String.concat ":" (s :: u :: l)) with (s ++ ":" ++ String.concat ":" (u :: l)) in E.
    unfold without in *. apply every_app in E as [E1 E2]. cbn in E2. destruct E2 as [_ E2].
    destruct H as [->|H]; auto.
Qed.

Section Items.
  Context {A : Type} (eqb : A -> A -> bool) (E : forall a b, eqb a b = true <-> a = b)
    (single : string -> res A) (txt : string -> A -> Prop)
    (fwd : forall s a, txt s a -> single s = Ok a)
    (bwd : forall s a, without ":" s -> single s = Ok a -> txt s a)
    (shape : forall s a, txt s a -> without ":" s /\ ~ without "," s)
    (errs : forall s e, single s = Err e -> e = ValueError).

  Let parse := parse_items eqb (fun s => do a <- single s ; Ok [a]).

  Lemma parse_forward texts items : texts <> [] -> Forall2 txt texts items ->
    exists l, parse (Some (joined texts)) = Ok l /\ NoDup l /\ (forall x, In x l <-> In x items).
  Proof using E fwd shape.
    intros N F. unfold parse, parse_items.
    assert (String.eqb (lower (joined texts)) "none" = false) as ->.
    { apply String.eqb_neq. inversion F as [|t a ? ? H1 H2]; subst; [congruence|].
      apply joined_not_none with t; [left; auto|]. apply (shape t a); auto. }
    rewrite joined_split; auto.
    2: { clear N. induction F; constructor; auto. eapply shape; eauto. }
    destruct (parse_fold eqb E (fun s => do a <- single s ; Ok [a]) txt (fun a => [a]))
      with (texts := texts) (bs := items) (acc := @nil A) as (l & L1 & L2 & L3); auto.
    - intros s a H. rewrite (fwd s a H). auto.
    - constructor.
    - exists l. split; auto. split; auto. intros x. rewrite L3. cbn.
      rewrite in_flat_map. split; [intros [[]|(y & Hy & [->|[]])]; auto|intros H].
      right. exists x. cbn. auto.
  Qed.

  Lemma parse_backward s l : parse (Some s) = Ok l ->
    (lower s = "none" /\ l = []) \/
    exists texts items, texts <> [] /\ s = joined texts /\ Forall2 txt texts items.
  Proof using E bwd.
    unfold parse, parse_items. destruct (String.eqb (lower s) "none") eqn:B.
    - apply String.eqb_eq in B. intros X. apply Ok_inj in X. auto.
    - intros H. right. apply parse_fold_inv in H as (ls & F); [|exact E].
      destruct (split_join ":" s) as [J W].
      exists (split_on ":" s), (List.concat ls). split; [apply split_nonempty|]. split; [exact J|].
      clear J. induction F as [|t i ts is H F IH]; [constructor|].
      inversion W; subst. destruct (single t) as [a|] eqn:St; [|discriminate].
      cbn [bind] in H. apply Ok_inj in H. subst i. cbn. constructor; auto.
  Qed.

  Lemma parse_errors s e : parse s = Err e -> e = ValueError.
  Proof using errs.
    unfold parse, parse_items. destruct s as [s|]; [|discriminate].
    destruct (String.eqb (lower s) "none"); [discriminate|].
    apply (parse_fold_err eqb _ (fun e => e = ValueError)). intros t e'.
    destruct (single t) eqn:St; cbn [bind]; [discriminate|]. intros X. injection X as <-. eauto.
  Qed.

  Lemma parse_spec s :
        (lower s = "none" -> parse (Some s) = Ok []) /\
        (forall texts items, texts <> [] -> Forall2 txt texts items -> s = joined texts ->
           exists l, parse (Some s) = Ok l /\ NoDup l /\ (forall x, In x l <-> In x items)) /\
        (lower s <> "none" ->
         (forall texts items, texts <> [] -> Forall2 txt texts items -> s <> joined texts) ->
         parse (Some s) = Err ValueError).
  Proof using E fwd bwd shape errs.
    split; [|split].
    - intros H. unfold parse, parse_items. rewrite H. reflexivity.
    - intros texts items N F ->. apply parse_forward; auto.
    - intros H1 H2. destruct (parse (Some s)) as [l|e] eqn:P.
      + exfalso. apply parse_backward in P as [[P _]|(texts & items & N & J & F)]; [auto|].
        apply (H2 texts items); auto.
      + rewrite (parse_errors _ _ P). reflexivity.
  Qed.
End Items.

(** C45 for chips: None and "none" give no chips; texts of items joined by colons give
    exactly these items; everything else raises ValueError. *)
Theorem C45_down_chips :
  parse_chips None = Ok [] /\
  (forall s, lower s = "none" -> parse_chips (Some s) = Ok []) /\
  (forall texts items, texts <> [] -> Forall2 chip_text texts items ->
     exists l, parse_chips (Some (joined texts)) = Ok l /\ NoDup l /\
       forall c, In c l <-> In c items) /\
  (forall s, lower s <> "none" ->
     (forall texts items, texts <> [] -> Forall2 chip_text texts items -> s <> joined texts) ->
     parse_chips (Some s) = Err ValueError).
Proof.
  pose proof (fun s => parse_spec ignore_chip_eqb ignore_chip_eqb_eq parse_single_chip chip_text
    chip_text_parse chip_parse_text chip_text_plain chip_parse_err s) as P.
  split; [reflexivity|]. split; [|split].
  - intros s H. apply (P s). exact H.
  - intros texts items N F. destruct (P (joined texts)) as (_ & P2 & _).
    apply (P2 texts items); auto.
  - intros s H1 H2. apply (P s); auto.
Qed.
Print Assumptions C45_down_chips.

(** C45 for links. *)
Theorem C45_down_links :
  parse_links None = Ok [] /\
  (forall s, lower s = "none" -> parse_links (Some s) = Ok []) /\
  (forall texts items, texts <> [] -> Forall2 link_text texts items ->
     exists l, parse_links (Some (joined texts)) = Ok l /\ NoDup l /\
       forall c, In c l <-> In c items) /\
  (forall s, lower s <> "none" ->
     (forall texts items, texts <> [] -> Forall2 link_text texts items -> s <> joined texts) ->
     parse_links (Some s) = Err ValueError).
Proof.
  pose proof (fun s => parse_spec ignore_link_eqb ignore_link_eqb_eq parse_single_link link_text
    link_text_parse link_parse_text link_text_plain link_parse_err s) as P.
  split; [reflexivity|]. split; [|split].
  - intros s H. apply (P s). exact H.
  - intros texts items N F. destruct (P (joined texts)) as (_ & P2 & _).
    apply (P2 texts items); auto.
  - intros s H1 H2. apply (P s); auto.
Qed.
Print Assumptions C45_down_links.

(** *** Cores *)
Lemma core_field_without v s ps c : core_field_on v s ps -> c = ","%char \/ c = ":"%char ->
  without c s.
Proof.
  intros H Hc. unfold without.
  assert (forall t n, numeral t n -> every (fun a => a <> c) t) as K.
  { intros t n (_ & D & _). eapply every_impl; [|exact D]. intros x Hx ->.
    unfold digit_char in Hx. destruct Hc; subst c; cbn in Hx; lia. }
  assert ("-"%char <> c /\ "."%char <> c) as [N1 N2] by (destruct Hc; subst; split; discriminate).
  destruct H as [[(n & H & _)|[(t & n & H & -> & _)|(a & b & lo & hi & Ha & Hb & -> & _)]]
    |(a & b & d & qx & qy & qp & id & _ & Ha & Hb & Hd & -> & _)].
  - eauto.
  - cbn. eauto.
  - rewrite every_app. cbn. eauto.
  - apply K in Ha. apply K in Hb. apply K in Hd. cbn in *. tauto.
Qed.

Lemma core_item_fwd v s cs : core_item_on v s cs -> parse_single_core v s = Ok cs.
Proof.
  intros (tx & ty & tp & ps & ip & Wx & Wy & Hp & P & -> & R).
  unfold parse_single_core, new_ignore_core, with_ip.
  pose proof (core_field_without v tp ps "," Hp (or_introl eq_refl)) as Wp.
  apply parse_field in Hp as HP.
  assert (map_res (fun c => do x0 <- py_int tx; do y0 <- py_int ty;
            Ok (mkIgnoreCore x0 y0 c ip)) ps = Ok cs) as M.
  { destruct R as [[-> ->]|(x & y & Hx & Hy & ->)]; [reflexivity|].
    apply py_int_spec in Hx. apply py_int_spec in Hy.
    apply map_res_ok. intros a _. rewrite Hx, Hy. auto. }
  destruct ip as [ip|].
  - rewrite ?app_assoc_s. cbn [append]. rewrite ?app_assoc_s. cbn [append].
    rewrite split_app, split_app, split_app, split_without by (auto; apply P).
    rewrite HP. exact M.
  - cbn [append]. rewrite split_app, split_app, split_without by auto. rewrite HP. exact M.
Qed.

Lemma cores_inv tx ty ip ps : forall cs, map_res (fun c => do x0 <- py_int tx; do y0 <- py_int ty;
            Ok (mkIgnoreCore x0 y0 c ip)) ps = Ok cs ->
  ps = [] /\ cs = [] \/
  exists x y, int_text tx x /\ int_text ty y /\ cs = map (fun p => mkIgnoreCore x y p ip) ps.
Proof.
  intros cs H. destruct ps as [|p ps]; [left; cbn in H; apply Ok_inj in H; auto|]. right.
  destruct (py_int_err tx) as [[x Hx]|Hx]; [|cbn in H; rewrite Hx in H; discriminate].
  destruct (py_int_err ty) as [[y Hy]|Hy]; [|cbn in H; rewrite Hx, Hy in H; discriminate].
  exists x, y. split; [apply py_int_spec; auto|]. split; [apply py_int_spec; auto|].
  rewrite (map_res_ok _ (fun p => mkIgnoreCore x y p ip)) in H.
  - apply Ok_inj in H. auto.
  - intros a _. rewrite Hx, Hy. auto.
Qed.

Lemma core_item_bwd v s cs : without ":" s -> parse_single_core v s = Ok cs -> core_item_on v s cs.
Proof.
  unfold parse_single_core, new_ignore_core. intros W.
  destruct (split_join "," s) as [J F].
  destruct (split_on "," s) as [|x [|y [|l [|ip [|? ?]]]]] eqn:E; try discriminate.
  - destruct (parse_cores_string v l) as [ps|] eqn:P; [|discriminate]. cbn [bind]. intros M.
    apply parse_inv in P. exists x, y, l, ps, None.
    inversion F as [|? ? F1 F']; subst. inversion F' as [|? ? F2 ?]; subst.
    repeat split; auto. apply (cores_inv _ _ _ _ _ M).
  - destruct (parse_cores_string v l) as [ps|] eqn:P; [|discriminate]. cbn [bind]. intros M.
    apply parse_inv in P. exists x, y, l, ps, (Some ip).
    pose proof (Forall_inv F) as F1. apply Forall_inv_tail in F.
    pose proof (Forall_inv F) as F2. apply Forall_inv_tail in F.
    pose proof (Forall_inv F) as F3. apply Forall_inv_tail in F.
    pose proof (Forall_inv F) as F4.
    split; [auto|]. split; [auto|]. split; [auto|]. split; [|split].
    + cbn. split; auto. rewrite J in W. cbn [String.concat append] in W. unfold without in *.
      apply every_app in W as [_ W]. cbn in W. destruct W as [_ W].
      apply every_app in W as [_ W]. cbn in W. destruct W as [_ W].
      apply every_app in W as [_ W]. cbn in W. tauto.
    + rewrite J. cbn [String.concat append with_ip]. rewrite !app_assoc_s. cbn [append].
      rewrite ?app_assoc_s. reflexivity.
    + apply (cores_inv _ _ _ _ _ M).
Qed.

(** C45 for cores: one item. *)
Theorem C45_one_core_item :
  forall v s cs, without ":" s -> (parse_single_core v s = Ok cs <-> core_item_on v s cs).
Proof. intros v s cs W. split; [apply core_item_bwd; auto|apply core_item_fwd]. Qed.
Print Assumptions C45_one_core_item.

(** Every documented text is such an item. *)
Theorem C45_documented_core_text :
  forall v s cs, core_text s cs -> core_item_on v s cs.
Proof.
  intros v s cs (tx & ty & tp & x & y & ps & ip & Hx & Hy & Hp & P & -> & ->).
  exists tx, ty, tp, ps, ip.
  split; [apply (without_of_int _ _ _ Hx); auto|].
  split; [apply (without_of_int _ _ _ Hy); auto|].
  split; [left; auto|]. split; auto. split; auto. right. eauto.
Qed.
Print Assumptions C45_documented_core_text.

Theorem C45_down_cores :
  forall v,
  parse_cores v None = Ok [] /\
  (forall s, lower s = "none" -> parse_cores v (Some s) = Ok []) /\
  (forall texts items, texts <> [] -> Forall (without ":") texts ->
     Forall2 (core_item_on v) texts items ->
     exists l, parse_cores v (Some (joined texts)) = Ok l /\ NoDup l /\
       forall c, In c l <-> exists cs, In cs items /\ In c cs) /\
  (forall s, lower s <> "none" ->
     (forall texts items, texts <> [] -> Forall (without ":") texts ->
        Forall2 (core_item_on v) texts items -> s <> joined texts) ->
     exists e, parse_cores v (Some s) = Err e).
Proof.
  intros v. split; [reflexivity|]. split.
  { intros s H. unfold parse_cores, parse_items. rewrite H. reflexivity. }
  split.
  - intros texts items N W F. unfold parse_cores, parse_items.
    assert (String.eqb (lower (joined texts)) "none" = false) as ->.
    { apply String.eqb_neq. inversion F as [|t a ? ? H1 H2]; subst; [congruence|].
      apply joined_not_none with t; [left; auto|].
      destruct H1 as (tx & ty & tp & ps & ip & _ & _ & _ & _ & -> & _).
      unfold without. destruct ip; cbn [with_ip]; repeat rewrite ?every_app; cbn;
        intros X; decompose [and] X; congruence. }
    rewrite joined_split by auto.
    destruct (parse_fold ignore_core_eqb ignore_core_eqb_eq (parse_single_core v)
      (core_item_on v) (fun i => i) (core_item_fwd v) texts items F [] ltac:(constructor))
      as (l & L1 & L2 & L3).
    exists l. split; auto. split; auto. intros c. rewrite L3, in_flat_map. cbn. firstorder.
  - intros s H1 H2. destruct (parse_cores v (Some s)) as [l|e] eqn:P; [|eauto]. exfalso.
    unfold parse_cores, parse_items in P.
    destruct (String.eqb (lower s) "none") eqn:B; [apply String.eqb_eq in B; auto|].
    apply parse_fold_inv in P as (ls & F); [|apply ignore_core_eqb_eq].
    destruct (split_join ":" s) as [J W].
    apply (H2 (split_on ":" s) ls); [apply split_nonempty|auto| |exact J].
    clear J H2 B. induction F as [|t i ts is H F IH]; [constructor|].
    inversion W; subst. constructor; auto. apply core_item_bwd; auto.
Qed.
Print Assumptions C45_down_cores.

(** An item with the wrong number of fields raises ValueError. *)
Theorem C45_wrong_number_of_fields :
  forall v s, let n := List.length (split_on "," s) in
    ((n <> 2 /\ n <> 3)%nat -> parse_single_chip s = Err ValueError) /\
    ((n <> 3 /\ n <> 4)%nat -> parse_single_core v s = Err ValueError /\
                               parse_single_link s = Err ValueError).
Proof.
  intros v s. unfold parse_single_chip, parse_single_core, parse_single_link.
  destruct (split_on "," s) as [|a [|b [|c [|d [|e l]]]]]; cbn; repeat split; lia || auto.
Qed.
Print Assumptions C45_wrong_number_of_fields.

(** The example in the documentation of the parser of cores (ignore_core.py:136-138)
    has a comma where a colon is needed, and is refused. *)
Theorem C45_documented_example_refuted :
  parse_cores V5 (Some "4,7,3:6,5,-2,10.11.12.13,2,3,2-17") = Err ValueError.
Proof. vm_compute. reflexivity. Qed.

Example C45_case :
  parse_chips (Some "1,2:3, -4,10.0.0.1:1,2") =
    Ok [mkIgnoreChip 1 2 None; mkIgnoreChip 3 (-4) (Some "10.0.0.1")] /\
  parse_chips (Some "NoNe") = Ok [] /\ parse_chips (Some "") = Err ValueError /\
  parse_links (Some "1,2,3:3,4,5,ip") =
    Ok [mkIgnoreLink 1 2 3 None; mkIgnoreLink 3 4 5 (Some "ip")] /\
  parse_cores V5 (Some "4,7,3:6,5,-2,10.11.12.13:2,3,2-4") =
    Ok [mkIgnoreCore 4 7 3 None; mkIgnoreCore 6 5 (-2) (Some "10.11.12.13");
        mkIgnoreCore 2 3 2 None; mkIgnoreCore 2 3 3 None; mkIgnoreCore 2 3 4 None].
Proof. vm_compute. repeat split. Qed.

(** ** C46 *)

(** C46: positive ids are virtual already; zero or negative ids name the physical
    core, which is looked up; nothing beyond physical core 17 is known. *)
Theorem C46_virtual_core :
  forall x y p ip,
    ((0 < p)%Z -> virtual_p (mkIgnoreCore x y p ip) = Ok p) /\
    ((-17 <= p <= 0)%Z -> virtual_p (mkIgnoreCore x y p ip) =
       Ok (if (- p =? 10)%Z then 0%Z else (- p + 1)%Z)) /\
    ((p < -17)%Z -> virtual_p (mkIgnoreCore x y p ip) = Err KeyError).
Proof.
  intros x y p ip. unfold virtual_p. cbn [ico_p]. split; [|split]; intros H.
  - destruct (Z.gtb_spec p 0); [auto|lia].
  - destruct (Z.gtb_spec p 0); [lia|].
    assert (In p (zrange (-17) 1)) as I by (apply in_zrange; lia).
    vm_compute in I. decompose [or] I; subst; try contradiction; reflexivity.
  - destruct (Z.gtb_spec p 0); [lia|]. unfold dgetitem.
    destruct (dget Z.eqb _ (0 - p)%Z) eqn:G; auto. apply (dget_in Z.eqb Z.eqb_eq) in G.
    unfold TYPICAL_PHYSICAL_VIRTUAL_MAP in G. cbn [In] in G. decompose [or] G; try contradiction;
    match goal with X : (_, _) = (_, _) |- _ => injection X; intros; lia end.
Qed.
Print Assumptions C46_virtual_core.

Theorem C46_distinct_physical_distinct_virtual :
  forall c d n, (ico_p c <= 0)%Z -> (ico_p d <= 0)%Z ->
    virtual_p c = Ok n -> virtual_p d = Ok n -> ico_p c = ico_p d.
Proof.
  intros [x y p i] [x' y' q j] n Hp Hq. cbn [ico_p] in *.
  destruct (C46_virtual_core x y p i) as (_ & P1 & P2).
  destruct (C46_virtual_core x' y' q j) as (_ & Q1 & Q2).
  destruct (Z.lt_ge_cases p (-17)); [rewrite P2 by lia; discriminate|].
  destruct (Z.lt_ge_cases q (-17)); [rewrite Q2 by lia; discriminate|].
  rewrite P1, Q1 by lia. intros A B. apply Ok_inj in A. apply Ok_inj in B.
  destruct (Z.eqb_spec (- p) 10), (Z.eqb_spec (- q) 10); lia.
Qed.
Print Assumptions C46_distinct_physical_distinct_virtual.

(** Not onto the 18 virtual ids 0..17: 18 is produced and 11 never. *)
Theorem C46_onto_the_virtual_ids_refuted :
  virtual_p (mkIgnoreCore 0 0 (-17) None) = Ok 18%Z /\
  forall c, (ico_p c <= 0)%Z -> virtual_p c <> Ok 11%Z.
Proof.
  split; [reflexivity|]. intros [x y p i] Hp. cbn [ico_p] in Hp.
  destruct (C46_virtual_core x y p i) as (_ & P1 & P2).
  destruct (Z.lt_ge_cases p (-17)); [rewrite P2 by lia; discriminate|].
  rewrite P1 by lia. intros A. apply Ok_inj in A. destruct (Z.eqb_spec (- p) 10); lia.
Qed.
Print Assumptions C46_onto_the_virtual_ids_refuted.

Example C46_case :
  virtual_p (mkIgnoreCore 1 2 7 None) = Ok 7%Z /\ virtual_p (mkIgnoreCore 1 2 (-7) None) = Ok 8%Z /\
  virtual_p (mkIgnoreCore 1 2 0 None) = Ok 1%Z /\ virtual_p (mkIgnoreCore 1 2 (-10) None) = Ok 0%Z /\
  virtual_p (mkIgnoreCore 1 2 (-18) None) = Err KeyError.
Proof. repeat split; reflexivity. Qed.
