(** C95: the texts that exceptions quote are Python literals. *)
From Coq Require Import Lia String Ascii.
From Verif Require Import Model_Py Model_Str Model_Text Model_Told Spec_Quote Proof_Str.
Open Scope string_scope.
Open Scope list_scope.
Open Scope nat_scope.

Lemma hex_digit_char n : n < 16 -> hex_char n (hex_digit n).
Proof. intros L. unfold hex_char. do 16 (destruct n as [|n]; [reflexivity|]). lia. Qed.
Lemma hex_char_below n a : hex_char n a -> n < 16.
Proof.
  unfold hex_char. intros H. destruct (Nat.lt_ge_cases n 16) as [L|L]; auto.
  do 16 (destruct n as [|n]; [lia|]). destruct n; discriminate H.
Qed.
Lemma hex_char_digit n a : hex_char n a -> a = hex_digit n.
Proof. intros H. pose proof (hex_digit_char n (hex_char_below n a H)) as K. unfold hex_char in *. congruence. Qed.
Lemma hex_char_inj n n' a : hex_char n a -> hex_char n' a -> n = n'.
Proof.
  intros H H'. pose proof (hex_char_below _ _ H). pose proof (hex_char_below _ _ H').
  apply hex_char_digit in H, H'. subst a.
  do 16 (destruct n as [|n]; [do 16 (destruct n' as [|n']; [first [reflexivity|discriminate H']|]); lia|]). lia.
Qed.

Definition visible_b (c : ascii) : bool := negb (unprintable c).
Lemma visible_spec c : visible c <-> unprintable c = false.
Proof.
  unfold visible, unprintable. pose proof (nat_ascii_bounded c) as B. set (n := nat_of_ascii c) in *. clearbody n.
  rewrite !Bool.orb_false_iff, Bool.andb_false_iff, Nat.ltb_ge, !Nat.leb_gt, Nat.eqb_neq. lia.
Qed.

(** Unfolds [repr_char] once. *)
Lemma char_written quote c : quote = single \/ quote = double -> written quote c (repr_char quote c).
Proof.
  intros Q. unfold repr_char.
  destruct (Ascii.eqb_spec c quote) as [E|N]; [cbn [orb]; apply (escaped quote c); auto|].
  destruct (Ascii.eqb_spec c "\") as [E|N']; [cbn [orb]; apply (escaped quote c); auto|]. cbn [orb].
  destruct (Ascii.eqb_spec c "009") as [->|T]; [apply a_tab|].
  destruct (Ascii.eqb_spec c "010") as [->|NL]; [apply a_newline|].
  destruct (Ascii.eqb_spec c "013") as [->|R]; [apply a_return|].
  destruct (unprintable c) eqn:U.
  - pose proof (nat_ascii_bounded c) as B.
    apply (by_number quote c (nat_of_ascii c / 16) (nat_of_ascii c mod 16)); auto.
    + rewrite visible_spec. congruence.
    + apply Nat.div_mod. discriminate.
    + apply hex_digit_char. apply Nat.div_lt_upper_bound; [discriminate|]. exact B.
    + apply hex_digit_char. apply Nat.mod_upper_bound. discriminate.
  - apply (as_it_is quote c); auto. apply visible_spec. auto.
Qed.
Lemma written_repr quote c t : quote = single \/ quote = double -> written quote c t -> t = repr_char quote c.
Proof.
  intros Q W. pose proof (char_written quote c Q) as W'. revert W'. generalize (repr_char quote c). intros t' W'.
  assert (VQ : visible quote) by (destruct Q as [-> | ->]; apply visible_spec; reflexivity).
  assert (VB : visible backslash) by (apply visible_spec; reflexivity).
  assert (NT : forall d, d = tab \/ d = newline \/ d = return_ -> ~ visible d).
  { intros d D. rewrite visible_spec. destruct D as [-> |[-> | ->]]; discriminate. }
  assert (D : (visible c /\ c <> quote /\ c <> backslash) \/ (visible c /\ (c = quote \/ c = backslash)) \/ ~ visible c).
  { destruct (unprintable c) eqn:U.
    - right. right. rewrite visible_spec. congruence.
    - apply visible_spec in U. destruct (Ascii.eqb_spec c quote); [auto|]. destruct (Ascii.eqb_spec c backslash); auto. }
  inversion W as [c1 V1 N1 M1|c1 E1|E1|E1|E1|c1 h1 l1 a1 b1 V1 T1 NL1 R1 S1 A1 B1]; subst c1 || idtac;
  inversion W' as [c2 V2 N2 M2|c2 E2|E2|E2|E2|c2 h2 l2 a2 b2 V2 T2 NL2 R2 S2 A2 B2]; subst c2 || idtac; try reflexivity.
  all: try (exfalso; tauto).
  all: try (exfalso; subst c; destruct D as [D|[D|D]]; try tauto; destruct D as [D _]; revert D; apply NT; tauto).
  all: try (exfalso; subst c; discriminate).
  all: try (exfalso; destruct E1 as [-> | ->]; tauto).
  all: try (exfalso; destruct E2 as [-> | ->]; tauto).
  all: try congruence.
  all: try (exfalso; subst c; revert V1; apply NT; tauto).
  all: try (exfalso; subst c; revert V2; apply NT; tauto).
  1-3: exfalso; apply (NT c); [subst c; tauto|]; destruct E1 as [-> | ->]; assumption.
  1-3: exfalso; apply (NT c); [subst c; tauto|]; destruct E2 as [-> | ->]; assumption.
  assert (h2 = h1 /\ l2 = l1) as [-> ->].
  { pose proof (hex_char_below _ _ B1). pose proof (hex_char_below _ _ B2). lia. }
  unfold hex_char in *. congruence.
Qed.

Lemma chars_written quote s : quote = single \/ quote = double -> written_all quote s (repr_chars quote s).
Proof.
  intros Q. induction s as [|c s IH]; cbn [repr_chars]; [apply written_none|]. apply written_next; auto using char_written.
Qed.
Lemma written_chars quote s u : quote = single \/ quote = double -> written_all quote s u -> u = repr_chars quote s.
Proof.
  intros Q W. induction W as [|c s t u W _ IH]; cbn [repr_chars]; auto. rewrite IH, (written_repr quote c t); auto.
Qed.
Lemma occurs_has c s : has_char c s = true <-> occurs c s.
Proof.
  induction s as [|a s IH]; cbn; [split; [discriminate|tauto]|]. rewrite Bool.orb_true_iff, IH, Ascii.eqb_eq. tauto.
Qed.

Theorem C95_quoted : forall s t, literal s t <-> t = repr_str s.
Proof.
  intros s t. unfold repr_str. pose proof (occurs_has single s) as S. pose proof (occurs_has double s) as D.
  change (has_char "'" s) with (has_char single s). change (has_char """" s) with (has_char double s).
  destruct (has_char single s && negb (has_char double s)) eqn:Q.
  - apply Bool.andb_true_iff in Q as [QS QD]. apply Bool.negb_true_iff in QD.
    assert (~ occurs double s) as ND by (rewrite <- D, QD; discriminate). apply S in QS. split.
    + intros L. inversion L as [u _ _ W|u [N|N] W]; subst; try tauto.
      apply written_chars in W; [|auto]. subst u. reflexivity.
    + intros ->. unfold cat. cbn. apply (in_double s (repr_chars double s)); auto. apply chars_written. auto.
  - assert (N : ~ occurs single s \/ occurs double s).
    { apply Bool.andb_false_iff in Q as [Q|Q].
      - left. rewrite <- S, Q. discriminate.
      - right. apply Bool.negb_false_iff in Q. apply D. auto. }
    split.
    + intros L. inversion L as [u A B W|u _ W]; subst; try tauto.
      apply written_chars in W; [|auto]. subst u. reflexivity.
    + intros ->. unfold cat. cbn. apply (in_single s (repr_chars single s)); auto. apply chars_written. auto.
Qed.
Print Assumptions C95_quoted.

(** A text can be read back from its literal. *)
Lemma written_first quote c c' t t' u u' : quote = single \/ quote = double ->
  written quote c t -> written quote c' t' -> (t ++ u)%string = (t' ++ u')%string -> c = c' /\ u = u'.
Proof.
  intros Q W W'.
  assert (NQ : quote <> backslash /\ quote <> "t"%char /\ quote <> "n"%char /\ quote <> "r"%char /\ quote <> "x"%char).
  { destruct Q as [-> | ->]; repeat split; discriminate. }
  inversion W as [c1 V1 N1 M1|c1 E1|E1|E1|E1|c1 h1 l1 a1 b1 V1 T1 NL1 R1 S1 A1 B1]; subst;
  inversion W' as [c2 V2 N2 M2|c2 E2|E2|E2|E2|c2 h2 l2 a2 b2 V2 T2 NL2 R2 S2 A2 B2]; subst; cbn; intros E.
  all: try (injection E as E; split; congruence).
  all: try discriminate E.
  all: try (exfalso; injection E as E; destruct NQ as (? & ? & ? & ? & ?); unfold backslash in *;
            repeat match goal with H : _ = _ \/ _ = _ |- _ => destruct H end; congruence).
  injection E as -> -> ->. split; auto.
  assert (h2 = h1) as -> by (eapply hex_char_inj; eauto). assert (l2 = l1) as -> by (eapply hex_char_inj; eauto).
  rewrite <- (ascii_nat_embedding c), <- (ascii_nat_embedding c'). congruence.
Qed.
Lemma written_start quote c t u v : quote = single \/ quote = double -> written quote c t ->
  (t ++ u)%string <> String quote v.
Proof.
  intros Q W E. assert (NQ : quote <> backslash) by (destruct Q as [-> | ->]; discriminate).
  inversion W; subst; cbn in E; injection E as E _; unfold backslash in *; congruence.
Qed.
Lemma written_back quote s u : quote = single \/ quote = double -> written_all quote s u ->
  forall s' u', written_all quote s' u' -> (u ++ String quote "")%string = (u' ++ String quote "")%string -> s = s'.
Proof.
  intros Q W. induction W as [|c s t u C W IH]; intros s' u' W' E; inversion W' as [|c' s1 t' u1 C' W1]; subst; auto.
  - exfalso. rewrite app_assoc_s in E. cbn in E. symmetry in E. exact (written_start _ _ _ _ _ Q C' E).
  - exfalso. rewrite app_assoc_s in E. cbn in E. exact (written_start _ _ _ _ _ Q C E).
  - rewrite !app_assoc_s in E. destruct (written_first _ _ _ _ _ _ _ Q C C' E) as [-> E']. f_equal. eauto.
Qed.

Theorem C95_read_back : forall s s' t, literal s t -> literal s' t -> s = s'.
Proof.
  intros s s' t L L'. inversion L as [u _ _ W|u _ W]; subst; inversion L' as [u' _ _ W' E|u' _ W' E]; subst.
  - eapply (written_back double); [|exact W|exact W'|]; auto.
  - eapply (written_back single); [|exact W|exact W'|]; auto.
Qed.
Print Assumptions C95_read_back.

Example C95_case :
  map repr_str ["2, 4"; "it's"; "say ""it's"""; String tab (String (ascii_of_nat 7) (String (ascii_of_nat 255) "\"))] =
  ["'2, 4'"; """it's"""; "'say ""it\'s""'"; ("'\t\x07" ++ String (ascii_of_nat 255) "\\'")%string].
Proof. reflexivity. Qed.
