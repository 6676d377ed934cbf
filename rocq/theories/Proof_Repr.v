From Coq Require Import Lia ZifyBool Sorted Permutation DecimalString String Ascii.
From Verif Require Import Model_Py Model_Core Model_Str Model_Virtual Model_Text Model_Routing
  Model_Subsets Model_Repr Spec_Str Spec_Routing Proof_Py Proof_Str Proof_Virtual Proof_Routing.
Open Scope string_scope.
Open Scope list_scope.
Open Scope Z_scope.

(** ** Reading a number back *)
Lemma until (P : ascii -> Prop) c d r s : ~ P c -> ~ P d -> forall a b,
  every P a -> every P b -> (a ++ String c r = b ++ String d s)%string ->
  a = b /\ c = d /\ r = s.
Proof.
  intros C D a. induction a as [|x a IH]; intros [|y b] A B E; cbn in *.
  - injection E as -> ->. auto.
  - injection E as -> _. tauto.
  - injection E as -> _. tauto.
  - injection E as -> E. destruct (IH b) as (-> & -> & ->); tauto.
Qed.

Definition num_char (c : ascii) : Prop := digit_char c \/ c = "-"%char.

Lemma dec_num n : every num_char (dec n).
Proof.
  assert (forall u, every num_char (NilZero.string_of_uint u)) as K.
  { intros u. unfold NilZero.string_of_uint.
    assert (every num_char (NilEmpty.string_of_uint u)) as E.
    { eapply every_impl; [|apply uint_digits]. intros c H. left. exact H. }
    destruct u; auto. cbn. split; [left; unfold digit_char; cbn; lia|auto]. }
  unfold dec. destruct (Z.to_int n); cbn [NilZero.string_of_int]; auto.
  cbn. split; [right; auto|]. apply K.
Qed.

Lemma dec_nonempty n : dec n <> "".
Proof.
  unfold dec. destruct (Z.to_int n) as [u|u]; cbn; [|discriminate].
  unfold NilZero.string_of_uint. destruct u; discriminate.
Qed.

Definition num_b (c : ascii) : bool := is_digit c || Ascii.eqb c "-".
Lemma num_b_spec c : num_b c = true <-> num_char c.
Proof. unfold num_b, num_char. rewrite Bool.orb_true_iff, is_digit_spec, Ascii.eqb_eq. tauto. Qed.
Lemma not_num c : num_b c = false -> ~ num_char c.
Proof. intros E H. apply num_b_spec in H. congruence. Qed.

Lemma dec_then a b c d r s : num_b c = false -> num_b d = false ->
  (dec a ++ String c r = dec b ++ String d s)%string -> a = b /\ c = d /\ r = s.
Proof.
  intros C D E. destruct (until num_char c d r s (not_num c C) (not_num d D) _ _ (dec_num a) (dec_num b) E)
    as (X & Y & W). split; auto. apply dec_inj; auto.
Qed.

Lemma cat_cons a l : cat (a :: l) = (a ++ cat l)%string.
Proof. reflexivity. Qed.

Lemma app_inj_l a : forall b c, (a ++ b = a ++ c)%string -> b = c.
Proof. induction a as [|x a IH]; cbn; intros b c E; auto. injection E as E. auto. Qed.

(** ** Lists *)
Section Join.
Context {A : Type}.
Variables (f : A -> string) (e : ascii).
Hypothesis Hf : forall a b c d r s, c = ","%char \/ c = e -> d = ","%char \/ d = e ->
  (f a ++ String c r = f b ++ String d s)%string -> a = b /\ c = d /\ r = s.
Hypothesis Hs : forall a r s, (f a ++ r)%string <> String e s.
Hypothesis He : e <> ","%char.

Lemma join_cons a l : comma_join (map f (a :: l)) =
  (f a ++ match l with [] => "" | _ => ", " ++ comma_join (map f l) end)%string.
Proof. destruct l; cbn; [rewrite app_nil_s|]; reflexivity. Qed.

Lemma join_inj l : forall l' r s,
  (comma_join (map f l) ++ String e r = comma_join (map f l') ++ String e s)%string ->
  l = l' /\ r = s.
Proof using Hf Hs He.
  induction l as [|a l IH]; intros [|b l'] r s E.
  - cbn in E. injection E as ->. auto.
  - rewrite join_cons in E. rewrite app_assoc_s in E. cbn [map comma_join String.concat append] in E.
    exfalso. symmetry in E. eapply Hs; apply E.
  - rewrite join_cons in E. rewrite app_assoc_s in E. cbn [map comma_join String.concat append] in E.
    exfalso. eapply Hs; apply E.
  - rewrite !join_cons, !app_assoc_s in E. destruct l as [|x l], l' as [|y l']; cbn [append] in E.
    + apply Hf in E; auto. destruct E as (-> & _ & ->). auto.
    + apply Hf in E; auto. destruct E as (_ & X & _). congruence.
    + apply Hf in E; auto. destruct E as (_ & X & _). congruence.
    + apply Hf in E; auto. destruct E as (-> & _ & X). injection X as X.
      apply (IH (y :: l')) in X. destruct X as [X ->]. split; congruence.
Qed.
End Join.

Lemma dec_list_inj e l l' r s : num_b e = false -> e <> ","%char ->
  (comma_join (map dec l) ++ String e r = comma_join (map dec l') ++ String e s)%string -> l = l' /\ r = s.
Proof.
  intros N C. apply join_inj; auto.
  - intros a b c d r0 s0 X Y. apply dec_then; [destruct X as [->| ->]|destruct Y as [->| ->]]; auto.
  - intros a r0 s0 X. pose proof (dec_num a) as D. pose proof (dec_nonempty a) as E.
    destruct (dec a) as [|x t]; [congruence|]. cbn in X, D. injection X as -> _.
    apply (not_num e N). tauto.
Qed.

(** ** Sorted ids *)
Lemma sorted_unique l : forall l', StronglySorted Z.le l -> StronglySorted Z.le l' -> NoDup l -> NoDup l' ->
  (forall x, In x l <-> In x l') -> l = l'.
Proof.
  induction l as [|a l IH]; intros [|b l'] S S' N N' E; auto.
  - exfalso. apply (E b). left; auto.
  - exfalso. apply (E a). left; auto.
  - apply StronglySorted_inv in S. apply StronglySorted_inv in S'. destruct S as [S F], S' as [S' F'].
    rewrite Forall_forall in F, F'. inversion_clear N as [|? ? N1 N2]. inversion_clear N' as [|? ? N1' N2'].
    assert (a = b) as ->.
    { assert (In a (b :: l')) as [X|X] by (apply E; left; auto); auto.
      assert (In b (a :: l)) as [Y|Y] by (apply E; left; auto); auto.
      specialize (F _ Y). specialize (F' _ X). lia. }
    f_equal. apply IH; auto. intros x. split; intros H.
    + assert (In x (b :: l')) as [X|X] by (apply E; right; auto); auto. subst. tauto.
    + assert (In x (b :: l)) as [X|X] by (apply E; right; auto); auto. subst. tauto.
Qed.

Lemma sorted_same a b : NoDup a -> NoDup b -> (zsorted a = zsorted b <-> same_members a b).
Proof.
  intros A B. split.
  - intros E x. rewrite <- (zsorted_in a), <- (zsorted_in b), E. tauto.
  - intros E. apply sorted_unique; try apply zsorted_sorted.
    + eapply Permutation_NoDup; [symmetry; apply zsorted_perm|auto].
    + eapply Permutation_NoDup; [symmetry; apply zsorted_perm|auto].
    + intros x. rewrite !zsorted_in. apply E.
Qed.

Lemma ids_nodup e : made_entry e -> NoDup (processor_ids e) /\ NoDup (link_ids e).
Proof.
  assert (forall l, NoDup (frozenset l)) as F.
  { intros l. apply set_adds_nodup; [intros; apply Z.eqb_eq|constructor]. }
  assert (forall r, NoDup (fst (calc_routing_ids r)) /\ NoDup (snd (calc_routing_ids r))) as C.
  { intros r. split; apply NoDup_filter; vm_compute; repeat constructor; cbn; intuition discriminate. }
  assert (forall e, (e_processor_ids e = None /\ e_link_ids e = None \/
    exists ps ls, e_processor_ids e = Some ps /\ e_link_ids e = Some ls /\ NoDup ps /\ NoDup ls) ->
    NoDup (processor_ids e) /\ NoDup (link_ids e)) as K.
  { intros e0 [[A B]|(ps & ls & A & B & N)].
    - pose proof (ids_none e0 A B) as E. apply (f_equal fst) in E as E1. apply (f_equal snd) in E as E2.
      cbn [fst snd] in E1, E2. rewrite E1, E2. apply C.
    - destruct (ids_some e0 ps ls A B) as [-> ->]. auto. }
  intros M. apply K. induction M as [ps ls ip il d r e E|a b e A IA B IB E|e A IA|e A IA].
  - apply new_cases in E as [(P & L & -> & -> & -> & -> & E1 & E2 & E3)|(n & _ & _ & _ & _ & _ & ->)];
      [|left; auto].
    right. do 2 eexists. repeat split; eauto.
  - destruct (merge_ok a b) as (x & X & _ & _ & Y). rewrite E in X. injection X as <-.
    destruct Y as [Y|[_ ->]]; auto.
  - unfold read_processor_ids. destruct (e_processor_ids e) as [ps|] eqn:EP; [cbn; rewrite EP; auto|].
    destruct (C (e_route e)) as [C1 C2]. destruct (calc_routing_ids (e_route e)) as [ps ls]. right.
    exists ps, ls. auto.
  - unfold read_link_ids. destruct (e_link_ids e) as [ps|] eqn:EP; [cbn; rewrite EP; auto|].
    destruct (C (e_route e)) as [C1 C2]. destruct (calc_routing_ids (e_route e)) as [ps ls]. right.
    exists ps, ls. auto.
Qed.

(** ** Hexadecimal numbers *)
Definition hex_value (c : ascii) : Z :=
  let n := Z.of_nat (nat_of_ascii c) in if n <? 58 then n - 48 else n - 55.
Fixpoint hex_from (acc : Z) (s : string) : Z :=
  match s with "" => acc | String c r => hex_from (16 * acc + hex_value c) r end.

Lemma hex_digit_value d : 0 <= d < 16 -> hex_value (hex_digit d) = d.
Proof.
  intros H. unfold hex_value, hex_digit. rewrite nat_ascii_embedding by (destruct (d <? 10) eqn:E; lia).
  destruct (d <? 10) eqn:E; rewrite Z2Nat.id by lia.
  - replace (48 + d <? 58) with true by lia. lia.
  - replace (55 + d <? 58) with false by lia. lia.
Qed.

Definition hex_char (c : ascii) : Prop := digit_char c \/ (65 <= nat_of_ascii c <= 70)%nat.

Lemma hex_digit_char d : 0 <= d < 16 -> hex_char (hex_digit d).
Proof.
  intros H. unfold hex_char, digit_char, hex_digit.
  rewrite nat_ascii_embedding by (destruct (d <? 10) eqn:E; lia). destruct (d <? 10) eqn:E; lia.
Qed.

Lemma hex_digits_ok fuel : forall n acc, 0 <= n < 2 ^ (Z.of_nat fuel + 1) ->
  exists s, hex_digits fuel n acc = (s ++ acc)%string /\ every hex_char s /\ hex_from 0 s = n.
Proof.
  induction fuel as [|f IH]; intros n acc H.
  - cbn in H. assert (n mod 16 = n) as M by (apply Z.mod_small; lia).
    exists (String (hex_digit n) ""). cbn [hex_digits]. rewrite M. split; [reflexivity|].
    split; [split; [apply hex_digit_char; lia|exact I]|].
    cbn. rewrite hex_digit_value by lia. lia.
  - cbn [hex_digits]. pose proof (Z.mod_pos_bound n 16 ltac:(lia)) as B.
    destruct (n / 16 =? 0) eqn:E.
    + assert (n mod 16 = n) as M by (apply Z.eqb_eq in E; pose proof (Z.div_mod n 16); lia).
      exists (String (hex_digit (n mod 16)) ""). split; [reflexivity|].
      split; [split; [apply hex_digit_char; lia|exact I]|].
      cbn. rewrite hex_digit_value by lia. lia.
    + destruct (IH (n / 16) (String (hex_digit (n mod 16)) acc)) as (s & E1 & E2 & E3).
      { split; [apply Z.div_pos; lia|]. apply Z.div_lt_upper_bound; [lia|].
        rewrite Nat2Z.inj_succ in H. replace (Z.succ (Z.of_nat f) + 1) with ((Z.of_nat f + 1) + 1) in H by lia.
        rewrite Z.pow_add_r in H by lia. lia. }
      exists (s ++ String (hex_digit (n mod 16)) "")%string. rewrite E1. rewrite app_assoc_s. split; [reflexivity|].
      split; [apply every_app; split; [auto|split; [apply hex_digit_char; lia|exact I]]|].
      assert (forall s a t, hex_from a (s ++ t) = hex_from (hex_from a s) t) as A.
      { clear. induction s; cbn; auto. }
      rewrite A, E3. cbn [hex_from]. rewrite hex_digit_value by lia. pose proof (Z.div_mod n 16). lia.
Qed.

Lemma hex_ok n : 0 <= n -> every hex_char (hex n) /\ hex_from 0 (hex n) = n.
Proof.
  intros H. unfold hex. destruct (hex_digits_ok (Z.to_nat (Z.log2 n)) n "") as (s & E & C & V).
  - split; auto. rewrite Z2Nat.id by apply Z.log2_nonneg.
    destruct (Z.eq_dec n 0) as [->|N]; [cbn; lia|]. apply Z.log2_spec; lia.
  - rewrite E, app_nil_s. auto.
Qed.

Lemma zeros_from k : forall s, hex_from 0 (string_of_list_ascii (repeat "0"%char k) ++ s) = hex_from 0 s.
Proof. induction k; cbn; auto. Qed.
Lemma zeros_hex k : every hex_char (string_of_list_ascii (repeat "0"%char k)).
Proof. induction k; cbn; auto. split; auto. left. unfold digit_char. cbn. lia. Qed.

Lemma format_chars n : every (fun c => hex_char c \/ c = "-"%char) (format_08X n).
Proof.
  unfold format_08X, cat. cbn [fold_right]. rewrite app_nil_s. rewrite !every_app.
  split; [|split]; [destruct (n <? 0); cbn; auto| |]; (eapply every_impl; [|first [apply zeros_hex|apply hex_ok; lia]]);
  intros; left; auto.
Qed.

Lemma format_inj a b : format_08X a = format_08X b -> a = b.
Proof.
  unfold format_08X, cat. cbn [fold_right]. rewrite !app_nil_s.
  destruct (hex_ok (Z.abs a) ltac:(lia)) as [Ha Va]. destruct (hex_ok (Z.abs b) ltac:(lia)) as [Hb Vb].
  assert (forall k s t, every hex_char s -> (string_of_list_ascii (repeat "0"%char k) ++ s)%string <> String "-" t) as N.
  { intros k s t H X. assert (every hex_char (string_of_list_ascii (repeat "0"%char k) ++ s)%string) as Y
      by (apply every_app; split; [apply zeros_hex|auto]). rewrite X in Y. destruct Y as [[Y|Y] _];
    [unfold digit_char in Y|]; cbn in Y; lia. }
  destruct (a <? 0) eqn:A, (b <? 0) eqn:B; cbn [append]; intros E.
  - injection E as E. apply (f_equal (hex_from 0)) in E. rewrite !zeros_from in E. lia.
  - symmetry in E. apply N in E; tauto.
  - apply N in E; tauto.
  - apply (f_equal (hex_from 0)) in E. rewrite !zeros_from in E. lia.
Qed.

Lemma format_then a b c d r s :
  ~ (hex_char c \/ c = "-"%char) -> ~ (hex_char d \/ d = "-"%char) ->
  (format_08X a ++ String c r = format_08X b ++ String d s)%string -> a = b /\ c = d /\ r = s.
Proof.
  intros C D E. destruct (until (fun c => hex_char c \/ c = "-"%char) c d r s C D _ _ (format_chars a) (format_chars b) E)
    as (X & Y & W). split; auto. apply format_inj; auto.
Qed.
