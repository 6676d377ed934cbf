(** C53: the exact text of multicast routing entries. *)
From Coq Require Import Lia ZifyBool String Ascii Permutation Sorted.
From Verif Require Import Model_Py Model_Core Model_Str Model_Virtual Model_Text Model_Routing
  Model_Subsets Model_Repr Spec_Str Spec_Routing Proof_Py Proof_Str Proof_Virtual Proof_Routing
  Proof_Repr.
Open Scope string_scope.
Open Scope list_scope.
Open Scope Z_scope.

(** ** Hexadecimal numbers *)
Definition hex_sign (c : ascii) (d : Z) : Prop :=
  0 <= d /\ String.get (Z.to_nat d) "0123456789ABCDEF" = Some c.
Inductive hex_numeral : string -> Z -> Prop :=
| hex_one c d : hex_sign c d -> hex_numeral (String c "") d
| hex_more s n c d : hex_numeral s n -> hex_sign c d -> hex_numeral (s ++ String c "") (16 * n + d).

(** [n] in at least [width] digits, more only as far as needed *)
Definition hex_in (width : Z) (s : string) (n : Z) : Prop :=
  let len := Z.of_nat (String.length s) in
  hex_numeral s n /\ width <= len /\ (width < len -> 16 ^ (len - 1) <= n).

(** Eight characters, of which one is the sign of a negative number *)
Definition hex8 (s : string) (n : Z) : Prop :=
  if n <? 0 then exists t, s = String "-" t /\ hex_in 7 t (- n) else hex_in 8 s n.

Lemma hex_sign_digit d : 0 <= d < 16 -> hex_sign (hex_digit d) d.
Proof.
  intros H. split; [lia|].
  assert (forallb (fun n => match String.get n "0123456789ABCDEF" with
    | Some c => Ascii.eqb c (hex_digit (Z.of_nat n)) | None => false end) (seq 0 16) = true) as T by (vm_compute; reflexivity).
  rewrite forallb_forall in T. specialize (T (Z.to_nat d)). rewrite in_seq in T. specialize (T ltac:(lia)).
  rewrite Z2Nat.id in T by lia. destruct (String.get _ _) as [c|]; [|discriminate].
  apply Ascii.eqb_eq in T. congruence.
Qed.

Lemma length_app_s s t : String.length (s ++ t) = (String.length s + String.length t)%nat.
Proof. induction s; cbn; auto. Qed.

Lemma hex_digits_numeral fuel : forall n acc, 0 <= n < 2 ^ (Z.of_nat fuel + 1) ->
  exists s, hex_digits fuel n acc = (s ++ acc)%string /\ hex_numeral s n /\
    1 <= Z.of_nat (String.length s) /\
    (1 < Z.of_nat (String.length s) -> 16 ^ (Z.of_nat (String.length s) - 1) <= n).
Proof.
  induction fuel as [|f IH]; intros n acc H.
  - cbn in H. assert (n mod 16 = n) as M by (apply Z.mod_small; lia).
    exists (String (hex_digit n) ""). cbn [hex_digits]. rewrite M. split; [reflexivity|].
    split; [constructor; apply hex_sign_digit; lia|]. cbn. lia.
  - cbn [hex_digits]. pose proof (Z.mod_pos_bound n 16 ltac:(lia)) as B.
    destruct (n / 16 =? 0) eqn:E.
    + assert (n mod 16 = n) as M by (apply Z.eqb_eq in E; pose proof (Z.div_mod n 16); lia).
      exists (String (hex_digit (n mod 16)) ""). split; [reflexivity|].
      split; [rewrite M; constructor; apply hex_sign_digit; lia|]. cbn. lia.
    + destruct (IH (n / 16) (String (hex_digit (n mod 16)) acc)) as (s & E1 & E2 & E3 & E4).
      { split; [apply Z.div_pos; lia|]. apply Z.div_lt_upper_bound; [lia|].
        rewrite Nat2Z.inj_succ in H. replace (Z.succ (Z.of_nat f) + 1) with ((Z.of_nat f + 1) + 1) in H by lia.
        rewrite Z.pow_add_r in H by lia. lia. }
      exists (s ++ String (hex_digit (n mod 16)) "")%string. rewrite E1. rewrite app_assoc_s. split; [reflexivity|].
      split; [|rewrite length_app_s; cbn [String.length]; split; [lia|]].
      * assert (n = 16 * (n / 16) + n mod 16) as D by (apply Z.div_mod; lia).
        rewrite D at 2. constructor; auto. apply hex_sign_digit; lia.
      * intros _. replace (Z.of_nat (String.length s + 1) - 1) with (Z.of_nat (String.length s) - 1 + 1) by lia.
        rewrite Z.pow_add_r by lia. change (16 ^ 1) with 16.
        assert (16 ^ (Z.of_nat (String.length s) - 1) <= n / 16) as G.
        { destruct (Z.eq_dec (Z.of_nat (String.length s)) 1) as [->|]; [|apply E4; lia].
          cbn. apply Z.eqb_neq in E. pose proof (Z.div_pos n 16). lia. }
        pose proof (Z.mul_div_le n 16 ltac:(lia)). lia.
Qed.

Lemma hex_numeral_zeros k : forall s n, hex_numeral s n -> hex_numeral (string_of_list_ascii (repeat "0"%char k) ++ s) n.
Proof.
  assert (forall s n, hex_numeral s n -> hex_numeral (String "0" s) n) as Z.
  { induction 1 as [c d H|s n c d H IH S].
    - change (String "0" (String c "")) with (String "0" "" ++ String c "")%string.
      replace d with (16 * 0 + d) by lia. constructor; auto. constructor. split; [lia|reflexivity].
    - change (String "0" (s ++ String c "")) with (String "0" s ++ String c "")%string. constructor; auto. }
  induction k as [|k IH]; intros s n H; [exact H|].
  change (hex_numeral (String "0" (string_of_list_ascii (repeat "0"%char k) ++ s)) n). apply Z. apply IH. auto.
Qed.

Lemma length_zeros k : String.length (string_of_list_ascii (repeat "0"%char k)) = k.
Proof. induction k; cbn; auto. Qed.

Lemma padded n w : 0 <= n -> 1 <= Z.of_nat w ->
  hex_in (Z.of_nat w) (string_of_list_ascii (repeat "0"%char (w - String.length (hex n))) ++ hex n) n.
Proof.
  intros H W. destruct (hex_digits_numeral (Z.to_nat (Z.log2 n)) n "") as (s & E & C & L & G).
  { split; auto. rewrite Z2Nat.id by apply Z.log2_nonneg.
    destruct (Z.eq_dec n 0) as [->|N]; [cbn; lia|]. apply Z.log2_spec; lia. }
  unfold hex. rewrite E, app_nil_s. unfold hex_in. rewrite length_app_s, length_zeros.
  split; [apply hex_numeral_zeros; auto|]. split; [lia|].
  intros K. replace (w - String.length s + String.length s)%nat with (String.length s) by lia.
  apply G. lia.
Qed.

Lemma format_hex8 n : hex8 (format_08X n) n.
Proof.
  unfold hex8, format_08X, cat. cbn [fold_right]. rewrite app_nil_s. destruct (n <? 0) eqn:S.
  - eexists. split; [reflexivity|]. cbn [String.length]. replace (Z.abs n) with (- n) by lia.
    apply (padded (- n) 7); lia.
  - cbn [String.length append]. replace (Z.abs n) with n by lia. rewrite Nat.sub_0_r. apply (padded n 8); lia.
Qed.

(** C53: key and mask in eight upper case hexadecimal digits, then the processors and the
    links, each once and in ascending order, and the mark of a defaultable entry. *)
Theorem C53_exact_text :
  forall m, made_entry (mc_entry m) ->
  exists key mask ps ls,
    mc_repr m = cat ["0x"; key; ":0x"; mask; ":{"; String.concat ", " (map dec ps); "}:{";
                     String.concat ", " (map dec ls); "}"; if mc_defaultable m then "(defaultable)" else ""] /\
    hex8 key (mc_key m) /\ hex8 mask (mc_mask m) /\
    StronglySorted Z.lt ps /\ same_members ps (mc_processor_ids m) /\
    StronglySorted Z.lt ls /\ same_members ls (mc_link_ids m).
Proof.
  intros m M. destruct (ids_nodup _ M) as [P L].
  assert (forall l, NoDup l -> StronglySorted Z.lt (zsorted l)) as S.
  { intros l N. assert (NoDup (zsorted l)) as N' by (eapply Permutation_NoDup; [symmetry; apply zsorted_perm|auto]).
    pose proof (zsorted_sorted l) as Q. revert N' Q. generalize (zsorted l). clear. induction l as [|a l IH]; intros N Q; constructor.
    - apply IH; [apply NoDup_cons_iff in N; tauto|inversion Q; auto].
    - inversion Q as [|? ? _ F]; subst. apply NoDup_cons_iff in N as [N _]. apply Forall_forall. intros x I.
      rewrite Forall_forall in F. specialize (F x I). assert (x <> a) by congruence. lia. }
  exists (format_08X (mc_key m)), (format_08X (mc_mask m)), (zsorted (mc_processor_ids m)), (zsorted (mc_link_ids m)).
  split; [|split; [apply format_hex8|split; [apply format_hex8|]]].
  - unfold mc_repr, entry_repr, cat, comma_join, mc_processor_ids, mc_link_ids, mc_defaultable, defaultable.
    cbn [fold_right]. rewrite !app_nil_s, ?app_assoc_s. cbn [append]. reflexivity.
  - split; [apply S; exact P|]. split; [intros x; apply zsorted_in|].
    split; [apply S; exact L|]. intros x; apply zsorted_in.
Qed.
Print Assumptions C53_exact_text.

Lemma hex_sign_range c d : hex_sign c d -> 0 <= d < 16.
Proof.
  intros [H G]. split; auto. destruct (Z_lt_ge_dec d 16) as [|B]; auto. exfalso.
  assert (forall s k, (String.length s <= k)%nat -> String.get k s = None) as N.
  { induction s as [|a s IH]; intros [|k] L; cbn in *; auto; [lia|]. apply IH. lia. }
  rewrite N in G; [discriminate|]. cbn. lia.
Qed.

Lemma hex_sign_inj c d d' : hex_sign c d -> hex_sign c d' -> d = d'.
Proof.
  intros H H'. pose proof (hex_sign_range _ _ H). pose proof (hex_sign_range _ _ H').
  pose proof (hex_sign_digit d ltac:(lia)) as [_ A]. pose proof (hex_sign_digit d' ltac:(lia)) as [_ A'].
  destruct H as [_ H], H' as [_ H']. rewrite H in A. rewrite H' in A'.
  apply (f_equal (fun o => match o with Some c => hex_value c | None => 0 end)) in A.
  apply (f_equal (fun o => match o with Some c => hex_value c | None => 0 end)) in A'.
  cbn beta iota in A, A'. rewrite hex_digit_value in A, A' by lia. lia.
Qed.

Lemma hex_numeral_range s n : hex_numeral s n -> 0 <= n < 16 ^ Z.of_nat (String.length s).
Proof.
  induction 1 as [c d H|s n c d H IH S].
  - apply hex_sign_range in H. cbn. lia.
  - apply hex_sign_range in S. rewrite length_app_s. cbn [String.length]. rewrite Nat2Z.inj_add, Z.pow_add_r by lia.
    change (16 ^ Z.of_nat 1) with 16. lia.
Qed.

Lemma snoc_inj s t c d : (s ++ String c "" = t ++ String d "")%string -> s = t /\ c = d.
Proof.
  revert t. induction s as [|a s IH]; intros [|b t] E; cbn in E.
  - injection E as ->. auto.
  - injection E as -> E. destruct t; discriminate.
  - injection E as -> E. destruct s; discriminate.
  - injection E as -> E. apply IH in E as [-> ->]. auto.
Qed.

Lemma hex_numeral_value s n n' : hex_numeral s n -> hex_numeral s n' -> n = n'.
Proof.
  intros H. revert n'. induction H as [c d H|s n c d H IH S]; intros n' H'.
  - inversion H' as [c' d' X E|t m c' d' X S E]; subst; [eapply hex_sign_inj; eauto|].
    exfalso. change (String c "") with ("" ++ String c "")%string in E. apply snoc_inj in E as [-> _].
    inversion X as [|u k e f Y S' E]. destruct u; discriminate.
  - inversion H' as [c' d' X E|t m c' d' X S' E]; subst.
    + exfalso. change (String c' "") with ("" ++ String c' "")%string in E. apply snoc_inj in E as [<- _].
      inversion H as [|u k e f Y S' E]. destruct u; discriminate.
    + apply snoc_inj in E as [-> ->]. rewrite (IH _ X), (hex_sign_inj _ _ _ S S'). auto.
Qed.

Lemma hex_numeral_length s n : hex_numeral s n -> (1 <= String.length s)%nat.
Proof. destruct 1; [cbn; lia|]. rewrite length_app_s. cbn. lia. Qed.

Lemma hex_numeral_text s n : hex_numeral s n -> forall s', hex_numeral s' n -> String.length s = String.length s' -> s = s'.
Proof.
  induction 1 as [c d H|s n c d H IH S]; intros s' H' L.
  - inversion H' as [c' d' X E|t m c' d' X S E]; subst.
    + destruct H as [_ H], X as [_ X]. congruence.
    + apply hex_numeral_length in X. rewrite length_app_s in L. cbn in L. lia.
  - inversion H' as [c' d' X E E'|t m c' d' X S' E E']; subst s'.
    + apply hex_numeral_length in H. rewrite length_app_s in L. cbn in L. lia.
    + pose proof (hex_sign_range _ _ S). pose proof (hex_sign_range _ _ S').
      change (16 * m + d' = 16 * n + d) in E'.
      assert (m = n) as -> by lia. assert (d' = d) as -> by lia.
      rewrite (IH t); auto.
      * destruct S as [_ S], S' as [_ S']. congruence.
      * rewrite !length_app_s in L. cbn in L. lia.
Qed.

Lemma hex_in_text w s s' n : hex_in w s n -> hex_in w s' n -> s = s'.
Proof.
  assert (forall s s', hex_in w s n -> hex_in w s' n -> (String.length s < String.length s')%nat -> False) as K.
  { intros a b (A1 & A2 & _) (B1 & B2 & B3) L. apply hex_numeral_range in A1.
    assert (16 ^ Z.of_nat (String.length a) <= 16 ^ (Z.of_nat (String.length b) - 1)) by (apply Z.pow_le_mono_r; lia).
    lia. }
  intros A B. destruct (Nat.lt_trichotomy (String.length s) (String.length s')) as [L|[L|L]].
  - exfalso. eauto.
  - destruct A as [A _], B as [B _]. eapply hex_numeral_text; eauto.
  - exfalso. eauto.
Qed.

(** Such a number has one text, and such a text is of one number. *)
Theorem C53_hexadecimal_texts :
  (forall s n n', hex8 s n -> hex8 s n' -> n = n') /\
  (forall s s' n, hex8 s n -> hex8 s' n -> s = s') /\
  (forall n, exists s, hex8 s n).
Proof.
  assert (forall t n, hex_in 8 (String "-" t) n -> False) as N.
  { intros t n (H & _). assert (forall s n, hex_numeral s n -> forall t, s <> String "-" t) as K.
    { clear. induction 1 as [c d H|s n c d H IH S]; intros t E.
      - injection E as -> _. pose proof (hex_sign_range _ _ H). pose proof (hex_sign_digit d ltac:(lia)) as [_ A].
        destruct H as [_ H]. rewrite H in A. pose proof (hex_digit_char d ltac:(lia)) as B.
        assert (hex_digit d = "-"%char) as C by congruence. rewrite C in B.
        destruct B as [B|B]; [unfold digit_char in B|]; cbn in B; lia.
      - destruct s as [|a s]; [inversion H as [|u k e f Y S' E']; destruct u; discriminate|].
        cbn in E. injection E as -> _. apply (IH s). auto. }
    apply (K _ _ H t). auto. }
  split; [|split].
  - intros s n n'. unfold hex8. destruct (n <? 0) eqn:A, (n' <? 0) eqn:B.
    + intros (t & -> & H & _) (t' & E & H' & _). injection E as <-. pose proof (hex_numeral_value _ _ _ H H'). lia.
    + intros (t & -> & _) H'. exfalso. eauto.
    + intros H' (t & -> & _). exfalso. eauto.
    + intros (H & _) (H' & _). eapply hex_numeral_value; eauto.
  - intros s s' n. unfold hex8. destruct (n <? 0).
    + intros (t & -> & H) (t' & -> & H'). f_equal. eapply hex_in_text; eauto.
    + apply hex_in_text.
  - intros n. eexists. apply format_hex8.
Qed.
Print Assumptions C53_hexadecimal_texts.

Example C53_exact_case : hex8 "0000ABCD" 43981 /\ ~ hex8 "ABCD" 43981 /\ hex8 "-00000FF" (-255).
Proof.
  split; [apply (format_hex8 43981)|]. split; [|apply (format_hex8 (-255))].
  intros (_ & H & _). cbn in H. lia.
Qed.

