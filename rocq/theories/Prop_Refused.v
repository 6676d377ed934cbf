(** C86: which texts json.load refuses. *)
From Coq Require Import Lia ZifyBool ZifyNat String Ascii.
From Verif Require Import Model_Py Model_Version Model_Machine Model_Str Model_Virtual Model_Text Model_Json Model_JsonText
  Spec_Str Spec_JsonText Proof_Str Proof_Repr Proof_JsonText Prop_JsonText.
Open Scope string_scope.
Open Scope list_scope.

Lemma piece_after t r : has_outside_piece r -> has_outside_piece (t ++ r).
Proof. intros (p & q & -> & O). exists (t ++ p)%string, q. rewrite app_assoc_s. auto. Qed.

Lemma piece_cons c r : has_outside_piece r -> has_outside_piece (String c r).
Proof. intros H. apply (piece_after (String c "") r H). Qed.

Lemma piece_skip s : has_outside_piece (skip_space s) -> has_outside_piece s.
Proof. intros H. destruct (skip_split s) as (w & _ & E). rewrite E. apply piece_after. auto. Qed.

Lemma then_outside {A B} (x : scanned A) (f : A -> string -> scanned B) :
  then_found x f = Outside -> x = Outside \/ exists a q, x = Found a q /\ f a q = Outside.
Proof. destruct x; cbn; intros E; [right; eauto|discriminate|auto]. Qed.

Lemma string_outside n : forall s, (String.length s <= n)%nat -> scan_string s = Outside -> has_outside_piece s.
Proof.
  induction n as [|n IH]; intros s L E; (destruct s as [|c r]; [discriminate E|]); cbn [String.length] in L; [lia|].
  rewrite scan_string_eq in E. destruct (Ascii.eqb c QUOTE); [discriminate|].
  destruct (Ascii.eqb_spec c BACKSLASH) as [->|_].
  - destruct r as [|e r]; [discriminate|]. cbn [String.length] in L. destruct (Ascii.eqb_spec e "u") as [->|_].
    + destruct r as [|h1 [|h2 [|h3 [|h4 r]]]]; try discriminate E. cbn [String.length] in L.
      destruct (hex4 h1 h2 h3 h4) as [k|] eqn:H; [|discriminate].
      destruct (Nat.ltb_spec k 256) as [K|K].
      * apply then_outside in E as [E|(a & q & _ & E)]; [|discriminate]. do 6 apply piece_cons. apply IH; [lia|auto].
      * exists "", (String BACKSLASH (String "u" (String h1 (String h2 (String h3 (String h4 r)))))). split; [reflexivity|].
        unfold hex4 in H.
        destruct (hex_code h1) as [a|] eqn:A; [|discriminate]. destruct (hex_code h2) as [b|] eqn:B; [|discriminate].
        destruct (hex_code h3) as [x|] eqn:C; [|discriminate]. destruct (hex_code h4) as [d|] eqn:D; [|discriminate].
        injection H as <-. exists h1, h2, h3, h4, r, a, b. split; [reflexivity|].
        apply hex_small in C. apply hex_small in D. split; [apply hex_spec; auto|]. split; [apply hex_spec; auto|]. lia.
    + destruct (simple_escape e) as [z|]; [|discriminate].
      apply then_outside in E as [E|(a & q & _ & E)]; [|discriminate]. do 2 apply piece_cons. apply IH; [lia|auto].
  - destruct (nat_of_ascii c <? 32)%nat; [discriminate|].
    apply then_outside in E as [E|(a & q & _ & E)]; [|discriminate]. apply piece_cons. apply IH; [lia|auto].
Qed.

Lemma number_outside s : scan_number s <> Outside.
Proof.
  unfold scan_number. repeat match goal with |- context [match ?x with _ => _ end] => destruct x end; discriminate.
Qed.

(** With enough fuel a scanner answers [Outside] only for such a piece. *)
Lemma outside n :
  (forall s, 2 * String.length s + 1 <= n -> scan n s = Outside -> has_outside_piece s)%nat /\
  (forall s, 2 * String.length s + 2 <= n -> scan_items n s = Outside -> has_outside_piece s)%nat /\
  (forall s, 2 * String.length s + 2 <= n -> scan_members n s = Outside -> has_outside_piece s)%nat.
Proof.
  induction n as [|n (IV & II & IM)]; [repeat split; intros s L; lia|]. split; [|split]; intros s L E.
  - rewrite scan_S in E. destruct s as [|c r]; [discriminate|]. cbn [String.length] in L.
    pose proof (skip_length r) as SL.
    destruct (Ascii.eqb c QUOTE).
    { apply then_outside in E as [E|(a & q & _ & E)]; [|discriminate]. apply piece_cons. eapply string_outside; eauto. }
    destruct (Ascii.eqb c "{").
    { destruct (after "}" (skip_space r)); [discriminate|].
      apply then_outside in E as [E|(a & q & _ & E)]; [|discriminate]. apply piece_cons, piece_skip, IM; [lia|auto]. }
    destruct (Ascii.eqb c "[").
    { destruct (after "]" (skip_space r)); [discriminate|].
      apply then_outside in E as [E|(a & q & _ & E)]; [|discriminate]. apply piece_cons, piece_skip, II; [lia|auto]. }
    destruct (after "null" (String c r)); [discriminate|]. destruct (after "true" (String c r)); [discriminate|].
    destruct (after "false" (String c r)); [discriminate|]. destruct (number_outside _ E).
  - rewrite items_S in E. apply then_outside in E as [E|(v & q & F & E)]; [apply IV; [lia|auto]|].
    apply (proj1 (sound n)) in F as (t & _ & ->). rewrite length_app in L. apply piece_after, piece_skip.
    pose proof (skip_length q) as SL. unfold item_end in E. destruct (skip_space q) as [|c r]; [discriminate|].
    cbn [String.length] in SL. destruct (Ascii.eqb c "]"); [discriminate|]. destruct (Ascii.eqb c ","); [|discriminate].
    apply then_outside in E as [E|(a & z & _ & E)]; [|discriminate]. pose proof (skip_length r).
    apply piece_cons, piece_skip, II; [lia|auto].
  - rewrite members_S in E. destruct (after (String QUOTE "") s) as [r|] eqn:A; [|discriminate].
    apply after_spec in A. subst s. apply piece_after. rewrite length_app in L. cbn [String.length] in L.
    apply then_outside in E as [E|(k & q & F & E)]; [eapply string_outside; eauto|].
    apply (string_sound _ _ _ _ (le_n _)) in F as (body & _ & ->). apply piece_after, piece_cons, piece_skip.
    rewrite length_app in L. cbn [String.length] in L. pose proof (skip_length q) as SL.
    destruct (after ":" (skip_space q)) as [r|] eqn:A; [|discriminate]. apply after_spec in A. rewrite A in *.
    apply piece_after, piece_skip. rewrite length_app in SL. cbn [String.length] in SL. pose proof (skip_length r) as SR.
    apply then_outside in E as [E|(v & z & F & E)]; [apply IV; [lia|auto]|].
    apply (proj1 (sound n)) in F as (t & _ & F). rewrite F in *. rewrite length_app in SR.
    apply piece_after, piece_skip. pose proof (skip_length z) as SZ. unfold member_end in E.
    destruct (skip_space z) as [|c y]; [discriminate|].
    cbn [String.length] in SZ. destruct (Ascii.eqb c "}"); [discriminate|]. destruct (Ascii.eqb c ","); [|discriminate].
    apply then_outside in E as [E|(a & x & _ & E)]; [|discriminate]. pose proof (skip_length y).
    apply piece_cons, piece_skip, IM; [lia|auto].
Qed.

(** C86.  A text with no escape of a character above 255 anywhere in it is a JSON document
    and read as that, or is refused with a ValueError. *)
Theorem C86_refused :
  forall text, ~ has_outside_piece text ->
    (exists v, document text v /\ json_load text = Some (Ok v)) \/
    ((forall v, ~ document text v) /\ json_load text = Some (Err ValueError)).
Proof.
  intros text N. destruct (json_load text) as [[v|e]|] eqn:E.
  - left. exists v. split; auto. apply C86_what_is_read. auto.
  - right. split.
    + intros v D. apply C86_what_is_read in D. congruence.
    + unfold json_load in E. destruct (scan _ _) as [j r| |]; [destruct (skip_space r)|..]; try discriminate E; injection E as <-; reflexivity.
  - exfalso. apply N. unfold json_load in E. destruct (scan _ _) as [j r| |] eqn:S; [destruct (skip_space r); discriminate E|discriminate E|].
    apply piece_skip. pose proof (skip_length text). eapply (proj1 (outside _)); [|exact S]. lia.
Qed.
Print Assumptions C86_refused.

(** The file that holds such a text, but no JSON object, is refused with a ValueError. *)
Theorem C86_file_refused :
  forall v fs path text, dget String.eqb fs path = Some text -> ~ has_outside_piece text ->
    (forall o, ~ document text (JObj o)) ->
    machine_from_json_path v fs path = Some (Err ValueError).
Proof.
  intros v fs path text G N D. destruct (C86_file_read v fs path) as [_ F]. destruct (F text G) as [_ R].
  destruct (R D) as [X|X]; [|exact X]. exfalso. unfold machine_from_json_path in X. rewrite G in X.
  destruct (C86_refused text N) as [(j & _ & E)|[_ E]]; rewrite E in X; discriminate X.
Qed.
Print Assumptions C86_file_refused.

(** A check for such pieces, for the case *)
Definition piece_b (s : string) : bool :=
  match s with
  | String c (String e (String a (String b _))) =>
      Ascii.eqb c BACKSLASH && Ascii.eqb e "u" && negb (Ascii.eqb a "0" && Ascii.eqb b "0")
  | _ => false
  end.
Fixpoint has_piece_b (s : string) : bool :=
  piece_b s || match s with String _ r => has_piece_b r | EmptyString => false end.

Lemma piece_checked s : outside_piece s -> piece_b s = true.
Proof.
  intros (a & b & x & d & r & n & k & -> & A & B & C).
  cbn [String.append]. change (negb (Ascii.eqb a "0" && Ascii.eqb b "0") = true).
  apply negb_true_iff. destruct (Ascii.eqb_spec a "0") as [->|]; [|reflexivity].
  destruct (Ascii.eqb_spec b "0") as [->|]; [|reflexivity]. exfalso.
  apply hex_spec in A. apply hex_spec in B. injection A as <-. injection B as <-. lia.
Qed.

Lemma pieces_checked s : has_outside_piece s -> has_piece_b s = true.
Proof.
  intros (p & q & -> & O). induction p as [|c p IH].
  - cbn [String.append]. apply piece_checked in O. destruct q; cbn [has_piece_b]; rewrite O; reflexivity.
  - cbn [String.append has_piece_b]. rewrite IH. apply orb_true_r.
Qed.

(** Not vacuous: a text that is cut off has no such piece, is no document, and is refused. *)
Example C86_refused_case :
  let text := "{""width"": 8.5e-3, ""height"": [10, ""\u0041""" in
  ~ has_outside_piece text /\ json_load text = Some (Err ValueError).
Proof.
  split; [|vm_compute; reflexivity]. intros H. apply pieces_checked in H. vm_compute in H. discriminate H.
Qed.
