(** The scanner of json.load reads the grammar of Spec_JsonText, and json.dump writes it. *)
From Coq Require Import Lia SpecFloat ZifyBool ZifyNat String Ascii Decimal DecimalString DecimalZ.
From Verif Require Import Model_Py Model_Str Model_Virtual Model_Text Model_Json Model_JsonText
  Spec_Str Spec_JsonText Model_Decimal Spec_Decimal Proof_Decimal Proof_Str Proof_Repr.
Open Scope string_scope.
Open Scope list_scope.

Ltac asso := repeat rewrite app_assoc_s; cbn [String.append].

(** ** White space, prefixes *)
Lemma space_spec c : json_space c = true <-> (code c = 32 \/ code c = 9 \/ code c = 10 \/ code c = 13)%nat.
Proof. unfold json_space, code. lia. Qed.

Lemma skip_blank w : forall s, blank w -> skip_space (w ++ s) = skip_space s.
Proof.
  induction w as [|c w IH]; intros s B; [reflexivity|]. cbn in B. destruct B as [C B]. apply space_spec in C.
  cbn [String.append skip_space]. rewrite C. auto.
Qed.

Lemma skip_split s : exists w, blank w /\ s = (w ++ skip_space s)%string.
Proof.
  induction s as [|c s (w & B & E)]; [exists ""; split; [exact I|reflexivity]|].
  cbn [skip_space]. destruct (json_space c) eqn:C.
  - exists (String c w). apply space_spec in C. split; [split; auto|]. cbn [String.append]. congruence.
  - exists "". split; [exact I|reflexivity].
Qed.

Lemma skip_solid c s : json_space c = false -> skip_space (String c s) = String c s.
Proof. intros E. cbn [skip_space]. rewrite E. reflexivity. Qed.

Lemma length_app a b : String.length (a ++ b) = (String.length a + String.length b)%nat.
Proof. induction a as [|c a IH]; [reflexivity|]. cbn [String.append String.length]. lia. Qed.

Lemma skip_length s : (String.length (skip_space s) <= String.length s)%nat.
Proof. destruct (skip_split s) as (w & _ & E). rewrite E at 2. rewrite length_app. lia. Qed.

Lemma skip_skip s : skip_space (skip_space s) = skip_space s.
Proof. destruct (skip_split s) as (w & B & E). rewrite E at 2. rewrite skip_blank; auto. Qed.

Lemma after_spec p : forall s r, after p s = Some r <-> s = (p ++ r)%string.
Proof.
  induction p as [|a p IH]; intros s r; cbn [after String.append].
  - split; [intros E; injection E as ->; reflexivity|intros ->; reflexivity].
  - destruct s as [|c s]; [split; [discriminate|discriminate]|].
    destruct (Ascii.eqb_spec a c) as [->|N].
    + rewrite IH. split; [intros ->; reflexivity|intros E; injection E as ->; reflexivity].
    + split; [discriminate|]. intros E. injection E as -> ->. congruence.
Qed.

Lemma after_head a p c s : a <> c -> after (String a p) (String c s) = None.
Proof. intros N. cbn [after]. destruct (Ascii.eqb_spec a c); congruence. Qed.

(** ** Strings *)
Lemma hex_spec c n : hex_code c = Some n <-> hex_value_of c n.
Proof.
  unfold hex_value_of. split.
  - destruct c as [[] [] [] [] [] [] [] []]; cbv; intros E; try discriminate; injection E as <-; cbv; auto.
  - intros [E|E]; do 16 (destruct n as [|n]; [injection E as <-; reflexivity|]); cbn in E; destruct n; discriminate.
Qed.

Lemma hex_small c n : hex_code c = Some n -> (n < 16)%nat.
Proof. rewrite hex_spec. intros [E|E]; do 16 (destruct n as [|n]; [lia|]); cbn in E; destruct n; discriminate. Qed.

Lemma hex_zero c : hex_code c = Some O <-> c = "0"%char.
Proof. split; [|intros ->; reflexivity]. rewrite hex_spec. intros [E|E]; injection E as <-; reflexivity. Qed.

Lemma simple_spec e x : simple_escape e = Some x <-> exists n, In (e, n) short_escapes /\ x = ascii_of_nat n.
Proof.
  unfold simple_escape. split.
  - repeat match goal with |- (if Ascii.eqb e ?k then _ else _) = _ -> _ =>
      destruct (Ascii.eqb_spec e k) as [->|_]; [intros E; injection E as <-; eexists; split; [cbn; eauto 12|reflexivity]|] end.
    discriminate.
  - intros (n & I & ->). cbn in I.
    repeat (destruct I as [I|I]; [injection I as <- <-; reflexivity|]). destruct I.
Qed.

Lemma short_not_u e n : In (e, n) short_escapes -> Ascii.eqb e "u" = false.
Proof. intros I. repeat (destruct I as [I|I]; [injection I as <- <-; reflexivity|]). destruct I. Qed.

Lemma scan_string_eq c r : scan_string (String c r) =
      if Ascii.eqb c QUOTE then Found "" r
      else if Ascii.eqb c BACKSLASH then
        match r with
        | EmptyString => NotJson
        | String e r' =>
            if Ascii.eqb e "u" then
              match r' with
              | String h1 (String h2 (String h3 (String h4 r''))) =>
                  match hex4 h1 h2 h3 h4 with
                  | Some n =>
                      if (n <? 256)%nat
                      then then_found (scan_string r'') (fun t rest => Found (String (chr n) t) rest)
                      else Outside
                  | None => NotJson
                  end
              | _ => NotJson
              end
            else
              match simple_escape e with
              | Some x => then_found (scan_string r') (fun t rest => Found (String x t) rest)
              | None => NotJson
              end
        end
      else if (nat_of_ascii c <? 32)%nat then NotJson
      else then_found (scan_string r) (fun t rest => Found (String c t) rest).
Proof. reflexivity. Qed.

Lemma code_eqb c d : Ascii.eqb c d = (code c =? code d)%nat.
Proof.
  destruct (Ascii.eqb_spec c d) as [->|N]; [symmetry; apply Nat.eqb_refl|].
  symmetry. apply Nat.eqb_neq. intros E. apply N. rewrite <- (ascii_nat_embedding c), <- (ascii_nat_embedding d). unfold code in E. congruence.
Qed.

Lemma string_complete body t : chars_text body t -> forall r, scan_string (body ++ String QUOTE r) = Found t r.
Proof.
  induction 1 as [|c t s C Q B H IH|e n t s I H IH|a b n k t s A B H IH]; intros r.
  - reflexivity.
  - cbn [String.append]. rewrite scan_string_eq, !code_eqb. change (code QUOTE) with 34%nat. change (code BACKSLASH) with 92%nat.
    destruct (Nat.eqb_spec (code c) 34); [contradiction|]. destruct (Nat.eqb_spec (code c) 92); [contradiction|].
    fold (code c). destruct (Nat.ltb_spec (code c) 32); [lia|]. rewrite IH. reflexivity.
  - cbn [String.append]. rewrite scan_string_eq. change (Ascii.eqb "\" QUOTE) with false. change (Ascii.eqb "\" BACKSLASH) with true.
    cbv iota. rewrite (short_not_u e n I). assert (simple_escape e = Some (ascii_of_nat n)) as -> by (apply simple_spec; eauto).
    rewrite IH. reflexivity.
  - cbn [String.append]. rewrite scan_string_eq. change (Ascii.eqb "\" QUOTE) with false. change (Ascii.eqb "\" BACKSLASH) with true.
    change (Ascii.eqb "u" "u") with true. cbv iota. apply hex_spec in A, B. unfold hex4. rewrite A, B.
    change (hex_code "0") with (Some O). cbv iota. pose proof (hex_small _ _ A). pose proof (hex_small _ _ B).
    replace (((0 * 16 + 0) * 16 + n) * 16 + k)%nat with (16 * n + k)%nat by lia.
    destruct (Nat.ltb_spec (16 * n + k) 256); [|lia]. rewrite IH. reflexivity.
Qed.

Lemma then_found_inv {A B} (x : scanned A) (f : A -> string -> scanned B) b r :
  then_found x f = Found b r -> exists a q, x = Found a q /\ f a q = Found b r.
Proof. destruct x as [a q| |]; cbn; intros E; [eauto|discriminate|discriminate]. Qed.

Lemma string_sound n : forall s t r, (String.length s <= n)%nat -> scan_string s = Found t r ->
  exists body, chars_text body t /\ s = (body ++ String QUOTE r)%string.
Proof.
  induction n as [|n IH]; intros s t r L E; (destruct s as [|c s]; [discriminate E|]); cbn [String.length] in L; [lia|].
  rewrite scan_string_eq in E. destruct (Ascii.eqb_spec c QUOTE) as [->|NQ].
  { injection E as <- <-. exists "". split; [constructor|reflexivity]. }
  destruct (Ascii.eqb_spec c BACKSLASH) as [->|NB].
  - destruct s as [|e s]; [discriminate E|]. cbn [String.length] in L. destruct (Ascii.eqb_spec e "u") as [->|NU].
    + destruct s as [|h1 [|h2 [|h3 [|h4 s]]]]; try discriminate E. cbn [String.length] in L.
      unfold hex4 in E. destruct (hex_code h1) as [n1|] eqn:H1; [|discriminate E]. destruct (hex_code h2) as [n2|] eqn:H2; [|discriminate E].
      destruct (hex_code h3) as [n3|] eqn:H3; [|discriminate E]. destruct (hex_code h4) as [n4|] eqn:H4; [|discriminate E].
      destruct (Nat.ltb_spec (((n1 * 16 + n2) * 16 + n3) * 16 + n4) 256) as [Lt|]; [|discriminate E].
      assert (n1 = 0 /\ n2 = 0)%nat as [-> ->] by lia. apply hex_zero in H1, H2. subst h1 h2.
      apply then_found_inv in E as (t' & q & E & F). injection F as <- <-.
      destruct (IH s t' q ltac:(lia) E) as (body & C & ->). exists ("\u00" ++ String h3 (String h4 body))%string.
      apply hex_spec in H3, H4. split; [|reflexivity].
      match goal with |- chars_text _ (String (chr ?z) _) =>
        replace (chr z) with (ascii_of_nat (16 * n3 + n4)) by (unfold chr; f_equal; lia) end.
      apply CharsHex; auto.
    + destruct (simple_escape e) as [x|] eqn:S; [|discriminate E]. apply then_found_inv in E as (t' & q & E & F). injection F as <- <-.
      destruct (IH s t' q ltac:(lia) E) as (body & C & ->). apply simple_spec in S as (k & I & ->).
      exists ("\" ++ String e body)%string. split; [apply CharsShort; auto|reflexivity].
  - destruct (Nat.ltb_spec (nat_of_ascii c) 32) as [|G]; [discriminate E|].
    apply then_found_inv in E as (t' & q & E & F). injection F as <- <-.
    destruct (IH s t' q ltac:(lia) E) as (body & C & ->). exists (String c body). split; [|reflexivity].
    assert (forall d, c <> d -> code c <> code d) as K.
    { intros d N Z. apply N. rewrite <- (ascii_nat_embedding c), <- (ascii_nat_embedding d). unfold code in Z. congruence. }
    constructor; auto; [apply (K _ NQ)|apply (K _ NB)].
Qed.

(** ** Numbers *)
Lemma integer_part_eq s : integer_part s =
  let '(sign, body) := match s with String c r => if Ascii.eqb c "-" then ("-", r) else ("", s) | "" => ("", s) end in
  match body with
  | String c r => if Ascii.eqb c "0" then Some ((sign ++ "0")%string, r)
                  else if is_digit c then let '(a, b) := span_digits body in Some ((sign ++ a)%string, b) else None
  | "" => None
  end.
Proof.
  unfold integer_part. destruct s as [|c r]; [reflexivity|].
  assert (forall (A : Type) (x : ascii -> string -> A) (y : A) d t,
    match String d t with String "-" q => x "-"%char q | _ => y end = if Ascii.eqb d "-" then x "-"%char t else y) as K.
  { intros A x y d t. destruct d as [[] [] [] [] [] [] [] []]; reflexivity. }
  assert (forall (A : Type) (x : ascii -> string -> A) (y : A) d t,
    match String d t with String "0" q => x "0"%char q | _ => y end = if Ascii.eqb d "0" then x "0"%char t else y) as K0.
  { intros A x y d t. destruct d as [[] [] [] [] [] [] [] []]; reflexivity. }
  rewrite (K _ (fun _ q => ("-", q))). destruct (Ascii.eqb c "-").
  - destruct r as [|d r]; [reflexivity|]. destruct d as [[] [] [] [] [] [] [] []]; reflexivity.
  - destruct c as [[] [] [] [] [] [] [] []]; reflexivity.
Qed.

(** No digit comes next. *)
Definition no_digit (s : string) : Prop :=
  match s with "" => True | String c _ => is_digit c = false end.

(** What comes after a number does not go on with it. *)
Definition stops (s : string) : Prop :=
  match s with
  | "" => True
  | String c _ => is_digit c = false /\ c <> "."%char /\ c <> "e"%char /\ c <> "E"%char
  end.

Lemma stops_no_digit s : stops s -> no_digit s.
Proof. destruct s; [auto|]. intros (A & _). exact A. Qed.

Lemma stops_fraction s : stops s -> fraction s = (None, s).
Proof.
  destruct s as [|c r]; [reflexivity|]. intros (_ & A & _). unfold fraction.
  destruct (Ascii.eqb_spec c "."); [contradiction|reflexivity].
Qed.

Lemma stops_exponent s : stops s -> exponent s = (None, s).
Proof.
  destruct s as [|c r]; [reflexivity|]. intros (_ & _ & B & C). unfold exponent.
  destruct (Ascii.eqb_spec c "e"); [contradiction|]. destruct (Ascii.eqb_spec c "E"); [contradiction|reflexivity].
Qed.

Lemma span_stops s : forall r, every digit_char s -> no_digit r -> span_digits (s ++ r) = (s, r).
Proof.
  induction s as [|c s IH]; intros r D S.
  - destruct r as [|c r]; [reflexivity|]. cbn [String.append span_digits]. cbn in S. rewrite S. reflexivity.
  - destruct D as [C D]. cbn [String.append span_digits]. apply is_digit_spec in C. rewrite C, IH; auto.
Qed.

Lemma whole_head t n : whole t n -> exists c r, t = String c r /\ digit_char c.
Proof. intros [N _]. eapply numeral_head; eauto. Qed.

Lemma digit_not_minus c : digit_char c -> Ascii.eqb c "-" = false.
Proof. unfold digit_char. intros D. rewrite code_eqb. unfold code. change (nat_of_ascii "-") with 45%nat. lia. Qed.

Lemma whole_part sign t n r : whole t n -> no_digit r ->
  match (t ++ r)%string with
  | String c q => if Ascii.eqb c "0" then Some ((sign ++ "0")%string, q)
                  else if is_digit c then let '(a, b) := span_digits (t ++ r) in Some ((sign ++ a)%string, b) else None
  | "" => None
  end = Some ((sign ++ t)%string, r).
Proof.
  intros [N [->|Z]] S; [reflexivity|]. destruct (numeral_head _ _ N) as (c & q & -> & D).
  cbn [String.append]. destruct (Ascii.eqb_spec c "0") as [->|_]; [destruct (Z q eq_refl)|].
  pose proof D as D'. apply is_digit_spec in D'. rewrite D'. destruct N as (_ & E & _).
  change (String c (q ++ r)) with (String c q ++ r)%string. rewrite span_stops; auto.
Qed.

(** The integer part: a sign and a whole number. *)
Lemma integer_complete sign minus w n r : sign_text sign minus -> whole w n -> no_digit r ->
  integer_part (sign ++ w ++ r) = Some ((sign ++ w)%string, r).
Proof.
  intros S W N. rewrite integer_part_eq. destruct S as [(-> & _)|(-> & _)].
  - pose proof (whole_part "" w n r W N) as E. destruct (whole_head _ _ W) as (c & q & -> & D).
    cbn [String.append] in *. rewrite (digit_not_minus c D). exact E.
  - cbn [String.append]. change (Ascii.eqb "-" "-") with true. cbv iota beta. exact (whole_part "-" w n r W N).
Qed.

Lemma part_sound sign s t r :
  match s with
  | String c q => if Ascii.eqb c "0" then Some ((sign ++ "0")%string, q)
                  else if is_digit c then let '(a, b) := span_digits s in Some ((sign ++ a)%string, b) else None
  | "" => None
  end = Some (t, r) -> exists d k, whole d k /\ t = (sign ++ d)%string /\ s = (d ++ r)%string.
Proof.
  destruct s as [|c q]; [discriminate|]. destruct (Ascii.eqb_spec c "0") as [->|N].
  - intros E. injection E as <- <-. exists "0", 0%Z. split; [|auto]. split; [|auto].
    split; [discriminate|]. split; [|reflexivity]. split; [|exact I]. unfold digit_char. cbn. lia.
  - destruct (is_digit c) eqn:D; [|discriminate]. pose proof (span_spec (String c q)) as K.
    destruct (span_digits (String c q)) as [a b] eqn:SP. destruct K as [K E]. intros F. injection F as <- <-.
    assert (exists a', a = String c a') as [a' ->].
    { cbn [span_digits] in SP. rewrite D in SP. destruct (span_digits q) as [x y]. injection SP as <- _. eauto. }
    exists (String c a'), (value_from 0 (String c a')). split; [|split; auto].
    split; [split; [discriminate|split; auto]|]. right. intros z Z. injection Z as Z _. congruence.
Qed.

Lemma integer_sound s t r : integer_part s = Some (t, r) -> exists sign minus w n,
  sign_text sign minus /\ whole w n /\ t = (sign ++ w)%string /\ s = (t ++ r)%string.
Proof.
  rewrite integer_part_eq. destruct s as [|c s]; [discriminate|].
  destruct (Ascii.eqb_spec c "-") as [->|N]; cbv iota beta; intros I.
  - apply (part_sound "-" s) in I as (d & k & W & -> & E). exists "-", true, d, k. split; [right; auto|]. split; [auto|].
    split; [auto|]. subst s. reflexivity.
  - apply (part_sound "" (String c s)) in I as (d & k & W & -> & E). exists "", false, d, k. split; [left; auto|]. split; [auto|].
    split; [auto|]. exact E.
Qed.

Lemma signed_int sign minus w n : sign_text sign minus -> whole w n -> py_int (sign ++ w) = Ok (if minus then - n else n)%Z.
Proof.
  intros [(-> & ->)|(-> & ->)] [W _].
  - cbn [String.append]. rewrite (numeral_int w n W). reflexivity.
  - rewrite (neg_numeral_int w n W). reflexivity.
Qed.

Lemma whole_number sign minus w n : sign_text sign minus -> whole w n -> number_text (sign ++ w) (if minus then - n else n).
Proof. intros [(-> & ->)|(-> & ->)] W; [left; exact W|right; exists w, n; auto]. Qed.

Lemma number_whole t n : number_text t n -> exists sign minus w k,
  sign_text sign minus /\ whole w k /\ t = (sign ++ w)%string /\ n = (if minus then - k else k)%Z.
Proof.
  intros [W|(d & k & W & -> & ->)].
  - exists "", false, t, n. split; [left; auto|auto].
  - exists "-", true, d, k. split; [right; auto|auto].
Qed.

(** Fractions and exponents. *)
Lemma digits_numeral a : a <> "" -> every digit_char a -> numeral a (value_from 0 a).
Proof. intros. split; [auto|split; auto]. Qed.

Lemma fraction_sound s f r : fraction s = (f, r) -> exists t b places, fraction_text t b places /\ s = (t ++ r)%string /\
  match f with
  | None => t = ""
  | Some ds => numeral ds b /\ places = String.length ds /\ t <> ""
  end.
Proof.
  unfold fraction. destruct s as [|c s]; [intros E; injection E as <- <-; exists "", 0%Z, O; repeat split; left; auto|].
  assert (forall f r, (@None string, String c s) = (f, r) -> exists t b places, fraction_text t b places /\ String c s = (t ++ r)%string /\
    match f with None => t = "" | Some ds => numeral ds b /\ places = String.length ds /\ t <> "" end) as N.
  { intros f0 r0 E. injection E as <- <-. exists "", 0%Z, O. repeat split. left. auto. }
  destruct (Ascii.eqb_spec c ".") as [->|_]; [|apply N]. pose proof (span_spec s) as K.
  destruct (span_digits s) as [a b] eqn:SP. destruct K as [K D]. destruct a as [|x a]; [apply N|].
  intros E. injection E as <- <-. exists ("." ++ String x a)%string, (value_from 0 (String x a)), (String.length (String x a)).
  assert (numeral (String x a) (value_from 0 (String x a))) as NU by (apply digits_numeral; [discriminate|exact D]).
  split; [right; exists (String x a); auto|]. split; [subst s; reflexivity|]. split; [exact NU|]. split; [reflexivity|discriminate].
Qed.

Lemma fraction_complete ds b r : numeral ds b -> no_digit r -> fraction (("." ++ ds) ++ r) = (Some ds, r).
Proof.
  intros (N & D & _) S. cbn [String.append fraction]. change (Ascii.eqb "." ".") with true. cbv iota.
  rewrite span_stops by auto. destruct ds; [contradiction|reflexivity].
Qed.

Lemma exponent_sound s x r : exponent s = (x, r) -> exists t e, exponent_text t e /\ s = (t ++ r)%string /\
  match x with
  | None => t = ""
  | Some (minus, ds) => exists k, numeral ds k /\ e = (if minus then - k else k)%Z /\ t <> ""
  end.
Proof.
  unfold exponent. destruct s as [|c s]; [intros E; injection E as <- <-; exists "", 0%Z; repeat split; left; auto|].
  assert (forall x r, (@None (bool * string), String c s) = (x, r) -> exists t e, exponent_text t e /\ String c s = (t ++ r)%string /\
    match x with None => t = "" | Some (minus, ds) => exists k, numeral ds k /\ e = (if minus then - k else k)%Z /\ t <> "" end) as N.
  { intros x0 r0 E. injection E as <- <-. exists "", 0%Z. repeat split. left. auto. }
  destruct (Ascii.eqb c "e" || Ascii.eqb c "E") eqn:C; [|apply N].
  assert (In (String c "") ["e"; "E"]) as CI.
  { apply orb_prop in C as [C|C]; apply Ascii.eqb_eq in C; subst; cbn; auto. }
  assert (exists sign (minus : bool) body, s = (sign ++ body)%string /\
    (match s with String d q => if Ascii.eqb d "-" then (true, q) else if Ascii.eqb d "+" then (false, q) else (false, s) | "" => (false, s) end) = (minus, body) /\
    (In sign [""; "+"] /\ minus = false \/ sign = "-" /\ minus = true)) as (sign & minus & body & Es & -> & SI).
  { destruct s as [|d q]; [exists "", false, ""; split; [reflexivity|split; [reflexivity|left; cbn; auto]]|].
    destruct (Ascii.eqb_spec d "-") as [->|]; [exists "-", true, q; auto|].
    destruct (Ascii.eqb_spec d "+") as [->|]; [exists "+", false, q|exists "", false, (String d q)];
      (split; [reflexivity|split; [reflexivity|left; cbn; auto]]). }
  pose proof (span_spec body) as K. destruct (span_digits body) as [a b]. destruct K as [K D]. destruct a as [|y a]; [apply N|].
  intros E. injection E as <- <-.
  assert (numeral (String y a) (value_from 0 (String y a))) as NU by (apply digits_numeral; [discriminate|exact D]).
  exists (String c "" ++ sign ++ String y a)%string, (if minus then - value_from 0 (String y a) else value_from 0 (String y a))%Z.
  split; [|split; [|exists (value_from 0 (String y a)); split; [exact NU|split; [reflexivity|discriminate]]]].
  - right. exists (String c ""), sign, (String y a), (value_from 0 (String y a)). split; [exact CI|]. split; [exact NU|]. split; [reflexivity|].
    destruct SI as [[SI ->]|[-> ->]]; auto.
  - rewrite Es, K. asso. reflexivity.
Qed.

Lemma exponent_complete e sign ds k r : In e ["e"; "E"] -> In sign [""; "+"; "-"] -> numeral ds k -> no_digit r ->
  exponent ((e ++ sign ++ ds) ++ r) = (Some (String.eqb sign "-", ds), r).
Proof.
  intros E S (N & D & _) R. destruct ds as [|c ds]; [contradiction|].
  assert (span_digits (String c ds ++ r) = (String c ds, r)) as SP by (apply span_stops; auto).
  assert (Ascii.eqb c "-" = false) as M by (apply digit_not_minus; apply D).
  assert (Ascii.eqb c "+" = false) as P.
  { destruct D as [D _]. unfold digit_char in D. rewrite code_eqb. unfold code. change (nat_of_ascii "+") with 43%nat. lia. }
  cbn [String.append] in SP.
  destruct E as [<-|[<-|[]]]; destruct S as [<-|[<-|[<-|[]]]]; cbn [String.append exponent];
    [rewrite M, P| | |rewrite M, P| |]; cbn - [span_digits]; rewrite SP; reflexivity.
Qed.

Lemma exponent_no_digit x e r : exponent_text x e -> x <> "" -> no_digit (x ++ r) /\ fraction (x ++ r) = (None, (x ++ r)%string).
Proof.
  intros [(-> & _)|(c & sign & ds & k & E & _ & -> & _)] N; [contradiction|].
  destruct E as [<-|[<-|[]]]; split; reflexivity.
Qed.

Lemma value_from_acc s : forall acc, value_from acc s = (acc * 10 ^ Z.of_nat (String.length s) + value_from 0 s)%Z.
Proof.
  induction s as [|c s IH]; intros acc; [cbn; lia|]. cbn [value_from String.length].
  rewrite IH, (IH (10 * 0 + _)%Z). rewrite Nat2Z.inj_succ, Z.pow_succ_r by lia. ring.
Qed.

Lemma value_from_app a b : forall acc, value_from acc (a ++ b) = value_from (value_from acc a) b.
Proof. induction a as [|c a IH]; intros acc; [reflexivity|]. cbn [String.append value_from]. apply IH. Qed.

Lemma every_join P a b : every P a -> every P b -> every P (a ++ b).
Proof. induction a as [|c a IH]; [auto|]. intros [A C] B. split; auto. Qed.

Lemma numeral_app a n b m : numeral a n -> numeral b m ->
  numeral (a ++ b) (n * 10 ^ Z.of_nat (String.length b) + m).
Proof.
  intros (NA & DA & ->) (NB & DB & ->). split; [destruct a; [contradiction|discriminate]|].
  split; [apply every_join; auto|]. rewrite value_from_app. symmetry. apply value_from_acc.
Qed.

Lemma whole_nonneg w n : numeral w n -> (0 <= n)%Z.
Proof.
  intros (_ & D & ->). assert (forall acc, (0 <= acc)%Z -> (0 <= value_from acc w)%Z) as K; [|apply K; lia].
  induction w as [|c w IH]; intros acc A; [exact A|]. destruct D as [C D]. cbn [value_from]. apply IH; auto.
  unfold digit_char in C. lia.
Qed.

Lemma parse_float_eq sign minus w f x : sign_text sign minus -> (exists n, whole w n) ->
  parse_float (sign ++ w) f x =
  let f := match f with Some f => f | None => "" end in
  match py_int (w ++ f)%string,
        match x with Some (m, a) => do n <- py_int a ; Ok (if m then - n else n)%Z | None => Ok 0%Z end with
  | Ok n, Ok e => Some (JFloat (decimal_double minus n (e - Z.of_nat (String.length f))))
  | _, _ => None
  end.
Proof.
  intros S [n W]. destruct (whole_head _ _ W) as (c & q & -> & D). destruct S as [(-> & ->)|(-> & ->)]; [|reflexivity].
  pose proof (digit_not_minus c D) as M. unfold parse_float. cbn [String.append].
  assert (match String c q with String "-" u => (true, u) | _ => (false, String c q) end = (false, String c q)) as ->; [|reflexivity].
  destruct c as [[] [] [] [] [] [] [] []]; try reflexivity; discriminate M.
Qed.

Lemma decimal_spec s n e f : (0 <= n)%Z ->
  f = decimal_double s n e <->
  (0 <= e)%Z /\ nearest s (n * 10 ^ e) 1 f \/ (e < 0)%Z /\ nearest s n (10 ^ (- e)) f.
Proof.
  intros N. unfold decimal_double. destruct (Z.leb_spec 0 e) as [L|L].
  - assert (0 <= n * 10 ^ e)%Z by (apply Z.mul_nonneg_nonneg; [lia|apply Z.pow_nonneg; lia]).
    rewrite <- nearest_iff by lia. intuition lia.
  - assert (0 < 10 ^ (- e))%Z by (apply Z.pow_pos_nonneg; lia). rewrite <- nearest_iff by lia. intuition lia.
Qed.

(** The texts of all numbers. *)
Definition float_name (t : string) (f : spec_float) : Prop :=
  In (t, f) [("NaN", S754_nan); ("Infinity", S754_infinity false); ("-Infinity", S754_infinity true)].
Definition numeric_text (t : string) (v : json) : Prop :=
  (exists n, v = JInt n /\ number_text t n) \/
  (exists f, v = JFloat f /\ (real_text t f \/ float_name t f)).

Lemma real_complete t f r : real_text t f -> stops r -> scan_number (t ++ r) = Found (JFloat f) r.
Proof.
  intros (sign & minus & w & n & frac & b & places & x & e & -> & NE & S & W & F & X & V) R. cbv zeta in V.
  asso. assert (no_digit (x ++ r)) as NX.
  { destruct (string_dec x "") as [->|N]; [apply stops_no_digit; exact R|]. apply (exponent_no_digit x e r X N). }
  assert (no_digit (frac ++ x ++ r)) as NF by (destruct F as [(-> & _)|(ds & _ & _ & ->)]; [exact NX|reflexivity]).
  unfold scan_number. rewrite (integer_complete sign minus w n _ S W NF).
  assert (exists of, fraction (frac ++ x ++ r) = (of, (x ++ r)%string) /\
    places = String.length (match of with Some g => g | None => "" end) /\
    numeral (w ++ match of with Some g => g | None => "" end) (n * 10 ^ Z.of_nat places + b) /\
    (of = None -> frac = "")) as (of & EF & EP & ND & OF).
  { destruct F as [(-> & -> & ->)|(ds & NU & -> & ->)].
    - exists None. split; [cbn [String.append]|split; [reflexivity|split; [|auto]]].
      + destruct (string_dec x "") as [->|N]; [apply stops_fraction; exact R|]. apply (exponent_no_digit x e r X N).
      + rewrite app_nil_s. destruct W as [W _]. replace (n * 10 ^ Z.of_nat 0 + 0)%Z with n by (cbn; lia). exact W.
    - exists (Some ds). split; [rewrite <- (fraction_complete ds b (x ++ r) NU NX); f_equal|split; [reflexivity|split; [|discriminate]]].
      apply numeral_app; [apply W|exact NU]. }
  rewrite EF.
  assert (exists ox, exponent (x ++ r) = (ox, r) /\
    (match ox with Some (m, a) => do n <- py_int a ; Ok (if m then - n else n)%Z | None => Ok 0%Z end) = Ok e /\
    (ox = None -> x = "")) as (ox & EX & EV & OX).
  { destruct X as [(-> & ->)|(c & sg & ds & k & C & NU & -> & SG)].
    - exists None. split; [apply stops_exponent; exact R|auto].
    - exists (Some (String.eqb sg "-", ds)). split; [|split; [|discriminate]].
      + apply (exponent_complete c sg ds k); auto; [|apply stops_no_digit; exact R]. destruct SG as [[[<-|[<-|[]]] _]|[-> _]]; cbn; auto.
      + cbn [bind]. rewrite (numeral_int ds k NU). cbn [bind]. destruct SG as [[[<-|[<-|[]]] ->]|[-> ->]]; reflexivity. }
  rewrite EX. assert (parse_float (sign ++ w) of ox = Some (JFloat f)) as PF.
  { rewrite (parse_float_eq sign minus w of ox S (ex_intro _ n W)). cbv zeta. rewrite (numeral_int _ _ ND), EV, <- EP.
    f_equal. f_equal. symmetry. apply decimal_spec; [apply (whole_nonneg _ _ ND)|exact V]. }
  rewrite PF. destruct of as [g|]; [reflexivity|]. destruct ox as [q|]; [reflexivity|]. exfalso. apply NE. auto.
Qed.

Lemma number_complete t v r : numeric_text t v -> stops r -> scan_number (t ++ r) = Found v r.
Proof.
  intros [(n & -> & H)|(f & -> & [H|H])] S.
  - destruct (number_whole _ _ H) as (sign & minus & w & k & SG & W & -> & ->). asso. unfold scan_number.
    rewrite (integer_complete sign minus w k r SG W (stops_no_digit _ S)), (stops_fraction _ S), (stops_exponent _ S).
    rewrite (signed_int sign minus w k SG W). reflexivity.
  - apply real_complete; auto.
  - cbn in H. repeat (destruct H as [H|H]; [injection H as <- <-; cbn; reflexivity|]). destruct H.
Qed.

Lemma number_sound s v r : scan_number s = Found v r -> exists t, numeric_text t v /\ s = (t ++ r)%string.
Proof.
  unfold scan_number. destruct (integer_part s) as [[t q]|] eqn:I.
  - apply integer_sound in I as (sign & minus & w & n & SG & W & -> & ->).
    destruct (fraction q) as [of r1] eqn:EF. destruct (exponent r1) as [ox r2] eqn:EX. intros E.
    assert (of = None /\ ox = None /\ Found (JInt (if minus then - n else n)%Z) q = Found v r \/
      (of <> None \/ ox <> None) /\ match parse_float (sign ++ w) of ox with Some v => Found v r2 | None => NotJson end = Found v r) as [(-> & -> & E')|[N E']].
    { destruct of; [right; split; [left; discriminate|exact E]|]. destruct ox; [right; split; [right; discriminate|exact E]|].
      left. rewrite (signed_int sign minus w n SG W) in E. auto. }
    + injection E' as <- <-. exists (sign ++ w)%string. split; [|reflexivity]. left. eexists. split; [reflexivity|]. apply whole_number; auto.
    + apply fraction_sound in EF as (ft & b & places & FT & -> & FO). apply exponent_sound in EX as (xt & e & XT & -> & XO).
      rewrite (parse_float_eq sign minus w of ox SG (ex_intro _ n W)) in E'. cbv zeta in E'.
      assert (numeral (w ++ match of with Some g => g | None => "" end) (n * 10 ^ Z.of_nat places + b) /\
              places = String.length (match of with Some g => g | None => "" end)) as [ND EP].
      { destruct of as [ds|].
        - destruct FO as (NU & -> & _). split; [apply numeral_app; [apply W|exact NU]|reflexivity].
        - subst ft. destruct FT as [(_ & -> & ->)|(ds & _ & _ & X)]; [|discriminate X]. split; [|reflexivity].
          rewrite app_nil_s. replace (n * 10 ^ Z.of_nat 0 + 0)%Z with n by (cbn; lia). apply W. }
      assert ((match ox with Some (m, a) => do n <- py_int a ; Ok (if m then - n else n)%Z | None => Ok 0%Z end) = Ok e) as EV.
      { destruct ox as [[m ds]|].
        - destruct XO as (k & NU & -> & _). rewrite (numeral_int ds k NU). reflexivity.
        - subst xt. destruct XT as [(_ & ->)|(c & sg & ds & k & C & _ & X & _)]; [reflexivity|]. destruct C as [<-|[<-|[]]]; discriminate X. }
      rewrite (numeral_int _ _ ND), EV, <- EP in E'. injection E' as <- <-.
      exists (sign ++ w ++ ft ++ xt)%string. split; [|asso; reflexivity].
      right. eexists. split; [reflexivity|]. left. exists sign, minus, w, n, ft, b, places, xt, e.
      split; [reflexivity|]. split.
      { intros [Z1 Z2]. destruct N as [N|N]; apply N; [destruct of as [ds|]|destruct ox as [[m ds]|]]; try reflexivity; exfalso.
        - destruct FO as (_ & _ & X). contradiction.
        - destruct XO as (k & _ & _ & X). contradiction. }
      split; [exact SG|]. split; [exact W|]. split; [exact FT|]. split; [exact XT|]. cbv zeta.
      apply decimal_spec; [apply (whole_nonneg _ _ ND)|reflexivity].
  - assert (forall p f, float_name p f -> after p s = Some r -> v = JFloat f -> exists t, numeric_text t v /\ s = (t ++ r)%string) as K.
    { intros p f P A ->. apply after_spec in A. exists p. split; [right; eauto|exact A]. }
    destruct (after "NaN" s) eqn:A1; [intros E; injection E as <- <-; apply (K "NaN" S754_nan); cbn; auto|].
    destruct (after "Infinity" s) eqn:A2; [intros E; injection E as <- <-; apply (K "Infinity" (S754_infinity false)); cbn; auto|].
    destruct (after "-Infinity" s) eqn:A3; [intros E; injection E as <- <-; apply (K "-Infinity" (S754_infinity true)); cbn; auto|discriminate].
Qed.

(** ** Values *)
Lemma scan_S n s : scan (S n) s =
      match s with
      | EmptyString => NotJson
      | String c r =>
          if Ascii.eqb c QUOTE then then_found (scan_string r) (fun t rest => Found (JStr t) rest)
          else if Ascii.eqb c "{" then
            match after "}" (skip_space r) with
            | Some rest => Found (JObj []) rest
            | None => then_found (scan_members n (skip_space r)) (fun ps rest => Found (JObj (dict_of ps)) rest)
            end
          else if Ascii.eqb c "[" then
            match after "]" (skip_space r) with
            | Some rest => Found (JArr []) rest
            | None => then_found (scan_items n (skip_space r)) (fun vs rest => Found (JArr vs) rest)
            end
          else
            match after "null" s, after "true" s, after "false" s with
            | Some rest, _, _ => Found JNull rest
            | _, Some rest, _ => Found (JBool true) rest
            | _, _, Some rest => Found (JBool false) rest
            | None, None, None => scan_number s
            end
      end.
Proof. reflexivity. Qed.

Definition item_end (n : nat) (v : json) (r : string) : scanned (list json) :=
  match skip_space r with
  | EmptyString => NotJson
  | String c r' =>
      if Ascii.eqb c "]" then Found [v] r'
      else if Ascii.eqb c "," then
        then_found (scan_items n (skip_space r')) (fun vs rest => Found (v :: vs) rest)
      else NotJson
  end.

Lemma items_S n s : scan_items (S n) s = then_found (scan n s) (item_end n).
Proof. reflexivity. Qed.

Definition member_end (n : nat) (k : string) (v : json) (r : string) : scanned (list (string * json)) :=
  match skip_space r with
  | EmptyString => NotJson
  | String c r' =>
      if Ascii.eqb c "}" then Found [(k, v)] r'
      else if Ascii.eqb c "," then
        then_found (scan_members n (skip_space r')) (fun ps rest => Found ((k, v) :: ps) rest)
      else NotJson
  end.

Lemma members_S n s : scan_members (S n) s =
      match after (String QUOTE "") s with
      | None => NotJson
      | Some r =>
          then_found (scan_string r) (fun k r =>
            match after ":" (skip_space r) with
            | None => NotJson
            | Some r => then_found (scan n (skip_space r)) (member_end n k)
            end)
      end.
Proof. reflexivity. Qed.

Lemma items_pre w t vs : blank w -> items_text t vs -> items_text (w ++ t) vs.
Proof.
  intros B H. destruct H as [w0 t w' v B0 T B'|w0 t w' v r vs B0 T B' H].
  - rewrite <- app_assoc_s. constructor; auto. apply every_app. auto.
  - rewrite <- app_assoc_s. constructor; auto. apply every_app. auto.
Qed.

Lemma members_pre w t ms : blank w -> members_text t ms -> members_text (w ++ t) ms.
Proof.
  intros B H. destruct H as [w0 q w1 w2 t w' k v B0 Q B1 B2 T B'|w0 q w1 w2 t w' k v r ms B0 Q B1 B2 T B' H].
  - rewrite <- app_assoc_s. constructor; auto. apply every_app. auto.
  - rewrite <- app_assoc_s. constructor; auto. apply every_app. auto.
Qed.

Lemma quote_sound s k r q : after (String QUOTE "") s = Some q -> scan_string q = Found k r ->
  exists t, quoted_text t k /\ s = (t ++ r)%string.
Proof.
  intros A E. apply after_spec in A. apply (string_sound _ _ _ _ (le_n _)) in E as (body & C & ->).
  exists (String QUOTE (body ++ String QUOTE "")). split; [exists body; auto|]. subst s. cbn [String.append]. asso. reflexivity.
Qed.

Lemma numeric_value t v : numeric_text t v -> value_text t v.
Proof.
  intros [(n & -> & H)|(f & -> & [H|H])]; [constructor; exact H|constructor; exact H|].
  cbn in H. destruct H as [H|[H|[H|[]]]]; injection H as <- <-; [apply TextNaN|apply TextInfinity|apply TextMinusInfinity].
Qed.

Lemma sound n :
  (forall s v r, scan n s = Found v r -> exists t, value_text t v /\ s = (t ++ r)%string) /\
  (forall s vs r, scan_items n s = Found vs r -> exists t, items_text t vs /\ s = (t ++ String "]" r)%string) /\
  (forall s ms r, scan_members n s = Found ms r -> exists t, members_text t ms /\ s = (t ++ String "}" r)%string).
Proof.
  induction n as [|n (IV & II & IM)]; [repeat split; intros; discriminate|]. split; [|split].
  - intros s v r E. rewrite scan_S in E. destruct s as [|c s]; [discriminate E|].
    destruct (Ascii.eqb_spec c QUOTE) as [->|NQ].
    { apply then_found_inv in E as (t & q & E & F). injection F as <- <-.
      apply (quote_sound (String QUOTE s)) in E as (u & Q & ->); [|apply after_spec; reflexivity].
      exists u. split; [constructor; auto|reflexivity]. }
    destruct (skip_split s) as (w & B & Es).
    destruct (Ascii.eqb_spec c "{") as [->|NC].
    { destruct (after "}" (skip_space s)) as [rest|] eqn:A.
      - injection E as <- <-. apply after_spec in A. exists ("{" ++ w ++ "}")%string. split; [constructor; auto|].
        rewrite Es, A. asso. reflexivity.
      - apply then_found_inv in E as (ms & q & E & F). injection F as <- <-. apply IM in E as (t & M & E).
        exists ("{" ++ (w ++ t) ++ "}")%string. split; [constructor; apply members_pre; auto|].
        rewrite Es, E. asso. reflexivity. }
    destruct (Ascii.eqb_spec c "[") as [->|NA].
    { destruct (after "]" (skip_space s)) as [rest|] eqn:A.
      - injection E as <- <-. apply after_spec in A. exists ("[" ++ w ++ "]")%string. split; [constructor; auto|].
        rewrite Es, A. asso. reflexivity.
      - apply then_found_inv in E as (ms & q & E & F). injection F as <- <-. apply II in E as (t & M & E).
        exists ("[" ++ (w ++ t) ++ "]")%string. split; [constructor; apply items_pre; auto|].
        rewrite Es, E. asso. reflexivity. }
    destruct (after "null" (String c s)) as [rest|] eqn:A1.
    { injection E as <- <-. apply after_spec in A1. exists "null". split; [constructor|exact A1]. }
    destruct (after "true" (String c s)) as [rest|] eqn:A2.
    { injection E as <- <-. apply after_spec in A2. exists "true". split; [constructor|exact A2]. }
    destruct (after "false" (String c s)) as [rest|] eqn:A3.
    { injection E as <- <-. apply after_spec in A3. exists "false". split; [constructor|exact A3]. }
    apply number_sound in E as (t & N & E). exists t. split; [apply numeric_value; exact N|exact E].
  - intros s vs r E. rewrite items_S in E. apply then_found_inv in E as (v & q & E & F).
    apply IV in E as (t & V & ->). unfold item_end in F. destruct (skip_split q) as (w & B & Eq).
    destruct (skip_space q) as [|c q']; [discriminate F|]. destruct (Ascii.eqb_spec c "]") as [->|NC].
    + injection F as <- <-. exists ("" ++ t ++ w)%string. split; [constructor; auto; exact I|]. rewrite Eq. asso. reflexivity.
    + destruct (Ascii.eqb_spec c ",") as [->|]; [|discriminate F]. apply then_found_inv in F as (us & z & F & G). injection G as <- <-.
      apply II in F as (u & U & Eu). destruct (skip_split q') as (w' & B' & Eq').
      exists ("" ++ t ++ w ++ "," ++ (w' ++ u))%string. split; [constructor; auto; [exact I|apply items_pre; auto]|].
      rewrite Eq, Eq', Eu. asso. reflexivity.
  - intros s ms r E. rewrite members_S in E. destruct (after (String QUOTE "") s) as [s1|] eqn:A; [|discriminate E].
    apply then_found_inv in E as (k & r1 & E & F). destruct (quote_sound _ _ _ _ A E) as (q & Q & ->).
    destruct (skip_split r1) as (w1 & B1 & E1). destruct (after ":" (skip_space r1)) as [r2|] eqn:A2; [|discriminate F].
    apply after_spec in A2. apply then_found_inv in F as (v & r3 & F & G). destruct (skip_split r2) as (w2 & B2 & E2).
    apply IV in F as (t & V & E3). unfold member_end in G. destruct (skip_split r3) as (w & B & E4).
    destruct (skip_space r3) as [|c r4]; [discriminate G|]. destruct (Ascii.eqb_spec c "}") as [->|NC].
    + injection G as <- <-. exists ("" ++ q ++ w1 ++ ":" ++ w2 ++ t ++ w)%string. split; [constructor; auto; exact I|].
      rewrite E1, A2, E2, E3, E4. asso. reflexivity.
    + destruct (Ascii.eqb_spec c ",") as [->|]; [|discriminate G]. apply then_found_inv in G as (us & z & G & K). injection K as <- <-.
      apply IM in G as (u & U & Eu). destruct (skip_split r4) as (w' & B' & E5).
      exists ("" ++ q ++ w1 ++ ":" ++ w2 ++ t ++ w ++ "," ++ (w' ++ u))%string.
      split; [constructor; auto; [exact I|apply members_pre; auto]|].
      rewrite E1, A2, E2, E3, E4, E5, Eu. asso. reflexivity.
Qed.

(** ** Completeness *)
Scheme value_text_mut := Minimality for value_text Sort Prop
  with items_text_mut := Minimality for items_text Sort Prop
  with members_text_mut := Minimality for members_text Sort Prop.
Combined Scheme texts_mut from value_text_mut, items_text_mut, members_text_mut.

Lemma number_head t v : numeric_text t v -> exists c r, t = String c r /\ (digit_char c \/ In c ["-"; "N"; "I"]%char).
Proof.
  assert (forall sign minus w n r, sign_text sign minus -> whole w n ->
    exists c q, (sign ++ w ++ r)%string = String c q /\ (digit_char c \/ In c ["-"; "N"; "I"]%char)) as K.
  { intros sign minus w n r [(-> & _)|(-> & _)] W.
    - destruct (whole_head _ _ W) as (c & q & -> & D). exists c, (q ++ r)%string. auto.
    - exists "-"%char, (w ++ r)%string. cbn. auto. }
  intros [(n & -> & H)|(f & -> & [H|H])].
  - destruct (number_whole _ _ H) as (sign & minus & w & k & SG & W & -> & _).
    destruct (K sign minus w k "" SG W) as (c & q & E & D). rewrite app_nil_s in E. eauto.
  - destruct H as (sign & minus & w & n & frac & b & places & x & e & -> & _ & SG & W & _). eapply K; eauto.
  - cbn in H. repeat (destruct H as [H|H]; [injection H as <- <-; eexists _, _; split; [reflexivity|cbn; auto]|]). destruct H.
Qed.

Lemma quoted_head t s : quoted_text t s -> exists r, t = String QUOTE r.
Proof. intros (b & _ & ->). eauto. Qed.

Lemma digit_or_minus c : digit_char c \/ In c ["-"; "N"; "I"]%char ->
  json_space c = false /\ c <> "]"%char /\ c <> "}"%char /\ c <> QUOTE /\ c <> "{"%char /\ c <> "["%char /\
  c <> "n"%char /\ c <> "t"%char /\ c <> "f"%char.
Proof.
  intros [D|D]; [|cbn in D; repeat (destruct D as [<-|D]; [repeat split; try discriminate; reflexivity|]); destruct D]. unfold digit_char in D.
  split; [unfold json_space; lia|]. repeat split; intros ->; revert D; cbv; lia.
Qed.

Lemma value_head t v : value_text t v -> exists c r, t = String c r /\ json_space c = false /\ c <> "]"%char.
Proof.
  destruct 1 as [| | |t n N|t f N| | | |t s Q|w B|t vs I|w B|t ms I];
    try (eexists _, _; split; [reflexivity|split; [reflexivity|discriminate]]).
  - destruct (number_head t (JInt n)) as (c & r & -> & D); [left; eauto|]. apply digit_or_minus in D as (A & B & _). eauto.
  - destruct (number_head t (JFloat f)) as (c & r & -> & D); [right; eauto|]. apply digit_or_minus in D as (A & B & _). eauto.
  - destruct (quoted_head _ _ Q) as (r & ->). eexists _, _. split; [reflexivity|split; [reflexivity|discriminate]].
Qed.

Lemma stops_blank w c r : blank w -> In c [","%char; "]"%char; "}"%char] -> stops (w ++ String c r).
Proof.
  intros B I. destruct w as [|d w].
  - cbn in *. repeat (destruct I as [<-|I]; [repeat split; discriminate|]). destruct I.
  - destruct B as [D _]. cbn [String.append stops]. unfold code in D.
    split; [unfold is_digit; lia|]. repeat split; intros ->; revert D; cbv; lia.
Qed.

Lemma stops_end w : blank w -> stops w.
Proof.
  destruct w as [|d w]; [auto|]. intros [D _]. cbn [stops]. unfold code in D.
  split; [unfold is_digit; lia|]. repeat split; intros ->; revert D; cbv; lia.
Qed.

Lemma scan_numeric t v r f : numeric_text t v -> stops r -> scan (S f) (t ++ r) = Found v r.
Proof.
  intros N S. pose proof (number_complete _ _ _ N S) as E. destruct (number_head _ _ N) as (c & q & -> & D).
  apply digit_or_minus in D as (_ & _ & _ & A & B & C & K1 & K2 & K3). rewrite scan_S. cbn [String.append] in *.
  destruct (Ascii.eqb_spec c QUOTE); [contradiction|]. destruct (Ascii.eqb_spec c "{"); [contradiction|].
  destruct (Ascii.eqb_spec c "["); [contradiction|].
  rewrite !after_head by congruence. exact E.
Qed.

Lemma quoted_scan q k r : quoted_text q k -> exists s, (q ++ r)%string = String QUOTE s /\ scan_string s = Found k r.
Proof.
  intros (body & C & ->). exists (body ++ String QUOTE r)%string. split; [cbn [String.append]; asso; reflexivity|].
  apply string_complete. exact C.
Qed.

Lemma skip_value w t v r : blank w -> value_text t v -> skip_space (w ++ t ++ r) = (t ++ r)%string.
Proof.
  intros B V. rewrite skip_blank by auto. destruct (value_head _ _ V) as (c & q & -> & S & _). cbn [String.append].
  apply skip_solid. exact S.
Qed.

Lemma items_head t vs r : items_text t vs -> exists c q, skip_space (t ++ r) = String c q /\ c <> "]"%char.
Proof.
  destruct 1 as [w t w' v B V B'|w t w' v q vs B V B' H]; asso; rewrite (skip_value _ _ _ _ B V);
    destruct (value_head _ _ V) as (c & z & -> & _ & N); cbn [String.append]; eauto.
Qed.

Lemma members_head t ms r : members_text t ms -> exists q, skip_space (t ++ r) = String QUOTE q.
Proof.
  destruct 1 as [w q w1 w2 t w' k v B Q B1 B2 V B'|w q w1 w2 t w' k v u ms B Q B1 B2 V B' H]; asso; rewrite skip_blank by auto;
    destruct (quoted_head _ _ Q) as (z & ->); cbn [String.append]; rewrite skip_solid by reflexivity; eauto.
Qed.

Lemma complete :
  (forall t v, value_text t v -> forall r n, stops r -> (2 * String.length (t ++ r) + 1 <= n)%nat ->
     scan n (t ++ r) = Found v r) /\
  (forall t vs, items_text t vs -> forall r n, (2 * String.length (t ++ String "]" r) + 2 <= n)%nat ->
     scan_items n (skip_space (t ++ String "]" r)) = Found vs r) /\
  (forall t ms, members_text t ms -> forall r n, (2 * String.length (t ++ String "}" r) + 2 <= n)%nat ->
     scan_members n (skip_space (t ++ String "}" r)) = Found ms r).
Proof.
  apply texts_mut.
  - intros r n S L. destruct n; [lia|]. reflexivity.
  - intros r n S L. destruct n; [lia|]. reflexivity.
  - intros r n S L. destruct n; [lia|]. reflexivity.
  - intros t k N r n S L. destruct n; [lia|]. apply scan_numeric; [left; eauto|auto].
  - intros t f N r n S L. destruct n; [lia|]. apply scan_numeric; [right; eauto|auto].
  - intros r n S L. destruct n; [lia|]. apply (scan_numeric "NaN"); [right; eexists; split; [reflexivity|right; cbn; auto]|auto].
  - intros r n S L. destruct n; [lia|]. apply (scan_numeric "Infinity"); [right; eexists; split; [reflexivity|right; cbn; auto]|auto].
  - intros r n S L. destruct n; [lia|]. apply (scan_numeric "-Infinity"); [right; eexists; split; [reflexivity|right; cbn; auto]|auto].
  - intros t s Q r n S L. destruct n; [lia|]. destruct (quoted_scan _ _ r Q) as (q & -> & E). rewrite scan_S.
    change (Ascii.eqb QUOTE QUOTE) with true. cbv iota. rewrite E. reflexivity.
  - intros w B r n S L. destruct n; [lia|]. rewrite scan_S. asso.
    change (Ascii.eqb "[" QUOTE) with false. change (Ascii.eqb "[" "{") with false. change (Ascii.eqb "[" "[") with true. cbv iota.
    rewrite skip_blank by auto. reflexivity.
  - intros t vs I IH r n S L. destruct n; [lia|]. rewrite scan_S. revert L. asso. intros L.
    change (Ascii.eqb "[" QUOTE) with false. change (Ascii.eqb "[" "{") with false. change (Ascii.eqb "[" "[") with true. cbv iota.
    destruct (items_head _ _ (String "]" r) I) as (c & q & E & N). cbn [String.length] in L.
    rewrite IH by lia. rewrite E, after_head by auto. reflexivity.
  - intros w B r n S L. destruct n; [lia|]. rewrite scan_S. asso.
    change (Ascii.eqb "{" QUOTE) with false. change (Ascii.eqb "{" "{") with true. cbv iota.
    rewrite skip_blank by auto. reflexivity.
  - intros t ms I IH r n S L. destruct n; [lia|]. rewrite scan_S. revert L. asso. intros L.
    change (Ascii.eqb "{" QUOTE) with false. change (Ascii.eqb "{" "{") with true. cbv iota.
    destruct (members_head _ _ (String "}" r) I) as (q & E). cbn [String.length] in L.
    rewrite IH by lia. rewrite E, after_head by discriminate. reflexivity.
  - intros w t w' v B V IH B' r n L. destruct n; [lia|]. rewrite items_S. revert L. asso. intros L.
    rewrite (skip_value _ _ _ _ B V). rewrite !length_app in L. cbn [String.length] in L.
    rewrite IH; [|apply stops_blank; cbn; auto|rewrite !length_app; cbn [String.length]; lia].
    cbn [then_found]. unfold item_end. rewrite skip_blank by auto. reflexivity.
  - intros w t w' v q vs B V IH B' H IHs r n L. destruct n; [lia|]. rewrite items_S. revert L. asso. intros L.
    rewrite (skip_value _ _ _ _ B V). rewrite !length_app in L. cbn [String.length] in L. rewrite !length_app in L. cbn [String.length] in L.
    rewrite IH; [|apply stops_blank; cbn; auto|rewrite !length_app; cbn [String.length]; rewrite !length_app; cbn [String.length]; lia].
    cbn [then_found]. unfold item_end. rewrite skip_blank by auto. rewrite skip_solid by reflexivity.
    change (Ascii.eqb "," "]") with false. change (Ascii.eqb "," ",") with true. cbv iota.
    rewrite IHs; [reflexivity|]. rewrite !length_app. cbn [String.length]. lia.
  - intros w q w1 w2 t w' k v B Q B1 B2 V IH B' r n L. destruct n; [lia|]. rewrite members_S. revert L. asso. intros L.
    rewrite skip_blank by auto. destruct (quoted_scan _ _ (w1 ++ String ":" (w2 ++ t ++ w' ++ String "}" r)) Q) as (s & Es & E).
    rewrite Es, skip_solid by reflexivity. cbn [after]. change (Ascii.eqb QUOTE QUOTE) with true. cbv iota. rewrite E.
    cbn [then_found]. rewrite skip_blank by auto. rewrite skip_solid by reflexivity. cbn [after]. change (Ascii.eqb ":" ":") with true. cbv iota.
    rewrite (skip_value _ _ _ _ B2 V). rewrite !length_app in L. cbn [String.length] in L. rewrite !length_app in L. cbn [String.length] in L.
    rewrite IH; [|apply stops_blank; cbn; auto|rewrite !length_app; cbn [String.length]; lia].
    cbn [then_found]. unfold member_end. rewrite skip_blank by auto. reflexivity.
  - intros w q w1 w2 t w' k v u ms B Q B1 B2 V IH B' H IHs r n L. destruct n; [lia|]. rewrite members_S. revert L. asso. intros L.
    rewrite skip_blank by auto. destruct (quoted_scan _ _ (w1 ++ String ":" (w2 ++ t ++ w' ++ String "," (u ++ String "}" r))) Q) as (s & Es & E).
    rewrite Es, skip_solid by reflexivity. cbn [after]. change (Ascii.eqb QUOTE QUOTE) with true. cbv iota. rewrite E.
    cbn [then_found]. rewrite skip_blank by auto. rewrite skip_solid by reflexivity. cbn [after]. change (Ascii.eqb ":" ":") with true. cbv iota.
    rewrite (skip_value _ _ _ _ B2 V). repeat (rewrite !length_app in L; cbn [String.length] in L).
    rewrite IH; [|apply stops_blank; cbn; auto|repeat (rewrite !length_app; cbn [String.length]); lia].
    cbn [then_found]. unfold member_end. rewrite skip_blank by auto. rewrite skip_solid by reflexivity.
    change (Ascii.eqb "," "}") with false. change (Ascii.eqb "," ",") with true. cbv iota.
    rewrite IHs; [reflexivity|]. rewrite !length_app. cbn [String.length]. lia.
Qed.

Lemma load_spec text v : json_load text = Some (Ok v) <-> document text v.
Proof.
  unfold json_load, document. split.
  - destruct (scan _ _) as [u r| |] eqn:E; [|discriminate|discriminate]. destruct (skip_space r) as [|c q] eqn:S; [|discriminate].
    intros F. injection F as ->. apply sound in E as (t & V & E). destruct (skip_split text) as (w & B & T).
    destruct (skip_split r) as (w' & B' & R). rewrite S, app_nil_s in R. subst r. exists w, t, w'.
    repeat split; auto. rewrite T, E. reflexivity.
  - intros (w & t & w' & B & V & B' & ->). rewrite (skip_value _ _ _ _ B V).
    rewrite (proj1 complete _ _ V); [|apply stops_end; auto|repeat rewrite length_app; lia].
    replace (skip_space w') with "" by (rewrite <- (app_nil_s w'), skip_blank; auto). reflexivity.
Qed.

(** The fuel is never used up: any larger number gives the same. *)
Lemma value_nonempty t v : value_text t v -> (0 < String.length t)%nat.
Proof. intros V. destruct (value_head _ _ V) as (c & r & -> & _). cbn. lia. Qed.

Lemma scan_shorter n s v r : scan n s = Found v r -> (String.length r < String.length s)%nat.
Proof. intros E. apply sound in E as (t & V & ->). apply value_nonempty in V. rewrite length_app. lia. Qed.

Lemma string_shorter s t r : scan_string s = Found t r -> (String.length r < String.length s)%nat.
Proof. intros E. apply (string_sound _ _ _ _ (le_n _)) in E as (b & _ & ->). rewrite length_app. cbn. lia. Qed.

Lemma enough k : forall s, (String.length s <= k)%nat ->
  (forall n n', 2 * String.length s + 1 <= n -> 2 * String.length s + 1 <= n' -> scan n s = scan n' s)%nat /\
  (forall n n', 2 * String.length s + 2 <= n -> 2 * String.length s + 2 <= n' -> scan_items n s = scan_items n' s)%nat /\
  (forall n n', 2 * String.length s + 2 <= n -> 2 * String.length s + 2 <= n' -> scan_members n s = scan_members n' s)%nat.
Proof.
  induction k as [|k IH]; intros s L.
  { destruct s; [|cbn in L; lia]. cbn [String.length] in *.
    split; [intros [|n] [|n'] A B; [lia..|reflexivity]|].
    split; intros [|[|n]] [|[|n']] A B; lia || reflexivity. }
  assert (forall n n', 2 * String.length s + 1 <= n -> 2 * String.length s + 1 <= n' -> scan n s = scan n' s)%nat as KV.
  { intros n n' A B. destruct n; [lia|]. destruct n'; [lia|]. rewrite !scan_S. destruct s as [|c s]; [reflexivity|].
    cbn [String.length] in *. pose proof (skip_length s) as SL. destruct (IH (skip_space s) ltac:(lia)) as (_ & II & IM).
    rewrite (II n n') by lia. rewrite (IM n n') by lia. reflexivity. }
  split; [exact KV|]. split; intros n n' A B; (destruct n; [lia|]); (destruct n'; [lia|]).
  - rewrite !items_S. rewrite (KV n n') by lia. destruct (scan n' s) as [v r| |] eqn:E; [|reflexivity|reflexivity].
    cbn [then_found]. apply scan_shorter in E. unfold item_end. pose proof (skip_length r) as SL.
    destruct (skip_space r) as [|c q]; [reflexivity|]. cbn [String.length] in SL. pose proof (skip_length q) as SQ.
    destruct (IH (skip_space q) ltac:(lia)) as (_ & II & _). rewrite (II n n') by lia. reflexivity.
  - rewrite !members_S. destruct (after (String QUOTE "") s) as [r|] eqn:E; [|reflexivity]. apply after_spec in E. subst s.
    cbn [String.append String.length] in *. destruct (scan_string r) as [k1 r1| |] eqn:E1; [|reflexivity|reflexivity].
    cbn [then_found]. apply string_shorter in E1. pose proof (skip_length r1) as L1.
    destruct (after ":" (skip_space r1)) as [r2|] eqn:E2; [|reflexivity]. apply after_spec in E2. rewrite E2 in L1.
    cbn [String.append String.length] in L1. pose proof (skip_length r2) as L2.
    destruct (IH (skip_space r2) ltac:(lia)) as (IV & _ & _). rewrite (IV n n') by lia.
    destruct (scan n' (skip_space r2)) as [v r3| |] eqn:E3; [|reflexivity|reflexivity]. cbn [then_found]. apply scan_shorter in E3.
    unfold member_end. pose proof (skip_length r3) as L3.
    destruct (skip_space r3) as [|c q]; [reflexivity|]. cbn [String.length] in L3. pose proof (skip_length q) as SQ.
    destruct (IH (skip_space q) ltac:(lia)) as (_ & _ & IM). rewrite (IM n n') by lia. reflexivity.
Qed.
