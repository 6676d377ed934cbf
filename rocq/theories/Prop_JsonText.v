(** C86: the JSON file of a machine, as text. *)
From Coq Require Import Lia ZifyBool String Ascii Decimal DecimalString DecimalZ DecimalFacts SpecFloat.
From Verif Require Import Model_Py Model_Wrap Model_Version Model_Core Model_Machine Model_Str Model_Ignore Model_Virtual
  Model_Text Model_Json Model_Decimal Model_JsonText
  Spec_Str Spec_Json Spec_Decimal Spec_JsonText Proof_Decimal Proof_Py Proof_Str Proof_Virtual Proof_Repr Proof_Json Proof_JsonText Prop_Json Prop_Again Prop_Virtual.
Open Scope string_scope.
Open Scope list_scope.
Open Scope Z_scope.

(** ** What json.dump writes is in the grammar *)
Lemma whole_uint u n : Z.of_uint u = n -> (u = D0 Nil \/ u <> Nil /\ forall r, u <> D0 r) ->
  whole (NilZero.string_of_uint u) n.
Proof.
  intros E H. destruct (uintz_digits u) as [D N]. split; [split; [exact N|split; [exact D|]]|].
  - rewrite value_uintz. auto.
  - destruct H as [->|[H0 H]]; [left; reflexivity|right]. intros r.
    destruct u; try discriminate; [congruence|]. destruct (H u eq_refl).
Qed.

Lemma dec_number n : number_text (dec n) n.
Proof.
  pose proof (DecimalZ.of_to n) as OT. pose proof (DecimalZ.to_of (Z.to_int n)) as NT. rewrite OT in NT.
  unfold dec. destruct (Z.to_int n) as [u|u]; cbn [NilZero.string_of_int] in *; cbn [norm] in NT.
  - left. apply whole_uint; [exact OT|]. injection NT as NT. unfold unorm in NT. pose proof (nzhead_nonzero u) as Z.
    destruct (nzhead u) eqn:E; [left; congruence|..]; right; (split; [congruence|]); intros r F;
      [exact (Z _ eq_refl)|..]; congruence.
  - right. pose proof (nzhead_nonzero u) as Z. exists (NilZero.string_of_uint u), (Z.of_uint u).
    split; [|split; [reflexivity|symmetry; exact OT]]. apply whole_uint; auto. right.
    destruct (nzhead u) eqn:E; [discriminate NT|..]; injection NT as NT;
      (split; [congruence|]); intros r F; [exact (Z _ eq_refl)|..]; congruence.
Qed.

Lemma lower_hex k : (k < 16)%nat -> hex_value_of (hex_lower k) k /\ printable (hex_lower k).
Proof.
  intros L. do 16 (destruct k as [|k]; [split; [left; reflexivity|unfold printable, code; cbn; lia]|]). lia.
Qed.

Lemma code_eq c n : code c = n -> c = ascii_of_nat n.
Proof. intros <-. symmetry. apply ascii_nat_embedding. Qed.

Lemma escaped_ok c t s : chars_text t s -> chars_text (escaped c ++ t) (String c s).
Proof.
  intros H. unfold escaped. rewrite !code_eqb. fold (code c). change (code QUOTE) with 34%nat. change (code BACKSLASH) with 92%nat.
  assert (forall e n, code c = n -> In (e, n) short_escapes -> chars_text (String "\" (String e "") ++ t) (String c s)) as SH.
  { intros e n E I. apply code_eq in E as ->. exact (CharsShort e n t s I H). }
  destruct (Nat.eqb_spec (code c) 34); [apply (SH _ _ e); cbn; auto 10|].
  destruct (Nat.eqb_spec (code c) 92); [apply (SH _ _ e); cbn; auto 10|].
  destruct (Nat.eqb_spec (code c) 10); [apply (SH _ _ e); cbn; auto 10|].
  destruct (Nat.eqb_spec (code c) 13); [apply (SH _ _ e); cbn; auto 10|].
  destruct (Nat.eqb_spec (code c) 9); [apply (SH _ _ e); cbn; auto 10|].
  destruct (Nat.eqb_spec (code c) 12); [apply (SH _ _ e); cbn; auto 10|].
  destruct (Nat.eqb_spec (code c) 8); [apply (SH _ _ e); cbn; auto 10|].
  destruct ((32 <=? code c)%nat && (code c <=? 126)%nat) eqn:P.
  - cbn [String.append]. constructor; auto. lia.
  - assert (code c < 256)%nat as L by (unfold code; apply nat_ascii_bounded).
    assert (code c / 16 < 16)%nat as L1 by (apply Nat.div_lt_upper_bound; lia).
    assert (code c mod 16 < 16)%nat as L2 by (apply Nat.mod_upper_bound; lia).
    destruct (lower_hex _ L1) as [A _]. destruct (lower_hex _ L2) as [B _].
    pose proof (CharsHex _ _ _ _ t s A B H) as K.
    assert (ascii_of_nat (16 * (code c / 16) + code c mod 16) = c) as E.
    { rewrite <- Nat.div_mod by lia. apply ascii_nat_embedding. }
    rewrite E in K. exact K.
Qed.

Lemma escaped_printable c : every printable (escaped c).
Proof.
  unfold escaped. rewrite !code_eqb. fold (code c).
  assert (code c < 256)%nat as L by (unfold code; apply nat_ascii_bounded).
  assert (code c / 16 < 16)%nat as L1 by (apply Nat.div_lt_upper_bound; lia).
  assert (code c mod 16 < 16)%nat as L2 by (apply Nat.mod_upper_bound; lia).
  repeat match goal with |- every _ (if ?b then _ else _) => destruct b eqn:?; [unfold printable, code; cbn; repeat split; lia|] end.
  destruct ((32 <=? code c)%nat && (code c <=? 126)%nat) eqn:P.
  - split; [unfold printable; lia|exact I].
  - destruct (lower_hex _ L1) as [_ A]. destruct (lower_hex _ L2) as [_ B].
    change (every printable (String "\" (String "u" (String "0" (String "0"
      (String (hex_lower (code c / 16)) (String (hex_lower (code c mod 16)) ""))))))). cbn [every].
    repeat (split; [first [exact A | exact B | unfold printable, code; cbn; lia]|]). exact I.
Qed.

Lemma escape_ok s : chars_text (escape s) s /\ every printable (escape s).
Proof.
  induction s as [|c s [IH IP]]; [split; [constructor|exact I]|]. cbn [escape]. split; [apply escaped_ok; auto|].
  apply every_app. split; [apply escaped_printable|auto].
Qed.

Lemma quoted_ok s : quoted_text (quoted s) s /\ every printable (quoted s).
Proof.
  destruct (escape_ok s) as [E P]. unfold quoted, cat. cbn [fold_right]. split.
  - exists (escape s). split; [exact E|]. cbn [String.append]. reflexivity.
  - split; [unfold printable, code; cbn; lia|]. cbn [String.append]. apply every_app. split; [exact P|].
    split; [unfold printable, code; cbn; lia|exact I].
Qed.

Fixpoint json_nested (P : json -> Prop) (H0 : P JNull) (H1 : forall b, P (JBool b)) (H2 : forall n, P (JInt n))
  (HF : forall f, P (JFloat f)) (H3 : forall s, P (JStr s)) (H4 : forall l, Forall P l -> P (JArr l))
  (H5 : forall d, Forall (fun kv => P (snd kv)) d -> P (JObj d)) (v : json) : P v :=
  match v with
  | JNull => H0 | JBool b => H1 b | JInt n => H2 n | JFloat f => HF f | JStr s => H3 s
  | JArr l => H4 l ((fix go l : Forall P l := match l with
      | [] => Forall_nil _ | x :: l' => Forall_cons _ (json_nested P H0 H1 H2 HF H3 H4 H5 x) (go l') end) l)
  | JObj d => H5 d ((fix go d : Forall (fun kv => P (snd kv)) d := match d with
      | [] => Forall_nil _ | x :: d' => Forall_cons _ (json_nested P H0 H1 H2 HF H3 H4 H5 (snd x)) (go d') end) d)
  end.

Lemma dict_build (d acc : jobject) : NoDup (map fst (acc ++ d)) ->
  fold_left (fun d kv => dset String.eqb d (fst kv) (snd kv)) d acc = acc ++ d.
Proof.
  revert acc. induction d as [|[k v] d IH]; intros acc N; cbn [fold_left]; [symmetry; apply app_nil_r|].
  cbn [fst snd]. rewrite (dset_new String.eqb String.eqb_eq).
  - rewrite IH; rewrite <- app_assoc; auto.
  - unfold dkeys. rewrite map_app in N. apply NoDup_remove_2 in N. rewrite in_app_iff in N. tauto.
Qed.

Lemma object_same d : NoDup (map fst d) -> object_of d = d.
Proof. intros N. apply (dict_build d []). exact N. Qed.

Lemma space_blank : blank " ".
Proof. split; [left; reflexivity|exact I]. Qed.

Lemma items_dumped l : l <> [] -> Forall (fun v => value_text (json_text v) v) l ->
  items_text (String.concat ", " (map json_text l)) l.
Proof.
  induction l as [|v [|v' l] IH]; intros N F; [congruence|..]; inversion F as [|? ? V F']; subst.
  - pose proof (OneItem "" (json_text v) "" v I V I) as K. rewrite app_nil_s in K. exact K.
  - exact (MoreItems "" (json_text v) "" v _ _ I V I (items_pre " " _ _ space_blank (IH ltac:(discriminate) F'))).
Qed.

Definition member_text (kv : string * json) : string := let '(k, w) := kv in cat [quoted k; ": "; json_text w].

Lemma members_dumped l : l <> [] -> Forall (fun kv => value_text (json_text (snd kv)) (snd kv)) l ->
  members_text (String.concat ", " (map member_text l)) l.
Proof.
  induction l as [|[k v] [|kv l] IH]; intros N F; [congruence|..]; inversion F as [|? ? V F']; subst; cbn [snd] in V;
    destruct (quoted_ok k) as [Q _].
  - pose proof (OneMember "" (quoted k) "" " " (json_text v) "" k v I Q I space_blank V I) as K. rewrite app_nil_s in K.
    cbn [map String.concat member_text cat fold_right]. rewrite app_nil_s. exact K.
  - pose proof (MoreMembers "" (quoted k) "" " " (json_text v) "" k v _ _ I Q I space_blank V I
      (members_pre " " _ _ space_blank (IH ltac:(discriminate) F'))) as K.
    cbn [map String.concat]. cbn [map String.concat] in K. unfold member_text at 1. unfold cat. cbn [fold_right]. rewrite app_nil_s, !app_assoc_s. exact K.
Qed.

Lemma concat_printable l : Forall (every printable) l -> every printable (String.concat ", " l).
Proof.
  induction l as [|t [|t' l] IH]; intros F; inversion F; subst; [exact I|auto|].
  change (every printable (t ++ ", " ++ String.concat ", " (t' :: l))). rewrite !every_app. repeat split; auto; unfold code; cbn; lia.
Qed.

Lemma dumped v : keys_once v -> no_floats v -> value_text (json_text v) v /\ every printable (json_text v).
Proof.
  induction v as [|b|n|f|s|l IH|d IH] using json_nested; intros K NF.
  - split; [constructor|]. cbn. unfold printable, code. cbn. lia.
  - destruct b; (split; [constructor|]); cbn; unfold printable, code; cbn; lia.
  - split; [constructor; apply dec_number|]. eapply every_impl; [|apply dec_num]. intros c [D|E].
    + unfold digit_char in D. unfold printable, code. lia.
    + subst c. unfold printable, code. cbn. lia.
  - inversion NF.
  - destruct (quoted_ok s). split; [constructor; auto|auto].
  - inversion K as [| | | | |? KL|]; subst. inversion NF as [| | | |? NL|]; subst. rewrite Forall_forall in IH, KL, NL. cbn [json_text]. unfold cat. cbn [fold_right]. rewrite app_nil_s. split.
    + destruct l as [|x l]; [apply (TextNoItems ""); exact I|]. apply TextItems. apply items_dumped; [discriminate|].
      apply Forall_forall. intros y Hy. apply IH; auto.
    + rewrite !every_app. split; [split; [unfold printable, code; cbn; lia|exact I]|].
      split; [|split; [unfold printable, code; cbn; lia|exact I]]. apply concat_printable. apply Forall_forall.
      intros t Ht. apply in_map_iff in Ht as (y & <- & Hy). apply IH; auto.
  - inversion K as [| | | | | |? ND KL]; subst. inversion NF as [| | | | |? NL]; subst. rewrite Forall_forall in IH, KL, NL. cbn [json_text]. fold member_text. unfold cat. cbn [fold_right]. rewrite app_nil_s. split.
    + destruct d as [|x d]; [apply (TextNoMembers ""); exact I|]. rewrite <- (object_same (x :: d) ND) at 2. apply TextMembers.
      apply members_dumped; [discriminate|]. apply Forall_forall. intros y Hy. apply IH; auto.
    + rewrite !every_app. split; [split; [unfold printable, code; cbn; lia|exact I]|].
      split; [|split; [unfold printable, code; cbn; lia|exact I]]. apply concat_printable. apply Forall_forall.
      intros t Ht. apply in_map_iff in Ht as ([k y] & <- & Hy). unfold member_text, cat. cbn [fold_right]. rewrite app_nil_s, !every_app.
      split; [apply quoted_ok|]. split; [unfold printable, code; cbn; lia|]. exact (proj2 (IH (k, y) Hy (KL (k, y) Hy) (NL (k, y) Hy))).
Qed.

(** json.load reads exactly the texts of the grammar. *)
Theorem C86_what_is_read :
  forall text v, json_load text = Some (Ok v) <-> document text v.
Proof. exact load_spec. Qed.
Print Assumptions C86_what_is_read.

(** Decimal numbers with a fraction or an exponent: each value has exactly one float, and no
    double is nearer to it. *)
Theorem C86_decimals_are_rounded :
  forall n d, 0 <= n -> 0 < d ->
    (forall s, exists f, nearest s n d f /\ forall f', nearest s n d f' -> f' = f) /\
    (exists u, rounds_to n d u) /\
    (forall u, rounds_to n d u -> double_units u /\
       forall u', double_units u' -> Z.abs (n * 2 ^ 1074 - u * d) <= Z.abs (n * 2 ^ 1074 - u' * d)).
Proof.
  intros n d N D. split; [|split].
  - intros s. exists (nearest_double s n d). split; [apply double_nearest; auto|]. intros f'. apply (nearest_iff s n d f' N D).
  - destruct (double_nearest true n d N D) as (u & R & _). eauto.
  - intros u R. exact (none_nearer n d u N D R).
Qed.
Print Assumptions C86_decimals_are_rounded.

(** What json.dump writes for values without floats is one line of printable ASCII, and
    json.load reads it as the same value. *)
Theorem C86_dumped_and_loaded :
  forall v, keys_once v -> no_floats v ->
    json_load (json_text v) = Some (Ok v) /\ every printable (json_text v).
Proof.
  intros v K NF. destruct (dumped v K NF) as [V P]. split; [|exact P]. apply load_spec. exists "", (json_text v), "".
  split; [exact I|split; [exact V|split; [exact I|]]]. rewrite app_nil_s. reflexivity.
Qed.
Print Assumptions C86_dumped_and_loaded.

(** ** Files *)
Lemma once_ints l : Forall keys_once (map JInt l).
Proof. apply Forall_forall. intros v H. apply in_map_iff in H as (n & <- & _). constructor. Qed.

Ltac once_keys := repeat (constructor; [cbn; intuition discriminate|]); constructor.

Lemma exceptions_once c d : keys_once (JObj (describe_exceptions c d)).
Proof.
  unfold describe_exceptions. cbv zeta.
  destruct (n_scamp_processors c =? d_monitors d), (int_value _ =? d_entries d), (c_sdram c =? d_sdram d), (zlist_eqb _ _);
    cbn [app]; (constructor; [cbn [map fst]; once_keys|]);
    repeat (constructor; [cbn [snd]; constructor; apply once_ints|]); constructor.
Qed.

Lemma chip_once c s e : keys_once (describe_chip c s e).
Proof.
  unfold describe_chip. cbv zeta.
  pose proof (exceptions_once c s) as Ks. pose proof (exceptions_once c e) as Ke.
  assert (keys_once (JArr [JInt (c_eth_x c); JInt (c_eth_y c)])) as KE by (repeat constructor).
  destruct (c_ip c) as [ip|]; destruct (filter _ _) as [|l ls];
    (constructor; constructor; [constructor|]; constructor; [constructor|]; constructor;
      [constructor; [cbn [app map fst]; once_keys|]; cbn [app];
       repeat (constructor; [cbn [snd]; first [exact KE | constructor; apply (once_ints (l :: ls)) | constructor]|]); constructor
      |match goal with |- Forall _ (match ?x with [] => _ | _ => _ end) => destruct x; [constructor|] end;
       constructor; [first [exact Ks | exact Ke]|constructor]]).
Qed.

Lemma json_once m o : to_json m = Ok o -> keys_once (JObj o).
Proof.
  intros E. apply to_json_ok in E as (b & s & _ & ->). unfold written. constructor; [cbn [map fst]; once_keys|].
  assert (forall d, keys_once (json_of_desc d)) as D.
  { intros d. unfold json_of_desc. constructor; [cbn [map fst]; once_keys|].
    repeat (constructor; [cbn [snd]; constructor; apply once_ints|]). constructor. }
  repeat (constructor; [cbn [snd]; try solve [constructor | apply D | repeat constructor]|]); [|constructor].
  cbn [snd]. constructor. apply Forall_forall. intros v H. apply in_map_iff in H as (c & <- & _). apply chip_once.
Qed.

(** to_json writes no floats. *)
Lemma plain_ints l : Forall no_floats (map JInt l).
Proof. apply Forall_forall. intros v H. apply in_map_iff in H as (n & <- & _). constructor. Qed.

Lemma exceptions_plain c d : no_floats (JObj (describe_exceptions c d)).
Proof.
  unfold describe_exceptions. cbv zeta.
  destruct (n_scamp_processors c =? d_monitors d), (int_value _ =? d_entries d), (c_sdram c =? d_sdram d), (zlist_eqb _ _);
    cbn [app]; constructor; repeat (constructor; [cbn [snd]; constructor; apply plain_ints|]); constructor.
Qed.

Lemma chip_plain c s e : no_floats (describe_chip c s e).
Proof.
  unfold describe_chip. cbv zeta.
  pose proof (exceptions_plain c s) as Ks. pose proof (exceptions_plain c e) as Ke.
  assert (no_floats (JArr [JInt (c_eth_x c); JInt (c_eth_y c)])) as KE by (repeat constructor).
  destruct (c_ip c) as [ip|]; destruct (filter _ _) as [|l ls];
    (constructor; constructor; [constructor|]; constructor; [constructor|]; constructor;
      [constructor; cbn [app];
       repeat (constructor; [cbn [snd]; first [exact KE | constructor; apply (plain_ints (l :: ls)) | constructor]|]); constructor
      |match goal with |- Forall _ (match ?x with [] => _ | _ => _ end) => destruct x; [constructor|] end;
       constructor; [first [exact Ks | exact Ke]|constructor]]).
Qed.

Lemma json_plain m o : to_json m = Ok o -> no_floats (JObj o).
Proof.
  intros E. apply to_json_ok in E as (b & s & _ & ->). unfold written. constructor.
  assert (forall d, no_floats (json_of_desc d)) as D.
  { intros d. unfold json_of_desc. constructor. repeat (constructor; [cbn [snd]; constructor; apply plain_ints|]). constructor. }
  repeat (constructor; [cbn [snd]; try solve [constructor | apply D | repeat constructor]|]); [|constructor].
  cbn [snd]. constructor. apply Forall_forall. intros v H. apply in_map_iff in H as (c & <- & _). apply chip_plain.
Qed.

(** to_json_path writes the file iff to_json does not raise an exception.  Its text is one
    line of printable ASCII, and stands for the value of to_json; no other file changes. *)
Theorem C86_file_written :
  forall fs m path, let '(fs', r) := to_json_path fs m path in
    match to_json m with
    | Ok o =>
        r = Ok tt /\
        (exists text, dget String.eqb fs' path = Some text /\ every printable text /\ document text (JObj o)) /\
        forall p, p <> path -> dget String.eqb fs' p = dget String.eqb fs p
    | Err e => r = Err e /\ fs' = fs
    end.
Proof.
  intros fs m path. unfold to_json_path. destruct (to_json m) as [o|e] eqn:E; [|auto]. split; [reflexivity|].
  destruct (C86_dumped_and_loaded _ (json_once _ _ E) (json_plain _ _ E)) as [L P]. split.
  - exists (json_text (JObj o)). split; [|split; [exact P|apply load_spec; exact L]].
    rewrite (dget_dset String.eqb String.eqb_eq), String.eqb_refl. reflexivity.
  - intros p N. rewrite (dget_dset String.eqb String.eqb_eq).
    destruct (String.eqb_spec path p); [congruence|reflexivity].
Qed.
Print Assumptions C86_file_written.

(** machine_from_json with a path: what the file says counts, not how it is laid out.  A
    missing file, or one that has no JSON object, raises an exception. *)
Theorem C86_file_read :
  forall v fs path,
    (dget String.eqb fs path = None -> machine_from_json_path v fs path = Some (Err FileNotFound)) /\
    (forall text, dget String.eqb fs path = Some text ->
       (forall o, document text (JObj o) -> machine_from_json_path v fs path = Some (machine_from_json v o)) /\
       ((forall o, ~ document text (JObj o)) ->
          machine_from_json_path v fs path = None \/ machine_from_json_path v fs path = Some (Err ValueError))).
Proof.
  intros v fs path. unfold machine_from_json_path. split; [intros ->; reflexivity|]. intros text ->. split.
  - intros o D. apply load_spec in D. rewrite D. reflexivity.
  - intros N. destruct (json_load text) as [[j|e]|] eqn:E; [|right|left; reflexivity].
    + right. destruct j; try reflexivity. apply load_spec in E. destruct (N _ E).
    + unfold json_load in E. destruct (scan _ _) as [j r| |]; [destruct (skip_space r)|..]; try discriminate E; injection E as <-; reflexivity.
Qed.
Print Assumptions C86_file_read.

(** A machine written to a file and read from it is what comes of its JSON value, so
    that all of C35 holds of the files too. *)
Theorem C86_through_the_file :
  forall v fs m path fs', to_json_path fs m path = (fs', Ok tt) ->
    exists o, to_json m = Ok o /\ machine_from_json_path v fs' path = Some (machine_from_json v o).
Proof.
  intros v fs m path fs' E. pose proof (C86_file_written fs m path) as W. rewrite E in W.
  destruct (to_json m) as [o|e]; [|destruct W; discriminate]. exists o. split; [reflexivity|].
  destruct W as (_ & (text & G & _ & D) & _). exact (proj1 (proj2 (C86_file_read v fs' path) text G) o D).
Qed.
Print Assumptions C86_through_the_file.

(** A virtual machine of which no core is down comes back from its file as it was, but
    for its origin. *)
Theorem C86_virtual_file :
  forall c V w h check m down_cores fs path,
    virtual_machine c V w h check = Ok m ->
    parse_cores (v_id V) (cfg_down_cores c) = Ok down_cores ->
    (forall i, In i down_cores -> ico_ip i <> None) ->
    is_chip_at m 0 0 = true ->
    (n_chips m <= 1 \/ exists ch, In ch (chips m) /\ c_ip ch = None) ->
    exists fs', to_json_path fs m path = (fs', Ok tt) /\
      machine_from_json_path (v_id V) fs' path = Some (Ok (with_origin "Json" m)).
Proof.
  intros c V w h check m dco fs path E P N Z L.
  destruct (C35_virtual_round_trip _ _ _ _ _ _ _ E P N Z L) as (j & J & R).
  pose proof (C86_file_written fs m path) as W. destruct (to_json_path fs m path) as [fs' r] eqn:F. rewrite J in W.
  destruct W as (-> & _). exists fs'. split; [reflexivity|].
  destruct (C86_through_the_file (v_id V) _ _ _ _ F) as (o & O & ->). rewrite J in O. injection O as <-. rewrite R. reflexivity.
Qed.
Print Assumptions C86_virtual_file.

(** The file of a one chip board, character by character; it is read back.  A text that a
    person laid out, with an escape and a key given twice. *)
Definition one_chip_cfg : config :=
  mkConfig (Some 201) None None None None None true None None None None None None true.
Definition one_chip_version : version := mkVersion V201 153 1073741824.

Definition laid_out : string :=
  " {""a"" :[ 1 , -20]," ++ String (ascii_of_nat 10) " ""b"":""x\u0041\/"" , ""a"": null }".

Example C86_case :
  (exists m, virtual_machine one_chip_cfg one_chip_version 1 1 true = Ok m /\
     parse_cores V201 (cfg_down_cores one_chip_cfg) = Ok [] /\ is_chip_at m 0 0 = true /\ n_chips m <= 1 /\
     to_json_path [] m "m.json" = ([("m.json",
       "{""height"": 1, ""width"": 1, ""root"": [0, 0], ""standardResources"": {""monitors"": 1, ""routerEntries"": 16384, ""sdram"": 1073741824, ""tags"": [1, 2, 3, 4, 5, 6, 7]}, ""ethernetResources"": {""monitors"": 1, ""routerEntries"": 16384, ""sdram"": 1073741824, ""tags"": [1, 2, 3, 4, 5, 6, 7]}, ""chips"": [[0, 0, {""cores"": 153, ""ethernet"": [0, 0], ""deadLinks"": [0, 1, 2, 3, 4, 5], ""ipAddress"": ""127.0.0.0""}]]}")],
       Ok tt)) /\
  document laid_out (JObj [("a", JNull); ("b", JStr "xA/")]).
Proof.
  assert (match virtual_machine one_chip_cfg one_chip_version 1 1 true with
    | Ok m => is_chip_at m 0 0 = true /\ n_chips m <= 1 /\
       to_json_path [] m "m.json" = ([("m.json",
       "{""height"": 1, ""width"": 1, ""root"": [0, 0], ""standardResources"": {""monitors"": 1, ""routerEntries"": 16384, ""sdram"": 1073741824, ""tags"": [1, 2, 3, 4, 5, 6, 7]}, ""ethernetResources"": {""monitors"": 1, ""routerEntries"": 16384, ""sdram"": 1073741824, ""tags"": [1, 2, 3, 4, 5, 6, 7]}, ""chips"": [[0, 0, {""cores"": 153, ""ethernet"": [0, 0], ""deadLinks"": [0, 1, 2, 3, 4, 5], ""ipAddress"": ""127.0.0.0""}]]}")],
       Ok tt)
    | Err _ => False end) as K by (vm_compute; repeat split; discriminate).
  split; [|apply load_spec; vm_compute; reflexivity].
  destruct (virtual_machine one_chip_cfg one_chip_version 1 1 true) as [m|]; [|destruct K].
  exists m. split; [reflexivity|]. split; [vm_compute; reflexivity|]. exact K.
Qed.

(** Floats: a power of ten, a value that is rounded to 1, one that is not, a tenth, the
    smallest double, too large a number, and a fraction without digits. *)
Example C86_float_case :
  document "[1e0, 0.99999999999999999, 0.9999999999999999, -0.1, 5e-324, 1E+400, NaN]"
    (JArr [JFloat (S754_finite false 4503599627370496 (-52)); JFloat (S754_finite false 4503599627370496 (-52));
           JFloat (S754_finite false 9007199254740991 (-53)); JFloat (S754_finite true 7205759403792794 (-56));
           JFloat (S754_finite false 1 (-1074)); JFloat (S754_infinity false); JFloat S754_nan]) /\
  json_load "1.e3" = Some (Err ValueError) /\ json_load "1.0e" = Some (Err ValueError).
Proof. split; [apply load_spec; vm_compute; reflexivity|vm_compute; auto]. Qed.
