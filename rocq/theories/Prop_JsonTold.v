(** C94: machine_from_json tells the first thing that is wrong with a description. *)
From Coq Require Import Lia String Ascii.
From Verif Require Import Model_Py Model_Wrap Model_Version Model_Core Model_Machine Model_Str Model_Virtual Model_Text
  Model_Told Model_ItemText Model_Fault Model_Json Model_JsonTold.
From Verif Require Import Spec_Str Spec_Machine Spec_Told Spec_ItemText Spec_Version Spec_JsonRead Spec_JsonTold.
From Verif Require Import Proof_Py Proof_Wrap Proof_Board Proof_Version Proof_Machine Proof_Str Proof_Json
  Proof_JsonRead Prop_Told Prop_ItemText Prop_JsonRead.
Open Scope string_scope.
Open Scope list_scope.
Open Scope Z_scope.

(** ** The same function *)
Lemma unworded_abind {A B} (r : answer A) (f : A -> answer B) :
  unworded (abind r f) = bind (unworded r) (fun a => unworded (f a)).
Proof. destruct r as [a|[e t]]; reflexivity. Qed.
Lemma bind_assoc {A B C} (r : res A) (f : A -> res B) (g : B -> res C) :
  bind (bind r f) g = bind r (fun a => bind (f a) g).
Proof. destruct r; reflexivity. Qed.
Lemma bind_ext {A B} (r r' : res A) (f g : A -> res B) : r = r' -> (forall a, f a = g a) -> bind r f = bind r' g.
Proof. intros <- H. destruct r; cbn; auto. Qed.
Lemma u_get d k : unworded (get_told d k) = jget d k.
Proof. unfold get_told, jget, dgetitem. destruct (dget String.eqb d k); reflexivity. Qed.
Lemma u_int v : unworded (int_field v) = j_int v.
Proof. destruct v; try reflexivity. cbn. unfold int_told. destruct (py_int s); reflexivity. Qed.
Lemma u_item l i : unworded (item_told l i) = py_index l i.
Proof. unfold item_told. destruct (py_index l i); reflexivity. Qed.
Lemma u_ary v : unworded (ary_field v) = j_ary v. Proof. destruct v; reflexivity. Qed.
Lemma u_obj v : unworded (obj_field v) = j_obj v. Proof. destruct v; reflexivity. Qed.
Lemma u_str v : unworded (str_field v) = j_str v. Proof. destruct v; reflexivity. Qed.
Lemma u_maybe {A B} (d : dict string A) k (f : A -> answer B) b :
  unworded (maybe d k f b) = match dget String.eqb d k with Some v => unworded (f v) | None => Ok b end.
Proof. unfold maybe. destruct (dget String.eqb d k); reflexivity. Qed.
Lemma u_silent {A} (r : res A) : unworded (silent r) = r. Proof. destruct r; reflexivity. Qed.
Lemma u_map {A B} (f : A -> answer B) g l : (forall a, unworded (f a) = g a) -> unworded (map_answer f l) = map_res g l.
Proof.
  intros H. induction l as [|a l IH]; cbn; auto. rewrite unworded_abind, H. destruct (g a); cbn; auto.
  rewrite unworded_abind, IH. destruct (map_res g l); reflexivity.
Qed.
Lemma u_fold {A B} (f : B -> A -> answer B) g l : (forall b a, unworded (f b a) = g b a) ->
  forall b, unworded (fold_answer f l b) = fold_res g l b.
Proof.
  intros H. induction l as [|a l IH]; intros b; cbn; auto. rewrite unworded_abind, H. destruct (g b a); cbn; auto.
Qed.
Lemma u_add m c : unworded (add_told m c) = add_chip m c.
Proof. unfold add_told, add_chip_raises. destruct (add_chip m c) as [|[]]; reflexivity. Qed.
Lemma u_exceptions ex s : unworded (exceptions_told ex s) = j_exceptions ex s.
Proof.
  destruct s as [[[mo en] sd] ta]. unfold exceptions_told, j_exceptions. rewrite unworded_abind, u_maybe.
  apply bind_ext; [destruct (dget String.eqb ex "routerEntries"); auto using u_int|]. intros en'.
  rewrite unworded_abind, u_maybe. apply bind_ext; [destruct (dget String.eqb ex "sdram"); auto using u_int|]. intros sd'.
  rewrite unworded_abind, u_maybe. apply bind_ext; [destruct (dget String.eqb ex "tags"); auto using u_ary|]. reflexivity.
Qed.
Lemma u_resources o : unworded (resources_told o) = j_resources o.
Proof.
  unfold resources_told, j_resources. rewrite unworded_abind, u_get. apply bind_ext; auto. intros mo.
  rewrite unworded_abind, u_get, bind_assoc. apply bind_ext; auto. intros a.
  rewrite unworded_abind, u_int. apply bind_ext; auto. intros en.
  rewrite unworded_abind, u_get, bind_assoc. apply bind_ext; auto. intros a1.
  rewrite unworded_abind, u_int. apply bind_ext; auto. intros sd.
  rewrite unworded_abind, u_get, bind_assoc. apply bind_ext; auto. intros a2.
  rewrite unworded_abind, u_ary. apply bind_ext; auto.
Qed.
Lemma u_chip m std eth aj : unworded (chip_told m std eth aj) = j_chip m std eth aj.
Proof.
  unfold chip_told, j_chip.
  rewrite unworded_abind, u_ary. apply bind_ext; auto. intros j.
  rewrite unworded_abind, u_item, bind_assoc. apply bind_ext; auto. intros a.
  rewrite unworded_abind, u_obj. apply bind_ext; auto. intros details.
  rewrite unworded_abind, u_item, bind_assoc. apply bind_ext; auto. intros a1.
  rewrite unworded_abind, u_int. apply bind_ext; auto. intros x.
  rewrite unworded_abind, u_item, bind_assoc. apply bind_ext; auto. intros a2.
  rewrite unworded_abind, u_int. apply bind_ext; auto. intros y.
  rewrite unworded_abind, u_get, bind_assoc. apply bind_ext; auto. intros a3.
  rewrite unworded_abind, u_ary. apply bind_ext; auto. intros board.
  rewrite unworded_abind. destruct board as [|bx [|by_ [|b3 board]]]; try reflexivity. cbn [two_told unworded bind].
  rewrite unworded_abind, u_maybe. apply bind_ext.
  { destruct (dget String.eqb details "ipAddress") as [a4|]; auto. rewrite unworded_abind, u_str. reflexivity. }
  intros [ip s]. cbn [fst snd]. rewrite unworded_abind. apply bind_ext.
  { destruct (Z.of_nat (List.length j) >? 3); auto. rewrite unworded_abind, u_item, bind_assoc. apply bind_ext; auto.
    intros a4. rewrite unworded_abind, u_obj. apply bind_ext; auto. intros e. apply u_exceptions. }
  intros [[[mo en] sd] ta]. rewrite unworded_abind. destruct (negb (j_eq_int 1 mo)); [reflexivity|]. cbn [unworded bind].
  rewrite unworded_abind, u_maybe. apply bind_ext; [destruct (dget String.eqb details "deadLinks"); auto using u_ary|].
  intros dead. rewrite unworded_abind, u_silent, bind_assoc. apply bind_ext; auto. intros links. apply bind_ext; auto. intros r.
  rewrite unworded_abind, u_get, bind_assoc. apply bind_ext; auto. intros a5.
  rewrite unworded_abind, u_int. apply bind_ext; auto. intros n.
  rewrite unworded_abind, u_int. apply bind_ext; auto. intros bx'.
  rewrite unworded_abind, u_int. apply bind_ext; auto. intros by'.
  rewrite unworded_abind, (u_map _ j_int) by apply u_int. apply bind_ext; auto. intros ts. apply u_add.
Qed.

Lemma verify_then {A} v w h (f : machine -> res A) :
  bind (unworded (snd (verify_size_told v (Some w) (Some h))))
    (fun _ => bind (create_machine v (Some w) (Some h) (Some "Json")) f) =
  bind (create_machine v (Some w) (Some h) (Some "Json")) f.
Proof.
  destruct (verify_told v w h) as [(t & S & ->)|[S ->]]; cbn [snd unworded bind]; auto.
  assert (N : verify_size v (Some w) (Some h) = Err MachineExc).
  { destruct (verify_raises v (Some w) (Some h)) as [K|K]; auto. apply verify_supported in K.
    exfalso. exact (proj2 (not_wrong v w h) K t S). }
  unfold create_machine. rewrite N. reflexivity.
Qed.

Theorem C94_same_reader : forall v o, unworded (machine_from_json_told v o) = machine_from_json v o.
Proof.
  intros v o. unfold machine_from_json_told, machine_from_json.
  rewrite unworded_abind, u_get, bind_assoc. apply bind_ext; auto. intros a.
  rewrite unworded_abind, u_int. apply bind_ext; auto. intros w.
  rewrite unworded_abind, u_get, bind_assoc. apply bind_ext; auto. intros a1.
  rewrite unworded_abind, u_int. apply bind_ext; auto. intros h.
  rewrite unworded_abind. rewrite <- (verify_then v w h). apply bind_ext; auto. intros _.
  rewrite unworded_abind, u_silent. apply bind_ext; auto. intros m.
  rewrite unworded_abind, u_get, bind_assoc. apply bind_ext; auto. intros a2.
  rewrite unworded_abind, u_obj, bind_assoc. apply bind_ext; auto. intros d.
  rewrite unworded_abind, u_resources. apply bind_ext; auto. intros std.
  rewrite unworded_abind, u_get, bind_assoc. apply bind_ext; auto. intros a3.
  rewrite unworded_abind, u_obj, bind_assoc. apply bind_ext; auto. intros d'.
  rewrite unworded_abind, u_resources. apply bind_ext; auto. intros eth.
  rewrite unworded_abind, u_get, bind_assoc. apply bind_ext; auto. intros a4.
  rewrite unworded_abind, u_ary. apply bind_ext; auto. intros cs.
  rewrite unworded_abind, (u_fold _ (fun m aj => j_chip m std eth aj)) by (intros; apply u_chip). apply bind_ext; auto.
  intros m'. apply u_silent.
Qed.
Print Assumptions C94_same_reader.

(** ** Reading and demands *)
Definition reads {A} (r : answer A) (d : demand) : Prop := forall e t, r = inr (e, t) <-> d e t.
Definition reads_all {A} (r : answer A) (ds : list demand) : Prop := forall e t, r = inr (e, t) <-> first_violated ds e t.

Lemma violated_cons d ds e t :
  first_violated (d :: ds) e t <-> d e t \/ ((forall e' t', ~ d e' t') /\ first_violated ds e t).
Proof.
  split.
  - intros (b & d' & a & E & N & V). destruct b as [|d1 b]; cbn in E; injection E as E1 E2.
    + left. rewrite E1. auto.
    + right. subst d1. split; [intros; apply N; left; auto|]. exists b, d', a. split; auto. split; auto.
      intros; apply N; right; auto.
  - intros [V|[N (b & d' & a & -> & N' & V)]].
    + exists [], d, ds. split; auto.
    + exists (d :: b), d', a. split; auto. split; auto. intros d1 e' t' [<-|I]; auto.
Qed.
Lemma violated_nil e t : ~ first_violated [] e t.
Proof. intros (b & d & a & E & _). destruct b; discriminate E. Qed.
Lemma violated_app ds ds' e t :
  first_violated (ds ++ ds') e t <->
  first_violated ds e t \/ ((forall e' t', ~ first_violated ds e' t') /\ first_violated ds' e t).
Proof.
  induction ds as [|d ds IH]; cbn [app].
  - split; [right; split; auto; intros; apply violated_nil|]. intros [V|[_ V]]; auto. exfalso; exact (violated_nil _ _ V).
  - rewrite !violated_cons, IH. split.
    + intros [V|[N [V|[N' V]]]]; auto. right. split; auto. intros e' t'. rewrite violated_cons.
      intros [V'|[_ V']]; [eapply N; eauto|eapply N'; eauto].
    + intros [[V|[N V]]|[N V]]; auto. right. split.
      * intros e' t' V'. apply (N e' t'). rewrite violated_cons. auto.
      * right. split; auto. intros e' t' V'. apply (N e' t'). rewrite violated_cons. right. split; auto.
        intros e1 t1 V1. apply (N e1 t1). rewrite violated_cons. auto.
Qed.

Lemma step {A B} (r : answer A) (f : A -> answer B) d ds :
  reads r d -> (forall a, r = inl a -> reads_all (f a) ds) -> reads_all (abind r f) (d :: ds).
Proof.
  intros R F e t. rewrite violated_cons. destruct r as [a|[e' t']]; cbn.
  - rewrite (F a eq_refl e t). split.
    + intros V. right. split; auto. intros e1 t1 V1. apply R in V1. discriminate V1.
    + intros [V|[_ V]]; auto. apply R in V. discriminate V.
  - split.
    + intros E. left. apply (proj1 (R e t)). congruence.
    + intros [V|[N _]]; [apply (proj2 (R e t)) in V; congruence|]. exfalso. apply (N e' t'). exact (proj1 (R e' t') eq_refl).
Qed.
Lemma step_all {A B} (r : answer A) (f : A -> answer B) ds ds' :
  reads_all r ds -> (forall a, r = inl a -> reads_all (f a) ds') -> reads_all (abind r f) (ds ++ ds').
Proof.
  intros R F e t. rewrite violated_app. destruct r as [a|[e' t']]; cbn.
  - rewrite (F a eq_refl e t). split.
    + intros V. right. split; auto. intros e1 t1 V1. apply R in V1. discriminate V1.
    + intros [V|[_ V]]; auto. apply R in V. discriminate V.
  - split.
    + intros E. left. apply (proj1 (R e t)). congruence.
    + intros [V|[N _]]; [apply (proj2 (R e t)) in V; congruence|]. exfalso. apply (N e' t'). exact (proj1 (R e' t') eq_refl).
Qed.
Lemma finish {A} (a : A) : reads_all (inl a) [].
Proof. intros e t. split; [discriminate|]. intros V. exfalso; exact (violated_nil _ _ V). Qed.
Lemma last_step {A} (r : answer A) d : reads r d -> reads_all r [d].
Proof.
  intros R e t. rewrite violated_cons, (R e t). split; auto. intros [V|[_ V]]; auto. exfalso; exact (violated_nil _ _ V).
Qed.
Lemma never_reads {A} (a : A) (d : demand) : (forall e t, ~ d e t) -> reads (inl a) d.
Proof. intros N e t. split; [discriminate|]. intros V. exfalso. eapply N; eauto. Qed.

(** ** Places *)
Lemma look_app p q v : look (p ++ q) v = match look p v with Some w => look q w | None => None end.
Proof.
  revert v. induction p as [|[k|i] p IH]; intros v; cbn [look app]; auto.
  - destruct v; auto. destruct (dget String.eqb d k); auto.
  - destruct v; auto. destruct (nth_error l i); auto.
Qed.

Lemma int_field_says v n : int_field v = inl n <-> says_int v n.
Proof.
  rewrite <- j_int_says, <- u_int. destruct (int_field v) as [a|[e t]]; cbn; split; intros H; try discriminate H; congruence.
Qed.
Lemma class_same v : class_text v = class_of v. Proof. destruct v; reflexivity. Qed.
Lemma int_field_wrong v : reads (int_field v) (wrong_int v).
Proof.
  intros e t. unfold wrong_int. destruct v as [|b|n|f|s|l|d].
  5:{ cbn [int_field]. destruct (int_cases s) as [(n & I & ->)|[I ->]].
      - split; [discriminate|]. intros (_ & [(s' & E & N & _)|(N & _)]).
        + injection E as <-. exfalso. eapply N; eauto.
        + exfalso. eapply N; eauto.
      - split.
        + intros H. assert (H1 : e = ValueError) by congruence. assert (H2 : t = int_problem s) by congruence. subst.
          split; auto. left. eauto.
        + intros (-> & [(s' & E & N & ->)|(N & _)]); [injection E as <-; auto|]. exfalso. eapply N; eauto. }
  all: cbn [int_field unsupported]; split; intros H; try discriminate H.
  all: try (destruct H as (-> & [(s' & E & _)|(_ & N & ->)]); [discriminate E|];
            first [exfalso; eapply N; constructor
                  |exfalso; destruct b; eapply N; constructor|reflexivity]).
  all: unfold unsupported in H;
    assert (H1 : e = ValueError) by congruence; subst e; split; auto; right; split; [intros s E; discriminate E|];
    split; [intros n S; inversion S|];
    apply (f_equal (fun r => match r with inr p => snd p | inl _ => t end)) in H; cbn [snd] in H; rewrite <- H; reflexivity.
Qed.

Section Described.
Variable o : jobject.

Lemma value_key p d k : value_at o p (JObj d) -> look (p ++ [Key k]) (JObj o) = dget String.eqb d k.
Proof using. unfold value_at. intros H. rewrite look_app, H. cbn [look]. destruct (dget String.eqb d k); auto. Qed.
Lemma value_item p l i : value_at o p (JArr l) -> look (p ++ [Item i]) (JObj o) = nth_error l i.
Proof using. unfold value_at. intros H. rewrite look_app, H. cbn [look]. destruct (nth_error l i); auto. Qed.

Lemma get_reads p d k : value_at o p (JObj d) -> reads (get_told d k) (missing o p k).
Proof using.
  intros H e t. unfold missing, nothing_at. rewrite (value_key p d k H). unfold get_told.
  destruct (dget String.eqb d k).
  - split; [discriminate|]. intros [E _]. discriminate E.
  - split; [intros E; injection E as <- <-; auto|]. intros (_ & -> & ->). auto.
Qed.
Lemma get_value p d k v : value_at o p (JObj d) -> get_told d k = inl v -> value_at o (p ++ [Key k]) v.
Proof using.
  intros H E. unfold value_at. rewrite (value_key p d k H). unfold get_told in E. destruct (dget String.eqb d k); congruence.
Qed.
Lemma int_reads p v : value_at o p v -> reads (int_field v) (not_integer o p).
Proof using.
  intros H e t. rewrite (int_field_wrong v e t). unfold not_integer, value_at in *. split; [eauto|].
  intros (v' & E & W). replace v with v' by congruence. auto.
Qed.
Lemma kind_reads {A} kind (good : json -> Prop) p (f : json -> answer A) v :
  (forall v, good v -> exists a, f v = inl a) -> (forall v, ~ good v -> f v = unsupported kind v) ->
  (forall v, good v \/ ~ good v) ->
  value_at o p v -> reads (f v) (not_kind o kind good p).
Proof using.
  intros G B D H e t. unfold not_kind, value_at in *. destruct (D v) as [K|K].
  - destruct (G v K) as (a & ->). split; [discriminate|]. intros (v' & E & N & _). exfalso. apply N. congruence.
  - rewrite (B v K). unfold unsupported. split.
    + intros E. exists v. split; auto. split; auto. rewrite class_same in E. split; congruence.
    + intros (v' & E & _ & -> & ->). replace v' with v by congruence. rewrite class_same. reflexivity.
Qed.
Lemma str_reads p v : value_at o p v -> reads (str_field v) (not_string o p).
Proof using.
  apply kind_reads.
  - intros w (s & ->). cbn. eauto.
  - intros w N. destruct w; auto. exfalso. eauto.
  - intros w. destruct w; try (right; intros (s' & E); discriminate E). eauto.
Qed.
Lemma ary_reads p v : value_at o p v -> reads (ary_field v) (not_array o p).
Proof using.
  apply kind_reads.
  - intros w (s & ->). cbn. eauto.
  - intros w N. destruct w; auto. exfalso. eauto.
  - intros w. destruct w; try (right; intros (s' & E); discriminate E). eauto.
Qed.
Lemma obj_reads p v : value_at o p v -> reads (obj_field v) (not_object o p).
Proof using.
  apply kind_reads.
  - intros w (s & ->). cbn. eauto.
  - intros w N. destruct w; auto. exfalso. eauto.
  - intros w. destruct w; try (right; intros (s' & E); discriminate E). eauto.
Qed.
Lemma ary_inl v l : ary_field v = inl l -> v = JArr l. Proof using. destruct v; cbn; unfold unsupported; intros H; try discriminate H; congruence. Qed.
Lemma obj_inl v d : obj_field v = inl d -> v = JObj d. Proof using. destruct v; cbn; unfold unsupported; intros H; try discriminate H; congruence. Qed.
Lemma str_inl v d : str_field v = inl d -> v = JStr d. Proof using. destruct v; cbn; unfold unsupported; intros H; try discriminate H; congruence. Qed.

Lemma kind_absent kind good p : nothing_at o p -> forall e t, ~ not_kind o kind good p e t.
Proof using. intros N e t (v & E & _). unfold nothing_at, value_at in *. congruence. Qed.
Lemma int_absent p : nothing_at o p -> forall e t, ~ not_integer o p e t.
Proof using. intros N e t (v & E & _). unfold nothing_at, value_at in *. congruence. Qed.

Lemma resources_read kind d : value_at o [Key kind] (JObj d) ->
  reads_all (resources_told d)
    [missing o [Key kind] "monitors";
     missing o [Key kind] "routerEntries"; not_integer o [Key kind; Key "routerEntries"];
     missing o [Key kind] "sdram"; not_integer o [Key kind; Key "sdram"];
     missing o [Key kind] "tags"; not_array o [Key kind; Key "tags"]].
Proof using.
  intros H. unfold resources_told.
  apply step; [apply get_reads; auto|]. intros mo M.
  apply step; [apply get_reads; auto|]. intros a A. apply (get_value [Key kind]) in A; auto.
  apply step; [apply int_reads; auto|]. intros en E.
  apply step; [apply get_reads; auto|]. intros b B. apply (get_value [Key kind]) in B; auto.
  apply step; [apply int_reads; auto|]. intros sd S.
  apply step; [apply get_reads; auto|]. intros c C. apply (get_value [Key kind]) in C; auto.
  apply step; [apply ary_reads; auto|]. intros ta T. apply finish.
Qed.
Lemma resources_values kind d mo en sd ta : value_at o [Key kind] (JObj d) -> resources_told d = inl (mo, en, sd, ta) ->
  value_at o [Key kind; Key "monitors"] mo /\ value_at o [Key kind; Key "tags"] (JArr ta).
Proof using.
  intros H R. unfold resources_told in R.
  destruct (get_told d "monitors") as [v1|] eqn:E1; [|discriminate R]. cbn [abind] in R.
  destruct (get_told d "routerEntries") as [v2|]; [|discriminate R]. cbn [abind] in R.
  destruct (int_field v2); [|discriminate R]. cbn [abind] in R.
  destruct (get_told d "sdram") as [v3|]; [|discriminate R]. cbn [abind] in R.
  destruct (int_field v3); [|discriminate R]. cbn [abind] in R.
  destruct (get_told d "tags") as [v4|] eqn:E4; [|discriminate R]. cbn [abind] in R.
  destruct (ary_field v4) as [l|] eqn:E5; [|discriminate R]. cbn [abind] in R. injection R as <- <- <- <-.
  apply (get_value [Key kind]) in E1; auto. apply (get_value [Key kind]) in E4; auto. apply ary_inl in E5. subst v4. auto.
Qed.

Lemma all_vacuous {A} (a : A) ds : Forall (fun d : demand => forall e t, ~ d e t) ds -> reads_all (inl a) ds.
Proof using.
  intros F e t. split; [discriminate|]. intros (b & d & c & -> & _ & V). exfalso.
  rewrite Forall_forall in F. eapply (F d); eauto. apply in_or_app. right. left. reflexivity.
Qed.
Lemma maybe_reads {A} p d k (f : json -> answer A) b (D : list part -> demand) :
  value_at o p (JObj d) ->
  (forall v, value_at o (p ++ [Key k]) v -> reads (f v) (D (p ++ [Key k]))) ->
  (nothing_at o (p ++ [Key k]) -> forall e t, ~ D (p ++ [Key k]) e t) ->
  reads (maybe d k f b) (D (p ++ [Key k])).
Proof using.
  intros H F N. unfold maybe. unfold value_at, nothing_at in *. rewrite (value_key p d k H) in F, N.
  destruct (dget String.eqb d k) as [v|].
  - apply F. reflexivity.
  - apply never_reads. apply N. reflexivity.
Qed.
Lemma maybe_value {A} p d k (f : json -> answer A) b a :
  value_at o p (JObj d) -> maybe d k f b = inl a ->
  (exists v, value_at o (p ++ [Key k]) v /\ f v = inl a) \/ (nothing_at o (p ++ [Key k]) /\ a = b).
Proof using.
  intros H F. unfold maybe in F. unfold value_at, nothing_at in *. rewrite (value_key p d k H).
  destruct (dget String.eqb d k) as [v|]; [left; eauto|right; split; congruence].
Qed.
Lemma abind_inl {A B} (r : answer A) (f : A -> answer B) b : abind r f = inl b -> exists a, r = inl a /\ f a = inl b.
Proof using. destruct r; cbn; intros H; [eauto|discriminate H]. Qed.

(** The exceptions of a chip *)
Lemma exceptions_read i d s : value_at o (item i [Item 3]) (JObj d) ->
  reads_all (exceptions_told d s)
    [not_integer o (item i [Item 3; Key "routerEntries"]);
     not_integer o (item i [Item 3; Key "sdram"]); not_array o (item i [Item 3; Key "tags"])].
Proof using.
  intros H. destruct s as [[[mo en] sd] ta]. unfold exceptions_told.
  apply step.
  { apply (maybe_reads (item i [Item 3]) d "routerEntries" int_field en (not_integer o)); auto using int_reads, int_absent. }
  intros en' _. apply step.
  { apply (maybe_reads (item i [Item 3]) d "sdram" int_field sd (not_integer o)); auto using int_reads, int_absent. }
  intros sd' _. apply step.
  { apply (maybe_reads (item i [Item 3]) d "tags" ary_field ta (not_array o)); auto using ary_reads.
    intros N. apply kind_absent. exact N. }
  intros ta' _. apply finish.
Qed.
Lemma exceptions_values i d mo en sd ta mo' en' sd' ta' : value_at o (item i [Item 3]) (JObj d) ->
  exceptions_told d (mo, en, sd, ta) = inl (mo', en', sd', ta') ->
  (value_at o (item i [Item 3; Key "monitors"]) mo' \/
   (nothing_at o (item i [Item 3; Key "monitors"]) /\ mo' = mo)) /\
  (value_at o (item i [Item 3; Key "tags"]) (JArr ta') \/
   (nothing_at o (item i [Item 3; Key "tags"]) /\ ta' = ta)).
Proof using.
  intros H E. unfold exceptions_told in E.
  apply abind_inl in E as (en1 & _ & E). apply abind_inl in E as (sd1 & _ & E). apply abind_inl in E as (ta1 & T & E).
  injection E as <- <- <- <-. split.
  - pose proof (value_key (item i [Item 3]) d "monitors" H) as K. unfold value_at, nothing_at.
    change (item i [Item 3; Key "monitors"]) with (item i [Item 3] ++ [Key "monitors"]). rewrite K.
    destruct (dget String.eqb d "monitors"); auto.
  - apply (maybe_value (item i [Item 3])) in T as [(v & V & A)|[N A]]; auto.
    apply ary_inl in A. subst v. left. exact V.
Qed.

(** The list of the item of a chip *)
Lemma part_at i j n v : value_at o (item i []) (JArr j) -> nth_error j n = Some v -> value_at o (item i [Item n]) v.
Proof using. intros J H. unfold value_at. pose proof (value_item (item i []) j n J) as K. rewrite H in K. exact K. Qed.
Lemma no_part i j n : value_at o (item i []) (JArr j) -> nth_error j n = None ->
  nothing_at o (item i [Item n]) /\ forall k, nothing_at o (item i [Item n; Key k]).
Proof using.
  intros J H. unfold nothing_at. pose proof (value_item (item i []) j n J) as K. rewrite H in K.
  change (item i [] ++ [Item n]) with (item i [Item n]) in K. split; auto.
  intros k. change (item i [Item n; Key k]) with (item i [Item n] ++ [Key k]). rewrite look_app, K. reflexivity.
Qed.
Lemma fourth (jx jy jd e : json) more : (Z.of_nat (List.length (jx :: jy :: jd :: e :: more)) >? 3 = true) /\
  item_told (jx :: jy :: jd :: e :: more) 3 = inl e.
Proof using.
  split; [apply Z.gtb_lt; cbn [List.length]; lia|].
  unfold item_told. rewrite !py_index_cons by lia. change (3 - 1 - 1 - 1) with 0. rewrite py_index_zero. reflexivity.
Qed.

Lemma more_read i jx jy jd more s : value_at o (item i []) (JArr (jx :: jy :: jd :: more)) ->
  reads_all (if Z.of_nat (List.length (jx :: jy :: jd :: more)) >? 3
             then abind (item_told (jx :: jy :: jd :: more) 3) (fun a =>
                  abind (obj_field a) (fun e => exceptions_told e s))
             else inl s)
    [not_object o (item i [Item 3]); not_integer o (item i [Item 3; Key "routerEntries"]);
     not_integer o (item i [Item 3; Key "sdram"]); not_array o (item i [Item 3; Key "tags"])].
Proof using.
  intros J. destruct more as [|e more].
  - cbn [List.length]. change (Z.of_nat 3 >? 3) with false. cbn iota.
    destruct (no_part i _ 3 J eq_refl) as [N N'].
    apply all_vacuous. repeat constructor; try (apply kind_absent); try (apply int_absent); auto.
  - destruct (fourth jx jy jd e more) as [-> ->]. cbn [abind].
    assert (V : value_at o (item i [Item 3]) e) by (eapply part_at; eauto; reflexivity).
    apply step; [apply obj_reads; auto|]. intros d D. apply obj_inl in D. subst e.
    apply exceptions_read; auto.
Qed.
Lemma more_values i jx jy jd more mo en sd ta mo' en' sd' ta' :
  value_at o (item i []) (JArr (jx :: jy :: jd :: more)) ->
  (if Z.of_nat (List.length (jx :: jy :: jd :: more)) >? 3
   then abind (item_told (jx :: jy :: jd :: more) 3) (fun a =>
        abind (obj_field a) (fun e => exceptions_told e (mo, en, sd, ta)))
   else inl (mo, en, sd, ta)) = inl (mo', en', sd', ta') ->
  (value_at o (item i [Item 3; Key "monitors"]) mo' \/
   (nothing_at o (item i [Item 3; Key "monitors"]) /\ mo' = mo)) /\
  (value_at o (item i [Item 3; Key "tags"]) (JArr ta') \/
   (nothing_at o (item i [Item 3; Key "tags"]) /\ ta' = ta)).
Proof using.
  intros J. destruct more as [|e more].
  - cbn [List.length]. change (Z.of_nat 3 >? 3) with false. cbn iota. intros E. injection E as <- <- <- <-.
    destruct (no_part i _ 3 J eq_refl) as [N N']. split; right; auto.
  - destruct (fourth jx jy jd e more) as [-> ->]. cbn [abind].
    assert (V : value_at o (item i [Item 3]) e) by (eapply part_at; eauto; reflexivity).
    intros E. apply abind_inl in E as (d & D & E). apply obj_inl in D. subst e.
    eapply exceptions_values; eauto.
Qed.

Lemma two_reads p l : value_at o p (JArr l) -> reads (two_told l) (not_two o p).
Proof using.
  intros H e t. unfold not_two, value_at in *. cbv zeta.
  assert (D : (exists l0, look p (JObj o) = Some (JArr l0) /\ e = ValueError /\
    (Z.of_nat (List.length l0) < 2 /\ t = cat ["not enough values to unpack (expected 2, got "; dec (Z.of_nat (List.length l0)); ")"] \/
     2 < Z.of_nat (List.length l0) /\ t = "too many values to unpack (expected 2)")) <->
    e = ValueError /\
    (Z.of_nat (List.length l) < 2 /\ t = cat ["not enough values to unpack (expected 2, got "; dec (Z.of_nat (List.length l)); ")"] \/
     2 < Z.of_nat (List.length l) /\ t = "too many values to unpack (expected 2)")).
  { split; [intros (l0 & E & K); replace l with l0 by congruence; auto|eauto]. }
  rewrite D. clear D H.
  assert (Two : (exists a b, l = [a; b]) \/ (List.length l <> 2)%nat).
  { destruct l as [|a [|b [|c l]]]; [right; cbn; lia|right; cbn; lia|left; eauto|right; cbn; lia]. }
  destruct Two as [(a & b & ->)|N].
  - cbn. split; [discriminate|]. intros (_ & [[F _]|[F _]]); lia.
  - assert (T : two_told l = inr (ValueError,
      if Z.of_nat (List.length l) <? 2
      then cat ["not enough values to unpack (expected 2, got "; dec (Z.of_nat (List.length l)); ")"]
      else "too many values to unpack (expected 2)")).
    { destruct l as [|a [|b [|c l]]]; try reflexivity. cbn in N. lia. }
    rewrite T. destruct (Z.ltb_spec (Z.of_nat (List.length l)) 2) as [L|L]; split.
    + intros E. split; [congruence|]. left. split; [lia|congruence].
    + intros (-> & [[_ ->]|[F _]]); [reflexivity|lia].
    + intros E. split; [congruence|]. right. split; [lia|congruence].
    + intros (-> & [[F _]|[_ ->]]); [lia|reflexivity].
Qed.

Lemma map_reads l : reads (map_answer int_field l) (fun e t =>
  exists before v after, l = before ++ v :: after /\
    Forall (fun b => exists n, says_int b n) before /\ wrong_int v e t).
Proof using.
  induction l as [|a l IH]; intros e t; cbn [map_answer].
  - split; [discriminate|]. intros (b & v & c & E & _). destruct b; discriminate E.
  - destruct (int_field a) as [n|[e' t']] eqn:A; cbn [abind].
    + assert (S : says_int a n) by (apply int_field_says; auto).
      assert (R : abind (map_answer int_field l) (fun bs => inl (n :: bs)) = inr (e, t) <->
                  map_answer int_field l = inr (e, t)).
      { destruct (map_answer int_field l) as [x|y]; cbn; split; intros E; try discriminate E; congruence. }
      rewrite R, (IH e t). split.
      * intros (b & v & c & -> & F & W). exists (a :: b), v, c. split; auto. split; auto. constructor; eauto.
      * intros (b & v & c & E & F & W). destruct b as [|a' b]; cbn in E; injection E as -> ->.
        -- exfalso. apply (int_field_wrong v e t) in W. congruence.
        -- exists b, v, c. split; auto. split; auto. inversion F; auto.
    + split.
      * intros E. exists [], a, l. split; auto. split; auto. apply int_field_wrong. congruence.
      * intros (b & v & c & E & F & W). destruct b as [|a' b]; cbn in E; injection E as -> ->.
        -- apply (int_field_wrong v e t) in W. congruence.
        -- inversion F as [|? ? [n S] _]; subst. apply int_field_says in S. congruence.
Qed.

(** ** A chip *)
Lemma place_fun i x y x' y' : place o i x y -> place o i x' y' -> x = x' /\ y = y'.
Proof using.
  intros (a & b & A & SA & B & SB) (a' & b' & A' & SA' & B' & SB'). unfold value_at in *.
  replace a' with a in SA' by congruence. replace b' with b in SB' by congruence.
  apply int_field_says in SA, SA', SB, SB'. split; congruence.
Qed.

Definition holds (m : machine) (i : nat) : Prop :=
  wf m /\ forall x y, In (x, y) (map c_xy (chips m)) <-> exists k, (k < i)%nat /\ place o k x y.

Lemma add_reads m i x y c : holds m i -> place o i x y -> c_xy c = (x, y) -> c_x c = x -> c_y c = y ->
  reads (add_told m c) (taken o i).
Proof using.
  intros [W I] P C CX CY e t. unfold add_told, add_chip_raises, taken. pose proof (add_chip_wf m c W) as A.
  destruct (add_chip m c) as [m'|e'].
  - destruct A as (_ & _ & _ & _ & _ & _ & _ & _ & _ & A). split; [discriminate|].
    intros (x' & y' & k & L & K & P' & _). exfalso. destruct (place_fun i x y x' y' P P') as [<- <-].
    apply A. rewrite C. apply I. eauto.
  - destruct A as (-> & A). rewrite C in A. apply I in A as (k & L & K). rewrite CX, CY. split.
    + intros E. exists x, y, k. split; auto. split; auto. split; auto.
      cbn [raised_class raised_text] in E. split; [congruence|].
      apply (f_equal (fun r => match r with inr p => snd p | inl _ => t end)) in E. cbn [snd] in E. rewrite <- E.
      unfold cat. cbn. rewrite ?app_assoc_s. cbn. rewrite ?app_assoc_s, ?app_nil_s. reflexivity.
    + intros (x' & y' & k' & _ & _ & P' & -> & ->). destruct (place_fun i x y x' y' P P') as [<- <-].
      f_equal. f_equal. cbn. rewrite ?app_assoc_s. cbn. rewrite ?app_assoc_s, ?app_nil_s. reflexivity.
Qed.

Section Chips.
Variables (std eth : json * Z * Z * list json).
Let mon (s : json * Z * Z * list json) : json := fst (fst (fst s)).
Let tag (s : json * Z * Z * list json) : list json := snd s.
Hypothesis Std : value_at o [Key "standardResources"; Key "monitors"] (mon std) /\
                 value_at o [Key "standardResources"; Key "tags"] (JArr (tag std)).
Hypothesis Eth : value_at o [Key "ethernetResources"; Key "monitors"] (mon eth) /\
                 value_at o [Key "ethernetResources"; Key "tags"] (JArr (tag eth)).

Lemma resource_fun i k v v' : resource_at o i k v -> resource_at o i k v' -> v = v'.
Proof using.
  unfold resource_at, value_at, nothing_at. intros R R'.
  destruct R as [R|[N [[A R]|[A R]]]], R' as [R'|[N' [[A' R']|[A' R']]]]; congruence.
Qed.

Lemma chip_reads m i aj : holds m i -> value_at o (item i []) aj ->
  reads_all (chip_told m std eth aj) (chip_demands o i) /\
  forall m', chip_told m std eth aj = inl m' -> holds m' (S i).
Proof using Std Eth.
  intros HM V. unfold chip_told. split.
  - (* what is told *)
    apply step; [apply ary_reads; auto|]. intros j J. apply ary_inl in J. subst aj.
    apply step.
    { intros e t. unfold too_short, nothing_at. rewrite (value_item (item i []) j 2 V). unfold item_told.
      destruct j as [|jx [|jy [|jd more]]].
      1-3: cbn; split; [intros E; split; [auto|split; congruence]|intros (_ & -> & ->); reflexivity].
      rewrite !py_index_cons by lia. change (2 - 1 - 1) with 0. rewrite py_index_zero. cbn.
      split; [discriminate|]. intros [E _]. discriminate E. }
    intros jd JD.
    assert (exists jx jy more, j = jx :: jy :: jd :: more) as (jx & jy & more & ->).
    { unfold item_told in JD. destruct j as [|jx [|jy [|jd' more]]]; try discriminate JD.
      rewrite !py_index_cons in JD by lia. change (2 - 1 - 1) with 0 in JD. rewrite py_index_zero in JD.
      injection JD as ->. eauto. }
    clear JD.
    assert (V0 : value_at o (item i [Item 0]) jx) by (eapply part_at; eauto; reflexivity).
    assert (V1 : value_at o (item i [Item 1]) jy) by (eapply part_at; eauto; reflexivity).
    assert (V2 : value_at o (item i [Item 2]) jd) by (eapply part_at; eauto; reflexivity).
    apply step; [apply obj_reads; auto|]. intros details D. apply obj_inl in D. subst jd.
    replace (item_told (jx :: jy :: JObj details :: more) 0) with (@inl json (exn * string) jx) by reflexivity.
    replace (item_told (jx :: jy :: JObj details :: more) 1) with (@inl json (exn * string) jy).
    2:{ unfold item_told. rewrite py_index_cons by lia. change (1 - 1) with 0. rewrite py_index_zero. reflexivity. }
    cbn [abind].
    apply step; [apply int_reads; auto|]. intros x X. cbn [abind].
    apply step; [apply int_reads; auto|]. intros y Y.
    assert (P : place o i x y).
    { exists jx, jy. apply int_field_says in X, Y. auto. }
    apply step; [apply get_reads; auto|]. intros je JE. apply (get_value (item i [Item 2])) in JE; auto.
    apply step; [apply (ary_reads (item i [Item 2; Key "ethernet"])); auto|]. intros board B. apply ary_inl in B. subst je.
    apply step; [apply two_reads; auto|]. intros [bx by_] B.
    assert (board = [bx; by_]) as -> by (destruct board as [|? [|? [|? ?]]]; try discriminate B; cbn in B; congruence).
    cbn [fst snd].
    assert (VB : value_at o (item i [Item 2; Key "ethernet"; Item 0]) bx /\
                 value_at o (item i [Item 2; Key "ethernet"; Item 1]) by_).
    { split; [exact (value_item (item i [Item 2; Key "ethernet"]) [bx; by_] 0 JE)
             |exact (value_item (item i [Item 2; Key "ethernet"]) [bx; by_] 1 JE)]. }
    apply step.
    { apply (maybe_reads (item i [Item 2]) details "ipAddress" _ _ (not_string o)); auto.
      - intros v Hv e t. rewrite <- (str_reads _ v Hv e t). destruct (str_field v); cbn; split; intros E; try discriminate E; congruence.
      - intros N. apply kind_absent. exact N. }
    intros [ip s] IP. cbn [snd].
    assert (RS : (~ nothing_at o (item i [Item 2; Key "ipAddress"]) /\ s = eth) \/
                 (nothing_at o (item i [Item 2; Key "ipAddress"]) /\ s = std)).
    { apply (maybe_value (item i [Item 2])) in IP as [(a & A & IP)|[N IP]]; auto.
      - left. apply abind_inl in IP as (b & _ & IP). split; [|congruence]. unfold nothing_at, value_at in *.
        change (item i [Item 2; Key "ipAddress"]) with (item i [Item 2] ++ [Key "ipAddress"]). congruence.
      - right. split; [exact N|congruence]. }
    assert (RM : exists v, mon s = v /\ (~ nothing_at o (item i [Item 2; Key "ipAddress"]) /\ value_at o [Key "ethernetResources"; Key "monitors"] v \/
      nothing_at o (item i [Item 2; Key "ipAddress"]) /\ value_at o [Key "standardResources"; Key "monitors"] v)).
    { exists (mon s). split; auto. destruct RS as [[N ->]|[N ->]]; [left|right]; split; auto; [apply Eth|apply Std]. }
    assert (RT : exists v, JArr (tag s) = v /\ (~ nothing_at o (item i [Item 2; Key "ipAddress"]) /\ value_at o [Key "ethernetResources"; Key "tags"] v \/
      nothing_at o (item i [Item 2; Key "ipAddress"]) /\ value_at o [Key "standardResources"; Key "tags"] v)).
    { exists (JArr (tag s)). split; auto. destruct RS as [[N ->]|[N ->]]; [left|right]; split; auto; [apply Eth|apply Std]. }
    apply (step_all _ _ [_; _; _; _]); [apply more_read; auto|].
    intros [[[mo en] sd] ta] EX.
    assert (RR : resource_at o i "monitors" mo /\ resource_at o i "tags" (JArr ta)).
    { destruct s as [[[mo0 en0] sd0] ta0]. apply (more_values i) in EX as [EM ET]; auto.
      destruct RM as (vm & RM1 & RM2), RT as (vt & RT1 & RT2). cbn in RM1, RT1. split; unfold resource_at.
      - destruct EM as [EM|[EM ->]]; [left; exact EM|right; split; [exact EM|subst vm; exact RM2]].
      - destruct ET as [ET|[ET ->]]; [left; exact ET|right; split; [exact ET|subst vt; exact RT2]]. }
    destruct RR as [RMo RTa]. clear RM RT EX RS.
    apply step.
    { intros e t. unfold monitors_not_1. destruct (j_eq_int 1 mo) eqn:Q; cbn [negb].
      - split; [discriminate|]. intros (v & R & N & _). exfalso. apply N. rewrite (resource_fun i _ _ _ R RMo).
        apply j_eq_equals. auto.
      - split.
        + intros E. exists mo. split; auto. split; [intros K; apply j_eq_equals in K; congruence|]. split; congruence.
        + intros (v & _ & _ & -> & ->). reflexivity. }
    intros _ _.
    apply step.
    { apply (maybe_reads (item i [Item 2]) details "deadLinks" _ _ (not_array o)); auto using ary_reads.
      intros N. apply kind_absent. exact N. }
    intros dead _.
    rewrite links_fold by (intros l Hl; apply in_zrange in Hl; auto). cbn [bind app].
    rewrite router_of_links.
    2:{ rewrite map_map, (map_ext _ (fun l => l)) by (intros; apply link_over_id). rewrite map_id.
        apply nodup_sorted, alive_sorted. }
    cbn [silent abind].
    apply step; [apply get_reads; auto|]. intros jn JN. apply (get_value (item i [Item 2])) in JN; auto.
    apply step; [apply (int_reads (item i [Item 2; Key "cores"])); auto|]. intros n _.
    apply step; [apply int_reads; apply VB|]. intros ex _.
    apply step; [apply int_reads; apply VB|]. intros ey _.
    apply step.
    { intros e t. rewrite (map_reads ta e t). unfold wrong_tag. split.
      - intros (b & v & a & -> & F & W). eauto 8.
      - intros (b & v & a & R & F & W). pose proof (resource_fun i _ _ _ R RTa) as K. injection K as K. eauto 8. }
    intros ts _. apply last_step. eapply add_reads; eauto.
  - (* what is read *)
    intros m' E.
    apply abind_inl in E as (j & J & E). apply ary_inl in J. subst aj.
    apply abind_inl in E as (jd & _ & E). apply abind_inl in E as (details & _ & E).
    apply abind_inl in E as (jx & JX & E). apply abind_inl in E as (x & X & E).
    apply abind_inl in E as (jy & JY & E). apply abind_inl in E as (y & Y & E).
    apply abind_inl in E as (? & _ & E). apply abind_inl in E as (? & _ & E). apply abind_inl in E as (b & _ & E).
    apply abind_inl in E as (k & _ & E). apply abind_inl in E as ([[[mo en] sd] ta] & _ & E).
    apply abind_inl in E as (? & _ & E). apply abind_inl in E as (dead & _ & E). apply abind_inl in E as (r & _ & E).
    apply abind_inl in E as (? & _ & E). apply abind_inl in E as (n & _ & E).
    apply abind_inl in E as (bx & _ & E). apply abind_inl in E as (by_ & _ & E). apply abind_inl in E as (ts & _ & E).
    assert (P : place o i x y).
    { exists jx, jy. apply int_field_says in X, Y. unfold item_told in JX, JY. destruct j as [|j0 [|j1 j]].
      - discriminate JX.
      - discriminate JY.
      - rewrite py_index_zero in JX. rewrite py_index_cons in JY by lia. change (1 - 1) with 0 in JY. rewrite py_index_zero in JY.
        injection JX as ->. injection JY as ->.
        split; [eapply part_at; eauto; reflexivity|]. split; auto. split; [eapply part_at; eauto; reflexivity|auto]. }
    destruct HM as [W I]. unfold add_told, add_chip_raises in E.
    match type of E with context [add_chip m ?c] => set (ch := c) in E end.
    pose proof (add_chip_wf m ch W) as A. destruct (add_chip m ch) as [m1|[]]; try discriminate E.
    injection E as ->. destruct A as (W' & C & _). split; auto.
    intros x' y'. rewrite C, map_app, in_app_iff. cbn [map In].
    assert (CX : c_xy ch = (x, y)) by reflexivity. rewrite CX, I. split.
    + intros [(k' & L & K)|[Q|[]]]; [exists k'; split; auto; lia|]. injection Q as <- <-. exists i. split; auto.
    + intros (k' & L & K). destruct (Nat.eq_dec k' i) as [->|N].
      * destruct (place_fun i x y x' y' P K) as [<- <-]. auto.
      * left. exists k'. split; auto. lia.
Qed.

Lemma all_read cs : forall m i, (forall n, look (item (i + n) []) (JObj o) = nth_error cs n) -> holds m i ->
  reads_all (fold_answer (fun m aj => chip_told m std eth aj) cs m) (flat_map (chip_demands o) (seq i (List.length cs))) /\
  forall m', fold_answer (fun m aj => chip_told m std eth aj) cs m = inl m' -> wf m'.
Proof using Std Eth.
  induction cs as [|aj cs IH]; intros m i V H.
  - cbn. split; [apply finish|]. intros m' E. injection E as <-. apply H.
  - assert (V0 : value_at o (item i []) aj).
    { unfold value_at. rewrite <- (Nat.add_0_r i). apply (V 0%nat). }
    destruct (chip_reads m i aj H V0) as [R N].
    assert (V' : forall n, look (item (S i + n) []) (JObj o) = nth_error cs n).
    { intros n. replace (S i + n)%nat with (i + S n)%nat by lia. apply V. }
    cbn [fold_answer List.length seq flat_map]. split.
    + apply step_all; auto. intros m1 E1. apply (IH m1 (S i)); auto.
    + intros m' E. apply abind_inl in E as (m1 & E1 & E). apply (IH m1 (S i)) in E; auto.
Qed.
End Chips.
End Described.

(** ** The description *)
Theorem C94_first_wrong_field : forall v o e t,
  machine_from_json_told v o = inr (e, t) <-> first_violated (demands o v) e t.
Proof.
  intros v o. change (reads_all (machine_from_json_told v o) (demands o v)).
  assert (R : value_at o [] (JObj o)) by reflexivity.
  unfold machine_from_json_told, demands. cbn [app].
  apply step; [apply get_reads; auto|]. intros jw JW. apply (get_value o []) in JW; auto.
  apply step; [apply (int_reads o [Key "width"]); auto|]. intros w W. apply int_field_says in W.
  apply step; [apply get_reads; auto|]. intros jh JH. apply (get_value o []) in JH; auto.
  apply step; [apply (int_reads o [Key "height"]); auto|]. intros h H. apply int_field_says in H.
  cbn [app] in JW, JH.
  assert (SZ : forall a b w' h', value_at o [Key "width"] a -> says_int a w' -> value_at o [Key "height"] b -> says_int b h' ->
    w' = w /\ h' = h).
  { unfold value_at in *. intros a b w' h' A AW B BH. replace a with jw in AW by congruence. replace b with jh in BH by congruence.
    apply int_field_says in W, H, AW, BH. split; congruence. }
  apply step.
  { intros e t. unfold wrong_size. destruct (verify_told v w h) as [(t' & S & ->)|[S ->]]; cbn [snd].
    - split.
      + intros E. exists jw, jh, w, h. repeat (split; [assumption|]). split; [congruence|]. replace t with t' by congruence. auto.
      + intros (a & b & w' & h' & A & AW & B & BH & -> & S'). destruct (SZ a b w' h' A AW B BH) as [-> ->].
        replace t' with t; auto. eapply wrong_unique; eauto.
    - split; [discriminate|]. intros (a & b & w' & h' & A & AW & B & BH & -> & S').
      destruct (SZ a b w' h' A AW B BH) as [-> ->]. exfalso. eapply S; eauto. }
  intros [] VS.
  assert (Sup : supported v w h).
  { apply not_wrong. destruct (verify_told v w h) as [(t' & S & E)|[S E]]; auto. rewrite E in VS. discriminate VS. }
  rewrite create_some by auto. cbn [silent abind].
  unfold resource_demands. cbn [app].
  apply step; [apply get_reads; auto|]. intros js JS. apply (get_value o []) in JS; auto.
  apply step; [apply (obj_reads o [Key "standardResources"]); auto|]. intros rs RS. apply obj_inl in RS. subst js.
  apply (step_all _ _ [_; _; _; _; _; _; _]); [apply resources_read; auto|].
  intros std STD. destruct std as [[[m1 e1] s1] t1]. apply (resources_values o "standardResources") in STD; auto.
  apply step; [apply get_reads; auto|]. intros je JE. apply (get_value o []) in JE; auto.
  apply step; [apply (obj_reads o [Key "ethernetResources"]); auto|]. intros re RE. apply obj_inl in RE. subst je.
  apply (step_all _ _ [_; _; _; _; _; _; _]); [apply resources_read; auto|].
  intros eth ETH. destruct eth as [[[m2 e2] s2] t2]. apply (resources_values o "ethernetResources") in ETH; auto.
  apply step; [apply get_reads; auto|]. intros jc JC. apply (get_value o []) in JC; auto.
  apply step; [apply (ary_reads o [Key "chips"]); auto|]. intros cs CS. apply ary_inl in CS. subst jc.
  cbn [app] in JC.
  assert (N : n_items o = List.length cs) by (unfold n_items; unfold value_at in JC; rewrite JC; reflexivity).
  rewrite N. rewrite <- (app_nil_r (flat_map _ _)).
  match goal with |- reads_all (abind (fold_answer (fun m aj => chip_told m ?s ?e aj) _ ?m) _) _ =>
    destruct (all_read o s e STD ETH cs m 0) as [A B] end.
  - intros n. cbn [Nat.add]. change (item n []) with ([Key "chips"] ++ [Item n]). apply value_item. auto.
  - split; [apply wf_new|]. intros x y. split; [intros []|]. intros (k & L & _). lia.
  - apply step_all; auto. intros m M. specialize (B m M).
    destruct (add_spin_same v m B) as (m3 & -> & S3). cbn [bind].
    destruct (add_fpga_same v m3 (same_wf _ _ S3 B)) as (m4 & -> & S4). cbn [silent]. apply finish.
Qed.
Print Assumptions C94_first_wrong_field.

Lemma none_violated ds : (forall e t, ~ first_violated ds e t) <-> (forall (d : demand) e t, In d ds -> ~ d e t).
Proof.
  induction ds as [|d ds IH].
  - split; [intros _ d e t []|]. intros _ e t. apply violated_nil.
  - split.
    + intros N. assert (N0 : forall e t, ~ d e t).
      { intros e t V. apply (N e t). rewrite violated_cons. auto. }
      intros d' e t [<-|I]; auto. revert d' e t I. apply IH. intros e t V. apply (N e t). rewrite violated_cons. auto.
    + intros N e t V. rewrite violated_cons in V. destruct V as [V|[_ V]].
      * apply (N d e t); auto. left; auto.
      * revert e t V. apply IH. intros d' e t I. apply N. right; auto.
Qed.
Theorem C94_nothing_wrong : forall v o,
  (exists m, machine_from_json v o = Ok m) <-> (forall d e t, In d (demands o v) -> ~ d e t).
Proof.
  intros v o. rewrite <- none_violated, <- C94_same_reader. split.
  - intros (m & M) e t V. apply C94_first_wrong_field in V. rewrite V in M. discriminate M.
  - intros N. destruct (machine_from_json_told v o) as [m|[e t]] eqn:E; [exists m; reflexivity|].
    exfalso. apply (N e t). apply C94_first_wrong_field. auto.
Qed.
Print Assumptions C94_nothing_wrong.

(** One description for each exception; the last is read. *)
Example C94_case :
  let item3 more := JArr ([JInt 0; JInt 0; case_details []] ++ more) in
  map (fun o => match machine_from_json_told V3 o with inl _ => None | inr p => Some p end)
    [ [("height", JInt 2)];
      case_description (JStr "two") [];
      case_description JNull [];
      case_description (JInt 3) [];
      [("width", JInt 2); ("height", JInt 2); ("standardResources", JArr [])];
      [("width", JInt 2); ("height", JInt 2); ("standardResources", JObj [("monitors", JInt 1)])];
      case_description (JInt 2) [JArr [JInt 0]];
      case_description (JInt 2) [JArr [JInt 0; JInt 0; JObj [("ethernet", JArr [JInt 0])]]];
      case_description (JInt 2) [JArr [JInt 0; JInt 0; JObj [("ethernet", JArr [JInt 0; JInt 0; JInt 0])]]];
      case_description (JInt 2) [JArr [JInt 0; JInt 0; case_details [("ipAddress", JInt 3)]]];
      case_description (JInt 2) [item3 [JObj [("monitors", JStr "1")]]];
      case_description (JInt 2) [item3 [JObj [("tags", JArr [JInt 1; JStr "x"; JNull])]]];
      case_description (JInt 2) [case_item0; case_item1; case_item0];
      case_description (JStr "2") [case_item0; case_item1] ] =
    [ Some (KeyError, "'width'");
      Some (ValueError, "invalid literal for int() with base 10: 'two'");
      Some (ValueError, "unsupported value type for integer field: <class 'NoneType'>");
      Some (MachineExc, "Unexpected width=3");
      Some (ValueError, "unsupported value type for object field: <class 'list'>");
      Some (KeyError, "'routerEntries'");
      Some (IndexError, "list index out of range");
      Some (ValueError, "not enough values to unpack (expected 2, got 1)");
      Some (ValueError, "too many values to unpack (expected 2)");
      Some (ValueError, "unsupported value type for string field: <class 'int'>");
      Some (NotImplementedErr, "We currently only support exactly 1 monitor per core");
      Some (ValueError, "invalid literal for int() with base 10: 'x'");
      Some (AlreadyExists, "There can only be one chip with a value of 0, 0");
      None ].
Proof. vm_compute. reflexivity. Qed.
