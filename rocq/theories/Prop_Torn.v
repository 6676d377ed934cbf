(** C100: a file of a machine that was written in part is never read as a machine. *)
From Coq Require Import Lia ZifyBool ZifyNat String Ascii.
From Verif Require Import Model_Py Model_Version Model_Machine Model_Str Model_Virtual Model_Text Model_Json Model_JsonText Model_Torn
  Spec_Str Spec_JsonText Proof_Py Proof_Str Proof_Repr Proof_JsonText Prop_JsonText Prop_Refused.
Open Scope string_scope.
Open Scope list_scope.

(** ** A scanner that leaves the model on a text does so on all longer texts *)
Lemma skip_app s q : skip_space s <> "" -> skip_space (s ++ q) = (skip_space s ++ q)%string.
Proof.
  induction s as [|c s IH]; intros N; [destruct N; reflexivity|]. cbn [String.append skip_space] in *.
  destruct (json_space c); [auto|reflexivity].
Qed.

Lemma skip_blank_app s q : skip_space s = "" -> skip_space (s ++ q) = skip_space q.
Proof.
  intros E. destruct (skip_split s) as (w & B & S). rewrite E, app_nil_s in S. subst s. apply skip_blank. exact B.
Qed.

Lemma string_out n : forall s q, (String.length s <= n)%nat -> scan_string s = Outside -> scan_string (s ++ q) = Outside.
Proof.
  induction n as [|n IH]; intros s q L E; (destruct s as [|c r]; [discriminate E|]); cbn [String.length] in L; [lia|].
  cbn [String.append]. rewrite scan_string_eq in *. destruct (Ascii.eqb c QUOTE); [discriminate|].
  destruct (Ascii.eqb c BACKSLASH).
  - destruct r as [|e r]; [discriminate|]. cbn [String.length String.append] in *. destruct (Ascii.eqb e "u").
    + destruct r as [|h1 [|h2 [|h3 [|h4 r]]]]; try discriminate E. cbn [String.length String.append] in *.
      destruct (hex4 h1 h2 h3 h4) as [k|]; [|discriminate]. destruct (k <? 256)%nat; [|reflexivity].
      apply then_outside in E as [E|(a & z & _ & E)]; [|discriminate]. rewrite (IH r q); [reflexivity|lia|auto].
    + destruct (simple_escape e) as [z|]; [|discriminate].
      apply then_outside in E as [E|(a & y & _ & E)]; [|discriminate]. rewrite (IH r q); [reflexivity|lia|auto].
  - destruct (nat_of_ascii c <? 32)%nat; [discriminate|].
    apply then_outside in E as [E|(a & z & _ & E)]; [|discriminate]. rewrite (IH r q); [reflexivity|lia|auto].
Qed.

Lemma string_found s q k r : scan_string s = Found k r -> scan_string (s ++ q) = Found k (r ++ q).
Proof.
  intros F. apply (string_sound _ _ _ _ (le_n _)) in F as (body & C & ->). rewrite app_assoc_s. cbn [String.append].
  apply string_complete. exact C.
Qed.

Lemma found_goes_on n s q v r c z : scan n s = Found v r -> skip_space r = String c z ->
  In c [","%char; "]"%char; "}"%char] -> (2 * String.length (s ++ q) + 1 <= n)%nat ->
  scan n (s ++ q) = Found v (r ++ q).
Proof.
  intros F S I L. apply sound in F as (t & V & ->). rewrite app_assoc_s in *. apply complete; [exact V| |exact L].
  destruct (skip_split r) as (w & B & E). rewrite S in E. rewrite E, app_assoc_s. cbn [String.append].
  apply stops_blank; auto.
Qed.

Lemma out_goes_on n :
  (forall s q, 2 * String.length (s ++ q) + 1 <= n -> scan n s = Outside -> scan n (s ++ q) = Outside)%nat /\
  (forall s q, 2 * String.length (s ++ q) + 2 <= n -> scan_items n s = Outside -> scan_items n (s ++ q) = Outside)%nat /\
  (forall s q, 2 * String.length (s ++ q) + 2 <= n -> scan_members n s = Outside -> scan_members n (s ++ q) = Outside)%nat.
Proof.
  induction n as [|n (IV & II & IM)]; [repeat split; intros s q L; lia|].
  assert (1 <= n -> forall s q, (2 * String.length (s ++ q) + 2 <= n)%nat -> scan_items n (skip_space s) = Outside ->
     scan_items n (skip_space (s ++ q)) = Outside)%nat as KI.
  { intros P s q L E. rewrite length_app in L. pose proof (skip_length s) as SL.
    destruct (string_dec (skip_space s) "") as [Z|N].
    - rewrite Z in E. destruct n as [|[|n]]; [lia|lia|discriminate E].
    - rewrite skip_app by auto. apply II; [|auto]. rewrite length_app. lia. }
  assert (1 <= n -> forall s q, (2 * String.length (s ++ q) + 2 <= n)%nat -> scan_members n (skip_space s) = Outside ->
     scan_members n (skip_space (s ++ q)) = Outside)%nat as KM.
  { intros P s q L E. rewrite length_app in L. pose proof (skip_length s) as SL.
    destruct (string_dec (skip_space s) "") as [Z|N].
    - rewrite Z in E. destruct n; [lia|discriminate E].
    - rewrite skip_app by auto. apply IM; [|auto]. rewrite length_app. lia. }
  assert (forall c s q, after (String c "") (skip_space s) = None -> skip_space s <> "" ->
            after (String c "") (skip_space (s ++ q)) = None) as KA.
  { intros c s q A N. rewrite skip_app by auto. destruct (skip_space s) as [|d z]; [contradiction|].
    cbn [String.append after] in *. destruct (Ascii.eqb c d); [discriminate A|reflexivity]. }
  split; [|split]; intros s q L E.
  - rewrite scan_S in E. destruct s as [|c r]; [discriminate|]. cbn [String.length String.append] in *.
    rewrite scan_S. destruct (Ascii.eqb c QUOTE).
    { apply then_outside in E as [E|(a & z & _ & E)]; [|discriminate]. rewrite (string_out _ _ q (le_n _) E). reflexivity. }
    destruct (Ascii.eqb c "{").
    { destruct (after "}" (skip_space r)) eqn:A; [discriminate|].
      apply then_outside in E as [E|(a & z & _ & E)]; [|discriminate].
      rewrite KA; [|exact A|intros Z; rewrite Z in E; destruct n; [cbn in L; lia|discriminate E]].
      rewrite KM; [reflexivity|lia|lia|exact E]. }
    destruct (Ascii.eqb c "[").
    { destruct (after "]" (skip_space r)) eqn:A; [discriminate|].
      apply then_outside in E as [E|(a & z & _ & E)]; [|discriminate].
      rewrite KA; [|exact A|intros Z; rewrite Z in E; destruct n as [|[|n]]; [lia|lia|discriminate E]].
      rewrite KI; [reflexivity|lia|lia|exact E]. }
    destruct (after "null" (String c r)); [discriminate|]. destruct (after "true" (String c r)); [discriminate|].
    destruct (after "false" (String c r)); [discriminate|]. destruct (number_outside _ E).
  - rewrite items_S in *. apply then_outside in E as [E|(v & r & F & E)].
    { rewrite IV; [reflexivity|lia|exact E]. }
    unfold item_end in E. destruct (skip_space r) as [|c z] eqn:S; [discriminate|].
    destruct (Ascii.eqb_spec c "]") as [|N1]; [discriminate|]. destruct (Ascii.eqb_spec c ",") as [->|N2]; [|discriminate].
    rewrite (found_goes_on n s q v r _ z F S) by (cbn; auto; lia). cbn [then_found]. unfold item_end.
    rewrite skip_app, S by congruence. cbn [String.append]. change (Ascii.eqb "," "]") with false. change (Ascii.eqb "," ",") with true. cbv iota.
    apply then_outside in E as [E|(a & x & _ & E)]; [|discriminate].
    apply sound in F as (t & V & ->). apply value_nonempty in V. pose proof (skip_length r) as SL. rewrite S in SL. cbn [String.length] in SL.
    rewrite !length_app in L. rewrite KI; [reflexivity|lia| |exact E]. rewrite length_app. lia.
  - rewrite members_S in *. destruct (after (String QUOTE "") s) as [r|] eqn:A; [|discriminate].
    apply after_spec in A. subst s. cbn [String.append] in *.
    replace (after (String QUOTE "") (String QUOTE (r ++ q))) with (Some (r ++ q)%string) by (symmetry; apply after_spec; reflexivity).
    cbn [String.length] in L. apply then_outside in E as [E|(k & y & F & E)].
    { rewrite (string_out _ _ q (le_n _) E). reflexivity. }
    rewrite (string_found _ q _ _ F). cbn [then_found]. apply string_shorter in F.
    destruct (after ":" (skip_space y)) as [x|] eqn:A; [|discriminate]. apply after_spec in A.
    rewrite skip_app, A by (rewrite A; discriminate). cbn [String.append].
    replace (after ":" (String ":" (x ++ q))) with (Some (x ++ q)%string) by (symmetry; apply after_spec; reflexivity).
    pose proof (skip_length y) as SY. rewrite A in SY. cbn [String.append String.length] in SY. pose proof (skip_length x) as SX.
    rewrite length_app in L.
    apply then_outside in E as [E|(v & z & F2 & E)].
    { destruct (string_dec (skip_space x) "") as [Z|N].
      - rewrite Z in E. destruct n; [lia|discriminate E].
      - rewrite skip_app by auto. rewrite IV; [reflexivity| |exact E]. rewrite length_app. lia. }
    pose proof (scan_shorter _ _ _ _ F2) as SH.
    rewrite skip_app by (intros Z; rewrite Z in F2; destruct n; discriminate F2).
    unfold member_end in E. destruct (skip_space z) as [|c u] eqn:S; [discriminate|].
    destruct (Ascii.eqb_spec c "}") as [|N1]; [discriminate|]. destruct (Ascii.eqb_spec c ",") as [->|N2]; [|discriminate].
    rewrite (found_goes_on n _ q v z _ u F2 S); [|cbn; auto|rewrite length_app; lia]. cbn [then_found]. unfold member_end.
    rewrite skip_app, S by congruence. cbn [String.append]. change (Ascii.eqb "," "}") with false. change (Ascii.eqb "," ",") with true. cbv iota.
    apply then_outside in E as [E|(a & x' & _ & E)]; [|discriminate].
    pose proof (skip_length z) as SL. rewrite S in SL. cbn [String.length] in SL.
    rewrite KM; [reflexivity|lia| |exact E]. rewrite length_app. lia.
Qed.

(** ** Texts of objects *)
Lemma object_head t v : value_text t v -> forall r, t = String "{" r -> forall q n, (2 * String.length (t ++ q) + 1 <= n)%nat ->
  scan n (t ++ q) = Found v q.
Proof.
  intros V. destruct V as [| | |t n N|t f N| | | |t s Q|w B|t vs I|w B|t ms I]; intros r H q m L; try discriminate H.
  - destruct (number_head t (JInt n)) as (c & z & -> & D); [left; eauto|]. apply digit_or_minus in D as (_ & _ & _ & _ & D & _).
    injection H as -> _. destruct D. reflexivity.
  - destruct (number_head t (JFloat f)) as (c & z & -> & D); [right; eauto|]. apply digit_or_minus in D as (_ & _ & _ & _ & D & _).
    injection H as -> _. destruct D. reflexivity.
  - destruct Q as (b & _ & ->). discriminate H.
  - destruct m; [lia|]. rewrite scan_S. cbn [String.append]. change (Ascii.eqb "{" QUOTE) with false. change (Ascii.eqb "{" "{") with true. cbv iota.
    rewrite app_assoc_s, skip_blank by auto. reflexivity.
  - destruct m; [lia|]. rewrite scan_S. cbn [String.append String.length] in *. change (Ascii.eqb "{" QUOTE) with false. change (Ascii.eqb "{" "{") with true. cbv iota.
    rewrite app_assoc_s in *. cbn [String.append] in *. pose proof (members_head t ms (String "}" q) I) as (z & E).
    rewrite (proj2 (proj2 complete) t ms I q m) by lia. rewrite E. reflexivity.
Qed.

(** A text of an object, and the same text with more or less at its end *)
Lemma object_longer t v r q : value_text t v -> t = String "{" r -> 
  json_load (t ++ q) = match skip_space q with "" => Some (Ok v) | _ => Some (Err ValueError) end.
Proof.
  intros V H. unfold json_load. replace (skip_space (t ++ q)) with (t ++ q)%string by (rewrite H; reflexivity).
  rewrite (object_head t v V r H q) by lia. reflexivity.
Qed.

Lemma object_shorter p q v r : value_text (p ++ q) v -> (p ++ q)%string = String "{" r -> q <> "" -> 
  json_load p = Some (Err ValueError).
Proof.
  intros V H N. pose proof (object_head _ _ V r H "" _ (le_n _)) as F. rewrite app_nil_s in F.
  destruct p as [|c p]; [reflexivity|]. cbn [String.append] in H. injection H as -> H. subst r.
  destruct (json_load (String "{" p)) as [[u|e]|] eqn:E.
  - exfalso. apply load_spec in E as (w & t & w' & B & T & B' & E).
    destruct w as [|d w]; [|injection E as <- _; destruct B as [B _]; cbn in B; lia]. cbn [String.append] in E.
    assert (exists z, t = String "{" z) as (z & Z).
    { destruct (value_head _ _ T) as (d & z & -> & _). injection E as <- _. eauto. }
    pose proof (object_head t u T z Z (w' ++ q)) as G. rewrite <- app_assoc_s, <- E in G.
    rewrite (G _ (le_n _)) in F. assert (w' ++ q = "")%string as F' by congruence. clear F. rename F' into F. destruct w' as [|d w']; [cbn in F; contradiction|discriminate F].
  - clear F. unfold json_load in E. destruct (scan _ _) as [j y| |]; [destruct (skip_space y)|..]; try discriminate E; injection E as <-; reflexivity.
  - exfalso. unfold json_load in E. change (skip_space (String "{" p)) with (String "{" p) in E.
    destruct (scan (2 * String.length (String "{" p) + 1) (String "{" p)) as [j y| |] eqn:S; [destruct (skip_space y); discriminate E|discriminate E|].
    rewrite (proj1 (enough _ _ (le_n _)) _ (2 * String.length (String "{" p ++ q) + 1)%nat) in S
      by (rewrite ?length_app; lia).
    rewrite (proj1 (out_goes_on _) _ q (le_n _) S) in F. discriminate F.
Qed.

Lemma written_object m o : to_json m = Ok o ->
  value_text (json_text (JObj o)) (JObj o) /\ exists r, json_text (JObj o) = String "{" r.
Proof.
  intros E. split; [exact (proj1 (dumped _ (json_once _ _ E) (json_plain _ _ E)))|]. eexists. reflexivity.
Qed.

Lemma object_text t v : value_text t v -> (exists o, v = JObj o) -> exists r, t = String "{" r.
Proof. intros V (o & H). destruct V; try discriminate H; eexists; reflexivity. Qed.

Lemma object_end t v : value_text t v -> (exists o, v = JObj o) -> exists x, t = (x ++ "}")%string.
Proof.
  intros V (o & H). destruct V as [| | | | | | | | | | |w B|t ms I]; try discriminate H.
  - exists ("{" ++ w)%string. rewrite app_assoc_s. reflexivity.
  - exists ("{" ++ t)%string. rewrite app_assoc_s. reflexivity.
Qed.

Lemma split_twice p : forall q a b, (p ++ q = a ++ b)%string ->
  (exists c, p = (a ++ c)%string /\ b = (c ++ q)%string) \/ (exists c, c <> "" /\ a = (p ++ c)%string /\ q = (c ++ b)%string).
Proof.
  induction p as [|x p IH]; intros q a b E.
  - destruct a as [|y a]; [left; exists ""; auto|]. right. exists (String y a). split; [discriminate|auto].
  - destruct a as [|y a]; [left; exists (String x p); auto|]. cbn [String.append] in E. injection E as <- E.
    destruct (IH _ _ _ E) as [(c & -> & ->)|(c & N & -> & ->)]; [left; exists c; auto|right; exists c; auto].
Qed.

Lemma blank_parts a b : blank (a ++ b) -> blank a /\ blank b.
Proof. apply every_app. Qed.

Lemma blank_skip q : blank q <-> skip_space q = "".
Proof.
  split; [intros B; rewrite <- (app_nil_s q), skip_blank by auto; reflexivity|].
  intros E. destruct (skip_split q) as (w & B & S). rewrite E, app_nil_s in S. subst q. exact B.
Qed.

Lemma solid_text a t v b : value_text t v -> ~ blank (a ++ t ++ b).
Proof.
  intros V B. apply blank_parts in B as [_ B]. apply blank_parts in B as [B _]. destruct (value_head _ _ V) as (c & r & -> & S & _).
  destruct B as [B _]. apply space_spec in B. congruence.
Qed.

Lemma load_skips w s : blank w -> json_load (w ++ s) = json_load s.
Proof.
  intros B. unfold json_load. rewrite skip_blank by auto.
  rewrite (proj1 (enough _ (skip_space s) (le_n _)) _ (2 * String.length s + 1)%nat); [reflexivity|..];
    pose proof (skip_length s); rewrite ?length_app; lia.
Qed.

(** C100.  Of a text of a JSON object, any first part is read as the same object if only
    white space is missing, and refused with a ValueError in all other cases: no part of it
    is taken for some other value. *)
Theorem C100_first_part :
  forall p q o, document (p ++ q) (JObj o) ->
    blank q /\ json_load p = Some (Ok (JObj o)) \/
    ~ blank q /\ json_load p = Some (Err ValueError).
Proof.
  intros p q o (w & t & w' & B & V & B' & E). destruct (object_text _ _ V) as (r & H); [eauto|].
  destruct (split_twice _ _ _ _ E) as [(c & -> & F)|(c & N & -> & ->)].
  - rewrite (load_skips w c B). destruct (split_twice _ _ _ _ (eq_sym F)) as [(d & -> & ->)|(d & N & -> & ->)].
    + left. apply blank_parts in B' as [B1 B2]. split; [exact B2|]. rewrite (object_longer t _ r d V H).
      rewrite (proj1 (blank_skip d) B1). reflexivity.
    + right. split; [|apply (object_shorter c d (JObj o) r V H N)].
      intros X. apply blank_parts in X as [X _]. destruct (object_end _ _ V) as (x & Y); [eauto|].
      destruct (split_twice _ _ _ _ Y) as [(e & -> & G)|(e & M & -> & ->)].
      * destruct e as [|z e]; [|injection G as _ G; destruct e; [destruct d; [contradiction|discriminate G]|discriminate G]].
        cbn [String.append] in G. subst d. destruct X as [X _]. cbv in X. lia.
      * apply blank_parts in X as [_ X]. destruct X as [X _]. cbv in X. lia.
  - right. split; [apply (solid_text c t (JObj o) w' V)|]. apply blank_parts in B as [B _].
    unfold json_load. rewrite (proj1 (blank_skip p) B). rewrite Nat.add_1_r. reflexivity.
Qed.
Print Assumptions C100_first_part.

(** More than white space after the text of a JSON object - the rest of an older, longer
    file, say - and the whole is refused. *)
Theorem C100_something_after :
  forall text q o, document text (JObj o) ->
    blank q /\ json_load (text ++ q) = Some (Ok (JObj o)) \/
    ~ blank q /\ json_load (text ++ q) = Some (Err ValueError).
Proof.
  intros text q o (w & t & w' & B & V & B' & ->). destruct (object_text _ _ V) as (r & H); [eauto|].
  rewrite !app_assoc_s, (load_skips w _ B), (object_longer t _ r (w' ++ q) V H), (skip_blank w' q B').
  destruct (skip_space q) as [|c z] eqn:S; [left|right]; (split; [|reflexivity]).
  - apply blank_skip. exact S.
  - intros X. apply blank_skip in X. congruence.
Qed.
Print Assumptions C100_something_after.

(** ** The states of the files *)
Lemma taken_all s : substring 0 (String.length s) s = s.
Proof. induction s as [|c s IH]; [reflexivity|]. cbn [String.length substring]. rewrite IH. reflexivity. Qed.

Lemma taken s : forall k, exists q, s = (substring 0 k s ++ q)%string /\ ((k < String.length s)%nat -> q <> "").
Proof.
  induction s as [|c s IH]; intros k.
  - exists "". destruct k; split; try reflexivity; cbn; lia.
  - destruct k as [|k]; [exists (String c s); split; [reflexivity|discriminate]|].
    destruct (IH k) as (q & E & N). exists q. cbn [substring String.append String.length]. split; [congruence|]. intros L. apply N. lia.
Qed.

(** to_json_path goes through these states: first the files as they were, last the files as
    it leaves them, and never one in which another file than that at its path has changed.
    If it raises an exception it has changed nothing. *)
Theorem C100_states :
  forall fs m path, let states := to_json_path_states fs m path in let '(fs', r) := to_json_path fs m path in
    hd_error states = Some fs /\ last states fs = fs' /\
    (forall s p, In s states -> p <> path -> dget String.eqb s p = dget String.eqb fs p) /\
    (forall e, r = Err e -> states = [fs]) /\
    (r = Ok tt -> exists text, dget String.eqb fs' path = Some text /\
       states = fs :: map (fun k => dset String.eqb fs path (substring 0 k text)) (seq 0 (S (String.length text)))).
Proof.
  intros fs m path. cbv zeta. unfold to_json_path_states, to_json_path. destruct (to_json m) as [o|e] eqn:E.
  - cbv zeta. set (text := json_text (JObj o)). split; [reflexivity|]. split; [|split; [|split]].
    + rewrite seq_S, map_app. cbn [map]. rewrite app_comm_cons, last_last. cbn [Nat.add]. rewrite taken_all. reflexivity.
    + intros s p [<-|I] N; [reflexivity|]. apply in_map_iff in I as (k & <- & _).
      rewrite (dget_dset String.eqb String.eqb_eq). destruct (String.eqb_spec path p); [congruence|reflexivity].
    + discriminate.
    + intros _. exists text. split; [|reflexivity]. rewrite (dget_dset String.eqb String.eqb_eq), String.eqb_refl. reflexivity.
  - split; [reflexivity|]. split; [reflexivity|]. split; [|split; [reflexivity|discriminate]].
    intros s p [<-|[]] _. reflexivity.
Qed.
Print Assumptions C100_states.

(** If it stops anywhere between the first and the last state, then the file is refused with a
    ValueError: it is read neither as the old nor as the new nor as any other machine. *)
Theorem C100_stopped_between :
  forall v fs m path i s,
    let states := to_json_path_states fs m path in
    nth_error states i = Some s -> (0 < i < List.length states - 1)%nat ->
    machine_from_json_path v s path = Some (Err ValueError).
Proof.
  intros v fs m path i s. cbv zeta. unfold to_json_path_states. destruct (to_json m) as [o|e] eqn:E; [|cbn; lia]. cbv zeta.
  destruct (written_object m o E) as (V & r & H). set (text := json_text (JObj o)) in *. clearbody text. destruct i as [|i]; [lia|]. cbn [nth_error List.length]. rewrite map_length, seq_length.
  intros N L. assert (i < String.length text)%nat as K by lia. rewrite nth_error_map in N.
  destruct (nth_error (seq 0 (S (String.length text))) i) as [k|] eqn:Q; [|discriminate N]. injection N as <-.
  pose proof (nth_error_nth _ _ 0%nat Q) as Q'. rewrite seq_nth in Q' by lia. cbn in Q'. subst k.
  unfold machine_from_json_path. rewrite (dget_dset String.eqb String.eqb_eq), String.eqb_refl.
  destruct (taken text i) as (q & T & N).
  rewrite T in V, H. rewrite (object_shorter _ _ _ _ V H (N K)). reflexivity.
Qed.
Print Assumptions C100_stopped_between.

(** So whatever the point at which it stops: another program that reads the file gets what it
    would have got before, or what it gets after, or a ValueError. *)
Theorem C100_old_new_or_refused :
  forall v fs m path s, In s (to_json_path_states fs m path) ->
    machine_from_json_path v s path = machine_from_json_path v fs path \/
    (exists o, to_json m = Ok o /\ machine_from_json_path v s path = Some (machine_from_json v o)) \/
    machine_from_json_path v s path = Some (Err ValueError).
Proof.
  intros v fs m path s I. apply In_nth_error in I as (i & N).
  pose proof (C100_states fs m path) as S. pose proof (C100_stopped_between v fs m path i s) as B. cbv zeta in S, B.
  destruct (to_json_path fs m path) as [fs' r] eqn:P. destruct S as (S0 & S1 & _ & SE & _).
  destruct i as [|i].
  { left. destruct (to_json_path_states fs m path); [discriminate N|]. cbn in N, S0. congruence. }
  destruct r as [[]|e]; [|rewrite (SE e eq_refl) in N; destruct i; discriminate N].
  destruct (Nat.lt_ge_cases (S i) (List.length (to_json_path_states fs m path) - 1)) as [L|L].
  { right; right. apply B; [exact N|lia]. }
  right; left. destruct (C86_through_the_file v _ _ _ _ P) as (o & O & R). exists o. split; [exact O|].
  assert (s = fs') as ->; [|exact R]. rewrite <- S1.
  assert (S i < List.length (to_json_path_states fs m path))%nat as K by (apply nth_error_Some; congruence).
  destruct (exists_last (l := to_json_path_states fs m path)) as (l & z & Z); [intros Z; rewrite Z in K; cbn in K; lia|].
  rewrite Z in *. rewrite last_last. rewrite app_length in *. cbn [List.length] in *.
  replace (S i) with (List.length l) in N by lia. rewrite nth_error_app2, Nat.sub_diag in N by lia. cbn in N. congruence.
Qed.
Print Assumptions C100_old_new_or_refused.

(** ** Run after run *)

(** The run opened the file at the path. *)
Definition opened (path : string) (a : machine * string * nat) : Prop :=
  let '(m, p, k) := a in p = path /\ (exists o, to_json m = Ok o) /\ (0 < k)%nat.

(** All of the text arrived. *)
Definition finished (a : machine * string * nat) : Prop :=
  let '(m, p, k) := a in forall o, to_json m = Ok o -> (String.length (json_text (JObj o)) < k)%nat.

Lemma states_length fs m path o : to_json m = Ok o ->
  List.length (to_json_path_states fs m path) = S (S (String.length (json_text (JObj o)))).
Proof. intros E. unfold to_json_path_states. rewrite E. cbv zeta. cbn [List.length]. rewrite map_length, seq_length. reflexivity. Qed.

Lemma stopped_in k fs m path : In (stopped_after k fs m path) (to_json_path_states fs m path).
Proof.
  unfold stopped_after. destruct (Nat.lt_ge_cases k (List.length (to_json_path_states fs m path))) as [L|L]; [apply nth_In; exact L|].
  rewrite nth_overflow by exact L. pose proof (C100_states fs m path) as S. cbv zeta in S.
  destruct (to_json_path fs m path) as [fs' r]. destruct S as (H & <- & _).
  destruct (exists_last (l := to_json_path_states fs m path)) as (l & z & Z); [intros Z; rewrite Z in H; discriminate H|].
  rewrite Z, last_last. apply in_or_app. cbn. auto.
Qed.

Lemma not_opened fs m p k path : ~ opened path (m, p, k) ->
  dget String.eqb (stopped_after k fs m p) path = dget String.eqb fs path.
Proof.
  intros N. destruct (string_dec p path) as [->|D].
  - assert (stopped_after k fs m path = fs) as ->; [|reflexivity]. unfold stopped_after, to_json_path_states, to_json_path.
    destruct (to_json m) as [o|e] eqn:E; [|destruct k as [|[|k]]; reflexivity].
    destruct k as [|k]; [reflexivity|]. destruct N. cbn. split; [reflexivity|]. split; [eauto|lia].
  - pose proof (C100_states fs m p) as S. cbv zeta in S. destruct (to_json_path fs m p) as [fs' r] eqn:P.
    destruct S as (_ & _ & S & _). apply S; [apply stopped_in|congruence].
Qed.

Lemma runs_apart v path later : forall fs, Forall (fun a => ~ opened path a) later ->
  machine_from_json_path v (runs fs later) path = machine_from_json_path v fs path.
Proof.
  induction later as [|[[m p] k] later IH]; intros fs F; [reflexivity|]. inversion F as [|x y N F']; subst.
  change (runs fs ((m, p, k) :: later)) with (runs (stopped_after k fs m p) later). rewrite IH by auto.
  unfold machine_from_json_path. rewrite (not_opened _ _ _ _ _ N). reflexivity.
Qed.

(** After any runs of to_json_path, to any paths, each stopped anywhere: what counts for a
    path is the last run that opened its file.  If all of its text arrived then the file is
    read as its machine, and if not it is refused with a ValueError, whatever the runs before
    it left.  If there was no such run the file is read as at first. *)
Theorem C100_run_after_run :
  forall v fs before m path k later,
    opened path (m, path, k) -> Forall (fun a => ~ opened path a) later ->
    (finished (m, path, k) -> forall o, to_json m = Ok o ->
       machine_from_json_path v (runs fs (before ++ (m, path, k) :: later)) path = Some (machine_from_json v o)) /\
    (~ finished (m, path, k) ->
       machine_from_json_path v (runs fs (before ++ (m, path, k) :: later)) path = Some (Err ValueError)).
Proof.
  intros v fs before m path k later (_ & (o & E) & K) F.
  assert (runs fs (before ++ (m, path, k) :: later) = runs (stopped_after k (runs fs before) m path) later) as ->
    by (unfold runs; rewrite fold_left_app; reflexivity).
  rewrite !(runs_apart v path later) by exact F. set (fs1 := runs fs before). clearbody fs1.
  pose proof (states_length fs1 m path o E) as L. split.
  - intros D o' O. pose proof (D o E) as D'. assert (o' = o) as -> by congruence.
    pose proof (C100_states fs1 m path) as S. cbv zeta in S. destruct (to_json_path fs1 m path) as [fs' r] eqn:P.
    assert (r = Ok tt) as -> by (unfold to_json_path in P; rewrite E in P; congruence).
    destruct (C86_through_the_file v _ _ _ _ P) as (o2 & O2 & R). assert (o2 = o) as -> by congruence. rewrite <- R. f_equal.
    destruct S as (_ & S1 & _). unfold stopped_after. rewrite P. cbn [fst].
    destruct (Nat.lt_ge_cases k (List.length (to_json_path_states fs1 m path))) as [H|H]; [|apply nth_overflow; exact H].
    rewrite <- S1. destruct (exists_last (l := to_json_path_states fs1 m path)) as (l & z & Z); [intros Z; rewrite Z in L; discriminate L|].
    rewrite Z in *. rewrite last_last. rewrite app_length in *. cbn [List.length] in *.
    replace k with (List.length l) by lia. rewrite app_nth2, Nat.sub_diag by lia. reflexivity.
  - intros D. assert (k <= String.length (json_text (JObj o)))%nat as D'.
    { destruct (Nat.le_gt_cases k (String.length (json_text (JObj o)))) as [H|H]; [exact H|]. destruct D.
      intros o' O. assert (o' = o) as -> by congruence. exact H. }
    unfold stopped_after. apply (C100_stopped_between v fs1 m path k); [|lia]. apply nth_error_nth'. lia.
Qed.
Print Assumptions C100_run_after_run.

Theorem C100_never_opened :
  forall v fs l path, Forall (fun a => ~ opened path a) l ->
    machine_from_json_path v (runs fs l) path = machine_from_json_path v fs path.
Proof. intros. apply runs_apart. auto. Qed.
Print Assumptions C100_never_opened.

(** Not vacuous: the machine of one chip, over an older file.  There are 385 states; in
    one of them the file ends just before the last brace, and one state after that it is whole. *)
Definition old_files : files := [("m.json", "{}"); ("other", "text")].
Definition one_chip_states : list files :=
  match virtual_machine one_chip_cfg one_chip_version 1 1 true with
  | Ok m => to_json_path_states old_files m "m.json"
  | Err _ => []
  end.
Definition is_refused (s : option files) : bool :=
  match s with
  | Some s => match machine_from_json_path V201 s "m.json" with Some (Err ValueError) => true | _ => false end
  | None => false
  end.
Definition is_read (s : option files) : bool :=
  match s with
  | Some s => match machine_from_json_path V201 s "m.json" with Some (Ok _) => true | _ => false end
  | None => false
  end.

Example C100_case :
  is_ok (virtual_machine one_chip_cfg one_chip_version 1 1 true) = true /\
  List.length one_chip_states = 385%nat /\
  is_refused (nth_error one_chip_states 1) = true /\ is_refused (nth_error one_chip_states 383) = true /\
  is_read (nth_error one_chip_states 384) = true /\
  (forall m, virtual_machine one_chip_cfg one_chip_version 1 1 true = Ok m ->
     opened "m.json" (m, "m.json", 10%nat) /\ ~ finished (m, "m.json", 10%nat) /\ finished (m, "m.json", 500%nat) /\
     ~ opened "m.json" (m, "other", 500%nat)) /\
  document ("{""a"": 1} " ++ " ") (JObj [("a", JInt 1)]).
Proof.
  repeat match goal with |- _ = _ /\ _ => split; [vm_compute; reflexivity|] end. split.
  - intros m E. assert (match virtual_machine one_chip_cfg one_chip_version 1 1 true with
      | Ok m => match to_json m with Ok o => String.length (json_text (JObj o)) = 383%nat | Err _ => False end
      | Err _ => False end) as K by (vm_compute; reflexivity).
    rewrite E in K. destruct (to_json m) as [o|] eqn:O; [|destruct K]. unfold opened, finished. rewrite O.
    split; [|split; [|split]].
    + split; [reflexivity|]. split; [eauto|lia].
    + intros F. specialize (F o eq_refl). lia.
    + intros o' H. injection H as <-. lia.
    + intros (H & _). discriminate H.
  - apply load_spec. vm_compute. reflexivity.
Qed.
