(** C90: the log of summary_string. *)
From Coq Require Import Lia ZifyBool Sorted Permutation String.
From Verif Require Import Model_Py Model_Wrap Model_Version Model_Core Model_Machine Model_Virtual
  Model_Text Model_Repr Model_Identity Model_Summary Model_SummaryText Spec_Machine Spec_Tally Proof_Py Proof_Machine
  Proof_Report Proof_Summary.
Open Scope string_scope.
Open Scope list_scope.
Open Scope Z_scope.

(** ** A counter over a list of chips *)
Definition many_of (f : chip -> Z) (cs : list chip) (a : Z) : Z :=
  Z.of_nat (List.length (filter (fun c => f c =? a) cs)).
Definition met_in (f : chip -> Z) (cs : list chip) (a b : Z) : Prop :=
  exists before c after, cs = before ++ c :: after /\ f c = a /\
    (forall d, In d (before ++ [c]) -> f d <> b).
Definition counts (f : chip -> Z) (cs : list chip) (c : counter) : Prop :=
  NoDup (dkeys c) /\
  (forall a, In a (dkeys c) <-> exists x, In x cs /\ f x = a) /\
  (forall a n, In (a, n) c -> n = many_of f cs a) /\
  StronglySorted (met_in f cs) (dkeys c).

Lemma many_snoc f cs ch a : many_of f (cs ++ [ch]) a = many_of f cs a + (if f ch =? a then 1 else 0).
Proof.
  unfold many_of. rewrite filter_app, app_length. cbn. destruct (f ch =? a); cbn; lia.
Qed.
Lemma many_pos f cs a : 0 < many_of f cs a <-> exists x, In x cs /\ f x = a.
Proof.
  unfold many_of. split.
  - intros H. destruct (filter (fun c => f c =? a) cs) as [|x l] eqn:E; [cbn in H; lia|].
    assert (I : In x (filter (fun c => f c =? a) cs)) by (rewrite E; left; auto).
    apply filter_In in I as [I J]. exists x. split; auto. lia.
  - intros (x & I & J). assert (K : In x (filter (fun c => f c =? a) cs)) by (apply filter_In; split; auto; lia).
    destruct (filter (fun c => f c =? a) cs); [destruct K|cbn; lia].
Qed.
Lemma many_none f cs a : ~ (exists x, In x cs /\ f x = a) -> many_of f cs a = 0.
Proof. intros H. rewrite <- many_pos in H. unfold many_of in *. lia. Qed.

Lemma met_snoc f cs ch a b : met_in f cs a b -> met_in f (cs ++ [ch]) a b.
Proof.
  intros (p & c & q & -> & F & N). exists p, c, (q ++ [ch]). rewrite <- app_assoc. auto.
Qed.
Lemma met_new f cs ch a b : (exists x, In x cs /\ f x = a) -> ~ (exists x, In x cs /\ f x = b) ->
  met_in f (cs ++ [ch]) a b.
Proof.
  intros (x & I & F) N. apply in_split in I as (p & q & ->). exists p, x, (q ++ [ch]).
  rewrite <- app_assoc. split; auto. split; auto. intros d D E. apply N. exists d. split; auto.
  rewrite in_app_iff in *. cbn in *. destruct D as [D|[D|[]]]; auto.
Qed.

Lemma ss_impl {A} (R S : A -> A -> Prop) l : (forall a b, R a b -> S a b) -> StronglySorted R l -> StronglySorted S l.
Proof.
  intros H. induction 1 as [|a l _ IH F]; constructor; auto. eapply Forall_impl; [|exact F]; auto.
Qed.
Lemma ss_snoc {A} (R : A -> A -> Prop) l x : StronglySorted R l -> (forall a, In a l -> R a x) ->
  StronglySorted R (l ++ [x]).
Proof.
  induction 1 as [|a l _ IH F]; intros H; cbn.
  - repeat constructor.
  - constructor; [apply IH; intros; apply H; right; auto|]. apply Forall_app. split; auto.
    constructor; auto. apply H. left; auto.
Qed.

Lemma in_dset_old (d : dict Z Z) k v a n : NoDup (dkeys d) ->
  In (a, n) (dset Z.eqb d k v) -> (a = k /\ n = v) \/ (a <> k /\ In (a, n) d).
Proof.
  induction d as [|[j w] d IH]; cbn; intros N H.
  - destruct H as [H|[]]. injection H as <- <-. auto.
  - inversion N as [|? ? N1 N2]; subst. destruct (Z.eqb_spec j k) as [->|E].
    + destruct H as [H|H]; [injection H as <- <-; auto|]. right. split; [|auto].
      intros ->. apply N1. apply (in_map fst) in H. exact H.
    + destruct H as [H|H]; [injection H as <- <-; auto|]. destruct (IH N2 H) as [?|[? ?]]; auto.
Qed.

Lemma counts_step f cs ch c : counts f cs c -> counts f (cs ++ [ch]) (cincr c (f ch)).
Proof.
  intros (N & K & M & S). split; [apply cincr_nodup; auto|]. split; [apply keyed_step; auto|].
  unfold cincr. destruct (dget Z.eqb c (f ch)) as [n|] eqn:E.
  - pose proof (dget_some_in Z.eqb Z.eqb_eq _ _ _ E) as I.
    assert (J : In (f ch) (dkeys c)) by (apply (in_map fst) in I; exact I).
    rewrite (dkeys_dset_old Z.eqb Z.eqb_eq) by auto. split.
    + intros a k H. rewrite many_snoc. apply in_dset_old in H as [[-> ->]|[X H]]; auto.
      * rewrite Z.eqb_refl. rewrite (M _ _ I). lia.
      * rewrite (M _ _ H). destruct (Z.eqb_spec (f ch) a); [congruence|lia].
    + eapply ss_impl; [|exact S]. intros; apply met_snoc; auto.
  - apply (dget_none Z.eqb Z.eqb_eq) in E.
    rewrite (dkeys_dset_new Z.eqb Z.eqb_eq) by auto. split.
    + intros a k H. rewrite many_snoc. apply in_dset_old in H as [[-> ->]|[X H]]; auto.
      * rewrite Z.eqb_refl. rewrite many_none; [lia|]. rewrite <- K. auto.
      * rewrite (M _ _ H). destruct (Z.eqb_spec (f ch) a); [congruence|lia].
    + apply ss_snoc.
      * eapply ss_impl; [|exact S]. intros; apply met_snoc; auto.
      * intros a A. apply met_new; [apply K; auto|rewrite <- K; auto].
Qed.

(** ** The counters of a machine *)
Definition entries_of (c : chip) : Z := r_entries (c_router c).
Definition counted (m : machine) : Prop :=
  counts c_sdram (chips m) (m_sdram_counter m) /\ counts entries_of (chips m) (m_entries_counter m).

Lemma add_chip_counted m c m' : wf m -> counted m -> add_chip m c = Ok m' -> counted m'.
Proof.
  intros W (K1 & K2) E. pose proof (add_chip_wf m c W) as A. rewrite E in A.
  destruct A as (_ & C & _). unfold counted. rewrite C. unfold add_chip in E.
  destruct (dmem xy_eqb (m_chips m) (c_xy c)); [discriminate E|].
  destruct (c_ip c) as [ip|]; injection E as <-; cbn [m_entries_counter m_sdram_counter];
    (split; [apply counts_step; auto|apply (counts_step entries_of); auto]).
Qed.

Lemma add_chips_counted cs : forall m, wf m -> counted m -> counted (fst (add_chips m cs)).
Proof.
  induction cs as [|c cs IH]; intros m W K; cbn [add_chips]; auto.
  pose proof (add_chip_wf m c W) as A. destruct (add_chip m c) as [m'|e] eqn:E; auto.
  apply IH; [apply A|eapply add_chip_counted; eauto].
Qed.

Lemma same_counted m m' : same_but_links m m' -> counted m -> counted m'.
Proof.
  intros S K. pose proof (same_chips m m' S) as C. unfold same_but_links in S.
  destruct S as (_ & _ & _ & _ & _ & _ & _ & _ & S9 & S10 & S11 & S12).
  unfold counted. rewrite C, S11, S12. exact K.
Qed.

Lemma made_counted v m : made v m -> counted m.
Proof.
  intros (k & w & h & ccm & o & calls & ->).
  assert (counted (new_machine k w h ccm o)) as K.
  { unfold counted, counts. cbn.
    repeat split; try constructor; try contradiction; intros (c & [] & _). }
  pose proof (wf_new k w h ccm o) as W. revert K W. generalize (new_machine k w h ccm o) as m.
  induction calls as [|a calls IH]; intros m K W; cbn [history fst]; auto.
  pose proof (exec_wf v m a W) as A.
  assert (counted (fst (exec v m a))) as K'.
  { destruct a as [c|cs| |]; cbn [exec].
    - destruct (add_chip m c) as [m'|e] eqn:E; cbn [fst]; auto. eapply add_chip_counted; eauto.
    - apply add_chips_counted; auto.
    - destruct (add_spin_same v m W) as (m' & -> & S). cbn. eapply same_counted; eauto.
    - destruct (add_fpga_same v m W) as (m' & -> & S). cbn. eapply same_counted; eauto. }
  destruct (exec v m a) as [m1 e]. cbn [fst] in K'. destruct A as (W1 & _).
  specialize (IH m1 K' W1). destruct (history v m1 calls). exact IH.
Qed.

(** ** most_common sorts *)
Lemma place_in p l q : In q (place p l) <-> q = p \/ In q l.
Proof.
  induction l as [|a l IH]; cbn; [intuition|]. destruct (snd a <? snd p); cbn; [intuition|].
  rewrite IH. intuition.
Qed.

Lemma common_in c : forall l q, In q (fold_left (fun l p => place p l) c l) <-> In q c \/ In q l.
Proof.
  induction c as [|p c IH]; intros l q; cbn; [intuition|]. rewrite IH, place_in. intuition.
Qed.

Section Sorting.
Variable met : Z -> Z -> Prop.
Let R (p q : Z * Z) : Prop := snd q < snd p \/ (snd p = snd q /\ met (fst p) (fst q)).

Lemma place_sorted p l : StronglySorted R l -> (forall q, In q l -> met (fst q) (fst p)) ->
  StronglySorted R (place p l).
Proof using All.
  induction 1 as [|a l S IH F]; intros M; cbn; [repeat constructor|].
  destruct (Z.ltb_spec (snd a) (snd p)) as [L|L].
  - constructor; [constructor; auto|]. constructor; [left; auto|].
    rewrite Forall_forall in *. intros x X. left. destruct (F x X) as [Y|[Y _]]; lia.
  - constructor; [apply IH; intros; apply M; right; auto|]. apply Forall_forall. intros x X.
    apply place_in in X as [->|X]; [|rewrite Forall_forall in F; auto].
    destruct (Z.eq_dec (snd a) (snd p)); [right; split; auto; apply M; left; auto|left; lia].
Qed.

Lemma common_sorted c : forall l, StronglySorted R l ->
  (forall q p, In q l -> In p c -> met (fst q) (fst p)) -> StronglySorted met (map fst c) ->
  StronglySorted R (fold_left (fun l p => place p l) c l).
Proof using All.
  induction c as [|p c IH]; intros l S M D; cbn; auto.
  cbn in D. inversion D as [|? ? D1 D2]; subst. apply IH; auto.
  - apply place_sorted; auto. intros q Q. apply M; auto. left; auto.
  - intros q r Q I. apply place_in in Q as [->|Q]; [|apply M; auto; right; auto].
    rewrite Forall_forall in D2. apply D2. apply in_map. auto.
Qed.
End Sorting.

Lemma counts_tally f m c : counts f (chips m) c -> tally m f (most_common c).
Proof.
  intros (N & K & M & S). split.
  - intros a n. unfold most_common. rewrite common_in. change (many m f a) with (many_of f (chips m) a). split.
    + intros [H|[]]. split; [apply M; auto|]. rewrite (M _ _ H). apply many_pos. apply K.
      apply (in_map fst) in H. exact H.
    + intros [-> P]. left. apply many_pos in P. apply K in P. unfold dkeys in P. apply in_map_iff in P as ([a' n'] & <- & I).
      cbn [fst]. rewrite <- (M _ _ I). exact I.
  - apply (common_sorted (met_before m f)); [constructor|intros ? ? []|exact S].
Qed.

(** ** The lines *)
Lemma part_lines m f c expected one mixed : counts f (chips m) c -> chips m <> [] ->
  exists a, log_part c expected one mixed = Some a /\ lines m f expected one mixed a.
Proof.
  intros C NE. pose proof (counts_tally _ _ _ C) as T. destruct C as (N & K & _ & _).
  assert (KS : forall n, In n (zsorted (dkeys c)) <-> exists x, In x (chips m) /\ f x = n)
    by (intros n; rewrite zsorted_in; apply K).
  assert (NS : NoDup (zsorted (dkeys c))) by (eapply Permutation_NoDup; [symmetry; apply zsorted_perm|auto]).
  unfold log_part. destruct (zsorted (dkeys c)) as [|n [|n' l]] eqn:E.
  - exfalso. destruct (chips m) as [|x cs]; [auto|]. destruct (proj2 (KS (f x))). exists x. split; auto. left; auto.
  - assert (A : forall x, In x (chips m) -> f x = n).
    { intros x X. destruct (proj2 (KS (f x)) (ex_intro _ x (conj X eq_refl))) as [F|[]]. auto. }
    destruct (Z.eqb_spec n expected) as [->|X]; cbn [negb]; eexists; split; try reflexivity.
    + apply as_expected. auto.
    + apply all_other; auto.
  - eexists. split; [reflexivity|].
    destruct (proj1 (KS n) (or_introl eq_refl)) as (x & X & Fx).
    destruct (proj1 (KS n') (or_intror (or_introl eq_refl))) as (y & Y & Fy).
    replace (counter_repr c) with (tally_text (most_common c)).
    + apply (not_all_same _ _ _ _ _ x y); auto. rewrite Fx, Fy. inversion NS as [|? ? Z1 _].
      intros Q. apply Z1. left; auto.
    + destruct c; [|reflexivity]. cbn in E. discriminate E.
Qed.

Theorem C90_log :
  forall V v m, made v m ->
    (chips m = [] -> summary_log V m = []) /\
    (chips m <> [] ->
     exists about_sdram about_routers,
       summary_log V m = about_sdram ++ about_routers /\
       lines m c_sdram (max_sdram_per_chip V)
         (fun n => cat ["The sdram per chip of "; n; " was different to the expected value of ";
                        dec (max_sdram_per_chip V); " for board Version "; version_name (v_id V)])
         (fun t => cat ["Not all Chips have the same sdram. The counts where "; t; "."])
         about_sdram /\
       lines m (fun c => r_entries (c_router c)) (n_router_entries (v_id V))
         (fun n => cat ["The number of router entries per chip of "; n;
                        " was different to the expected value of ";
                        dec (n_router_entries (v_id V)); " for board Version "; version_name (v_id V)])
         (fun t => cat ["Not all Chips had the same n_router_tables. The counts where "; t; "."])
         about_routers).
Proof.
  intros V v m M. destruct (made_counted _ _ M) as [C1 C2]. split.
  - intros E. unfold summary_log, log_part.
    assert (K : dkeys (m_sdram_counter m) = []).
    { destruct C1 as (_ & K & _). destruct (dkeys (m_sdram_counter m)) as [|a l]; auto.
      destruct (proj1 (K a) (or_introl eq_refl)) as (x & X & _). rewrite E in X. destruct X. }
    rewrite K. reflexivity.
  - intros NE. unfold summary_log.
    edestruct (part_lines m c_sdram) as (a & -> & A); [exact C1|exact NE|].
    edestruct (part_lines m entries_of) as (b & -> & B); [exact C2|exact NE|].
    exists a, b. split; [reflexivity|]. split; [exact A|exact B].
Qed.
Print Assumptions C90_log.

(** ** The lines are determined *)
Lemma met_asym f cs a b : met_in f cs a b -> met_in f cs b a -> False.
Proof.
  intros (p & c & q & E & F & N) (p' & c' & q' & E' & F' & N').
  assert (X : forall (p p' : list chip) c c' q q', p ++ c :: q = p' ++ c' :: q' ->
     In c (p' ++ [c']) \/ In c' (p ++ [c])).
  { clear. induction p as [|x p IH]; intros p' c c' q q' E.
    - left. destruct p' as [|y p']; cbn in E; injection E as -> _; left; auto.
    - destruct p' as [|y p']; cbn in E; injection E as -> E.
      + right. left; auto.
      + destruct (IH _ _ _ _ _ E); [left|right]; right; auto. }
  destruct (X p p' c c' q q'); [congruence| |].
  - apply (N' c); auto.
  - apply (N c'); auto.
Qed.

Theorem C90_tally_determined :
  forall m f l l', tally m f l -> tally m f l' -> l = l'.
Proof.
  intros m f l l' [I S] [I' S'].
  assert (M : forall p, In p l <-> In p l') by (intros [a n]; rewrite I, I'; tauto).
  clear I I'. revert l' S' M. induction S as [|p l S IH F]; intros l' S' M.
  - destruct l' as [|q l']; auto. destruct (proj2 (M q)); left; auto.
  - destruct S' as [|q l' S' F']; [destruct (proj1 (M p)); left; auto|].
    rewrite Forall_forall in F, F'.
    assert (A : forall x y, (snd y < snd x \/ snd x = snd y /\ met_before m f (fst x) (fst y)) ->
                            (snd x < snd y \/ snd y = snd x /\ met_before m f (fst y) (fst x)) -> False).
    { intros x y [X|[X X']] [Y|[Y Y']]; try lia. eapply met_asym; [exact X'|exact Y']. }
    assert (p = q) as <-.
    { destruct (proj1 (M p) (or_introl eq_refl)) as [E|E]; [congruence|].
      destruct (proj2 (M q) (or_introl eq_refl)) as [E'|E']; [congruence|].
      exfalso. eapply A; [apply (F _ E')|apply (F' _ E)]. }
    f_equal. apply IH; auto. intros x. specialize (M x). cbn in M. split; intros H.
    + destruct (proj1 M (or_intror H)) as [<-|H']; auto. exfalso. eapply A; apply (F _ H).
    + destruct (proj2 M (or_intror H)) as [<-|H']; auto. exfalso. eapply A; apply (F' _ H).
Qed.
Print Assumptions C90_tally_determined.

Theorem C90_lines_determined :
  forall m f expected one mixed l l', chips m <> [] ->
    lines m f expected one mixed l -> lines m f expected one mixed l' -> l = l'.
Proof.
  intros m f ex one mixed l l' NE L L'.
  assert (X : exists x, In x (chips m)).
  { destruct (chips m) as [|x cs]; [congruence|]. exists x. left; auto. }
  destruct X as (x & X).
  destruct L as [A|n D A|c d t C D Q T], L' as [A'|n' D' A'|c' d' t' C' D' Q' T']; auto;
    try (exfalso; apply Q; rewrite (A' _ C), (A' _ D); reflexivity);
    try (exfalso; apply Q'; rewrite (A _ C'), (A _ D'); reflexivity).
  - exfalso. apply D'. rewrite <- (A' _ X). auto.
  - exfalso. apply D. rewrite <- (A _ X). auto.
  - do 2 f_equal. rewrite <- (A _ X), <- (A' _ X). reflexivity.
  - rewrite (C90_tally_determined _ _ _ _ T T'). reflexivity.
Qed.
Print Assumptions C90_lines_determined.

(** It is the log of the summary_string of C56: the same kinds of lines in the same order. *)
Definition kind_of (w : warning) (line : string) : Prop :=
  exists rest, line = (match w with
    | UnexpectedSdram => "The sdram per chip of "
    | MixedSdram => "Not all Chips have the same sdram. "
    | UnexpectedRouters => "The number of router entries per chip of "
    | MixedRouters => "Not all Chips had the same n_router_tables. "
    end ++ rest)%string.

Theorem C90_same_log :
  forall V m text kinds, summary_string V m = Ok (text, kinds) ->
    Forall2 kind_of kinds (summary_log V m).
Proof.
  intros V m text kinds E. unfold summary_string in E.
  destruct (spread (zsorted (dkeys (m_sdram_counter m))) _ _ _ _ _) as [s1|] eqn:E1; [|discriminate E].
  cbn [bind] in E.
  destruct (spread (zsorted (dkeys (m_entries_counter m))) _ _ _ _ _) as [s2|] eqn:E2; [|discriminate E].
  cbn [bind] in E.
  destruct (spread (zsorted (dkeys (m_cores_counter m))) _ _ _ _ _) as [s3|]; [|discriminate E]. cbn [bind] in E.
  destruct (spread (zsorted (dkeys (m_links_counter m))) _ _ _ _ _) as [s4|]; [|discriminate E]. cbn [bind] in E.
  destruct (boot_chip m) as [bc|]; [|discriminate E]. cbn [bind] in E.
  apply (f_equal (fun r => match r with Ok p => snd p | Err _ => kinds end)) in E. cbn [snd] in E. rewrite <- E.
  unfold summary_log, log_part, weird.
  destruct (zsorted (dkeys (m_sdram_counter m))) as [|n [|n' l]]; [discriminate E1| |];
  (destruct (zsorted (dkeys (m_entries_counter m))) as [|k [|k' l2]]; [discriminate E2| |]);
  repeat match goal with |- context [if negb ?b then _ else _] => destruct (negb b) end; cbn [app];
  repeat constructor; eexists; cbn; reflexivity.
Qed.
Print Assumptions C90_same_log.

(** A machine of five chips with three amounts of SDRAM and one size of routing table: in the
    order of adding 20, 10, 30, 10, 20.  The counts of 20 and 10 are equal and 20 is met first. *)
Definition plain_chip (x sdram entries : Z) : chip :=
  new_chip x 0 [0] [1; 2] (mkRouter [] entries) sdram 0 0 (if x =? 0 then Some "10.0.0.1" else None) None None.
Definition mixed_chips : list chip :=
  [plain_chip 0 20 456; plain_chip 1 10 456; plain_chip 2 30 456; plain_chip 3 10 456; plain_chip 4 20 456].
Definition mixed_machine : machine :=
  fst (history V5 (new_machine NoWrap 8 8 (chip_core_map V5) "") (map CallAddChip mixed_chips)).

Example C90_case :
  made V5 mixed_machine /\ chips mixed_machine = mixed_chips /\
  summary_log (mkVersion V5 18 123469792) mixed_machine =
    ["Not all Chips have the same sdram. The counts where Counter({20: 2, 10: 2, 30: 1}).";
     "The number of router entries per chip of 456 was different to the expected value of 1023 for board Version Spin1 48 Chip"] /\
  tally mixed_machine c_sdram [(20, 2); (10, 2); (30, 1)].
Proof.
  split. { exists NoWrap, 8, 8, (chip_core_map V5), EmptyString, (map CallAddChip mixed_chips). reflexivity. }
  split; [reflexivity|]. split; [vm_compute; reflexivity|].
  assert (M : made V5 mixed_machine).
  { exists NoWrap, 8, 8, (chip_core_map V5), EmptyString, (map CallAddChip mixed_chips). reflexivity. }
  exact (counts_tally c_sdram mixed_machine _ (proj1 (made_counted _ _ M))).
Qed.
