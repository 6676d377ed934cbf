From Coq Require Import Lia ZifyBool Sorted Permutation String.
From Verif Require Import Model_Py Model_Wrap Model_Version Model_Core Model_Machine Model_Virtual
  Model_Text Model_Summary Spec_Machine Spec_Summary Proof_Py Proof_Machine Proof_Report.
Open Scope list_scope.
Open Scope Z_scope.

(** ** The keys of the counters *)
Definition keyed (m : machine) : Prop :=
  (forall n, In n (dkeys (m_cores_counter m)) <-> exists c, In c (chips m) /\ n_processors c = n) /\
  (forall n, In n (dkeys (m_links_counter m)) <-> exists c, In c (chips m) /\ router_len (c_router c) = n) /\
  (forall n, In n (dkeys (m_entries_counter m)) <-> exists c, In c (chips m) /\ r_entries (c_router c) = n) /\
  (forall n, In n (dkeys (m_sdram_counter m)) <-> exists c, In c (chips m) /\ c_sdram c = n) /\
  NoDup (dkeys (m_cores_counter m)) /\ NoDup (dkeys (m_links_counter m)) /\
  NoDup (dkeys (m_entries_counter m)) /\ NoDup (dkeys (m_sdram_counter m)).

Lemma cincr_nodup c k : NoDup (dkeys c) -> NoDup (dkeys (cincr c k)).
Proof.
  intros N. unfold cincr. destruct (dget Z.eqb c k); apply (dset_nodup Z.eqb Z.eqb_eq); auto.
Qed.

Lemma keyed_step (f : chip -> Z) (c : counter) (cs : list chip) (ch : chip) :
  (forall n, In n (dkeys c) <-> exists x, In x cs /\ f x = n) ->
  forall n, In n (dkeys (cincr c (f ch))) <-> exists x, In x (cs ++ [ch]) /\ f x = n.
Proof.
  intros H n. rewrite in_cincr_keys, H. setoid_rewrite in_app_iff. split.
  - intros [(x & A & B)| ->]; [eauto|exists ch; cbn; auto].
  - intros (x & [A|[<-|[]]] & B); eauto.
Qed.

Lemma add_chip_keyed m c m' : wf m -> keyed m -> add_chip m c = Ok m' -> keyed m'.
Proof.
  intros W (K1 & K2 & K3 & K4 & N1 & N2 & N3 & N4) E. pose proof (add_chip_wf m c W) as A. rewrite E in A.
  destruct A as (_ & C & _). unfold keyed. rewrite C. unfold add_chip in E.
  destruct (dmem xy_eqb (m_chips m) (c_xy c)); [discriminate|].
  destruct (c_ip c) as [ip|]; injection E as <-;
    cbn [m_cores_counter m_links_counter m_entries_counter m_sdram_counter];
    (split; [apply keyed_step; auto|]);
    (split; [apply (keyed_step (fun c => router_len (c_router c))); auto|]);
    (split; [apply (keyed_step (fun c => r_entries (c_router c))); auto|]);
    (split; [apply keyed_step; auto|]); repeat split; apply cincr_nodup; auto.
Qed.

Lemma add_chips_keyed cs : forall m, wf m -> keyed m -> keyed (fst (add_chips m cs)).
Proof.
  induction cs as [|c cs IH]; intros m W K; cbn [add_chips]; auto.
  pose proof (add_chip_wf m c W) as A. destruct (add_chip m c) as [m'|e] eqn:E; auto.
  apply IH; [apply A|eapply add_chip_keyed; eauto].
Qed.

Lemma same_keyed m m' : same_but_links m m' -> keyed m -> keyed m'.
Proof.
  intros S K. pose proof (same_chips m m' S) as C. unfold same_but_links in S.
  destruct S as (_ & _ & _ & _ & _ & _ & _ & _ & S9 & S10 & S11 & S12).
  unfold keyed. rewrite C, S9, S10, S11, S12. exact K.
Qed.

Lemma made_keyed v m : made v m -> keyed m.
Proof.
  intros (k & w & h & ccm & o & calls & ->).
  assert (keyed (new_machine k w h ccm o)) as K.
  { unfold keyed. cbn. repeat split; try constructor; try contradiction; intros (c & [] & _). }
  pose proof (wf_new k w h ccm o) as W. revert K W. generalize (new_machine k w h ccm o) as m.
  induction calls as [|a calls IH]; intros m K W; cbn [history fst]; auto.
  pose proof (exec_wf v m a W) as A.
  assert (keyed (fst (exec v m a))) as K'.
  { destruct a as [c|cs| |]; cbn [exec].
    - destruct (add_chip m c) as [m'|e] eqn:E; cbn [fst]; auto. eapply add_chip_keyed; eauto.
    - apply add_chips_keyed; auto.
    - destruct (add_spin_same v m W) as (m' & -> & S). cbn. eapply same_keyed; eauto.
    - destruct (add_fpga_same v m W) as (m' & -> & S). cbn. eapply same_keyed; eauto. }
  destruct (exec v m a) as [m1 e]. cbn [fst] in K'. destruct A as (W1 & _).
  specialize (IH m1 K' W1). destruct (history v m1 calls). exact IH.
Qed.

(** ** First and last *)
Lemma spread_spec m (f : chip -> Z) keys a b one between and_ after after_one :
  (forall n, In n keys <-> exists c, In c (chips m) /\ f c = n) -> NoDup keys ->
  least m f a -> greatest m f b ->
  spread (zsorted keys) one between and_ after after_one =
    Ok (if a =? b then cat [one; dec a; after_one] else cat [between; dec a; and_; dec b; after]) /\
  (zsorted keys = [a] <-> a = b) /\ (a = b -> zsorted keys = [a]) /\
  (a <> b -> exists x y l, zsorted keys = x :: y :: l).
Proof.
  intros K N [(ca & Ca & Fa) La] [(cb & Cb & Fb) Lb].
  assert (forall n, In n (zsorted keys) <-> exists c, In c (chips m) /\ f c = n) as KS
    by (intros n; rewrite zsorted_in; apply K).
  assert (NoDup (zsorted keys)) as NS by (eapply Permutation_NoDup; [symmetry; apply zsorted_perm|auto]).
  pose proof (zsorted_sorted keys) as S.
  assert (In a (zsorted keys)) as Ia by (apply KS; eauto). assert (In b (zsorted keys)) as Ib by (apply KS; eauto).
  assert (forall n, In n (zsorted keys) -> a <= n <= b) as R.
  { intros n H. apply KS in H as (c & Hc & <-). split; auto. }
  destruct (zsorted keys) as [|x l] eqn:E; [destruct Ia|].
  assert (x = a) as ->.
  { destruct Ia as [Ia|Ia]; auto. apply StronglySorted_inv in S as [_ S]. rewrite Forall_forall in S.
    specialize (S a Ia). specialize (R x (or_introl eq_refl)). lia. }
  destruct l as [|y l].
  - assert (a = b) as <- by (destruct Ib as [Ib|[]]; auto).
    cbn [spread]. rewrite Z.eqb_refl. repeat split; auto. intros []. auto.
  - assert (a <> b) as NE.
    { intros X. inversion NS as [|? ? N1 N2]. apply N1. left.
      assert (a <= y <= b) by (apply R; right; left; auto). lia. }
    assert (exists l', a :: y :: l = l' ++ [b]) as [l' EL].
    { destruct (@exists_last _ (a :: y :: l)) as (l' & z & EL); [discriminate|]. exists l'. rewrite EL. do 2 f_equal.
      pose proof (sorted_last (a :: y :: l) 0 b S Ib) as SL. rewrite EL, last_last in SL.
      assert (a <= z <= b) by (apply R; rewrite EL; apply in_app_iff; cbn; auto). lia. }
    cbn [spread]. assert (py_index (a :: y :: l) 0 = Ok a) as -> by reflexivity. cbn [bind].
    rewrite EL, py_index_last. cbn [bind].
    destruct (Z.eqb_spec a b) as [X|X]; [contradiction|]. split; auto. rewrite <- EL.
    split; [split; [discriminate|contradiction]|]. split; [contradiction|]. eauto.
Qed.

Lemma weird_spec keys a b x y l expected unexpected mixed :
  (a = b -> keys = [a]) -> (a <> b -> keys = x :: y :: l) ->
  weird keys expected unexpected mixed =
    if a =? b then (if a =? expected then [] else [unexpected]) else [mixed].
Proof.
  intros A B. destruct (Z.eqb_spec a b) as [E|E].
  - rewrite (A E). cbn. destruct (a =? expected); reflexivity.
  - rewrite (B E). reflexivity.
Qed.
