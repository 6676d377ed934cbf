(** C98: iterators and generators of a machine or a router that are still running
    while chips or links are added.  A history is any list of next() calls and
    changes, in any order: machine.add_chip(chip), machine[x, y].router.add_link(link),
    and rejected ones of both. *)
From Verif Require Import Model_Py Model_Wrap Model_Version Model_Core Model_Machine
  Model_Mutate Model_Iter Spec_Machine Spec_Iter Proof_Py Proof_Concentric Proof_Machine
  Proof_Iter Proof_IterMend.
Require Import Lia.

(** ** machine.chips, machine.chip_coordinates, iter(machine), router.links,
    iter(router) *)
Theorem C98_machine_iterators : forall m evs,
  (exists a, answers grow_machine chips_next m (chips_iter m) (evs ++ [Next]) =
     answers grow_machine chips_next m (chips_iter m) evs ++ [a] /\
     answers_rightly (n_chips m) (chips (after grow_machine m evs))
       (answers grow_machine chips_next m (chips_iter m) evs) a) /\
  (exists a, answers grow_machine coordinates_next m (coordinates_iter m) (evs ++ [Next]) =
     answers grow_machine coordinates_next m (coordinates_iter m) evs ++ [a] /\
     answers_rightly (n_chips m) (chip_coordinates (after grow_machine m evs))
       (answers grow_machine coordinates_next m (coordinates_iter m) evs) a) /\
  (exists a, answers grow_machine items_next m (items_iter m) (evs ++ [Next]) =
     answers grow_machine items_next m (items_iter m) evs ++ [a] /\
     answers_rightly (n_chips m) (machine_iter (after grow_machine m evs))
       (answers grow_machine items_next m (items_iter m) evs) a).
Proof.
  intros m evs. split; [|split].
  - exact (dict_answers grow_machine m_chips snd grow_longer m evs).
  - exact (dict_answers grow_machine m_chips fst grow_longer m evs).
  - pose proof (dict_answers grow_machine m_chips (fun e => e) grow_longer m evs) as H.
    rewrite map_id in H. exact H.
Qed.
Print Assumptions C98_machine_iterators.

(** As many chips means the same places in the same order, and without a new link
    the same machine. *)
Theorem C98_as_many_chips : forall m evs,
  n_chips (after grow_machine m evs) = n_chips m ->
  chip_coordinates (after grow_machine m evs) = chip_coordinates m /\
  ((forall p l, ~ In (Change (AddLink p l)) evs) -> after grow_machine m evs = m).
Proof.
  intros m evs. revert m. induction evs as [|[|g] evs IH]; intros m; cbn [after].
  - auto.
  - intros H. destruct (IH m H) as [H1 H2]. split; [exact H1|]. intros H3. apply H2.
    intros p l Hin. apply (H3 p l). right; exact Hin.
  - destruct (changed_cases grow_machine m g) as [(m' & E & ->)| ->].
    + intros H. pose proof (grow_longer _ _ _ E) as HL1.
      pose proof (after_longer grow_machine m_chips grow_longer evs m') as HL2.
      assert (HL : List.length (m_chips m') = List.length (m_chips m)) by (unfold n_chips in H; lia).
      assert (HN : n_chips (after grow_machine m' evs) = n_chips m') by (unfold n_chips in *; lia).
      destruct (IH m' HN) as [H1 H2].
      destruct (grow_keys _ _ _ E) as [HK|(p & HK)].
      * split; [unfold chip_coordinates in *; congruence|]. intros H3.
        destruct g as [c|p l]; [|destruct (H3 p l); left; reflexivity].
        cbn in E. apply add_chip_parts in E as (_ & E & _). rewrite E, app_length in HL. cbn in HL. lia.
      * rewrite (len_keys m'), (len_keys m), HK, app_length in HL. cbn in HL. lia.
    + intros H. destruct (IH m H) as [H1 H2]. split; [exact H1|]. intros H3. apply H2.
      intros p l Hin. apply (H3 p l). right; exact Hin.
Qed.
Print Assumptions C98_as_many_chips.

Lemma links_longer r l r' : router_add_link r l = Ok r' ->
  (List.length (r_links r) <= List.length (r_links r'))%nat.
Proof. intros E. destruct (add_link_parts _ _ _ E) as (e & ->). rewrite app_length. lia. Qed.

Theorem C98_router_iterators : forall r evs,
  (exists a, answers router_add_link links_next r (links_iter r) (evs ++ [Next]) =
     answers router_add_link links_next r (links_iter r) evs ++ [a] /\
     answers_rightly (router_len r) (router_links (after router_add_link r evs))
       (answers router_add_link links_next r (links_iter r) evs) a) /\
  (exists a, answers router_add_link link_items_next r (link_items_iter r) (evs ++ [Next]) =
     answers router_add_link link_items_next r (link_items_iter r) evs ++ [a] /\
     answers_rightly (router_len r) (router_iter (after router_add_link r evs))
       (answers router_add_link link_items_next r (link_items_iter r) evs) a) /\
  (router_len (after router_add_link r evs) = router_len r -> after router_add_link r evs = r).
Proof.
  intros r evs. split; [|split].
  - exact (dict_answers router_add_link r_links snd links_longer r evs).
  - pose proof (dict_answers router_add_link r_links (fun e => e) links_longer r evs) as H.
    rewrite map_id in H. exact H.
  - revert r. induction evs as [|[|l] evs IH]; intros r; cbn [after]; auto.
    destruct (changed_cases router_add_link r l) as [(r' & E & ->)| ->]; [|apply IH].
    intros H. pose proof (after_longer router_add_link r_links links_longer evs r') as HL.
    destruct (add_link_parts _ _ _ E) as (e & Ee). unfold router_len in H.
    rewrite Ee, app_length in HL. cbn in HL. lia.
Qed.
Print Assumptions C98_router_iterators.

(** ** machine.ethernet_connected_chips is the live list *)
Theorem C98_ethernet_chips : forall m evs,
  exists a, answers grow_machine eth_next m (eth_iter m) (evs ++ [Next]) =
    answers grow_machine eth_next m (eth_iter m) evs ++ [a] /\
    (stopped (answers grow_machine eth_next m (eth_iter m) evs) -> a = Stops) /\
    (~ stopped (answers grow_machine eth_next m (eth_iter m) evs) ->
       a = item_or_stop (ethernet_connected_chips (after grow_machine m evs))
             (List.length (answers grow_machine eth_next m (eth_iter m) evs))).
Proof.
  intros m evs. eexists. split; [apply answers_next|].
  assert (I : let past := answers grow_machine eth_next m (eth_iter m) evs in
              match left_at grow_machine eth_next m (eth_iter m) evs with
              | None => stopped past
              | Some i => ~ stopped past /\ i = List.length past
              end).
  { cbv zeta. induction evs as [|[|c] evs IH] using rev_ind.
    - cbn. unfold stopped. auto.
    - rewrite answers_next, left_at_app. cbn [left_at].
      destruct (left_at grow_machine eth_next m (eth_iter m) evs) as [i|]; cbn [eth_next].
      + destruct IH as [I1 I2].
        destruct (nth_error (m_eth (after grow_machine m evs)) i); cbn [fst snd].
        * rewrite stopped_app, app_length. split; [intuition discriminate|cbn; lia].
        * apply stopped_app. auto.
      + cbn. apply stopped_app. auto.
    - rewrite answers_change, left_at_app. exact IH. }
  cbv zeta in I.
  destruct (left_at grow_machine eth_next m (eth_iter m) evs) as [i|]; cbn [eth_next].
  - destruct I as [I1 I2]. subst i. split; [tauto|]. intros _.
    unfold item_or_stop, ethernet_connected_chips. destruct (nth_error _ _); reflexivity.
  - cbn. split; [auto|tauto].
Qed.
Print Assumptions C98_ethernet_chips.

(** ** The generators over a board *)

(** The next answer: the board in its order falls into a part that is passed and a
    part that is left; the first position of the part left that has a chip now is
    given, and StopIteration is raised if there is none. *)
Theorem C98_existing_next : forall m ex ey evs,
  let past := answers grow_machine (existing_next ex ey) m (board_iter m) evs in
  exists passed rest,
    m_xys m ex ey = passed ++ rest /\
    picked (given past) passed /\
    (forall l p, ~ stopped past -> given past = l ++ [p] -> exists k, passed = k ++ [p]) /\
    (~ stopped past -> given past = [] -> passed = []) /\
    (stopped past -> rest = []) /\
    answers grow_machine (existing_next ex ey) m (board_iter m) (evs ++ [Next]) =
      past ++ [match find (contains (after grow_machine m evs)) rest with
               | Some p => Gives p | None => Stops end].
Proof.
  intros m ex ey evs. rewrite !(answers_ext grow_machine _ _ (existing_pick ex ey)).
  destruct (pick_local true m ex ey evs) as (d & r & H1 & H2 & H3 & H4 & H5 & H6).
  exists d, r. repeat (split; [assumption|]). rewrite H6.
  rewrite (find_ext _ (contains (after grow_machine m evs))); [reflexivity|].
  intros p. destruct (contains _ p); reflexivity.
Qed.
Print Assumptions C98_existing_next.

(** What a caller has who has come to the end: never another exception, positions of
    the board in its order, each with a chip when it was given, and all that had
    one at the start among them. *)
Theorem C98_existing_all : forall m ex ey evs,
  let got := answers grow_machine (existing_next ex ey) m (board_iter m) evs in
  (forall e, ~ In (Raises e) got) /\
  picked (given got) (m_xys m ex ey) /\
  (forall p, In p (given got) -> contains (after grow_machine m evs) p = true) /\
  (stopped got -> forall p, In p (m_xys m ex ey) -> contains m p = true -> In p (given got)).
Proof.
  intros m ex ey evs. cbv zeta. rewrite !(answers_ext grow_machine _ _ (existing_pick ex ey)).
  destruct (pick_invariant ex ey true m evs) as (dn & I1 & I2 & I3 & I4 & I5 & I6).
  split; [exact I5|]. split; [|split].
  - rewrite m_xys_map, I1, map_app. apply picked_more. exact I2.
  - clear. induction evs as [|[|c] evs IH] using rev_ind; [cbn; tauto| |].
    + intros p. rewrite answers_next, given_app, in_app_iff, after_app. cbn [after].
      intros [Hp|Hp]; [auto|].
      destruct (pick_next ex ey true (after grow_machine m evs)
        (left_at grow_machine (pick_next ex ey true) m (board_iter m) evs)) as [r a] eqn:E.
      apply pick_cases in E as [(-> & _)|(d & q & _ & -> & Hq & _)]; [destruct Hp|].
      destruct Hp as [<-|[]]. exact Hq.
    + intros p. rewrite answers_change, after_app. cbn [after]. intros Hp.
      specialize (IH p Hp).
      destruct (changed_cases grow_machine (after grow_machine m evs) c) as [(o & E & ->)| ->]; auto.
      destruct (grow_frame _ _ _ E) as (_ & _ & _ & _ & K); auto.
  - intros HS p Hp Hc. rewrite m_xys_map, I1, (I3 HS), app_nil_r in Hp.
    destruct (I6 p Hp) as [|(e1 & e2 & _ & Hn)]; [assumption|].
    destruct (same_frame_after e1 m) as (_ & _ & _ & _ & K). rewrite (K p Hc) in Hn. discriminate.
Qed.
Print Assumptions C98_existing_all.

Theorem C98_down_next : forall m ex ey evs,
  let past := answers grow_machine (down_next ex ey) m (board_iter m) evs in
  exists passed rest,
    m_xys m ex ey = passed ++ rest /\
    picked (given past) passed /\
    (forall l p, ~ stopped past -> given past = l ++ [p] -> exists k, passed = k ++ [p]) /\
    (~ stopped past -> given past = [] -> passed = []) /\
    (stopped past -> rest = []) /\
    answers grow_machine (down_next ex ey) m (board_iter m) (evs ++ [Next]) =
      past ++ [match find (fun p => negb (contains (after grow_machine m evs) p)) rest with
               | Some p => Gives p | None => Stops end].
Proof.
  intros m ex ey evs. rewrite !(answers_ext grow_machine _ _ (down_pick ex ey)).
  destruct (pick_local false m ex ey evs) as (d & r & H1 & H2 & H3 & H4 & H5 & H6).
  exists d, r. repeat (split; [assumption|]). rewrite H6.
  rewrite (find_ext _ (fun p => negb (contains (after grow_machine m evs) p))); [reflexivity|].
  intros p. destruct (contains _ p); reflexivity.
Qed.
Print Assumptions C98_down_next.

(** At the end every position of the board that was not given has a chip. *)
Theorem C98_down_all : forall m ex ey evs,
  let got := answers grow_machine (down_next ex ey) m (board_iter m) evs in
  (forall e, ~ In (Raises e) got) /\
  picked (given got) (m_xys m ex ey) /\
  (forall p, In p (given got) -> contains m p = false) /\
  (stopped got -> forall p, In p (m_xys m ex ey) ->
     In p (given got) \/ contains (after grow_machine m evs) p = true).
Proof.
  intros m ex ey evs. cbv zeta. rewrite !(answers_ext grow_machine _ _ (down_pick ex ey)).
  destruct (pick_invariant ex ey false m evs) as (dn & I1 & I2 & I3 & I4 & I5 & I6).
  split; [exact I5|]. split; [|split].
  - rewrite m_xys_map, I1, map_app. apply picked_more. exact I2.
  - clear. induction evs as [|[|c] evs IH] using rev_ind; [cbn; tauto| |].
    + intros p. rewrite answers_next, given_app, in_app_iff.
      intros [Hp|Hp]; [auto|].
      destruct (pick_next ex ey false (after grow_machine m evs)
        (left_at grow_machine (pick_next ex ey false) m (board_iter m) evs)) as [r a] eqn:E.
      apply pick_cases in E as [(-> & _)|(d & q & _ & -> & Hq & _)]; [destruct Hp|].
      destruct Hp as [<-|[]].
      destruct (contains m (on_machine (after grow_machine m evs) ex ey q)) eqn:Hc; auto.
      destruct (same_frame_after evs m) as (_ & _ & _ & _ & K). rewrite (K _ Hc) in Hq. discriminate.
    + intros p. rewrite answers_change. auto.
  - intros HS p Hp. rewrite m_xys_map, I1, (I3 HS), app_nil_r in Hp.
    destruct (I6 p Hp) as [|(e1 & e2 & -> & Hn)]; [auto|].
    right. rewrite after_app. cbn [negb] in Hn.
    destruct (same_frame_after (Next :: e2) (after grow_machine m e1)) as (_ & _ & _ & _ & K). auto.
Qed.
Print Assumptions C98_down_all.

(** While no chip comes, both give what they give when read at once. *)
Theorem C98_board_undisturbed : forall m ex ey k,
  answers grow_machine (existing_next ex ey) m (board_iter m) (repeat Next k) =
    map (item_or_stop (m_existing m ex ey)) (seq 0 k) /\
  answers grow_machine (down_next ex ey) m (board_iter m) (repeat Next k) =
    map (item_or_stop (m_down m ex ey)) (seq 0 k).
Proof.
  intros m ex ey k.
  assert (K : forall keep k todo,
    answers grow_machine (pick_next ex ey keep) m todo (repeat Next k) =
    map (item_or_stop (filter (fun p => Bool.eqb (contains m p) keep)
      (map (on_machine m ex ey) todo))) (seq 0 k)).
  { intros keep. induction k0 as [|k0 IH]; intros todo; [reflexivity|].
    cbn [repeat answers seq map]. rewrite <- seq_shift, map_map.
    induction todo as [|p todo IHt].
    - cbn [pick_next]. rewrite IH. cbn. f_equal. apply map_ext. intros i.
      unfold item_or_stop. destruct i; reflexivity.
    - cbn [pick_next map filter].
      destruct (Bool.eqb (contains m (on_machine m ex ey p)) keep); [|exact IHt].
      rewrite IH. reflexivity. }
  rewrite (answers_ext grow_machine _ _ (existing_pick ex ey)), (answers_ext grow_machine _ _ (down_pick ex ey)).
  rewrite !K. unfold m_existing, m_down, board_iter. rewrite existing_filter, down_filter.
  fold (m_xys m ex ey). rewrite m_xys_map. split; f_equal; f_equal; apply filter_ext; intros p;
    destruct (contains m p); reflexivity.
Qed.
Print Assumptions C98_board_undisturbed.

(** get_chips_by_ethernet gives the chip at each position that
    get_existing_xys_by_ethernet gives, as it is at that time. *)
Theorem C98_board_chips : forall m ex ey evs,
  exists a b,
    answers grow_machine (board_chips_next ex ey) m (board_iter m) (evs ++ [Next]) =
      answers grow_machine (board_chips_next ex ey) m (board_iter m) evs ++ [a] /\
    answers grow_machine (existing_next ex ey) m (board_iter m) (evs ++ [Next]) =
      answers grow_machine (existing_next ex ey) m (board_iter m) evs ++ [b] /\
    match a, b with
    | Gives c, Gives p => getitem (after grow_machine m evs) p = Ok c
    | Stops, Stops => True
    | _, _ => False
    end.
Proof.
  intros m ex ey evs.
  assert (N : forall o s, exists r a b, board_chips_next ex ey o s = (r, a) /\
     existing_next ex ey o s = (r, b) /\
     match a, b with
     | Gives c, Gives p => getitem o p = Ok c
     | Stops, Stops => True
     | _, _ => False
     end).
  { intros o s. unfold board_chips_next. rewrite existing_pick.
    destruct (pick_next ex ey true o s) as [r b] eqn:E.
    apply pick_cases in E as [(-> & -> & _)|(d & q & _ & -> & Hq & _)].
    - exists [], Stops, Stops. auto.
    - unfold contains in Hq. apply (dmem_dget xy_eqb) in Hq as (c & Hc).
      unfold getitem, dgetitem. rewrite Hc. eexists _, _, _. split; [reflexivity|].
      split; [reflexivity|]. cbn. rewrite Hc. reflexivity. }
  assert (L : forall evs o s, left_at grow_machine (board_chips_next ex ey) o s evs =
                             left_at grow_machine (existing_next ex ey) o s evs).
  { induction evs0 as [|[|c] evs0 IH]; intros o s; cbn [left_at]; auto.
    destruct (N o s) as (r & a & b & -> & -> & _). apply IH. }
  rewrite !answers_next, L.
  destruct (N (after grow_machine m evs) (left_at grow_machine (existing_next ex ey) m (board_iter m) evs))
    as (r & a & b & -> & -> & H).
  exists a, b. auto.
Qed.
Print Assumptions C98_board_chips.

(** ** machine.one_way_links() *)

(** Nothing is read before the first next(): the i-th answer is the i-th one-way
    link of the machine as it is then, as long as no more chips come. *)
Theorem C98_one_way_from_first : forall m before k, no_next before ->
  answers grow_machine owl_next m OwlNew (before ++ repeat Next k) =
  map (item_or_stop (one_way_links (after grow_machine m before))) (seq 0 k).
Proof.
  intros m before k HN. rewrite answers_app.
  destruct (no_next_answers grow_machine owl_next before HN m OwlNew) as [-> ->].
  cbn [app]. apply (owl_answers grow_machine k (after grow_machine m before) OwlNew). exact I.
Qed.
Print Assumptions C98_one_way_from_first.

(** Whatever comes in between, a link that is given is one-way when given. *)
Theorem C98_one_way_true : forall m evs q,
  answers grow_machine owl_next m OwlNew (evs ++ [Next]) =
    answers grow_machine owl_next m OwlNew evs ++ [Gives q] ->
  In q (one_way_links (after grow_machine m evs)).
Proof.
  intros m evs q. rewrite answers_next. intros E. apply app_inv_head in E.
  pose proof (owl_in_after grow_machine evs m OwlNew I) as HI.
  destruct (owl_next _ _) as [s' a] eqn:EN. cbn [snd] in E.
  destruct (owl_next_in _ _ _ _ HI EN) as [_ H]. apply H. congruence.
Qed.
Print Assumptions C98_one_way_true.

(** Once a chip has come after the first next(), the links of the chip the
    generator is at may still be given, then RuntimeError is raised, once, and
    after that StopIteration. *)
Theorem C98_one_way_grown : forall m before evs, no_next before ->
  let past := answers grow_machine owl_next m OwlNew (before ++ Next :: evs) in
  n_chips (after grow_machine m (before ++ Next :: evs)) <> n_chips (after grow_machine m before) ->
  exists a, answers grow_machine owl_next m OwlNew ((before ++ Next :: evs) ++ [Next]) = past ++ [a] /\
    ((stopped past \/ exists e, In (Raises e) past) -> a = Stops) /\
    (~ (stopped past \/ exists e, In (Raises e) past) ->
       a = Raises RuntimeErr \/
       exists p x y out back out' back', past = p ++ [Gives (x, y, out, back)] /\
         a = Gives (x, y, out', back')).
Proof.
  intros m before evs HN past HG. subst past. eexists. split; [apply answers_next|].
  pose proof (owl_track_after m before evs HN) as T.
  destruct (left_at grow_machine owl_next m OwlNew (before ++ Next :: evs)) as [|it checks|];
    cbn [owl_track] in T; [contradiction| |].
  - destruct T as (T1 & T2 & c & p & out & back & EC & T3).
    split; [intros HE; destruct T2; exact HE|]. intros _.
    cbn [owl_next]. rewrite EC.
    pose proof (owl_checks_cases (after grow_machine m (before ++ Next :: evs)) c checks) as H.
    destruct (owl_checks _ c checks) as [[q r]|].
    + destruct H as (_ & _ & _ & out' & back' & ->). right.
      exists p, (c_x c), (c_y c), out, back, out', back'. auto.
    + left. unfold owl_for. rewrite T1.
      destruct (Nat.eqb_spec (List.length (m_chips (after grow_machine m before)))
        (List.length (m_chips (after grow_machine m (before ++ Next :: evs))))) as [E|E];
        [|reflexivity].
      destruct HG. unfold n_chips. congruence.
  - split; [reflexivity|intros HE; destruct HE; exact T].
Qed.
Print Assumptions C98_one_way_grown.

(** As long as no chip comes, links may: nothing but StopIteration is raised. *)
Theorem C98_one_way_quiet : forall m before evs, no_next before ->
  n_chips (after grow_machine m (before ++ Next :: evs)) = n_chips (after grow_machine m before) ->
  forall e, ~ In (Raises e) (answers grow_machine owl_next m OwlNew (before ++ Next :: evs)).
Proof.
  intros m before evs HN HG e.
  destruct (no_next_answers grow_machine owl_next before HN m OwlNew) as [EA EL].
  rewrite answers_app, EA, EL. cbn [app]. rewrite after_app in HG.
  remember (after grow_machine m before) as m1. clear Heqm1 EA EL HN m before.
  assert (K : forall evs o s, owl_ok o s -> n_chips (after grow_machine o evs) = n_chips o ->
              ~ In (Raises e) (answers grow_machine owl_next o s evs)).
  { induction evs0 as [|[|g] evs0 IH]; intros o s OK HC; cbn [answers after] in *; [tauto| |].
    - destruct (owl_next o s) as [s' a] eqn:E. destruct (owl_next_todo _ _ _ _ OK E) as [OK' _].
      destruct (owl_no_raise _ _ _ _ OK E) as [->|(q & ->)]; intros [H|H]; try discriminate;
        revert H; apply IH; auto.
    - destruct (changed_cases grow_machine o g) as [(o' & E & EC)|EC]; rewrite EC in *; [|apply IH; auto].
      pose proof (grow_longer _ _ _ E) as HL1.
      pose proof (after_longer grow_machine m_chips grow_longer evs0 o') as HL2.
      unfold n_chips in HC. apply IH.
      + destruct s; cbn [owl_ok] in *; auto. rewrite OK. f_equal. lia.
      + unfold n_chips. lia. }
  apply K; [exact I|exact HG].
Qed.
Print Assumptions C98_one_way_quiet.

(** ** for loops *)

(** machine.add_chips(make(xy) for xy in machine.get_down_xys_by_ethernet(ex, ey)):
    the loop fills the board it is reading from. *)
Theorem C98_fill_the_board : forall make m ex ey, (forall p, c_xy (make p) = p) ->
  exists m' filled,
    for_loop (down_next ex ey) (fun o p => add_chip o (make p)) m (board_iter m) m' None filled /\
    (forall m'' x l, for_loop (down_next ex ey) (fun o p => add_chip o (make p)) m
       (board_iter m) m'' x l -> m'' = m' /\ x = None /\ l = filled) /\
    NoDup filled /\
    (forall p, In p filled <-> In p (m_xys m ex ey) /\ contains m p = false) /\
    (forall p, In p filled -> getitem m' p = Ok (make p)) /\
    (forall p, ~ In p filled -> getitem m' p = getitem m p) /\
    m_down m' ex ey = [].
Proof.
  intros make m ex ey MK.
  assert (L : forall todo o, same_frame m o -> exists m' filled,
    for_loop (down_next ex ey) (fun o p => add_chip o (make p)) o todo m' None filled /\
    same_frame o m' /\ NoDup filled /\
    (forall p, In p filled <-> In p (map (on_machine m ex ey) todo) /\ contains o p = false) /\
    (forall p, In p filled -> getitem m' p = Ok (make p)) /\
    (forall p, ~ In p filled -> getitem m' p = getitem o p) /\
    (forall p, In p (map (on_machine m ex ey) todo) -> contains m' p = true)).
  { induction todo as [|q todo IH]; intros o SF.
    - exists o, []. split; [eapply for_ends; reflexivity|]. split; [apply same_frame_refl|].
      split; [constructor|]. cbn. intuition.
    - set (p := on_machine m ex ey q).
      assert (EP : on_machine o ex ey q = p) by (rewrite (on_machine_frame _ _ ex ey SF); reflexivity).
      destruct (contains o p) eqn:HC.
      + destruct (IH o SF) as (m' & l & F & SF' & ND & H1 & H2 & H3 & H4).
        exists m', l. split.
        { inversion F; subst.
          - eapply for_ends. cbn [down_next]. rewrite EP, HC. eassumption.
          - eapply for_goes_on; [|eassumption|eassumption].
            cbn [down_next]. rewrite EP, HC. eassumption. }
        split; [exact SF'|]. split; [exact ND|]. cbn [map In]. fold p. split.
        { intros r. rewrite H1. split; [tauto|]. intros [[<-|Hr] Hn]; [congruence|auto]. }
        split; [exact H2|]. split; [exact H3|].
        intros r [<-|Hr]; [|auto]. destruct SF' as (_ & _ & _ & _ & K). auto.
      + destruct (add_chip o (make p)) as [o1|e] eqn:EA.
        2:{ unfold add_chip in EA. rewrite MK in EA. unfold contains in HC. rewrite HC in EA.
            destruct (c_ip (make p)); discriminate. }
        pose proof (same_frame_add _ _ _ EA) as SF1.
        destruct (IH o1 (same_frame_trans _ _ _ SF SF1)) as (m' & l & F & SF' & ND & H1 & H2 & H3 & H4).
        pose proof (contains_added _ _ _ EA) as HP. rewrite MK in HP.
        assert (KO : forall r, r <> p -> getitem o1 r = getitem o r).
        { intros r Hr. apply add_chip_parts in EA as (_ & EA & _).
          unfold getitem, dgetitem. rewrite EA, (dget_app xy_eqb), MK.
          destruct (dget xy_eqb (m_chips o) r); [reflexivity|]. cbn.
          destruct (xy_eqb p r) eqn:EQ; [|reflexivity].
          apply xyeqb_eq in EQ. congruence. }
        assert (KC : forall r, r <> p -> contains o1 r = contains o r).
        { intros r Hr. specialize (KO r Hr). unfold getitem, dgetitem in KO.
          unfold contains, dmem.
          destruct (dget xy_eqb (m_chips o1) r), (dget xy_eqb (m_chips o) r);
            congruence. }
        assert (KP : getitem o1 p = Ok (make p)).
        { apply add_chip_parts in EA as (Hn & EA & _).
          unfold getitem, dgetitem. rewrite EA, (dget_app xy_eqb), MK.
          rewrite MK in Hn. unfold contains, dmem in Hn.
          destruct (dget xy_eqb (m_chips o) p); [discriminate|]. cbn.
          destruct (xy_eqb p p) eqn:EQ; [reflexivity|].
          assert (p = p) as EE by reflexivity. apply xyeqb_eq in EE. congruence. }
        assert (NP : ~ In p l) by (rewrite H1; intros [_ Hn]; congruence).
        exists m', (p :: l). split.
        { eapply for_goes_on; [|exact EA|exact F]. cbn [down_next]. rewrite EP, HC. reflexivity. }
        split; [eapply same_frame_trans; eauto|]. split; [constructor; auto|].
        cbn [map In]. fold p. split.
        { intros r. rewrite H1. destruct (XY_dec r p) as [->|Hr].
          - tauto.
          - rewrite (KC r Hr). split.
            + intros [<-|H]; [contradiction|tauto].
            + intros [[<-|Hin] Hn]; [contradiction|tauto]. }
        split.
        { intros r [<-|Hr]; [|auto]. rewrite (H3 p NP). exact KP. }
        split.
        { intros r Hr. rewrite (H3 r) by tauto. apply KO. intros ->. tauto. }
        intros r [<-|Hr]; [|auto]. destruct SF' as (_ & _ & _ & _ & K). auto. }
  destruct (L (board_iter m) m (same_frame_refl m)) as (m' & l & F & SF & ND & H1 & H2 & H3 & H4).
  exists m', l. split; [exact F|]. split.
  { intros m'' x k F'. exact (for_loop_one _ _ _ _ _ _ _ F _ _ _ F'). }
  split; [exact ND|]. rewrite m_xys_map. split; [exact H1|]. split; [exact H2|].
  split; [exact H3|].
  unfold m_down. rewrite down_filter. destruct SF as (E1 & E2 & E3 & E4 & _).
  rewrite E1, E2, E3, E4. fold (m_xys m ex ey). rewrite m_xys_map.
  unfold board_iter in H4. revert H4. generalize (map (on_machine m ex ey) (dkeys (m_ccm m))).
  intros ps. induction ps as [|r ps IH]; intros H; cbn; auto.
  rewrite (H r (or_introl eq_refl)). cbn. apply IH. intros q Hq. apply H. right; auto.
Qed.
Print Assumptions C98_fill_the_board.

(** [for chip in machine.chips:] with a body that adds a chip: RuntimeError as
    soon as the body is done with the first chip. *)
Theorem C98_adding_in_a_loop : forall m body c0 rest d m',
  chips m = c0 :: rest -> add_chip m d = Ok m' -> body m c0 = Ok m' ->
  forall m'' x l, for_loop chips_next body m (chips_iter m) m'' x l <->
    m'' = m' /\ x = Some RuntimeErr /\ l = [c0].
Proof.
  intros m body c0 rest d m' EC EA EB m'' x l.
  assert (F : for_loop chips_next body m (chips_iter m) m' (Some RuntimeErr) [c0]).
  { unfold chips, dvalues in EC. destruct (m_chips m) as [|[p c] cs] eqn:EM; [discriminate|].
    cbn in EC. inversion EC; subst.
    eapply for_goes_on; [|exact EB|eapply for_iter_raises].
    - unfold chips_next, chips_iter, dict_next, iter_of. rewrite EM.
      cbn [it_live it_used it_pos]. rewrite Nat.eqb_refl. reflexivity.
    - apply add_chip_parts in EA as (_ & EA & _). unfold chips_next, dict_next.
      cbn [it_live it_used it_pos]. rewrite EA, EM, app_length.
      destruct (Nat.eqb_spec (List.length ((p, c0) :: cs)) (List.length ((p, c0) :: cs) + List.length [(c_xy d, d)])) as [E|E];
        [cbn in E; lia|reflexivity]. }
  split.
  - intros F'. exact (for_loop_one _ _ _ _ _ _ _ F _ _ _ F').
  - intros (-> & -> & ->). exact F.
Qed.
Print Assumptions C98_adding_in_a_loop.

(** for x, y, out, back in machine.one_way_links(): with a body that adds the link
    back: the loop comes to its end, and there are no one-way links any more. *)
Theorem C98_mend_loop : forall v m, made v m -> links_lead_to_chips m ->
  exists m' mended,
    for_loop owl_next mend m OwlNew m' None mended /\
    (forall m'' x l, for_loop owl_next mend m OwlNew m'' x l -> m'' = m' /\ x = None /\ l = mended) /\
    one_way_links m' = [] /\ chip_coordinates m' = chip_coordinates m /\
    NoDup mended /\ incl mended (one_way_links m) /\
    (forall x y i l, link_from m' x y i = Some l <->
       link_from m x y i = Some l \/
       exists a b out l0, In (a, b, out, i) mended /\ link_from m a b out = Some l0 /\
         l_destination_x l0 = x /\ l_destination_y l0 = y /\ l = mkLink x y i a b).
Proof.
  intros v m MD LC. pose proof (made_wf v m MD) as W.
  assert (T : tidy m).
  { split; [apply wf_keys; exact W|]. intros e He. rewrite (wf_chips m W) in He.
    apply in_map_iff in He as (c & <- & _). reflexivity. }
  assert (CL : closed m).
  { intros [x y] o l Ho Hl. unfold lk in Hl.
    destruct (dget xy_eqb (m_chips m) (x, y)) as [c|] eqn:EC; [|discriminate].
    apply (dmem_in xy_eqb xyeqb_eq). exact (LC x y c o l EC Ho Hl). }
  destruct (mend_loop (S (owl_size (List.length (chips m)) OwlNew)) m OwlNew (Nat.lt_succ_diag_r _)
    T CL I I (incl_refl _)) as (m' & mended & F & O1 & O2 & O3 & O4 & O5).
  exists m', mended. split; [exact F|]. split.
  { intros m'' x l F'. exact (for_loop_one _ _ _ _ _ _ _ F _ _ _ F'). }
  split; [exact O1|]. split; [exact O2|]. split; [exact O3|]. split; [exact O4|].
  intros x y i l. change (link_from m' x y i) with (lk m' (x, y) i).
  change (link_from m x y i) with (lk m (x, y) i). rewrite O5. cbn [fst snd].
  split; (intros [H|(a & b & o & l0 & H1 & H2 & H3)]; [left; exact H|right; exists a, b, o, l0]).
  - unfold dest in H3. destruct H3 as [H3 H4]. split; [exact H1|]. split; [exact H2|].
    split; [congruence|]. split; [congruence|exact H4].
  - destruct H3 as (H3 & H4 & H5). split; [exact H1|]. split; [exact H2|].
    split; [unfold dest; congruence|exact H5].
Qed.
Print Assumptions C98_mend_loop.

(** ** Cases *)
Definition iter_chip (x y : Z) (ip : option string) (links : list link) : chip :=
  mkChip x y [0] [1; 2; 3] (mkRouter (map (fun l => (l_source_link_id l, l)) links) 1023)
    117 0 0 ip [] None.
Definition iter_machine : machine :=
  fst (add_chips (new_machine NoWrap 8 8 (chip_core_map V5) "Test")
    [iter_chip 0 0 (Some "1.2.3.4"%string) [mkLink 0 0 0 1 0; mkLink 0 0 2 0 1];
     iter_chip 1 1 None [mkLink 1 1 0 2 1]]).

Example C98_case :
  (* a rejected chip changes nothing, an added one stops the iterator for good *)
  answers grow_machine coordinates_next iter_machine (coordinates_iter iter_machine)
    [Next; Change (AddChip (iter_chip 1 1 None [])); Next; Change (AddChip (iter_chip 1 0 None [])); Next; Next] =
    [Gives (0, 0); Gives (1, 1); Raises RuntimeErr; Raises RuntimeErr] /\
  (* unless it was at its end before *)
  answers grow_machine coordinates_next iter_machine (coordinates_iter iter_machine)
    [Next; Next; Next; Change (AddChip (iter_chip 1 0 None [])); Next] =
    [Gives (0, 0); Gives (1, 1); Stops; Stops] /\
  answers router_add_link link_items_next (c_router (iter_chip 0 0 None [mkLink 0 0 0 1 0]))
    (link_items_iter (c_router (iter_chip 0 0 None [mkLink 0 0 0 1 0])))
    [Next; Change (mkLink 0 0 0 5 5); Change (mkLink 0 0 1 1 1); Next] =
    [Gives (0, mkLink 0 0 0 1 0); Raises RuntimeErr] /\
  (* the list of the Ethernet chips grows under its iterator *)
  answers grow_machine eth_next iter_machine (eth_iter iter_machine)
    [Next; Change (AddChip (iter_chip 4 0 (Some "1.2.3.5"%string) [])); Next; Next;
     Change (AddChip (iter_chip 5 0 (Some "1.2.3.6"%string) [])); Next] =
    [Gives (iter_chip 0 0 (Some "1.2.3.4"%string) [mkLink 0 0 0 1 0; mkLink 0 0 2 0 1]);
     Gives (iter_chip 4 0 (Some "1.2.3.5"%string) []); Stops; Stops] /\
  (* a chip behind the place reached is given, one before it is not *)
  answers grow_machine (existing_next 0 0) iter_machine (board_iter iter_machine)
    [Next; Next; Change (AddChip (iter_chip 0 1 None [])); Change (AddChip (iter_chip 2 2 None [])); Next; Next] =
    [Gives (0, 0); Gives (1, 1); Gives (2, 2); Stops] /\
  m_existing iter_machine 0 0 = [(0, 0); (1, 1)].
Proof. vm_compute. repeat split. Qed.

Example C98_one_way_case :
  one_way_links iter_machine = [(0, 0, 0, 3); (0, 0, 2, 5); (1, 1, 0, 3)] /\
  answers grow_machine owl_next iter_machine OwlNew [Next; Next; Next; Next; Next] =
    [Gives (0, 0, 0, 3); Gives (0, 0, 2, 5); Gives (1, 1, 0, 3); Stops; Stops] /\
  (* a chip before the first next() has its links among them *)
  answers grow_machine owl_next iter_machine OwlNew
    [Change (AddChip (iter_chip 1 0 None [mkLink 1 0 3 0 0])); Next; Next; Next] =
    [Gives (0, 0, 2, 5); Gives (1, 1, 0, 3); Stops] /\
  (* a chip that comes later ends it, after the links of the chip it is at *)
  answers grow_machine owl_next iter_machine OwlNew
    [Next; Change (AddChip (iter_chip 7 7 None [])); Next; Next; Next] =
    [Gives (0, 0, 0, 3); Gives (0, 0, 2, 5); Raises RuntimeErr; Stops] /\
  (* it can make a link of that chip two-way *)
  answers grow_machine owl_next iter_machine OwlNew
    [Next; Change (AddChip (iter_chip 0 1 None [mkLink 0 1 5 0 0])); Next; Next] =
    [Gives (0, 0, 0, 3); Raises RuntimeErr; Stops].
Proof. vm_compute. repeat split. Qed.

Example C98_loop_case :
  (forall p, c_xy (iter_chip (fst p) (snd p) None []) = p) /\
  List.length (m_down iter_machine 0 0) = 46%nat /\
  (exists m' , for_loop (down_next 0 0) (fun o p => add_chip o (iter_chip (fst p) (snd p) None []))
     iter_machine (board_iter iter_machine) m' None (m_down iter_machine 0 0) /\ n_chips m' = 48) /\
  exists m', add_chip iter_machine (iter_chip 1 0 None []) = Ok m' /\
    for_loop chips_next (fun o c => add_chip o (iter_chip (c_x c + 1) (c_y c) None []))
      iter_machine (chips_iter iter_machine) m' (Some RuntimeErr) [hd (iter_chip 9 9 None []) (chips iter_machine)].
Proof.
  split; [intros [x y]; reflexivity|]. split; [vm_compute; reflexivity|]. split.
  - eexists. split.
    + set (ds := m_down iter_machine 0 0). vm_compute in ds. subst ds.
        repeat (eapply for_goes_on; [vm_compute; reflexivity|vm_compute; reflexivity|]).
        eapply for_ends. vm_compute. reflexivity.
    + vm_compute. reflexivity.
  - eexists. split; [reflexivity|].
    apply (C98_adding_in_a_loop iter_machine _ (iter_chip 0 0 (Some "1.2.3.4"%string)
      [mkLink 0 0 0 1 0; mkLink 0 0 2 0 1]) [iter_chip 1 1 None [mkLink 1 1 0 2 1]]
      (iter_chip 1 0 None []) _ eq_refl eq_refl eq_refl). auto.
Qed.

(** Three chips with two links, both one-way; the second is added back while the
    generator still runs. *)
Definition mend_machine : machine :=
  fst (history V5 (new_machine NoWrap 8 8 (chip_core_map V5) "Test")
    [CallAddChips [iter_chip 0 0 (Some "1.2.3.4"%string) [mkLink 0 0 0 1 0];
                   iter_chip 1 0 None [mkLink 1 0 2 1 1]; iter_chip 1 1 None []]]).

Example C98_mend_case :
  made V5 mend_machine /\ links_lead_to_chips mend_machine /\
  one_way_links mend_machine = [(0, 0, 0, 3); (1, 0, 2, 5)] /\
  exists m', for_loop owl_next mend mend_machine OwlNew m' None [(0, 0, 0, 3); (1, 0, 2, 5)] /\
    one_way_links m' = [] /\ link_from m' 1 0 3 = Some (mkLink 1 0 3 0 0) /\
    link_from m' 1 1 5 = Some (mkLink 1 1 5 1 0).
Proof.
  split; [unfold made, mend_machine; eauto 8|]. split.
  { intros x y c out l HC Ho HL.
    assert (HC' : In ((x, y), c) (m_chips mend_machine))
      by (apply (dget_some_in xy_eqb xyeqb_eq); exact HC).
    vm_compute in HC'. destruct HC' as [H|[H|[H|[]]]]; inversion H; subst; clear H HC;
      apply (dget_some_in Z.eqb Z.eqb_eq) in HL; cbn in HL.
    - destruct HL as [H|[]]. inversion H; subst. vm_compute. reflexivity.
    - destruct HL as [H|[]]. inversion H; subst. vm_compute. reflexivity.
    - destruct HL. }
  split; [vm_compute; reflexivity|].
  eexists. split.
  - repeat (eapply for_goes_on; [vm_compute; reflexivity|vm_compute; reflexivity|]).
    eapply for_ends. vm_compute. reflexivity.
  - vm_compute. repeat split.
Qed.
