(** Reading a description does what the description says, and nothing else is read. *)
From Coq Require Import Sorted Lia.
From Verif Require Import Model_Py Model_Wrap Model_Version Model_Core Model_Machine Model_Str Model_Json.
From Verif Require Import Spec_Str Spec_Machine Spec_Repair Spec_Version Spec_Json Spec_JsonRead Model_Decimal Spec_Decimal Proof_Decimal.
From Verif Require Import Proof_RepairEnd Proof_Py Proof_Wrap Proof_Board Proof_Version Proof_Machine Proof_Links Proof_Str Proof_Repair Proof_Json.
Open Scope list_scope.
Open Scope Z_scope.

Lemma jget_has d k v : jget d k = Ok v <-> has d k v.
Proof. unfold jget, dgetitem, has. destruct (dget _ d k); split; congruence. Qed.

Lemma j_int_says v n : j_int v = Ok n <-> says_int v n.
Proof.
  split.
  - destruct v as [|[|]| |s| | |]; cbn [j_int]; intros H; try discriminate; try (apply Ok_inj in H; subst; constructor).
    constructor. apply py_int_spec. auto.
  - intros H. inversion H; subst; cbn [j_int]; auto. apply py_int_spec. auto.
Qed.

Lemma j_ints_says l : forall ts, map_res j_int l = Ok ts <-> Forall2 says_int l ts.
Proof.
  induction l as [|a l IH]; intros ts; cbn [map_res].
  - split; intros H; [apply Ok_inj in H; subst; constructor|inversion H; auto].
  - split; intros H.
    + apply bind_ok in H as (b & B & H). apply bind_ok in H as (bs & Bs & H). apply Ok_inj in H. subst.
      constructor; [apply j_int_says; auto|apply IH; auto].
    + inversion H as [|? b ? bs H1 H2]; subst. apply j_int_says in H1. apply IH in H2. rewrite H1. cbn [bind].
      rewrite H2. reflexivity.
Qed.

Lemma j_eq_equals v n : j_eq_int n v = true <-> equals v n.
Proof.
  unfold equals. destruct v as [|[|]|m| | | |f]; cbn [j_eq_int]; try rewrite Z.eqb_eq; try rewrite whole_spec;
    (split; [intros H; subst; auto; try discriminate; eauto 6|
       intros [H|[[H1 H2]|[[H1 H2]|(f' & H1 & H2)]]]; try discriminate; subst; auto; try congruence]).
Qed.

Lemma j_ary_arr v l : j_ary v = Ok l <-> v = JArr l.
Proof. destruct v; cbn; split; congruence. Qed.
Lemma j_obj_obj v l : j_obj v = Ok l <-> v = JObj l.
Proof.
  destruct v; cbn [j_obj]; split; intros H; try discriminate; [apply Ok_inj in H; subst; auto|].
  injection H as ->. reflexivity.
Qed.
Lemma j_str_str v l : j_str v = Ok l <-> v = JStr l.
Proof. destruct v; cbn; split; congruence. Qed.

Definition quad : Type := (json * Z * Z * list json)%type.

(** The resources of a kind and what [j_resources] makes of them. *)
Definition res_says (r : jobject) (s : quad) : Prop :=
  let '(mon, en, sd, tg) := s in
  has r "monitors" mon /\ (exists v, has r "routerEntries" v /\ says_int v en) /\
  (exists v, has r "sdram" v /\ says_int v sd) /\ has r "tags" (JArr tg).

Lemma j_resources_says r s : j_resources r = Ok s <-> res_says r s.
Proof.
  unfold j_resources. destruct s as [[[mon en] sd] tg]. cbn [res_says]. split.
  - intros H. apply bind_ok in H as (m & M & H). apply bind_ok in H as (e & E & H).
    apply bind_ok in H as (d & D & H). apply bind_ok in H as (t & T & H). apply Ok_inj in H.
    injection H as -> -> -> ->.
    apply bind_ok in E as (e' & E1 & E2). apply bind_ok in D as (d' & D1 & D2). apply bind_ok in T as (t' & T1 & T2).
    apply jget_has in M, E1, D1, T1. apply j_int_says in E2, D2. apply j_ary_arr in T2. subst t'. eauto 8.
  - intros (M & (e & E1 & E2) & (d & D1 & D2) & T).
    apply jget_has in M, E1, D1, T. apply j_int_says in E2, D2.
    rewrite M. cbn [bind]. rewrite E1. cbn [bind]. rewrite E2. cbn [bind]. rewrite D1. cbn [bind]. rewrite D2.
    cbn [bind]. rewrite T. reflexivity.
Qed.

Lemma resources_some o kind r : resources o kind r <-> has o kind (JObj r) /\ exists s, res_says r s.
Proof.
  unfold resources. split.
  - intros (H & (m & M) & (e & en & E1 & E2) & (d & sd & D1 & D2) & (tg & T)). split; auto.
    exists (m, en, sd, tg). cbn [res_says]. eauto 8.
  - intros (H & [[[m en] sd] tg] & M & (e & E1 & E2) & (d & D1 & D2) & T). split; [auto|]. split; [eauto|].
    split; [eauto|]. split; eauto.
Qed.

(** The exceptions. *)
Definition set_says (ex r : jobject) (s : quad) : Prop :=
  let '(mon, en, sd, tg) := s in
  setting ex r "monitors" mon /\ (exists v, setting ex r "routerEntries" v /\ says_int v en) /\
  (exists v, setting ex r "sdram" v /\ says_int v sd) /\ setting ex r "tags" (JArr tg).

Lemma no_exceptions r s : res_says r s -> set_says [] r s.
Proof.
  destruct s as [[[mon en] sd] tg]. cbn [res_says set_says].
  intros (M & (e & E1 & E2) & (d & D1 & D2) & T).
  assert (forall key v, has r key v -> setting [] r key v) as L by (intros; right; split; [reflexivity|auto]).
  split; [auto|]. split; [eauto|]. split; eauto.
Qed.

Lemma no_exceptions_inv r s : set_says [] r s -> res_says r s.
Proof.
  destruct s as [[[mon en] sd] tg]. cbn [res_says set_says]. unfold setting.
  assert (forall key v, ~ has [] key v) as L by (intros key v; unfold has; discriminate).
  intros ([M|[_ M]] & (e & [E1|[_ E1]] & E2) & (d & [D1|[_ D1]] & D2) & [T|[_ T]]);
    try solve [exfalso; eapply L; eauto]. split; [auto|]. split; [eauto|]. split; eauto.
Qed.

Lemma j_exceptions_says ex r s s' : res_says r s -> (j_exceptions ex s = Ok s' <-> set_says ex r s').
Proof.
  destruct s as [[[mon en] sd] tg], s' as [[[mon' en'] sd'] tg'].
  cbn [res_says set_says j_exceptions]. intros (M & (e & E1 & E2) & (d & D1 & D2) & T).
  unfold setting, has, lacks in *. split.
  - intros H. apply bind_ok in H as (en1 & E & H). apply bind_ok in H as (sd1 & D & H).
    apply bind_ok in H as (tg1 & G & H). apply Ok_inj in H. injection H as <- <- <- <-.
    split; [|split; [|split]].
    + destruct (dget _ ex "monitors"); auto.
    + destruct (dget _ ex "routerEntries") as [v|].
      * exists v. split; auto. apply j_int_says; auto.
      * apply Ok_inj in E. subst. eauto.
    + destruct (dget _ ex "sdram") as [v|].
      * exists v. split; auto. apply j_int_says; auto.
      * apply Ok_inj in D. subst. eauto.
    + destruct (dget _ ex "tags") as [v|].
      * apply j_ary_arr in G. subst. auto.
      * apply Ok_inj in G. subst. auto.
  - intros (M' & (e' & E1' & E2') & (d' & D1' & D2') & T').
    assert (match dget String.eqb ex "routerEntries" with Some v => j_int v | None => Ok en end = Ok en') as ->.
    { destruct E1' as [->|[-> E1']]; [apply j_int_says; auto|].
      assert (e' = e) as -> by congruence. apply j_int_says in E2, E2'. congruence. }
    assert (match dget String.eqb ex "sdram" with Some v => j_int v | None => Ok sd end = Ok sd') as ->.
    { destruct D1' as [->|[-> D1']]; [apply j_int_says; auto|].
      assert (d' = d) as -> by congruence. apply j_int_says in D2, D2'. congruence. }
    assert (match dget String.eqb ex "tags" with Some v => j_ary v | None => Ok tg end = Ok tg') as ->.
    { destruct T' as [->|[-> T']]; [reflexivity|]. congruence. }
    cbn [bind]. repeat f_equal. destruct M' as [->|[-> M']]; congruence.
Qed.

(** The links. *)
Definition dead_in (dd : list json) (l : Z) : Prop := exists v, In v dd /\ equals v l.

Lemma dead_in_dec dd l : existsb (j_eq_int l) dd = true <-> dead_in dd l.
Proof.
  rewrite existsb_exists. unfold dead_in. split; intros (v & I & E); exists v; (split; [auto|]); apply j_eq_equals; auto.
Qed.

Definition link_over (k : wrap) (w h x y l : Z) : link :=
  match xy_over_link k w h x y l with Ok (dx, dy) => mkLink x y l dx dy | Err _ => mkLink x y l 0 0 end.

Definition alive (dd : list json) : list Z := filter (fun l => negb (existsb (j_eq_int l) dd)) (zrange 0 6).

Lemma links_fold m x y dd : forall ids acc, (forall l, In l ids -> 0 <= l < 6) ->
  fold_res (fun links l =>
      if existsb (j_eq_int l) dd then Ok links
      else do (dx, dy) <- m_over m x y l ; Ok (links ++ [mkLink x y l dx dy])) ids acc =
  Ok (acc ++ map (link_over (m_kind m) (m_width m) (m_height m) x y)
               (filter (fun l => negb (existsb (j_eq_int l) dd)) ids)).
Proof.
  induction ids as [|i ids IH]; intros acc R; cbn [fold_res filter map].
  - rewrite app_nil_r. reflexivity.
  - destruct (existsb (j_eq_int i) dd); cbn [negb bind].
    + apply IH. intros; apply R; right; auto.
    + destruct (over_six (m_kind m) (m_width m) (m_height m) x y i) as [[dx dy] Q]; [apply R; left; auto|].
      unfold m_over at 1. rewrite Q. cbn [bind map]. rewrite IH by (intros; apply R; right; auto).
      rewrite <- app_assoc. unfold link_over at 2. rewrite Q. reflexivity.
Qed.

Lemma link_over_id k w h x y l : l_source_link_id (link_over k w h x y l) = l.
Proof. unfold link_over. destruct (xy_over_link _ _ _ _ _ _) as [[dx dy]|]; reflexivity. Qed.

Lemma sorted_filter (P : Z -> bool) l : StronglySorted Z.lt l -> StronglySorted Z.lt (filter P l).
Proof.
  induction 1 as [|a l S IH F]; cbn [filter]; [constructor|]. destruct (P a); auto. constructor; auto.
  rewrite Forall_forall in *. intros b Hb. apply filter_In in Hb. apply F. tauto.
Qed.

Lemma six_sorted : StronglySorted Z.lt (zrange 0 6).
Proof. vm_compute. repeat (constructor; [|repeat (constructor; [reflexivity|]); constructor]). constructor. Qed.

Lemma alive_sorted dd : StronglySorted Z.lt (alive dd).
Proof. apply sorted_filter, six_sorted. Qed.

Lemma alive_in dd l : In l (alive dd) <-> 0 <= l < 6 /\ ~ dead_in dd l.
Proof.
  unfold alive. rewrite filter_In, in_zrange, Bool.negb_true_iff, <- dead_in_dec.
  destruct (existsb _ dd); intuition congruence.
Qed.

Lemma sorted_unique a : forall b, StronglySorted Z.lt a -> StronglySorted Z.lt b ->
  (forall l, In l a <-> In l b) -> a = b.
Proof.
  induction a as [|x a IH]; intros [|y b] Sa Sb H; auto.
  - destruct (proj2 (H y)). left; auto.
  - destruct (proj1 (H x)). left; auto.
  - inversion Sa as [|? ? Sa1 Fa]; inversion Sb as [|? ? Sb1 Fb]; subst. rewrite Forall_forall in Fa, Fb.
    assert (x = y) as ->.
    { destruct (proj1 (H x)) as [E|I]; [left; auto|auto|]. destruct (proj2 (H y)) as [E|J]; [left; auto|auto|].
      apply Fb in I. apply Fa in J. lia. }
    f_equal. apply IH; auto. intros l. split; intros I.
    + destruct (proj1 (H l)) as [E|J]; [right; auto| |auto]. subst. apply Fa in I. lia.
    + destruct (proj2 (H l)) as [E|J]; [right; auto| |auto]. subst. apply Fb in I. lia.
Qed.

Lemma entries_of_live k w h x y live : (forall l, In l live -> 0 <= l < 6) -> forall es,
  Forall2 (fun l entry => exists dx dy, xy_over_link k w h x y l = Ok (dx, dy) /\
                  entry = (l, mkLink x y l dx dy)) live es <->
  es = map (fun a => (l_source_link_id a, a)) (map (link_over k w h x y) live).
Proof.
  induction live as [|l live IH]; intros R es; cbn [map].
  - split; intros H; [inversion H; auto|subst; constructor].
  - assert (forall l, In l live -> 0 <= l < 6) as R' by (intros; apply R; right; auto).
    destruct (over_six k w h x y l) as [[dx dy] Q]; [apply R; left; auto|]. split; intros H.
    + inversion H as [|? e ? es' (dx' & dy' & Q' & E) H2]; subst. apply IH in H2; auto. subst es'.
      rewrite Q in Q'. apply Ok_inj in Q'. injection Q' as <- <-. rewrite link_over_id. unfold link_over at 2.
      rewrite Q. reflexivity.
    + subst es. constructor; [|apply IH; auto]. exists dx, dy. split; auto.
      rewrite link_over_id. unfold link_over. rewrite Q. reflexivity.
Qed.

Lemma nodup_sorted l : StronglySorted Z.lt l -> NoDup l.
Proof.
  induction 1 as [|a l S IH F]; constructor; auto. rewrite Forall_forall in F. intros I. apply F in I. lia.
Qed.

(** ** One chip *)
Definition dead_list (details : jobject) (dd : list json) : Prop :=
  has details "deadLinks" (JArr dd) \/ (lacks details "deadLinks" /\ dd = []).

Lemma dead_list_link details dd l : dead_list details dd -> (dead_link details l <-> dead_in dd l).
Proof.
  unfold dead_link, dead_in. intros [H|[H ->]].
  - split; [intros (a & v & A & B)|intros (v & B); eauto]. unfold has in *. assert (a = dd) by congruence. subst; eauto.
  - unfold has, lacks in *. split; [intros (a & v & A & B); congruence|intros (v & [] & _)].
Qed.

Lemma py_index_cons {A} (a : A) l i : 0 < i -> py_index (a :: l) i = py_index l (i - 1).
Proof.
  intros P. unfold py_index. cbn [List.length].
  replace (i <? 0) with false by (symmetry; apply Z.ltb_ge; lia).
  replace (i - 1 <? 0) with false by (symmetry; apply Z.ltb_ge; lia).
  replace (i <? 0) with false by (symmetry; apply Z.ltb_ge; lia).
  replace (i - 1 <? 0) with false by (symmetry; apply Z.ltb_ge; lia). cbn [orb].
  replace (Z.of_nat (S (List.length l)) <=? i) with (Z.of_nat (List.length l) <=? i - 1).
  2:{ destruct (Z.leb_spec (Z.of_nat (List.length l)) (i - 1)), (Z.leb_spec (Z.of_nat (S (List.length l))) i); lia. }
  destruct (_ <=? _); auto. replace (Z.to_nat i) with (S (Z.to_nat (i - 1))) by lia. reflexivity.
Qed.
Lemma py_index_zero {A} (a : A) l : py_index (a :: l) 0 = Ok a.
Proof. unfold py_index. cbn [List.length]. reflexivity. Qed.

Lemma item_shape j d : (do d <- py_index j 2 ; j_obj d) = Ok d ->
  exists jx jy more, j = jx :: jy :: JObj d :: more.
Proof.
  intros H. apply bind_ok in H as (v & I & H). apply j_obj_obj in H. subst v.
  destruct j as [|jx [|jy [|a more]]]; try discriminate I.
  rewrite !py_index_cons in I by lia. rewrite py_index_zero in I. apply Ok_inj in I. subst. eauto.
Qed.

Section Chip.
  Context (o : jobject) (rs re : jobject) (std eth : json * Z * Z * list json).
  Context (Hs : has o "standardResources" (JObj rs)) (Ss : res_says rs std).
  Context (He : has o "ethernetResources" (JObj re)) (Se : res_says re eth).

  Lemma j_chip_iff m item m' : j_chip m std eth item = Ok m' <->
    exists ch, chip_says (m_kind m) (m_width m) (m_height m) o item ch /\ add_chip m ch = Ok m'.
  Proof using Hs Ss He Se.
    split.
    - unfold j_chip. intros E.
      apply bind_ok in E as (j & J & E). apply j_ary_arr in J. subst item.
      apply bind_ok in E as (details & D & E). apply item_shape in D as (jx & jy & more & ->).
      rewrite py_index_zero in E. cbn [bind] in E. rewrite (py_index_cons jx) in E by lia.
      change (1 - 1) with 0 in E. rewrite py_index_zero in E. cbn [bind] in E.
      apply bind_ok in E as (x & X & E). apply bind_ok in E as (y & Y & E).
      apply bind_ok in E as (board & B & E). apply bind_ok in B as (jb & B1 & B2).
      apply j_ary_arr in B2. subst jb.
      destruct board as [|bx [|by_ [|? ?]]]; try discriminate.
      apply bind_ok in E as ([ip s] & IP & E). apply bind_ok in E as ([[[mon en] sd] tg] & EX & E).
      destruct (j_eq_int 1 mon) eqn:Mon; [|discriminate]. cbn [negb] in E.
      apply bind_ok in E as (dd & DD & E). apply bind_ok in E as (links & L & E).
      rewrite links_fold in L by (intros l Hl; apply in_zrange in Hl; auto). apply Ok_inj in L.
      cbn [app] in L. fold (alive dd) in L.
      assert (NoDup (map l_source_link_id links)) as N.
      { subst links. rewrite map_map, (map_ext _ (fun l => l)) by (intros; apply link_over_id). rewrite map_id.
        apply nodup_sorted, alive_sorted. }
      rewrite (router_of_links links en N) in E. cbn [bind] in E.
      apply bind_ok in E as (n & NC & E). apply bind_ok in NC as (jn & N1 & N2).
      apply bind_ok in E as (ex & EXX & E). apply bind_ok in E as (ey & EY & E).
      apply bind_ok in E as (tags & T & E).
      eexists. split; [|exact E].
      assert (exists r, ((exists a, has details "ipAddress" (JStr a) /\ ip = Some a /\ resources o "ethernetResources" r) \/
         (lacks details "ipAddress" /\ ip = None /\ resources o "standardResources" r)) /\ res_says r s) as (r & IPR & RS).
      { unfold has, lacks in *. destruct (dget _ details "ipAddress") as [a|].
        - apply bind_ok in IP as (t & A & IP). apply j_str_str in A. subst a. apply Ok_inj in IP.
          injection IP as <- <-. exists re. split; auto. left. exists t. split; [reflexivity|]. split; [reflexivity|].
          apply resources_some. split; [assumption|eexists; eassumption].
        - apply Ok_inj in IP. injection IP as <- <-. exists rs. split; auto. right. split; [reflexivity|]. split; [reflexivity|].
          apply resources_some. split; [assumption|eexists; eassumption]. }
      assert (exists exc, (more = [] /\ exc = [] \/ exists more', more = JObj exc :: more') /\
        set_says exc r (mon, en, sd, tg)) as (exc & MORE & SET).
      { destruct more as [|e more].
        - cbn [List.length] in EX. change (Z.of_nat 3 >? 3) with false in EX. cbn iota in EX.
          apply Ok_inj in EX. subst s. exists []. split; auto. apply no_exceptions; auto.
        - replace (Z.of_nat (List.length (jx :: jy :: JObj details :: e :: more)) >? 3) with true in EX.
          2:{ symmetry. apply Z.gtb_lt. cbn [List.length]. lia. }
          apply bind_ok in EX as (exc & X1 & X2). rewrite !py_index_cons in X1 by lia.
          change (3 - 1 - 1 - 1) with 0 in X1. rewrite py_index_zero in X1. cbn [bind] in X1.
          apply j_obj_obj in X1. subst e. exists exc. split; [right; eauto|].
          eapply j_exceptions_says; eauto. }
      assert (dead_list details dd) as DL.
      { unfold dead_list, has, lacks. destruct (dget _ details "deadLinks") as [a|].
        - apply j_ary_arr in DD. subst; auto.
        - apply Ok_inj in DD. subst; auto. }
      exists jx, jy, details, more, exc, r. cbn [new_chip c_x c_y c_eth_x c_eth_y c_ip c_router r_entries c_sdram c_tags c_scamp c_placable r_links c_parent].
      cbn [set_says] in SET. destruct SET as (S1 & S2 & S3 & S4).
      apply jget_has in B1, N1. apply j_int_says in X, Y, N2, EXX, EY. apply j_ints_says in T.
      split; [reflexivity|]. split; [exact MORE|]. split; [exact X|]. split; [exact Y|].
      split; [eauto 8|]. split; [exact IPR|]. split; [exists mon; split; auto; apply j_eq_equals; auto|].
      split; [exact S2|]. split; [exact S3|]. split; [exists tg, tags; auto|].
      split; [exists jn, n; auto|]. split.
      { destruct DL as [DL|[DL _]]; eauto. }
      split; [|reflexivity]. exists (alive dd). split; [apply alive_sorted|]. split.
      { intros l. rewrite alive_in, (dead_list_link details dd l DL). reflexivity. }
      apply entries_of_live; [|congruence]. intros l Hl. apply alive_in in Hl. tauto.
    - intros (ch & (jx & jy & details & more & exc & r & -> & MORE & X & Y & (jex & jey & ETH & EX & EY) &
        IP & (mon & M1 & M2) & (en & EN1 & EN2) & (sd & SD1 & SD2) & (tg & ts & T1 & T2 & T3) &
        (jn & n & N1 & N2 & SC & PL) & DLK & (live & LS & LI & LE) & PAR) & A).
      unfold j_chip. cbn [j_ary bind].
      rewrite (py_index_cons jx _ 2) by lia. rewrite (py_index_cons jy _ (2 - 1)) by lia.
      change (2 - 1 - 1) with 0. rewrite py_index_zero. cbn [bind j_obj].
      rewrite py_index_zero. cbn [bind]. rewrite (py_index_cons jx _ 1) by lia. change (1 - 1) with 0.
      rewrite py_index_zero. cbn [bind].
      apply jget_has in ETH, N1. apply j_int_says in X, Y, EX, EY, N2. apply j_ints_says in T2.
      rewrite X, Y. cbn [bind]. rewrite ETH. cbn [bind j_ary].
      assert (exists s : json * Z * Z * list json, res_says r s /\ match dget String.eqb details "ipAddress" with
                    | Some a => do a <- j_str a ; Ok (Some a, eth)
                    | None => Ok (None, std) end = Ok (c_ip ch, s)) as (s & RS & ->).
      { unfold has, lacks in IP. destruct IP as [(ip & -> & -> & R)|(-> & -> & R)];
          apply resources_some in R as [R _]; unfold has in *.
        - cbn [j_str bind]. exists eth. split; [congruence|auto].
        - exists std. split; [congruence|auto]. }
      cbn [bind].
      assert (set_says exc r (mon, r_entries (c_router ch), c_sdram ch, tg)) as SET by (cbn [set_says]; eauto 8).
      assert ((if Z.of_nat (List.length (jx :: jy :: JObj details :: more)) >? 3
         then do e <- (do a <- py_index (jx :: jy :: JObj details :: more) 3 ; j_obj a) ; j_exceptions e s
         else Ok s) = Ok (mon, r_entries (c_router ch), c_sdram ch, tg)) as ->.
      { destruct MORE as [[-> ->]|[more' ->]].
        - cbn [List.length]. change (Z.of_nat 3 >? 3) with false. cbn iota.
          apply no_exceptions_inv in SET. apply j_resources_says in SET, RS. congruence.
        - replace (Z.of_nat (List.length (jx :: jy :: JObj details :: JObj exc :: more')) >? 3) with true.
          2:{ symmetry. apply Z.gtb_lt. cbn [List.length]. lia. }
          rewrite !py_index_cons by lia. change (3 - 1 - 1 - 1) with 0. rewrite py_index_zero. cbn [bind j_obj].
          apply (j_exceptions_says exc r s); auto. }
      cbn [bind]. apply j_eq_equals in M2. rewrite M2. cbn [negb].
      assert (exists dd, dead_list details dd /\ match dget String.eqb details "deadLinks" with
                   | Some a => j_ary a | None => Ok [] end = Ok dd) as (dd & DL & ->).
      { unfold dead_list, has, lacks in *. destruct DLK as [K|[dd K]]; rewrite K; eauto. }
      cbn [bind]. rewrite links_fold by (intros l Hl; apply in_zrange in Hl; auto). fold (alive dd). cbn [bind app].
      assert (live = alive dd) as ->.
      { apply sorted_unique; auto; [apply alive_sorted|]. intros l. rewrite LI, alive_in, (dead_list_link details dd l DL). reflexivity. }
      apply entries_of_live in LE; [|intros l Hl; apply alive_in in Hl; tauto].
      rewrite router_of_links.
      2:{ rewrite map_map, (map_ext _ (fun l => l)) by (intros; apply link_over_id). rewrite map_id.
          apply nodup_sorted, alive_sorted. }
      rewrite <- LE. cbn [bind]. rewrite N1. cbn [bind]. rewrite N2. cbn [bind]. rewrite EX, EY. cbn [bind].
      rewrite T2. cbn [bind]. rewrite <- A. f_equal.
      unfold new_chip. rewrite <- SC, <- PL, <- T3, <- PAR. destruct ch; cbn. match goal with |- context [mkRouter (r_links ?r)] => destruct r; reflexivity end.
  Qed.

  Lemma chips_iff v items : forall m m', wf m ->
    (fold_res (fun m aj => j_chip m std eth aj) items m = Ok m' <->
     exists chs, Forall2 (chip_says (m_kind m) (m_width m) (m_height m) o) items chs /\
       NoDup (map c_xy (chips m ++ chs)) /\ fst (history v m (map CallAddChip chs)) = m').
  Proof using Hs Ss He Se.
    assert (forall m, wf m -> dkeys (m_chips m) = map c_xy (chips m)) as KX.
    { intros m W. unfold dkeys. rewrite (wf_chips m W) at 1. rewrite map_map. reflexivity. }
    induction items as [|item items IH]; intros m m' W; cbn [fold_res].
    - split; intros H.
      + apply Ok_inj in H. subst. exists []. rewrite app_nil_r. split; [constructor|]. split; [apply W|reflexivity].
      + destruct H as (chs & F & _ & <-). inversion F; subst. reflexivity.
    - split.
      + intros E. apply bind_ok in E as (m1 & E1 & E). apply j_chip_iff in E1 as (ch & S & A).
        pose proof (add_chip_wf m ch W) as AW. rewrite A in AW.
        destruct AW as (W' & C' & A1 & A2 & A3 & A4 & A5 & A6 & A7 & _).
        apply IH in E as (chs & F & N & H); auto. rewrite A1, A2, A3 in F. rewrite C', <- app_assoc in N. cbn [app] in N.
        exists (ch :: chs). split; [constructor; auto|]. split; auto. cbn [map history exec]. rewrite A.
        destruct (history v m1 _). exact H.
      + intros (chs & F & N & H). inversion F as [|? ch ? chs' S F']; subst.
        assert (exists m1, add_chip m ch = Ok m1) as [m1 A].
        { unfold add_chip. destruct (dmem xy_eqb (m_chips m) (c_xy ch)) eqn:D.
          - exfalso. apply (dmem_in xy_eqb xyeqb_eq) in D. rewrite map_app in N. cbn [map] in N.
            apply NoDup_remove_2 in N. apply N. apply in_or_app. left.
            rewrite <- (KX m W). exact D.
          - destruct (c_ip ch); eauto. }
        pose proof (add_chip_wf m ch W) as AW. rewrite A in AW.
        destruct AW as (W' & C' & A1 & A2 & A3 & A4 & A5 & A6 & A7 & _).
        assert (j_chip m std eth item = Ok m1) as -> by (apply j_chip_iff; eauto). cbn [bind].
        apply IH; auto. exists chs'. rewrite A1, A2, A3, C', <- app_assoc. split; auto. split; auto.
        cbn [map history exec]. rewrite A. destruct (history v m1 _). reflexivity.
  Qed.
End Chip.

Theorem from_json_iff v o m :
  machine_from_json v o = Ok m <->
  exists jw jh w h items chs,
    has o "width" jw /\ says_int jw w /\ has o "height" jh /\ says_int jh h /\
    supported v w h /\
    (exists rs, resources o "standardResources" rs) /\ (exists re, resources o "ethernetResources" re) /\
    has o "chips" (JArr items) /\
    Forall2 (chip_says (machine_class v w h) w h o) items chs /\
    NoDup (map c_xy chs) /\
    m = machine_of v w h "Json" chs.
Proof.
  split.
  - unfold machine_from_json. intros E.
    apply bind_ok in E as (w & Ew & E). apply bind_ok in Ew as (jw & Jw & Ew).
    apply bind_ok in E as (h & Eh & E). apply bind_ok in Eh as (jh & Jh & Eh).
    apply bind_ok in E as (m0 & E0 & E).
    apply bind_ok in E as (std & Estd & E). apply bind_ok in Estd as (js & Js & Estd). apply bind_ok in Estd as (rs & Jrs & Estd).
    apply bind_ok in E as (eth & Eeth & E). apply bind_ok in Eeth as (je & Je & Eeth). apply bind_ok in Eeth as (re & Jre & Eeth).
    apply bind_ok in E as (items & Ec & E). apply bind_ok in Ec as (jc & Jc & Ec).
    apply bind_ok in E as (m1 & E1 & E). apply bind_ok in E as (m2 & E2 & E3).
    apply jget_has in Jw, Jh, Js, Je, Jc. apply j_int_says in Ew, Eh. apply j_obj_obj in Jrs, Jre.
    apply j_ary_arr in Ec. subst js je jc. apply j_resources_says in Estd, Eeth.
    assert (supported v w h) as S.
    { unfold create_machine in E0. apply bind_ok in E0 as ([] & VS & _). apply verify_supported; auto. }
    rewrite create_some in E0 by auto. apply Ok_inj in E0. subst m0. cbn iota in E1.
    apply (chips_iff o rs re std eth Js Estd Je Eeth v) in E1; [|apply wf_new].
    destruct E1 as (chs & F & N & H).
    exists jw, jh, w, h, items, chs. repeat (split; [assumption|]).
    split; [exists rs; apply resources_some; eauto|]. split; [exists re; apply resources_some; eauto|].
    split; [auto|]. split; [exact F|]. split; [exact N|].
    unfold machine_of. rewrite history_app, H. cbn [history exec]. rewrite E2. cbn [history exec]. rewrite E3. reflexivity.
  - intros (jw & jh & w & h & items & chs & Jw & Ew & Jh & Eh & S & (rs & Rs) & (re & Re) & Jc & F & N & ->).
    apply resources_some in Rs as (Js & std & Ss). apply resources_some in Re as (Je & eth & Se).
    pose proof Js as Js'. pose proof Je as Je'. pose proof Ss as Ss'. pose proof Se as Se'.
    apply jget_has in Jw, Jh, Js, Je, Jc. apply j_int_says in Ew, Eh. apply j_resources_says in Ss, Se.
    unfold machine_from_json. rewrite Jw, Jh. cbn [bind]. rewrite Ew. cbn [bind]. rewrite Eh. cbn [bind].
    rewrite create_some by auto. cbn [bind]. rewrite Js. cbn [bind j_obj]. rewrite Ss. cbn [bind].
    rewrite Je. cbn [bind j_obj]. rewrite Se. cbn [bind]. rewrite Jc. cbn [bind j_ary].
    set (m0 := new_machine _ _ _ _ _).
    assert (exists m1, fold_res (fun m aj => j_chip m std eth aj) items m0 = Ok m1 /\
              fst (history v m0 (map CallAddChip chs)) = m1 /\ wf m1) as (m1 & -> & H & W1).
    { exists (fst (history v m0 (map CallAddChip chs))). split; [|split; [auto|]].
      2:{ pose proof (history_wf v (map CallAddChip chs) m0 (wf_new _ _ _ _ _)) as HW. destruct (history v m0 _). apply HW. }
      apply (chips_iff o rs re std eth Js' Ss' Je' Se' v); [apply wf_new|]. exists chs. split; [exact F|]. auto. }
    cbn [bind]. destruct (add_spin_same v m1 W1) as (m2 & E2 & S2). rewrite E2. cbn [bind].
    assert (wf m2) as W2 by (eapply same_wf; eauto).
    destruct (add_fpga_same v m2 W2) as (m3 & E3 & S3). rewrite E3.
    unfold machine_of. fold m0. rewrite history_app, H. cbn [history exec]. rewrite E2. cbn [history exec]. rewrite E3. reflexivity.
Qed.

(** ** Refusals *)
Definition refusal (e : exn) : Prop :=
  In e [KeyError; IndexError; ValueError; NotImplementedErr; AlreadyExists; MachineExc].
Definition tame {A} (r : res A) : Prop := forall e, r = Err e -> refusal e.

Lemma tame_ok {A} (a : A) : tame (Ok a).
Proof. intros e H. discriminate. Qed.
Lemma tame_bind {A B} (r : res A) (f : A -> res B) : tame r -> (forall a, r = Ok a -> tame (f a)) -> tame (bind r f).
Proof. intros R F. destruct r as [a|e]; cbn [bind]; auto. intros e' H. apply R. congruence. Qed.
Lemma tame_err {A} e : refusal e -> tame (@Err A e).
Proof. intros R e' H. congruence. Qed.
Lemma tame_fold {S A} (f : S -> A -> res S) (I : S -> Prop) : (forall s a, I s -> tame (f s a)) ->
  (forall s a s', I s -> f s a = Ok s' -> I s') -> forall l s, I s -> tame (fold_res f l s).
Proof.
  intros T P. induction l as [|a l IH]; intros s Is; cbn [fold_res]; [apply tame_ok|].
  apply tame_bind; [auto|]. intros s' E. apply IH. eauto.
Qed.
Lemma tame_int v : tame (j_int v).
Proof.
  destruct v; cbn [j_int]; try apply tame_ok; try (apply tame_err; cbn; tauto).
  intros e H. destruct (py_int_err s) as [[z E]|E]; rewrite E in H; [discriminate|]. injection H as <-. cbn; tauto.
Qed.
Lemma tame_map {A B} (f : A -> res B) l : (forall a, tame (f a)) -> tame (map_res f l).
Proof.
  intros T. induction l as [|a l IH]; cbn [map_res]; [apply tame_ok|].
  apply tame_bind; auto. intros b _. apply tame_bind; auto. intros bs _. apply tame_ok.
Qed.
Lemma tame_get d k : tame (jget d k).
Proof. unfold jget, dgetitem. destruct (dget _ _ _); [apply tame_ok|apply tame_err; cbn; tauto]. Qed.
Lemma tame_ary v : tame (j_ary v).
Proof. destruct v; cbn; (apply tame_ok || (apply tame_err; cbn; tauto)). Qed.
Lemma tame_obj v : tame (j_obj v).
Proof. destruct v; cbn; (apply tame_ok || (apply tame_err; cbn; tauto)). Qed.
Lemma tame_str v : tame (j_str v).
Proof. destruct v; cbn; (apply tame_ok || (apply tame_err; cbn; tauto)). Qed.
Lemma tame_index {A} (l : list A) i : tame (py_index l i).
Proof.
  unfold py_index. destruct (_ || _)%bool; [apply tame_err; cbn; tauto|].
  destruct (nth_error _ _); [apply tame_ok|apply tame_err; cbn; tauto].
Qed.
Lemma tame_resources r : tame (j_resources r).
Proof.
  unfold j_resources. repeat first [apply tame_ok | apply tame_get | apply tame_int | apply tame_ary | apply tame_bind; [|intros ? _]].
Qed.
Lemma tame_exceptions ex s : tame (j_exceptions ex s).
Proof.
  destruct s as [[[mon en] sd] tg]. unfold j_exceptions.
  repeat first [apply tame_ok | apply tame_int | apply tame_ary | apply tame_bind; [|intros ? _] |
    match goal with |- tame (match ?d with _ => _ end) => destruct d end].
Qed.
Lemma tame_add m ch : tame (add_chip m ch).
Proof.
  unfold add_chip. destruct (dmem _ _ _); [apply tame_err; cbn; tauto|]. destruct (c_ip ch); apply tame_ok.
Qed.
Lemma tame_router ls n : tame (new_router ls n).
Proof.
  unfold new_router. apply (tame_fold _ (fun _ => True)); auto. intros r l _. unfold router_add_link.
  destruct (dmem _ _ _); [apply tame_err; cbn; tauto|apply tame_ok].
Qed.
Lemma tame_chip m std eth item : tame (j_chip m std eth item).
Proof.
  unfold j_chip.
  repeat first [apply tame_ok | apply tame_get | apply tame_int | apply tame_ary | apply tame_obj | apply tame_str |
    apply tame_index | apply tame_add | apply tame_exceptions | (apply tame_map; apply tame_int) |
    (apply tame_err; cbn; tauto) |
    match goal with |- tame (fold_res _ (zrange 0 6) _) => rewrite links_fold by (intros l Hl; apply in_zrange in Hl; auto); apply tame_ok end |
    apply tame_bind; [|intros ? ?] |
    match goal with |- tame (match ?d with _ => _ end) => destruct d end |
    match goal with |- tame (let '(_, _) := ?d in _) => destruct d end].
  all: try (apply tame_router).
  all: match goal with |- tame (m_over ?m ?x ?y ?l) =>
    destruct (over_six (m_kind m) (m_width m) (m_height m) x y l) as [q Q]; [lia|]; unfold m_over; rewrite Q; apply tame_ok end.
Qed.

Theorem from_json_err v o e : machine_from_json v o = Err e -> refusal e.
Proof.
  revert e. fold (tame (machine_from_json v o)). unfold machine_from_json.
  apply tame_bind; [apply tame_bind; [apply tame_get|intros; apply tame_int]|intros w _].
  apply tame_bind; [apply tame_bind; [apply tame_get|intros; apply tame_int]|intros h _].
  apply tame_bind.
  { unfold create_machine. apply tame_bind; [|intros; apply tame_ok].
    intros e H. destruct (verify_raises v (Some w) (Some h)) as [E|E]; rewrite E in H; [discriminate|].
    injection H as <-. cbn; tauto. }
  intros m0 E0.
  assert (wf m0) as W0.
  { unfold create_machine in E0. apply bind_ok in E0 as (u & _ & E0). apply Ok_inj in E0. subst m0. apply wf_new. }
  apply tame_bind.
  { apply tame_bind; [apply tame_get|intros]. apply tame_bind; [apply tame_obj|intros; apply tame_resources]. }
  intros std _. apply tame_bind.
  { apply tame_bind; [apply tame_get|intros]. apply tame_bind; [apply tame_obj|intros; apply tame_resources]. }
  intros eth _. apply tame_bind; [apply tame_bind; [apply tame_get|intros; apply tame_ary]|intros items _].
  apply tame_bind; [apply (tame_fold _ (fun _ => True)); auto; intros; apply tame_chip|]. intros m1 E1.
  destruct (j_chips_read v _ _ _ _ _ W0 E1) as (chs & _ & _ & W1 & _).
  destruct (add_spin_same v m1 W1) as (m2 & E2 & S2). rewrite E2. cbn [bind].
  assert (wf m2) as W2 by (eapply same_wf; eauto).
  destruct (add_fpga_same v m2 W2) as (m3 & E3 & S3). rewrite E3. apply tame_ok.
Qed.
