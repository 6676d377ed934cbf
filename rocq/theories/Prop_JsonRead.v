(** C60: which descriptions machine_from_json reads, and what it makes of them. *)
From Coq Require Import Sorted Lia String Ascii Decimal DecimalString DecimalZ.
From Coq Require Import SpecFloat.
From Verif Require Import Model_Py Model_Wrap Model_Version Model_Core Model_Machine Model_Str Model_Virtual Model_Json.
From Verif Require Import Spec_Str Spec_Machine Spec_Repair Spec_Version Spec_Json Spec_JsonRead.
From Verif Require Import Proof_Py Proof_Wrap Proof_Board Proof_Version Proof_Machine Proof_Str Proof_Virtual Proof_Repr Proof_RepairEnd Proof_Json Proof_JsonRead.
Open Scope string_scope.
Open Scope list_scope.
Open Scope Z_scope.

(** A description is read if and only if it gives a supported size, the two kinds of
    resources and a list of chips at different places.  The machine then is the one
    with these chips. *)
Theorem C60_what_is_read :
  forall v o m,
  machine_from_json v o = Ok m <->
  exists jw jh w h items chs,
    has o "width" jw /\ says_int jw w /\ has o "height" jh /\ says_int jh h /\
    supported v w h /\
    (exists rs, resources o "standardResources" rs) /\ (exists re, resources o "ethernetResources" re) /\
    has o "chips" (JArr items) /\
    Forall2 (chip_says (machine_class v w h) w h o) items chs /\
    NoDup (map c_xy chs) /\
    m = machine_of v w h "Json" chs.
Proof. exact from_json_iff. Qed.
Print Assumptions C60_what_is_read.

(** An item describes at most one chip. *)
Theorem C60_one_chip_per_item :
  forall v w h o item a b, supported v w h ->
    (exists rs, resources o "standardResources" rs) -> (exists re, resources o "ethernetResources" re) ->
    chip_says (machine_class v w h) w h o item a -> chip_says (machine_class v w h) w h o item b -> a = b.
Proof.
  intros v w h o item a b S (rs & Rs) (re & Re) A B.
  apply resources_some in Rs as (Js & std & Ss). apply resources_some in Re as (Je & eth & Se).
  set (m := new_machine (machine_class v w h) w h [] "").
  assert (forall ch, exists m', add_chip m ch = Ok m' /\ m_chips m' = [(c_xy ch, ch)]) as K.
  { intros ch. unfold add_chip. cbn [m new_machine m_chips dmem dget]. cbn iota.
    destruct (c_ip ch); eexists; (split; [reflexivity|]); reflexivity. }
  destruct (K a) as (ma & Ea & Ca), (K b) as (mb & Eb & Cb).
  assert (j_chip m std eth item = Ok ma) as Ja by (apply (j_chip_iff o rs re std eth Js Ss Je Se m); eauto).
  assert (j_chip m std eth item = Ok mb) as Jb by (apply (j_chip_iff o rs re std eth Js Ss Je Se m); eauto).
  congruence.
Qed.
Print Assumptions C60_one_chip_per_item.

(** Whatever is not read is refused with one of these exceptions. *)
Theorem C60_refusals :
  forall v o e, machine_from_json v o = Err e ->
    In e [KeyError; IndexError; ValueError; NotImplementedErr; AlreadyExists; MachineExc].
Proof. exact from_json_err. Qed.
Print Assumptions C60_refusals.

(** Numbers may be given as their decimal text. *)
Theorem C60_numbers_as_text :
  forall n, says_int (JStr (dec n)) n.
Proof.
  intros n. constructor. unfold dec.
  assert (forall u acc, value_from (Zpos acc) (NilEmpty.string_of_uint u) = Zpos (Pos.of_uint_acc u acc)) as V1.
  { induction u; intros acc; cbn [NilEmpty.string_of_uint value_from Pos.of_uint_acc]; [reflexivity|..];
      rewrite <- IHu; (f_equal; [|reflexivity]) || f_equal;
      match goal with |- context [Z.of_nat (nat_of_ascii ?c)] =>
        let n := eval vm_compute in (Z.of_nat (nat_of_ascii c)) in
        change (Z.of_nat (nat_of_ascii c)) with n end; lia. }
  assert (forall u, value_from 0 (NilEmpty.string_of_uint u) = Z.of_uint u) as V2.
  { induction u; cbn [NilEmpty.string_of_uint value_from]; [reflexivity|..];
      match goal with |- context [Z.of_nat (nat_of_ascii ?c)] =>
        let n := eval vm_compute in (Z.of_nat (nat_of_ascii c)) in
        change (Z.of_nat (nat_of_ascii c)) with n end;
      first [exact IHu | etransitivity; [|exact (V1 u _)]; reflexivity]. }
  assert (forall u, grouped (NilZero.string_of_uint u) (NilZero.string_of_uint u) /\
                    value_from 0 (NilZero.string_of_uint u) = Z.of_uint u) as G.
  { intros u. split.
    - apply Group; [unfold NilZero.string_of_uint; destruct u; discriminate|].
      pose proof (uint_digits u) as D. unfold NilZero.string_of_uint. destruct u; try exact D.
      cbn. split; [unfold digit_char; cbn; lia|auto].
    - pose proof (V2 u) as D. unfold NilZero.string_of_uint. destruct u; first [exact D|reflexivity]. }
  pose proof (of_to n) as N. destruct (Z.to_int n) as [u|u]; cbn [NilZero.string_of_int Z.of_int] in *;
    destruct (G u) as [G1 G2].
  - exists "", "", (NilZero.string_of_uint u), (NilZero.string_of_uint u), "".
    cbn [append]. rewrite app_nil_s. split; [reflexivity|]. split; [exact I|]. split; [exact I|]. split; [exact G1|]. left. split; [auto|]. congruence.
  - exists "", "-", (NilZero.string_of_uint u), (NilZero.string_of_uint u), "".
    cbn [append]. rewrite app_nil_s. split; [reflexivity|]. split; [exact I|]. split; [exact I|]. split; [exact G1|]. right. split; [auto|]. congruence.
Qed.
Print Assumptions C60_numbers_as_text.

(** ** Cases *)
Definition case_resources (sdram : json) : json :=
  JObj [("monitors", JInt 1); ("routerEntries", JInt 1023); ("sdram", sdram); ("tags", JArr [JInt 1; JStr "2"])].
Definition case_details (more : jobject) : json :=
  JObj ([("cores", JInt 18); ("ethernet", JArr [JInt 0; JInt 0])] ++ more).
Definition case_description (width : json) (items : list json) : jobject :=
  [("width", width); ("height", JInt 2); ("standardResources", case_resources (JInt 100));
   ("ethernetResources", case_resources (JStr "90")); ("chips", JArr items)].
Definition case_item0 : json :=
  JArr [JInt 0; JInt 0; case_details [("ipAddress", JStr "10.0.0.1"); ("deadLinks", JArr [JInt 3; JBool true])]].
Definition case_item1 : json :=
  JArr [JBool true; JStr " 1 "; case_details []; JObj [("sdram", JStr "7_0"); ("tags", JArr [])]].

(** Numbers as texts and truth values, dead links, exceptions. *)
Example C60_case :
  exists m a b, machine_from_json V3 (case_description (JStr "2") [case_item0; case_item1]) = Ok m /\
    chips m = [a; b] /\ m_width m = 2 /\
    (c_xy a = (0, 0) /\ c_ip a = Some "10.0.0.1" /\ c_sdram a = 90 /\ c_tags a = [1; 2] /\
     map l_source_link_id (router_links (c_router a)) = [0; 2; 4; 5]) /\
    (c_xy b = (1, 1) /\ c_ip b = None /\ c_sdram b = 70 /\ c_tags b = [] /\ n_processors b = 18).
Proof. do 3 eexists. split; [vm_compute; reflexivity|]. split; [vm_compute; reflexivity|]. split; [vm_compute; reflexivity|].
  repeat split; vm_compute; reflexivity. Qed.

(** Each of the refusals. *)
Example C60_case_refusals :
  machine_from_json V3 (case_description (JStr "two") []) = Err ValueError /\
  machine_from_json V3 (case_description (JInt 3) []) = Err MachineExc /\
  machine_from_json V3 [("height", JInt 2)] = Err KeyError /\
  machine_from_json V3 (case_description (JInt 2) [JArr [JInt 0]]) = Err IndexError /\
  machine_from_json V3 (case_description (JInt 2) [case_item0; case_item0]) = Err AlreadyExists /\
  machine_from_json V3 (case_description (JInt 2)
    [JArr [JInt 0; JInt 0; case_details []; JObj [("monitors", JStr "1")]]]) = Err NotImplementedErr.
Proof. repeat (split; [vm_compute; reflexivity|]). vm_compute; reflexivity. Qed.

(** Floats: 1.0 monitors are 1 monitor, 2.0 is the dead link 2 and 2.5 is none; a float is no
    number of an integer field. *)
Definition float_one : json := JFloat (S754_finite false 4503599627370496 (-52)).
Definition float_two : json := JFloat (S754_finite false 4503599627370496 (-51)).
Definition float_two_and_a_half : json := JFloat (S754_finite false 5629499534213120 (-51)).
Example C60_float_case :
  (exists m a, machine_from_json V3 (case_description (JInt 2)
     [JArr [JInt 0; JInt 0; case_details [("deadLinks", JArr [float_two; float_two_and_a_half])];
            JObj [("monitors", float_one)]]]) = Ok m /\
   chips m = [a] /\ map l_source_link_id (router_links (c_router a)) = [0; 1; 3; 4; 5]) /\
  machine_from_json V3 (case_description float_two []) = Err ValueError /\
  machine_from_json V3 (case_description (JInt 2)
    [JArr [JInt 0; JInt 0; case_details []; JObj [("monitors", float_two)]]]) = Err NotImplementedErr.
Proof.
  split; [|split; vm_compute; reflexivity]. do 2 eexists. split; [vm_compute; reflexivity|].
  split; vm_compute; reflexivity.
Qed.
