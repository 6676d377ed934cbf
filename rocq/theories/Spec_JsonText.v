(** The texts of JSON values, as a grammar, independent of the scanner. *)
From Coq Require Import String Ascii SpecFloat.
From Verif Require Import Model_Py Model_Str Model_Json Spec_Str Spec_Decimal.
Open Scope string_scope.
Open Scope list_scope.

Definition code (c : ascii) : nat := nat_of_ascii c.

(** White space: spaces, tabs and line ends. *)
Definition blank (w : string) : Prop :=
  every (fun c => code c = 32 \/ code c = 9 \/ code c = 10 \/ code c = 13)%nat w.

(** The value of a hexadecimal digit, of either case. *)
Definition hex_value_of (c : ascii) (n : nat) : Prop :=
  String.get n "0123456789abcdef" = Some c \/ String.get n "0123456789ABCDEF" = Some c.

(** The short escapes and what they stand for. *)
Definition short_escapes : list (ascii * nat) :=
  [(""""%char, 34); ("\"%char, 92); ("/"%char, 47); ("b"%char, 8); ("f"%char, 12); ("n"%char, 10);
   ("r"%char, 13); ("t"%char, 9)]%nat.

(** The text between the quotes, and the string that it stands for. *)
Inductive chars_text : string -> string -> Prop :=
| CharsEnd : chars_text "" ""
| CharsPlain c t s : (32 <= code c)%nat -> code c <> 34%nat -> code c <> 92%nat -> chars_text t s ->
    chars_text (String c t) (String c s)
| CharsShort e n t s : In (e, n) short_escapes -> chars_text t s ->
    chars_text ("\" ++ String e t) (String (ascii_of_nat n) s)
| CharsHex a b n k t s : hex_value_of a n -> hex_value_of b k -> chars_text t s ->
    chars_text ("\u00" ++ String a (String b t)) (String (ascii_of_nat (16 * n + k)) s).

Definition quoted_text (t s : string) : Prop :=
  exists body, chars_text body s /\ t = (String """" (body ++ String """" ""))%string.

(** Whole numbers: no sign but a minus, no zeros in front. *)
Definition whole (t : string) (n : Z) : Prop :=
  numeral t n /\ (t = "0" \/ forall r, t <> String "0" r).
Definition number_text (t : string) (n : Z) : Prop :=
  whole t n \/ exists d k, whole d k /\ t = ("-" ++ d)%string /\ n = (- k)%Z.

(** Numbers with a fraction or an exponent: the sign, and the value n / d. *)
Definition sign_text (t : string) (minus : bool) : Prop := t = "" /\ minus = false \/ t = "-" /\ minus = true.
Definition fraction_text (t : string) (n : Z) (places : nat) : Prop :=
  t = "" /\ n = 0%Z /\ places = O \/
  exists ds, numeral ds n /\ places = String.length ds /\ t = ("." ++ ds)%string.
Definition exponent_text (t : string) (n : Z) : Prop :=
  t = "" /\ n = 0%Z \/
  exists e sign ds k, In e ["e"; "E"] /\ numeral ds k /\ t = (e ++ sign ++ ds)%string /\
    (In sign [""; "+"] /\ n = k \/ sign = "-" /\ n = (- k)%Z).
Definition real_text (t : string) (f : spec_float) : Prop :=
  exists sign minus w n frac b places x e,
    t = (sign ++ w ++ frac ++ x)%string /\ ~ (frac = "" /\ x = "") /\
    sign_text sign minus /\ whole w n /\ fraction_text frac b places /\ exponent_text x e /\
    let digits := (n * 10 ^ Z.of_nat places + b)%Z in
    let power := (e - Z.of_nat places)%Z in
    ((0 <= power)%Z /\ nearest minus (digits * 10 ^ power) 1 f \/
     (power < 0)%Z /\ nearest minus digits (10 ^ (- power)) f).

(** Members of an object with the same key: the last counts, at the place of the
    first. *)
Definition object_of (members : list (string * json)) : jobject :=
  fold_left (fun d kv => dset String.eqb d (fst kv) (snd kv)) members [].

Inductive value_text : string -> json -> Prop :=
| TextNull : value_text "null" JNull
| TextTrue : value_text "true" (JBool true)
| TextFalse : value_text "false" (JBool false)
| TextInt t n : number_text t n -> value_text t (JInt n)
| TextReal t f : real_text t f -> value_text t (JFloat f)
| TextNaN : value_text "NaN" (JFloat S754_nan)
| TextInfinity : value_text "Infinity" (JFloat (S754_infinity false))
| TextMinusInfinity : value_text "-Infinity" (JFloat (S754_infinity true))
| TextStr t s : quoted_text t s -> value_text t (JStr s)
| TextNoItems w : blank w -> value_text ("[" ++ w ++ "]") (JArr [])
| TextItems t vs : items_text t vs -> value_text ("[" ++ t ++ "]") (JArr vs)
| TextNoMembers w : blank w -> value_text ("{" ++ w ++ "}") (JObj [])
| TextMembers t ms : members_text t ms -> value_text ("{" ++ t ++ "}") (JObj (object_of ms))
with items_text : string -> list json -> Prop :=
| OneItem w t w' v : blank w -> value_text t v -> blank w' -> items_text (w ++ t ++ w') [v]
| MoreItems w t w' v r vs : blank w -> value_text t v -> blank w' -> items_text r vs ->
    items_text (w ++ t ++ w' ++ "," ++ r) (v :: vs)
with members_text : string -> list (string * json) -> Prop :=
| OneMember w q w1 w2 t w' k v : blank w -> quoted_text q k -> blank w1 -> blank w2 -> value_text t v ->
    blank w' -> members_text (w ++ q ++ w1 ++ ":" ++ w2 ++ t ++ w') [(k, v)]
| MoreMembers w q w1 w2 t w' k v r ms : blank w -> quoted_text q k -> blank w1 -> blank w2 ->
    value_text t v -> blank w' -> members_text r ms ->
    members_text (w ++ q ++ w1 ++ ":" ++ w2 ++ t ++ w' ++ "," ++ r) ((k, v) :: ms).

(** A JSON document: a value with white space around it. *)
Definition document (text : string) (v : json) : Prop :=
  exists w t w', blank w /\ value_text t v /\ blank w' /\ text = (w ++ t ++ w')%string.

(** What the model says nothing about: an escape of a character above 255. *)
Definition outside_piece (q : string) : Prop :=
  exists a b c d r n k, q = ("\u" ++ String a (String b (String c (String d r))))%string /\
     hex_value_of a n /\ hex_value_of b k /\ (n <> 0 \/ k <> 0)%nat.
Definition has_outside_piece (text : string) : Prop :=
  exists p q, text = (p ++ q)%string /\ outside_piece q.

(** No object in the value has two members of the same key; Python's dicts never do. *)
Inductive keys_once : json -> Prop :=
| OnceNull : keys_once JNull
| OnceBool b : keys_once (JBool b)
| OnceInt n : keys_once (JInt n)
| OnceFloat f : keys_once (JFloat f)
| OnceStr s : keys_once (JStr s)
| OnceArr l : Forall keys_once l -> keys_once (JArr l)
| OnceObj d : NoDup (map fst d) -> Forall (fun kv => keys_once (snd kv)) d -> keys_once (JObj d).

(** No number in the value is a float. *)
Inductive no_floats : json -> Prop :=
| PlainNull : no_floats JNull
| PlainBool b : no_floats (JBool b)
| PlainInt n : no_floats (JInt n)
| PlainStr s : no_floats (JStr s)
| PlainArr l : Forall no_floats l -> no_floats (JArr l)
| PlainObj d : Forall (fun kv => no_floats (snd kv)) d -> no_floats (JObj d).

(** Printable ASCII. *)
Definition printable (c : ascii) : Prop := (32 <= code c <= 126)%nat.
