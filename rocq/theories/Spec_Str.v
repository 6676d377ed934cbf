(** Texts of numbers and of down items, independent of the parser. *)
From Verif Require Import Model_Py Model_Version Model_Str Model_Ignore.
Open Scope string_scope.

(** The value of a string of digits, read from the left. *)
Fixpoint value_from (acc : Z) (s : string) : Z :=
  match s with
  | EmptyString => acc
  | String c r => value_from (10 * acc + (Z.of_nat (nat_of_ascii c) - 48))%Z r
  end.

Fixpoint every (P : ascii -> Prop) (s : string) : Prop :=
  match s with
  | EmptyString => True
  | String c r => P c /\ every P r
  end.

Definition digit_char (c : ascii) : Prop := (48 <= nat_of_ascii c <= 57)%nat.
Definition space_char (c : ascii) : Prop :=
  (9 <= nat_of_ascii c <= 13)%nat \/ nat_of_ascii c = 32%nat.

(** [s] is a decimal numeral without sign and means [n]. *)
Definition numeral (s : string) (n : Z) : Prop :=
  s <> "" /\ every digit_char s /\ n = value_from 0 s.

(** Numerals with single underscores between digits. *)
Inductive grouped : string -> string -> Prop :=
| Group s : s <> "" -> every digit_char s -> grouped s s
| MoreGroups s t u : s <> "" -> every digit_char s -> grouped t u ->
    grouped (s ++ "_" ++ t) (s ++ u).

(** What [int] accepts: spaces around, an optional sign, digits with single
    underscores between them. *)
Definition int_text (s : string) (z : Z) : Prop :=
  exists before sign body digits after,
    s = before ++ sign ++ body ++ after /\
    every space_char before /\ every space_char after /\
    grouped body digits /\
    ((sign = "" \/ sign = "+") /\ z = value_from 0 digits \/
     sign = "-" /\ z = (- value_from 0 digits)%Z).

(** No occurrence of a character. *)
Definition without (c : ascii) (s : string) : Prop := every (fun a => a <> c) s.

(** ** Texts of the down items.  The fields may be any texts that [int] accepts. *)
Definition with_ip (s : string) (ip : option string) : string :=
  match ip with None => s | Some a => s ++ "," ++ a end.

(** A text without comma or colon is the rest of an address. *)
Definition plain (ip : option string) : Prop :=
  match ip with None => True | Some a => without "," a /\ without ":" a end.

Definition chip_text (s : string) (c : ignore_chip) : Prop :=
  exists tx ty, int_text tx (ich_x c) /\ int_text ty (ich_y c) /\ plain (ich_ip c) /\
    s = with_ip (tx ++ "," ++ ty) (ich_ip c).

Definition link_text (s : string) (l : ignore_link) : Prop :=
  exists tx ty tl, int_text tx (ili_x l) /\ int_text ty (ili_y l) /\
    int_text tl (ili_link l) /\ plain (ili_ip l) /\
    s = with_ip (tx ++ "," ++ ty ++ "," ++ tl) (ili_ip l).

(** The core field: a virtual id, a negated physical id, or a range of ids. *)
Definition core_field (s : string) (ps : list Z) : Prop :=
  (exists n, numeral s n /\ ps = [n]) \/
  (exists t n, numeral t n /\ s = "-" ++ t /\ ps = [(- n)%Z]) \/
  (exists a b lo hi, numeral a lo /\ numeral b hi /\ s = a ++ "-" ++ b /\
     ps = zrange lo (hi + 1)).

Definition core_text (s : string) (cs : list ignore_core) : Prop :=
  exists tx ty tp x y ps ip, int_text tx x /\ int_text ty y /\ core_field tp ps /\
    plain ip /\ s = with_ip (tx ++ "," ++ ty ++ "," ++ tp) ip /\
    cs = map (fun p => mkIgnoreCore x y p ip) ps.

(** The texts joined by colons. *)
Definition joined (texts : list string) : string := String.concat ":" texts.

(** The core field on a board version: on Spin2 boards also the quad coordinates,
    each a single digit. *)
Definition core_field_on (v : vid) (s : string) (ps : list Z) : Prop :=
  core_field s ps \/
  (exists a b c qx qy qp id, (v = V201 \/ v = V248) /\
     numeral (String a "") qx /\ numeral (String b "") qy /\ numeral (String c "") qp /\
     s = String a ("." ++ String b ("." ++ String c "")) /\
     qx_qy_qp_to_id v qx qy qp = Ok id /\ ps = [id]).

(** Everything that is accepted as one item of the down cores.  The coordinates are
    only looked at if the core field is not an empty range. *)
Definition core_item_on (v : vid) (s : string) (cs : list ignore_core) : Prop :=
  exists tx ty tp ps ip, without "," tx /\ without "," ty /\ core_field_on v tp ps /\ plain ip /\
    s = with_ip (tx ++ "," ++ ty ++ "," ++ tp) ip /\
    (ps = [] /\ cs = [] \/
     exists x y, int_text tx x /\ int_text ty y /\
       cs = map (fun p => mkIgnoreCore x y p ip) ps).
