(** Strings as used by the parsing code.  A Python string is modelled by a Coq
    [string] of ASCII characters; characters outside ASCII (for which [\d],
    [int] and [lower] have Unicode rules) are outside the model. *)
From Verif Require Import Model_Py.
Open Scope char_scope.

Definition chr (n : nat) : ascii := ascii_of_nat n.

Definition is_digit (c : ascii) : bool :=
  let n := nat_of_ascii c in (48 <=? n)%nat && (n <=? 57)%nat.
Definition digit_value (c : ascii) : Z := (Z.of_nat (nat_of_ascii c) - 48)%Z.

(** The characters that [int] skips in an ASCII string: \t \n \v \f \r and space. *)
Definition is_space (c : ascii) : bool :=
  let n := nat_of_ascii c in ((9 <=? n)%nat && (n <=? 13)%nat) || (n =? 32)%nat.

(** [s.lower()] *)
Definition lower_char (c : ascii) : ascii :=
  let n := nat_of_ascii c in
  if (65 <=? n)%nat && (n <=? 90)%nat then ascii_of_nat (n + 32) else c.
Fixpoint lower (s : string) : string :=
  match s with
  | EmptyString => EmptyString
  | String c r => String (lower_char c) (lower r)
  end.

(** [s.replace(c, "")] for a one character [c] *)
Fixpoint remove_char (c : ascii) (s : string) : string :=
  match s with
  | EmptyString => EmptyString
  | String a r => if Ascii.eqb a c then remove_char c r else String a (remove_char c r)
  end.

(** [s.split(c)] for a one character [c] *)
Fixpoint split_on (c : ascii) (s : string) : list string :=
  match s with
  | EmptyString => [EmptyString]
  | String a r =>
      let rest := split_on c r in
      if Ascii.eqb a c then EmptyString :: rest
      else match rest with
           | h :: t => String a h :: t
           | [] => [String a EmptyString]
           end
  end.

(** Skipping spaces at the start and at the end. *)
Fixpoint lstrip (s : string) : string :=
  match s with
  | String c r => if is_space c then lstrip r else s
  | EmptyString => EmptyString
  end.
Fixpoint rstrip (s : string) : string :=
  match s with
  | EmptyString => EmptyString
  | String c r =>
      match rstrip r with
      | EmptyString => if is_space c then EmptyString else String c EmptyString
      | r' => String c r'
      end
  end.

(** The digits of [int]: groups of digits separated by single underscores.
    [after_digit] says whether the character before was a digit. *)
Fixpoint int_digits (acc : Z) (after_digit : bool) (s : string) : option Z :=
  match s with
  | EmptyString => if after_digit then Some acc else None
  | String c r =>
      if is_digit c then int_digits (10 * acc + digit_value c)%Z true r
      else if Ascii.eqb c "_" && after_digit then int_digits acc false r
      else None
  end.

(** [int(s)] for a string, CPython's PyLong_FromString with base 10.  The limit
    of 4300 digits of newer interpreters is not modelled. *)
Definition py_int (s : string) : res Z :=
  let s := lstrip (rstrip s) in
  let '(neg, body) :=
    match s with
    | String "-" r => (true, r)
    | String "+" r => (false, r)
    | _ => (false, s)
    end in
  match int_digits 0 false body with
  | Some n => Ok (if neg then - n else n)%Z
  | None => Err ValueError
  end.

(** ** Regular expressions *)

(** Longest prefix of digits and the rest. *)
Fixpoint span_digits (s : string) : string * string :=
  match s with
  | String c r =>
      if is_digit c then let '(a, b) := span_digits r in (String c a, b)
      else (EmptyString, s)
  | EmptyString => (EmptyString, EmptyString)
  end.

(** [\d+] matches all of [s] *)
Fixpoint all_digits (s : string) : bool :=
  match s with
  | EmptyString => true
  | String c r => is_digit c && all_digits r
  end.
Definition some_digits (s : string) : bool :=
  match s with EmptyString => false | _ => all_digits s end.

Fixpoint skip_dashes (s : string) : string :=
  match s with
  | String "-" r => skip_dashes r
  | _ => s
  end.

(** version/abstract_version.py:39 CORE_SINGLE.fullmatch *)
Definition core_single (s : string) : bool := some_digits (skip_dashes s).

(** version/abstract_version.py:38 CORE_RANGE.fullmatch: the two groups *)
Definition core_range (s : string) : option (string * string) :=
  let '(a, rest) := span_digits s in
  match a, rest with
  | EmptyString, _ => None
  | _, String "-" b => if some_digits b then Some (a, b) else None
  | _, _ => None
  end.

(** version/version_spin2.py:26 CORE_QX_QY_QP.fullmatch: the three groups *)
Definition core_quad (s : string) : option (string * string * string) :=
  match s with
  | String a (String "." (String b (String "." (String c EmptyString)))) =>
      if is_digit a && is_digit b && is_digit c
      then Some (String a EmptyString, String b EmptyString, String c EmptyString)
      else None
  | _ => None
  end.
