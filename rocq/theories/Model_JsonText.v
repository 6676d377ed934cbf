(** The file variants of json_machine.py.  json.dump and json.load are CPython's
    json package (Lib/json/encoder.py, decoder.py, scanner.py) with its default
    options.  Floats are read, but there is no model of how they are written: to_json
    makes none.  A file is its text, at its path;
    other errors of the operating system than a missing file are not modelled.
    A character is its code below 256; the limits of CPython on the depth of
    nesting and on the number of digits are not modelled. *)
From Coq Require Import String Ascii SpecFloat.
From Verif Require Import Model_Py Model_Wrap Model_Version Model_Core Model_Machine Model_Str Model_Virtual Model_Text Model_Decimal Model_Json.
Open Scope string_scope.
Open Scope list_scope.
Open Scope Z_scope.

Definition QUOTE : ascii := """"%char.
Definition BACKSLASH : ascii := "\"%char.

(** ** json.dump *)

(** Lib/json/encoder.py ESCAPE_DCT: '{0:04x}' *)
Definition hex_lower (n : nat) : ascii :=
  match String.get n "0123456789abcdef" with Some c => c | None => "?"%char end.

(** Lib/json/encoder.py py_encode_basestring_ascii: ESCAPE_DCT, and all that is not
    from space to tilde as \uXXXX *)
Definition escaped (c : ascii) : string :=
  let n := nat_of_ascii c in
  if Ascii.eqb c QUOTE then "\"""
  else if Ascii.eqb c BACKSLASH then "\\"
  else if (n =? 10)%nat then "\n"
  else if (n =? 13)%nat then "\r"
  else if (n =? 9)%nat then "\t"
  else if (n =? 12)%nat then "\f"
  else if (n =? 8)%nat then "\b"
  else if ((32 <=? n) && (n <=? 126))%nat then String c ""
  else cat ["\u00"; String (hex_lower (n / 16)) ""; String (hex_lower (n mod 16)) ""].

Fixpoint escape (s : string) : string :=
  match s with
  | EmptyString => ""
  | String c r => (escaped c ++ escape r)%string
  end.

Definition quoted (s : string) : string := cat [String QUOTE ""; escape s; String QUOTE ""].

(** Lib/json/encoder.py _iterencode with the separators ', ' and ': '.  The texts of
    floats are not modelled (to_json makes no floats). *)
Fixpoint json_text (v : json) : string :=
  match v with
  | JNull => "null"
  | JBool true => "true"
  | JBool false => "false"
  | JInt n => dec n
  | JFloat _ => "a float"
  | JStr s => quoted s
  | JArr l => cat ["["; String.concat ", " (map json_text l); "]"]
  | JObj d => cat ["{"; String.concat ", "
                (map (fun kv => let '(k, w) := kv in cat [quoted k; ": "; json_text w]) d); "}"]
  end.

(** ** json.load *)

(** What a scanner finds: a value and the text after it, or a JSONDecodeError (a
    ValueError), or something outside the model: a character above 255 ([Outside]). *)
Inductive scanned (A : Type) : Type :=
| Found (a : A) (rest : string)
| NotJson
| Outside.
Arguments Found {A} _ _.
Arguments NotJson {A}.
Arguments Outside {A}.

Definition then_found {A B} (r : scanned A) (f : A -> string -> scanned B) : scanned B :=
  match r with Found a rest => f a rest | NotJson => NotJson | Outside => Outside end.

(** Lib/json/decoder.py WHITESPACE [ \t\n\r]* *)
Definition json_space (c : ascii) : bool :=
  let n := nat_of_ascii c in (n =? 32)%nat || (n =? 9)%nat || (n =? 10)%nat || (n =? 13)%nat.
Fixpoint skip_space (s : string) : string :=
  match s with
  | String c r => if json_space c then skip_space r else s
  | EmptyString => ""
  end.

(** Lib/json/decoder.py BACKSLASH *)
Definition simple_escape (c : ascii) : option ascii :=
  if Ascii.eqb c QUOTE then Some QUOTE
  else if Ascii.eqb c BACKSLASH then Some BACKSLASH
  else if Ascii.eqb c "/" then Some "/"%char
  else if Ascii.eqb c "b" then Some (chr 8)
  else if Ascii.eqb c "f" then Some (chr 12)
  else if Ascii.eqb c "n" then Some (chr 10)
  else if Ascii.eqb c "r" then Some (chr 13)
  else if Ascii.eqb c "t" then Some (chr 9)
  else None.

(** A digit of int(esc, 16), Lib/json/decoder.py HEXDIGITS *)
Definition hex_code (c : ascii) : option nat :=
  let n := nat_of_ascii c in
  if ((48 <=? n) && (n <=? 57))%nat then Some (n - 48)%nat
  else if ((65 <=? n) && (n <=? 70))%nat then Some (n - 55)%nat
  else if ((97 <=? n) && (n <=? 102))%nat then Some (n - 87)%nat
  else None.

(** Lib/json/decoder.py _decode_uXXXX *)
Definition hex4 (a b c d : ascii) : option nat :=
  match hex_code a, hex_code b, hex_code c, hex_code d with
  | Some a, Some b, Some c, Some d => Some (((a * 16 + b) * 16 + c) * 16 + d)%nat
  | _, _, _, _ => None
  end.

(** Lib/json/decoder.py py_scanstring, strict; [s] is the text after the quote *)
Fixpoint scan_string (s : string) : scanned string :=
  match s with
  | EmptyString => NotJson
  | String c r =>
      if Ascii.eqb c QUOTE then Found "" r
      else if Ascii.eqb c BACKSLASH then
        match r with
        | EmptyString => NotJson
        | String e r' =>
            if Ascii.eqb e "u" then
              match r' with
              | String h1 (String h2 (String h3 (String h4 r''))) =>
                  match hex4 h1 h2 h3 h4 with
                  | Some n =>
                      if (n <? 256)%nat
                      then then_found (scan_string r'') (fun t rest => Found (String (chr n) t) rest)
                      else Outside
                  | None => NotJson
                  end
              | _ => NotJson
              end
            else
              match simple_escape e with
              | Some x => then_found (scan_string r') (fun t rest => Found (String x t) rest)
              | None => NotJson
              end
        end
      else if (nat_of_ascii c <? 32)%nat then NotJson
      else then_found (scan_string r) (fun t rest => Found (String c t) rest)
  end.

(** [s] without the prefix [p] *)
Fixpoint after (p s : string) : option string :=
  match p, s with
  | EmptyString, _ => Some s
  | String a p', String c s' => if Ascii.eqb a c then after p' s' else None
  | String _ _, EmptyString => None
  end.

(** Lib/json/scanner.py NUMBER_RE: the group (\.\d+)?, the digits and the rest *)
Definition fraction (s : string) : option string * string :=
  match s with
  | String c r =>
      if Ascii.eqb c "." then
        match span_digits r with ("", _) => (None, s) | (a, b) => (Some a, b) end
      else (None, s)
  | "" => (None, s)
  end.

(** Lib/json/scanner.py NUMBER_RE: the group ([eE][-+]?\d+)?, whether there is a minus,
    the digits and the rest *)
Definition exponent (s : string) : option (bool * string) * string :=
  match s with
  | String c r =>
      if Ascii.eqb c "e" || Ascii.eqb c "E" then
        let '(minus, body) :=
          match r with
          | String d q => if Ascii.eqb d "-" then (true, q) else if Ascii.eqb d "+" then (false, q) else (false, r)
          | "" => (false, r)
          end in
        match span_digits body with ("", _) => (None, s) | (a, b) => (Some (minus, a), b) end
      else (None, s)
  | "" => (None, s)
  end.

(** Lib/json/scanner.py _scan_once: the integer part -?(?:0|[1-9]\d* ) as its text and
    the rest *)
Definition integer_part (s : string) : option (string * string) :=
  let '(sign, body) := match s with String "-" r => ("-", r) | _ => ("", s) end in
  match body with
  | String "0" r => Some ((sign ++ "0")%string, r)
  | String c _ => if is_digit c then let '(a, b) := span_digits body in Some ((sign ++ a)%string, b) else None
  | EmptyString => None
  end.

(** Lib/json/scanner.py _scan_once: [parse_float], which is float, of the groups of a number
    that has a fraction or an exponent; [t] is the integer part *)
Definition parse_float (t : string) (f : option string) (x : option (bool * string)) : option json :=
  let '(minus, digits) := match t with String "-" u => (true, u) | _ => (false, t) end in
  let f := match f with Some f => f | None => "" end in
  match py_int (digits ++ f)%string,
        match x with Some (m, a) => do n <- py_int a ; Ok (if m then - n else n) | None => Ok 0 end with
  | Ok n, Ok e => Some (JFloat (decimal_double minus n (e - Z.of_nat (String.length f))))
  | _, _ => None
  end.

(** Lib/json/scanner.py _scan_once: numbers and the names of floats *)
Definition scan_number (s : string) : scanned json :=
  match integer_part s with
  | Some (t, r) =>
      match fraction r with
      | (f, r1) =>
          match f, exponent r1 with
          | None, (None, _) => match py_int t with Ok n => Found (JInt n) r | Err _ => NotJson end
          | _, (x, r2) => match parse_float t f x with Some v => Found v r2 | None => NotJson end
          end
      end
  | None =>
      match after "NaN" s, after "Infinity" s, after "-Infinity" s with
      | Some r, _, _ => Found (JFloat S754_nan) r
      | _, Some r, _ => Found (JFloat (S754_infinity false)) r
      | _, _, Some r => Found (JFloat (S754_infinity true)) r
      | None, None, None => NotJson
      end
  end.

(** [dict(pairs)] *)
Definition dict_of (pairs : list (string * json)) : jobject :=
  fold_left (fun d kv => dset String.eqb d (fst kv) (snd kv)) pairs [].

(** Lib/json/scanner.py _scan_once, Lib/json/decoder.py JSONArray and JSONObject.  The
    number is fuel. *)
Fixpoint scan (fuel : nat) (s : string) {struct fuel} : scanned json :=
  match fuel with
  | O => Outside
  | S n =>
      match s with
      | EmptyString => NotJson
      | String c r =>
          if Ascii.eqb c QUOTE then then_found (scan_string r) (fun t rest => Found (JStr t) rest)
          else if Ascii.eqb c "{" then
            match after "}" (skip_space r) with
            | Some rest => Found (JObj []) rest
            | None => then_found (scan_members n (skip_space r)) (fun ps rest => Found (JObj (dict_of ps)) rest)
            end
          else if Ascii.eqb c "[" then
            match after "]" (skip_space r) with
            | Some rest => Found (JArr []) rest
            | None => then_found (scan_items n (skip_space r)) (fun vs rest => Found (JArr vs) rest)
            end
          else
            match after "null" s, after "true" s, after "false" s with
            | Some rest, _, _ => Found JNull rest
            | _, Some rest, _ => Found (JBool true) rest
            | _, _, Some rest => Found (JBool false) rest
            | None, None, None => scan_number s
            end
      end
  end
with scan_items (fuel : nat) (s : string) {struct fuel} : scanned (list json) :=
  match fuel with
  | O => Outside
  | S n =>
      then_found (scan n s) (fun v r =>
        match skip_space r with
        | EmptyString => NotJson
        | String c r' =>
            if Ascii.eqb c "]" then Found [v] r'
            else if Ascii.eqb c "," then
              then_found (scan_items n (skip_space r')) (fun vs rest => Found (v :: vs) rest)
            else NotJson
        end)
  end
with scan_members (fuel : nat) (s : string) {struct fuel} : scanned (list (string * json)) :=
  match fuel with
  | O => Outside
  | S n =>
      match after (String QUOTE "") s with
      | None => NotJson
      | Some r =>
          then_found (scan_string r) (fun k r =>
            match after ":" (skip_space r) with
            | None => NotJson
            | Some r =>
                then_found (scan n (skip_space r)) (fun v r =>
                  match skip_space r with
                  | EmptyString => NotJson
                  | String c r' =>
                      if Ascii.eqb c "}" then Found [(k, v)] r'
                      else if Ascii.eqb c "," then
                        then_found (scan_members n (skip_space r')) (fun ps rest => Found ((k, v) :: ps) rest)
                      else NotJson
                  end)
            end)
      end
  end.

(** Lib/json/decoder.py JSONDecoder.decode; [None] for a text outside the model.  The
    fuel is never used up (Proof_JsonText.enough). *)
Definition json_load (s : string) : option (res json) :=
  match scan (2 * String.length s + 1) (skip_space s) with
  | Found v rest =>
      match skip_space rest with
      | EmptyString => Some (Ok v)
      | _ => Some (Err ValueError)
      end
  | NotJson => Some (Err ValueError)
  | Outside => None
  end.

(** ** Files *)

(** The files: their texts by their paths *)
Definition files : Type := dict string string.

(** json_machine.py:289-301 to_json_path: the files afterwards and the exception *)
Definition to_json_path (fs : files) (m : machine) (path : string) : files * res unit :=
  match to_json m with
  | Ok o => (dset String.eqb fs path (json_text (JObj o)), Ok tt)
  | Err e => (fs, Err e)
  end.

(** json_machine.py:76-168 machine_from_json for a path; [None] if the text of the file
    is outside the model *)
Definition machine_from_json_path (v : vid) (fs : files) (path : string) : option (res machine) :=
  match dget String.eqb fs path with
  | None => Some (Err FileNotFound)
  | Some text =>
      match json_load text with
      | None => None
      | Some j => Some (do j <- j ; do o <- j_obj j ; machine_from_json v o)
      end
  end.
