(** How Python writes a text of Latin-1 as a literal, as far as messages need it. *)
From Coq Require Import String Ascii List.
Open Scope string_scope.

(** The characters that are shown as they are: Latin-1 without the control characters, the no-break space (160) and
    the soft hyphen (173) *)
Definition visible (c : ascii) : Prop :=
  let n := nat_of_ascii c in (32 <= n <= 126 \/ 161 <= n <= 172 \/ 174 <= n <= 255)%nat.
Definition tab : ascii := ascii_of_nat 9.
Definition newline : ascii := ascii_of_nat 10.
Definition return_ : ascii := ascii_of_nat 13.
Definition backslash : ascii := "\"%char.
Definition single : ascii := "'"%char.
Definition double : ascii := ascii_of_nat 34.
Definition hex_char (n : nat) (a : ascii) : Prop := String.get n "0123456789abcdef" = Some a.

(** A character between quotes *)
Inductive written (quote : ascii) : ascii -> string -> Prop :=
| as_it_is c : visible c -> c <> quote -> c <> backslash -> written quote c (String c "")
| escaped c : c = quote \/ c = backslash -> written quote c (String backslash (String c ""))
| a_tab : written quote tab "\t"
| a_newline : written quote newline "\n"
| a_return : written quote return_ "\r"
| by_number c hi lo a b : ~ visible c -> c <> tab -> c <> newline -> c <> return_ ->
    nat_of_ascii c = (16 * hi + lo)%nat -> hex_char hi a -> hex_char lo b ->
    written quote c (String backslash (String "x" (String a (String b "")))).
Inductive written_all (quote : ascii) : string -> string -> Prop :=
| written_none : written_all quote "" ""
| written_next c s t u : written quote c t -> written_all quote s u -> written_all quote (String c s) (t ++ u).

Fixpoint occurs (c : ascii) (s : string) : Prop :=
  match s with EmptyString => False | String a s => a = c \/ occurs c s end.
(** Single quotes, unless that would need an escape and double quotes would not *)
Inductive literal (s : string) : string -> Prop :=
| in_double u : occurs single s -> ~ occurs double s -> written_all double s u ->
    literal s (String double (u ++ String double ""))
| in_single u : ~ occurs single s \/ occurs double s -> written_all single s u ->
    literal s (String single (u ++ String single "")).
