(** The text of a machine and its summary. *)
From Coq Require Import String.
From Verif Require Import Model_Py Model_Wrap Model_Version Model_Core Model_Machine Model_Virtual
  Model_Text.
Open Scope string_scope.
Open Scope list_scope.
Open Scope Z_scope.

(** full_wrap_machine.py:166-167, horizontal_wrap_machine.py:154-155,
    vertical_wrap_machine.py:154-155, no_wrap_machine.py:135-136: wrap *)
Definition wrap_text (k : wrap) : string :=
  match k with FullWrap => "Wrapped" | HorWrap => "HorWrap" | VerWrap => "VerWrap" | NoWrap => "NoWrap" end.

(** machine.py:909-911 __str__, 913-914 __repr__ *)
Definition machine_str (m : machine) : string :=
  cat ["["; m_origin m; wrap_text (m_kind m); "Machine: width="; dec (m_width m);
       ", height="; dec (m_height m); ", n_chips="; dec (n_chips m); "]"].

(** The text of the float [n / 2], for [0 <= n < 2 ^ 53]: the number is exact, and
    below 10 ^ 16 Python writes all digits *)
Definition half_str (n : Z) : string := cat [dec (n / 2); if n mod 2 =? 0 then ".0" else ".5"].

(** The four kinds of calls of logger.warning in summary_string, without their texts *)
Inductive warning : Type := UnexpectedSdram | MixedSdram | UnexpectedRouters | MixedRouters.

(** machine.py:962-974 (and the same for the other three counters): one value or the
    first and the last of several *)
Definition spread (keys : list Z) (one between and_ after after_one : string) : res string :=
  match keys with
  | [n] => Ok (cat [one; dec n; after_one])
  | _ => do a <- py_index keys 0 ; do b <- py_index keys (-1) ;
         Ok (cat [between; dec a; and_; dec b; after])
  end.

(** machine.py:963-967 and 977-983: is a warning logged *)
Definition weird (keys : list Z) (expected : Z) (unexpected mixed : warning) : list warning :=
  match keys with
  | [n] => if negb (n =? expected) then [unexpected] else []
  | _ => [mixed]
  end.

(** machine.py:949-1005 summary_string, with the version of the data view as argument:
    the text and the warnings that are logged *)
Definition summary_string (V : version) (m : machine) : res (string * list warning) :=
  let sdram := zsorted (dkeys (m_sdram_counter m)) in
  do sdram_st <- spread sdram "sdram of " "sdram of between " " and " " bytes" " bytes" ;
  let routers := zsorted (dkeys (m_entries_counter m)) in
  do routers_st <- spread routers "router table of size " "router table sizes between " " and " "" "" ;
  let cores := zsorted (dkeys (m_cores_counter m)) in
  do cores_st <- spread cores " " "between " " and " " cores" " cores" ;
  let links := zsorted (dkeys (m_links_counter m)) in
  do links_st <- spread links " " "between " " and " " links" " links." ;
  do boot <- boot_chip m ;
  Ok (cat ["Machine on "; opt_str (c_ip boot); " with "; dec (n_chips m); " Chips, ";
           dec (get_cores_count m); " cores and "; half_str (get_links_count_doubled m); " links. ";
           "Chips have "; sdram_st; ", "; routers_st; ", "; cores_st; " and "; links_st; "."],
      weird sdram (max_sdram_per_chip V) UnexpectedSdram MixedSdram ++
      weird routers (n_router_entries (v_id V)) UnexpectedRouters MixedRouters).
