(** The files while to_json_path runs: what is left of it at every point where the program
    or the machine it runs on may stop. *)
From Coq Require Import String Ascii.
From Verif Require Import Model_Py Model_Version Model_Machine Model_Virtual Model_Json Model_JsonText.
Open Scope string_scope.
Open Scope list_scope.

(** json_machine.py:289-301 to_json_path, as the states of the files one after the other:
    to_json runs before the file is opened; [open(file_path, "w")] leaves an empty file at
    the path; json.dump calls [f.write] for one piece of the text after the other.  The
    buffer of [f] is flushed at any place of the text, but the characters arrive in order:
    there is a state for every number of characters that arrived.  (Every one is ASCII, and
    so one byte.) *)
Definition to_json_path_states (fs : files) (m : machine) (path : string) : list files :=
  match to_json m with
  | Err _ => [fs]
  | Ok o =>
      let text := json_text (JObj o) in
      fs :: map (fun k => dset String.eqb fs path (substring 0 k text)) (seq 0 (S (String.length text)))
  end.

(** A run of to_json_path (json_machine.py:289-301) that ends, or stops, after [k] of these
    steps: opening the file is the first, each character that arrives one more.  A number
    that is too large stands for a run that ends. *)
Definition stopped_after (k : nat) (fs : files) (m : machine) (path : string) : files :=
  nth k (to_json_path_states fs m path) (fst (to_json_path fs m path)).

(** Run after run of to_json_path (json_machine.py:289-301): the machine, the path, and the
    step after which it stops *)
Definition runs (fs : files) (l : list (machine * string * nat)) : files :=
  fold_left (fun fs a => let '(m, path, k) := a in stopped_after k fs m path) l fs.
