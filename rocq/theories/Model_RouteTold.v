(** Routing entries and routes with the texts of their exceptions.  Model_Routing is the same without the texts. *)
From Coq Require Import String Ascii.
From Verif Require Import Model_Py Model_Core Model_Str Model_Virtual Model_Text Model_Told Model_ItemText
  Model_Routing Model_Repr Model_Fault.
Open Scope string_scope.
Open Scope list_scope.
Open Scope Z_scope.

(** The order in which CPython lists a frozenset depends on its hash table: [order] is any way of listing. *)
Definition refusal_told {A} (x : raised) : answer A := inr (raised_class x, raised_text x).
(** str() of a frozenset *)
Definition set_text (order : list Z -> list Z) (s : list Z) : string :=
  match order s with [] => "frozenset()" | l => cat ["frozenset({"; comma_join (map dec l); "})"] end.
(** [1 << n] *)
Definition shl1_told (n : Z) : answer Z :=
  if n <? 0 then inr (ValueError, "negative shift count") else inl (Z.shiftl 1 n).

(** routing_entry.py:213-227 _calc_spinnaker_route *)
Definition calc_route_told (order : list Z -> list Z) (procs links : list Z) : answer Z :=
  abind (fold_answer (fun r p => abind (shl1_told (MAX_LINKS_PER_ROUTER + p)) (fun b => inl (Z.lor r b))) (order procs) 0)
    (fun r => fold_answer (fun r l => abind (shl1_told l) (fun b => inl (Z.lor r b))) (order links) r).

(** routing_entry.py:49-120 __init__; an assert has no text *)
Definition new_entry_told (order : list Z -> list Z) (processor_ids link_ids : option ids)
  (incoming_processor incoming_link : option Z) (defaultable : option bool)
  (spinnaker_route : option Z) : answer entry :=
  match spinnaker_route with
  | None =>
      match processor_ids, link_ids, defaultable with
      | Some procs, Some links, None =>
          let procs := ids_list procs in
          let links := ids_list links in
          let ps := frozenset procs in
          let ls := frozenset links in
          abind (calc_route_told order ps ls) (fun route =>
          match incoming_link with
          | None => inl (mkEntry false (Some ps) (Some ls) route)
          | Some i =>
              match incoming_processor with
              | None =>
                  match links with
                  | [l] => inl (mkEntry ((i + 3) mod 6 =? l) (Some ps) (Some ls) route)
                  | _ => inl (mkEntry false (Some ps) (Some ls) route)
                  end
              | Some p =>
                  refusal_told (InvalidParameterE "incoming_processor" (dec p)
                    (cat ["The incoming direction for a path can only be from ";
                          "either one link or one processors, not both"]))
              end
          end)
      | _, _, _ => inr (AssertionError, "")
      end
  | Some route =>
      match processor_ids, link_ids, incoming_link, incoming_processor with
      | None, None, None, None =>
          inl (mkEntry (match defaultable with Some true => true | _ => false end) None None route)
      | _, _, _, _ => inr (AssertionError, "")
      end
  end.

(** router.py:146-176 convert_routing_table_entry_to_spinnaker_route *)
Definition convert_told (order : list Z -> list Z) (e : entry) : answer Z :=
  abind (fold_answer (fun r p =>
      if (p >=? MAX_CORES_PER_ROUTER) || (p <? 0) then
        refusal_told (InvalidParameterE "route.processor_ids" (set_text order (processor_ids e))
          (cat ["Processor IDs must be between 0 and "; dec (MAX_CORES_PER_ROUTER - 1)]))
      else abind (shl1_told (MAX_LINKS_PER_ROUTER + p)) (fun b => inl (Z.lor r b))) (order (processor_ids e)) 0) (fun r =>
  fold_answer (fun r l =>
      if (l >=? MAX_LINKS_PER_ROUTER) || (l <? 0) then
        refusal_told (InvalidParameterE "route.link_ids" (set_text order (link_ids e))
          (cat ["Link IDs must be between 0 and "; dec (MAX_LINKS_PER_ROUTER - 1)]))
      else abind (shl1_told l) (fun b => inl (Z.lor r b))) (order (link_ids e)) r).
