(** What the texts of the down items of the configuration say. *)
From Verif Require Import Model_Py Model_Version Model_Str Model_Ignore Spec_Str.
Open Scope list_scope.
Open Scope Z_scope.

(** Nothing is down: no text, or "None" in any case. *)
Definition says_nothing (t : option string) : Prop :=
  t = None \/ exists s, t = Some s /\ lower s = "none"%string.

(** The text is the texts of these items, joined by colons. *)
Definition says_chips (t : option string) (items : list ignore_chip) : Prop :=
  (says_nothing t /\ items = []) \/
  exists texts, texts <> [] /\ Forall2 chip_text texts items /\ t = Some (joined texts).

Definition says_links (t : option string) (items : list ignore_link) : Prop :=
  (says_nothing t /\ items = []) \/
  exists texts, texts <> [] /\ Forall2 link_text texts items /\ t = Some (joined texts).

(** A text of cores may name several, as a range. *)
Definition says_cores (v : vid) (t : option string) (items : list ignore_core) : Prop :=
  (says_nothing t /\ items = []) \/
  exists texts groups, texts <> [] /\ Forall (without ":") texts /\
    Forall2 (core_item_on v) texts groups /\ t = Some (joined texts) /\ items = List.concat groups.

(** The items without an address that name core [p] of chip (x, y): by its id if that is
    positive, by its physical id n, written -n, otherwise. *)
Definition names_core (items : list ignore_core) (x y p : Z) : Prop :=
  exists i, In i items /\ ico_ip i = None /\ ico_x i = x /\ ico_y i = y /\
    ((0 < ico_p i /\ p = ico_p i) \/
     (-17 <= ico_p i <= 0 /\ p = if - ico_p i =? 10 then 0 else - ico_p i + 1)).
