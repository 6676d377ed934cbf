(** What version_factory and the constructors of the versions say: the texts of the
    exceptions and of the log.  Model_Factory and Model_Version have the same functions
    without the texts. *)
From Coq Require Import String Ascii.
From Verif Require Import Model_Py Model_Version Model_Str Model_Factory Model_Virtual Model_Text Model_Repr
  Model_Identity.
Open Scope string_scope.
Open Scope list_scope.
Open Scope Z_scope.

(** A line of the log: logger.info or logger.warning *)
Inductive said : Type := Info (text : string) | Warning (text : string).

(** The lines logged, and the value returned or the exception raised with its text *)
Definition told (A : Type) : Type := (list said * (A + exn * string))%type.
Definition tret {A} (a : A) : told A := ([], inl a).
(** raise SpinnMachineException(text) *)
Definition traise {A} (text : string) : told A := ([], inr (MachineExc, text)).
Definition tlog (l : list said) : told unit := (l, inl tt).
Definition tbind {A B} (r : told A) (f : A -> told B) : told B :=
  match r with
  | (l, inl a) => let '(l', b) := f a in (l ++ l', b)
  | (l, inr e) => (l, inr e)
  end.
Notation "'tell' x <- r ; f" := (tbind r (fun x => f)) (at level 200, x pattern, r at level 100, f at level 200).
(** A value or an exception of Python itself, whose text is not modelled *)
Definition of_res {A} (r : res A) : told A :=
  match r with Ok a => ([], inl a) | Err e => ([], inr (e, "")) end.

(** repr of a str, its characters those of Latin-1 (Objects/unicodeobject.c
    unicode_repr): between single quotes unless it has a single quote and no double quote *)
Definition hex_digit (n : nat) : ascii := ascii_of_nat (if Nat.ltb n 10 then 48 + n else 87 + n).
Definition unprintable (c : ascii) : bool :=
  let n := nat_of_ascii c in
  Nat.ltb n 32 || (Nat.leb 127 n && Nat.leb n 160) || Nat.eqb n 173.
Definition repr_char (quote c : ascii) : string :=
  if Ascii.eqb c quote || Ascii.eqb c "\" then String "\" (String c "")
  else if Ascii.eqb c "009" then "\t"
  else if Ascii.eqb c "010" then "\n"
  else if Ascii.eqb c "013" then "\r"
  else if unprintable c then
    String "\" (String "x" (String (hex_digit (nat_of_ascii c / 16)) (String (hex_digit (nat_of_ascii c mod 16)) "")))
  else String c "".
Fixpoint has_char (c : ascii) (s : string) : bool :=
  match s with EmptyString => false | String a s => Ascii.eqb a c || has_char c s end.
Fixpoint repr_chars (quote : ascii) (s : string) : string :=
  match s with EmptyString => "" | String a s => repr_char quote a ++ repr_chars quote s end.
Definition repr_str (s : string) : string :=
  let quote : ascii := if has_char "'" s && negb (has_char """" s) then """"%char else "'"%char in
  cat [String quote ""; repr_chars quote s; String quote ""].
(** repr of an Optional[int] and of an Optional[str] *)
Definition repr_int (o : option Z) : string := match o with Some n => dec n | None => "None" end.
Definition repr_opt (o : option string) : string := match o with Some s => repr_str s | None => "None" end.

(** version/version_3.py:64-69, version_201.py:63-68, version_48_chips.py:49-68 _verify_size *)
Definition verify_size_impl_told (v : vid) (width height : Z) : told unit :=
  match v with
  | V3 => if negb (width =? 2) then traise (cat ["Unexpected width="; dec width])
          else if negb (height =? 2) then traise (cat ["Unexpected height="; dec height]) else tret tt
  | V201 => if negb (width =? 1) then traise (cat ["Unexpected width="; dec width])
            else if negb (height =? 1) then traise (cat ["Unexpected height="; dec height]) else tret tt
  | V5 | V248 =>
      let not_supported := cat ["width="; dec width; " and height="; dec height; " not supported"] in
      if width <=? 8 then
        if (width =? 8) && (height =? 8) then tret tt else traise not_supported
      else if height <=? 8 then traise not_supported
      else if negb (width mod 4 =? 0) then
        traise (cat ["width="; dec width; " must be a multiple of 12 or a multiple of 12 plus 4"])
      else if negb (height mod 4 =? 0) then
        traise (cat ["height="; dec height; " must be a multiple of 12 or a multiple of 12 plus 4"])
      else tret tt
  end.

(** version/abstract_version.py:268-284 verify_size *)
Definition verify_size_told (v : vid) (width height : option Z) : told unit :=
  match width with
  | None => traise "Width can not be None"
  | Some w =>
      match height with
      | None => traise "Height can not be None"
      | Some h =>
          if w <=? 0 then traise (cat ["Unexpected width="; dec w])
          else if h <=? 0 then traise (cat ["Unexpected height="; dec h])
          else verify_size_impl_told v w h
      end
  end.

(** version/abstract_version.py:63-83 __verify_config_width_height *)
Definition verify_config_told (c : config) (v : vid) : told unit :=
  match cfg_width c with
  | None =>
      match cfg_height c with
      | None => tret tt
      | Some _ => traise "the cfg has a [Machine]width None but a no height"
      end
  | Some w =>
      match cfg_height c with
      | None => traise (cat ["the cfg has a [Machine]height "; dec w; " but a no width"])
      | Some h => verify_size_told v (Some w) (Some h)
      end
  end.

(** version/abstract_version.py:85-100 __set_max_cores_per_chip *)
Definition set_max_cores_told (c : config) (v : vid) (default : Z) : told Z :=
  match cfg_max_machine_core c with
  | None => tret default
  | Some m =>
      tell _ <- (if m >? default then
        tlog [Info (cat ["Ignoring csg setting [Machine]max_machine_core "; dec m; " as it is larger than ";
                         dec default; " which is the default for a "; version_name v; " board "])]
       else tret tt) ;
      if m <? default then
        tell _ <- tlog [Warning (cat ["Max cores per chip reduced to "; dec m;
                                      " due to cfg setting [Machine]max_machine_core"])] ;
        tret m
      else tret default
  end.

(** version/abstract_version.py:102-118 __set_max_sdram_per_chip; the warning has the
    argument of the function, not the new value *)
Definition set_max_sdram_told (c : config) (v : vid) (default : Z) : told Z :=
  match cfg_max_sdram c with
  | None => tret default
  | Some m =>
      tell _ <- (if m >? default then
        tlog [Info (cat ["Ignoring csg setting [Machine]max_sdram_allowed_per_chip "; dec m;
                         " as it is larger than "; dec default; " which is the default for a ";
                         version_name v; " board "])]
       else tret tt) ;
      if m <? default then
        tell _ <- tlog [Warning (cat ["Max SDRAM per chip reduced to "; dec default;
                                      " due to cfg setting [Machine]max_sdram_allowed_per_chip"])] ;
        tret m
      else tret default
  end.

(** version/abstract_version.py:58-61 __init__ *)
Definition new_version_told (c : config) (v : vid) : told version :=
  tell _ <- verify_config_told c v ;
  tell cores <- set_max_cores_told c v (default_max_cores v) ;
  tell sdram <- set_max_sdram_told c v (default_max_sdram v) ;
  tret (mkVersion v cores sdram).

(** version/version_strings.py:85-97 from_string *)
Definition options_told (s : string) : told (list Z) :=
  match find (fun m => String.eqb (shorten s) (shorten (fst m))) VERSION_STRINGS with
  | Some m => tret (snd m)
  | None => traise (cat ["No version for value="; repr_str s])
  end.

(** version/version_factory.py:87-102 _get_cfg_version *)
Definition get_cfg_told (c : config) (minor : Z) : told (option Z) :=
  tell version <-
    match cfg_versions c with
    | Some versions =>
        match cfg_version c with
        | Some n => traise (cat ["Both version="; dec n; " and versions="; repr_str versions; " found in cfg"])
        | None =>
            tell options <- options_told versions ;
            let n := Z.of_nat (List.length options) in
            if n =? 0 then of_res (Err ZeroDivision)
            else tell v <- of_res (py_index options (minor mod n)) ; tret (Some v)
        end
    | None => tret (cfg_version c)
    end ;
  tell _ <- match version with
            | None => tlog [Warning "The cfg has no version. This is deprecated! Please add a version"]
            | Some _ => tret tt
            end ;
  tret version.

(** version/version_factory.py:105-139 _get_url_version *)
Definition get_url_told (c : config) : told (option Z) :=
  if is_some (cfg_spalloc_server c) then
    if is_some (cfg_remote_spinnaker_url c) then
      traise "Both spalloc_server and remote_spinnaker_url specified in cfg"
    else if is_some (cfg_machine_name c) then traise "Both spalloc_server and machine_name specified in cfg"
    else if cfg_virtual_board c then traise "Both spalloc_server and virtual_board specified in cfg"
    else tret (Some 5)
  else if is_some (cfg_remote_spinnaker_url c) then
    if is_some (cfg_machine_name c) then traise "Both remote_spinnaker_url and machine_name specified in cfg"
    else if cfg_virtual_board c then traise "Both remote_spinnaker_url and virtual_board specified in cfg"
    else tret (Some 5)
  else if is_some (cfg_machine_name c) then
    if cfg_virtual_board c then traise "Both machine_name and virtual_board specified in cfg" else tret None
  else tret None.

(** version/version_factory.py:142-159 _get_size_version *)
Definition get_size_told (c : config) : told (option Z) :=
  match cfg_height c with
  | None => match cfg_width c with None => tret None | Some _ => traise "cfg has width but not height" end
  | Some h =>
      match cfg_width c with
      | None => traise "cfg has height but not width"
      | Some w =>
          if (h =? w) && (w =? 2) then tret (Some 3)
          else if (h =? w) && (w =? 1) then tret (Some 201)
          else tret (Some 5)
      end
  end.

(** version/version_factory.py:162-182 _number_to_version *)
Definition number_told (c : config) (n : Z) : told version :=
  if (n =? 2) || (n =? 3) then new_version_told c V3
  else if (n =? 4) || (n =? 5) then new_version_told c V5
  else if n =? 201 then new_version_told c V201
  else if n =? 248 then new_version_told c V248
  else traise (cat ["Unexpected cfg [Machine]version "; dec n]).

(** version/version_factory.py:185-206 raise_version_error *)
Definition version_error {A} (c : config) (error : string) (version : option Z) : told A :=
  traise (cat [error; " with cfg [Machine] values version="; repr_int version;
    ", machine_name="; repr_opt (cfg_machine_name c); ", spalloc_server="; repr_opt (cfg_spalloc_server c);
    ", remote_spinnaker_url="; repr_opt (cfg_remote_spinnaker_url c);
    ", virtual_board="; bool_str (cfg_virtual_board c); ", width="; repr_int (cfg_width c);
    ", and height="; repr_int (cfg_height c)]).

(** version/version_factory.py:40-84 version_factory *)
Definition version_factory_told (c : config) (minor : Z) : told version :=
  tell cfg_v <- get_cfg_told c minor ;
  tell url_v <- get_url_told c ;
  tell size_v <- get_size_told c ;
  tell v <- match cfg_v with
          | None =>
              match url_v with
              | None => tret None
              | Some u => tell x <- number_told c u ; tret (Some x)
              end
          | Some n =>
              match url_v with
              | None => tell x <- number_told c n ; tret (Some x)
              | Some u =>
                  tell version_cfg <- number_told c n ;
                  tell version_url <- number_told c u ;
                  if vid_eqb (v_id version_cfg) (v_id version_url)
                  then tret (Some version_cfg) else version_error c "Incorrect version" cfg_v
              end
          end ;
  match size_v with
  | None => match v with None => version_error c "No version" None | Some x => tret x end
  | Some s =>
      match v with
      | None =>
          tell _ <- tlog [Warning "Please add a version to your cfg file."] ;
          number_told c s
      | Some x =>
          tell sized <- number_told c s ;
          if vid_eqb (v_id x) (v_id sized) then tret x
          else traise "cfg width and height do not match other cfg setting."
      end
  end.
