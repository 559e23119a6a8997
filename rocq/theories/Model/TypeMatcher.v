(** Model of TypeMatcher (/repo/pybindgen/typehandlers/base.py:1349-1460) and of the choice of a type handler in
    ReturnValue.new / Parameter.new (base.py:1142-1172, 1243-1270).

    Handlers ([H]) and transformations ([T]) are arbitrary; [untransformed t name] is what the transformation's
    get_untransformed_name returns, or the exception it raises.  Debug logging is not modelled. *)
From Verif.Model Require Import Py Tokenizer CType.
Open Scope string_scope.
Open Scope list_scope.
Open Scope py_scope.

Section Matcher.
  Context {H T : Type} (untransformed : T -> string -> res (option string)).

  (** base.py:1355-1360 __init__ *)
  Record matcher : Type := mk_matcher {
    m_types : dict H;
    m_transformations : list T;
    m_aliases : dict string;       (* _type_aliases *)
    m_aliases_rev : dict string }. (* _type_aliases_rev *)

  Definition matcher_init : matcher := mk_matcher [] [] [] [].

  (** base.py:1363-1366 *)
  Definition register_transformation (m : matcher) (t : T) : matcher :=
    mk_matcher (m_types m) (m_transformations m ++ [t]) (m_aliases m) (m_aliases_rev m).

  (** base.py:1368-1378 *)
  Definition register (m : matcher) (name : string) (h : H) : res matcher :=
    n <- normalize_type_string name ;;
    match dict_get (m_types m) n with
    | Some _ => Err ValueError
    | None => Ok (mk_matcher (dict_set (m_types m) n h) (m_transformations m) (m_aliases m) (m_aliases_rev m))
    end.

  (** [alias in already_tried] *)
  Definition tried_in (n : string) (l : list string) : bool := existsb (String.eqb n) l.

  Definition opt_to_list (o : option string) : list string := match o with Some x => [x] | None => [] end.

  (** base.py:1389-1398: aliases_to_try *)
  Definition aliases_to_try (m : matcher) (n : string) : list string :=
    opt_to_list (dict_get (m_aliases m) n) ++ opt_to_list (dict_get (m_aliases_rev m) n).

  (** base.py:1380-1408 _raw_lookup_with_alias_support_recursive; [None] is KeyError.  The [for] loop returns from
      its first turn that does not [continue], so it is [find].  The recursion is bounded by [fuel]. *)
  Fixpoint raw_lookup_rec (fuel : nat) (m : matcher) (n : string) (tried : list string) : res (option H) :=
    match fuel with
    | O => Err OutOfFuel
    | S f =>
        match dict_get (m_types m) n with
        | Some h => Ok (Some h)
        | None =>
            match find (fun a => negb (tried_in a tried)) (aliases_to_try m n) with
            | Some a => raw_lookup_rec f m a (tried ++ [n])
            | None => Ok None
            end
        end
    end.

  (** Enough fuel: no name is visited more than twice (Proofs/MatcherProofs.v). *)
  Definition lookup_fuel (m : matcher) : nat := 2 * (length (m_aliases m) + length (m_aliases_rev m)) + 3.

  (** base.py:1380-1382 *)
  Definition raw_lookup (m : matcher) (n : string) : res (option H) := raw_lookup_rec (lookup_fuel m) m n [].

  (** Outcomes of lookup: the returned triple, TypeLookupError with the names it carries, another exception. *)
  Inductive found : Type :=
  | Found (h : H) (t : option T) (tr : traits)
  | NotFound (tried_names : list string)
  | Raised (e : pyexc).

  (** base.py:1426-1446: the loop over the transformations. *)
  Fixpoint try_transformations (m : matcher) (name : string) (ts : list T) (tried_names : list string) : found :=
    match ts with
    | [] => NotFound tried_names
    | t :: r =>
        match untransformed t name with
        | Err e => Raised e
        | Ok None => try_transformations m name r tried_names
        | Ok (Some u) =>
            match type_traits u with
            | Err e => Raised e
            | Ok tr =>
                let n := str_ctype (tt_no_modifiers tr) in
                match raw_lookup m n with
                | Err e => Raised e
                | Ok (Some h) => Found h (Some t) tr
                | Ok None => try_transformations m name r (tried_names ++ [n])
                end
            end
        end
    end.

  (** base.py:1410-1450 *)
  Definition lookup (m : matcher) (name : string) : found :=
    match type_traits name with
    | Err e => Raised e
    | Ok tr =>
        let n := str_ctype (tt_no_modifiers tr) in
        match raw_lookup m n with
        | Err e => Raised e
        | Ok (Some h) => Found h None tr
        | Ok None => try_transformations m name (m_transformations m) [n]
        end
    end.

  (** base.py:1456-1460 add_type_alias; TypeTraits(name).ctype prints as the normal form. *)
  Definition add_type_alias (m : matcher) (from_name to_name : string) : res matcher :=
    f <- type_traits from_name ;;
    t <- type_traits to_name ;;
    let f := str_ctype (tt_ctype f) in
    let t := str_ctype (tt_ctype t) in
    Ok (mk_matcher (m_types m) (m_transformations m) (dict_set (m_aliases m) t f) (dict_set (m_aliases_rev m) f t)).

  (** The calls that change a matcher. *)
  Inductive mop : Type :=
  | MRegister (name : string) (h : H)
  | MTransformation (t : T)
  | MAlias (from_name to_name : string).

  Definition mstep (m : matcher) (o : mop) : res matcher :=
    match o with
    | MRegister n h => register m n h
    | MTransformation t => Ok (register_transformation m t)
    | MAlias f t => add_type_alias m f t
    end.

  (** A history; a call that raises changes nothing and the client goes on. *)
  Definition mrun (m : matcher) (h : list mop) : matcher :=
    fold_left (fun m o => match mstep m o with Ok m' => m' | Err _ => m end) h m.

  (** base.py:1142-1172 and 1243-1270 [new]: the handler is built by its own constructor, from the type traits,
      when no transformation was needed, else by the transformation, from the given name. *)
  Inductive built : Type :=
  | ByHandler (h : H) (tr : traits)
  | ByTransformation (t : T) (h : H) (name : string)
  | NotBuilt (e : pyexc).
  Definition new_handler (m : matcher) (name : string) : built :=
    match lookup m name with
    | Found h None tr => ByHandler h tr
    | Found h (Some t) _ => ByTransformation t h name
    | NotFound _ => NotBuilt TypeLookupError
    | Raised e => NotBuilt e
    end.
End Matcher.
Arguments matcher : clear implicits.
Arguments mop : clear implicits.
Arguments found : clear implicits.
