(** What the history of calls on a type matcher says about a type name. *)
From Verif.Model Require Import Py Tokenizer CType TypeMatcher.
From Verif.Spec Require Import TypeSpec.
Open Scope string_scope.
Open Scope list_scope.

Section Spec.
  Context {H T : Type}.
  Notation history := (list (mop H T)).

  Definition spelled (name n : string) : bool :=
    match normalize_type_string name with Ok m => String.eqb m n | Err _ => false end.

  (** The first handler registered for a type whose name has the normal form [n]: later ones are refused. *)
  Fixpoint handler_of (h : history) (n : string) : option H :=
    match h with
    | [] => None
    | MRegister name x :: r => if spelled name n then Some x else handler_of r n
    | _ :: r => handler_of r n
    end.

  (** The original type of the latest alias declaration with [n] as the alias, and the alias of the latest one with
      [n] as the original type.  Declarations whose names cannot be read are refused. *)
  Fixpoint latest (sel : string -> string -> option string) (h : history) : option string :=
    match h with
    | [] => None
    | MAlias f t :: r =>
        match latest sel r with
        | Some x => Some x
        | None => match normalize_type_string f, normalize_type_string t with
                  | Ok f', Ok t' => sel f' t'
                  | _, _ => None
                  end
        end
    | _ :: r => latest sel r
    end.
  Definition original_of (h : history) (n : string) : option string :=
    latest (fun f t => if String.eqb t n then Some f else None) h.
  Definition alias_of (h : history) (n : string) : option string :=
    latest (fun f t => if String.eqb f n then Some t else None) h.

  (** The transformations registered, in order. *)
  Fixpoint transformations_of (h : history) : list T :=
    match h with
    | [] => []
    | MTransformation t :: r => t :: transformations_of r
    | _ :: r => transformations_of r
    end.

  (** The name tried after [n]: the original type, else the alias, if it was not tried before. *)
  Inductive next (h : history) (before : list string) (n : string) : option string -> Prop :=
  | next_original a : original_of h n = Some a -> ~ In a before -> next h before n (Some a)
  | next_alias a : (forall b, original_of h n = Some b -> In b before) -> alias_of h n = Some a -> ~ In a before ->
      next h before n (Some a)
  | next_none : (forall b, original_of h n = Some b -> In b before) -> (forall b, alias_of h n = Some b -> In b before) ->
      next h before n None.

  (** The names tried for [n], in order: up to the first one with a handler. *)
  Inductive tries (h : history) : list string -> string -> list string -> Prop :=
  | tries_found before n x : handler_of h n = Some x -> tries h before n [n]
  | tries_end before n : handler_of h n = None -> next h before n None -> tries h before n [n]
  | tries_next before n a p : handler_of h n = None -> next h before n (Some a) -> tries h (before ++ [n]) a p ->
      tries h before n (n :: p).

  (** The handler of a normal form, following aliases; [None] if the names tried end without a handler. *)
  Definition resolves (h : history) (n : string) (x : option H) : Prop :=
    exists p, tries h [] n p /\ x = handler_of h (last p n).

  (** The key under which a type name is looked up: its words without the outer qualifiers. *)
  Definition plain (l : list item) : list item := filter (fun i => negb (qualifier i)) l.
  Definition key (name n : string) : Prop := exists l, parse_type name = Ok l /\ n = str_ctype (plain l).

  (** What a transformation does with a name: it does not apply, it leads to nothing known, or to a handler. *)
  Inductive attempt (u : T -> string -> res (option string)) (h : history) (name : string) (t : T) :
      option string -> option H -> Prop :=
  | att_no : u t name = Ok None -> attempt u h name t None None
  | att_try v k x : u t name = Ok (Some v) -> key v k -> resolves h k x -> attempt u h name t (Some k) x.
End Spec.
