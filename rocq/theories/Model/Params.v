(** Model of ParseTupleParameters and BuildValueParameters
    (/repo/pybindgen/typehandlers/base.py:244-405). *)
From Verif.Model Require Import Py.
Open Scope string_scope.
Open Scope py_scope.

(** base.py:274, 297: an item is (template, values, name, optional). *)
Record pitem : Type := {
  p_template : string; p_values : list string; p_name : option string; p_optional : bool }.

(** base.py:279-301 add_parameter; returns the list and its length. *)
Definition parse_add (l : list pitem) (i : pitem) (prepend : bool) : list pitem * nat :=
  let l' := if prepend then i :: l else (l ++ [i])%list in (l', List.length l').

(** base.py:306-330 get_parameters.  [template] is the list of pieces joined at the end; the loop state
    is [last_was_optional]. *)
Fixpoint parse_template (l : list pitem) (last_was_optional : bool) : res (list string) :=
  match l with
  | [] => Ok []
  | i :: r =>
      if last_was_optional && negb (p_optional i) then Err ValueError
      else
        let bar := negb last_was_optional && p_optional i in
        t <- parse_template r (last_was_optional || bar) ;;
        Ok ((if bar then ["|"] else []) ++ p_template i :: t)%list
  end.
Definition dquote : string := String (ascii_of_nat 34) EmptyString.
Definition parse_get_parameters (l : list pitem) : res (list string) :=
  t <- parse_template l false ;;
  Ok ((dquote ++ String.concat "" t ++ dquote) :: flat_map p_values l).

(** base.py:303-304 is_empty *)
Definition parse_is_empty (l : list pitem) : res bool :=
  p <- parse_get_parameters l ;;
  Ok (match p with [x] => String.eqb x (dquote ++ dquote) | _ => false end).

(** base.py:332-350 get_keywords *)
Fixpoint keywords_loop (l : list pitem) (keywords : list string) : res (list string) :=
  match l with
  | [] => Ok keywords
  | i :: r =>
      match p_name i with
      | None => match keywords with [] => keywords_loop r keywords | _ => Err ValueError end
      | Some n => keywords_loop r (keywords ++ [n])%list
      end
  end.
Definition get_keywords (l : list pitem) : res (option (list string)) :=
  kw <- keywords_loop l [] ;;
  match kw with
  | [] => Ok None
  | _ => if Nat.eqb (List.length kw) (List.length l) then Ok (Some kw) else Err ValueError
  end.

(** base.py:353-388 BuildValueParameters: items are (template, values, cancels_cleanup). *)
Record bitem : Type := { b_template : string; b_values : list string; b_cleanup : option nat }.

Definition build_add (l : list bitem) (i : bitem) (prepend : bool) : list bitem :=
  if prepend then i :: l else (l ++ [i])%list.

(** base.py:394-413 get_parameters *)
Definition build_get_parameters (l : list bitem) (force_tuple_creation : bool) : list string :=
  (dquote ++ (if force_tuple_creation then "(" else "") ++
   String.concat "" (map b_template l) ++ (if force_tuple_creation then ")" else "") ++ dquote)
  :: flat_map b_values l.

(** base.py:415-417 get_cleanups *)
Definition build_get_cleanups (l : list bitem) : list (option nat) := map b_cleanup l.

(** API calls. *)
Inductive pop : Type := PAdd (i : pitem) (prepend : bool) | PClear.
Definition pstep (l : list pitem) (o : pop) : list pitem :=
  match o with PAdd i pre => fst (parse_add l i pre) | PClear => [] end.
Definition prun (l : list pitem) (h : list pop) : list pitem := fold_left pstep h l.

Inductive vop : Type := VAdd (i : bitem) (prepend : bool) | VClear.
Definition vstep (l : list bitem) (o : vop) : list bitem :=
  match o with VAdd i pre => build_add l i pre | VClear => [] end.
Definition vrun (l : list bitem) (h : list vop) : list bitem := fold_left vstep h l.
