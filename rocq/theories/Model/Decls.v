(** Model of join_ctype_and_name and DeclarationsScope
    (/repo/pybindgen/typehandlers/base.py:60-86 and 407-510). *)
From Verif.Model Require Import Py CodeSink.
Open Scope string_scope.
Open Scope py_scope.

(** Last character of a string ([s[-1]], IndexError on the empty string). *)
Fixpoint last_char (s : string) : option ascii :=
  match s with
  | EmptyString => None
  | String c EmptyString => Some c
  | String _ r => last_char r
  end.

(** base.py:76-82: the loop over [i = -1, -2, ...] finds the last character that is not ['*'] and cuts
    the type after it: [ctype[:i+1]] and [ctype[i+1:]].  Structural version: [Some (head, stars, c)] with
    [c] the last non-star character, which ends [head]; [None] when every character is a star. *)
Fixpoint cut_stars (s : string) : option (string * string * ascii) :=
  match s with
  | EmptyString => None
  | String c r =>
      match cut_stars r with
      | Some (h, st, d) => Some (String c h, st, d)
      | None => if Ascii.eqb c "*"%char then None else Some (String c EmptyString, r, c)
      end
  end.

(** base.py:60-86 join_ctype_and_name *)
Definition join_ctype_and_name (ctype name : string) : res string :=
  match last_char ctype with
  | None => Err IndexError
  | Some c =>
      if Ascii.eqb c "*"%char then
        match cut_stars ctype with
        | Some (head, stars, d) =>
            if Ascii.eqb d " "%char then Ok (head ++ stars ++ name)
            else Ok (head ++ " " ++ stars ++ name)
        | None => Err ValueError
        end
      else Ok (join " " [ctype; name])
  end.

(** base.py:437-444 DeclarationsScope.__init__: the name table [declared_variables] is shared with the
    parent scope, the declarations sink is not.  A family of scopes sharing one table is the table plus
    one sink per scope; scope 0 is the root. *)
Record scopes : Type := { declared : dict N; sinks : list memsink }.

Definition scopes_init : scopes := {| declared := []; sinks := [mem_init] |}.

(** base.py:437-444 with parent_scope given. *)
Definition new_child (s : scopes) : scopes :=
  {| declared := declared s; sinks := (sinks s ++ [mem_init])%list |}.

Fixpoint update_nth {A} (n : nat) (f : A -> A) (l : list A) : list A :=
  match l, n with
  | [], _ => []
  | x :: r, O => f x :: r
  | x :: r, S m => x :: update_nth m f r
  end.

(** base.py:446-448 DeclarationsScope.clear on scope [i] *)
Definition clear_scope (s : scopes) (i : nat) : scopes :=
  {| declared := []; sinks := update_nth i (fun _ => mem_init) (sinks s) |}.

(** base.py:460-470 / 486-496: the counter and the name derived from it. *)
Definition next_num (s : scopes) (name : string) : N :=
  match dict_get (declared s) name with Some n => n + 1 | None => 0 + 1 end%N.

Definition var_name (name : string) (num : N) : string :=
  if (num =? 1)%N then name else name ++ decimal num.

(** base.py:480-497 reserve_variable *)
Definition reserve_variable (s : scopes) (name : string) : scopes * string :=
  let num := next_num s name in
  ({| declared := dict_set (declared s) name num; sinks := sinks s |}, var_name name num).

(** base.py:450-478 declare_variable on scope [i].  The counter is bumped before
    join_ctype_and_name can raise. *)
Definition declare_variable (s : scopes) (i : nat) (type_ name : string)
    (initializer array : option string) : scopes * res string :=
  let num := next_num s name in
  let s1 := {| declared := dict_set (declared s) name num; sinks := sinks s |} in
  let varname := var_name name num in
  match join_ctype_and_name type_ varname with
  | Err e => (s1, Err e)
  | Ok decl =>
      let decl := match array with Some a => decl ++ a | None => decl end in
      let decl := match initializer with Some v => decl ++ " = " ++ v | None => decl end in
      ({| declared := declared s1;
          sinks := update_nth i (fun m => mem_writeln m (decl ++ ";")) (sinks s1) |}, Ok varname)
  end.

(** base.py:160-166 CodeBlock.declare_variable *)
Definition block_declare_variable (s : scopes) (i : nat) (type_ name : string)
    (initializer array : option string) : scopes * res string :=
  if mem_char ":"%char name then (s, Err ValueError)
  else declare_variable s i type_ name initializer array.

(** The API calls on a family of scopes. *)
Inductive dop : Type :=
| DDeclare (scope : nat) (type_ name : string) (initializer array : option string)
| DReserve (name : string)
| DChild.

Definition dstep (s : scopes) (o : dop) : scopes * option (res string) :=
  match o with
  | DDeclare i t n ini arr => let (s', r) := declare_variable s i t n ini arr in (s', Some r)
  | DReserve n => let (s', r) := reserve_variable s n in (s', Some (Ok r))
  | DChild => (new_child s, None)
  end.

Fixpoint drun (s : scopes) (ops : list dop) : scopes * list (option (res string)) :=
  match ops with
  | [] => (s, [])
  | o :: r => let (s1, x) := dstep s o in let (s2, xs) := drun s1 r in (s2, x :: xs)
  end.
