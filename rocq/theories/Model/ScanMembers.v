(** The members of a class in a header file: /repo/pybindgen/castxmlparser.py:1840-2188 (ModuleParser._scan_class_methods) *)
From Verif.Model Require Import Py.
Open Scope string_scope.
Open Scope list_scope.

(** What castxml reports of a member.  (Simplifications: types are names; exceptions are numbers; template arguments, comments, hooks
    and operators handled by _scan_class_operators are left out; of the annotations ignore, name, unblock_threads and throw are kept.) *)
Inductive access : Type := APublic | AProtected | APrivate.
Inductive virtuality : Type := VNot | VVirtual | VPure.
Record func := mk_func {
  f_name : string; f_ignore : bool; f_access : access; f_virtuality : virtuality; f_const : bool; f_static : bool; f_deprecated : bool;
  f_return : string; f_params : list (string * string);
  f_custom : option string; f_threads : option bool; f_annotated : list nat; f_exceptions : list nat }.
Record ctor := mk_ctor {
  k_ignore : bool; k_access : access; k_params : list (string * string);
  k_copy : bool (* its one parameter is a reference to the class *); k_deprecated : bool; k_exceptions : list nat }.
Record var := mk_var { v_name : string; v_ignore : bool; v_access : access; v_static : bool; v_const : bool; v_type : string; v_untyped : bool (* of an anonymous type *) }.
Inductive member : Type := Method (f : func) | Operator (symbol : string) (f : func) | Constructor (name : string) (k : ctor) | Attribute (v : var) | Destructor.

(** What is declared for the class: calls of CppClass methods, in memory or in the script. *)
Record method_decl := mk_method_decl {
  d_name : string; d_return : string; d_params : list (string * string);
  d_custom : option string; d_threads : option bool; d_throw : list nat;
  d_const : bool; d_static : bool; d_virtual : bool; d_pure : bool; d_access : access; d_deprecated : bool }.
Inductive call : Type :=
| AddMethod (d : method_decl)
| AddConstructor (params : list (string * string)) (a : access) (throw : list nat) (deprecated : bool)
| AddCopyConstructor
| AddStaticAttribute (name type : string) (const : bool)
| AddInstanceAttribute (name type : string) (const : bool)
| SetCannotBeConstructed
| DisableHelper.

(** The surroundings: the names of the reference counting methods of the class (1867-1872); whether it allows subclassing; what
    pygccxml says of its constructors (2174-2188); which return types and parameter types have handlers, and which methods
    add_method takes without NotSupportedError. *)
Record env := mk_env {
  e_counting : list string; e_subclassing : bool; e_trivial : bool; e_copy : bool;
  e_return : string -> bool; e_param : string -> bool; e_accepts : method_decl -> bool }.

Definition member_name (m : member) : string :=
  match m with Method f | Operator _ f => f_name f | Constructor n _ => n | Attribute v => v_name v | Destructor => "" end.
Definition member_ignored (m : member) : bool :=
  match m with Method f | Operator _ f => f_ignore f | Constructor _ k => k_ignore k | Attribute v => v_ignore v | Destructor => false end.
Definition is_private (a : access) : bool := match a with APrivate => true | _ => false end.
Definition is_public (a : access) : bool := match a with APublic => true | _ => false end.
Definition is_virtual (v : virtuality) : bool := match v with VNot => false | _ => true end.
Definition is_pure (v : virtuality) : bool := match v with VPure => true | _ => false end.

(** castxmlparser.py:1893-1985: the arguments of add_method. *)
Definition method_args (custom : option string) (f : func) : method_decl :=
  mk_method_decl (f_name f) (f_return f) (f_params f) custom (f_threads f) (match f_exceptions f with [] => f_annotated f | l => l end)
    (f_const f) (f_static f) (is_virtual (f_virtuality f)) (is_pure (f_virtuality f)) (f_access f) (f_deprecated f).
(** castxmlparser.py:1892-2058: what is done in memory and what is written to the script. *)
Definition scan_function (e : env) (custom : option string) (f : func) : list call * list call :=
  let pure := is_pure (f_virtuality f) in
  let d := method_args custom f in
  let pre := if pure && negb (e_subclassing e) then [SetCannotBeConstructed] else [] in
  let unwrapped := if pure then [SetCannotBeConstructed; DisableHelper] else [] in
  if is_private (f_access f) && negb (is_virtual (f_virtuality f)) then (pre, [])
  else if negb (e_return e (f_return f)) then (pre ++ unwrapped, [AddMethod d])
  else if negb (forallb (fun p => e_param e (fst p)) (f_params f)) then (pre ++ unwrapped, [AddMethod d])
  else if e_accepts e d then (pre ++ [AddMethod d], [AddMethod d])
  else (pre ++ unwrapped, AddMethod d :: unwrapped).
(** castxmlparser.py:2119-2170 *)
Definition scan_variable (e : env) (v : var) : list call * list call :=
  if String.eqb (v_name v) "" then ([], [])
  else if negb (is_public (v_access v)) then ([], [])
  else if v_untyped v then ([], [])
  else
    let c := if v_static v then AddStaticAttribute (v_name v) (v_type v) (v_const v) else AddInstanceAttribute (v_name v) (v_type v) (v_const v) in
    ((if e_return e (v_type v) then [c] else []), [c]).
Record state := mk_state { s_trivial : bool; s_copy : bool; s_calls : list call; s_script : list call }.
Definition emit (cs : list call * list call) (s : state) : state := mk_state (s_trivial s) (s_copy s) (s_calls s ++ fst cs) (s_script s ++ snd cs).
(** castxmlparser.py:2060-2117 *)
Definition scan_constructor (e : env) (k : ctor) (s : state) : state :=
  if is_private (k_access k) then s
  else
    let s := match k_params k with [] => mk_state true (s_copy s) (s_calls s) (s_script s) | _ => s end in
    let c := AddConstructor (k_params k) (k_access k) (k_exceptions k) (k_deprecated k) in
    if forallb (fun p => e_param e (fst p)) (k_params k) then
      let s := emit ([c], [c]) s in
      match k_params k with
      | [_] => if k_copy k then mk_state (s_trivial s) true (s_calls s) (s_script s) else s
      | _ => s
      end
    else emit ([], [c]) s.
(** castxmlparser.py:1874-2172: one turn of the main loop. *)
Definition scan_member (e : env) (s : state) (m : member) : state :=
  if existsb (String.eqb (member_name m)) (e_counting e) then s
  else if member_ignored m then s
  else
    match m with
    | Method f => emit (scan_function e (f_custom f) f) s
    | Operator symbol f => if String.eqb symbol "()" then emit (scan_function e (Some "__call__") f) s else s
    | Constructor _ k => scan_constructor e k s
    | Attribute v => emit (scan_variable e v) s
    | Destructor => s
    end.
(** castxmlparser.py:1849-1866: constructors that are not public. *)
Definition hidden_constructor (s : state) (m : member) : state :=
  match m with
  | Constructor _ k =>
      if is_public (k_access k) then s
      else
        match k_params k with
        | [] => mk_state true (s_copy s) (s_calls s) (s_script s)
        | [_] => if k_copy k then mk_state (s_trivial s) true (s_calls s) (s_script s) else s
        | _ => s
        end
  | _ => s
  end.
(** castxmlparser.py:1840-2188: the calls in memory and those in the script. *)
Definition scan_members (e : env) (ms : list member) : list call * list call :=
  let s := fold_left hidden_constructor ms (mk_state false false [] []) in
  let s := fold_left (scan_member e) ms s in
  let s := if negb (s_trivial s) && e_trivial e then emit ([AddConstructor [] APublic [] false], [AddConstructor [] APublic [] false]) s else s in
  let s := if negb (s_copy s) && e_copy e then emit ([AddCopyConstructor], [AddCopyConstructor]) s else s in
  (s_calls s, s_script s).
