(** Model of what importing a generated module does: the initialisation functions that ModuleBase.do_generate
    (/repo/pybindgen/module.py:679-877), CppClass.generate (cppclass.py:1888-2036), Container.generate (container.py:345-376),
    CppException.generate (cppexception.py:139-167) and Enum.generate (enum.py:138-177) write, executed.
    Simplifications: reference counts; errors raised while the wrappers of methods are generated; the method resolution order and the
    memory layout of a type with several bases always exist; wrappers of different declarations have different C names. *)
From Verif.Model Require Import Py.
Open Scope string_scope.
Open Scope list_scope.
Open Scope py_scope.

(** ** Declarations *)
(** A program is the list of its declarations, in order; a declaration is known by its position.  Position 0 is the root module.
    Strings are the names and C++ expressions as computed in Module.v. *)
Record classd : Type := mk_classd {
  c_name : string;            (* the name of the class in C++ *)
  c_custom : option string;   (* custom_name *)
  c_full : string;            (* full_name *)
  c_outer : option nat;       (* outer_class *)
  c_bases : list nat;         (* parent(s) *)
  c_static : bool;            (* has static attributes *)
  c_import : option string;   (* import_from_module *)
  c_capsules : list string;   (* names of the type map and of the wrapper registry *)
  c_iter : bool }.            (* add_container_traits *)
(** A value of an enumeration: a name, or a name and a C expression. *)
Inductive evalue : Type := EName (n : string) | EPair (n expr : string).
Inductive decl : Type :=
  | DModule (parent : option nat) (name prefix : string)    (* prefix: cpp_namespace_prefix *)
  | DFunction (m : nat) (name : string)
  | DClass (m : nat) (c : classd)
  | DContainer (m : nat) (name : string) (outer : option nat)
  | DException (m : nat) (name : string) (outer parent : option nat) (standard : bool)
  | DTypedef (m : nat) (cls : nat) (alias : string)
  | DEnum (m : nat) (values : list evalue) (values_prefix : string) (cpp_namespace : option string) (outer : option nat) (imported : bool).

(** cppclass.py:1875-1886 get_python_name (no template parameters) *)
Definition class_name (c : classd) : string := match c_custom c with Some n => n | None => c_name c end.

(** ** Python objects *)
(** The type of a class or container, or of its iterators. *)
Inductive tid : Type := Cls (k : nat) | Iter (k : nat).
Inductive thing : Type := XFunction (k : nat) | XType (t : tid) | XException (k : nat) | XInt (z : Z) | XModule (m : nat) | XCapsule (n : string).

(** ** Initialisation code *)
Inductive stmt : Type :=
  | SAdd (m : nat) (n : string) (x : thing)          (* PyModule_AddObject, PyModule_AddIntConstant, or an entry of the method table *)
  | SSetIn (o : nat) (n : string) (x : thing)        (* PyDict_SetItemString(<o>.tp_dict, ...) *)
  | SMeta (k : nat) (parent : option nat)            (* cppattribute.py:331-340: the metaclass, with Py_TYPE(&parent) *)
  | SBases (k : nat) (bases : list nat)              (* tp_base, tp_bases *)
  | SReady (t : tid)                                 (* PyType_Ready, and return on error *)
  | SImport (k : nat) (modname attr : string)        (* _<k> = PyObject_GetAttrString(PyImport_ImportModule(modname), attr) *)
  | SNewException (k : nat) (parent : option nat)    (* PyErr_NewException *)
  | SCall (m k : nat) (n : string).                  (* submodule = init<k>(); return on error; PyModule_AddObject(m, n, submodule) *)

(** In the dictionary of the outer class, or of the module. *)
Definition attach (m : nat) (outer : option nat) (n : string) (x : thing) : stmt :=
  match outer with None => SAdd m n x | Some o => SSetIn o n x end.

(** cppclass.py:1894-1897: "module named name".  (Simplification: with " named " twice the unpacking of split raises ValueError.) *)
Fixpoint split_named (s : string) : option string :=
  match s with
  | EmptyString => None
  | String a r => if String.prefix " named " s then Some EmptyString else match split_named r with Some x => Some (String a x) | None => None end
  end.
Definition import_module (s : string) : string := match split_named s with Some x => x | None => s end.

Section Code.
  Variable decls : list decl.
  (** What a C++ constant expression is as a long; None: it does not compile. *)
  Variable const : string -> option Z.

  Definition numbered : list (nat * decl) := combine (seq 0 (length decls)) decls.
  Definition prefix_of (m : nat) : string := match nth_error decls m with Some (DModule _ _ p) => p | _ => "" end.
  Definition full_of (k : nat) : string := match nth_error decls k with Some (DClass _ c) => c_full c | _ => "" end.

  (** cppclass.py:1933-2006, cppclass_container.py:134-147.  (A class nested in another cannot have container traits: see gen_item.) *)
  Definition class_code (k m : nat) (c : classd) : list stmt :=
    match c_import c with
    | Some s => [SImport k (import_module s) (class_name c)]
    | None =>
        map (fun n => SAdd m n (XCapsule n)) (c_capsules c) ++
        (if c_static c then [SMeta k (hd_error (c_bases c))] else []) ++
        (match c_bases c with [] => [] | l => [SBases k l] end) ++
        [SReady (Cls k); attach m (c_outer c) (class_name c) (XType (Cls k))] ++
        (if c_iter c then [SReady (Iter k); SAdd m (class_name c ++ "Iter") (XType (Iter k))] else [])
    end.
  (** container.py:345-369 *)
  Definition container_code (k m : nat) (name : string) (outer : option nat) : list stmt :=
    [SReady (Cls k); SReady (Iter k); attach m outer name (XType (Cls k)); attach m outer (name ++ "Iter") (XType (Iter k))].
  (** cppexception.py:139-167 *)
  Definition exception_code (k m : nat) (name : string) (outer parent : option nat) (standard : bool) : list stmt :=
    if standard then [] else [SNewException k parent; attach m outer name (XException k)].
  (** enum.py:138-177 *)
  Fixpoint join_names (l : list string) : string :=
    match l with [] => "" | [x] => x | x :: r => (x ++ "::" ++ join_names r)%string end.
  Definition value_name (v : evalue) : string := match v with EName n => n | EPair n _ => n end.
  Definition value_expr (m : nat) (values_prefix : string) (cpp_namespace outer : option string) (v : evalue) : string :=
    match v with
    | EPair _ e => e
    | EName n =>
        match outer with
        | None => join_names ((if String.eqb (prefix_of m) "" then [] else [prefix_of m]) ++ match cpp_namespace with Some s => if String.eqb s "" then [] else [s] | None => [] end ++ [(values_prefix ++ n)%string])
        | Some o => (o ++ "::" ++ n)%string
        end
    end.
  Definition enum_exprs (m : nat) (values : list evalue) (values_prefix : string) (cpp_namespace : option string) (outer : option nat) : list (string * string) :=
    map (fun v => (value_name v, value_expr m values_prefix cpp_namespace (option_map full_of outer) v)) values.
  Definition as_long (e : string) : Z := match const e with Some z => z | None => 0%Z end.
  Definition enum_code (m : nat) (l : list (string * string)) (outer : option nat) (imported : bool) : list stmt :=
    if imported then [] else map (fun x => attach m outer (fst x) (XInt (as_long (snd x)))) l.
  Definition compiles : bool :=
    forallb (fun d => match d with
                      | DEnum m vs p ns o false => forallb (fun x => match const (snd x) with Some _ => true | None => false end) (enum_exprs m vs p ns o)
                      | _ => true
                      end) decls.

  (** module.py:704-816: what each declaration of module [m] contributes, kind by kind *)
  Definition functions_code (m : nat) (x : nat * decl) : list stmt :=
    match snd x with DFunction m' n => if Nat.eqb m' m then [SAdd m n (XFunction (fst x))] else [] | _ => [] end.
  Definition classes_code (m : nat) (imported : bool) (x : nat * decl) : list stmt :=
    match snd x with
    | DClass m' c => if Nat.eqb m' m && Bool.eqb imported (match c_import c with Some _ => true | None => false end) then class_code (fst x) m c else []
    | _ => []
    end.
  Definition containers_code (m : nat) (x : nat * decl) : list stmt :=
    match snd x with DContainer m' n o => if Nat.eqb m' m then container_code (fst x) m n o else [] | _ => [] end.
  Definition exceptions_code (m : nat) (x : nat * decl) : list stmt :=
    match snd x with DException m' n o p s => if Nat.eqb m' m then exception_code (fst x) m n o p s else [] | _ => [] end.
  Definition typedefs_code (m : nat) (x : nat * decl) : list stmt :=
    match snd x with DTypedef m' k a => if Nat.eqb m' m then [SAdd m a (XType (Cls k))] else [] | _ => [] end.
  Definition enums_code (m : nat) (x : nat * decl) : list stmt :=
    match snd x with DEnum m' vs p ns o i => if Nat.eqb m' m then enum_code m (enum_exprs m vs p ns o) o i else [] | _ => [] end.
  Definition submodules_code (m : nat) (x : nat * decl) : list stmt :=
    match snd x with DModule (Some m') n _ => if Nat.eqb m' m then [SCall m (fst x) n] else [] | _ => [] end.
  Definition module_code (m : nat) : list stmt :=
    flat_map (functions_code m) numbered ++
    flat_map (classes_code m true) numbered ++ flat_map (classes_code m false) numbered ++
    flat_map (containers_code m) numbered ++ flat_map (exceptions_code m) numbered ++
    flat_map (typedefs_code m) numbered ++ flat_map (enums_code m) numbered ++ flat_map (submodules_code m) numbered.

  (** ** Generation *)
  (** The names of types (tp_name): cppclass.py:2223-2229, container.py:334-343, cppexception.py:120-128.  A missing slot is a KeyError. *)
  Fixpoint path (fuel m : nat) : string :=
    match fuel, nth_error decls m with
    | S f, Some (DModule (Some p) n _) => (path f p ++ "." ++ n)%string
    | _, Some (DModule _ n _) => n
    | _, _ => ""
    end.
  Definition module_path (m : nat) : string := path (S m) m.
  Definition names : Type := list (nat * string).
  Fixpoint slot (l : names) (k : nat) : option string :=
    match l with [] => None | (j, s) :: r => if Nat.eqb j k then Some s else slot r k end.
  Definition type_name (m : nat) (outer : option nat) (n : string) (l : names) : res string :=
    match outer with
    | None => Ok (module_path m ++ "." ++ n)%string
    | Some o => match slot l o with Some s => Ok (s ++ "." ++ n)%string | None => Err KeyError end
    end.
  Definition gen_item (x : nat * decl) (l : names) : res names :=
    match snd x with
    | DClass m c =>
        match c_import c with
        | Some _ => Ok l
        | None => if c_iter c && match c_outer c with Some _ => true | None => false end then Err AttributeError   (* cppclass_container.py:147 *)
                  else s <- type_name m (c_outer c) (c_name c) l ;; Ok ((fst x, s) :: l)
        end
    | DContainer m n o => s <- type_name m o n l ;; Ok ((fst x, s) :: l)
    | DException m n o _ std => if std then Ok l else s <- type_name m o n l ;; Ok ((fst x, s) :: l)
    | _ => Ok l
    end.
  Definition in_module (m : nat) (q : decl -> bool) : list (nat * decl) :=
    filter (fun x => q (snd x) && match snd x with
                                  | DModule (Some m') _ _ => Nat.eqb m' m
                                  | DModule None _ _ => false
                                  | DFunction m' _ | DClass m' _ | DContainer m' _ _ | DException m' _ _ _ _ | DTypedef m' _ _ | DEnum m' _ _ _ _ _ => Nat.eqb m' m
                                  end) numbered.
  Definition is_class (d : decl) : bool := match d with DClass _ _ => true | _ => false end.
  Definition is_container (d : decl) : bool := match d with DContainer _ _ _ => true | _ => false end.
  Definition is_exception (d : decl) : bool := match d with DException _ _ _ _ _ => true | _ => false end.
  Definition is_module (d : decl) : bool := match d with DModule _ _ _ => true | _ => false end.
  Section Fold.
    Variable f : nat * decl -> names -> res names.
    Fixpoint gen_items (xs : list (nat * decl)) (l : names) : res names :=
      match xs with [] => Ok l | x :: r => l' <- f x l ;; gen_items r l' end.
  End Fold.
  (** module.py:700-702: the submodules first *)
  Fixpoint gen_module (fuel m : nat) (l : names) : res names :=
    match fuel with
    | O => Err OutOfFuel
    | S f =>
        l1 <- gen_items (fun x => gen_module f (fst x)) (in_module m is_module) l ;;
        l2 <- gen_items gen_item (in_module m is_class) l1 ;;
        l3 <- gen_items gen_item (in_module m is_container) l2 ;;
        gen_items gen_item (in_module m is_exception) l3
    end.
  Definition generate : res names := gen_module (length decls) 0 [].

  (** ** Execution *)
  (** The modules that can be imported from elsewhere, and whether they have an attribute. *)
  Variable external : string -> option (string -> bool).
  (** A type that is ready: its bases (an empty list: object) and its dictionary. *)
  Record ty : Type := mk_ty { t_bases : list nat; t_dict : dict thing }.
  Record rt : Type := mk_rt {
    r_type : tid -> option ty;            (* the types that are ready *)
    r_bases : nat -> list nat;            (* tp_base and tp_bases *)
    r_exc : nat -> option (option nat);   (* the exceptions made, with their bases; no base: Exception *)
    r_mod : nat -> dict thing }.
  Definition rt_start : rt := mk_rt (fun _ => None) (fun _ => []) (fun _ => None) (fun _ => []).
  Inductive outcome : Type := Imported (r : rt) | ImportFailed | Crashed.

  Definition tid_eqb (a b : tid) : bool :=
    match a, b with Cls i, Cls j => Nat.eqb i j | Iter i, Iter j => Nat.eqb i j | _, _ => false end.
  Definition set_type (r : rt) (t : tid) (y : ty) : rt :=
    mk_rt (fun u => if tid_eqb t u then Some y else r_type r u) (r_bases r) (r_exc r) (r_mod r).
  Definition set_bases (r : rt) (k : nat) (l : list nat) : rt :=
    mk_rt (r_type r) (fun j => if Nat.eqb k j then l else r_bases r j) (r_exc r) (r_mod r).
  Definition set_exc (r : rt) (k : nat) (p : option nat) : rt :=
    mk_rt (r_type r) (r_bases r) (fun j => if Nat.eqb k j then Some p else r_exc r j) (r_mod r).
  Definition add_to (r : rt) (m : nat) (n : string) (x : thing) : rt :=
    mk_rt (r_type r) (r_bases r) (r_exc r) (fun j => if Nat.eqb m j then dict_set (r_mod r m) n x else r_mod r j).

  Definition imported_class (k : nat) : bool :=
    match nth_error decls k with Some (DClass _ c) => match c_import c with Some _ => true | None => false end | _ => false end.
  Definition standard_exception (k : nat) : bool :=
    match nth_error decls k with Some (DException _ _ _ _ s) => s | _ => false end.
  Definition is_ready (r : rt) (k : nat) : bool := match r_type r (Cls k) with Some _ => true | None => false end.

  (** CPython: PyType_Ready does nothing if the type is ready; it makes tp_base ready first; any other base that is not ready is a
      TypeError.  A class imported from elsewhere that was not found is a null pointer. *)
  Fixpoint ready (fuel : nat) (k : nat) (r : rt) : outcome :=
    match fuel with
    | O => Crashed
    | S f =>
        if is_ready r k then Imported r
        else match r_bases r k with
             | [] => Imported (set_type r (Cls k) (mk_ty [] []))
             | b :: rest =>
                 if imported_class b && negb (is_ready r b) then
                   match rest with [] => Imported (set_type r (Cls k) (mk_ty [] [])) | _ => Crashed end
                 else match ready f b r with
                      | Imported r' => if forallb (is_ready r') rest then Imported (set_type r' (Cls k) (mk_ty (b :: rest) [])) else ImportFailed
                      | o => o
                      end
             end
    end.

  Definition exec (s : stmt) (r : rt) : outcome :=
    match s with
    | SAdd m n x => Imported (add_to r m n x)
    | SSetIn o n x => match r_type r (Cls o) with Some y => Imported (set_type r (Cls o) (mk_ty (t_bases y) (dict_set (t_dict y) n x))) | None => Crashed end
    | SMeta _ None => Imported r
    | SMeta _ (Some p) => if is_ready r p then Imported r else Crashed
    | SBases k l =>   (* Py_INCREF of each of several bases *)
        if Nat.leb (length l) 1 || forallb (fun b => negb (imported_class b) || is_ready r b) l then Imported (set_bases r k l) else Crashed
    | SReady (Cls k) => ready (S (length decls)) k r
    | SReady (Iter k) => Imported (set_type r (Iter k) (mk_ty [] []))
    | SImport k mn a =>
        match external mn with
        | None => ImportFailed
        | Some has => Imported (if has a && negb (is_ready r k) then set_type r (Cls k) (mk_ty [] []) else r)
        end
    | SNewException k None => Imported (set_exc r k None)
    | SNewException k (Some p) => Imported (set_exc r k (if standard_exception p then Some p else match r_exc r p with Some _ => Some p | None => None end))
    | SCall _ _ _ => Crashed   (* see init *)
    end.
  Section Run.
    Variable step : stmt -> rt -> outcome.
    Fixpoint run (l : list stmt) (r : rt) : outcome :=
      match l with [] => Imported r | s :: rest => match step s r with Imported r' => run rest r' | o => o end end.
  End Run.
  (** The initialisation function of module [m] *)
  Fixpoint init (fuel m : nat) (r : rt) : outcome :=
    match fuel with
    | O => Crashed
    | S f =>
        run (fun s r => match s with
                        | SCall m' k n => match init f k r with Imported r' => Imported (add_to r' m' n (XModule k)) | o => o end
                        | _ => exec s r
                        end) (module_code m) r
    end.
  Definition import : outcome := init (length decls) 0 rt_start.
End Code.
