(** Attributes of wrapped classes: add_instance_attribute, add_custom_instance_attribute, add_static_attribute, the generated
    getters, setters and PyGetSetDef tables, and what Python does with them.
    /repo/pybindgen/cppattribute.py, /repo/pybindgen/cppcustomattribute.py, /repo/pybindgen/cppclass.py:1689-1790, 1957-1995 *)
From Verif.Model Require Import Py MethodTable.
Open Scope string_scope.
Open Scope list_scope.
Open Scope py_scope.

(** ** Declarations *)
(** A value type is a ReturnValue object, identified by a number: two declarations have the same number when the script passes
    one object to both (a string or a retval(...) gives a new object each time).  The last arguments of [ACustom] are the
    template parameters of the two functions. *)
Inductive adecl : Type :=
| AInstance (cls : nat) (name : string) (vt : nat) (const : bool) (getter setter custom_name : option string)
| ACustom (cls : nat) (name : string) (vt : nat) (const : bool) (getter : string) (setter custom_name : option string) (gt st : list string)
| AStatic (cls : nat) (name : string) (vt : nat) (const : bool).
Definition d_class (d : adecl) : nat := match d with AInstance k _ _ _ _ _ _ | ACustom k _ _ _ _ _ _ _ _ | AStatic k _ _ _ => k end.
Definition d_name (d : adecl) : string := match d with AInstance _ n _ _ _ _ _ | ACustom _ n _ _ _ _ _ _ _ | AStatic _ n _ _ => n end.
Definition d_vt (d : adecl) : nat := match d with AInstance _ _ v _ _ _ _ | ACustom _ _ v _ _ _ _ _ _ | AStatic _ _ v _ => v end.
Definition d_const (d : adecl) : bool := match d with AInstance _ _ _ c _ _ _ | ACustom _ _ _ c _ _ _ _ _ | AStatic _ _ _ c => c end.
Definition d_setter (d : adecl) : option string := match d with AInstance _ _ _ _ _ s _ | ACustom _ _ _ _ _ s _ _ _ => s | AStatic _ _ _ _ => None end.
Definition d_custom (d : adecl) : option string := match d with AInstance _ _ _ _ _ _ x | ACustom _ _ _ _ _ _ x _ _ => x | AStatic _ _ _ _ => None end.
Definition d_static (d : adecl) : bool := match d with AStatic _ _ _ _ => true | _ => false end.

(** The C expression in the attribute 'value' of a ReturnValue. *)
Inductive cexpr : Type :=
| EMember (n : string)                              (* self->obj->n *)
| EMethod (g : string)                              (* self->obj->g() *)
| EFunction (k : nat) (g : string) (ts : list string) (* g<ts>( *((PyK * )self)->obj): the text has a space before some commas *)
| EStaticMember (k : nat) (n : string)              (* K::n *)
| ETemporary.                                       (* tmp_value *)
Definition values : Type := nat -> option cexpr.
Definition set_value (v : values) (i : nat) (e : cexpr) : values := fun j => if Nat.eqb i j then Some e else v j.

(** cppattribute.py:59-62, cppcustomattribute.py:24-31, cppattribute.py:96: what the constructor of the getter stores *)
Definition getter_value (d : adecl) : cexpr :=
  match d with
  | AInstance _ n _ _ None _ _ => EMember n
  | AInstance _ _ _ _ (Some g) _ _ => EMethod g
  | ACustom k _ _ _ g _ _ gt _ => EFunction k g gt
  | AStatic k n _ _ => EStaticMember k n
  end.

(** The tables of all classes, in the order of the declarations (one list: each class takes its own). *)
Record attrs := mk_attrs { s_values : values; s_entries : list adecl }.
Definition no_attrs : attrs := mk_attrs (fun _ => None) [].

(** cppclass.py:1689-1716, 1718-1752, 1754-1786.  The getter is constructed first; with is_const, a setter is refused by an
    assertion; the constructor of a static setter stores the expression again (cppattribute.py:208). *)
Definition declare (s : attrs) (d : adecl) : attrs * res unit :=
  let v := set_value (s_values s) (d_vt d) (getter_value d) in
  match d_const d, d_setter d with
  | true, Some _ => (mk_attrs v (s_entries s), Err AssertionError)
  | true, None => (mk_attrs v (s_entries s ++ [d]), Ok tt)
  | false, _ =>
      let v' := match d with AStatic k n vt _ => set_value v vt (EStaticMember k n) | _ => v end in
      (mk_attrs v' (s_entries s ++ [d]), Ok tt)
  end.
(** A script that goes on after a failed call. *)
Fixpoint declare_all (ds : list adecl) (s : attrs) : attrs * list (res unit) :=
  match ds with
  | [] => (s, [])
  | d :: r => let '(s1, a) := declare s d in let '(s2, l) := declare_all r s1 in (s2, a :: l)
  end.

(** ** Generation *)
(** What a setter does with the converted value. *)
Inductive ctarget : Type := TAssign (e : cexpr) | TMethod (m : string) | TFunction (k : nat) (f : string) (ts : list string).
(** A generated function, with the value type that converts, whether it is static (it has no 'self'), and its class. *)
Inductive cfun : Type :=
| CGet (k vt : nat) (static : bool) (e : cexpr)
| CSet (k vt : nat) (static : bool) (t : ctarget).
Record row := mk_row { w_name : string; w_get : option string; w_set : option string }.
(** The C names of the functions and NULL. *)
Record gstate := mk_gstate { g_values : values; g_funs : list (string * cfun) }.

Section Generate.
  (** The names of the wrapper structures of the classes (self.pystruct). *)
  Variable pystruct : nat -> string.
  (** The exception raised by convert_c_to_python / convert_python_to_c of a value type, if any; what the error handler answers
      (None: there is no error handler). *)
  Variables get_fails set_fails : nat -> option pyexc.
  Variable handler : option bool.

  (** cppattribute.py:57, 93, 142, 206 *)
  Definition get_name (d : adecl) : string := "_wrap_" ++ pystruct (d_class d) ++ "__get_" ++ d_name d.
  Definition set_name (d : adecl) : string := "_wrap_" ++ pystruct (d_class d) ++ "__set_" ++ d_name d.

  (** base.py:934-940: NotImplementedError becomes CodeGenerationError; cppattribute.py has no such clause for setters. *)
  Definition get_error (vt : nat) : option pyexc :=
    match get_fails vt with Some NotImplementedError => Some CodeGenerationError | o => o end.
  (** utils.py:178-197: inl: the exception to propagate; inr: skip *)
  Definition handled (e : pyexc) : res unit :=
    match e with
    | TypeConfigurationError | CodeGenerationError | NotSupportedError =>
        match handler with Some true => Ok tt | _ => Err e end
    | _ => Err e
    end.

  (** cppattribute.py:68-80, 102-115; cppcustomattribute.py:37-49: the expression is the one in the value type now.
      (Simplification: of the type handler's code only the expression it reads is kept.) *)
  Definition generate_getter (s : gstate) (d : adecl) : res (gstate * option string) :=
    match get_error (d_vt d) with
    | Some e => _ <- handled e ;; Ok (s, None)
    | None =>
        let e := match g_values s (d_vt d) with Some e => e | None => ETemporary end in
        Ok (mk_gstate (g_values s) (g_funs s ++ [(get_name d, CGet (d_class d) (d_vt d) (d_static d) e)]), Some (get_name d))
    end.
  (** cppattribute.py:145-191, 211-247; cppcustomattribute.py:73-128: instance setters first redirect the value type. *)
  Definition setter_values (s : gstate) (d : adecl) : values :=
    match d with
    | AStatic _ _ _ _ => g_values s
    | AInstance _ n vt _ _ None _ | ACustom _ n vt _ _ None _ _ _ => set_value (g_values s) vt (EMember n)
    | AInstance _ _ vt _ _ (Some _) _ | ACustom _ _ vt _ _ (Some _) _ _ _ => set_value (g_values s) vt ETemporary
    end.
  Definition setter_target (v : values) (d : adecl) : ctarget :=
    match d with
    | AInstance _ _ _ _ _ (Some m) _ => TMethod m
    | ACustom k _ _ _ _ (Some f) _ _ st => TFunction k f st
    | _ => TAssign (match v (d_vt d) with Some e => e | None => ETemporary end)
    end.
  Definition generate_setter (s : gstate) (d : adecl) : res (gstate * option string) :=
    let v := setter_values s d in
    match set_fails (d_vt d) with
    | Some e => _ <- handled e ;; Ok (mk_gstate v (g_funs s), None)
    | None => Ok (mk_gstate v (g_funs s ++ [(set_name d, CSet (d_class d) (d_vt d) (d_static d) (setter_target v d))]), Some (set_name d))
    end.

  (** cppattribute.py:412: "custom_name or name" *)
  Definition shown_name (d : adecl) : string :=
    match d_custom d with Some n => if String.eqb n "" then d_name d else n | None => d_name d end.

  (** cppattribute.py:372-428: the entries one after the other; a name that is already in the table fails the assertion. *)
  Fixpoint generate_entries (s : gstate) (seen : list string) (ds : list adecl) : res (gstate * list row) :=
    match ds with
    | [] => Ok (s, [])
    | d :: r =>
        x <- generate_getter s d ;;
        y <- (if d_const d then Ok (fst x, None) else generate_setter (fst x) d) ;;
        if existsb (String.eqb (d_name d)) seen then Err AssertionError
        else z <- generate_entries (fst y) (d_name d :: seen) r ;;
             Ok (fst z, mk_row (shown_name d) (snd x) (snd y) :: snd z)
    end.

  (** The tables of a class: cppclass.py:1957-1960. *)
  Record tables := mk_tables { t_instance : list row; t_static : list row }.
  Definition of_class (k : nat) (static : bool) (d : adecl) : bool := Nat.eqb (d_class d) k && Bool.eqb (d_static d) static.
  Definition generate_class (s : gstate) (entries : list adecl) (k : nat) : res (gstate * tables) :=
    x <- generate_entries s [] (filter (of_class k false) entries) ;;
    y <- generate_entries (fst x) [] (filter (of_class k true) entries) ;;
    Ok (fst y, mk_tables (snd x) (snd y)).
  Fixpoint generate_classes (s : gstate) (entries : list adecl) (order : list nat) : res (gstate * list (nat * tables)) :=
    match order with
    | [] => Ok (s, [])
    | k :: r =>
        x <- generate_class s entries k ;;
        y <- generate_classes (fst x) entries r ;;
        Ok (fst y, (k, snd x) :: snd y)
    end.
  (** Declarations, then generation of the classes in [order]. *)
  Definition generate (ds : list adecl) (order : list nat) : res (list (string * cfun) * list (nat * tables)) :=
    let s := fst (declare_all ds no_attrs) in
    x <- generate_classes (mk_gstate (s_values s) []) (s_entries s) order ;;
    Ok (g_funs (fst x), snd x).
End Generate.

(** ** The C++ compiler *)
(** A static function has no 'self'; a getter has no 'tmp_value'; only members can be assigned. *)
Definition fun_ok (f : cfun) : bool :=
  match f with
  | CGet _ _ true e => match e with EStaticMember _ _ => true | _ => false end
  | CGet _ _ false e => match e with ETemporary => false | _ => true end
  | CSet _ _ st (TAssign e) => match e with EStaticMember _ _ => true | EMember _ => negb st | _ => false end
  | CSet _ _ st _ => negb st
  end.
Fixpoint distinct (l : list string) : bool :=
  match l with [] => true | x :: r => negb (existsb (String.eqb x) r) && distinct r end.
Definition compiles (fs : list (string * cfun)) : bool := distinct (map fst fs) && forallb (fun x => fun_ok (snd x)) fs.

(** ** Python *)
(** The order of the classes of a type: [python_mro] of MethodTable.v, for [parents]. *)
Section Order.
  Variable parents : nat -> list nat.
  Fixpoint attr_mro (fuel : nat) (i : nat) : option (list nat) :=
    match fuel with
    | O => None
    | S f =>
        match parents i with
        | [] => Some [i]
        | [b] => option_map (cons i) (attr_mro f b)
        | bs => match gather (map (attr_mro f) bs) with
                | None => None
                | Some ls => option_map (cons i) (merge (length (concat ls) + length bs) (ls ++ [bs]))
                end
        end
    end.
  Definition mro (i : nat) : option (list nat) := attr_mro (S i) i.
  (** cppclass.py:1966-1977: the metaclass of a class with static attributes derives from that of the first parent; a class
      without them has the metaclass of its first parent (CPython, type_ready_set_type): the classes along the first parents. *)
  Fixpoint line (fuel : nat) (i : nat) : list nat :=
    match fuel with
    | O => []
    | S f => i :: match parents i with [] => [] | b :: _ => line f b end
    end.
  Definition meta_line (i : nat) : list nat := line (S i) i.
End Order.

Inductive outcome (St Py : Type) : Type :=
| Done (x : Py) (s : St)
| Stored (s : St)
| Raised (e : pyexc)
| NotAttribute      (* something else than an attribute of the module: a method, an entry of a dictionary *)
| Undefined         (* the pointer is used for an object of another class *)
| Crash.
Arguments Done {St Py}. Arguments Stored {St Py}. Arguments Raised {St Py}. Arguments NotAttribute {St Py}. Arguments Undefined {St Py}. Arguments Crash {St Py}.

(** The wrapped C++ program, and the conversions of the value types.  [k] is the class as which the object is accessed. *)
Record program (St Val Py Obj : Type) := mk_program {
  member_get : Obj -> nat -> string -> St -> Val;
  member_set : Obj -> nat -> string -> Val -> St -> St;
  method_get : Obj -> nat -> string -> St -> Val * St;
  method_set : Obj -> nat -> string -> Val -> St -> St;
  function_get : Obj -> nat -> string -> list string -> St -> Val * St;
  function_set : Obj -> nat -> string -> list string -> Val -> St -> St;
  static_get : nat -> string -> St -> Val;
  static_set : nat -> string -> Val -> St -> St;
  to_py : nat -> Val -> Py;
  of_py : nat -> Py -> option Val }.
Arguments member_get {St Val Py Obj}. Arguments member_set {St Val Py Obj}. Arguments method_get {St Val Py Obj}. Arguments method_set {St Val Py Obj}.
Arguments function_get {St Val Py Obj}. Arguments function_set {St Val Py Obj}. Arguments static_get {St Val Py Obj}. Arguments static_set {St Val Py Obj}.
Arguments to_py {St Val Py Obj}. Arguments of_py {St Val Py Obj}.

Section Run.
  Context {St Val Py Obj : Type}.
  Variable P : program St Val Py Obj.
  Variable parents : nat -> list nat.
  (** The other names in the dictionary of the type: methods and slot wrappers, which are entered before the getsets. *)
  Variable methods : nat -> list string.
  Variable funs : list (string * cfun).
  Variable tabs : list (nat * tables).

  Definition function_named (n : string) : option cfun := option_map snd (find (fun x => String.eqb (fst x) n) funs).
  Definition tables_of (k : nat) : tables := match find (fun x => Nat.eqb (fst x) k) tabs with Some x => snd x | None => mk_tables [] [] end.
  (** CPython, type_add_getset: names that are already there are left alone. *)
  Definition row_named (l : list row) (n : string) : option row := find (fun w => String.eqb (w_name w) n) l.

  (** 'self' is the wrapper of an object of class [i]; the function takes it for one of class [k] (a cast of function pointers):
      the address is right when [k] is [i] or reached by first parents. *)
  Definition same_address (i k : nat) : bool := existsb (Nat.eqb k) (line parents (S i) i).
  Definition eval (i k : nat) (o : Obj) (e : cexpr) (s : St) : option (Val * St) :=
    match e with
    | EMember n => if same_address i k then Some (member_get P o k n s, s) else None
    | EMethod g => if same_address i k then Some (method_get P o k g s) else None
    | EFunction c g ts => if same_address i k then Some (function_get P o c g ts s) else None
    | EStaticMember c n => Some (static_get P c n s, s)
    | ETemporary => None
    end.
  Definition assign (i k : nat) (o : Obj) (t : ctarget) (v : Val) (s : St) : option St :=
    match t with
    | TAssign (EMember n) => if same_address i k then Some (member_set P o k n v s) else None
    | TAssign (EStaticMember c n) => Some (static_set P c n v s)
    | TAssign _ => None
    | TMethod m => if same_address i k then Some (method_set P o k m v s) else None
    | TFunction c f ts => if same_address i k then Some (function_set P o c f ts v s) else None
    end.
  (** (Simplification: a conversion that fails leaves everything as it was.) *)
  Definition call_getter (i : nat) (o : Obj) (f : cfun) (s : St) : outcome St Py :=
    match f with
    | CGet k vt _ e => match eval i k o e s with Some (v, s') => Done (to_py P vt v) s' | None => Undefined end
    | CSet _ _ _ _ => Undefined
    end.
  (** [None]: the attribute is to be deleted; Py_BuildValue("(O)", NULL) is NULL and PyArg_ParseTuple gets it. *)
  Definition call_setter (i : nat) (o : Obj) (f : cfun) (x : option Py) (s : St) : outcome St Py :=
    match f, x with
    | CSet k vt _ t, Some x =>
        match of_py P vt x with
        | None => Raised TypeError
        | Some v => match assign i k o t v s with Some s' => Stored s' | None => Undefined end
        end
    | CSet _ _ _ _, None => Crash
    | CGet _ _ _ _, _ => Undefined
    end.
  (** CPython, getset_get and getset_set: NULL gives AttributeError. *)
  Definition get_row (i : nat) (o : Obj) (w : row) (s : St) : outcome St Py :=
    match w_get w with
    | None => Raised AttributeError
    | Some f => match function_named f with Some f => call_getter i o f s | None => Undefined end
    end.
  Definition set_row (i : nat) (o : Obj) (w : row) (x : option Py) (s : St) : outcome St Py :=
    match w_set w with
    | None => Raised AttributeError
    | Some f => match function_named f with Some f => call_setter i o f x s | None => Undefined end
    end.

  (** Looking a name up in the dictionaries of the types of an order: None: nowhere; Some None: not an attribute. *)
  Fixpoint find_in_types (order : list nat) (n : string) : option (option row) :=
    match order with
    | [] => None
    | k :: r => if existsb (String.eqb n) (methods k) then Some None
                else match row_named (t_instance (tables_of k)) n with Some w => Some (Some w) | None => find_in_types r n end
    end.
  Fixpoint find_in_metatypes (order : list nat) (n : string) : option row :=
    match order with
    | [] => None
    | k :: r => match row_named (t_static (tables_of k)) n with Some w => Some w | None => find_in_metatypes r n end
    end.

  (** x.n, x.n = v and del x.n for an instance of class [i] (PyObject_GenericGetAttr, PyObject_GenericSetAttr: a getset is a
      data descriptor).  A name that is nowhere: AttributeError, or the dictionary of the instance if it has one. *)
  Definition with_row (i : nat) (n : string) (k : row -> outcome St Py) : outcome St Py :=
    match mro parents i with
    | None => NotAttribute
    | Some order => match find_in_types order n with
                    | None => Raised AttributeError
                    | Some None => NotAttribute
                    | Some (Some w) => k w
                    end
    end.
  Definition read (i : nat) (o : Obj) (n : string) (s : St) : outcome St Py := with_row i n (fun w => get_row i o w s).
  Definition write (i : nat) (o : Obj) (n : string) (x : option Py) (s : St) : outcome St Py := with_row i n (fun w => set_row i o w x s).

  (** C.n and C.n = v (cppattribute.py:338: the metaclass sets attributes like any object); [o] is not used by static functions.
      A name that is not in a metaclass is looked up in the type itself. *)
  Definition static_read (i : nat) (o : Obj) (n : string) (s : St) : outcome St Py :=
    match find_in_metatypes (meta_line parents i) n with
    | Some w => get_row i o w s
    | None => match mro parents i with
              | Some order => match find_in_types order n with Some _ => NotAttribute | None => Raised AttributeError end
              | None => NotAttribute
              end
    end.
  Definition static_write (i : nat) (o : Obj) (n : string) (x : option Py) (s : St) : outcome St Py :=
    match find_in_metatypes (meta_line parents i) n with
    | Some w => set_row i o w x s
    | None => NotAttribute
    end.
End Run.
