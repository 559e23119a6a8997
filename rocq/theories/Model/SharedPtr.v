(** Model of classes managed by shared pointers (/repo/pybindgen/typehandlers/smart_ptr.py, and the parts of
    /repo/pybindgen/cppclass.py and cppmethod.py it uses): what the generated code does, at run time, to the shared pointers.
    Simplifications: one wrapped class without helper class (with one, the generated code does not compile:
    cppclass.py:2830-2836 casts the shared pointer itself) and without __copy__ (neither: cppclass.py:2305); no C++ exceptions. *)
From Verif.Model Require Import Py.
Open Scope list_scope.

(** ** Memory *)
(** A C++ object: its address, the number of shared pointers to it, whether it exists. *)
Record cobj : Type := mk_cobj { o_addr : nat; o_count : nat; o_alive : bool }.
(** The member 'obj' of a wrapper: raw memory, or a shared pointer, to an object or empty. *)
Inductive sptr : Type := Raw | Ptr (p : option nat).
(** A Python object wrapping an object: the shared pointer, its reference count, whether it exists. *)
Record wrap : Type := mk_wrap { w_obj : sptr; w_refs : nat; w_alive : bool }.
(** [s_kept]: the shared pointers that C++ code keeps; [s_registry]: address and wrapper; [s_log]: the objects deleted, latest
    first. *)
Record state : Type := mk_state {
  s_objs : list cobj; s_wraps : list wrap; s_kept : list (option nat); s_registry : list (nat * nat); s_log : list nat }.
Definition start : state := mk_state [] [] [] [] [].

(** Functions that return None: undefined behaviour. *)
Definition bind {A B} (x : option A) (f : A -> option B) : option B := match x with Some a => f a | None => None end.
Notation "x <- a ;; b" := (bind a (fun x => b)) (at level 61, a at next level, right associativity).

Fixpoint replace {A} (l : list A) (i : nat) (x : A) : list A :=
  match l, i with
  | [], _ => []
  | _ :: r, O => x :: r
  | y :: r, S j => y :: replace r j x
  end.
Definition set_obj (s : state) (i : nat) (o : cobj) : state := mk_state (replace (s_objs s) i o) (s_wraps s) (s_kept s) (s_registry s) (s_log s).
Definition set_wrap (s : state) (i : nat) (w : wrap) : state := mk_state (s_objs s) (replace (s_wraps s) i w) (s_kept s) (s_registry s) (s_log s).
Definition set_kept (s : state) (l : list (option nat)) : state := mk_state (s_objs s) (s_wraps s) l (s_registry s) (s_log s).
Definition set_registry (s : state) (l : list (nat * nat)) : state := mk_state (s_objs s) (s_wraps s) (s_kept s) l (s_log s).
Definition add_obj (s : state) (o : cobj) : state := mk_state (s_objs s ++ [o]) (s_wraps s) (s_kept s) (s_registry s) (s_log s).
Definition add_wrap (s : state) (w : wrap) : state := mk_state (s_objs s) (s_wraps s ++ [w]) (s_kept s) (s_registry s) (s_log s).
Definition log (s : state) (i : nat) : state := mk_state (s_objs s) (s_wraps s) (s_kept s) (s_registry s) (i :: s_log s).

(** ** std::shared_ptr *)
(** Copying a pointer. *)
Definition copy_ptr (p : option nat) (s : state) : option state :=
  match p with
  | None => Some s
  | Some i => match nth_error (s_objs s) i with
              | Some o => if o_alive o then Some (set_obj s i (mk_cobj (o_addr o) (S (o_count o)) true)) else None
              | None => None
              end
  end.
(** Destroying a pointer. *)
Definition drop_ptr (p : option nat) (s : state) : option state :=
  match p with
  | None => Some s
  | Some i => match nth_error (s_objs s) i with
              | Some o => if o_alive o then
                            match o_count o with
                            | S (S n) => Some (set_obj s i (mk_cobj (o_addr o) (S n) true))
                            | S O => Some (log (set_obj s i (mk_cobj (o_addr o) 0 false)) i)
                            | O => None
                            end
                          else None
              | None => None
              end
  end.
Fixpoint drop_all (l : list (option nat)) (s : state) : option state :=
  match l with [] => Some s | p :: r => s' <- drop_ptr p s ;; drop_all r s' end.
(** p.get(): 0 is the null pointer *)
Definition get (p : option nat) (s : state) : nat :=
  match p with Some i => match nth_error (s_objs s) i with Some o => o_addr o | None => 0 end | None => 0 end.

(** new: an address that no existing object has; [a] itself if possible. *)
Definition used (s : state) (a : nat) : bool := existsb (fun o => o_alive o && Nat.eqb (o_addr o) a) (s_objs s).
Definition place (s : state) (a : nat) : nat :=
  if Nat.eqb a 0 || used s a then S (list_max (map o_addr (s_objs s))) else a.
(** make_shared, or a shared pointer constructed from new: the object, to which there is one pointer *)
Definition make (a : nat) (s : state) : state * nat := (add_obj s (mk_cobj (place s a) 1 true), length (s_objs s)).

(** ** Wrappers *)
(** self->obj = p, where [p] is a temporary (smart_ptr.py:92-93 reset, 125-126): the old pointer is released *)
Definition move_to (i : nat) (p : option nat) (s : state) : option state :=
  match nth_error (s_wraps s) i with
  | Some w => match w_obj w with
              | Raw => None
              | Ptr old => drop_ptr old (set_wrap s i (mk_wrap (Ptr p) (w_refs w) (w_alive w)))
              end
  | None => None
  end.
(** self->obj = p, where [p] remains *)
Definition assign (i : nat) (p : option nat) (s : state) : option state := s' <- copy_ptr p s ;; move_to i p s'.

(** tp_new is PyType_GenericNew: the memory is filled with zeros.  Simplification: such a shared pointer is an empty one. *)
Definition tp_new (s : state) : state * nat := (add_wrap s (mk_wrap (Ptr None) 1 true), length (s_wraps s)).
(** cppmethod.py:651-654: the constructor of the class creates an instance in self->obj *)
Definition tp_init (i a : nat) (s : state) : option state := let '(s', o) := make a s in move_to i (Some o) s'.

(** cppclass.py:2646-2664 write_allocate_pystruct: PyObject_New, then the code of get_pystruct_init_code (smart_ptr.py:38-39) *)
Definition allocate (s : state) : state * nat := (add_wrap s (mk_wrap Raw 1 true), length (s_wraps s)).
Definition init_pystruct (i : nat) (s : state) : option state :=
  w <- nth_error (s_wraps s) i ;; Some (set_wrap s i (mk_wrap (Ptr None) (w_refs w) (w_alive w))).

(** wrapper_registry.py:103-129: a std::map from addresses to wrappers.  [std_map] is false for NullWrapperRegistry. *)
Section Registry.
Variable std_map : bool.
Fixpoint find_entry (l : list (nat * nat)) (a : nat) : option nat :=
  match l with [] => None | (b, i) :: r => if Nat.eqb b a then Some i else find_entry r a end.
Definition erase (l : list (nat * nat)) (a : nat) : list (nat * nat) := filter (fun x => negb (Nat.eqb (fst x) a)) l.
Definition register (a i : nat) (s : state) : state :=
  if std_map then set_registry s ((a, i) :: erase (s_registry s) a) else s.
Definition unregister (a : nat) (s : state) : state := if std_map then set_registry s (erase (s_registry s) a) else s.

(** Py_INCREF, Py_DECREF *)
Definition incref (i : nat) (s : state) : option state :=
  w <- nth_error (s_wraps s) i ;;
  if w_alive w then Some (set_wrap s i (mk_wrap (w_obj w) (S (w_refs w)) true)) else None.
(** cppclass.py:2549-2583 tp_dealloc: unregister, destroy the shared pointer (smart_ptr.py:26-27), free the memory *)
Definition dealloc (i : nat) (s : state) : option state :=
  w <- nth_error (s_wraps s) i ;;
  match w_obj w with
  | Raw => None
  | Ptr p =>
      s' <- drop_ptr p (unregister (get p s) s) ;;
      Some (set_wrap s' i (mk_wrap Raw 0 false))
  end.
Definition decref (i : nat) (s : state) : option state :=
  w <- nth_error (s_wraps s) i ;;
  if w_alive w then
    match w_refs w with
    | S (S n) => Some (set_wrap s i (mk_wrap (w_obj w) (S n) true))
    | _ => dealloc i s
    end
  else None.

(** ** Calls of C++ functions *)
(** A parameter: null_ok, and whether it has a default value. *)
Record param : Type := mk_param { p_null_ok : bool; p_default : bool }.
(** An argument: an instance of the class, None, another object, or none given. *)
Inductive arg : Type := AWrap (i : nat) | ANone | AOther | AMissing.

(** PyArg_ParseTupleAndKeywords: O! checks the type (smart_ptr.py:180, 203-204) *)
Definition parses (x : param * arg) : bool :=
  match snd x with
  | AWrap _ => true
  | AMissing => p_default (fst x)
  | _ => p_null_ok (fst x)
  end.
(** smart_ptr.py:182-205: the check and the value of the parameter; None: the check fails.  [inr]: an error. *)
Definition value_of (x : param * arg) (s : state) : option (sum (option nat) unit) :=
  match snd x with
  | AWrap i => w <- nth_error (s_wraps s) i ;; if w_alive w then match w_obj w with Raw => None | Ptr p => Some (inl p) end else None
  | AOther => Some (inr tt)
  | _ => Some (inl None)
  end.
(** The local variables <name>_ptr, and whether a check failed *)
Fixpoint convert (l : list (param * arg)) (s : state) : option (state * list (option nat) * bool) :=
  match l with
  | [] => Some (s, [], true)
  | x :: r =>
      v <- value_of x s ;;
      match v with
      | inr _ => Some (s, [], false)
      | inl p => s' <- copy_ptr p s ;;
                 y <- convert r s' ;;
                 let '(s'', ps, ok) := y in Some (s'', p :: ps, ok)
      end
  end.

(** What C++ code does: keep a copy of an argument, make and keep an object, forget one of the pointers it keeps. *)
Inductive cact : Type := CKeep (k : nat) | CNew (a : nat) | CForget (h : nat).
Definition pointer (l : list (option nat)) (k : nat) : option nat := match nth_error l k with Some p => p | None => None end.
Definition run_cact (args : list (option nat)) (c : cact) (s : state) : option state :=
  match c with
  | CKeep k => s' <- copy_ptr (pointer args k) s ;; Some (set_kept s' (s_kept s' ++ [pointer args k]))
  | CNew a => let '(s', o) := make a s in Some (set_kept s' (s_kept s' ++ [Some o]))
  | CForget h => drop_ptr (pointer (s_kept s) h) (set_kept s (replace (s_kept s) h None))
  end.
Fixpoint run_cacts (args : list (option nat)) (l : list cact) (s : state) : option state :=
  match l with [] => Some s | c :: r => s' <- run_cact args c s ;; run_cacts args r s' end.
(** What it returns: nothing, an empty pointer, an argument, a pointer it keeps, a new object. *)
Inductive cresult : Type := CVoid | CNull | CArg (k : nat) | CKept (h : nat) | CMade (a : nat).
Definition returned (args : list (option nat)) (r : cresult) (s : state) : option (state * option nat) :=
  match r with
  | CVoid | CNull => Some (s, None)
  | CArg k => s' <- copy_ptr (pointer args k) s ;; Some (s', pointer args k)
  | CKept h => s' <- copy_ptr (pointer (s_kept s) h) s ;; Some (s', pointer (s_kept s) h)
  | CMade a => let '(s', o) := make a s in Some (s', Some o)
  end.

Inductive answer : Type := PNone | PWrap (i : nat) | PTypeError.
(** smart_ptr.py:319-344 and cppclass.py:2680-2723, 2777-2824: the wrapper of a returned object; [p] is the variable retval.
    Simplification: no automatic type narrowing. *)
Definition wrap_result (p : option nat) (s : state) : option (state * answer) :=
  match p with
  | None => Some (s, PNone)
  | Some o =>
      match (if std_map then find_entry (s_registry s) (get p s) else None) with
      | Some i => s' <- incref i s ;; Some (s', PWrap i)
      | None =>
          let '(s1, i) := allocate s in
          s2 <- init_pystruct i s1 ;;
          s3 <- assign i p s2 ;;
          Some (register (get p s3) i s3, PWrap i)
      end
  end.
(** The whole wrapper.  The callee gets copies of the local variables; they are destroyed after the call, the local variables at
    the end of the wrapper. *)
Fixpoint copy_all (l : list (option nat)) (s : state) : option state :=
  match l with [] => Some s | p :: r => s' <- copy_ptr p s ;; copy_all r s' end.
Definition call (args : list (param * arg)) (body : list cact) (r : cresult) (s : state) : option (state * answer) :=
  if forallb parses args then
    x <- convert args s ;;
    let '(s1, locals, ok) := x in
    if ok then
      s2 <- copy_all locals s1 ;;
      s3 <- run_cacts locals body s2 ;;
      y <- returned locals r s3 ;;
      let '(s4, p) := y in
      s5 <- drop_all locals s4 ;;
      z <- match r with CVoid => Some (s5, PNone) | _ => wrap_result p s5 end ;;
      let '(s6, a) := z in
      s7 <- drop_ptr p s6 ;;
      s8 <- drop_all locals s7 ;;
      Some (s8, a)
    else
      s2 <- drop_all locals s1 ;;
      Some (s2, PTypeError)
  else Some (s, PTypeError).

(** ** Programs *)
(** Python: makes an instance (tp_new, which it may let go before calling __init__), calls __init__, takes or drops a reference, calls a function; C++ code acts on
    its own. *)
Inductive action : Type :=
  | New | Init (i a : nat) | Keep (i : nat) | Drop (i : nat) | Call (args : list (param * arg)) (body : list cact) (r : cresult) | Cpp (body : list cact).
Definition step (a : action) (s : state) : option (state * answer) :=
  match a with
  | New => let '(s', i) := tp_new s in Some (s', PWrap i)
  | Init i a => s' <- tp_init i a s ;; Some (s', PNone)
  | Keep i => s' <- incref i s ;; Some (s', PNone)
  | Drop i => s' <- decref i s ;; Some (s', PNone)
  | Call args body r => call args body r s
  | Cpp body => s' <- run_cacts [] body s ;; Some (s', PNone)
  end.
End Registry.
