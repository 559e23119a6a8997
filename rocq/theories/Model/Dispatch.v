(** Model of calls of virtual methods in both languages: from C++ through the helper class, from Python through the wrappers
    (/repo/pybindgen/cppmethod.py:241-291, 884-963, 1060-1125; /repo/pybindgen/cppclass.py:270-337, 478-504). *)
From Verif.Model Require Import Py PyState Hierarchy MethodTable.
Open Scope string_scope.
Open Scope list_scope.

(** The method called: name, parameter types, constness. *)
Definition selector : Type := string * list string * bool.
Definition selects (s : selector) (m : method) : bool :=
  let '(n, types, c) := s in String.eqb (mt_name m) n && same_types (mt_ctypes m) types && Bool.eqb (mt_const m) c.
Definition called (s : selector) : string := fst (fst s).

(** A Python object of a wrapped class or of Python subclasses of it.  [ob_class]: the wrapped class; [ob_helper]: the C++
    object is of its helper class; [ob_python]: the names defined in the Python classes before the wrapped class in the order
    of the Python type, most derived first. *)
Record object : Type := mk_object { ob_class : nat; ob_helper : bool; ob_python : list (list string) }.

(** Which implementation a call ends in: that of a Python class, that of a C++ class, a pure virtual method (undefined), none
    (a proxy whose parent implementation may not be called returns without doing anything, or with a default value, or ends the
    program: cppmethod.py:1082-1105); or AttributeError or TypeError in Python. *)
Inductive body : Type := BPython (k : nat) | BCpp (c : nat) | BPure (c : nat) | BNone | BAttributeError | BTypeError.

(** The first Python class from number [from] on that defines [n]. *)
Fixpoint definer (n : string) (l : list (list string)) (k : nat) (from : nat) : option nat :=
  match l with
  | [] => None
  | names :: r => if Nat.leb from k && existsb (String.eqb n) names then Some k else definer n r (S k) from
  end.

Section Calls.
  Variables (ok proxy_ok : method -> bool) (copyable : nat -> bool).
  (** The classes after the forward declarations have been generated, and the order of the generation of the classes. *)
  Variable w : hier.
  Variable order : list nat.

  Definition resolution (i : nat) : list nat := match get_mro w i with Ok l => l | Err _ => [] end.
  Definition methods_of (i : nat) : list method := match nth_error w i with Some k => get_all_methods k | None => [] end.
  Definition helper_class (i : nat) : option helper := match nth_error w i with Some k => k_helper k | None => None end.

  (** The first class from [i] on that has a virtual method [s]. *)
  Definition holder (i : nat) (s : selector) : option (nat * method) :=
    let has c := find (fun m => mt_virtual m && selects s m) (methods_of c) in
    (fix go l := match l with
                 | [] => None
                 | c :: r => match has c with Some m => Some (c, m) | None => go r end
                 end) (resolution i).
  (** C++: obj->K::n(...), a call that is not dispatched, of class [i].  Simplification: what the C++ classes implement is what
      is declared. *)
  Definition qualified (i : nat) (s : selector) : body :=
    match holder i s with
    | Some (c, m) => if mt_pure m then BPure c else BCpp c
    | None => BAttributeError (* does not compile *)
    end.

  (** cppclass.py:457-473: the virtual methods the helper class of [i] overrides *)
  Definition proxies (i : nat) : list method := match helper_class i with Some h => filter proxy_ok (hp_virtuals h) | None => [] end.
  (** method.class_ of a virtual method in the helper class of [i].  cppclass.py:285-310, 1787-1799: its own methods are there
      first, then those of its ancestors in their order.  Simplification: this presupposes that the helper class was not
      disabled when the methods were added. *)
  Definition owner (i : nat) (s : selector) : nat := match holder i s with Some (c, _) => c | None => i end.

  (** C++: a dispatched call obj->n(...); through the proxy (cppmethod.py:1060-1125) if there is one.  See C34 for what the
      proxy does in detail. *)
  Definition call_virtual (o : object) (s : selector) : body :=
    match (if ob_helper o then find (selects s) (proxies (ob_class o)) else None) with
    | Some m =>
        match definer (called s) (ob_python o) 0 0 with
        | Some k => BPython k
        | None => if mt_pure m || match mt_vis m with Private => true | _ => false end then BNone
                  else qualified (owner (ob_class o) s) s
        end
    | None => qualified (ob_class o) s
    end.

  (** cppmethod.py:241-291: the wrapper of method [m] in the table of class [k].  The dynamic_cast succeeds if the object is of
      the helper class of [k]; helper classes do not derive from each other. *)
  Definition run_wrapper (o : object) (k : nat) (m : method) (s : selector) : body :=
    match helper_class k with
    | Some _ => if mt_virtual m && negb (mt_pure m) && (ob_helper o && Nat.eqb (ob_class o) k) then qualified k s else call_virtual o s
    | None => call_virtual o s
    end.

  (** cppclass.py:299-337 and 478-504: the parent callers of the helper class of [i] (settings.deprecated_virtuals is off).
      Simplification: those of protected methods that are not virtual are not modelled. *)
  Definition parent_callers (i : nat) : list method :=
    match helper_class i with
    | Some h => filter (fun m => is_protected (mt_vis m) && negb (mt_pure m) && ok m) (hp_virtuals h)
    | None => []
    end.
  Definition caller_names (i : nat) : list string := map mt_name (parent_callers i).
  (** cppmethod.py:919-963 *)
  Definition run_caller (o : object) (k : nat) (s : selector) : body :=
    match find (selects s) (parent_callers k) with
    | Some _ => if ob_helper o && Nat.eqb (ob_class o) k then qualified (owner k s) s else BTypeError
    | None => BTypeError
    end.

  Definition tables : list (nat * table) := generate_tables ok caller_names copyable order w.

  (** Python: x.n(...) if [from] is 0; super().n(...) in a method of Python class number [from - 1].  The overload of the
      wrapper chooses [s]: see C19. *)
  Definition call_python (o : object) (from : nat) (s : selector) : body :=
    match definer (called s) (ob_python o) 0 from with
    | Some k => BPython k
    | None =>
        match find_method tables w (ob_class o) (called s) with
        | None => BAttributeError
        | Some (k, TWrappers l) => match find (fun x => selects s (wr_method x)) l with
                                   | Some x => run_wrapper o k (wr_method x) s
                                   | None => BTypeError
                                   end
        | Some (k, TCaller) => run_caller o k s
        | Some (_, TCopy) => BTypeError
        end
    end.
End Calls.
