(** Model of comparison operators of wrapped classes: registration (/repo/pybindgen/cppclass.py:823-836), the generated
    tp_richcompare function (cppclass.py:2026-2027 and 2588-2635), its use by Python 3 comparisons, and hashing.
    Not modelled: a tp_richcompare or tp_hash given by the script in [slots]; Python classes that override the comparison methods or
    __hash__; C++ operators that throw; errors of PyObject_IsInstance. *)
From Verif.Model Require Import Py.
Open Scope string_scope.
Open Scope list_scope.

Definition cls : Type := nat.
(** The operation numbers of Python: Py_LT ... *)
Inductive opid : Type := LT | LE | EQ | NE | GT | GE.

(** ** Registration *)
(** The set binary_comparison_operators of each class. *)
Definition world : Type := cls -> list string.
(** cppclass.py:823-836. *)
Definition add_comparison (w : world) (c : cls) (op : string) : world * option pyexc :=
  if existsb (String.eqb op) ["=="; "!="; "<"; "<="; ">"; ">="]
  then (fun d => if Nat.eqb d c then (if existsb (String.eqb op) (w c) then w c else w c ++ [op]) else w d, None)
  else (w, Some ValueError).
(** A script catches the exceptions of the calls. *)
Fixpoint run_calls (w : world) (l : list (cls * string)) : world :=
  match l with [] => w | (c, op) :: r => run_calls (fst (add_comparison w c op)) r end.
Definition declared (l : list (cls * string)) : world := run_calls (fun _ => []) l.

(** ** The generated function *)
Inductive stmt : Type :=
| IfNotInstance (c : cls) (body : list stmt)          (* if (!PyObject_IsInstance(other, type of c)) *)
| Switch (cases : list (opid * list stmt))
| ReturnCompare (op : string)                         (* if ( *self->obj op *other->obj) return True else return False *)
| ReturnNotImplemented.
(** cppclass.py:2606-2621. *)
Definition wrap_operator (ops : list string) (name : string) (o : opid) : opid * list stmt :=
  (o, if existsb (String.eqb name) ops then [ReturnCompare name] else [ReturnNotImplemented]).
(** cppclass.py:2026-2027 and 2588-2635. *)
Definition richcompare (w : world) (c : cls) : option (list stmt) :=
  match w c with
  | [] => None
  | ops => Some
      [IfNotInstance c [ReturnNotImplemented];
       Switch [wrap_operator ops "<" LT; wrap_operator ops "<=" LE; wrap_operator ops "==" EQ;
               wrap_operator ops "!=" NE; wrap_operator ops ">=" GE; wrap_operator ops ">" GT];
       ReturnNotImplemented]
  end.

(** ** Execution *)
Section Run.
  Variables atom value : Type.
  (** Instances of wrapped classes or of Python classes derived from them (classes without operators here), by number; others. *)
  Inductive obj : Type := Inst (n : nat) | Other (a : atom).
  (** The class of each instance and its C++ object: none before __init__ or after the object was given away. *)
  Definition heap : Type := list (cls * option value).
  (** The class and its ancestors, in the order in which Python looks up slots. *)
  Variable line : cls -> list cls.
  (** The class that an object claims by an attribute __class__: PyObject_IsInstance believes it. *)
  Variable claims : atom -> option cls.
  (** The C++ object of an instance of the first class, as one of the second; the C++ operators. *)
  Variable as_class : cls -> cls -> value -> value.
  Variable cpp : string -> cls -> value -> value -> bool.
  Variable w : world.
  Variable h : heap.

  Definition class_of (o : obj) : option cls := match o with Inst n => option_map fst (nth_error h n) | Other _ => None end.
  Definition is_instance (o : obj) (c : cls) : bool :=
    match (match o with Inst _ => class_of o | Other a => claims a end) with
    | Some d => existsb (Nat.eqb c) (line d)
    | None => false
    end.
  (** o->obj, seen as the structure of class c: undefined for objects of other types, and NULL cannot be read. *)
  Definition cpp_object (o : obj) (c : cls) : option value :=
    match o with
    | Inst n => match nth_error h n with Some (d, Some v) => Some (as_class d c v) | _ => None end
    | Other _ => None
    end.
  Inductive outcome : Type := IsTrue | IsFalse | NotImpl | Undefined | Falls.
  (** The statements of the function of class c, [Falls]: the statement is left without return. *)
  Section Body.
    Variables (c : cls) (self other : obj) (o : opid).
    Definition same_op (a b : opid) : bool :=
      match a, b with LT, LT => true | LE, LE => true | EQ, EQ => true | NE, NE => true | GT, GT => true | GE, GE => true | _, _ => false end.
    Fixpoint run_stmt (x : stmt) : outcome :=
      let fix run_all (l : list stmt) : outcome :=
        match l with
        | [] => Falls
        | y :: r => match run_stmt y with Falls => run_all r | done => done end
        end in
      let fix run_through (l : list (opid * list stmt)) : outcome :=
        match l with
        | [] => Falls
        | (_, b) :: r => match run_all b with Falls => run_through r | done => done end
        end in
      let fix run_cases (l : list (opid * list stmt)) : outcome :=
        match l with
        | [] => Falls
        | (k, b) :: r => if same_op k o then (match run_all b with Falls => run_through r | done => done end) else run_cases r
        end in
      match x with
      | IfNotInstance d body => if is_instance other d then Falls else run_all body
      | Switch cases => run_cases cases
      | ReturnCompare op => match cpp_object self c, cpp_object other c with
                            | Some u, Some v => if cpp op c u v then IsTrue else IsFalse
                            | _, _ => Undefined
                            end
      | ReturnNotImplemented => NotImpl
      end.
    Fixpoint run_body (l : list stmt) : outcome :=
      match l with
      | [] => Falls
      | y :: r => match run_stmt y with Falls => run_body r | done => done end
      end.
  End Body.

  (** ** Python (Objects/typeobject.c inherit_slots, Objects/object.c do_richcompare) *)
  (** The tp_richcompare of a type: that of the nearest class that has one (else object's, which tells identity only). *)
  Definition inherited (c : cls) : option (cls * list stmt) :=
    fold_right (fun d r => match richcompare w d with Some f => Some (d, f) | None => r end) None (line c).
  (** Called for an object on the left, with the other.  Objects that are not instances decline. *)
  Definition ask (x y : obj) (o : opid) : outcome :=
    match class_of x with
    | Some c => match inherited c with Some (d, f) => run_body d x y o f | None => NotImpl end
    | None => NotImpl
    end.
  Definition swapped (o : opid) : opid := match o with LT => GT | LE => GE | EQ => EQ | NE => NE | GT => LT | GE => LE end.
  Inductive answer : Type := Bool (b : bool) | RaisesTypeError | Crash.
  Variable same_object : obj -> obj -> bool.
  Definition finish (x y : obj) (o : opid) (r : outcome) : answer :=
    match r with
    | IsTrue => Bool true
    | IsFalse => Bool false
    | Undefined | Falls => Crash
    | NotImpl => match o with EQ => Bool (same_object x y) | NE => Bool (negb (same_object x y)) | _ => RaisesTypeError end
    end.
  Definition or_else (r : outcome) (k : outcome) : outcome := match r with NotImpl => k | _ => r end.
  Definition derived (x y : obj) : bool :=
    match class_of x, class_of y with
    | Some c, Some d => negb (Nat.eqb c d) && existsb (Nat.eqb c) (line d)
    | _, _ => false
    end.
  Definition compare (o : opid) (x y : obj) : answer :=
    if derived x y
    then finish x y o (or_else (ask y x (swapped o)) (ask x y o))
    else finish x y o (or_else (ask x y o) (ask y x (swapped o))).

  (** hash(x): a type with tp_richcompare and without tp_hash is not hashable (type_ready_set_hash); both are inherited together. *)
  Definition hashable (c : cls) : bool := match inherited c with Some _ => false | None => true end.
End Run.
Arguments Inst {atom} n. Arguments Other {atom} a.
