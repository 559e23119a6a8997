(** Model of automatic type narrowing: the C++ class pybindgen::TypeMap that is written into the generated code
    (/repo/pybindgen/cppclass.py:1314-1425), the registrations performed when a module is initialised (1308-1312, 1947) and
    the choice of the type of a new wrapper (2694-2712, 3519-3536). *)
From Verif.Model Require Import Py Hierarchy.
Open Scope list_scope.

(** The run-time type information of a C++ class, as the C++ ABI of GCC lays it out: [Plain] is __class_type_info (a class
    without bases), [Single] is __si_class_type_info (exactly one base, public, not virtual, at offset zero), [Multiple] is
    __vmi_class_type_info (any other class with bases). *)
Inductive rtti : Type :=
| Plain (name : string)
| Single (name : string) (base : rtti)
| Multiple (name : string) (bases : list rtti).
Definition ti_name (t : rtti) : string := match t with Plain n => n | Single n _ => n | Multiple n _ => n end.

(** dynamic_cast<const abi::__si_class_type_info*> of a type_info (cppclass.py:1371-1372, 1377) *)
Definition as_single (t : rtti) : option rtti := match t with Single _ _ => Some t | _ => None end.
(** _typeinfo->__base_type; only read when _typeinfo is a __si_class_type_info *)
Definition base_type (t : rtti) : option rtti := match t with Single _ b => Some b | _ => None end.

(** A PyTypeObject pointer: None is NULL, [Some i] the type of the wrappers of class [i]. *)
Definition pytype : Type := option nat.

(** std::map<std::string, PyTypeObject *>: cppclass.py:1336 *)
Definition tmap : Type := list (string * pytype).
(** m_map[k]: the entry; a missing one is inserted with NULL. *)
Fixpoint entry (m : tmap) (k : string) : tmap * pytype :=
  match m with
  | [] => ([(k, None)], None)
  | (n, w) :: r => if String.eqb n k then (m, w) else let x := entry r k in ((n, w) :: fst x, snd x)
  end.
(** m_map[k] = w *)
Fixpoint assign (m : tmap) (k : string) (w : pytype) : tmap :=
  match m with
  | [] => [(k, w)]
  | (n, v) :: r => if String.eqb n k then (n, w) :: r else (n, v) :: assign r k w
  end.

(** cppclass.py:1342-1351 register_wrapper *)
Definition register_wrapper (m : tmap) (t : rtti) (w : pytype) : tmap := assign m (ti_name t) w.

(** cppclass.py:1357-1395 lookup_wrapper (1405-1413 if settings.gcc_rtti_abi_complete is false), one statement at a time.
    [walks] is true if settings.gcc_rtti_abi_complete holds and the compiler is GCC, not clang.
    Debugging output (PBG_TYPEMAP_DEBUG is 0) is not modelled. *)
Inductive lookup_state : Type :=
| Entered                                (* 1364 *)
| Looping (typeinfo : option rtti)       (* 1376 *)
| Returned (w : pytype).                 (* 1391, 1394 *)
Definition lookup_step (walks : bool) (t : rtti) (fallback : pytype) (m : tmap) (s : lookup_state) : tmap * lookup_state :=
  match s with
  | Entered =>
      let x := entry m (ti_name t) in
      match snd x with
      | Some w => (fst x, Returned (Some w))
      | None => (fst x, if walks then Looping (as_single t) else Returned fallback)
      end
  | Looping None => (m, Returned fallback)
  | Looping (Some u) =>
      let x := entry m (ti_name u) in
      match snd x with
      | Some w => (fst x, Returned (Some w))
      | None => (fst x, Looping (match base_type u with Some b => as_single b | None => None end))
      end
  | Returned w => (m, Returned w)
  end.
Fixpoint lookup_steps (n : nat) (walks : bool) (t : rtti) (fallback : pytype) (m : tmap) (s : lookup_state) : tmap * lookup_state :=
  match n with
  | O => (m, s)
  | S k => let x := lookup_step walks t fallback m s in lookup_steps k walks t fallback (fst x) (snd x)
  end.

(** How many bases are above [t] on its line of single inheritance: the number of iterations never exceeds it. *)
Fixpoint height (t : rtti) : nat := match t with Single _ b => S (height b) | _ => O end.
(** A call runs until it has returned. *)
Definition lookup_wrapper (walks : bool) (m : tmap) (t : rtti) (fallback : pytype) : tmap * res pytype :=
  match lookup_steps (height t + 3) walks t fallback m Entered with
  | (m', Returned w) => (m', Ok w)
  | (m', _) => (m', Err OutOfFuel)
  end.

(** What happens to a map in the life of a process. *)
Inductive map_event : Type :=
| Register (t : rtti) (w : nat)
| Lookup (t : rtti) (fallback : pytype).
Definition map_step (walks : bool) (m : tmap) (e : map_event) : tmap :=
  match e with
  | Register t w => register_wrapper m t (Some w)
  | Lookup t f => fst (lookup_wrapper walks m t f)
  end.
Definition map_after (walks : bool) (h : list map_event) : tmap := fold_left (map_step walks) h [].

(** ** The generated program: one map per narrowing root *)
Section Program.
  (** The class hierarchy, the C++ type of each class, and the configuration. *)
  Variable w : hier.
  Variable cxx : nat -> rtti.
  Variable walks : bool.

  (** The typeid maps, by the number of the class they belong to (cppclass.py:1211-1214 typeid_map_name). *)
  Definition maps : Type := nat -> tmap.
  Definition set_map (ms : maps) (r : nat) (m : tmap) : maps := fun i => if Nat.eqb i r then m else ms i.

  (** The map a class registers with and is looked up in. *)
  Definition map_of (i : nat) : option nat := match type_narrowing_root w i with Ok r => r | Err _ => None end.

  (** cppclass.py:1947 and 1308-1312: the code of class [i] executed when its module is initialised.  Classes imported from
      other modules are initialised there. *)
  Definition initialise (ms : maps) (i : nat) : maps :=
    if narrowing_of w i then
      match map_of i with
      | Some r => set_map ms r (register_wrapper (ms r) (cxx i) (Some i))
      | None => ms
      end
    else ms.

  (** cppclass.py:2694-2712 and 3519-3536: the Python type of a new wrapper for an object of dynamic type [t] obtained as
      class [s].  [owned]: caller_owns_return, or transfer_ownership for a parameter; [counted]: the memory policy of the
      class is a ReferenceCountingPolicy. *)
  Definition wrapper_type (ms : maps) (s : nat) (owned counted : bool) (t : rtti) : maps * res pytype :=
    if narrowing_of w s && (owned || counted) then
      match map_of s with
      | Some r => let x := lookup_wrapper walks (ms r) t (Some s) in (set_map ms r (fst x), snd x)
      | None => (ms, Err AttributeError)
      end
    else (ms, Ok (Some s)).

  Inductive event : Type :=
  | Initialise (i : nat)
  | Wrap (s : nat) (owned counted : bool) (t : rtti).
  Definition event_step (ms : maps) (e : event) : maps :=
    match e with
    | Initialise i => initialise ms i
    | Wrap s o c t => fst (wrapper_type ms s o c t)
    end.
  Definition maps_after (h : list event) : maps := fold_left event_step h (fun _ => []).
End Program.
