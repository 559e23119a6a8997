(** * Object lifetimes: C++ objects, their Python wrappers, the wrapper registry

    Models the memory behaviour of the code pybindgen generates for one C++
    class: the deallocation slots, the constructors, [__copy__], the return
    value and parameter handlers that create or look up wrappers, the wrapper
    registry, the helper ("proxy") class with its [m_pyself] back pointer,
    custodians and wards.  As in /repo, code is first *generated* (the
    definitions named [gen_...], one per generator in /repo) and the generated
    code is then *executed* on a heap.

    Simplifications.  All wrappers belong to one class (a hierarchy sharing its
    settings); fields of a freshly allocated wrapper that the real code leaves
    uninitialised until a later statement of the same block start as NULL and
    "owned"; registering a NULL pointer is a fault; [Py_None] is immortal;
    smart-pointer policies, post-instance-creation functions, incomplete types
    and C++ exceptions are not modelled. *)
From Coq Require Import List Arith Bool.
Import ListNotations.

Definition addr := nat.   (** a C++ object's address; NULL is [None] *)
Definition wid := nat.    (** identity of a Python wrapper object *)

(** ** Heaps: finite maps from [nat] *)
Definition heap (A : Type) := list (option A).

Definition get {A} (l : heap A) (i : nat) : option A :=
  match nth_error l i with Some x => x | None => None end.

Fixpoint put {A} (l : heap A) (i : nat) (x : option A) : heap A :=
  match i, l with
  | O, [] => [x]
  | O, _ :: t => x :: t
  | S j, [] => None :: put [] j x
  | S j, h :: t => h :: put t j x
  end.

(** ** Class settings (cppclass.py 455-700: CppClass.__init__) *)
Inductive policy := PNone | PRef | PFree.
(** [PNone]: memory_policy None; [PRef]: ReferenceCounting(Methods|Functions)Policy
    (cppclass.py 146-217); [PFree]: FreeFunctionPolicy (cppclass.py 219-236). *)

Record conf := Conf {
  c_policy : policy;
  c_registry : bool;      (** StdMapWrapperRegistry, else NullWrapperRegistry *)
  c_helper : bool;        (** the class has a helper class (virtual methods, allow_subclassing) *)
  c_subclassing : bool;   (** allow_subclassing: instances have a dict and take part in GC *)
  c_singleton : bool;
  c_public_dtor : bool;   (** destructor_visibility == 'public' *)
  c_copyable : bool;      (** has_copy_constructor *)
  c_peekref : bool;       (** the reference counting policy has a peekref method *)
  c_same : wid -> wid -> bool (** outcome of Python's [==] on two distinct wrappers *)
}.

Definition is_rc (cf : conf) : bool :=
  match c_policy cf with PRef => true | _ => false end.

(** ** State *)

(** A live C++ object.  [o_cpp] is ghost: how many ownership units (for a
    reference counted class: references) C++ code holds.  [o_rc] is the count
    stored in the object (meaningful for [PRef]).  [o_self] is [m_pyself]
    (cppclass.py 380). *)
Record cobj := CObj { o_rc : nat; o_cpp : nat; o_self : option wid; o_helper : bool }.

Inductive wstate := Live | Dying | Dead.
(** [Dying]: the reference count reached 0, tp_dealloc is running;
    [Dead]: tp_free was called. *)

(** A Python wrapper (the generated struct, cppclass.py 1480-1500).
    Ghost fields: [w_ext], references held by the Python program (variables,
    arguments of running calls, ...); [w_sub], the wrapper's Python type is a
    subclass of the generated one; [w_virgin], tp_init has not run;
    [w_tmp], [obj] is lent by a running call from C++ into Python. *)
Record wrap := Wrap {
  w_st : wstate;
  w_refs : nat;
  w_obj : option addr;
  w_owned : bool;          (** flags & OBJECT_NOT_OWNED is zero *)
  w_wards : list wid;      (** inst_dict["__wards__"] *)
  w_ext : nat;
  w_sub : bool;
  w_virgin : bool;
  w_tmp : bool }.

(** Steps of deallocation code. *)
Inductive dop := OpDelete | OpUnref | OpFree | OpNothing.

(** The delete code as written by the policies: [d_take] stores NULL in
    [self->obj] before the operation, [d_if_owned] tests the flag. *)
Record delcode := DelCode { d_take : bool; d_if_owned : bool; d_op : dop }.

Inductive dinstr := IUnregister | IClearDict | IDelete (d : delcode) | IFree.

(** Pending work, innermost first: a [Py_DECREF], a running slot function of
    wrapper [w], a destructor about to run on the object at [a]. *)
Inductive task := KDecref (w : wid) | KCode (w : wid) (c : list dinstr) | KDelete (a : addr).

(** Running calls from C++ into Python overrides. *)
Inductive frame :=
| FVirt (w : wid) (saved : option addr) (a : addr)  (** virtual method proxy on the object at [a] *)
| FTmp (w : wid) (a : addr).                        (** out/inout reference argument *)

Record state := State {
  s_objs : heap cobj;
  s_wraps : heap wrap;
  s_reg : heap wid;       (** the registry: std::map<void*, PyObject*> *)
  s_todo : list task;
  s_calls : list frame }.

Definition start : state := State [] [] [] [] [].

Inductive fault :=
| FFreed (a : addr)     (** the C++ object at [a] does not exist (any more) *)
| FDead (w : wid)       (** the wrapper is being, or has been, deallocated *)
| FNull                 (** NULL pointer dereferenced *)
| FNotWrapper           (** a Python object that is not a wrapper used as one *)
| FBusy (a : addr)      (** allocation at an address in use: not something [new] does *)
| FRefused              (** the generator raises CodeGenerationError: no such function exists *)
| FNothing.             (** nothing to do *)

Inductive res (A : Type) := Ok (x : A) | Fault (f : fault).
Arguments Ok {A}. Arguments Fault {A}.
Definition bind {A B} (m : res A) (k : A -> res B) : res B :=
  match m with Ok x => k x | Fault f => Fault f end.
Notation "'let!' x ':=' m 'in' k" := (bind m (fun x => k))
  (at level 200, x pattern, m at level 100, k at level 200).

Definition set_objs (s : state) o := State o (s_wraps s) (s_reg s) (s_todo s) (s_calls s).
Definition set_wraps (s : state) w := State (s_objs s) w (s_reg s) (s_todo s) (s_calls s).
Definition set_reg (s : state) r := State (s_objs s) (s_wraps s) r (s_todo s) (s_calls s).
Definition set_todo (s : state) t := State (s_objs s) (s_wraps s) (s_reg s) t (s_calls s).
Definition set_calls (s : state) c := State (s_objs s) (s_wraps s) (s_reg s) (s_todo s) c.
Definition setw (s : state) (w : wid) (r : wrap) := set_wraps s (put (s_wraps s) w (Some r)).
Definition seto (s : state) (a : addr) (o : option cobj) := set_objs s (put (s_objs s) a o).
Definition push (ts : list task) (s : state) := set_todo s (ts ++ s_todo s).

Definition w_set_refs r n := Wrap (w_st r) n (w_obj r) (w_owned r) (w_wards r) (w_ext r) (w_sub r) (w_virgin r) (w_tmp r).
Definition w_set_obj r o := Wrap (w_st r) (w_refs r) o (w_owned r) (w_wards r) (w_ext r) (w_sub r) (w_virgin r) (w_tmp r).
Definition w_set_owned r b := Wrap (w_st r) (w_refs r) (w_obj r) b (w_wards r) (w_ext r) (w_sub r) (w_virgin r) (w_tmp r).
Definition w_set_wards r l := Wrap (w_st r) (w_refs r) (w_obj r) (w_owned r) l (w_ext r) (w_sub r) (w_virgin r) (w_tmp r).
Definition w_set_ext r n := Wrap (w_st r) (w_refs r) (w_obj r) (w_owned r) (w_wards r) n (w_sub r) (w_virgin r) (w_tmp r).
Definition w_set_virgin r b := Wrap (w_st r) (w_refs r) (w_obj r) (w_owned r) (w_wards r) (w_ext r) (w_sub r) b (w_tmp r).
Definition w_set_tmp r b := Wrap (w_st r) (w_refs r) (w_obj r) (w_owned r) (w_wards r) (w_ext r) (w_sub r) (w_virgin r) b.
Definition o_set_rc o n := CObj n (o_cpp o) (o_self o) (o_helper o).
Definition o_set_cpp o n := CObj (o_rc o) n (o_self o) (o_helper o).
Definition o_set_self o w := CObj (o_rc o) (o_cpp o) w (o_helper o).

Definition live_obj (s : state) (a : addr) : res cobj :=
  match get (s_objs s) a with Some o => Ok o | None => Fault (FFreed a) end.
Definition live_wrap (s : state) (w : wid) : res wrap :=
  match get (s_wraps s) w with
  | Some r => match w_st r with Live => Ok r | _ => Fault (FDead w) end
  | None => Fault (FDead w)
  end.

(** ** Generated statements that run inside wrapper functions *)

Inductive source := FromArgs | FromVal | FromSelf.

Inductive stmt :=
| SAlloc                  (** py = PyObject_New / PyObject_GC_New(...)            *)
| SObjVal                 (** py->obj = value;                                   *)
| SObjNull                (** py->obj = NULL;                                    *)
| SNew (helper : bool) (src : source) (** py->obj = new Class(...) at the fresh address *)
| SNewCpp                 (** value = new Class( *self->obj ): the new object goes to C++ *)
| SFlags (owned : bool)   (** py->flags = NONE / OBJECT_NOT_OWNED;               *)
| SLookup                 (** registry lookup of value into py                   *)
| SRegister               (** registry[py->obj] = py                             *)
| SUnregister             (** erase registry[py->obj]                            *)
| SFromHelper             (** py = value->m_pyself                               *)
| SSetPyobj               (** py->obj->set_pyobj(py)                             *)
| SIncPy                  (** Py_INCREF(py)                                      *)
| SDecPy                  (** Py_DECREF(py)                                      *)
| SIncref                 (** value->ref()                                       *)
| SDecref                 (** value->unref()                                     *)
| SIncrefPyObj            (** py->obj->ref()                                     *)
| SDelVal                 (** delete value                                       *)
| STake                   (** ghost: C++ now holds one more unit of py->obj      *)
| SGive.                  (** "N" in the return tuple: py's reference goes to Python *)

Inductive cond :=
| CPyNull   (** py == NULL *)
| CHelper   (** typeid( *value ) == typeid(helper class) *)
| CLast     (** Py_REFCNT(py) == 1 *)
| CSub.     (** Py_TYPE(py) != &PyClass_Type *)

Inductive code := Done | Do (st : stmt) (k : code) | If (c : cond) (a b k : code).

Fixpoint seq (a b : code) : code :=
  match a with
  | Done => b
  | Do s k => Do s (seq k b)
  | If c x y k => If c x y (seq k b)
  end.
Fixpoint block (l : list stmt) : code :=
  match l with [] => Done | s :: t => Do s (block t) end.

Inductive pyval := VNull | VNone | VObj (w : wid).
(** [e_py]: the PyClass* variable of the handler; [e_val]: the C++ value;
    [e_self]: the wrapper bound to self; [e_new]: the address [new] returns. *)
Record env := Env { e_py : pyval; e_val : addr; e_self : option wid; e_new : addr }.

Definition py_wrap (e : env) (s : state) : res (wid * wrap) :=
  match e_py e with
  | VNull => Fault FNull
  | VNone => Fault FNotWrapper
  | VObj w => let! r := live_wrap s w in Ok (w, r)
  end.

(** Reference released: [unref()] on the object at [a]; at zero the object
    deletes itself. *)
Definition unref (a : addr) (s : state) : res state :=
  let! o := live_obj s a in
  match o_rc o with
  | 0 => Fault (FFreed a)
  | S 0 => Ok (push [KDelete a] (seto s a (Some (o_set_rc o 0))))
  | S n => Ok (seto s a (Some (o_set_rc o n)))
  end.
Definition ref (a : addr) (s : state) : res state :=
  let! o := live_obj s a in
  Ok (seto s a (Some (o_set_rc o (S (o_rc o))))).

Definition new_obj (a : addr) (cpp : nat) (helper : bool) (s : state) : res state :=
  match get (s_objs s) a with
  | Some _ => Fault (FBusy a)
  | None => Ok (seto s a (Some (CObj 1 cpp None helper)))
  end.

Definition source_ok (src : source) (e : env) (s : state) : res unit :=
  match src with
  | FromArgs => Ok tt
  | FromVal => let! _ := live_obj s (e_val e) in Ok tt
  | FromSelf =>
      match e_self e with
      | None => Fault FNull
      | Some w =>
          let! r := live_wrap s w in
          match w_obj r with
          | None => Fault FNull
          | Some a => let! _ := live_obj s a in Ok tt
          end
      end
  end.

Definition fresh_wrap (sub virgin : bool) : wrap :=
  Wrap Live 1 None true [] 0 sub virgin false.

Definition exec_stmt (st : stmt) (e : env) (s : state) : res (env * state) :=
  match st with
  | SAlloc =>
      let w := length (s_wraps s) in
      Ok (Env (VObj w) (e_val e) (e_self e) (e_new e), setw s w (fresh_wrap false false))
  | SObjVal => let! (w, r) := py_wrap e s in Ok (e, setw s w (w_set_obj r (Some (e_val e))))
  | SObjNull => let! (w, r) := py_wrap e s in Ok (e, setw s w (w_set_obj r None))
  | SNew h src =>
      let! _ := source_ok src e s in
      let! s := new_obj (e_new e) 0 h s in
      let! (w, r) := py_wrap e s in
      Ok (e, setw s w (w_set_obj r (Some (e_new e))))
  | SNewCpp =>
      let! _ := source_ok FromSelf e s in
      let! s := new_obj (e_new e) 1 false s in
      Ok (e, s)
  | SFlags b => let! (w, r) := py_wrap e s in Ok (e, setw s w (w_set_owned r b))
  | SLookup =>
      match get (s_reg s) (e_val e) with
      | None => Ok (Env VNull (e_val e) (e_self e) (e_new e), s)
      | Some w =>
          let! r := live_wrap s w in
          Ok (Env (VObj w) (e_val e) (e_self e) (e_new e), setw s w (w_set_refs r (S (w_refs r))))
      end
  | SRegister =>
      let! (w, r) := py_wrap e s in
      match w_obj r with
      | None => Fault FNull
      | Some a => Ok (e, set_reg s (put (s_reg s) a (Some w)))
      end
  | SUnregister =>
      let! (w, r) := py_wrap e s in
      match w_obj r with
      | None => Ok (e, s)
      | Some a => Ok (e, set_reg s (put (s_reg s) a None))
      end
  | SFromHelper =>
      let! o := live_obj s (e_val e) in
      Ok (Env (match o_self o with Some w => VObj w | None => VNull end)
              (e_val e) (e_self e) (e_new e), s)
  | SSetPyobj =>
      let! (w, r) := py_wrap e s in
      match w_obj r with
      | None => Fault FNull
      | Some a =>
          let! o := live_obj s a in
          (** cppclass.py 405-411: XDECREF the old one (pushed as a task),
              INCREF and store the new one *)
          let s := setw s w (w_set_refs r (S (w_refs r))) in
          let s := seto s a (Some (o_set_self o (Some w))) in
          Ok (e, match o_self o with Some old => push [KDecref old] s | None => s end)
      end
  | SIncPy => let! (w, r) := py_wrap e s in Ok (e, setw s w (w_set_refs r (S (w_refs r))))
  | SDecPy => let! (w, _) := py_wrap e s in Ok (e, push [KDecref w] s)
  | SIncref => let! s := ref (e_val e) s in Ok (e, s)
  | SDecref => let! s := unref (e_val e) s in Ok (e, s)
  | SIncrefPyObj =>
      let! (_, r) := py_wrap e s in
      match w_obj r with
      | None => Fault FNull
      | Some a => let! s := ref a s in Ok (e, s)
      end
  | SDelVal =>
      let! _ := live_obj s (e_val e) in
      Ok (e, push [KDelete (e_val e)] s)
  | STake =>
      match e_py e with
      | VObj w =>
          let! r := live_wrap s w in
          match w_obj r with
          | None => Ok (e, s)
          | Some a =>
              let! o := live_obj s a in
              Ok (e, seto s a (Some (o_set_cpp o (S (o_cpp o)))))
          end
      | _ => Ok (e, s)
      end
  | SGive => let! (w, r) := py_wrap e s in Ok (e, setw s w (w_set_ext r (S (w_ext r))))
  end.

Definition eval_cond (c : cond) (e : env) (s : state) : res bool :=
  match c with
  | CPyNull => Ok (match e_py e with VNull => true | _ => false end)
  | CHelper => let! o := live_obj s (e_val e) in Ok (o_helper o)
  | CLast => let! (_, r) := py_wrap e s in Ok (w_refs r =? 1)
  | CSub => let! (_, r) := py_wrap e s in Ok (w_sub r)
  end.

Fixpoint exec (c : code) (e : env) (s : state) : res (env * state) :=
  match c with
  | Done => Ok (e, s)
  | Do st k => let! (e, s) := exec_stmt st e s in exec k e s
  | If b x y k =>
      let! t := eval_cond b e s in
      let! (e, s) := exec (if t then x else y) e s in
      exec k e s
  end.

(** ** Code generators *)

(** wrapper_registry.py: NullWrapperRegistry writes nothing (52-58),
    StdMapWrapperRegistry writes the map operations (101-133). *)
Definition gen_register (cf : conf) : list stmt := if c_registry cf then [SRegister] else [].
Definition gen_unregister (cf : conf) : list stmt := if c_registry cf then [SUnregister] else [].

(** Options of pointer and reference return values (cppclass.py 3295-3310, 3678-3750). *)
Record ropts := ROpts {
  r_owns : bool;     (** caller_owns_return *)
  r_ref : bool;      (** reference_existing_object (or return_internal_reference) *)
  r_manages : bool;  (** caller_manages_return *)
  r_free : bool      (** free_after_copy *)
}.

(** cppclass.py 2693-2777: write_create_new_wrapper.  The PyTypeObject chosen
    by automatic_type_narrowing (2699-2712) does not affect memory. *)
Definition gen_create_new_wrapper (cf : conf) (o : ropts) : option (list stmt) :=
  match
   (if r_owns o then Some [SObjVal; SFlags true]                  (* 2722-2729 *)
    else if is_rc cf then
      if r_manages o then Some [SFlags true; SIncref; SObjVal]    (* 2759-2769 *)
      else Some [SObjVal; SFlags false]                           (* 2771-2775 *)
    else if r_ref o then Some [SObjVal; SFlags false]             (* 2731-2737 *)
    else if r_manages o then
      if c_copyable cf then Some [SNew false FromVal; SFlags true] (* 2739-2751 *)
      else None                                                    (* CodeGenerationError *)
    else Some [SObjVal; SFlags false])                             (* 2753-2757 *)
  with
  | Some l => Some (SAlloc :: l)
  | None => None
  end.

(** cppclass.py 2781-2815 (no helper class) and 2852-2886 (the else branch of
    the helper class test): look the object up, create and register a new
    wrapper if there is none; give back C++'s reference if there was one. *)
Definition gen_lookup_or_create (cf : conf) (o : ropts) : option code :=
  match gen_create_new_wrapper cf o with
  | None => None
  | Some create =>
      let create := create ++ gen_register cf in
      Some (if c_registry cf then
              Do SLookup
                (If CPyNull (block create)
                   (if r_owns o && is_rc cf then Do SDecref Done else Done) Done)
            else block create)
  end.

(** cppclass.py 2682-2888: common_shared_object_return. *)
Definition gen_shared_object_return (cf : conf) (o : ropts) : option code :=
  match gen_lookup_or_create cf o with
  | None => None
  | Some body =>
      Some (if c_helper cf then
              If CHelper
                (block ([SFromHelper; SObjVal]                         (* 2830-2837 *)
                        ++ (if r_owns o && is_rc cf then [SDecref] else [])
                        ++ [SIncPy]))
                body Done
            else body)
  end.

(** cppclass.py 3250-3276 (CppClassReturnValue) and 3336-3351 (the copying
    branch of CppClassRefReturnValue); the same block is written for by-value
    and in-reference parameters of Python overrides (3016-3037, 3169-3192). *)
Definition gen_copy_out (cf : conf) (src : source) : option code :=
  if c_copyable cf then
    Some (block ([SAlloc; SFlags true; SNew false src] ++ gen_register cf))
  else None.

(** How a C++ function's result is converted. *)
Inductive rkind :=
| RValue              (** Class *)
| RRef (o : ropts)    (** Class & *)
| RPtr (o : ropts).   (** Class * *)

(** cppclass.py 3250-3276, 3322-3354, 3765-3796. *)
Definition gen_return (cf : conf) (k : rkind) : option code :=
  let body :=
    match k with
    | RValue => gen_copy_out cf FromArgs
    | RRef o =>
        if r_ref o || r_owns o || negb (r_manages o) then gen_shared_object_return cf o
        else gen_copy_out cf FromVal
    | RPtr o =>
        match gen_shared_object_return cf o with
        | None => None
        | Some c => Some (seq c (if r_free o then Do SDelVal Done else Done))
        end
    end
  in match body with None => None | Some c => Some (seq c (Do SGive Done)) end.

(** How a C++ argument is converted for a Python override. *)
Inductive akind :=
| AValue                    (** by value, or a reference with direction IN *)
| APtr (transfer : bool).   (** pointer, direction IN *)

(** cppclass.py 3505-3658: CppClassPtrParameter.convert_c_to_python. *)
Definition gen_arg (cf : conf) (k : akind) : option code :=
  let body :=
    match k with
    | AValue => gen_copy_out cf FromVal
    | APtr transfer =>
        let create :=
          match
           (if transfer then Some [SObjVal]                             (* 3543-3544 *)
            else if is_rc cf then Some [SIncref; SObjVal]               (* 3600-3607 *)
            else if c_copyable cf then Some [SNew false FromVal]        (* 3552-3560 *)
            else None)
          with
          | Some l => Some (block (SAlloc :: SFlags true :: l ++ gen_register cf))
          | None => None
          end in
        match create with
        | None => None
        | Some create =>
            let body := if c_registry cf then Do SLookup (If CPyNull create Done Done) else create in
            Some (if c_helper cf then
                    If CHelper (block [SFromHelper; SObjVal; SIncPy]) body Done (* 3629-3647 *)
                  else body)
        end
    end
  in match body with None => None | Some c => Some (seq c (Do SGive Done)) end.

(** cppmethod.py 644-700: CppConstructor.generate_call (public constructor).
    The wrapper is not registered. *)
Definition gen_init (cf : conf) : code :=
  if c_helper cf then
    If CSub (block [SNew true FromArgs; SFlags true; SSetPyobj])
            (block [SNew false FromArgs; SFlags true]) Done
  else block [SNew false FromArgs; SFlags true].

(** cppclass.py 2291-2322: _generate_copy_method. *)
Definition gen_copy (cf : conf) : option code :=
  if c_copyable cf then
    Some (block ([SAlloc; SNew false FromSelf; SFlags true] ++ gen_register cf ++ [SGive]))
  else None.

(** cppclass.py 3443-3503: CppClassPtrParameter.convert_python_to_c; [STake]
    stands for the call itself.  With [null_ok] the Python argument may be
    None, and the transfer code below does not look at that. *)
Definition gen_pass (cf : conf) (transfer : bool) : code :=
  if transfer then
    if is_rc cf then
      If CPyNull Done (Do SIncrefPyObj Done) (Do STake Done)            (* 3497-3502 *)
    else
      Do STake (If CPyNull Done (block (gen_unregister cf ++ [SObjNull])) Done) (* 3478-3495 *)
  else Done.

(** cppclass.py 3798-3847: CppClassPtrReturnValue.convert_python_to_c with
    caller_owns_return, the result of a Python override handed to C++. *)
Definition gen_give_back (cf : conf) : code :=
  if is_rc cf then block [SIncrefPyObj; STake]
  else if c_copyable cf then Do SNewCpp Done
  else block [STake; SObjNull].

(** cppclass.py 3194-3231: CppClassRefParameter.convert_c_to_python, direction
    out/inout: what runs before and after the Python call. *)
Definition gen_tmp_before : code := block [SAlloc; SFlags true; SObjVal; SIncPy; SGive].
Definition gen_tmp_after (cf : conf) : code :=
  seq (if c_copyable cf then
         If CLast (Do SObjNull Done) (block (SNew false FromVal :: gen_register cf)) Done
       else Do SObjNull Done)
      (Do SDecPy Done).

(** cppclass.py 182-192, 207-216, 225-233, 2432-2452: the delete code.  The
    policies' code is guarded by [if (self->obj)], the default code takes a
    possibly NULL pointer, for which [delete] does nothing: with [self->obj]
    NULL none of them has an effect. *)
Definition gen_delete (cf : conf) : delcode :=
  if c_singleton cf then DelCode false false OpNothing
  else match c_policy cf with
       | PRef => DelCode true false OpUnref
       | PFree => DelCode true false OpFree
       | PNone => if c_public_dtor cf then DelCode true true OpDelete
                  else DelCode true false OpNothing
       end.

(** cppclass.py 2454-2466: tp_clear. *)
Definition gen_clear (cf : conf) : list dinstr := [IClearDict; IDelete (gen_delete cf)].

(** cppclass.py 2549-2588: tp_dealloc. *)
Definition gen_dealloc (cf : conf) : list dinstr :=
  (if c_registry cf then [IUnregister] else [])
  ++ (if c_subclassing cf then gen_clear cf else [IDelete (gen_delete cf)])
  ++ [IFree].

(** ** Deallocation, step by step *)

(** The wrapper whose slot function is running: its memory must not have been freed. *)
Definition running (s : state) (w : wid) : res wrap :=
  match get (s_wraps s) w with
  | Some r => match w_st r with Dead => Fault (FDead w) | _ => Ok r end
  | None => Fault (FDead w)
  end.

Definition run_delete (d : delcode) (w : wid) (r : wrap) (s : state) : res state :=
  match w_obj r with
  | None => Ok s
  | Some a =>
      let s := if d_take d then setw s w (w_set_obj r None) else s in
      if d_if_owned d && negb (w_owned r) then Ok s
      else match d_op d with
           | OpDelete => Ok (push [KDelete a] s)
           | OpFree => Ok (push [KDelete a] s)
           | OpUnref => unref a s
           | OpNothing => Ok s
           end
  end.

Definition exec_dinstr (i : dinstr) (w : wid) (s : state) : res state :=
  let! r := running s w in
  match i with
  | IUnregister =>
      match w_obj r with
      | None => Ok s
      | Some a => Ok (set_reg s (put (s_reg s) a None))
      end
  | IClearDict =>
      (** Py_CLEAR(self->inst_dict): the list of wards dies with the dict *)
      Ok (push (map KDecref (w_wards r)) (setw s w (w_set_wards r [])))
  | IDelete d => run_delete d w r s
  | IFree =>
      (** tp_free: the memory is gone *)
      Ok (setw s w (Wrap Dead (w_refs r) None (w_owned r) [] (w_ext r) (w_sub r) (w_virgin r) false))
  end.

(** One step of pending work. *)
Definition tick (cf : conf) (s : state) : res state :=
  match s_todo s with
  | [] => Fault FNothing
  | KDecref w :: rest =>
      let s := set_todo s rest in
      let! r := live_wrap s w in
      match w_refs r with
      | 0 => Fault (FDead w)
      | S 0 =>
          Ok (push [KCode w (gen_dealloc cf)]
                (setw s w (Wrap Dying 0 (w_obj r) (w_owned r) (w_wards r) (w_ext r) (w_sub r) (w_virgin r) (w_tmp r))))
      | S n => Ok (setw s w (w_set_refs r n))
      end
  | KCode w [] :: rest => Ok (set_todo s rest)
  | KCode w (i :: c) :: rest => exec_dinstr i w (set_todo s (KCode w c :: rest))
  | KDelete a :: rest =>
      (** the destructor; the helper class's releases m_pyself (cppclass.py 413-418) *)
      let s := set_todo s rest in
      let! o := live_obj s a in
      let s := seto s a None in
      Ok (match o_self o with Some w => push [KDecref w] s | None => s end)
  end.

(** cppclass.py 2468-2496: tp_traverse reports the wards (in the dict) and, for
    an instance of the helper class, the wrapper itself. *)
Definition visits_self (cf : conf) (s : state) (w : wid) : bool :=
  match get (s_wraps s) w with
  | Some r =>
      match w_obj r with
      | Some a =>
          match get (s_objs s) a with
          | Some o => c_helper cf && o_helper o
                      && (if is_rc cf && c_peekref cf then o_rc o =? 1 else true)
          | None => false
          end
      | None => false
      end
  | None => false
  end.

(** cppclass.py 3883-3900: _add_ward.  Without a dict (allow_subclassing off)
    the __wards__ attribute cannot be set and the new list dies. *)
Definition contains (cf : conf) (l : list wid) (w : wid) : bool :=
  existsb (fun x => (x =? w) || c_same cf x w) l.

Definition add_ward (cf : conf) (c w : wid) (s : state) : res state :=
  let! rc := live_wrap s c in
  let! _ := live_wrap s w in
  if negb (c_subclassing cf) then Ok s
  else if contains cf (w_wards rc) w then Ok s
  else
    let s := setw s c (w_set_wards rc (w_wards rc ++ [w])) in
    let! r := live_wrap s w in
    Ok (setw s w (w_set_refs r (S (w_refs r)))).

(** ** Events: what the Python program, C++ and the collector do *)
Inductive event :=
| EvCppNew (a : addr)                (** C++ creates an object and owns it *)
| EvCppRelease (a : addr)            (** C++ deletes it / drops a reference *)
| EvCppRef (a : addr)                (** C++ takes another reference *)
| EvNew (sub : bool)                 (** Python: tp_new *)
| EvInit (w : wid) (a : addr)        (** Python: tp_init, the object lands at [a] *)
| EvCopy (w : wid) (a : addr)        (** Python: w.__copy__() *)
| EvReturn (k : rkind) (v : option addr) (a : addr)  (** a C++ function returns to Python *)
| EvArg (k : akind) (v a : addr)     (** a C++ argument reaches a Python override *)
| EvPass (w : wid) (transfer : bool) (** Python passes w as a pointer argument *)
| EvPassNone                         (** Python passes None for a null_ok, transferred argument *)
| EvGiveBack (w : wid) (a : addr)    (** a Python override returns w to C++ *)
| EvRef (w : wid)                    (** the program stores another reference *)
| EvDrop (w : wid)                   (** the program drops a reference *)
| EvWard (c w : wid)                 (** c becomes custodian of w *)
| EvGcClear (w : wid)                (** the collector calls tp_clear *)
| EvVirtBegin (a : addr)             (** C++ calls a virtual method overridden in Python *)
| EvTmpBegin (a : addr)              (** ... passing the object at [a] by (in)out reference *)
| EvEnd (a : addr).                  (** the innermost such call returns *)

(** Does the handler hand C++'s ownership (or reference) to the wrapper? *)
Definition gives (k : rkind) : bool :=
  match k with RValue => false | RRef o => r_owns o | RPtr o => r_owns o || r_free o end.

Definition drop_cpp (a : addr) (s : state) : res state :=
  let! o := live_obj s a in Ok (seto s a (Some (o_set_cpp o (pred (o_cpp o))))).

Definition run_code (c : option code) (e : env) (s : state) : res state :=
  match c with
  | None => Fault FRefused
  | Some c => let! (_, s) := exec c e s in Ok s
  end.

Definition step_event (cf : conf) (ev : event) (s : state) : res state :=
  match ev with
  | EvCppNew a => new_obj a 1 false s
  | EvCppRelease a =>
      let! s := drop_cpp a s in
      if is_rc cf then unref a s else Ok (push [KDelete a] s)
  | EvCppRef a =>
      let! s := ref a s in
      let! o := live_obj s a in
      Ok (seto s a (Some (o_set_cpp o (S (o_cpp o)))))
  | EvNew sub =>
      Ok (setw s (length (s_wraps s)) (w_set_ext (fresh_wrap sub true) 1))
  | EvInit w a =>
      let! s := run_code (Some (gen_init cf)) (Env (VObj w) 0 (Some w) a) s in
      let! r := live_wrap s w in
      Ok (setw s w (w_set_virgin r false))
  | EvCopy w a => run_code (gen_copy cf) (Env VNull 0 (Some w) a) s
  | EvReturn k None a =>
      match k with
      | RPtr _ => Ok s     (** cppclass.py 3772-3776: NULL becomes None *)
      | _ => Fault FNull
      end
  | EvReturn k (Some v) a =>
      let! s := (if gives k then drop_cpp v s else Ok s) in
      run_code (gen_return cf k) (Env VNull v None a) s
  | EvArg k v a =>
      let! s := (match k with APtr true => drop_cpp v s | _ => Ok s end) in
      run_code (gen_arg cf k) (Env VNull v None a) s
  | EvPass w transfer => run_code (Some (gen_pass cf transfer)) (Env (VObj w) 0 None 0) s
  | EvPassNone => run_code (Some (gen_pass cf true)) (Env VNone 0 None 0) s
  | EvGiveBack w a => run_code (Some (gen_give_back cf)) (Env (VObj w) 0 (Some w) a) s
  | EvRef w =>
      let! r := live_wrap s w in
      Ok (setw s w (w_set_ext (w_set_refs r (S (w_refs r))) (S (w_ext r))))
  | EvDrop w =>
      let! r := live_wrap s w in
      Ok (push [KDecref w] (setw s w (w_set_ext r (pred (w_ext r)))))
  | EvWard c w => add_ward cf c w s
  | EvGcClear w =>
      let! r := live_wrap s w in
      Ok (push [KCode w (gen_clear cf); KDecref w] (setw s w (w_set_refs r (S (w_refs r)))))
  | EvVirtBegin a =>
      (** cppmethod.py 1109-1121; the bound method holds a reference to m_pyself *)
      let! o := live_obj s a in
      match o_self o with
      | None => Fault FNull
      | Some w =>
          let! r := live_wrap s w in
          let tmp := match w_obj r with None => true | Some _ => w_tmp r end in
          let r' := w_set_tmp (w_set_obj (w_set_refs r (S (w_refs r))) (Some a)) tmp in
          Ok (set_calls (setw s w r') (FVirt w (w_obj r) a :: s_calls s))
      end
  | EvTmpBegin a =>
      let w := length (s_wraps s) in
      let! s := run_code (Some gen_tmp_before) (Env VNull a None 0) s in
      let! r := live_wrap s w in
      Ok (set_calls (setw s w (w_set_tmp r true)) (FTmp w a :: s_calls s))
  | EvEnd b =>
      match s_calls s with
      | [] => Fault FNothing
      | FVirt w saved a :: rest =>
          (** m_pyself is read again from the C++ object *)
          let! o := live_obj s a in
          match o_self o with
          | None => Fault FNull
          | Some w' =>
              let! r := live_wrap s w' in
              let tmp := match saved with None => false | Some _ => w_tmp r end in
              Ok (push [KDecref w]
                    (set_calls (setw s w' (w_set_tmp (w_set_obj r saved) tmp)) rest))
          end
      | FTmp w a :: rest =>
          let! r := live_wrap s w in
          run_code (Some (gen_tmp_after cf)) (Env (VObj w) a None b)
                   (set_calls (setw s w (w_set_tmp r false)) rest)
      end
  end.
