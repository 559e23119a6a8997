(** * Custodians and wards of one wrapper function

    Models how the [custodian=...] and [return_internal_reference] options and
    explicit [add_custodian_and_ward] calls become code of a function, method or
    constructor wrapper, and what that code does (cppclass.py 3853-3921,
    function.py 130-168 and 223-231, cppmethod.py 132-170, 310-320, 582-619,
    705-713).

    Simplifications: parameters are represented by their options and, at run
    time, by the Python object their [py_name] variable holds; the code between
    the two hooks is left to the caller of these definitions. *)
From Coq Require Import List ZArith Bool.
From Verif.Model Require Import Ownership.
Import ListNotations.
Local Open Scope Z_scope.

(** (custodian, ward, postcall) *)
Definition relation := (Z * Z * bool)%type.

Inductive cerror :=
| NoSuchName    (** NameError: TypeConfigurationError is not imported *)
| NoPyName      (** AssertionError: the parameter has no Python variable *)
| NoSuchParam.  (** IndexError *)

(** function.py 158-167, cppmethod.py 161-170 and 610-619. *)
Definition add_custodian_and_ward (l : list relation) (c w : Z) (postcall : option bool)
  : cerror + list relation :=
  if (c =? -1) || (w =? -1) then
    match postcall with
    | Some false => inl NoSuchName
    | _ => inr (l ++ [(c, w, true)])
    end
  else inr (l ++ [(c, w, match postcall with Some b => b | None => false end)]).

(** The wrapper's signature as far as lifetimes are concerned. *)
Record sig := Sig {
  g_params : list (option Z);   (** custodian option of each parameter *)
  g_ret : option Z;             (** custodian option of the return value *)
  g_internal : bool             (** return_internal_reference *)
}.

Fixpoint scan_params (l : list relation) (num : Z) (ps : list (option Z)) : cerror + list relation :=
  match ps with
  | [] => inr l
  | None :: t => scan_params l (num + 1) t
  | Some c :: t =>
      match add_custodian_and_ward l c (num + 1) None with
      | inl e => inl e
      | inr l' => scan_params l' (num + 1) t
      end
  end.

(** cppclass.py 3853-3873: scan_custodians_and_wards, run by the constructor of
    the wrapper on its empty list. *)
Definition scan (g : sig) : cerror + list relation :=
  match scan_params [] 0 (g_params g) with
  | inl e => inl e
  | inr l =>
      match (match g_ret g with
             | Some c => add_custodian_and_ward l c (-1) None
             | None => inr l
             end) with
      | inl e => inl e
      | inr l => if g_internal g then add_custodian_and_ward l (-1) 0 None else inr l
      end
  end.

(** What the Python variables hold when the hooks' code runs; [None]: the
    handler has no [py_name]. *)
Record cenv := CEnv { n_ret : option pyval; n_self : pyval; n_params : list (option pyval) }.

(** Python's list indexing with a possibly negative index. *)
Definition index {A} (l : list A) (i : Z) : option A :=
  let n := Z.of_nat (length l) in
  if (0 <=? i) && (i <? n) then nth_error l (Z.to_nat i)
  else if (-n <=? i) && (i <? 0) then nth_error l (Z.to_nat (i + n))
  else None.

(** cppclass.py 3895-3903: _get_custodian_or_ward. *)
Definition get_custodian_or_ward (n : cenv) (num : Z) : cerror + pyval :=
  if num =? -1 then match n_ret n with Some v => inr v | None => inl NoPyName end
  else if num =? 0 then inr (n_self n)
  else match index (n_params n) (num - 1) with
       | Some (Some v) => inr v
       | Some None => inl NoPyName
       | None => inl NoSuchParam
       end.

(** cppclass.py 3876-3892: _add_ward.  Looking up [__wards__] on a NULL pointer
    crashes; on None it fails, and so does setting it: the new list dies.  A
    NULL ward is skipped.  None as a ward is immortal and not recorded here. *)
Definition add_ward_code (cf : conf) (c w : pyval) (s : state) : res state :=
  match c with
  | VNull => Fault FNull
  | VNone => Ok s
  | VObj c =>
      match w with
      | VNull | VNone => Ok s
      | VObj w => add_ward cf c w s
      end
  end.

(** cppclass.py 3906-3921: the code of the relations of one phase, in order. *)
Fixpoint custodians (cf : conf) (n : cenv) (phase : bool) (l : list relation) (s : state)
  : cerror + res state :=
  match l with
  | [] => inr (Ok s)
  | (c, w, post) :: t =>
      if eqb post phase then
        match get_custodian_or_ward n c, get_custodian_or_ward n w with
        | inl e, _ | _, inl e => inl e
        | inr c, inr w =>
            match add_ward_code cf c w s with
            | Fault f => inr (Fault f)
            | Ok s' => custodians cf n phase t s'
            end
        end
      else custodians cf n phase t s
  end.
Definition precall cf n l s := custodians cf n false l s.
Definition postcall cf n l s := custodians cf n true l s.
