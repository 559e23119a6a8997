(** The ranges of the C integer types, and which Python integers each handler accepts. *)
From Verif.Model Require Import Py IntHandlers.
From Coq Require Import ZArith.
Open Scope list_scope.
Local Open Scope Z_scope.

Definition valid_platform (p : platform) : Prop := (long_bits p = 32 \/ long_bits p = 64) /\ (size_bits p = 32 \/ size_bits p = 64).

(** The values of an integer type. *)
Definition lowest (t : cint) : Z := if is_signed t then - 2 ^ (bits t - 1) else 0.
Definition highest (t : cint) : Z := if is_signed t then 2 ^ (bits t - 1) - 1 else 2 ^ bits t - 1.
Definition in_range (t : cint) (z : Z) : Prop := lowest t <= z <= highest t.

(** [x] is [z] reduced to the type [t]. *)
Definition wrapped (t : cint) (z x : Z) : Prop := in_range t x /\ exists k, z = x + k * 2 ^ bits t.

(** The C++ type of the values a handler is for. *)
Definition param_type (p : platform) (h : param_handler) : cint :=
  match h with
  | IntParam | IntPtrParam | IntRefParam => mk_cint true 32
  | UnsignedIntParam | UnsignedIntPtrParam | UnsignedIntRefParam => mk_cint false 32
  | UInt16Param | UInt16RefParam | UnsignedInt16PtrParam => mk_cint false 16
  | Int16Param | Int16RefParam => mk_cint true 16
  | UInt8Param | UInt8RefParam | UInt8PtrParam => mk_cint false 8
  | Int8Param | Int8RefParam | Int8PtrParam => mk_cint true 8
  | UnsignedLongLongParam | UnsignedLongLongRefParam => mk_cint false 64
  | UnsignedLongParam | UnsignedLongRefParam => mk_cint false (long_bits p)
  | LongParam | LongRefParam => mk_cint true (long_bits p)
  | SizeTParam => mk_cint false (size_bits p)
  | LongLongParam | LongLongRefParam => mk_cint true 64
  end.
Definition return_type (p : platform) (h : return_handler) : cint :=
  match h with
  | IntReturn => mk_cint true 32
  | UnsignedIntReturn => mk_cint false 32
  | UInt16Return => mk_cint false 16
  | Int16Return => mk_cint true 16
  | UInt8Return => mk_cint false 8
  | Int8Return => mk_cint true 8
  | UnsignedLongLongReturn => mk_cint false 64
  | UnsignedLongReturn => mk_cint false (long_bits p)
  | LongReturn => mk_cint true (long_bits p)
  | SizeTReturn => mk_cint false (size_bits p)
  | LongLongReturn => mk_cint true 64
  end.

(** The integers accepted: those in an interval, or all. *)
Definition int_min : Z := - 2 ^ 31.
Definition param_accepts (p : platform) (h : param_handler) (z : Z) : Prop :=
  match h with
  | IntParam | IntPtrParam | IntRefParam | Int16RefParam | LongParam | LongRefParam | LongLongParam | LongLongRefParam =>
      in_range (param_type p h) z
  | UInt16Param => int_min <= z <= 65535
  | Int16Param => int_min <= z <= 32767
  | UInt8Param => int_min <= z <= 255
  | Int8Param => int_min <= z <= 127
  | Int8RefParam | Int8PtrParam => 0 <= z <= 255
  | _ => True
  end.
Definition return_accepts (p : platform) (h : return_handler) (z : Z) : Prop :=
  match h with
  | IntReturn | Int16Return | LongReturn | LongLongReturn => in_range (return_type p h) z
  | UInt16Return => int_min <= z <= 65535
  | UInt8Return => int_min <= z <= 255
  | Int8Return => -127 <= z <= 128
  | _ => True
  end.

(** What a wrapper with several parameters does, given what it would do for each of them alone: the arguments are parsed
    in order and then checked in order, and the function is called with all the values. *)
Fixpoint parse_failure {A} (l : list (outcome A)) : option argerr :=
  match l with
  | [] => None
  | Rejected TypeE :: _ => Some TypeE
  | Rejected OverflowE :: _ => Some OverflowE
  | _ :: r => parse_failure r
  end.
Fixpoint together {A} (l : list (outcome (list A))) : outcome (list A) :=
  match l with
  | [] => Passed []
  | o :: r => obind o (fun x => obind (together r) (fun y => Passed (x ++ y)))
  end.
Definition combined {A} (l : list (outcome (list A))) : outcome (list A) :=
  match parse_failure l with Some e => Rejected e | None => together l end.

(** What the wrapper would do for each parameter alone. *)
Fixpoint alone (p : platform) (eval : string -> Z) (ps : list param) (args : list (option pyvalue)) : list (outcome (list Z)) :=
  match ps, args with
  | x :: ps', a :: args' => call_function p eval [x] [a] :: alone p eval ps' args'
  | _, _ => []
  end.

(** A parameter as declared: its type is one of those the handler is registered for. *)
Definition declared (x : param) : Prop := In (pa_ctype x) (param_ctypes (pa_handler x)).
(** The value an optional parameter has in the C++ type. *)
Definition given_default (eval : string -> Z) (x : param) (z : Z) : Prop := exists s, pa_default x = Some s /\ s <> ""%string /\ eval s = z.
(** The handlers that let a default value be given. *)
Definition allows_default (h : param_handler) : Prop := param_passing h = ByValue \/
  match h with UnsignedLongLongRefParam | UnsignedLongRefParam | LongRefParam | LongLongRefParam => True | _ => False end.

(** The error raised for an integer that is not accepted: the handlers with a range check of their own raise ValueError for
    what fits an int. *)
Definition fits_int (z : Z) : bool := (int_min <=? z) && (z <? 2 ^ 31).
Definition param_error (h : param_handler) (z : Z) : argerr :=
  match h with
  | UInt16Param | Int16Param | UInt8Param | Int8Param => if fits_int z then ValueE else OverflowE
  | _ => OverflowE
  end.
Definition return_error (h : return_handler) (z : Z) : argerr :=
  match h with
  | UInt16Return | Int16Return | UInt8Return | Int8Return => if fits_int z then ValueE else OverflowE
  | _ => OverflowE
  end.
(** One conversion, specified: accepted integers arrive reduced to the type, the others are refused with that error. *)
Definition converts {A} (accepts : Z -> Prop) (t : cint) (err : Z -> argerr) (value : Z -> A) (o : outcome A) (z : Z) : Prop :=
  (accepts z /\ exists x, wrapped t z x /\ o = Passed (value x)) \/ (~ accepts z /\ o = Rejected (err z)).

(** The handlers that accept exactly the values of their type, and those that let all the values of their type through. *)
Definition exact_param (h : param_handler) : Prop :=
  In h [IntParam; IntPtrParam; IntRefParam; Int16RefParam; LongParam; LongRefParam; LongLongParam; LongLongRefParam].
Definition exact_return (h : return_handler) : Prop := In h [IntReturn; Int16Return; LongReturn; LongLongReturn].
Definition faithful_param (h : param_handler) : Prop := h <> Int8RefParam /\ h <> Int8PtrParam.
Definition faithful_return (h : return_handler) : Prop := h <> Int8Return.
