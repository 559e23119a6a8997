(** Model of the error handling policy: /repo/pybindgen/utils.py:160-184 (call_with_error_handling), 217-278
    (parameter and return value specifications) and /repo/pybindgen/settings.py (error_handler). *)
From Verif.Model Require Import Py PyState.
Open Scope list_scope.
Open Scope st_scope.

(** settings.error_handler: handle_error(wrapper, exception, traceback) as a function of the wrapper and the
    exception class; it may itself raise.  Simplification: its answer does not depend on earlier calls. *)
Definition handler : Type := nat -> pyexc -> res bool.
Definition policy : Type := option handler.

Section Errors.
  Context {S : Type} (note : nat -> pyexc -> S -> S). (* records a call of handle_error *)

  Definition handle_error (h : handler) (wrapper : nat) (e : pyexc) : st S bool :=
    modify (note wrapper e) ;~ lift (h wrapper e).

  (** utils.py:165-184.  [handled] is exceptions_to_handle. *)
  Definition call_with_error_handling {A} (p : policy) (handled : list pyexc) (wrapper : nat) (callback : st S A) : st S A :=
    match p with
    | None => callback
    | Some h =>
        try_except callback (fun e =>
          if is_instance e handled then
            accepted <~ handle_error h wrapper e ;;
            if accepted : bool then raise SkipWrapper else raise e
          else raise e)
    end.
End Errors.

(** utils.py:166-168 and 260-262: the default classes and those of eval_param / eval_retval. *)
Definition generation_errors : list pyexc := [TypeConfigurationError; CodeGenerationError; NotSupportedError].
Definition lookup_errors : list pyexc := [TypeConfigurationError; NotSupportedError; TypeLookupError].

(** Parameter and return value specifications: an object of the right class, a tuple (whose last element may be
    a dict of keyword arguments), a string, or something else. *)
Inductive spec (V : Type) : Type :=
| SObject (v : V)
| STuple (args : list string) (kwargs : option (list (string * string)))
| SString (s : string)
| SOther.
Arguments SObject {V} v.
Arguments STuple {V} args kwargs.
Arguments SString {V} s.
Arguments SOther {V}.

(** utils.py:217-228.  The dict counts as an element of the tuple. *)
Definition parse_param_spec {V} (s : spec V) : res (list string * list (string * string)) :=
  match s with
  | STuple args kw =>
      let n := length args + match kw with Some _ => 1 | None => 0 end in
      if Nat.leb 2 n then Ok (args, match kw with Some k => k | None => [] end) else Err AssertionError
  | _ => Err TypeError
  end.

(** utils.py:231-245 *)
Definition parse_retval_spec {V} (s : spec V) : res (list string * list (string * string)) :=
  match s with
  | STuple args kw =>
      let n := length args + match kw with Some _ => 1 | None => 0 end in
      if Nat.leb 1 n then Ok (args, match kw with Some k => k | None => [] end) else Err AssertionError
  | SString t => Ok ([t], [])
  | _ => Err TypeError
  end.

Section Eval.
  Context {S V : Type} (note : nat -> pyexc -> S -> S).
  (** Parameter.new / ReturnValue.new *)
  Variable make : list string -> list (string * string) -> res V.
  (** utils.py:248-257 and 260-269 *)
  Definition eval_spec (parse : spec V -> res (list string * list (string * string))) (p : policy) (wrapper : nat) (s : spec V) : st S V :=
    match s with
    | SObject v => ret v
    | _ => a <~ lift (parse s) ;;
           call_with_error_handling note p lookup_errors wrapper (lift (make (fst a) (snd a)))
    end.
  Definition eval_param := eval_spec parse_param_spec.
  Definition eval_retval := eval_spec parse_retval_spec.
  (** function.py:75-76: the return value first, then the parameters in order. *)
  Fixpoint eval_params (p : policy) (wrapper : nat) (l : list (spec V)) : st S (list V) :=
    match l with
    | [] => ret []
    | s :: r => v <~ eval_param p wrapper s ;; vs <~ eval_params p wrapper r ;; ret (v :: vs)
    end.
End Eval.
