(** The discipline expected of the handlers of reverse wrappers. *)
From Coq Require Import String List.
From Verif.Model Require Import Py CodeBlock Params MiniC ForwardWrapper ReverseWrapper.
From Verif.Spec Require Import WrapperSpec HandlerSpec.
Import ListNotations.
Open Scope list_scope.

(** Everything the handlers of a reverse wrapper do, given what the Python call does. *)
Definition reverse_calls (r : rconfig) (call : list hact) : list hact :=
  flat_map h_acts (r_params r) ++ call ++ h_acts (r_return r).

Record reverse_well_behaved (r : rconfig) : Prop := {
  rw_params : Forall (fun h => disciplined (h_acts h)) (r_params r);
  rw_return : disciplined (h_acts (r_return r));
  rw_call : forall b, disciplined (r_call r b);
  rw_gil : forall b, no_gil_calls (reverse_calls r (r_call r b));
  rw_late : forall b, no_late_cleanup (reverse_calls r (r_call r b));
  rw_stmt : exists w, f_acts (r_return_stmt r) = [AReturn w] }.

(** No code of the list does [a]. *)
Definition never (a : act) (l : list hact) : Prop :=
  Forall (fun h => Forall (fun f => ~ In a (f_acts f ++ f_pass f)) (fragments h)) l.

(** A virtual-method proxy whose parameter and return value handlers follow the discipline, do not touch the lock
    and do not check anything after the call before the override is called; whose error return (of the return type)
    does not use Python; and which has something to return when there is no override. *)
Record proxy_well_behaved (x : proxy) : Prop := {
  pw_params : Forall (fun h => disciplined (h_acts h)) (x_params x);
  pw_return : disciplined (h_acts (x_return x));
  pw_gil_params : no_gil_calls (flat_map h_acts (x_params x));
  pw_gil_return : no_gil_calls (h_acts (x_return x));
  pw_late_params : forall c f, ~ In (XCheck After c f) (flat_map h_acts (x_params x));
  pw_late_return : no_late_cleanup (h_acts (x_return x));
  pw_error : cpp_return (x_c_error_return x);
  pw_total : x_void x = true \/ x_concrete x = true \/ x_trivial x = true }.

(** The handlers of the proxy do not themselves call the parent implementation. *)
Definition parent_free (x : proxy) (parent : string) : Prop :=
  never (ACpp parent) (flat_map h_acts (x_params x)) /\ never (ACpp parent) (h_acts (x_return x)).

(** What ends a call that did not produce a result: the parent implementation if there is one and a value is
    wanted, else the error value of the return type. *)
Definition fallback (x : proxy) (parent : string) : list act :=
  if (negb (x_void x) && x_concrete x)%bool then [ACpp parent; AReturn parent] else f_acts (x_c_error_return x).

(** The 'obj' field of the Python instance: redirected to the C++ object by acquiring [r_object], put back by
    releasing it. *)
Inductive pointer : Type := Original | Redirected.
Fixpoint pointer_after (t : list act) (p : pointer) : pointer :=
  match t with
  | [] => p
  | AAcquire r :: t => pointer_after t (if Nat.eqb r r_object then Redirected else p)
  | ARelease r :: t => pointer_after t (if Nat.eqb r r_object then Original else p)
  | _ :: t => pointer_after t p
  end.
