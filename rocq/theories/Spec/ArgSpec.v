(** Python's rule for binding the arguments of a call to parameters. *)
From Coq Require Import String List Arith.
From Verif.Model Require Import Py Params.
Import ListNotations.

Section Spec.
  Context {V W : Type}.

  (** The argument supplied for parameter [i]: by position, or by keyword. *)
  Definition supplied (kws : list string) (args : list V) (kwargs : dict V) (i : nat) : option V :=
    match nth_error args i with
    | Some v => Some v
    | None => match nth_error kws i with Some k => dict_get kwargs k | None => None end
    end.

  (** No excess positional argument; every keyword names a parameter not already given by position;
      every required parameter is supplied. *)
  Definition acceptable (required : nat) (kws : list string) (args : list V) (kwargs : dict V) : Prop :=
    List.length args <= List.length kws /\
    (forall k, In k (map fst kwargs) -> exists i, List.length args <= i /\ nth_error kws i = Some k) /\
    (forall i, i < required -> supplied kws args kwargs i <> None).

  (** Each parameter holds the converted argument supplied for it, or was left untouched. *)
  Definition bound (conv : string -> V -> option W) (units : list string) (kws : list string)
      (args : list V) (kwargs : dict V) (r : list (option W)) : Prop :=
    List.length r = List.length kws /\
    forall i, i < List.length kws ->
      match supplied kws args kwargs i with
      | Some v => exists u w, nth_error units i = Some u /\ conv u v = Some w /\ nth_error r i = Some (Some w)
      | None => nth_error r i = Some None
      end.
End Spec.
