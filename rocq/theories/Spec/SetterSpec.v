(** The discipline expected of the handler of a setter or converter. *)
From Coq Require Import String List.
From Verif.Model Require Import Py CodeBlock Params MiniC ForwardWrapper ReverseWrapper.
From Verif.Spec Require Import WrapperSpec HandlerSpec.
Import ListNotations.
Open Scope list_scope.

Record setter_well_behaved (t : setter) : Prop := {
  tw_handler : disciplined (h_acts (t_return t));
  tw_predeclare : Forall (fun a => match a with XDeclare _ _ _ _ | XReserve _ => True | _ => False end) (t_predeclare t);
  tw_late : no_late_cleanup (h_acts (t_return t));
  tw_after : Forall plain_frag (t_after t);
  tw_error : returns (t_error t);
  tw_success : exists w, f_acts (t_success t) = [AReturn w] }.
