(** What the handlers of a wrapper asked for, read off the calls they made. *)
From Coq Require Import String List Bool.
From Verif.Model Require Import Py CodeBlock Params MiniC ForwardWrapper.
Import ListNotations.
Open Scope list_scope.

Definition parse_calls (l : list hact) : list pop :=
  flat_map (fun a => match a with XParse i p => [PAdd i p] | _ => [] end) l.
Definition build_calls (l : list hact) : list vop :=
  flat_map (fun a => match a with XBuild i p => [VAdd i p] | _ => [] end) l.
Definition call_args (l : list hact) : list string :=
  flat_map (fun a => match a with XCallParam t => [t] | _ => [] end) l.

(** Calls made before the C++ call is written, and after. *)
Definition early_calls (c : config) : list hact := flat_map h_acts (c_params c) ++ c_precall c.
Definition late_calls (c : config) : list hact :=
  match c_return c with Some h => h_acts h | None => [] end ++ c_postcall c.

(** Handlers adding every result value at the end; the values added. *)
Definition only_appends (l : list hact) : Prop := forall i p, In (XBuild i p) l -> p = false.
Definition builds (l : list hact) : list bitem :=
  flat_map (fun a => match a with XBuild i _ => [i] | _ => [] end) l.

(** A result as Python sees it. *)
Inductive result (V : Type) : Type := RNone | RValue (v : V) | RTuple (l : list V).
Arguments RNone {V}.
Arguments RValue {V} v.
Arguments RTuple {V} l.
