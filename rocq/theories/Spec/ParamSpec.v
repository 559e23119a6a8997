(** What the argument lists of PyArg_ParseTuple* and Py_BuildValue must look like. *)
From Coq Require Import String List Bool.
From Verif.Model Require Import Params.
Import ListNotations.
Open Scope list_scope.

(** The order in which parameters are parsed, read off the add_parameter calls made since the last clear:
    those added with prepend, latest first, then the others in order. *)
Definition since_pclear (h : list pop) : list pop :=
  fold_left (fun acc o => match o with PClear => [] | _ => acc ++ [o] end) h [].
Definition prepended (h : list pop) : list pitem :=
  flat_map (fun o => match o with PAdd i true => [i] | _ => [] end) h.
Definition appended (h : list pop) : list pitem :=
  flat_map (fun o => match o with PAdd i false => [i] | _ => [] end) h.
Definition parse_order (h : list pop) : list pitem :=
  rev (prepended (since_pclear h)) ++ appended (since_pclear h).

(** The same for values to build. *)
Definition since_vclear (h : list vop) : list vop :=
  fold_left (fun acc o => match o with VClear => [] | _ => acc ++ [o] end) h [].
Definition vprepended (h : list vop) : list bitem :=
  flat_map (fun o => match o with VAdd i true => [i] | _ => [] end) h.
Definition vappended (h : list vop) : list bitem :=
  flat_map (fun o => match o with VAdd i false => [i] | _ => [] end) h.
Definition build_order (h : list vop) : list bitem :=
  rev (vprepended (since_vclear h)) ++ vappended (since_vclear h).

(** Required parameters first, then optional ones. *)
Definition well_ordered (l req opt : list pitem) : Prop :=
  l = req ++ opt /\ Forall (fun i => p_optional i = false) req /\ Forall (fun i => p_optional i = true) opt.

(** A required parameter after an optional one. *)
Definition misplaced (l : list pitem) : Prop :=
  exists l1 x l2 y l3, l = l1 ++ x :: l2 ++ y :: l3 /\ p_optional x = true /\ p_optional y = false.

(** The format string: units of the required parameters, a bar iff there are optional ones, their units. *)
Definition format_of (req opt : list pitem) : string :=
  String.concat "" (map p_template req ++ match opt with [] => [] | _ => ["|"%string] end ++ map p_template opt).
