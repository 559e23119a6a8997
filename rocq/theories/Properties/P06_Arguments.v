(** C06, C07: the argument parsing code of a wrapper, and how a Python call binds to it. *)
From Coq Require Import String List Arith.
From Verif.Model Require Import Py CodeBlock Params PyArgs MiniC ForwardWrapper WrapperCall Demo.
From Verif.Spec Require Import ParamSpec ArgSpec HandlerSpec BodySpec.
From Verif.Proofs Require ParamProofs ArgProofs CallProofs.
Import ListNotations.
Open Scope list_scope.

(** The order of the parameters is the order of the calls, prepended ones first, latest first. *)
Theorem C06_order : forall h, prun [] h = parse_order h.
Proof. exact ParamProofs.parse_order_ok. Qed.
Print Assumptions C06_order.
Theorem C06_build_order : forall h, vrun [] h = build_order h.
Proof. exact ParamProofs.build_order_ok. Qed.
Print Assumptions C06_build_order.

(** The format is the units of the required parameters, a bar iff there are optional ones, and their units,
    in quotes, followed by the C targets in the same order; it raises iff a required parameter follows an
    optional one; the two cases are exhaustive and exclusive. *)
Theorem C06_format : forall l,
  (forall req opt, well_ordered l req opt ->
     parse_get_parameters l = Ok ((dquote ++ format_of req opt ++ dquote)%string :: flat_map p_values l)) /\
  (misplaced l -> parse_get_parameters l = Err ValueError) /\
  ((exists req opt, well_ordered l req opt) \/ misplaced l) /\
  ~ ((exists req opt, well_ordered l req opt) /\ misplaced l).
Proof. exact ParamProofs.parameters_ok. Qed.
Print Assumptions C06_format.

(** A keyword list is made of all names, or absent when there are none; mixing raises. *)
Theorem C06_keywords : forall l,
  (forall kw, get_keywords l = Ok (Some kw) <-> l <> [] /\ map p_name l = map Some kw) /\
  (get_keywords l = Ok None <-> Forall (fun i => p_name i = None) l) /\
  (forall e, get_keywords l = Err e <-> e = ValueError /\
     Exists (fun i => p_name i = None) l /\ Exists (fun i => p_name i <> None) l).
Proof. exact ParamProofs.keywords_ok. Qed.
Print Assumptions C06_keywords.

Theorem C06_is_empty : forall l, (forall i, In i l -> p_template i <> ""%string) ->
  (parse_is_empty l = Ok true <-> l = []).
Proof. exact ParamProofs.is_empty_ok. Qed.
Print Assumptions C06_is_empty.

Example C06_example :
  let h := [PAdd (named "O" "old" false) false; PClear; PAdd (named "i" "x" false) false;
            PAdd (named "s#" "y" true) false; PAdd (named "O!" "self" false) true]%string in
  prun [] h = [named "O!" "self" false; named "i" "x" false; named "s#" "y" true]%string /\
  parse_get_parameters (prun [] h) = Ok [(dquote ++ "O!i|s#" ++ dquote)%string; "&self"; "&x"; "&y"]%string /\
  get_keywords (prun [] h) = Ok (Some ["self"; "x"; "y"]%string) /\
  misplaced [named "i" "x" true; named "i" "y" false]%string.
Proof.
  repeat split; try reflexivity. exists [], (named "i" "x" true), [], (named "i" "y" false), [].
  repeat split; reflexivity.
Qed.

(** C07.  For every wrapper whose parameters are named, distinctly, and every Python call of it: the call is
    accepted iff Python's binding rule accepts it and every supplied argument converts; then each parameter
    holds the converted argument supplied for it, and omitted optional ones are untouched. *)
Theorem C07_call_binds : forall (V W : Type) (conv : string -> V -> option W) c s kw args kwargs,
  generate_body c (init_state c) = Ok s ->
  let items := parse_order (parse_calls (early_calls c)) in
  (forall i, In i items -> p_template i <> ""%string /\ p_template i <> "|"%string) ->
  map p_name items = map Some kw -> NoDup kw -> NoDup (map fst kwargs) ->
  forall r,
  python_call conv s items args kwargs = Some r <->
  acceptable (length (filter (fun i => negb (p_optional i)) items)) kw args kwargs /\
  bound conv (map p_template items) kw args kwargs r.
Proof. exact CallProofs.call_ok. Qed.
Print Assumptions C07_call_binds.

(** PyArg_ParseTuple (unnamed parameters): positional binding. *)
Theorem C07_positional : forall (V W : Type) (conv : string -> V -> option W) items req opt args fmt,
  well_ordered items req opt -> Forall (fun i => p_template i <> "|"%string) items -> parse_template items false = Ok fmt ->
  forall r,
  parse_tuple_only conv fmt args = Some r <->
  length req <= length args <= length items /\ length r = length items /\
  forall i, i < length items ->
    match nth_error args i with
    | Some v => exists it w, nth_error items i = Some it /\ conv (p_template it) v = Some w /\ nth_error r i = Some (Some w)
    | None => nth_error r i = Some None
    end.
Proof. exact ArgProofs.binding_positional. Qed.
Print Assumptions C07_positional.

(** Non-vacuity: f(x, y, z=...) called as f(1, z=3, y=2), f(1, 2), and wrongly as f(1, x=5, y=2). *)
Definition three : config :=
  demo [int_param "x" false; int_param "y" false; int_param "z" true] (Some (object_return 3)) false [].
Example C07_example : exists s, generate_body three (init_state three) = Ok s /\
  let items := parse_order (parse_calls (early_calls three)) in
  let conv (_ : string) (v : nat) := Some v in
  map p_name items = map Some ["x"; "y"; "z"]%string /\
  (forall i, In i items -> p_template i <> ""%string /\ p_template i <> "|"%string) /\
  python_call conv s items [1] [("z", 3); ("y", 2)]%string = Some [Some 1; Some 2; Some 3] /\
  python_call conv s items [1; 2] [] = Some [Some 1; Some 2; None] /\
  python_call conv s items [1] [("x", 5); ("y", 2)]%string = None.
Proof.
  eexists. split; [vm_compute; reflexivity|]. cbv zeta.
  split; [reflexivity|]. split; [|repeat split; vm_compute; reflexivity].
  intros i Hi. vm_compute in Hi. repeat destruct Hi as [<-|Hi]; try (split; discriminate). contradiction.
Qed.

(** The naming hypothesis is needed: an overloaded wrapper (forced keyword parsing) with unnamed parameters
    rejects every call. *)
Definition unnamed : config :=
  {| c_parse_error := ret_null; c_error := ret_null;
     c_params := [{| h_acts := [XParse {| p_template := "i"; p_values := ["&x"%string]; p_name := None; p_optional := false |} false];
                     h_raise := None |}];
     c_return := None; c_have_return := true; c_retval_type := None; c_force_parse := Some parse_tuple_and_keywords;
     c_unblock := false; c_deprecated := None; c_precall := []; c_postcall := [];
     c_call_text := fun _ => "f();"%string; c_call_acts := [ACpp "f"]; c_throw := []; c_catch_value := "NULL" |}.
Theorem C07_unnamed_refuted : exists s, generate_body unnamed (init_state unnamed) = Ok s /\
  forall (conv : string -> nat -> option nat) args kwargs,
  python_call conv s (parse_order (parse_calls (early_calls unnamed))) args kwargs = None.
Proof.
  eexists. split; [vm_compute; reflexivity|]. intros conv args kwargs. cbn.
  destruct args as [|a args]; destruct kwargs as [|b kwargs]; cbn; reflexivity.
Qed.
Print Assumptions C07_unnamed_refuted.
