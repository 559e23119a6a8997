(** C08, C09: what a wrapper returns, and its method flags. *)
From Coq Require Import String List Arith.
From Verif.Model Require Import Py CodeBlock Decls Params PyArgs MiniC ForwardWrapper WrapperCall Demo.
From Verif.Spec Require Import ParamSpec HandlerSpec BodySpec.
From Verif.Proofs Require GenProofs.
Import ListNotations.
Open Scope list_scope.

(** The last statements of a wrapper build the result from exactly the values its handlers produced (None,
    with a reference, when there are none), run the cleanups and return it. *)
Theorem C08_result : forall c s, generate_body c (init_state c) = Ok s ->
  (c_return c <> None \/ c_have_return c = true) ->
  let values := build_order (build_calls (handler_calls c)) in
  (forall i, In i values -> b_template i <> ""%string) ->
  exists pre cleanups,
    block_out s after_call = pre ++
      (match values with
       | [] => [ICode (py_frag "Py_INCREF(Py_None);"); ICode (py_frag "py_retval = Py_None;")]
       | _ => [ICode (py_frag ("py_retval = Py_BuildValue(" ++
                 join ", " (("(char *) " ++ dquote ++ String.concat "" (map b_template values) ++ dquote)%string
                            :: flat_map b_values values) ++ ");"))]
       end)
      ++ map ICode cleanups
      ++ [ICode {| f_text := "return py_retval;"; f_acts := [AReturn "py_retval"]; f_pass := [] |}].
Proof. exact GenProofs.result_ok. Qed.
Print Assumptions C08_result.

(** The C return value comes first when the return handler prepends it, and the other values follow in the
    order of the parameters... *)
Theorem C08_return_value_first : forall c h r,
  c_return c = Some h -> only_appends (early_calls c) -> only_appends (c_postcall c) ->
  build_calls (h_acts h) = [VAdd r true] ->
  build_order (build_calls (handler_calls c)) = r :: builds (early_calls c) ++ builds (c_postcall c).
Proof. exact GenProofs.order_prepend. Qed.
Print Assumptions C08_return_value_first.

(** ... and after the out parameters when it does not (char and C string return values,
    stringtype.py CharReturn and CStringReturn). *)
Theorem C08_return_value_after : forall c h r,
  c_return c = Some h -> only_appends (early_calls c) -> only_appends (c_postcall c) ->
  build_calls (h_acts h) = [VAdd r false] ->
  build_order (build_calls (handler_calls c)) = builds (early_calls c) ++ r :: builds (c_postcall c).
Proof. exact GenProofs.order_append. Qed.
Print Assumptions C08_return_value_after.

Definition char_return : handler :=
  {| h_acts := [XBuild (built "c" "(int) retval") false]; h_raise := None |}.
Example C08_example :
  (exists s, generate_body demo1 (init_state demo1) = Ok s) /\
  build_calls (h_acts (object_return 3)) = [VAdd (built "O" "py_Foo") true] /\
  build_order (build_calls (handler_calls demo1)) = [built "O" "py_Foo"; built "i" "w"]%string.
Proof. split; [eexists; vm_compute; reflexivity|]. split; reflexivity. Qed.
Theorem C08_char_return_refuted :
  let c := demo [out_param "w"] (Some char_return) false [] in
  (exists s, generate_body c (init_state c) = Ok s) /\
  build_order (build_calls (handler_calls c)) = [built "i" "w"; built "c" "(int) retval"]%string.
Proof. split; [eexists; vm_compute; reflexivity|reflexivity]. Qed.
Print Assumptions C08_char_return_refuted.

(** C09.  Exactly three combinations of flags and parsing code are generated. *)
Theorem C09_flags : forall c s, generate_body c (init_state c) = Ok s ->
  let items := parse_order (parse_calls (early_calls c)) in
  (forall i, In i items -> p_template i <> ""%string) ->
  exists req opt, well_ordered items req opt /\
  let fmt := ("(char *) " ++ dquote ++ format_of req opt ++ dquote)%string in
  let targets := flat_map p_values items in
  let parsing (callee : string) (args : list string) :=
    [ICheck (py_frag ("!" ++ callee ++ "(" ++ join ", " args ++ ")")%string) [c_parse_error c]] in
  (items = [] /\ c_force_parse c = None /\ w_flags s = ["METH_NOARGS"%string] /\ block_out s before_parse = []) \/
  ((items <> [] \/ c_force_parse c <> None) /\ c_force_parse c <> Some parse_tuple_and_keywords /\
     Forall (fun i => p_name i = None) items /\ w_flags s = ["METH_VARARGS"%string] /\
     block_out s before_parse = parsing "PyArg_ParseTuple"%string ("args"%string :: fmt :: targets)) \/
  ((c_force_parse c = Some parse_tuple_and_keywords \/ items <> []) /\
   exists kw, ((kw = [] /\ c_force_parse c = Some parse_tuple_and_keywords /\ Forall (fun i => p_name i = None) items) \/
               (kw <> [] /\ map p_name items = map Some kw)) /\
     w_flags s = ["METH_VARARGS"; "METH_KEYWORDS"]%string /\
     exists v d d', declare_variable d 0 "const char *" "keywords"
         (Some ("{" ++ join ", " (map (fun k => (dquote ++ k ++ dquote)%string) kw ++ ["NULL"])%list ++ "}")%string) (Some "[]"%string) = (d', Ok v) /\
     block_out s before_parse =
       parsing "PyArg_ParseTupleAndKeywords"%string ("args" :: "kwargs" :: fmt :: ("(char **) " ++ v) :: targets)%string).
Proof. exact GenProofs.flags_ok. Qed.
Print Assumptions C09_flags.

(** Forcing keyword parsing gives the same flags whatever the parameters. *)
Theorem C09_forced_flags : forall c s, generate_body c (init_state c) = Ok s ->
  (forall i, In i (parse_order (parse_calls (early_calls c))) -> p_template i <> ""%string) ->
  c_force_parse c = Some parse_tuple_and_keywords -> w_flags s = ["METH_VARARGS"; "METH_KEYWORDS"]%string.
Proof. exact GenProofs.forced_flags. Qed.
Print Assumptions C09_forced_flags.

Example C09_example :
  (exists s, generate_body demo1 (init_state demo1) = Ok s /\ w_flags s = ["METH_VARARGS"; "METH_KEYWORDS"]%string) /\
  (let c := demo [out_param "w"] (Some char_return) false [] in
   exists s, generate_body c (init_state c) = Ok s /\ w_flags s = ["METH_NOARGS"]%string).
Proof. split; eexists; split; vm_compute; reflexivity. Qed.
