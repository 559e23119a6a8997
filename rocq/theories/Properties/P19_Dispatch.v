(** C19: overload dispatch. *)
From Verif.Model Require Import Py CodeBlock MiniC ForwardWrapper Aggregator Demo.
From Verif.Spec Require Import HandlerSpec BodySpec DispatchSpec.
From Verif.Proofs Require DispatchProofs DelegateProofs.
Open Scope list_scope.

(** [d n] is what the delegate [n] does.  If the delegates [a] reject the arguments with exceptions [es] and [n]
    accepts them, the aggregator returns what [n] returned, with the error [n] left if any; it has called exactly
    [a] then [n], has released each saved exception once, and has built no error list. *)
Theorem C19_first : forall (V : Type) (d : string -> attempt V) a n b es v p,
  Forall2 (fun m e => d m = Rejected (Some e)) a es -> d n = Completed v p ->
  exists s, call_aggregator d (a ++ n :: b) = Finished v s /\
    cs_error s = match p with Some e => ByDelegate e | None => NoError end /\
    calls (cs_events s) = a ++ [n] /\ saved (cs_events s) = es /\ dropped (cs_events s) = es /\ lists (cs_events s) = (0, 0).
Proof. exact @DispatchProofs.dispatch_first. Qed.
Print Assumptions C19_first.

(** If all reject, it returns NULL with a TypeError carrying the texts of all the exceptions in order; each saved
    exception is released once, and so is the list. *)
Theorem C19_none : forall (V : Type) (d : string -> attempt V) names es,
  Forall2 (fun m e => d m = Rejected (Some e)) names es ->
  exists s, call_aggregator d names = Finished None s /\
    cs_error s = TypeErrorList (map Some es) /\
    calls (cs_events s) = names /\ saved (cs_events s) = es /\ dropped (cs_events s) = es /\ lists (cs_events s) = (1, 1).
Proof. exact @DispatchProofs.dispatch_none. Qed.
Print Assumptions C19_none.

(** These are all the cases, as long as rejections come with an exception value. *)
Theorem C19_cases : forall (V : Type) (d : string -> attempt V) names, (forall n, In n names -> d n <> Rejected None) ->
  (exists es, Forall2 (fun m e => d m = Rejected (Some e)) names es) \/
  (exists a n b es v p, names = a ++ n :: b /\ Forall2 (fun m e => d m = Rejected (Some e)) a es /\ d n = Completed v p).
Proof. exact @DispatchProofs.dispatch_total. Qed.
Print Assumptions C19_cases.

(** Every run of a delegate either fails before the wrapped C++ call, and then hands its error over and returns the
    error value; or makes the call, and then never hands over an error (a later one stays pending). *)
Theorem C19_delegate : forall mark value c s, delegate mark value c -> generate_body c (init_state c) = Ok s -> forall ch,
  let t := fst (exec ch 0 (body s)) in
  (In fetch t /\ ~ In (ACpp mark) t /\ snd (exec ch 0 (body s)) = Returned /\ exists u, t = u ++ [AReturn value]) \/
  (~ In fetch t /\ In (ACpp mark) t).
Proof. exact DelegateProofs.delegate_ok. Qed.
Print Assumptions C19_delegate.

(** Together: the wrapped function of the first overload whose arguments convert is the only one run, and its
    outcome is returned; if there is none, no wrapped function is run and TypeError is raised. *)
Theorem C19_dispatch : forall (V : Type) value (d : string -> attempt V) (ds : list (trial V)),
  (forall x, In x ds -> generated value x /\ d (tr_name x) = seen (tr_trace x) (tr_exc x) (tr_value x) (tr_pending x)) ->
  (exists s, (forall x, In x ds -> ~ makes_call x) /\ call_aggregator d (map tr_name ds) = Finished None s /\
     cs_error s = TypeErrorList (map (fun x => Some (tr_exc x)) ds) /\ calls (cs_events s) = map tr_name ds) \/
  (exists a x b s, ds = a ++ x :: b /\ (forall y, In y a -> ~ makes_call y) /\ makes_call x /\
     call_aggregator d (map tr_name ds) = Finished (tr_value x) s /\
     cs_error s = match tr_pending x with Some e => ByDelegate e | None => NoError end /\
     calls (cs_events s) = map tr_name (a ++ [x])).
Proof. exact DelegateProofs.dispatch_cpp. Qed.
Print Assumptions C19_dispatch.

(** A rejection whose exception has no value (PyErr_SetNone, PyErr_NoMemory: PyErr_Fetch gives NULL) is taken for
    success: NULL is returned with no error set and the following overloads are not tried. *)
Theorem C19_null_exception_refuted : exists (d : string -> attempt nat) names s,
  d "f__0"%string = Rejected None /\ d "f__1"%string = Completed (Some 7) None /\
  call_aggregator d names = Finished None s /\ cs_error s = NoError /\ calls (cs_events s) = ["f__0"%string].
Proof.
  exists (fun n => if String.eqb n "f__0" then Rejected None else Completed (Some 7) None), ["f__0"; "f__1"]%string. eexists.
  split; [reflexivity|]. split; [reflexivity|]. split; [vm_compute; reflexivity|]. split; reflexivity.
Qed.
Print Assumptions C19_null_exception_refuted.

(** Concrete cases. *)
Definition two (a b : attempt nat) (n : string) : attempt nat := if String.eqb n "f__0" then a else b.
Example C19_demo : exists s, call_aggregator (two (Rejected (Some 3)) (Completed (Some 9) None)) ["f__0"; "f__1"; "f__2"]%string = Finished (Some 9) s /\
  cs_events s = [ECalled "f__0"; ESaved 3; ECalled "f__1"; EDropped 3]%string.
Proof. eexists. split; vm_compute; reflexivity. Qed.
Example C19_demo_none : exists s, call_aggregator (two (Rejected (Some 3)) (Rejected (Some 4))) ["f__0"; "f__1"]%string = Finished None s /\
  cs_error s = TypeErrorList [Some 3; Some 4] /\
  cs_events s = [ECalled "f__0"; ESaved 3; ECalled "f__1"; ESaved 4; ENewList; EDropped 3; EDropped 4; EDropList]%string.
Proof. eexists. split; [vm_compute; reflexivity|]. split; vm_compute; reflexivity. Qed.

Definition demo_delegate : config :=
  let c := demo [int_param "x" false; temp_param 1 "y"; out_param "w"] (Some (object_return 3)) true [exc_a; exc_b] in
  {| c_parse_error := fetch_return "NULL"; c_error := c_error c; c_params := c_params c; c_return := c_return c;
     c_have_return := c_have_return c; c_retval_type := c_retval_type c; c_force_parse := Some parse_tuple_and_keywords;
     c_unblock := c_unblock c; c_deprecated := c_deprecated c; c_precall := c_precall c; c_postcall := c_postcall c;
     c_call_text := c_call_text c; c_call_acts := c_call_acts c; c_throw := c_throw c; c_catch_value := c_catch_value c |}.
Example C19_demo_delegate : delegate "foo" "NULL" demo_delegate /\ exists s, generate_body demo_delegate (init_state demo_delegate) = Ok s.
Proof.
  split; [|eexists; vm_compute; reflexivity].
  assert (S : forall a, a <> fetch -> a <> ACpp "foo" -> is_return a = false -> soft "foo" a) by (intros a A B C; split; [split; assumption|assumption]).
  constructor.
  - reflexivity.
  - split; repeat constructor; discriminate.
  - repeat (apply Forall_cons || apply Forall_nil); cbn; repeat constructor; try discriminate.
  - repeat (apply Forall_cons || apply Forall_nil); cbn; tauto.
  - repeat constructor; discriminate.
  - exists [], []. split; [reflexivity|]. split; [constructor|]. split; [constructor|]. intros x [].
Qed.
