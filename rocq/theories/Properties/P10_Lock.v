(** C10, C31: the interpreter lock in forward wrappers, and C++ exceptions. *)
From Coq Require Import String List Arith.
From Verif.Model Require Import Py CodeBlock Params MiniC ForwardWrapper Demo.
From Verif.Spec Require Import WrapperSpec HandlerSpec BodySpec.
From Verif.Proofs Require LockProofs.
Import ListNotations.
Open Scope list_scope.

(** With unblock_threads, on every run in which no declared exception is thrown, the lock is held at every
    Python operation and at the return, and the run either never releases it or releases it exactly around
    the C++ call. *)
Theorem C10_unblocked : forall c s, generate_body c (init_state c) = Ok s -> lock_free_config c -> c_unblock c = true ->
  Forall cpp_only (c_call_acts c) -> Forall (fun a => ~ touches_before a) (late_calls c) ->
  forall ch, (forall n b cs, nth_error (body s) n = Some (ITry b cs) -> ch n = 0) ->
  let t := fst (exec ch 0 (body s)) in
  lock true t true /\
  (Forall calm t \/
   exists t1 t2, t = t1 ++ ASaveThread :: c_call_acts c ++ ARestoreThread :: t2 /\ Forall calm t1 /\ Forall calm t2).
Proof. exact LockProofs.lock_ok. Qed.
Print Assumptions C10_unblocked.

(** Without it the lock is never touched, whatever happens. *)
Theorem C10_blocking : forall c s, generate_body c (init_state c) = Ok s -> lock_free_config c -> c_unblock c = false ->
  Forall calm (c_call_acts c) -> Forall (fun e => calm_frag (snd e)) (c_throw c) ->
  forall ch, Forall calm (fst (exec ch 0 (body s))).
Proof. exact LockProofs.lock_ok_blocking. Qed.
Print Assumptions C10_blocking.

Definition demo2 : config := demo [int_param "x" false; temp_param 1 "y"] (Some (object_return 3)) true [].
Lemma demo_calm c : c = demo1 \/ c = demo2 -> lock_free_config c.
Proof. intros [-> | ->]; unfold lock_free_config; repeat (apply Forall_cons || apply Forall_nil || split); repeat constructor. Qed.
Example C10_example : exists s, generate_body demo1 (init_state demo1) = Ok s /\ lock_free_config demo1 /\
  Forall cpp_only (c_call_acts demo1) /\ Forall (fun a => ~ touches_before a) (late_calls demo1).
Proof.
  eexists. split; [vm_compute; reflexivity|]. split; [apply demo_calm; now left|]. split; [repeat constructor|].
  repeat (apply Forall_cons || apply Forall_nil); cbn; tauto.
Qed.

(** When a declared exception is caught after the lock was released, Python is used without it. *)
Theorem C10_caught_exception_refuted : exists s, generate_body demo1 (init_state demo1) = Ok s /\
  exists ch, snd (exec ch 0 (body s)) = Returned /\ forall h, ~ lock true (fst (exec ch 0 (body s))) h.
Proof.
  destruct (generate_body demo1 (init_state demo1)) as [s|] eqn:E; [|vm_compute in E; discriminate E].
  exists s. split; [reflexivity|]. assert (B : body s = body_of demo1) by (unfold body_of; now rewrite E).
  rewrite B. clear. exists (choose 7 1).
  match goal with |- context [exec ?a ?b ?d] => remember (exec a b d) as x eqn:Ex end. vm_compute in Ex. subst x.
  cbn [fst snd]. split; [reflexivity|]. intros h L.
  repeat match goal with H : lock _ (_ :: _) _ |- _ => inversion H; clear H; subst end.
Qed.
Print Assumptions C10_caught_exception_refuted.

(** C31.  Exactly one try statement is generated, around the C++ call, with one clause per declared
    exception, in order.  When the call throws an exception matched by the declared types satisfying [m], the
    first of them is chosen: pending cleanups run, its conversion code runs, the error value is returned and
    nothing is leaked; if none matches, the exception leaves the wrapper. *)
Theorem C31_exceptions : forall c s, generate_body c (init_state c) = Ok s -> well_behaved c -> lock_free_config c -> c_throw c <> [] ->
  exists pre call clauses post,
    body s = pre ++ ITry [call] clauses :: post /\
    map fst clauses = map fst (c_throw c) /\ f_acts call = c_call_acts c /\
    Forall (fun i => ~ is_try i) pre /\ Forall (fun i => ~ is_try i) post /\
    forall ch m, snd (exec ch 0 pre) = Fell -> ch (length pre) = catch_choice m clauses ->
    match find (fun e => m (fst e)) (c_throw c) with
    | Some e => exists rel,
        exec ch 0 (body s) = (fst (exec ch 0 pre) ++ until_throw (c_call_acts c) ++ rel ++ f_acts (snd e) ++ [AReturn (c_catch_value c)], Returned) /\
        Forall (fun a => plain a \/ exists r, a = ARelease r) rel /\
        clean_return (fst (exec ch 0 (body s)))
    | None => exec ch 0 (body s) = (fst (exec ch 0 pre) ++ until_throw (c_call_acts c), Escaped)
    end.
Proof. exact LockProofs.throw_ok. Qed.
Print Assumptions C31_exceptions.

(** Non-vacuity on demo1 (its hypotheses are shown in C05_demo and C10_example): an exception matched only by
    the second declared class. *)
Example C31_example :
  map (fun x => match x with AReturn w => w | APy w => w | ARelease _ => "release" | ACpp w => w | _ => "" end)%string
      (skipn 9 (fst (exec (choose 7 2) 0 (body_of demo1)))) =
  ["foo"; "release"; "release"; "PyErr_SetNone((PyObject *) PyB_Type);"; "NULL"]%string.
Proof. vm_compute. reflexivity. Qed.
