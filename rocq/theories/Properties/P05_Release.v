(** C05: every run of a generated forward wrapper releases what it acquired, exactly once. *)
From Coq Require Import String List Arith.
From Verif.Model Require Import Py CodeBlock Params MiniC ForwardWrapper Demo.
From Verif.Spec Require Import WrapperSpec HandlerSpec.
From Verif.Proofs Require WrapperBody.
Import ListNotations.
Open Scope list_scope.

(** For every wrapper whose handlers pair each acquisition with a cleanup ([well_behaved]) and every oracle
    [ch] for its run-time checks and exceptions: the body runs to a return having released everything it
    acquired, newest first, each once.  Only a wrapper without return value (a constructor, whose caller
    adds the final return) may run off the end, also holding nothing.  An undeclared C++ exception
    escapes. *)
Theorem C05_releases : forall c, well_behaved c -> forall s, generate_body c (init_state c) = Ok s -> forall ch,
  match snd (exec ch 0 (body s)) with
  | Returned => clean_return (fst (exec ch 0 (body s)))
  | Fell => c_return c = None /\ c_have_return c = false /\ lifo [] (fst (exec ch 0 (body s))) []
  | Escaped => True
  end.
Proof. exact WrapperBody.releases_all. Qed.
Print Assumptions C05_releases.

(** Non-vacuity: a wrapper with two temporaries, an out parameter, a class return value, unblocked threads,
    a deprecation warning and two declared exceptions; on a run where the second conversion fails, and on the
    run where everything succeeds. *)
Example C05_demo : well_behaved demo1 /\ exists s, generate_body demo1 (init_state demo1) = Ok s /\
  clean_return (fst (exec (choose 2 1) 0 (body s))) /\
  clean_return (fst (exec (fun _ => 0) 0 (body s))) /\
  In (AAcquire 1) (fst (exec (choose 2 1) 0 (body s))) /\ ~ In (AAcquire 3) (fst (exec (choose 2 1) 0 (body s))) /\
  In (AAcquire 3) (fst (exec (fun _ => 0) 0 (body s))).
Proof.
  assert (W : well_behaved demo1).
  { assert (P : forall t, plain_frag (py_frag t)) by (intros; repeat constructor).
    constructor; cbn.
    - repeat (apply Forall_cons || apply Forall_nil); cbn.
      + repeat (apply d_harmless; [exact I|]); constructor.
      + apply d_harmless; [exact I|]. apply d_harmless; [exact I|].
        eapply (d_acquire _ _ 1); [eexists [_]; split; [reflexivity|repeat constructor]|eexists []; split; [reflexivity|constructor]|].
        apply d_harmless; [split; [apply P|exact I]|]. apply d_harmless; [exact I|constructor].
      + apply d_harmless; [exact I|]. apply d_harmless; [exact I|].
        eapply (d_acquire _ _ 2); [eexists [_]; split; [reflexivity|repeat constructor]|eexists []; split; [reflexivity|constructor]|].
        apply d_harmless; [split; [apply P|exact I]|]. apply d_harmless; [exact I|constructor].
      + repeat (apply d_harmless; [exact I|]); constructor.
    - constructor.
    - intros h [= <-]. cbn. apply d_harmless; [exact I|].
      eapply (d_check_acquire _ _ _ 3); [split; [repeat constructor|reflexivity]|exact I|eexists []; split; [reflexivity|constructor]|].
      apply d_harmless; [exact I|constructor].
    - constructor.
    - unfold handler_calls; cbn. intros l1 c f l2 E g I.
      repeat (destruct l1 as [|? l1]; cbn in E; [try discriminate E; injection E as <- <- <-; cbn in I; intuition discriminate|injection E as <- E]).
      destruct l1; discriminate E.
    - eexists [], _. split; [reflexivity|constructor].
    - eexists [], _. split; [reflexivity|constructor].
    - repeat constructor.
    - repeat constructor. }
  split; [exact W|]. destruct (generate_body demo1 (init_state demo1)) as [s|] eqn:E; [|vm_compute in E; discriminate E].
  exists s. split; [reflexivity|].
  assert (B : body s = body_of demo1) by (unfold body_of; now rewrite E).
  pose proof (WrapperBody.releases_all _ W _ E (choose 2 1)) as H1.
  pose proof (WrapperBody.releases_all _ W _ E (fun _ => 0)) as H2.
  rewrite B in *.
  remember (exec (choose 2 1) 0 (body_of demo1)) as x1 eqn:E1. vm_compute in E1. subst x1.
  remember (exec (fun _ => 0) 0 (body_of demo1)) as x2 eqn:E2. vm_compute in E2. subst x2.
  cbn [fst snd] in *. split; [exact H1|]. split; [exact H2|].
  split; [repeat ((left; reflexivity) || right)|]. split; [|repeat ((left; reflexivity) || right)].
  intros H; repeat destruct H as [H|H]; try discriminate H; exact H.
Qed.

(** Refutations: handlers of /repo outside the discipline.  A NULL class pointer is returned as None by a bare
    early return (cppclass.py:3769-3773) which skips the pending cleanups... *)
Theorem C05_null_pointer_refuted : exists s, generate_body demo_null (init_state demo_null) = Ok s /\
  exists ch, snd (exec ch 0 (body s)) = Returned /\
  In (AAcquire 1) (fst (exec ch 0 (body s))) /\ ~ In (ARelease 1) (fst (exec ch 0 (body s))).
Proof.
  destruct (generate_body demo_null (init_state demo_null)) as [s|] eqn:E; [|vm_compute in E; discriminate E].
  exists s. split; [reflexivity|]. assert (B : body s = body_of demo_null) by (unfold body_of; now rewrite E).
  rewrite B. exists (choose 5 1).
  match goal with |- context [exec ?a ?b ?d] => remember (exec a b d) as x eqn:Ex end. vm_compute in Ex. subst x.
  cbn [fst snd]. split; [reflexivity|]. split; [repeat ((left; reflexivity) || right)|].
  repeat match goal with |- _ /\ _ => split end; intros H; repeat destruct H as [H|H]; try discriminate H; exact H.
Qed.
Print Assumptions C05_null_pointer_refuted.

(** ... a string pointer parameter with ownership transfer (stringtype.py:171-178) is lost when a later
    conversion fails... *)
Theorem C05_string_pointer_refuted : exists s, generate_body demo_string_ptr (init_state demo_string_ptr) = Ok s /\
  exists ch, snd (exec ch 0 (body s)) = Returned /\
  In (AAcquire 1) (fst (exec ch 0 (body s))) /\ ~ In (ARelease 1) (fst (exec ch 0 (body s))) /\
  ~ In (ACpp "foo") (fst (exec ch 0 (body s))).
Proof.
  destruct (generate_body demo_string_ptr (init_state demo_string_ptr)) as [s|] eqn:E; [|vm_compute in E; discriminate E].
  exists s. split; [reflexivity|]. assert (B : body s = body_of demo_string_ptr) by (unfold body_of; now rewrite E).
  rewrite B. exists (choose 3 1).
  match goal with |- context [exec ?a ?b ?d] => remember (exec a b d) as x eqn:Ex end. vm_compute in Ex. subst x.
  cbn [fst snd]. split; [reflexivity|]. split; [repeat ((left; reflexivity) || right)|].
  repeat match goal with |- _ /\ _ => split end; intros H; repeat destruct H as [H|H]; try discriminate H; exact H.
Qed.
Print Assumptions C05_string_pointer_refuted.

(** ... and [no_late_cleanup] is needed: a before-call cleanup registered after an after-call check was
    written is missing from that check. *)
Theorem C05_late_cleanup_refuted : exists s, generate_body demo_late (init_state demo_late) = Ok s /\
  exists ch, snd (exec ch 0 (body s)) = Returned /\
  In (AAcquire 7) (fst (exec ch 0 (body s))) /\ ~ In (ARelease 7) (fst (exec ch 0 (body s))).
Proof.
  destruct (generate_body demo_late (init_state demo_late)) as [s|] eqn:E; [|vm_compute in E; discriminate E].
  exists s. split; [reflexivity|]. assert (B : body s = body_of demo_late) by (unfold body_of; now rewrite E).
  rewrite B. exists (choose 3 1).
  match goal with |- context [exec ?a ?b ?d] => remember (exec a b d) as x eqn:Ex end. vm_compute in Ex. subst x.
  cbn [fst snd]. split; [reflexivity|]. split; [repeat ((left; reflexivity) || right)|].
  repeat match goal with |- _ /\ _ => split end; intros H; repeat destruct H as [H|H]; try discriminate H; exact H.
Qed.
Print Assumptions C05_late_cleanup_refuted.
