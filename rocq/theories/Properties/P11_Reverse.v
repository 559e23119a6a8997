(** C11, C34, C35: code called from C++ that uses Python. *)
From Coq Require Import String List Arith Bool.
From Verif.Model Require Import Py CodeBlock Params MiniC ForwardWrapper ReverseWrapper Demo DemoReverse.
From Verif.Spec Require Import WrapperSpec HandlerSpec ReverseSpec SetterSpec.
From Verif.Proofs Require ReverseTop ProxyProofs SetterProofs.
Import ListNotations.
Open Scope list_scope.

(** C11.  Whatever the outcome of the checks, a reverse wrapper returns having taken the lock first and released
    it once after everything else, without using Python afterwards. *)
Theorem C11_reverse : forall err r s, cpp_return err -> reverse_well_behaved r -> reverse_wrapper err r = Ok s ->
  forall ch, snd (exec ch 0 (rbody s)) = Returned /\ reverse_run (fst (exec ch 0 (rbody s))).
Proof. exact ReverseTop.reverse_ok. Qed.
Print Assumptions C11_reverse.

(** The same for virtual-method proxies, which also look up the override and redirect the object pointer. *)
Theorem C11_proxy : forall x s, proxy_well_behaved x -> virtual_proxy x = Ok s ->
  forall ch, snd (exec ch 0 (rbody s)) = Returned /\ reverse_run (fst (exec ch 0 (rbody s))).
Proof. exact ProxyProofs.proxy_run. Qed.
Print Assumptions C11_proxy.

(** C34.  Without an override (the check at the third statement holds), exactly this happens: the lock is taken,
    the attribute looked up, a concrete void parent implementation is called, the lookup result and the lock are
    released and the call ends, for a concrete non-void method with the value of the parent implementation. *)
Theorem C34_not_overridden : forall x s, proxy_well_behaved x -> parent_free x (parent_call x) ->
  virtual_proxy x = Ok s -> forall ch, ch 2 <> 0 ->
  fst (exec ch 0 (rbody s)) =
    [AAcquire gil; APy "PyObject_GetAttrString"; AAcquire r_method;
     APy "py_method == NULL || Py_TYPE(py_method) == &PyCFunction_Type"] ++
    (if x_void x && x_concrete x then [ACpp (parent_call x)] else []) ++
    [ARelease r_method; ARelease gil] ++ fallback x (parent_call x).
Proof. exact ProxyProofs.not_overridden. Qed.
Print Assumptions C34_not_overridden.

(** With an override, either the override is called and its converted result returned, without the parent
    implementation being run; or a later check fails and the fallback ends the call. *)
Theorem C34_overridden : forall x s, proxy_well_behaved x -> parent_free x (parent_call x) ->
  virtual_proxy x = Ok s -> forall ch, ch 2 = 0 ->
  exists t, ~ In (ACpp (parent_call x)) t /\
    ((fst (exec ch 0 (rbody s)) = t ++ [AReturn (if x_void x then "" else "retval")%string] /\ In (APy "PyObject_CallMethod") t) \/
     ((exists n, 2 < n /\ ch n <> 0) /\ fst (exec ch 0 (rbody s)) = t ++ fallback x (parent_call x))).
Proof. exact ProxyProofs.overridden. Qed.
Print Assumptions C34_overridden.

(** On every path the object pointer of the Python instance is back to its value. *)
Theorem C34_pointer_restored : forall x s, proxy_well_behaved x ->
  virtual_proxy x = Ok s -> forall ch, pointer_after (fst (exec ch 0 (rbody s))) Original = Original.
Proof.
  exact (fun x s W H ch => ReverseTop.pointer_restored _ (proj2 (ProxyProofs.proxy_run x s W H ch))).
Qed.
Print Assumptions C34_pointer_restored.

(** Non-vacuity. *)
Lemma demo_proxy_ok void : proxy_well_behaved (demo_proxy void true true).
Proof.
  assert (P : forall t, plain_frag (py_frag t)) by (intros; repeat constructor).
  assert (G : forall f, (forall a, In a (f_acts f ++ f_pass f) -> a <> AAcquire gil /\ a <> ARelease gil) -> no_gil f).
  { intros f H. split; intros X; now apply H in X. }
  constructor.
  - repeat (apply Forall_cons || apply Forall_nil); cbn.
    + apply d_harmless; [exact I|constructor].
    + apply d_harmless; [exact I|].
      eapply (d_check_acquire _ _ _ 5); [split; [repeat constructor|reflexivity]|exact I|eexists []; split; [reflexivity|constructor]|].
      apply d_harmless; [exact I|constructor].
  - destruct void; cbn; apply d_harmless; try exact I; [constructor|].
    apply d_harmless; [|constructor]. split; [repeat constructor|apply P].
  - unfold no_gil_calls. cbn; repeat (apply Forall_cons || apply Forall_nil); cbn;
      try (apply G; cbn; intros a [<-|[<-|[]]] || intros a [<-|[]]; split; discriminate).
  - unfold no_gil_calls. destruct void; cbn; repeat (apply Forall_cons || apply Forall_nil); cbn;
      try (apply G; cbn; intros a [<-|[<-|[]]] || intros a [<-|[]]; split; discriminate).
  - intros c f HI. cbn in HI. intuition discriminate.
  - intros l1 c f l2 E g HI. destruct void; cbn in E;
      repeat (destruct l1 as [|? l1]; cbn in E; [try discriminate E; injection E as <- <- <-; cbn in HI; intuition discriminate|injection E as <- E]);
      destruct l1; discriminate E.
  - exists [], ""%string. split; [reflexivity|constructor].
  - right. now left.
Qed.
Lemma demo_proxy_never void : parent_free (demo_proxy void true true) "Foo::bar(a, b)".
Proof.
  unfold parent_free, never. destruct void; cbn; split; repeat (apply Forall_cons || apply Forall_nil); cbn;
    intros X; repeat (destruct X as [X|X]; [discriminate|]); exact X.
Qed.
Example C34_demo : exists s, virtual_proxy (demo_proxy false true true) = Ok s /\
  let t ch := fst (exec ch 0 (rbody s)) in
  In (APy "PyObject_CallMethod") (t (fun _ => 0)) /\
  (* a failing override of a method with a return value falls back to the parent *)
  In (APy "PyObject_CallMethod") (t (choose 7 1)) /\ In (ACpp "Foo::bar(a, b)") (t (choose 7 1)).
Proof.
  destruct (virtual_proxy (demo_proxy false true true)) as [s|] eqn:E; [|vm_compute in E; discriminate E].
  exists s. split; [reflexivity|]. assert (B : rbody s = proxy_body (demo_proxy false true true)) by (unfold proxy_body; now rewrite E).
  rewrite B. clear.
  match goal with |- let t ch := fst (exec ch 0 ?b) in _ => remember b as bb eqn:Eb end. vm_compute in Eb. subst bb.
  cbn zeta. repeat split; vm_compute; repeat ((left; reflexivity) || right).
Qed.

(** A pure virtual method whose result cannot be made up prints the error after the lock was released. *)
Theorem C11_fatal_refuted : exists s, virtual_proxy (demo_proxy false false false) = Ok s /\
  exists ch, snd (exec ch 0 (rbody s)) = Returned /\ ~ reverse_run (fst (exec ch 0 (rbody s))).
Proof.
  destruct (virtual_proxy (demo_proxy false false false)) as [s|] eqn:E; [|vm_compute in E; discriminate E].
  exists s. split; [reflexivity|]. assert (B : rbody s = proxy_body (demo_proxy false false false)) by (unfold proxy_body; now rewrite E).
  rewrite B. clear. exists (choose 2 1).
  match goal with |- context [exec ?a ?b ?d] => remember (exec a b d) as x eqn:Ex end. vm_compute in Ex. subst x.
  cbn [fst snd]. split; [reflexivity|]. intros [t1 [t2 [w [T [_ [_ [_ [R C]]]]]]]].
  injection T as T.
  repeat (destruct t1 as [|? t1]; cbn [app] in T; [try discriminate T|injection T as <- T; try (apply R; do 4 right; left; reflexivity)]).
  injection T as T. destruct t2 as [|a t2]; [discriminate T|]. injection T as <- T. inversion C as [|? ? X]. exact X.
Qed.
Print Assumptions C11_fatal_refuted.

(** C35.  An attribute setter or value converter returns exactly once with every reference released; the setter
    method is called exactly when the whole conversion succeeded, and otherwise the error value is returned. *)
Theorem C35_setter : forall t, setter_well_behaved t -> forall s, setter_code t = Ok s -> forall ch,
  snd (exec ch 0 (rbody s)) = Returned /\ clean_return (fst (exec ch 0 (rbody s))) /\
  exists t1, (forall x, ~ In (AReturn x) t1) /\
    ((exists rel, fst (exec ch 0 (rbody s)) = t1 ++ frags_acts (t_after t) ++ rel ++ f_acts (t_success t) /\
                  (forall x, ~ In (AReturn x) rel)) \/
     fst (exec ch 0 (rbody s)) = t1 ++ f_acts (t_error t)).
Proof. exact SetterProofs.setter_ok. Qed.
Print Assumptions C35_setter.

Example C35_demo : setter_well_behaved demo_setter /\ exists s, setter_code demo_setter = Ok s /\
  In (ACpp "set") (fst (exec (fun _ => 0) 0 (rbody s))) /\ ~ In (ACpp "set") (fst (exec (choose 1 1) 0 (rbody s))).
Proof.
  split.
  - constructor; cbn.
    + apply d_harmless; [exact I|]. apply d_harmless; [exact I|]. apply d_harmless; [|constructor]. repeat constructor.
    + repeat constructor.
    + intros l1 c f l2 E g HI.
      repeat (destruct l1 as [|? l1]; cbn in E; [try discriminate E; injection E as <- <- <-; cbn in HI; intuition discriminate|injection E as <- E]);
      destruct l1; discriminate E.
    + repeat constructor.
    + exists [], "-1"%string. split; [reflexivity|constructor].
    + eexists; reflexivity.
  - destruct (setter_code demo_setter) as [s|] eqn:E; [|vm_compute in E; discriminate E].
    exists s. split; [reflexivity|]. assert (B : rbody s = setter_body demo_setter) by (unfold setter_body; now rewrite E).
    rewrite B. clear. split.
    + vm_compute. repeat ((left; reflexivity) || right).
    + vm_compute. intros H. repeat (destruct H as [H|H]; [discriminate H|]). exact H.
Qed.
