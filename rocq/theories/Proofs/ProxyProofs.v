(** C11 and C34 for virtual-method proxies, from conditions on the handlers only. *)
From Coq Require Import String List Arith Bool Lia.
From Verif.Model Require Import Py CodeBlock Params MiniC ForwardWrapper ReverseWrapper.
From Verif.Spec Require Import WrapperSpec HandlerSpec ReverseSpec.
From Verif.Proofs Require Import ReverseTop.
Import ListNotations.
Open Scope list_scope.

Lemma no_late_mid a b d : (forall c f, ~ In (XCheck After c f) (a ++ b)) -> no_late_cleanup d -> no_late_cleanup (a ++ b ++ d).
Proof.
  intros A D l1 c f l2 E g. rewrite app_assoc in E. remember (a ++ b) as ab eqn:Eab. clear Eab.
  revert l1 E. induction ab as [|x ab IH]; intros l1 E; [eapply D; exact E|].
  destruct l1 as [|y l1]; cbn [app] in E.
  - injection E as -> _. exfalso. apply (A c f). now left.
  - injection E as _ E. eapply IH; [|exact E]. intros c' f' I. apply (A c' f'). now right.
Qed.

Lemma override_disciplined x b : disciplined (override_call x b).
Proof.
  unfold override_call. apply d_harmless; [repeat constructor|].
  apply (d_check_acquire Before _ _ r_result); [split; [constructor|reflexivity]|repeat constructor| |constructor].
  exists []. split; [reflexivity|constructor].
Qed.

Lemma override_no_gil x b : no_gil_calls (override_call x b).
Proof.
  assert (K : forall f, (forall a, In a (f_acts f ++ f_pass f) -> a <> AAcquire gil /\ a <> ARelease gil) -> no_gil f).
  { intros f H. split; intros X; now apply H in X. }
  unfold no_gil_calls, override_call. repeat (apply Forall_cons || apply Forall_nil); apply K; cbn;
    intros a HI; repeat (destruct HI as [<-|HI]; [split; discriminate|]); destruct HI.
Qed.

Lemma override_never x b p : never (ACpp p) (override_call x b).
Proof.
  unfold never, override_call. repeat (apply Forall_cons || apply Forall_nil); cbn; intros HI;
    repeat (destruct HI as [HI|HI]; [discriminate HI|]); exact HI.
Qed.

Lemma override_no_after x b c f : ~ In (XCheck After c f) (override_call x b).
Proof. intros HI. repeat (destruct HI as [HI|HI]; [discriminate HI|]). exact HI. Qed.

Lemma proxy_reverse x : proxy_well_behaved x -> reverse_well_behaved (proxy_config x).
Proof.
  intros [P R GP GR LP LR Er T]. constructor; cbn [proxy_config r_params r_return r_call r_return_stmt]; auto.
  - apply override_disciplined.
  - intros b. unfold reverse_calls. cbn [r_params r_return]. apply Forall_app. split; [exact GP|]. apply Forall_app.
    split; [apply override_no_gil|exact GR].
  - intros b. unfold reverse_calls. cbn [r_params r_return]. apply no_late_mid; [|exact LR].
    intros c f I. apply in_app_iff in I. destruct I as [I|I]; [now apply LP in I|now apply override_no_after in I].
  - destruct (x_void x); eexists; reflexivity.
Qed.

Lemma proxy_err x : proxy_well_behaved x -> cpp_return (proxy_error_return x).
Proof.
  intros W. pose proof (pw_error _ W) as Er. pose proof (pw_total _ W) as T. unfold proxy_error_return.
  destruct (x_void x) eqn:V; [exact Er|]. destruct (x_concrete x) eqn:C.
  - exists [ACpp (parent_call x)], (parent_call x). split; [reflexivity|repeat constructor].
  - destruct (x_trivial x) eqn:Tr; [exact Er|]. destruct T as [T|[T|T]]; discriminate.
Qed.

Lemma proxy_fallback x : proxy_well_behaved x -> f_acts (proxy_error_return x) = fallback x (parent_call x).
Proof.
  intros W. pose proof (pw_total _ W) as T. unfold proxy_error_return, fallback.
  destruct (x_void x) eqn:V; [reflexivity|]. destruct (x_concrete x) eqn:C; [reflexivity|].
  destruct (x_trivial x) eqn:Tr; [reflexivity|]. destruct T as [T|[T|T]]; discriminate.
Qed.

Lemma proxy_never x : parent_free x (parent_call x) ->
  forall b, never (ACpp (parent_call x)) (reverse_calls (proxy_config x) (override_call x b)).
Proof.
  intros [A B] b. unfold reverse_calls. cbn [proxy_config r_params r_return]. apply Forall_app. split; [exact A|].
  apply Forall_app. split; [apply override_never|exact B].
Qed.

Theorem proxy_run x s : proxy_well_behaved x -> virtual_proxy x = Ok s ->
  forall ch, snd (exec ch 0 (rbody s)) = Returned /\ reverse_run (fst (exec ch 0 (rbody s))).
Proof. intros W H. apply (proxy_ok x s (proxy_err x W) (proxy_reverse x W) H). Qed.

Theorem not_overridden x s : proxy_well_behaved x -> parent_free x (parent_call x) -> virtual_proxy x = Ok s ->
  forall ch, ch 2 <> 0 ->
  fst (exec ch 0 (rbody s)) =
    [AAcquire gil; APy "PyObject_GetAttrString"; AAcquire r_method;
     APy "py_method == NULL || Py_TYPE(py_method) == &PyCFunction_Type"] ++
    (if (x_void x && x_concrete x)%bool then [ACpp (parent_call x)] else []) ++
    [ARelease r_method; ARelease gil] ++ fallback x (parent_call x).
Proof.
  intros W N H ch C. rewrite <- (proxy_fallback x W).
  apply (proxy_not_overridden x s (proxy_err x W) (proxy_reverse x W) (proxy_never x N) H ch C).
Qed.

Theorem overridden x s : proxy_well_behaved x -> parent_free x (parent_call x) -> virtual_proxy x = Ok s ->
  forall ch, ch 2 = 0 ->
  exists t, ~ In (ACpp (parent_call x)) t /\
    ((fst (exec ch 0 (rbody s)) = t ++ [AReturn (if x_void x then "" else "retval")%string] /\ In (APy "PyObject_CallMethod") t) \/
     ((exists n, 2 < n /\ ch n <> 0) /\ fst (exec ch 0 (rbody s)) = t ++ fallback x (parent_call x))).
Proof.
  intros W N H ch C. rewrite <- (proxy_fallback x W).
  destruct (proxy_overridden x s (proxy_err x W) (proxy_reverse x W) (proxy_never x N) H ch C) as (t & A & B).
  exists t. split; [exact A|]. destruct B as [B|B]; [left|right; exact B].
  cbn [proxy_config r_return_stmt] in B. destruct (x_void x); exact B.
Qed.
