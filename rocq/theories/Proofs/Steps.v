(** Properties of the states a computation goes through. *)
From Verif.Model Require Import Py PyState Errors Overloading.
Open Scope list_scope.
Open Scope st_scope.

Section Steps.
  Context {W : Type} (R : W -> W -> Prop) (Rrefl : forall s, R s s) (Rtrans : forall a b c, R a b -> R b c -> R a c).

  Definition steps {A} (m : st W A) : Prop := forall s, R s (fst (m s)).
  Lemma steps_ret {A} (a : A) : steps (ret a).
  Proof. intros s. apply Rrefl. Qed.
  Lemma steps_raise {A} e : steps (raise e : st W A).
  Proof. intros s. apply Rrefl. Qed.
  Lemma steps_lift {A} (r : res A) : steps (lift r).
  Proof. intros s. apply Rrefl. Qed.
  Lemma steps_gets {A} (f : W -> A) : steps (gets f).
  Proof. intros s. apply Rrefl. Qed.
  Lemma steps_modify f : (forall s, R s (f s)) -> steps (modify f).
  Proof. intros F s. apply F. Qed.
  Lemma steps_bind {A B} (m : st W A) (f : A -> st W B) : steps m -> (forall a, steps (f a)) -> steps (sbind m f).
  Proof.
    intros M F s. unfold sbind. specialize (M s). destruct (m s) as [s' [a|e]]; cbn [fst] in *; [|exact M].
    exact (Rtrans _ _ _ M (F a s')).
  Qed.
  Lemma steps_try {A} (m : st W A) h : steps m -> (forall e, steps (h e)) -> steps (try_except m h).
  Proof.
    intros M F s. unfold try_except. specialize (M s). destruct (m s) as [s' [a|e]]; cbn [fst] in *; [exact M|].
    exact (Rtrans _ _ _ M (F e s')).
  Qed.
  Lemma steps_for {A} (f : A -> st W unit) l : (forall x, In x l -> steps (f x)) -> steps (for_each f l).
  Proof.
    induction l as [|x l IH]; intros F; cbn [for_each]; [apply steps_ret|]. apply steps_bind; [apply F; now left|].
    intros _. apply IH. intros y I. apply F. now right.
  Qed.

  Context (note : nat -> pyexc -> W -> W) (Rnote : forall k e s, R s (note k e s)).
  Lemma steps_handle h k e : steps (handle_error note h k e).
  Proof. unfold handle_error. apply steps_bind; [apply steps_modify; auto|intros; apply steps_lift]. Qed.
  Lemma steps_call {A} p l k (m : st W A) : steps m -> steps (call_with_error_handling note p l k m).
  Proof.
    intros M. unfold call_with_error_handling. destruct p as [h|]; [|exact M]. apply steps_try; [exact M|].
    intros e. destruct (is_instance e l); [|apply steps_raise]. apply steps_bind; [apply steps_handle|]. intros [|]; apply steps_raise.
  Qed.
  Lemma steps_report p k e : steps (report note p k e).
  Proof. unfold report. destruct p; [|apply steps_raise]. apply steps_bind; [apply steps_handle|]. intros _. apply steps_ret. Qed.
  Lemma steps_pass p l : forall ex seen, steps (normalize_pass note p ex seen l).
  Proof.
    induction l as [|w l IH]; intros ex seen; cbn [normalize_pass]; [apply steps_ret|]. apply steps_bind.
    - apply steps_try; [apply steps_bind; [apply steps_call, steps_lift|intros; apply steps_ret]|].
      intros e. destruct (exc_eq_dec e SkipWrapper); [apply steps_bind; [apply steps_report|intros; apply steps_ret]|apply steps_raise].
    - intros [f|]; [|apply steps_ret]. destruct ex as [ex|]; [|apply IH]. destruct (set_eq f ex); [apply IH|].
      apply steps_bind; [apply steps_report|intros; apply steps_ret].
  Qed.
  Lemma steps_loop p fuel : forall l, steps (normalize_loop note p fuel l).
  Proof.
    induction fuel as [|fuel IH]; intros l; cbn [normalize_loop]; [apply steps_raise|]. apply steps_bind; [apply steps_pass|].
    intros x. destruct (snd x); [apply IH|apply steps_ret].
  Qed.
  Lemma steps_normalize p l : steps (normalize_flags note p l).
  Proof. unfold normalize_flags. destruct l as [|w [|w2 l]]; try apply steps_loop. apply steps_ret. Qed.
  Lemma steps_row p l actual name : steps (get_row note p l actual name).
  Proof.
    unfold get_row. destruct l as [|w r]; [apply steps_raise|].
    destruct (match r with [] => negb (fw_needs_interface w) | _ => false end).
    - apply steps_bind; [apply steps_lift|intros; apply steps_ret].
    - apply steps_bind; [apply steps_normalize|]. intros _. apply steps_bind; [apply steps_lift|]. intros f.
      apply steps_bind; [apply steps_lift|]. intros _. destruct (distinct _) as [|d [|d2 l2]]; [apply steps_ret|apply steps_ret|apply steps_raise].
  Qed.

  Context (write : chunk -> W -> W) (Rwrite : forall c s, R s (write c s)).
  Lemma steps_wrapper w n x : steps (generate_wrapper write w n x).
  Proof. unfold generate_wrapper. apply steps_bind; [apply steps_lift|]. intros _. apply steps_modify; auto. Qed.
  Lemma steps_delegates p base l : forall n, steps (generate_delegates note write p base n l).
  Proof.
    induction l as [|w l IH]; intros n; cbn [generate_delegates]; [apply steps_ret|].
    apply steps_bind; [apply steps_modify; auto|]. intros _. apply steps_bind.
    - apply steps_try; [apply steps_bind; [apply steps_call, steps_wrapper|intros; apply steps_ret]|].
      intros e. destruct (exc_eq_dec e SkipWrapper); [apply steps_ret|apply steps_raise].
    - intros ok. apply steps_bind; [apply IH|]. intros names. apply steps_ret.
  Qed.
  Lemma steps_overload p l : steps (generate_overload note write p l).
  Proof.
    unfold generate_overload. apply steps_bind; [apply steps_normalize|]. intros [|w r]; [apply steps_raise|].
    destruct (match r with [] => negb (fw_needs_interface w) | _ => false end).
    - apply steps_bind; [apply steps_call, steps_wrapper|intros; apply steps_ret].
    - apply steps_bind; [apply steps_lift|]. intros f. apply steps_bind; [apply steps_delegates|].
      intros [|n ns]; [apply steps_raise|]. apply steps_bind; [apply steps_modify; auto|]. intros _.
      apply steps_bind; [apply steps_modify; auto|intros; apply steps_ret].
  Qed.
End Steps.
