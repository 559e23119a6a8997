(** * What events leave alone: wards and registry entries *)
From Coq Require Import List Arith Bool Lia.
From Verif.Model Require Import Ownership.
From Verif.Spec Require Import OwnSpec.
From Verif.Proofs Require Import OwnHeap OwnInv OwnTick OwnEvents OwnStep OwnTop OwnRun OwnFacts.
Import ListNotations.

Definition keepw (l l' : heap wrap) : Prop :=
  forall w : nat, match get l w, get l' w with
    | Some r, Some r' => w_wards r' = w_wards r /\ w_st r' = w_st r /\ w_refs r <= w_refs r'
    | None, Some r' => w_wards r' = []
    | None, None => True
    | Some _, None => False
    end.

Lemma keepw_refl l : keepw l l.
Proof. intros w. destruct (get l w); auto. Qed.
Lemma keepw_trans l1 l2 l3 : keepw l1 l2 -> keepw l2 l3 -> keepw l1 l3.
Proof.
  intros A B w. specialize (A w). specialize (B w).
  destruct (get l1 w), (get l2 w), (get l3 w); try tauto.
  - destruct A as (A1 & A2 & A3), B as (B1 & B2 & B3). repeat split; try congruence; lia.
  - destruct B as (B1 & B2 & B3). congruence.
Qed.
Lemma keepw_put (l : heap wrap) (w : nat) r r' : get l w = Some r -> w_wards r' = w_wards r -> w_st r' = w_st r ->
  w_refs r <= w_refs r' -> keepw l (put l w (Some r')).
Proof.
  intros G A B C1 x. rewrite get_put. destruct (Nat.eqb_spec x w) as [->|]; [rewrite G; auto|].
  destruct (get l x); auto.
Qed.
Lemma keepw_new (l : heap wrap) (w : nat) r' : get l w = None -> w_wards r' = [] -> keepw l (put l w (Some r')).
Proof.
  intros G A x. rewrite get_put. destruct (Nat.eqb_spec x w) as [->|]; [rewrite G; auto|].
  destruct (get l x); auto.
Qed.

Lemma live_get s w r : live_wrap s w = Ok r -> get (s_wraps s) w = Some r /\ w_st r = Live.
Proof.
  unfold live_wrap. destruct (get (s_wraps s) w) as [r0|]; [|discriminate].
  destruct (w_st r0) eqn:L; try discriminate. intros E; injection E as <-. auto.
Qed.
Lemma py_get e s w r : py_wrap e s = Ok (w, r) -> e_py e = VObj w /\ get (s_wraps s) w = Some r /\ w_st r = Live.
Proof.
  unfold py_wrap. destruct (e_py e) as [| |w0]; try discriminate.
  destruct (live_wrap s w0) as [r0|] eqn:L; [|discriminate]. cbn [bind]. intros E; injection E as <- <-.
  apply live_get in L. tauto.
Qed.

Lemma exec_stmt_wraps st e s e' s' : exec_stmt st e s = Ok (e', s') -> keepw (s_wraps s) (s_wraps s').
Proof.
  assert (PW : forall A (k : wid * wrap -> res A) x, bind (py_wrap e s) k = Ok x ->
    exists w r, get (s_wraps s) w = Some r /\ k (w, r) = Ok x).
  { intros A k x. destruct (py_wrap e s) as [[w r]|] eqn:L; [|discriminate]. apply py_get in L.
    exists w, r. tauto. }
  assert (KP : forall w r r', get (s_wraps s) w = Some r -> w_wards r' = w_wards r -> w_st r' = w_st r ->
    w_refs r <= w_refs r' -> keepw (s_wraps s) (put (s_wraps s) w (Some r'))) by (intros; eapply keepw_put; eauto).
  destruct st; cbn [exec_stmt]; intros E;
    try (apply PW in E; destruct E as (w & r & Gw & E)).
  - injection E as <- <-. apply keepw_new; [apply fresh_id|reflexivity].
  - injection E as <- <-. cbn. eapply KP; eauto.
  - injection E as <- <-. cbn. eapply KP; eauto.
  - destruct (source_ok src e s); [|discriminate]. cbn [bind] in E. unfold new_obj in E.
    destruct (get (s_objs s) (Ownership.e_new e)) eqn:G; [discriminate|]. cbn [bind] in E.
    destruct (py_wrap e _) as [[w r]|] eqn:PY; [|discriminate]. injection E as <- <-. cbn.
    apply py_get in PY. destruct PY as (_ & PY & _). cbn in PY. eapply KP; eauto.
  - destruct (source_ok FromSelf e s); [|discriminate]. cbn [bind] in E. unfold new_obj in E.
    destruct (get (s_objs s) (Ownership.e_new e)) eqn:G; [discriminate|]. injection E as <- <-. apply keepw_refl.
  - injection E as <- <-. cbn. eapply KP; eauto.
  - destruct (get (s_reg s) (e_val e)) as [w|]; [|injection E as <- <-; apply keepw_refl].
    destruct (live_wrap s w) as [r|] eqn:L; [|discriminate]. apply live_get in L. injection E as <- <-. cbn.
    eapply KP; [apply L|..]; cbn; auto.
  - destruct (w_obj r); [|discriminate]. injection E as <- <-. apply keepw_refl.
  - destruct (w_obj r); injection E as <- <-; apply keepw_refl.
  - unfold live_obj in E. destruct (get (s_objs s) (e_val e)); [|discriminate]. injection E as <- <-. apply keepw_refl.
  - destruct (w_obj r) as [a|]; [|discriminate].
    unfold live_obj in E. destruct (get (s_objs s) a) as [o|] eqn:G; [|discriminate]. cbn [bind] in E.
    injection E as <- <-. destruct (o_self o); cbn; eapply KP; eauto; cbn; auto.
  - injection E as <- <-. cbn. eapply KP; eauto. cbn; auto.
  - injection E as <- <-. apply keepw_refl.
  - unfold ref, live_obj in E. destruct (get (s_objs s) (e_val e)) as [o|] eqn:G; [|discriminate]. cbn [bind] in E.
    injection E as <- <-. apply keepw_refl.
  - unfold unref, live_obj in E. destruct (get (s_objs s) (e_val e)) as [o|] eqn:G; [|discriminate]. cbn [bind] in E.
    destruct (o_rc o) as [|[|n]]; [discriminate| |]; injection E as <- <-; apply keepw_refl.
  - destruct (w_obj r) as [a|]; [|discriminate].
    unfold ref, live_obj in E. destruct (get (s_objs s) a) as [o|] eqn:G; [|discriminate]. cbn [bind] in E.
    injection E as <- <-. apply keepw_refl.
  - unfold live_obj in E. destruct (get (s_objs s) (e_val e)); [|discriminate]. injection E as <- <-. apply keepw_refl.
  - destruct (e_py e); try (injection E as <- <-; apply keepw_refl).
    destruct (live_wrap s w) as [r|]; [|discriminate]. cbn [bind] in E. destruct (w_obj r) as [a|]; [|injection E as <- <-; apply keepw_refl].
    unfold live_obj in E. destruct (get (s_objs s) a) as [o|] eqn:G; [|discriminate]. cbn [bind] in E.
    injection E as <- <-. apply keepw_refl.
  - injection E as <- <-. cbn. eapply KP; eauto.
Qed.

Lemma exec_wraps c : forall e s e' s', exec c e s = Ok (e', s') -> keepw (s_wraps s) (s_wraps s').
Proof.
  induction c as [|st k IH|b x IHx y IHy k IHk]; cbn [exec]; intros e s e' s' E.
  - injection E as <- <-. apply keepw_refl.
  - destruct (exec_stmt st e s) as [[e1 s1]|] eqn:E1; [|discriminate]. cbn [bind] in E.
    eapply keepw_trans; [eapply exec_stmt_wraps; eauto|eauto].
  - destruct (eval_cond b e s) as [t|]; [|discriminate]. cbn [bind] in E.
    destruct (exec (if t then x else y) e s) as [[e1 s1]|] eqn:E1; [|discriminate]. cbn [bind] in E.
    eapply keepw_trans; [|eauto]. destruct t; eauto.
Qed.

Lemma run_code_wraps c e s s' : run_code c e s = Ok s' -> keepw (s_wraps s) (s_wraps s').
Proof.
  unfold run_code. destruct c as [c|]; [|discriminate].
  destruct (exec c e s) as [[e1 s1]|] eqn:E1; [|discriminate]. cbn [bind]. intros E; injection E as <-.
  eapply exec_wraps; eauto.
Qed.

(** Events other than custodian calls leave all lists of wards alone. *)
Lemma event_wraps cf ev s s' : step_event cf ev s = Ok s' -> (forall c w, ev <> EvWard c w) ->
  keepw (s_wraps s) (s_wraps s').
Proof.
  assert (KP : forall s w r r', live_wrap s w = Ok r -> w_wards r' = w_wards r -> w_st r' = w_st r ->
    w_refs r <= w_refs r' -> keepw (s_wraps s) (put (s_wraps s) w (Some r'))).
  { intros s0 w r r' L. apply live_get in L. intros; eapply keepw_put; eauto; tauto. }
  assert (DR : forall b s1 s1', drop_cpp b s1 = Ok s1' -> s_wraps s1' = s_wraps s1).
  { intros b s1 s1' E. unfold drop_cpp, live_obj in E. destruct (get (s_objs s1) b); [|discriminate].
    injection E as <-. reflexivity. }
  assert (UN : forall b s1 s1', unref b s1 = Ok s1' -> s_wraps s1' = s_wraps s1).
  { intros b s1 s1' E. unfold unref, live_obj in E. destruct (get (s_objs s1) b) as [ob|]; [|discriminate]. cbn [bind] in E.
    destruct (o_rc ob) as [|[|n]]; [discriminate| |]; injection E as <-; reflexivity. }
  intros E NW.
  destruct ev as [b|b|b|sub|w b|w b|k v b|k v b|w t| |w b|w|w|c w|w|b|b|b]; cbn [step_event] in *;
    try (eapply run_code_wraps; eauto; fail).
  - unfold new_obj in E. destruct (get (s_objs s) b) eqn:Gb; [discriminate|]. injection E as <-. apply keepw_refl.
  - destruct (drop_cpp b s) as [s1|] eqn:E1; [|discriminate]. cbn [bind] in E. rewrite <- (DR _ _ _ E1).
    destruct (is_rc cf).
    + rewrite (UN _ _ _ E). apply keepw_refl.
    + injection E as <-. apply keepw_refl.
  - unfold ref, live_obj in E. destruct (get (s_objs s) b) as [ob|] eqn:Gb; [|discriminate]. cbn in E.
    rewrite get_put_eq in E. cbn in E. injection E as <-. apply keepw_refl.
  - injection E as <-. cbn. apply keepw_new; [apply fresh_id|reflexivity].
  - destruct (run_code _ _ s) as [s1|] eqn:E1; [|discriminate]. cbn [bind] in E.
    destruct (live_wrap s1 w) as [r|] eqn:L; [|discriminate]. injection E as <-.
    eapply keepw_trans; [eapply run_code_wraps; eauto|]. cbn. eapply KP; eauto.
  - destruct v as [v|]; [|destruct k; try discriminate; injection E as <-; apply keepw_refl].
    destruct (gives k) eqn:GK.
    + destruct (drop_cpp v s) as [s1|] eqn:E1; [|discriminate]. cbn [bind] in E. rewrite <- (DR _ _ _ E1).
      eapply run_code_wraps; eauto.
    + cbn [bind] in E. eapply run_code_wraps; eauto.
  - destruct k as [|[|]]; cbn [bind] in E; try (eapply run_code_wraps; eauto; fail).
    destruct (drop_cpp v s) as [s1|] eqn:E1; [|discriminate]. cbn [bind] in E. rewrite <- (DR _ _ _ E1).
    eapply run_code_wraps; eauto.
  - destruct (live_wrap s w) as [r|] eqn:L; [|discriminate]. injection E as <-. cbn. eapply KP; eauto. cbn. auto.
  - destruct (live_wrap s w) as [r|] eqn:L; [|discriminate]. injection E as <-. cbn. eapply KP; eauto.
  - destruct (NW c w eq_refl).
  - destruct (live_wrap s w) as [r|] eqn:L; [|discriminate]. injection E as <-. cbn. eapply KP; eauto. cbn; auto.
  - unfold live_obj in E. destruct (get (s_objs s) b) as [ob|]; [|discriminate]. cbn [bind] in E.
    destruct (o_self ob) as [w|]; [|discriminate]. destruct (live_wrap s w) as [r|] eqn:L; [|discriminate]. injection E as <-.
    cbn. eapply KP; eauto. cbn; auto.
  - destruct (run_code _ _ s) as [s1|] eqn:E1; [|discriminate]. cbn [bind] in E.
    destruct (live_wrap s1 _) as [r|] eqn:L; [|discriminate]. injection E as <-.
    eapply keepw_trans; [eapply run_code_wraps; eauto|]. cbn. eapply KP; eauto.
  - destruct (s_calls s) as [|[w sv c|w c] rest]; [discriminate| |].
    + unfold live_obj in E. destruct (get (s_objs s) c) as [ob|]; [|discriminate]. cbn [bind] in E.
      destruct (o_self ob) as [w'|]; [|discriminate]. destruct (live_wrap s w') as [r|] eqn:L; [|discriminate]. injection E as <-.
      cbn. eapply KP; eauto.
    + destruct (live_wrap s w) as [r|] eqn:L; [|discriminate]. cbn [bind] in E.
      eapply keepw_trans; [|eapply run_code_wraps; eauto]. cbn. eapply KP; eauto.
Qed.

(** ** The registry *)

(** [b]: the PyClass* variable points to the wrapper this code made itself. *)
Fixpoint registers_own (c : code) (b : bool) : bool :=
  match c with
  | Done => true
  | Do SAlloc k => registers_own k true
  | Do SLookup k | Do SFromHelper k => registers_own k false
  | Do SRegister k => b && registers_own k b
  | Do SUnregister k => false
  | Do _ k => registers_own k b
  | If _ x y k => registers_own x b && registers_own y b && registers_own k false
  end.

Definition regs (mine : wid -> Prop) (s s' : state) : Prop :=
  (forall a, get (s_reg s') a = get (s_reg s) a \/ exists w, get (s_reg s') a = Some w /\ mine w).

Lemma regs_refl m s : regs m s s.
Proof. intros a. auto. Qed.
Lemma regs_same m s s' : s_reg s' = s_reg s -> regs m s s'.
Proof. intros E a. rewrite E. auto. Qed.
Lemma regs_trans m s1 s2 s3 : regs m s1 s2 -> regs m s2 s3 -> regs m s1 s3.
Proof. intros A B a. destruct (B a) as [->|]; auto. Qed.

Definition py_mine (mine : wid -> Prop) (e : env) : Prop := forall w, e_py e = VObj w -> mine w.

Definition keeps_reg (st : stmt) : bool := match st with SRegister | SUnregister => false | _ => true end.
Definition keeps_py (st : stmt) : bool := match st with SAlloc | SLookup | SFromHelper => false | _ => true end.

Lemma exec_stmt_reg st e s e' s' : exec_stmt st e s = Ok (e', s') ->
  (keeps_reg st = true -> s_reg s' = s_reg s) /\ (keeps_py st = true -> e_py e' = e_py e)
  /\ length (s_wraps s) <= length (s_wraps s')
  /\ (st = SAlloc -> e_py e' = VObj (length (s_wraps s)))
  /\ (st = SRegister -> exists w a, e_py e = VObj w /\ s_reg s' = put (s_reg s) a (Some w)).
Proof.
  assert (LP : forall w r', length (s_wraps s) <= length (put (s_wraps s) w (Some r' : option wrap))).
  { generalize (s_wraps s). clear. intros l w. revert l. induction w as [|w IH]; intros [|h t] r'; cbn; try lia.
    specialize (IH t r'). lia. }
  assert (PW : forall A (k : wid * wrap -> res A) x, bind (py_wrap e s) k = Ok x ->
    exists w r, e_py e = VObj w /\ k (w, r) = Ok x).
  { intros A k x. destruct (py_wrap e s) as [[w r]|] eqn:L; [|discriminate]. apply py_get in L.
    exists w, r. tauto. }
  destruct st; cbn [exec_stmt keeps_reg keeps_py]; intros E;
    try (apply PW in E; destruct E as (w & r & Gw & E));
    try (injection E as <- <-; cbn; repeat split; auto; try discriminate; fail).
  - destruct (source_ok src e s); [|discriminate]. cbn [bind] in E. unfold new_obj in E.
    destruct (get (s_objs s) (Ownership.e_new e)) eqn:G; [discriminate|]. cbn [bind] in E.
    destruct (py_wrap e _) as [[w r]|] eqn:PY; [|discriminate]. injection E as <- <-. cbn.
    repeat split; auto; discriminate.
  - destruct (source_ok FromSelf e s); [|discriminate]. cbn [bind] in E. unfold new_obj in E.
    destruct (get (s_objs s) (Ownership.e_new e)) eqn:G; [discriminate|]. injection E as <- <-.
    cbn. repeat split; auto; discriminate.
  - destruct (get (s_reg s) (e_val e)) as [w|]; [|injection E as <- <-; cbn; repeat split; auto; discriminate].
    destruct (live_wrap s w) as [r|] eqn:L; [|discriminate]. injection E as <- <-. cbn.
    repeat split; auto; discriminate.
  - destruct (w_obj r); [|discriminate]. injection E as <- <-. cbn. repeat split; auto; try discriminate. eauto.
  - destruct (w_obj r); injection E as <- <-; cbn; repeat split; auto; discriminate.
  - unfold live_obj in E. destruct (get (s_objs s) (e_val e)); [|discriminate]. injection E as <- <-.
    cbn; repeat split; auto; discriminate.
  - destruct (w_obj r) as [a|]; [|discriminate].
    unfold live_obj in E. destruct (get (s_objs s) a) as [o|] eqn:G; [|discriminate]. cbn [bind] in E.
    injection E as <- <-. destruct (o_self o); cbn; repeat split; auto; discriminate.
  - unfold ref, live_obj in E. destruct (get (s_objs s) (e_val e)) as [o|] eqn:G; [|discriminate]. cbn [bind] in E.
    injection E as <- <-. cbn; repeat split; auto; discriminate.
  - unfold unref, live_obj in E. destruct (get (s_objs s) (e_val e)) as [o|] eqn:G; [|discriminate]. cbn [bind] in E.
    destruct (o_rc o) as [|[|n]]; [discriminate| |]; injection E as <- <-; cbn; repeat split; auto; discriminate.
  - destruct (w_obj r) as [a|]; [|discriminate].
    unfold ref, live_obj in E. destruct (get (s_objs s) a) as [o|] eqn:G; [|discriminate]. cbn [bind] in E.
    injection E as <- <-. cbn; repeat split; auto; discriminate.
  - unfold live_obj in E. destruct (get (s_objs s) (e_val e)); [|discriminate]. injection E as <- <-.
    cbn; repeat split; auto; discriminate.
  - destruct (e_py e) as [| |w] eqn:PE; try (injection E as <- <-; cbn; repeat split; auto; discriminate).
    destruct (live_wrap s w) as [r|]; [|discriminate]. cbn [bind] in E.
    destruct (w_obj r) as [a|]; [|injection E as <- <-; cbn; repeat split; auto; discriminate].
    unfold live_obj in E. destruct (get (s_objs s) a) as [o|] eqn:G; [|discriminate]. cbn [bind] in E.
    injection E as <- <-. cbn; repeat split; auto; discriminate.
Qed.

Lemma registers_step st k b : registers_own (Do st k) b = true ->
  st <> SUnregister /\ (st = SRegister -> b = true)
  /\ registers_own k (match st with SAlloc => true | SLookup | SFromHelper => false | _ => b end) = true.
Proof. destruct st; cbn; intros H; try apply andb_true_iff in H; repeat split; try discriminate; tauto. Qed.

Lemma registers_weak c : forall b, registers_own c false = true -> registers_own c b = true.
Proof.
  induction c as [|st k IH|q x IHx y IHy k IHk]; intros b H; cbn in *; auto.
  - destruct st; auto; discriminate.
  - apply andb_true_iff in H. destruct H as [H H3]. apply andb_true_iff in H. destruct H as [H1 H2].
    rewrite IHx, IHy, H3; auto.
Qed.

Lemma exec_reg mine c : forall b e s e' s', exec c e s = Ok (e', s') -> registers_own c b = true ->
  (b = true -> py_mine mine e) -> (forall w, length (s_wraps s) <= w -> mine w) -> regs mine s s'
  /\ length (s_wraps s) <= length (s_wraps s').
Proof.
  induction c as [|st k IH|q x IHx y IHy k IHk]; intros b e s e' s' E R PM FR.
  - cbn in E. injection E as <- <-. split; [apply regs_refl|lia].
  - cbn [exec] in E. destruct (exec_stmt st e s) as [[e1 s1]|] eqn:E1; [|discriminate]. cbn [bind] in E.
    destruct (registers_step _ _ _ R) as (N1 & N2 & N3).
    destruct (exec_stmt_reg _ _ _ _ _ E1) as (A1 & A2 & A3 & A4 & A5).
    destruct (IH (match st with SAlloc => true | SLookup | SFromHelper => false | _ => b end) _ _ _ _ E) as [IH1 IH2]; auto.
    { destruct st; try discriminate; intros B w Ew;
        try (rewrite A2 in Ew by reflexivity; apply (PM B); exact Ew).
      rewrite (A4 eq_refl) in Ew. injection Ew as <-. apply FR. lia. }
    { intros w L. apply FR. lia. }
    split; [|lia]. eapply regs_trans; [|exact IH1].
    destruct (keeps_reg st) eqn:KR; [apply regs_same; auto|].
    destruct st; try discriminate; try (destruct (N1 eq_refl); fail).
    destruct (A5 eq_refl) as (w & a & Ew & Er). intros x. rewrite Er, get_put.
    destruct (Nat.eqb_spec x a); auto. right. exists w. split; auto. apply (PM (N2 eq_refl)). exact Ew.
  - cbn [exec] in E. destruct (eval_cond q e s) as [t|]; [|discriminate]. cbn [bind] in E.
    destruct (exec (if t then x else y) e s) as [[e1 s1]|] eqn:E1; [|discriminate]. cbn [bind] in E.
    cbn [registers_own] in R. apply andb_true_iff in R. destruct R as [R R3]. apply andb_true_iff in R. destruct R as [R1 R2].
    assert (I1 : regs mine s s1 /\ length (s_wraps s) <= length (s_wraps s1)) by (destruct t; eauto).
    destruct I1 as [I1 I2].
    destruct (IHk false _ _ _ _ E R3) as [I3 I4]; [discriminate|intros; apply FR; lia|].
    split; [eapply regs_trans; eauto|lia].
Qed.

Lemma registers_seq c d b : registers_own c b = true -> registers_own d false = true -> registers_own (seq c d) b = true.
Proof.
  revert b. induction c as [|st k IH|q x IHx y IHy k IHk]; intros b H D; cbn [seq].
  - apply registers_weak; auto.
  - pose proof (registers_step _ _ _ H) as (N1 & N2 & N3). specialize (IH _ N3 D).
    destruct st; cbn; auto; try (destruct (N1 eq_refl)). rewrite (N2 eq_refl) in *. auto.
  - cbn in *. apply andb_true_iff in H. destruct H as [H H3]. rewrite H; cbn. auto.
Qed.

Lemma gen_return_regs cf k c : gen_return cf k = Some c -> registers_own c false = true.
Proof.
  unfold gen_return, gen_copy_out, gen_shared_object_return, gen_lookup_or_create, gen_create_new_wrapper, gen_register.
  destruct k as [|o|o]; [| |]; intros E;
    destruct (c_copyable cf), (c_registry cf), (is_rc cf), (c_helper cf); try destruct o as [[|] [|] [|] [|]];
    cbn in E; try discriminate; injection E as <-; reflexivity.
Qed.
Lemma gen_arg_regs cf k c : gen_arg cf k = Some c -> registers_own c false = true.
Proof.
  unfold gen_arg, gen_copy_out, gen_register.
  destruct k as [|[|]]; intros E;
    destruct (c_copyable cf), (c_registry cf), (is_rc cf), (c_helper cf);
    cbn in E; try discriminate; injection E as <-; reflexivity.
Qed.
Lemma gen_copy_regs cf c : gen_copy cf = Some c -> registers_own c false = true.
Proof.
  unfold gen_copy, gen_register. destruct (c_copyable cf), (c_registry cf); intros E;
    cbn in E; try discriminate; injection E as <-; reflexivity.
Qed.

(** How one event can change a registry entry. *)
Lemma event_reg cf ev s s' : step_event cf ev s = Ok s' -> forall a,
  get (s_reg s') a = get (s_reg s) a
  \/ (exists w, get (s_reg s') a = Some w /\ (get (s_wraps s) w = None \/ exists b c rest, ev = EvEnd b /\ s_calls s = FTmp w c :: rest))
  \/ (get (s_reg s') a = None /\ exists w r, ev = EvPass w true /\ is_rc cf = false /\ get (s_wraps s) w = Some r /\ w_obj r = Some a).
Proof.
  intros E a.
  assert (GN : forall (l : heap wrap) i, length l <= i -> get l i = None).
  { intros l i L. unfold get. destruct (nth_error l i) eqn:N; auto. assert (i < length l) by (apply nth_error_Some; congruence). lia. }
  assert (FR : forall s1, s_wraps s1 = s_wraps s -> forall w, length (s_wraps s1) <= w -> get (s_wraps s) w = None).
  { intros s1 <- w L. apply GN. auto. }
  assert (ALT : forall s1 s2 c e, s_wraps s1 = s_wraps s -> s_reg s1 = s_reg s -> run_code c e s1 = Ok s2 -> (forall c', c = Some c' -> registers_own c' false = true) ->
     get (s_reg s2) a = get (s_reg s) a \/ exists w, get (s_reg s2) a = Some w /\ get (s_wraps s) w = None).
  { intros s1 s2 c e W RG RC RO. unfold run_code in RC. destruct c as [c|]; [|discriminate].
    destruct (exec c e s1) as [[e1 s3]|] eqn:E1; [|discriminate]. injection RC as <-.
    destruct (exec_reg (fun w => get (s_wraps s) w = None) c false _ _ _ _ E1) as [X _]; auto; [discriminate|intros w L; apply (FR s1); auto|].
    rewrite <- RG. apply X. }
  assert (DR : forall b s1 s1', drop_cpp b s1 = Ok s1' -> s_wraps s1' = s_wraps s1 /\ s_reg s1' = s_reg s1).
  { intros b s1 s1' E1. unfold drop_cpp, live_obj in E1. destruct (get (s_objs s1) b); [|discriminate].
    injection E1 as <-. auto. }
  assert (UN : forall b s1 s1', unref b s1 = Ok s1' -> s_reg s1' = s_reg s1).
  { intros b s1 s1' E1. unfold unref, live_obj in E1. destruct (get (s_objs s1) b) as [ob|]; [|discriminate]. cbn [bind] in E1.
    destruct (o_rc ob) as [|[|n]]; [discriminate| |]; injection E1 as <-; reflexivity. }
  destruct ev as [b|b|b|sub|w b|w b|k v b|k v b|w t| |w b|w|w|c w|w|b|b|b]; cbn [step_event] in E.
  - unfold new_obj in E. destruct (get (s_objs s) b) eqn:Gb; [discriminate|]. injection E as <-. auto.
  - destruct (drop_cpp b s) as [s1|] eqn:E1; [|discriminate]. cbn [bind] in E.
    destruct (DR _ _ _ E1) as [_ D]. destruct (is_rc cf).
    + left. rewrite (UN _ _ _ E), D. reflexivity.
    + injection E as <-. left. cbn. rewrite D. reflexivity.
  - unfold ref, live_obj in E. destruct (get (s_objs s) b) as [ob|] eqn:Gb; [|discriminate]. cbn in E.
    rewrite get_put_eq in E. cbn in E. injection E as <-. auto.
  - injection E as <-. auto.
  - destruct (run_code _ _ s) as [s1|] eqn:E1; [|discriminate]. cbn [bind] in E.
    destruct (live_wrap s1 w) as [r|] eqn:L; [|discriminate]. injection E as <-. cbn [setw set_wraps s_reg].
    apply (ALT s s1) in E1; auto; [destruct E1 as [?|(w' & ? & ?)]; eauto 6|].
    intros c' E'. injection E' as <-. unfold gen_init. destruct (c_helper cf); reflexivity.
  - apply (ALT s s') in E; auto; [destruct E as [?|(w' & ? & ?)]; eauto 6|].
    intros c' E'. eapply gen_copy_regs; eauto.
  - destruct v as [v|]; [|destruct k; try discriminate; injection E as <-; auto].
    assert (X : exists s1, s_wraps s1 = s_wraps s /\ s_reg s1 = s_reg s /\ run_code (gen_return cf k) (Env VNull v None b) s1 = Ok s').
    { destruct (gives k); cbn [bind] in E; eauto. destruct (drop_cpp v s) as [s1|] eqn:E1; [|discriminate].
      destruct (DR _ _ _ E1). eauto. }
    destruct X as (s1 & W & RG & X). apply (ALT s1 s') in X; auto; [destruct X as [?|(w' & ? & ?)]; eauto 6|].
    intros c' E'. eapply gen_return_regs; eauto.
  - assert (X : exists s1, s_wraps s1 = s_wraps s /\ s_reg s1 = s_reg s /\ run_code (gen_arg cf k) (Env VNull v None b) s1 = Ok s').
    { destruct k as [|[|]]; cbn [bind] in E; eauto. destruct (drop_cpp v s) as [s1|] eqn:E1; [|discriminate].
      destruct (DR _ _ _ E1). eauto. }
    destruct X as (s1 & W & RG & X). apply (ALT s1 s') in X; auto; [destruct X as [?|(w' & ? & ?)]; eauto 6|].
    intros c' E'. eapply gen_arg_regs; eauto.
  - destruct t; cbn [gen_pass] in E; [|cbn in E; injection E as <-; auto].
    unfold gen_pass in E. destruct (is_rc cf) eqn:RCc.
    + apply (ALT s s') in E; auto; [destruct E as [?|(w' & ? & ?)]; eauto 6|].
      intros c' E'. injection E' as <-. reflexivity.
    + unfold gen_unregister, run_code in E. destruct (c_registry cf).
      * cbn [exec exec_stmt e_py bind app block eval_cond] in E.
        destruct (live_wrap s w) as [r|] eqn:L; [|discriminate]. cbn [bind] in E.
        destruct (w_obj r) as [b|] eqn:O1.
        -- unfold live_obj in E. destruct (get (s_objs s) b) as [o|] eqn:Go; [|discriminate]. cbn [bind exec exec_stmt eval_cond e_py block app] in E.
           unfold py_wrap in E. cbn [e_py] in E.
           change (live_wrap (seto s b (Some (o_set_cpp o (S (o_cpp o))))) w) with (live_wrap s w) in E. rewrite L in E. cbn [bind] in E.
           rewrite O1 in E. cbn [bind e_py] in E.
           change (live_wrap (set_reg (seto s b (Some (o_set_cpp o (S (o_cpp o)))))
                     (put (s_reg (seto s b (Some (o_set_cpp o (S (o_cpp o)))))) b None)) w) with (live_wrap s w) in E.
           rewrite L in E. cbn [bind] in E. injection E as <-. cbn. rewrite get_put. destruct (Nat.eqb_spec a b) as [->|]; auto.
           right; right. split; auto. apply live_get in L. exists w, r. tauto.
        -- cbn [bind exec exec_stmt eval_cond e_py block app] in E. unfold py_wrap in E. cbn [e_py] in E. rewrite L in E. cbn [bind] in E. rewrite O1 in E.
           cbn [bind e_py] in E. rewrite L in E. cbn [bind] in E. injection E as <-. auto.
      * apply (ALT s s' (Some (Do STake (If CPyNull Done (block ([] ++ [SObjNull])) Done)))) in E; auto;
          [destruct E as [?|(w' & ? & ?)]; eauto 6|].
        intros c' E'. injection E' as <-. reflexivity.
  - unfold gen_pass in E. destruct (is_rc cf); cbn in E; [discriminate|].
    destruct (gen_unregister cf) as [|x l] eqn:U; cbn in E; [discriminate|].
    unfold gen_unregister in U. destruct (c_registry cf); [|discriminate]. injection U as <- <-. cbn in E. discriminate.
  - apply (ALT s s') in E; auto; [destruct E as [?|(w' & ? & ?)]; eauto 6|].
    intros c' E'. injection E' as <-. unfold gen_give_back. destruct (is_rc cf), (c_copyable cf); reflexivity.
  - destruct (live_wrap s w) as [r|] eqn:L; [|discriminate]. injection E as <-. auto.
  - destruct (live_wrap s w) as [r|] eqn:L; [|discriminate]. injection E as <-. auto.
  - unfold add_ward in E. destruct (live_wrap s c) as [rc|]; [|discriminate]. cbn [bind] in E.
    destruct (live_wrap s w) as [rw|]; [|discriminate]. cbn [bind] in E.
    destruct (negb (c_subclassing cf)); [injection E as <-; auto|].
    destruct (contains cf (w_wards rc) w); [injection E as <-; auto|].
    destruct (live_wrap _ w) as [rw'|]; [|discriminate]. injection E as <-. auto.
  - destruct (live_wrap s w) as [r|] eqn:L; [|discriminate]. injection E as <-. auto.
  - unfold live_obj in E. destruct (get (s_objs s) b) as [ob|]; [|discriminate]. cbn [bind] in E.
    destruct (o_self ob) as [w|]; [|discriminate]. destruct (live_wrap s w) as [r|] eqn:L; [|discriminate]. injection E as <-. auto.
  - destruct (run_code _ _ s) as [s1|] eqn:E1; [|discriminate]. cbn [bind] in E.
    destruct (live_wrap s1 _) as [r|] eqn:L; [|discriminate]. injection E as <-. cbn [setw set_wraps set_calls s_reg].
    apply (ALT s s1) in E1; auto; [destruct E1 as [?|(w' & ? & ?)]; eauto 6|].
    intros c' E'. injection E' as <-. reflexivity.
  - destruct (s_calls s) as [|[w sv c|w c] rest] eqn:CL; [discriminate| |].
    + unfold live_obj in E. destruct (get (s_objs s) c) as [ob|]; [|discriminate]. cbn [bind] in E.
      destruct (o_self ob) as [w'|]; [|discriminate]. destruct (live_wrap s w') as [r|] eqn:L; [|discriminate]. injection E as <-. auto.
    + destruct (live_wrap s w) as [r|] eqn:L; [|discriminate]. cbn [bind] in E. apply live_get in L. destruct L as [L _].
      unfold run_code in E. destruct (exec _ _ _) as [[e1 s2]|] eqn:E1; [|discriminate]. injection E as <-.
      destruct (exec_reg (fun x => get (s_wraps s) x = None \/ x = w) (gen_tmp_after cf) true _ _ _ _ E1) as [X _].
      * unfold gen_tmp_after, gen_register. destruct (c_copyable cf), (c_registry cf); reflexivity.
      * intros _ x Ex. cbn in Ex. injection Ex as <-. auto.
      * cbn. intros x LE. left. apply GN.
        assert (length (s_wraps s) <= length (put (s_wraps s) w (Some (w_set_tmp r false)))); [|lia].
        generalize (s_wraps s) (Some (w_set_tmp r false)). clear. intros l y. revert l. induction w as [|w IH]; intros [|h t]; cbn; try lia.
        specialize (IH t). lia.
      * destruct (X a) as [Y|(x & Y & [Z| ->])]; [left; exact Y|right; left; eauto|right; left].
        exists w. split; auto. right. exists b, c, rest. auto.
Qed.
