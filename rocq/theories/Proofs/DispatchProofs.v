(** Proofs for C19: the aggregator function. *)
From Coq Require Import Lia.
From Verif.Model Require Import Py Aggregator.
From Verif.Spec Require Import DispatchSpec.
Open Scope list_scope.

Section A.
  Context {V : Type} (d : string -> attempt V).

  Lemma exec_app l1 l2 s : exec_stmts d s (l1 ++ l2) = match exec_stmts d s l1 with Running s' => exec_stmts d s' l2 | o => o end.
  Proof.
    revert s. induction l1 as [|x l1 IH]; intros s; [reflexivity|]. cbn [app exec_stmts].
    destruct (exec_stmt d s x); auto.
  Qed.
  Lemma exec_if s i body : get_exception s i = Some None -> exec_stmt d s (SIfNull i body) = exec_stmts d s body.
  Proof.
    intros E. cbn [exec_stmt]. rewrite E. clear E. revert s. induction body as [|x body IH]; intros s; [reflexivity|].
    cbn [exec_stmts]. destruct (exec_stmt d s x); auto.
  Qed.

  (** Dropping the first exceptions. *)
  Lemma drops : forall k s es rest, cs_exceptions s = map Some es ++ rest -> k <= length es ->
    forall start, (forall i, start <= i -> ~ In i (cs_gone s)) -> start + k <= length es ->
    exists s', exec_stmts d s (map SDecref (seq start k)) = Running s' /\
      cs_exceptions s' = cs_exceptions s /\ cs_retval s' = cs_retval s /\ cs_list s' = cs_list s /\ cs_error s' = cs_error s /\
      cs_events s' = cs_events s ++ map EDropped (firstn k (skipn start es)).
  Proof.
    induction k as [|k IH]; intros s es rest E L start G L2.
    - exists s. cbn. rewrite app_nil_r. repeat split; reflexivity.
    - cbn [seq map exec_stmts exec_stmt]. unfold get_exception.
      destruct (nth_error es start) as [e|] eqn:N; [|apply nth_error_None in N; lia].
      assert (X : nth_error (cs_exceptions s) start = Some (Some e)).
      { rewrite E, nth_error_app1 by (rewrite map_length; apply nth_error_Some; congruence). now apply map_nth_error. }
      rewrite X. assert (Y : gone s start = false).
      { unfold gone. apply not_true_is_false. intros H. apply existsb_exists in H. destruct H as (j & I & Q). apply Nat.eqb_eq in Q. subst j. now apply (G start). }
      rewrite Y. destruct (IH (mk_cstate (cs_exceptions s) (start :: cs_gone s) (cs_retval s) (cs_list s) (cs_error s) (cs_events s ++ [EDropped e])) es rest) with (start := S start)
        as (s' & R & A1 & A2 & A3 & A4 & A5); cbn [cs_exceptions cs_gone cs_retval cs_list cs_error cs_events] in *; try lia; auto.
      + intros i Hi [I|I]; [lia|]. apply (G i); [lia|exact I].
      + exists s'. split; [exact R|]. repeat (split; [assumption|]). rewrite A5, <- app_assoc. f_equal. cbn [app].
        assert (SK : skipn start es = e :: skipn (S start) es).
        { clear -N. revert es N. induction start as [|n IHn]; intros [|x es] N; try discriminate; cbn in *; [congruence|]. now rewrite (IHn _ N). }
        rewrite SK. reflexivity.
  Qed.

  Lemma set_mid {A} (l : list A) x r v : set_nth (l ++ x :: r) (length l) v = l ++ v :: r.
  Proof. induction l as [|y l IH]; [reflexivity|]. cbn [app length set_nth]. now rewrite IH. Qed.

  Definition attempt_events (names : list string) (es : list V) : list (event V) :=
    flat_map (fun x => [ECalled (fst x); ESaved (snd x)]) (combine names es).
  Definition fails (names : list string) (es : list V) : Prop := Forall2 (fun n e => d n = Rejected (Some e)) names es.

  Lemma attempts_fail a : forall es0 es b s, fails a es ->
    cs_exceptions s = map Some es0 ++ repeat None (length (a ++ b)) -> cs_gone s = [] ->
    exists s', exec_stmts d s (attempts (length es0) (a ++ b)) =
               exec_stmts d s' (attempts (length (es0 ++ es)) b) /\
      cs_exceptions s' = map Some (es0 ++ es) ++ repeat None (length b) /\ cs_gone s' = [] /\ cs_list s' = cs_list s /\
      cs_events s' = cs_events s ++ attempt_events a es.
  Proof.
    induction a as [|n a IH]; intros es0 es b s F E G; inversion F as [|? e ? es1 D F1]; subst.
    - exists s. unfold attempt_events. cbn. rewrite ?app_nil_r. auto.
    - cbn [app attempts exec_stmts]. cbn [exec_stmt]. unfold get_exception.
      cbn [app length repeat] in E.
      assert (X : nth_error (cs_exceptions s) (length es0) = Some None).
      { rewrite E, nth_error_app2 by (rewrite map_length; lia). rewrite map_length, Nat.sub_diag. reflexivity. }
      rewrite X, D. cbn [exec_stmt]. cbn [cs_exceptions].
      assert (Y : set_nth (cs_exceptions s) (length es0) (Some e) = map Some (es0 ++ [e]) ++ repeat None (length (a ++ b))).
      { rewrite E. rewrite <- (map_length Some es0). rewrite set_mid. rewrite map_app, <- app_assoc. reflexivity. }
      rewrite Y. rewrite nth_error_app1 by (rewrite map_length, app_length; cbn; lia).
      rewrite (map_nth_error Some (length es0) (es0 ++ [e]) (d := e)) by (rewrite nth_error_app2, Nat.sub_diag by lia; reflexivity).
      destruct (IH (es0 ++ [e]) es1 b (mk_cstate (map Some (es0 ++ [e]) ++ repeat None (length (a ++ b))) (cs_gone s) (Some None) (cs_list s) NoError (cs_events s ++ [ECalled n; ESaved e])) F1 eq_refl G)
        as (s' & R & A1 & A2 & A3 & A4).
      exists s'. rewrite <- !app_assoc in *. cbn [app] in *.
      assert (L1 : length (es0 ++ [e]) = S (length es0)) by (rewrite app_length; cbn; lia). rewrite L1 in R.
      split; [exact R|]. split; [exact A1|]. split; [exact A2|]. split; [exact A3|].
      cbn [cs_events] in A4. rewrite A4, <- app_assoc. reflexivity.
  Qed.

  Lemma call_completed s i n x v p : nth_error (cs_exceptions s) i = Some x -> d n = Completed v p ->
    exec_stmt d s (SCall i n) = Running (mk_cstate (cs_exceptions s) (cs_gone s) (Some v) (cs_list s)
      (match p with Some e => ByDelegate e | None => NoError end) (cs_events s ++ [ECalled n])).
  Proof. intros X D. cbn [exec_stmt]. unfold get_exception. now rewrite X, D. Qed.

  Theorem first_match a n b es v p : fails a es -> d n = Completed v p ->
    exists s, call_aggregator d (a ++ n :: b) = Finished v s /\
      cs_error s = match p with Some e => ByDelegate e | None => NoError end /\
      cs_events s = attempt_events a es ++ [ECalled n] ++ map EDropped es.
  Proof.
    intros F D. unfold call_aggregator, aggregator. rewrite exec_app.
    destruct (attempts_fail a [] es (n :: b) (mk_cstate (repeat None (length (a ++ n :: b))) [] None None NoError []) F eq_refl eq_refl)
      as (s1 & R & A1 & A2 & A3 & A4).
    cbn [length app] in R. rewrite R. clear R. cbn [attempts exec_stmts app] in *.
    cbn [length repeat] in A1.
    assert (X : nth_error (cs_exceptions s1) (length es) = Some None).
    { rewrite A1, nth_error_app2 by (rewrite map_length; lia). rewrite map_length, Nat.sub_diag. reflexivity. }
    rewrite (call_completed _ _ _ _ _ _ X D).
    set (s2 := mk_cstate (cs_exceptions s1) (cs_gone s1) (Some v) (cs_list s1) _ _).
    rewrite (exec_if s2 (length es)) by exact X.
    rewrite exec_app. destruct (drops (length es) s2 es (None :: repeat None (length b)) A1 (le_n _) 0) as (s3 & R3 & B1 & B2 & B3 & B4 & B5).
    { intros i _. cbn. rewrite A2. intros []. }
    { lia. }
    rewrite R3. cbn [exec_stmts exec_stmt]. rewrite B2. cbn [s2 cs_retval]. exists s3. split; [reflexivity|]. split; [exact B4|].
    rewrite B5. cbn [s2 cs_events]. rewrite A4. cbn [cs_events app skipn]. rewrite firstn_all. rewrite <- app_assoc. reflexivity.
  Qed.

  (** The error list. *)
  Lemma fill : forall k s es, cs_exceptions s = map Some es -> forall start pre,
    cs_list s = Some (map Some pre ++ repeat None k) -> length pre = start -> pre = firstn start es -> start + k = length es ->
    (forall i, start <= i -> ~ In i (cs_gone s)) ->
    exists s', exec_stmts d s (flat_map (fun i => [SSetItem i i; SDecref i]) (seq start k)) = Running s' /\
      cs_list s' = Some (map Some es) /\ cs_error s' = cs_error s /\
      cs_events s' = cs_events s ++ map EDropped (skipn start es).
  Proof.
    induction k as [|k IH]; intros s es E start pre L Lp P K G.
    - exists s. cbn [seq flat_map exec_stmts repeat] in *. rewrite app_nil_r in L. subst pre.
      rewrite firstn_all2 in L by lia. rewrite skipn_all2 by lia. cbn [map]. rewrite app_nil_r. auto.
    - cbn [seq flat_map app]. cbn [exec_stmts exec_stmt]. rewrite L. unfold get_exception.
      destruct (nth_error es start) as [e|] eqn:N; [|apply nth_error_None in N; lia].
      assert (X : nth_error (cs_exceptions s) start = Some (Some e)) by (rewrite E; now apply map_nth_error).
      rewrite X. rewrite app_length, map_length, repeat_length, Lp.
      assert (Y : gone s start = false).
      { unfold gone. apply not_true_is_false. intros H. apply existsb_exists in H. destruct H as (j & I & Q). apply Nat.eqb_eq in Q. subst j. now apply (G start). }
      rewrite Y. replace (Nat.ltb start (start + S k)) with true by (symmetry; apply Nat.ltb_lt; lia). cbn [andb negb].
      cbn [exec_stmt]. unfold get_exception. cbn [cs_exceptions]. rewrite X.
      change (gone (mk_cstate (cs_exceptions s) (cs_gone s) (cs_retval s) ?a ?b ?c) start) with (gone s start). rewrite Y.
      cbn [repeat cs_exceptions cs_gone cs_retval cs_list cs_error cs_events].
      assert (Z : set_nth (map Some pre ++ None :: repeat None k) start (Some e) = map Some (pre ++ [e]) ++ repeat None k).
      { rewrite <- Lp at 1. rewrite <- (map_length Some pre). rewrite set_mid, map_app, <- app_assoc. reflexivity. }
      rewrite Z.
      assert (SK : skipn start es = e :: skipn (S start) es).
      { clear -N. revert es N. induction start as [|n IHn]; intros [|x es] N; try discriminate; cbn in *; [congruence|]. now rewrite (IHn _ N). }
      assert (FS : firstn (S start) es = firstn start es ++ [e]).
      { clear -N. revert es N. induction start as [|n IHn]; intros [|x es] N; try discriminate; cbn in *; [congruence|]. now rewrite (IHn _ N). }
      destruct (IH (mk_cstate (cs_exceptions s) (start :: cs_gone s) (cs_retval s) (Some (map Some (pre ++ [e]) ++ repeat None k)) (cs_error s) (cs_events s ++ [EDropped e])) es E (S start) (pre ++ [e]) eq_refl)
        as (s' & R & A1 & A2 & A3).
      + rewrite app_length. cbn. lia.
      + rewrite FS. now rewrite P.
      + lia.
      + intros i Hi [I|I]; [lia|]. apply (G i); [lia|exact I].
      + exists s'. split; [exact R|]. split; [exact A1|]. split; [exact A2|]. rewrite A3, SK. cbn [cs_events map]. rewrite <- app_assoc. reflexivity.
  Qed.

  Lemma fails_length a es : fails a es -> length a = length es.
  Proof. unfold fails. induction 1; cbn; congruence. Qed.

  Theorem no_match names es : fails names es ->
    exists s, call_aggregator d names = Finished None s /\
      cs_error s = TypeErrorList (map Some es) /\
      cs_events s = attempt_events names es ++ [ENewList] ++ map EDropped es ++ [EDropList].
  Proof.
    intros F. unfold call_aggregator, aggregator. rewrite exec_app. pose proof (fails_length _ _ F) as L.
    destruct (attempts_fail names [] es [] (mk_cstate (repeat None (length names)) [] None None NoError []) F) as (s1 & R & A1 & A2 & A3 & A4).
    { now rewrite app_nil_r. }
    { reflexivity. }
    rewrite app_nil_r in R. cbn [length app attempts exec_stmts] in R. rewrite R. cbn [exec_stmts].
    unfold raise_all. cbn [exec_stmts exec_stmt]. rewrite exec_app.
    cbn [app length repeat] in A1. rewrite app_nil_r in A1.
    destruct (fill (length names) (mk_cstate (cs_exceptions s1) (cs_gone s1) (cs_retval s1) (Some (repeat None (length names))) (cs_error s1) (cs_events s1 ++ [ENewList])) es A1 0 [] eq_refl eq_refl eq_refl)
      as (s2 & R2 & B1 & B2 & B3).
    { cbn. exact L. }
    { intros i _. cbn. rewrite A2. intros []. }
    rewrite R2. cbn [exec_stmts exec_stmt]. rewrite B1. cbn [exec_stmts exec_stmt cs_list].
    eexists. split; [reflexivity|]. split; [reflexivity|]. cbn [cs_events]. rewrite B3. cbn [cs_events skipn]. rewrite A4. cbn [cs_events app].
    rewrite <- !app_assoc. reflexivity.
  Qed.

  (** Readings of the event lists. *)
  Lemma calls_events a es : length a = length es -> calls (attempt_events a es) = a /\ saved (attempt_events a es) = es /\
    dropped (attempt_events a es) = [] /\ lists (attempt_events a es) = (0, 0).
  Proof.
    revert es. induction a as [|n a IH]; intros [|e es] L; try discriminate; [auto|].
    destruct (IH es) as (A & B & C & D); [now injection L|]. unfold attempt_events in *. cbn [combine flat_map fst snd app].
    unfold calls, saved, dropped, lists in *. cbn [flat_map filter app]. rewrite A, B, C. injection D as D1 D2. rewrite D1, D2. auto.
  Qed.
  Lemma drop_events es : calls (map EDropped es) = [] /\ saved (map EDropped es) = @nil V /\ dropped (map EDropped es) = es /\
    lists (map EDropped es) = (0, 0).
  Proof.
    induction es as [|e es (A & B & C & D)]; [auto|]. unfold calls, saved, dropped, lists in *. cbn [map flat_map filter app].
    rewrite A, B, C. injection D as D1 D2. rewrite D1, D2. auto.
  Qed.
  Lemma calls_app a b : @calls V (a ++ b) = calls a ++ calls b.
  Proof. apply flat_map_app. Qed.
  Lemma saved_app a b : @saved V (a ++ b) = saved a ++ saved b.
  Proof. apply flat_map_app. Qed.
  Lemma dropped_app a b : @dropped V (a ++ b) = dropped a ++ dropped b.
  Proof. apply flat_map_app. Qed.
  Lemma lists_app a b : @lists V (a ++ b) = (fst (lists a) + fst (lists b), snd (lists a) + snd (lists b)).
  Proof. unfold lists. rewrite !filter_app, !app_length. reflexivity. Qed.

  Theorem dispatch_first a n b es v p : fails a es -> d n = Completed v p ->
    exists s, call_aggregator d (a ++ n :: b) = Finished v s /\
      cs_error s = match p with Some e => ByDelegate e | None => NoError end /\
      calls (cs_events s) = a ++ [n] /\ saved (cs_events s) = es /\ dropped (cs_events s) = es /\ lists (cs_events s) = (0, 0).
  Proof.
    intros F D. destruct (first_match a n b es v p F D) as (s & R & E & Ev). exists s. split; [exact R|]. split; [exact E|].
    rewrite Ev. destruct (calls_events a es (fails_length _ _ F)) as (A1 & A2 & A3 & A4). destruct (drop_events es) as (B1 & B2 & B3 & B4).
    rewrite !calls_app, !saved_app, !dropped_app, !lists_app. rewrite A1, A2, A3, A4, B1, B2, B3, B4. cbn. rewrite !app_nil_r. auto.
  Qed.
  Theorem dispatch_none names es : fails names es ->
    exists s, call_aggregator d names = Finished None s /\
      cs_error s = TypeErrorList (map Some es) /\
      calls (cs_events s) = names /\ saved (cs_events s) = es /\ dropped (cs_events s) = es /\ lists (cs_events s) = (1, 1).
  Proof.
    intros F. destruct (no_match names es F) as (s & R & E & Ev). exists s. split; [exact R|]. split; [exact E|].
    rewrite Ev. destruct (calls_events names es (fails_length _ _ F)) as (A1 & A2 & A3 & A4). destruct (drop_events es) as (B1 & B2 & B3 & B4).
    rewrite !calls_app, !saved_app, !dropped_app, !lists_app. rewrite A1, A2, A3, A4, B1, B2, B3, B4. cbn. rewrite !app_nil_r. auto.
  Qed.

  (** One of the two cases always applies when exception values are not NULL. *)
  Theorem dispatch_total names : (forall n, In n names -> d n <> Rejected None) ->
    (exists es, fails names es) \/ (exists a n b es v p, names = a ++ n :: b /\ fails a es /\ d n = Completed v p).
  Proof.
    induction names as [|n names IH]; intros H; [left; exists []; constructor|].
    destruct (d n) as [[e|]|v p] eqn:D.
    - destruct IH as [(es & F)|(a & m & b & es & v & p & -> & F & C)]; [intros m I; apply H; now right| |].
      + left. exists (e :: es). constructor; auto.
      + right. exists (n :: a), m, b, (e :: es), v, p. split; [reflexivity|]. split; [|exact C]. constructor; auto.
    - exfalso. apply (H n); [now left|exact D].
    - right. exists [], n, names, [], v, p. split; [reflexivity|]. split; [constructor|exact D].
  Qed.
End A.
