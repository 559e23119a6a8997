(** C10 (interpreter lock in forward wrappers) and C31 (declared exceptions). *)
From Coq Require Import Lia.
From Verif.Model Require Import Py CodeSink Decls CodeBlock Params MiniC ForwardWrapper.
From Verif.Spec Require Import ParamSpec WrapperSpec HandlerSpec BodySpec.
From Verif.Proofs Require Import BlockProofs WrapperProofs WrapperBody GenProofs.
Open Scope list_scope.

Definition calm_item (i : item frag) : Prop :=
  match i with
  | ICode f => calm_frag f
  | IIndent _ | IUnindent => True
  | ICheck c b | IIf c b => calm_frag c /\ Forall calm_frag b
  | ITry _ _ => False
  end.

Lemma run_acts_prefix l : exists r, l = fst (run_acts l) ++ r.
Proof.
  induction l as [|a l [r IH]]; [now exists []|]. cbn. destruct (is_return a); [now exists l|].
  destruct (run_acts l) as [t b]. cbn in *. exists r. now rewrite IH.
Qed.
Lemma run_acts_calm l : Forall calm l -> Forall calm (fst (run_acts l)).
Proof. destruct (run_acts_prefix l) as [r E]. rewrite E at 1. intros H. now apply Forall_app in H. Qed.

Lemma frags_calm l : Forall calm_frag l -> Forall calm (frags_acts l).
Proof. unfold frags_acts. induction 1 as [|f r [Hf _] _ IH]; cbn; [constructor|]. now apply Forall_app. Qed.

Lemma exec_calm l : Forall calm_item l -> forall ch n, Forall calm (fst (exec ch n l)).
Proof.
  induction 1 as [|i r Hi _ IH]; intros ch n; [constructor|]. specialize (IH ch (S n)).
  assert (K : forall t, Forall calm t -> Forall calm (fst (let (t', b) := run_acts t in
      if b then (t', Returned) else (t' ++ fst (exec ch (S n) r), snd (exec ch (S n) r))))).
  { intros t Ht. apply run_acts_calm in Ht. destruct (run_acts t) as [t' [|]]; cbn in *; [exact Ht|]. now apply Forall_app. }
  destruct i; cbn [exec calm_item] in *; auto.
  - apply K, Hi.
  - destruct Hi as [[H1 H2] H3]. destruct (Nat.eqb (ch n) 0); apply K, Forall_app; auto using frags_calm.
  - destruct Hi as [[H1 H2] H3]. destruct (Nat.eqb (ch n) 0); apply K, Forall_app; auto using frags_calm.
  - destruct Hi.
Qed.

Lemma exec_app a b : forall ch n,
  exec ch n (a ++ b) =
  match snd (exec ch n a) with
  | Fell => (fst (exec ch n a) ++ fst (exec ch (n + length a) b), snd (exec ch (n + length a) b))
  | o => (fst (exec ch n a), o)
  end.
Proof.
  induction a as [|i r IH]; intros ch n.
  - cbn. rewrite Nat.add_0_r. now destruct (exec ch n b).
  - specialize (IH ch (S n)). cbn [app length]. rewrite Nat.add_succ_r. cbn [Nat.add] in IH.
    assert (K : forall t,
      (let (t', bb) := run_acts t in if bb then (t', Returned)
         else (t' ++ fst (exec ch (S n) (r ++ b)), snd (exec ch (S n) (r ++ b)))) =
      match snd (let (t', bb) := run_acts t in if bb then (t', Returned)
         else (t' ++ fst (exec ch (S n) r), snd (exec ch (S n) r))) with
      | Fell => (fst (let (t', bb) := run_acts t in if bb then (t', Returned)
         else (t' ++ fst (exec ch (S n) r), snd (exec ch (S n) r))) ++ fst (exec ch (S (n + length r)) b), snd (exec ch (S (n + length r)) b))
      | o => (fst (let (t', bb) := run_acts t in if bb then (t', Returned)
         else (t' ++ fst (exec ch (S n) r), snd (exec ch (S n) r))), o)
      end).
    { intros t. destruct (run_acts t) as [t' [|]]; [reflexivity|]. rewrite IH. cbn [fst snd].
      destruct (snd (exec ch (S n) r)); cbn [fst snd]; rewrite <- ?app_assoc; reflexivity. }
    destruct i; cbn [exec]; auto.
    + destruct (Nat.eqb (ch n) 0); auto.
    + destruct (Nat.eqb (ch n) 0); auto.
    + destruct (ch n) as [|j]; auto. destruct (nth_error catches j) as [[h cb]|]; auto.
Qed.

(** Outputs only grow, by calm items; cleanups also satisfy [R]. *)
Section Structure.
Variable RR : frag -> Prop.
Definition good_cleanup (f : frag) : Prop := calm_frag f /\ RR f.

Definition grows (st st' : store frag) : Prop :=
  length st' = length st /\
  forall b k, nth_error st b = Some k -> exists k' l, nth_error st' b = Some k' /\ out k' = out k ++ l /\ Forall calm_item l.
Definition calm_store (st : store frag) : Prop :=
  forall b k, nth_error st b = Some k -> Forall good_cleanup (map snd (actions k)) /\ calm_frag (err_ret k).

Lemma grows_refl st : grows st st.
Proof. split; [reflexivity|]. intros b k E. exists k, []. rewrite app_nil_r. repeat split; auto. Qed.
Lemma grows_trans a b c : grows a b -> grows b c -> grows a c.
Proof.
  intros [L1 H1] [L2 H2]. split; [congruence|]. intros i k E. destruct (H1 _ _ E) as [k' [l [E' [O C]]]].
  destruct (H2 _ _ E') as [k2 [l2 [E2 [O2 C2]]]]. exists k2, (l ++ l2). split; [exact E2|].
  rewrite O2, O, app_assoc. split; [reflexivity|now apply Forall_app].
Qed.

Lemma put_grows (st : store frag) b k k' l : nth_error st b = Some k -> out k' = out k ++ l -> Forall calm_item l ->
  grows st (put st b k').
Proof.
  intros E O C. assert (Hb : b < length st) by (apply nth_error_Some; congruence).
  split; [now apply put_length|]. intros i x Ei. destruct (Nat.eq_dec i b) as [->|Hn].
  - rewrite E in Ei. injection Ei as <-. exists k', l. rewrite put_same by exact Hb. auto.
  - exists x, []. rewrite put_other, app_nil_r by auto. auto.
Qed.
Lemma put_calm (st : store frag) b k k' : nth_error st b = Some k -> calm_store st ->
  Forall good_cleanup (map snd (actions k')) -> calm_frag (err_ret k') -> calm_store (put st b k').
Proof.
  intros E H A R i x Ei. assert (Hb : b < length st) by (apply nth_error_Some; congruence).
  destruct (Nat.eq_dec i b) as [->|Hn].
  - rewrite put_same in Ei by exact Hb. injection Ei as <-. auto.
  - rewrite put_other in Ei by auto. eauto.
Qed.
Lemma emit_calm (st st' : store frag) b l : emit st b l = Ok st' -> Forall calm_item l -> calm_store st ->
  grows st st' /\ calm_store st'.
Proof.
  unfold emit. destruct (nth_error st b) as [k|] eqn:E; [|discriminate]. intros H C S.
  apply (f_equal (fun x => match x with Ok y => y | Err _ => st end)) in H. cbn beta iota in H. subst st'. split.
  - eapply put_grows; [exact E|reflexivity|exact C].
  - eapply put_calm; [exact E|exact S|apply (S _ _ E)|apply (S _ _ E)].
Qed.
Lemma emit_calm_store (st st' : store frag) b l : emit st b l = Ok st' -> calm_store st -> calm_store st'.
Proof.
  unfold emit. destruct (nth_error st b) as [k|] eqn:E; [|discriminate]. intros H S.
  apply (f_equal (fun x => match x with Ok y => y | Err _ => st end)) in H. cbn beta iota in H. subst st'.
  eapply put_calm; [exact E|exact S|apply (S _ _ E)|apply (S _ _ E)].
Qed.

Lemma sort_in (l : list (nat * frag)) x : In x (sort_actions l) -> In x l.
Proof.
  assert (I : forall y (m : list (nat * frag)) x, In x (insert_action y m) -> x = y \/ In x m).
  { intros y m; induction m as [|z m IH]; intros w; cbn; [intuition|].
    destruct (fst y <=? fst z)%nat; cbn; [intuition|]. intros [->|H]; [intuition|]. apply IH in H. intuition. }
  induction l as [|y l IH]; cbn; [auto|]. intros H. apply I in H as [->|H]; auto.
Qed.
Lemma cleanup_good st b : calm_store st -> Forall good_cleanup (cleanup_code st b).
Proof.
  intros S. unfold cleanup_code. generalize (Datatypes.S (length st)) as fuel. intros fuel. revert b.
  induction fuel as [|f IH]; intros b; cbn [get_cleanup_code]; [constructor|].
  destruct (nth_error st b) as [k|] eqn:E; [|constructor]. apply Forall_app. split.
  - apply Forall_rev. destruct (S _ _ E) as [A _]. rewrite Forall_forall in A |- *. intros x Hx.
    apply A. apply in_map_iff in Hx as [y [<- Hy]]. apply in_map, sort_in, Hy.
  - destruct (pred k); [apply IH|constructor].
Qed.
Lemma cleanup_calm st b : calm_store st -> Forall calm_frag (cleanup_code st b).
Proof. intros S. eapply Forall_impl; [|apply cleanup_good, S]. intros a [H _]. exact H. Qed.
Lemma check_calm st st' b c f : write_error_check st b c f = Ok st' -> calm_frag c -> Forall calm_frag (opt_list f) -> calm_store st ->
  grows st st' /\ calm_store st'.
Proof.
  unfold write_error_check. destruct (nth_error st b) as [k|] eqn:E; [|discriminate]. intros H Hc Hf S.
  eapply emit_calm; [exact H| |exact S]. repeat constructor; try apply Hc.
  apply Forall_app. split; [exact Hf|]. apply Forall_app. split; [now apply cleanup_calm|]. constructor; [apply (S _ _ E)|constructor].
Qed.

Lemma map_code_calm l : Forall calm_frag l -> Forall calm_item (map ICode l).
Proof. induction 1; constructor; auto. Qed.

Definition calm_hact (a : hact) : Prop :=
  Forall calm_frag (fragments a) /\ match a with XCleanup _ f => RR f | _ => True end.
Lemma hstep_calm s a s' : hstep s a = Ok s' -> calm_hact a -> calm_store (w_blocks s) ->
  grows (w_blocks s) (w_blocks s') /\ calm_store (w_blocks s').
Proof.
  intros H [F FR] S. destruct a; cbn [hstep fragments] in *;
    try (apply on_blocks_fields in H as [st [H ->]]; cbn [w_blocks set_blocks]).
  - destruct (declare_variable _ _ _ _ _ _) as [d [v|]]; [|discriminate]. injection H as <-. split; [apply grows_refl|exact S].
  - injection H as <-. split; [apply grows_refl|exact S].
  - eapply emit_calm; eauto. inversion F; subst. repeat constructor; auto; now apply H2.
  - eapply emit_calm; [exact H| |exact S]. repeat constructor.
  - eapply emit_calm; [exact H| |exact S]. repeat constructor.
  - eapply emit_calm; eauto. inversion F; subst. constructor; [split; auto|constructor].
  - inversion F; subst. eapply check_calm; eauto.
  - unfold write_error_return in H. destruct (nth_error _ _) as [k|] eqn:E; [|discriminate].
    eapply emit_calm; eauto. apply map_code_calm, Forall_app. split; [now apply cleanup_calm|]. constructor; [apply (S _ _ E)|constructor].
  - unfold add_cleanup_code in H. destruct (nth_error _ _) as [k|] eqn:E; [|discriminate].
    injection H as <-. cbn [w_blocks set_blocks fst]. split.
    + eapply put_grows; [exact E|cbn; now rewrite app_nil_r|constructor].
    + eapply put_calm; [exact E|exact S| |apply (S _ _ E)]. cbn [actions]. rewrite map_app. apply Forall_app. split; [apply (S _ _ E)|]. constructor; [split; [now inversion F|exact FR]|constructor].
  - unfold remove_cleanup_code in H. destruct (nth_error _ _) as [k|] eqn:E; [|discriminate].
    destruct (existsb _ _); [|discriminate]. injection H as <-. split.
    + eapply put_grows; [exact E|cbn; now rewrite app_nil_r|constructor].
    + eapply put_calm; [exact E|exact S| |apply (S _ _ E)]. cbn [actions]. destruct (S _ _ E) as [A _].
      rewrite Forall_forall in A |- *. intros x Hx. apply A. apply in_map_iff in Hx as [y [<- Hy]].
      apply filter_In in Hy as [Hy _]. now apply in_map.
  - injection H as <-. split; [apply grows_refl|exact S].
  - injection H as <-. split; [apply grows_refl|exact S].
  - injection H as <-. split; [apply grows_refl|exact S].
Qed.
Definition calm_calls (l : list hact) : Prop := Forall calm_hact l.
Lemma hrun_calm l : calm_calls l -> forall s s', hrun s l = Ok s' -> calm_store (w_blocks s) ->
  grows (w_blocks s) (w_blocks s') /\ calm_store (w_blocks s').
Proof.
  induction 1 as [|a r Ha _ IH]; intros s s' H S; cbn [hrun] in H.
  - injection H as <-. split; [apply grows_refl|exact S].
  - destruct (hstep s a) as [s1|] eqn:E; [|discriminate]. cbn [bind] in H.
    destruct (hstep_calm _ _ _ E Ha S) as [G1 S1]. destruct (IH _ _ H S1) as [G2 S2].
    split; [eapply grows_trans; eauto|exact S2].
Qed.

Lemma result_calm s s' : build_result s = Ok s' -> calm_store (w_blocks s) ->
  grows (w_blocks s) (w_blocks s') /\ calm_store (w_blocks s').
Proof.
  unfold build_result. intros H S.
  match type of H with context [emit _ _ (if ?b then ?x else ?y)] => remember (if b then x else y) as code eqn:Ecode end.
  match type of H with bind ?r _ = _ => destruct r as [s1|] eqn:E1; [|discriminate] end. cbn [bind] in H.
  match type of H with bind ?r _ = _ => destruct r as [s2|] eqn:E2; [|discriminate] end. cbn [bind] in H.
  apply on_blocks_fields in H as [x [X ->]]. apply on_blocks_fields in E1 as [y [Y ->]]. apply on_blocks_fields in E2 as [z [Z ->]].
  cbn [w_blocks set_blocks] in *.
  assert (Cc : Forall calm_item code) by (subst code; destruct (params_are_empty _); repeat constructor).
  destruct (emit_calm _ _ _ _ Y Cc S) as [G1 S1].
  destruct (emit_calm _ _ _ _ Z (map_code_calm _ (cleanup_calm _ _ S1)) S1) as [G2 S2].
  assert (Cr : Forall calm_item [ICode {| f_text := "return py_retval;"; f_acts := [AReturn "py_retval"]; f_pass := [] |}]) by repeat constructor.
  destruct (emit_calm _ _ _ _ X Cr S2) as [G3 S3].
  split; [|exact S3]. eapply grows_trans; [exact G1|]. eapply grows_trans; eauto.
Qed.

Lemma parse_calm c s s' : generate_parse c s = Ok s' -> calm_store (w_blocks s) ->
  grows (w_blocks s) (w_blocks s') /\ calm_store (w_blocks s').
Proof.
  unfold generate_parse. intros H S. destruct (parse_get_parameters _) as [p|]; [|discriminate]. cbn [bind] in H.
  destruct (get_keywords _) as [kw|]; [|discriminate]. cbn [bind] in H.
  assert (P : forall (s0 : wstate) cnd s1, on_blocks s0 (write_error_check (w_blocks s0) before_parse (py_frag cnd) None) = Ok s1 ->
     calm_store (w_blocks s0) -> grows (w_blocks s0) (w_blocks s1) /\ calm_store (w_blocks s1)).
  { intros s0 cnd s1 X S0. apply on_blocks_fields in X as [st [X ->]]. cbn [w_blocks set_blocks].
    eapply check_calm; [exact X| |constructor|exact S0]. repeat constructor. }
  match type of H with (if ?b then _ else _) = _ => destruct b end.
  2:{ injection H as <-. split; [apply grows_refl|exact S]. }
  match type of H with (if ?b then _ else _) = _ => destruct b end.
  - exact (P _ _ _ H S).
  - destruct (declare_variable _ _ _ _ _ _) as [d [x|]]; [|discriminate]. cbn [bind] in H.
    match type of H with bind ?r _ = _ => destruct r as [t1|] eqn:F1; [|discriminate] end.
    cbn [bind] in H. injection H as <-. exact (P _ _ _ F1 S).
Qed.

(** The statements generate_body itself writes around the call. *)
Definition restore_item (i : item frag) : Prop := exists t, i = ICode {| f_text := t; f_acts := [ARestoreThread]; f_pass := [] |}.
Definition save_item (i : item frag) : Prop := exists t, i = ICode {| f_text := t; f_acts := [ASaveThread]; f_pass := [] |}.
Definition call_item (c : config) (cl : list frag) (args : list string) : item frag :=
  let call := {| f_text := c_call_text c args; f_acts := c_call_acts c; f_pass := [] |} in
  match c_throw c with
  | [] => ICode call
  | throws => ITry [call] (map (fun e => (fst e, cl ++ [snd e;
        {| f_text := ("return " ++ c_catch_value c ++ ";")%string; f_acts := [AReturn (c_catch_value c)]; f_pass := [] |}])) throws)
  end.

Definition calm_config (c : config) : Prop :=
  calm_calls (handler_calls c) /\ calm_frag (c_parse_error c) /\ calm_frag (c_error c).

Lemma calm_calls_app a b : calm_calls (a ++ b) <-> calm_calls a /\ calm_calls b.
Proof. apply Forall_app. Qed.

Theorem structure c s : generate_body c (init_state c) = Ok s -> calm_config c ->
  exists m0 l1 sv m1 re m2 cl,
    body s = m0 ++ l1 ++ sv ++ call_item c cl (call_args (early_calls c)) :: m1 ++ re ++ m2 /\
    Forall calm_item m0 /\ Forall calm_item l1 /\ Forall calm_item m1 /\ Forall calm_item m2 /\ Forall good_cleanup cl /\
    (if c_unblock c then exists i j, sv = [i] /\ re = [j] /\ save_item i /\ restore_item j else sv = [] /\ re = []) /\
    (Forall (fun a => ~ touches_before a) (late_calls c) -> m1 = []).
Proof.
  intros H [Cc [Cp Ce]].
  destruct (phases _ _ _ H) as [s0 [v [s1 [s2 [s3 [s4 [s5 [s6 [E0 [E1 [E2 [E3 [E4 [E5 [E6 E7]]]]]]]]]]]]]]].
  apply convert_all_ok in E1. unfold handler_calls in Cc. rewrite !calm_calls_app in Cc.
  destruct Cc as [Ca [Cb [Cr Cq]]].
  assert (S00 : calm_store (w_blocks (init_state c))).
  { intros b k E. destruct b as [|[|[|b]]]; try (injection E as <-; split; [constructor|assumption]). destruct b; discriminate. }
  (* s0 *)
  assert (A0 : exists re, w_blocks s0 = [new_block None (c_parse_error c); new_block (Some before_parse) (c_parse_error c);
        addout (new_block (Some before_call) (c_error c)) re] /\
        (if c_unblock c then exists j, re = [j] /\ restore_item j else re = [])).
  { unfold thread_phase in E0. destruct (c_unblock c).
    - unfold thread_var in E0. destruct (declare_variable _ _ _ _ _ _) as [d [x|]]; [|discriminate]. cbn [bind] in E0.
      match type of E0 with bind ?r _ = _ => destruct r as [t|] eqn:E; [|discriminate] end. cbn [bind] in E0.
      injection E0 as <- <-. apply on_blocks_fields in E as [st [E ->]]. cbn [w_blocks set_blocks set_decls init_state] in *.
      unfold emit in E. cbn [nth_error after_call] in E. injection E as <-.
      eexists. split; [reflexivity|]. eexists. split; [reflexivity|]. eexists. reflexivity.
    - injection E0 as <- <-. exists []. split; reflexivity. }
  destruct A0 as [re [B0 Hre]].
  assert (S0 : calm_store (w_blocks s0)).
  { rewrite B0. intros b k E. destruct b as [|[|[|b]]]; try (injection E as <-; split; [constructor|assumption]). destruct b; discriminate. }
  destruct (hrun_calm _ Ca _ _ E1 S0) as [G1 S1].
  assert (GS2 : grows (w_blocks s1) (w_blocks s2) /\ calm_store (w_blocks s2)).
  { unfold deprecated_phase in E2. destruct (c_deprecated c); [|injection E2 as <-; split; [apply grows_refl|exact S1]].
    apply on_blocks_fields in E2 as [st [E2 ->]]. eapply check_calm; [exact E2| |constructor|exact S1]. repeat constructor. }
  destruct GS2 as [G2 S2]. destruct (hrun_calm _ Cb _ _ E3 S2) as [G3 S3].
  pose proof (grows_trans _ _ _ G1 (grows_trans _ _ _ G2 G3)) as G.
  (* s3 blocks *)
  destruct G as [Len G]. rewrite B0 in Len, G.
  destruct (G 0 _ eq_refl) as [k0 [n0 [N0 [O0 Q0]]]]. destruct (G 1 _ eq_refl) as [k1 [n1 [N1 [O1 Q1]]]].
  destruct (G 2 _ eq_refl) as [k2 [n2 [N2 [O2 Q2]]]].
  assert (B3 : w_blocks s3 = [k0; k1; k2]).
  { destruct (w_blocks s3) as [|a [|b [|d [|e r]]]]; try discriminate Len. cbn in N0, N1, N2. congruence. }
  (* s4 *)
  assert (A4 : exists sv, w_blocks s4 = [k0; addout k1 sv; k2] /\ (if c_unblock c then exists i, sv = [i] /\ save_item i else sv = [])).
  { unfold save_phase in E4. destruct (c_unblock c).
    - apply on_blocks_fields in E4 as [st [E4 ->]]. rewrite B3 in E4. rewrite (emit_before _ _ _ _ _ eq_refl) in E4.
      injection E4 as <-. eexists. split; [reflexivity|]. eexists. split; [reflexivity|]. eexists. reflexivity.
    - injection E4 as <-. exists []. rewrite addout_nil. auto. }
  destruct A4 as [sv [B4 Hsv]].
  assert (S4 : calm_store (w_blocks s4)).
  { unfold save_phase in E4. destruct (c_unblock c); [|now injection E4 as <-].
    apply on_blocks_fields in E4 as [st [E4 ->]]. eapply emit_calm_store; eauto. }
  (* s5 *)
  assert (A5 : exists cl, w_blocks s5 = [k0; addout (addout k1 sv) [call_item c cl (w_call s4)]; k2] /\ Forall good_cleanup cl).
  { unfold generate_call in E5. unfold call_item. destruct (c_throw c) as [|e es].
    - apply on_blocks_fields in E5 as [st [E5 ->]]. rewrite B4 in E5. rewrite (emit_before _ _ _ _ _ eq_refl) in E5.
      injection E5 as <-. exists []. split; [reflexivity|constructor].
    - apply on_blocks_fields in E5 as [st [E5 ->]]. rewrite B4 in E5 at 1. rewrite (emit_before _ _ _ _ _ eq_refl) in E5.
      injection E5 as <-. exists (cleanup_code (w_blocks s4) before_call). split; [reflexivity|now apply cleanup_good]. }
  destruct A5 as [cl [B5 Hcl]].
  assert (S5 : calm_store (w_blocks s5)).
  { unfold generate_call in E5. destruct (c_throw c); apply on_blocks_fields in E5 as [st [E5 ->]]; eapply emit_calm_store; eauto. }
  assert (W5 : w_call s4 = call_args (early_calls c)).
  { apply thread_same in E0 as [[_ [_ X0]] _]. apply hrun_fields in E1 as [_ [_ [X1 _]]]. apply deprecated_same in E2 as [[_ [_ X2]] _].
    apply hrun_fields in E3 as [_ [_ [X3 _]]]. apply save_same in E4 as [[_ [_ X4]] _].
    unfold early_calls, call_args in *. rewrite flat_map_app, X4, X3, X2, X1, X0. reflexivity. }
  rewrite W5 in B5.
  destruct (parse_calm _ _ _ E6 S5) as [G6 S6].
  (* final *)
  assert (GF : exists s8, hrun s6 (late_calls c) = Ok s8 /\ calm_store (w_blocks s8) /\
      grows (w_blocks s6) (w_blocks s8) /\ grows (w_blocks s8) (w_blocks s) /\
      nth_error (w_blocks s) 1 = nth_error (w_blocks s8) 1).
  { assert (Cl : calm_calls (late_calls c)) by (apply calm_calls_app; auto).
    destruct (body_args _ _ H) as [t5 [t6 [t8 _]]]. clear t5 t6 t8.
    unfold return_phase in E7. assert (R : exists s8, hrun s6 (late_calls c) = Ok s8 /\
      (build_result s8 = Ok s \/ on_blocks s8 (write_cleanup (w_blocks s8) after_call) = Ok s)).
    { unfold late_calls. destruct (c_return c) as [h|].
      - destruct (convert s6 h) as [s7|] eqn:Ec; [|discriminate]. apply convert_ok in Ec as [Ec _]. cbn [bind] in E7.
        destruct (hrun s7 (c_postcall c)) as [s8|] eqn:Ep; [|discriminate]. cbn [bind] in E7.
        exists s8. rewrite hrun_app, Ec. cbn [bind]. auto.
      - destruct (c_have_return c).
        + cbn [bind] in E7. destruct (hrun s6 (c_postcall c)) as [s8|] eqn:Ep; [|discriminate]. cbn [bind] in E7. eauto.
        + destruct (params_are_empty _); [|discriminate]. cbn [bind] in E7.
          destruct (hrun s6 (c_postcall c)) as [s8|] eqn:Ep; [|discriminate]. cbn [bind] in E7. eauto. }
    destruct R as [s8 [R1 R2]]. destruct (hrun_calm _ Cl _ _ R1 S6) as [G8 S8]. exists s8. split; [exact R1|]. split; [exact S8|].
    split; [exact G8|]. destruct R2 as [R2|R2].
    - destruct (result_calm _ _ R2 S8) as [G9 _]. split; [exact G9|]. eapply result_other; [exact R2|discriminate].
    - apply on_blocks_fields in R2 as [st [R2 ->]]. cbn [w_blocks set_blocks]. unfold write_cleanup in R2.
      destruct (emit_calm _ _ _ _ R2 (map_code_calm _ (cleanup_calm _ _ S8)) S8) as [G9 _]. split; [exact G9|].
      eapply emit_other; [exact R2|discriminate]. }
  destruct GF as [s8 [R1 [S8 [G8 [G9 N9]]]]].
  pose proof (grows_trans _ _ _ G6 (grows_trans _ _ _ G8 G9)) as [LenF GG]. rewrite B5 in LenF, GG.
  destruct (GG 0 _ eq_refl) as [f0 [p0 [M0 [U0 V0]]]]. destruct (GG 1 _ eq_refl) as [f1 [p1 [M1 [U1 V1]]]].
  destruct (GG 2 _ eq_refl) as [f2 [p2 [M2 [U2 V2]]]].
  unfold body, block_out, before_parse, before_call, after_call. rewrite M0, M1, M2, U0, U1, U2.
  cbn [addout out] in *. rewrite O0, O1, O2. cbn [new_block out app].
  exists (n0 ++ p0), n1, sv, p1, re, (n2 ++ p2), cl.
  split; [rewrite <- !app_assoc; reflexivity|]. split; [now apply Forall_app|]. split; [exact Q1|]. split; [exact V1|].
  split; [now apply Forall_app|]. split; [exact Hcl|]. split.
  - destruct (c_unblock c).
    + destruct Hre as [j [-> Hj]]. destruct Hsv as [i [-> Hi]]. exists i, j. auto.
    + auto.
  - intros NT. assert (X : nth_error (w_blocks s) 1 = nth_error (w_blocks s5) 1).
    { assert (HN : Forall (fun a => on_block a <> Some 1) (late_calls c)).
      { rewrite Forall_forall in NT |- *. intros a Ha. specialize (NT a Ha).
        destruct a; cbn in *; try discriminate; destruct w; cbn; try discriminate; exfalso; apply NT; exact I. }
      rewrite N9, (hrun_other (late_calls c) 1 HN s6 s8 R1).
      assert (PB : nth_error (w_blocks s6) 1 = nth_error (w_blocks s5) 1).
      { clear - E6. unfold generate_parse in E6. destruct (parse_get_parameters _) as [p|]; [|discriminate]. cbn [bind] in E6.
        destruct (get_keywords _) as [kw|]; [|discriminate]. cbn [bind] in E6.
        match type of E6 with (if ?b then _ else _) = _ => destruct b end; [|now injection E6 as <-].
        match type of E6 with (if ?b then _ else _) = _ => destruct b end.
        - apply on_blocks_fields in E6 as [st [E ->]]. eapply check_other in E; [exact E|discriminate].
        - destruct (declare_variable _ _ _ _ _ _) as [d [x|]]; [|discriminate]. cbn [bind] in E6.
          match type of E6 with bind ?r _ = _ => destruct r as [t1|] eqn:F1; [|discriminate] end.
          cbn [bind] in E6. injection E6 as <-. apply on_blocks_fields in F1 as [st [E ->]].
          eapply check_other in E; [exact E|discriminate]. }
      exact PB. }
    rewrite M1, B5 in X. cbn [nth_error] in X. injection X as X. rewrite X in U1. cbn [addout out] in U1.
    rewrite <- (app_nil_r ((out k1 ++ sv) ++ [call_item c cl (call_args (early_calls c))])) in U1 at 1.
    apply app_inv_head in U1. auto.
Qed.
End Structure.

(** ** Lock *)
Lemma lock_calm t : Forall calm t -> lock true t true.
Proof. induction 1 as [|a t Ha _ IH]; [constructor|]. destruct a; try (now destruct Ha); constructor; auto. Qed.
Lemma lock_app h t h' u h'' : lock h t h' -> lock h' u h'' -> lock h (t ++ u) h''.
Proof. induction 1; cbn; intros; auto; constructor; auto. Qed.

Lemma lock_cpp_only l h : Forall cpp_only l -> lock h l h.
Proof. induction 1 as [|a l Ha _ IH]; [constructor|]. destruct a; try (now destruct Ha); constructor; auto. Qed.
Lemma cpp_noret l : Forall cpp_only l -> noret l.
Proof. intros H x Hin. rewrite Forall_forall in H. now specialize (H _ Hin). Qed.

Lemma lock_free_calm c : lock_free_config c -> calm_config (fun _ => True) c.
Proof.
  intros [H1 H2]. split; [|exact H2]. eapply Forall_impl; [|exact H1]. intros a Ha. split; [exact Ha|]. now destruct a.
Qed.

Lemma exec_call c cl args ch n r :
  (c_throw c <> [] -> ch n = 0) -> noret (c_call_acts c) ->
  exec ch n (call_item c cl args :: r) = (c_call_acts c ++ fst (exec ch (S n) r), snd (exec ch (S n) r)).
Proof.
  intros Hch Hn. unfold call_item. destruct (c_throw c) as [|e es].
  - cbn [exec f_acts]. now rewrite run_acts_noret.
  - cbn [exec]. rewrite Hch by discriminate. unfold frags_acts. cbn [flat_map f_acts]. rewrite app_nil_r.
    now rewrite run_acts_noret.
Qed.

Lemma exec_code f ch n r : noret (f_acts f) ->
  exec ch n (ICode f :: r) = (f_acts f ++ fst (exec ch (S n) r), snd (exec ch (S n) r)).
Proof. intros Hn. cbn [exec]. now rewrite run_acts_noret. Qed.
Lemma noret_one a : (forall w, a <> AReturn w) -> noret [a].
Proof. intros H x [->|[]]. now apply (H x). Qed.

Lemma nth_mid {T} (a : list T) x b : nth_error (a ++ x :: b) (length a) = Some x.
Proof. rewrite nth_error_app2, Nat.sub_diag by lia. reflexivity. Qed.

Theorem lock_ok c s : generate_body c (init_state c) = Ok s -> lock_free_config c -> c_unblock c = true ->
  Forall cpp_only (c_call_acts c) -> Forall (fun a => ~ touches_before a) (late_calls c) ->
  forall ch, (forall n b cs, nth_error (body s) n = Some (ITry b cs) -> ch n = 0) ->
  let t := fst (exec ch 0 (body s)) in
  lock true t true /\
  (Forall calm t \/
   exists t1 t2, t = t1 ++ ASaveThread :: c_call_acts c ++ ARestoreThread :: t2 /\ Forall calm t1 /\ Forall calm t2).
Proof.
  intros H HC HU HA HT ch Hch t.
  destruct (structure _ _ _ H (lock_free_calm _ HC)) as [m0 [l1 [sv [m1 [re [m2 [cl [B [Q0 [Q1 [_ [Q2 [_ [Hu Hm]]]]]]]]]]]]]].
  rewrite (Hm HT) in B. rewrite HU in Hu. destruct Hu as [i [j [-> [-> [[ti ->] [tj ->]]]]]]. cbn [app] in B.
  assert (Ht : Forall calm t \/ exists t1 t2, t = t1 ++ ASaveThread :: c_call_acts c ++ ARestoreThread :: t2 /\ Forall calm t1 /\ Forall calm t2).
  { unfold t. rewrite B in *. rewrite (app_assoc m0) in *.
    pose proof (exec_calm (m0 ++ l1) (proj2 (Forall_app _ _ _) (conj Q0 Q1)) ch 0) as C1.
    rewrite exec_app. destruct (snd (exec ch 0 (m0 ++ l1))); [|left; exact C1|left; exact C1].
    right. cbn [fst]. rewrite Nat.add_0_l.
    remember (length (m0 ++ l1)) as n eqn:En.
    rewrite exec_code by (apply noret_one; discriminate). cbn [fst f_acts].
    rewrite exec_call; [| |now apply cpp_noret].
    - cbn [fst]. rewrite exec_code by (apply noret_one; discriminate). cbn [fst f_acts].
      eexists _, _. split; [cbn [app]; reflexivity|]. split; [exact C1|]. apply exec_calm, Q2.
    - intros NE.
      assert (X : nth_error (((m0 ++ l1) ++ [ICode {| f_text := ti; f_acts := [ASaveThread]; f_pass := [] |}]) ++
          call_item c cl (call_args (early_calls c)) :: [ICode {| f_text := tj; f_acts := [ARestoreThread]; f_pass := [] |}] ++ m2) (S n)
          = Some (call_item c cl (call_args (early_calls c)))).
      { replace (S n) with (length ((m0 ++ l1) ++ [ICode {| f_text := ti; f_acts := [ASaveThread]; f_pass := [] |}])).
        - apply nth_mid.
        - rewrite app_length, <- En. cbn. lia. }
      unfold call_item in X, Hch. destruct (c_throw c) as [|e es]; [congruence|].
      eapply (Hch (S n)). rewrite <- app_assoc in X. cbn [app] in X. exact X. }
  split; [|exact Ht]. destruct Ht as [Ht|[t1 [t2 [-> [C1 C2]]]]]; [now apply lock_calm|].
  eapply lock_app; [now apply lock_calm|]. constructor. eapply lock_app; [now apply lock_cpp_only|]. constructor. now apply lock_calm.
Qed.

(** Without unblock_threads the wrapper never touches the lock. *)
Lemma until_calm l : Forall calm l -> Forall calm (until_throw l).
Proof. induction 1 as [|a l Ha _ IH]; cbn; [constructor|]. destruct a; repeat constructor; auto. Qed.

Theorem lock_ok_blocking c s : generate_body c (init_state c) = Ok s -> lock_free_config c -> c_unblock c = false ->
  Forall calm (c_call_acts c) -> Forall (fun e => calm_frag (snd e)) (c_throw c) ->
  forall ch, Forall calm (fst (exec ch 0 (body s))).
Proof.
  intros H HC HU HA HE ch.
  destruct (structure _ _ _ H (lock_free_calm _ HC)) as [m0 [l1 [sv [m1 [re [m2 [cl [B [Q0 [Q1 [Qm [Q2 [Qc [Hu _]]]]]]]]]]]]]].
  rewrite HU in Hu. destruct Hu as [-> ->]. cbn [app] in B. rewrite B.
  rewrite (app_assoc m0), exec_app.
  pose proof (exec_calm (m0 ++ l1) (proj2 (Forall_app _ _ _) (conj Q0 Q1)) ch 0) as C1.
  destruct (snd (exec ch 0 (m0 ++ l1))); [|exact C1|exact C1]. cbn [fst]. apply Forall_app. split; [exact C1|].
  set (n := 0 + length (m0 ++ l1)).
  assert (CR : Forall calm (fst (exec ch (S n) (m1 ++ m2)))) by (apply exec_calm, Forall_app; auto).
  assert (K : forall t, Forall calm t -> Forall calm (fst (let (t', b) := run_acts t in
      if b then (t', Returned) else (t' ++ fst (exec ch (S n) (m1 ++ m2)), snd (exec ch (S n) (m1 ++ m2)))))).
  { intros t Ht. apply run_acts_calm in Ht. destruct (run_acts t) as [t' [|]]; cbn in *; [exact Ht|]. now apply Forall_app. }
  unfold call_item. destruct (c_throw c) as [|e es] eqn:Eth.
  - cbn [exec f_acts]. now apply K.
  - cbn [exec]. destruct (ch n) as [|k]; cbv beta iota.
    + apply K. unfold frags_acts. cbn [flat_map f_acts]. now rewrite app_nil_r.
    + assert (EA : frags_acts [{| f_text := c_call_text c (call_args (early_calls c)); f_acts := c_call_acts c; f_pass := [] |}] = c_call_acts c).
      { unfold frags_acts. cbn [flat_map f_acts]. apply app_nil_r. }
      rewrite EA. destruct (nth_error _ k) as [[h cb]|] eqn:Ek; [|now apply until_calm].
      apply K, Forall_app. split; [now apply until_calm|]. apply frags_calm.
      apply nth_error_In, in_map_iff in Ek as [x [Ex Hx]]. injection Ex as <- <-.
      apply Forall_app. split.
      * eapply Forall_impl; [|exact Qc]. intros f [Hf _]. exact Hf.
      * rewrite Forall_forall in HE. constructor; [now apply HE|]. repeat constructor.
Qed.

(** ** Exceptions *)
Lemma disciplined_cleanups l : disciplined l -> forall w f, In (XCleanup w f) l -> exists r, releases r f.
Proof.
  induction 1 as [|a l Ha _ IH|w f r cl l _ Hr _ IH|w cnd fl r cl l _ _ Hr _ IH]; intros w' f' Hin.
  - destruct Hin.
  - destruct Hin as [->|Hin]; [destruct Ha|eauto].
  - destruct Hin as [Hin|[Hin|Hin]]; [discriminate|injection Hin as <- <-; eauto|eauto].
  - destruct Hin as [Hin|[Hin|Hin]]; [discriminate|injection Hin as <- <-; eauto|eauto].
Qed.
Lemma plain_calm_acts l : Forall plain l -> Forall calm l.
Proof. apply Forall_impl. intros a. now destruct a. Qed.
Lemma plain_calm f : plain_frag f -> calm_frag f.
Proof. intros [H1 H2]. split; now apply plain_calm_acts. Qed.

Lemma find_choice (m : frag -> bool) (g : frag * frag -> list frag) throws :
  match find (fun e => m (fst e)) throws with
  | Some e => exists j, catch_choice m (map (fun e => (fst e, g e)) throws) = S j /\ nth_error throws j = Some e
  | None => nth_error throws (Nat.pred (catch_choice m (map (fun e => (fst e, g e)) throws))) = None /\
            catch_choice m (map (fun e => (fst e, g e)) throws) = S (length throws)
  end.
Proof.
  induction throws as [|e r IH]; cbn; [auto|]. destruct (m (fst e)); [exists 0; auto|].
  destruct (find _ r) as [x|].
  - destruct IH as [j [E1 E2]]. exists (S j). rewrite E1. auto.
  - destruct IH as [E1 E2]. rewrite E2 in *. cbn in *. auto.
Qed.

Lemma calm_not_try i : calm_item i -> ~ is_try i.
Proof. destruct i; cbn; auto. Qed.

Theorem throw_ok c s : generate_body c (init_state c) = Ok s -> well_behaved c -> lock_free_config c -> c_throw c <> [] ->
  exists pre call clauses post,
    body s = pre ++ ITry [call] clauses :: post /\
    map fst clauses = map fst (c_throw c) /\ f_acts call = c_call_acts c /\
    Forall (fun i => ~ is_try i) pre /\ Forall (fun i => ~ is_try i) post /\
    forall ch m, snd (exec ch 0 pre) = Fell -> ch (length pre) = catch_choice m clauses ->
    match find (fun e => m (fst e)) (c_throw c) with
    | Some e => exists rel,
        exec ch 0 (body s) = (fst (exec ch 0 pre) ++ until_throw (c_call_acts c) ++ rel ++ f_acts (snd e) ++ [AReturn (c_catch_value c)], Returned) /\
        Forall (fun a => plain a \/ exists r, a = ARelease r) rel /\
        clean_return (fst (exec ch 0 (body s)))
    | None => exec ch 0 (body s) = (fst (exec ch 0 pre) ++ until_throw (c_call_acts c), Escaped)
    end.
Proof.
  intros H W HC HT.
  assert (CC : calm_config (fun f => exists r, releases r f) c).
  { destruct HC as [H1 H2]. split; [|exact H2]. unfold calm_calls. rewrite Forall_forall in H1 |- *. intros a Ha. split; [now apply H1|].
    destruct a; auto. apply (disciplined_cleanups (handler_calls c)) with (w := w); [|exact Ha].
    unfold handler_calls. apply disciplined_app; [apply disciplined_flat, (wb_params c W)|].
    apply disciplined_app; [apply (wb_precall c W)|]. apply disciplined_app; [|apply (wb_postcall c W)].
    destruct (c_return c) as [h|] eqn:Er; [now apply (wb_return c W)|constructor]. }
  pose proof (releases_all c W s H) as RA.
  destruct (structure _ _ _ H CC) as [m0 [l1 [sv [m1 [re [m2 [cl [B [Q0 [Q1 [Qm [Q2 [Qc [Hu _]]]]]]]]]]]]]].
  assert (Hsv : Forall (fun i => ~ is_try i) sv /\ Forall (fun i => ~ is_try i) re).
  { destruct (c_unblock c).
    - destruct Hu as [i [j [-> [-> [[ti ->] [tj ->]]]]]]. split; repeat constructor; auto.
    - destruct Hu as [-> ->]. split; constructor. }
  assert (NT : forall l, Forall calm_item l -> Forall (fun i => ~ is_try i) l) by (intros l; apply Forall_impl, calm_not_try).
  unfold call_item in B. destruct (c_throw c) as [|e0 es] eqn:Eth; [congruence|].
  set (g := fun e : frag * frag => cl ++ [snd e; {| f_text := ("return " ++ c_catch_value c ++ ";")%string; f_acts := [AReturn (c_catch_value c)]; f_pass := [] |}]).
  eexists (m0 ++ l1 ++ sv), _, (map (fun e => (fst e, g e)) (e0 :: es)), (m1 ++ re ++ m2).
  split; [rewrite B, <- !app_assoc; reflexivity|]. split; [rewrite map_map; reflexivity|]. split; [reflexivity|].
  split; [repeat (apply Forall_app; split); auto; apply Hsv|]. split; [repeat (apply Forall_app; split); auto; apply Hsv|].
  intros ch m Hf Hc. specialize (RA ch).
  assert (EA : forall x, frags_acts [{| f_text := x; f_acts := c_call_acts c; f_pass := [] |}] = c_call_acts c).
  { intros x. unfold frags_acts. cbn [flat_map f_acts]. apply app_nil_r. }
  assert (Nc : noret (frags_acts cl) /\ Forall (fun a => plain a \/ exists r, a = ARelease r) (frags_acts cl)).
  { clear - Qc. unfold frags_acts. induction Qc as [|f l [_ [r [x [E Hx]]]] _ [IH1 IH2]]; cbn; [split; [intros x []|constructor]|].
    rewrite E. split.
    - apply noret_app; [|exact IH1]. intros y [Hy|Hy]; [discriminate|]. eapply plain_noret; eauto.
    - apply Forall_app. split; [|exact IH2]. constructor; [right; eauto|]. eapply Forall_impl; [|exact Hx]. auto. }
  assert (BE : exec ch 0 (body s) = match snd (exec ch 0 (m0 ++ l1 ++ sv)) with
     | Fell => (fst (exec ch 0 (m0 ++ l1 ++ sv)) ++ fst (exec ch (0 + length (m0 ++ l1 ++ sv)) (ITry [{| f_text := c_call_text c (call_args (early_calls c)); f_acts := c_call_acts c; f_pass := [] |}] (map (fun e => (fst e, g e)) (e0 :: es)) :: m1 ++ re ++ m2)),
                snd (exec ch (0 + length (m0 ++ l1 ++ sv)) (ITry [{| f_text := c_call_text c (call_args (early_calls c)); f_acts := c_call_acts c; f_pass := [] |}] (map (fun e => (fst e, g e)) (e0 :: es)) :: m1 ++ re ++ m2)))
     | o => (fst (exec ch 0 (m0 ++ l1 ++ sv)), o) end).
  { rewrite <- exec_app. f_equal. rewrite B, <- !app_assoc. reflexivity. }
  rewrite Hf in BE. rewrite Nat.add_0_l in BE. cbn [exec] in BE. rewrite Hc in BE.
  pose proof (find_choice m g (e0 :: es)) as FC.
  remember (e0 :: es) as throws eqn:Et.
  destruct (find (fun e => m (fst e)) throws) as [e|].
  - destruct FC as [j [E1 E2]]. rewrite E1 in BE. rewrite nth_error_map, E2 in BE. cbn [option_map] in BE.
    rewrite EA in BE. unfold g in BE at 1 2. rewrite frags_app in BE.
    assert (TE : frags_acts [snd e; {| f_text := ("return " ++ c_catch_value c ++ ";")%string; f_acts := [AReturn (c_catch_value c)]; f_pass := [] |}]
       = f_acts (snd e) ++ [AReturn (c_catch_value c)]) by reflexivity.
    rewrite TE in BE.
    assert (Pe : Forall plain (f_acts (snd e))).
    { pose proof (wb_throw c W) as X. rewrite Eth in X. rewrite Forall_forall in X. apply nth_error_In in E2. apply (X _ E2). }
    pose proof (wb_call c W) as Pc.
    assert (RR : run_acts (until_throw (c_call_acts c) ++ frags_acts cl ++ f_acts (snd e) ++ [AReturn (c_catch_value c)]) =
                 (until_throw (c_call_acts c) ++ frags_acts cl ++ f_acts (snd e) ++ [AReturn (c_catch_value c)], true)).
    { rewrite (app_assoc (frags_acts cl)), (app_assoc (until_throw _)). rewrite run_acts_ret; [reflexivity|].
      apply noret_app; [intros x; apply plain_noret, until_plain, Pc|]. apply noret_app; [apply Nc|]. intros x; now apply plain_noret. }
    rewrite RR in BE. cbn [fst snd] in BE. exists (frags_acts cl). rewrite BE in RA |- *. cbn [fst snd] in *.
    split; [reflexivity|]. split; [apply Nc|exact RA].
  - destruct FC as [E1 E2]. rewrite E2 in BE.
    assert (NN : nth_error (map (fun e => (fst e, g e)) throws) (length throws) = None) by (apply nth_error_None; now rewrite map_length).
    rewrite NN in BE. rewrite EA in BE. exact BE.
Qed.
