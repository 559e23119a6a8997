(** Proofs for C19: a delegate fetches the pending exception exactly when the wrapped call was not made. *)
From Coq Require Import Lia.
From Verif.Model Require Import Py CodeSink Decls CodeBlock Params MiniC ForwardWrapper Aggregator.
From Verif.Spec Require Import ParamSpec WrapperSpec HandlerSpec BodySpec DispatchSpec.
From Verif.Proofs Require Import BlockProofs WrapperProofs WrapperBody GenProofs LockProofs.
Open Scope list_scope.

Section D.
  Variables (mark value : string) (c : config).
  Hypothesis HD : delegate mark value c.
  Let pe := fetch_return value.
  Notation soft := (soft mark). Notation quiet := (quiet mark).
  Notation soft_frag := (soft_frag mark). Notation quiet_frag := (quiet_frag mark).

  Definition early (i : item frag) : Prop :=
    match i with
    | ICode f => soft_frag f \/ f = pe
    | IIndent _ | IUnindent => True
    | IIf cnd b => soft_frag cnd /\ Forall soft_frag b
    | ICheck cnd b => soft_frag cnd /\ exists pre, b = pre ++ [pe] /\ Forall soft_frag pre
    | ITry _ _ => False
    end.
  Definition late (i : item frag) : Prop :=
    match i with
    | ICode f => quiet_frag f
    | IIndent _ | IUnindent => True
    | IIf cnd b | ICheck cnd b => quiet_frag cnd /\ Forall quiet_frag b
    | ITry _ _ => False
    end.

  Lemma soft_quiet f : soft_frag f -> quiet_frag f.
  Proof. intros [A B]. split; eapply Forall_impl; try eassumption; intros a [H _]; exact H. Qed.
  Lemma frags_soft l : Forall soft_frag l -> Forall soft (frags_acts l).
  Proof. unfold frags_acts. induction 1 as [|f r [Hf _] _ IH]; cbn; [constructor|]. now apply Forall_app. Qed.
  Lemma frags_quiet l : Forall quiet_frag l -> Forall quiet (frags_acts l).
  Proof. unfold frags_acts. induction 1 as [|f r [Hf _] _ IH]; cbn; [constructor|]. now apply Forall_app. Qed.
  Lemma run_soft l : Forall soft l -> run_acts l = (l, false).
  Proof.
    intros H. apply run_acts_noret. rewrite Forall_forall in H. intros x I. destruct (H _ I) as [_ R]. discriminate R.
  Qed.
  Definition pe_acts : list act := [fetch; APy "Py_XDECREF(exc_type)"; APy "Py_XDECREF(traceback)"; AReturn value]%string.
  Lemma run_pe l : Forall soft l -> run_acts (l ++ pe_acts) = (l ++ pe_acts, true).
  Proof.
    intros H. change pe_acts with ([fetch; APy "Py_XDECREF(exc_type)"; APy "Py_XDECREF(traceback)"]%string ++ [AReturn value]). rewrite !app_assoc.
    apply (run_acts_ret _ value []). apply noret_app.
    - rewrite Forall_forall in H. intros x I. destruct (H _ I) as [_ R]. discriminate R.
    - intros x [X|[X|[X|[]]]]; discriminate X.
  Qed.
  Lemma run_quiet l : Forall quiet l -> Forall quiet (fst (run_acts l)).
  Proof. destruct (run_acts_prefix l) as [r E]. rewrite E at 1. intros H. now apply Forall_app in H. Qed.

  Lemma exec_early l : Forall early l -> forall ch n,
    (exists t, exec ch n l = (t, Fell) /\ Forall soft t) \/ (exists t, exec ch n l = (t ++ pe_acts, Returned) /\ Forall soft t).
  Proof.
    induction 1 as [|i r Hi _ IH]; intros ch n; [left; exists []; split; [reflexivity|constructor]|]. specialize (IH ch (S n)).
    assert (K : forall u, Forall soft u ->
      (exists t, (let (t', b) := run_acts u in if b then (t', Returned) else (t' ++ fst (exec ch (S n) r), snd (exec ch (S n) r))) = (t, Fell) /\ Forall soft t) \/
      (exists t, (let (t', b) := run_acts u in if b then (t', Returned) else (t' ++ fst (exec ch (S n) r), snd (exec ch (S n) r))) = (t ++ pe_acts, Returned) /\ Forall soft t)).
    { intros u Hu. rewrite run_soft by exact Hu. destruct IH as [(t & -> & T)|(t & -> & T)]; cbn [fst snd].
      - left. exists (u ++ t). split; [reflexivity|now apply Forall_app].
      - right. exists (u ++ t). split; [now rewrite app_assoc|now apply Forall_app]. }
    destruct i as [f| | |cnd b|cnd b|b cs]; cbn [exec early] in *; auto.
    - destruct Hi as [[Hf _]| ->]; [now apply K|]. right. exists []. change (f_acts pe) with pe_acts.
      change pe_acts with ([] ++ pe_acts) at 1. rewrite (run_pe []) by constructor. split; [reflexivity|constructor].
    - destruct Hi as [[H1 H2] (pre & -> & P)]. destruct (Nat.eqb (ch n) 0); [apply K, Forall_app; auto|].
      right. exists (f_acts cnd ++ frags_acts pre). rewrite frags_app. cbn [frags_acts flat_map]. rewrite app_nil_r. change (f_acts pe) with pe_acts.
      rewrite app_assoc, run_pe by (apply Forall_app; auto using frags_soft). split; [reflexivity|apply Forall_app; auto using frags_soft].
    - destruct Hi as [[H1 H2] H3]. destruct (Nat.eqb (ch n) 0); apply K, Forall_app; auto using frags_soft.
    - destruct Hi.
  Qed.
  Lemma exec_late l : Forall late l -> forall ch n, Forall quiet (fst (exec ch n l)).
  Proof.
    induction 1 as [|i r Hi _ IH]; intros ch n; [constructor|]. specialize (IH ch (S n)).
    assert (K : forall t, Forall quiet t -> Forall quiet (fst (let (t', b) := run_acts t in
        if b then (t', Returned) else (t' ++ fst (exec ch (S n) r), snd (exec ch (S n) r))))).
    { intros t Ht. apply run_quiet in Ht. destruct (run_acts t) as [t' [|]]; cbn in *; [exact Ht|]. now apply Forall_app. }
    destruct i; cbn [exec late] in *; auto.
    - apply K, Hi.
    - destruct Hi as [[H1 H2] H3]. destruct (Nat.eqb (ch n) 0); apply K, Forall_app; auto using frags_quiet.
    - destruct Hi as [[H1 H2] H3]. destruct (Nat.eqb (ch n) 0); apply K, Forall_app; auto using frags_quiet.
    - destruct Hi.
  Qed.

  (** ** The blocks during generation.  [tl]: what the before-call block ends with (the call). *)
  Record Dinv (tl : list (item frag)) (st : store frag) : Prop := {
    di_blocks : exists k0 k1 k2 l, st = [k0; k1; k2] /\
      pred k0 = None /\ pred k1 = Some 0 /\ pred k2 = Some 1 /\
      err_ret k0 = pe /\ err_ret k1 = pe /\ quiet_frag (err_ret k2) /\
      Forall soft_frag (map snd (actions k0)) /\ Forall soft_frag (map snd (actions k1)) /\ Forall quiet_frag (map snd (actions k2)) /\
      Forall early (out k0) /\ out k1 = l ++ tl /\ Forall early l /\ Forall late (out k2) }.

  Lemma snd_sorted (P : frag -> Prop) (l : list (nat * frag)) : Forall P (map snd l) -> Forall P (rev (map snd (sort_actions l))).
  Proof.
    rewrite !Forall_forall. intros H x I. apply in_rev in I. apply in_map_iff in I. destruct I as (y & <- & I). apply H. apply in_map.
    now apply sort_in.
  Qed.
  Lemma cleanup_early tl st b : Dinv tl st -> b < 2 -> Forall soft_frag (cleanup_code st b).
  Proof.
    intros [(k0 & k1 & k2 & l & -> & P0 & P1 & P2 & _ & _ & _ & A0 & A1 & _)] Hb. unfold cleanup_code. cbn [length].
    destruct b as [|[|b]]; [| |lia]; cbn [get_cleanup_code nth_error].
    - rewrite P0, app_nil_r. now apply snd_sorted.
    - rewrite P1. cbn [nth_error]. rewrite P0, app_nil_r. apply Forall_app. split; now apply snd_sorted.
  Qed.
  Lemma cleanup_late tl st : Dinv tl st -> Forall quiet_frag (cleanup_code st after_call).
  Proof.
    intros [(k0 & k1 & k2 & l & -> & P0 & P1 & P2 & _ & _ & _ & A0 & A1 & A2 & _)]. unfold cleanup_code, after_call. cbn [length get_cleanup_code nth_error].
    rewrite P2. cbn [nth_error]. rewrite P1. cbn [nth_error]. rewrite P0, app_nil_r. apply Forall_app. split; [now apply snd_sorted|].
    apply Forall_app. split; eapply Forall_impl; try (apply snd_sorted; eassumption); intros; now apply soft_quiet.
  Qed.

  Lemma emit_parse_D tl st st' l : Dinv tl st -> emit st before_parse l = Ok st' -> Forall early l -> Dinv tl st'.
  Proof.
    intros [(k0 & k1 & k2 & l1 & -> & P0 & P1 & P2 & E0 & E1 & E2 & A0 & A1 & A2 & O0 & O1 & O1' & O2)] E H.
    rewrite (emit_parse _ _ _ _ _ eq_refl) in E. assert (st' = [addout k0 l; k1; k2]) as -> by congruence.
    constructor. exists (addout k0 l), k1, k2, l1. cbn [addout pred err_ret actions out].
    repeat (split; [first [assumption|reflexivity|apply Forall_app; auto]|]). assumption.
  Qed.
  Lemma emit_before_D st st' l : Dinv [] st -> emit st before_call l = Ok st' -> Forall early l -> Dinv [] st'.
  Proof.
    intros [(k0 & k1 & k2 & l1 & -> & P0 & P1 & P2 & E0 & E1 & E2 & A0 & A1 & A2 & O0 & O1 & O1' & O2)] E H.
    rewrite (emit_before _ _ _ _ _ eq_refl) in E. assert (st' = [k0; addout k1 l; k2]) as -> by congruence.
    constructor. exists k0, (addout k1 l), k2, (l1 ++ l). cbn [addout pred err_ret actions out].
    repeat (split; [first [assumption|reflexivity|rewrite O1, !app_nil_r; reflexivity|apply Forall_app; auto]|]). assumption.
  Qed.
  Lemma emit_after_D tl st st' l : Dinv tl st -> emit st after_call l = Ok st' -> Forall late l -> Dinv tl st'.
  Proof.
    intros [(k0 & k1 & k2 & l1 & -> & P0 & P1 & P2 & E0 & E1 & E2 & A0 & A1 & A2 & O0 & O1 & O1' & O2)] E H.
    rewrite (emit_after _ _ _ _ _ eq_refl) in E. assert (st' = [k0; k1; addout k2 l]) as -> by congruence.
    constructor. exists k0, k1, (addout k2 l), l1. cbn [addout pred err_ret actions out].
    repeat (split; [first [assumption|reflexivity]|]). apply Forall_app; auto.
  Qed.
  Lemma emit_call_D st st' i : Dinv [] st -> emit st before_call [i] = Ok st' -> Dinv [i] st'.
  Proof.
    intros [(k0 & k1 & k2 & l1 & -> & P0 & P1 & P2 & E0 & E1 & E2 & A0 & A1 & A2 & O0 & O1 & O1' & O2)] E.
    rewrite (emit_before _ _ _ _ _ eq_refl) in E. assert (st' = [k0; addout k1 [i]; k2]) as -> by congruence.
    constructor. exists k0, (addout k1 [i]), k2, l1. cbn [addout pred err_ret actions out].
    repeat (split; [first [assumption|reflexivity|rewrite O1, !app_nil_r; reflexivity]|]). assumption.
  Qed.
  Lemma code_early l : Forall soft_frag l -> Forall early (map ICode l).
  Proof. induction 1; constructor; auto. now left. Qed.
  Lemma code_late l : Forall quiet_frag l -> Forall late (map ICode l).
  Proof. induction 1; constructor; auto. Qed.

  Lemma check_early tl st b k cnd fail : Dinv tl st -> b < 2 -> nth_error st b = Some k -> soft_frag cnd -> Forall soft_frag (opt_list fail) ->
    early (ICheck cnd (opt_list fail ++ cleanup_code st b ++ [err_ret k])).
  Proof.
    intros I Hb N C F. split; [exact C|]. exists (opt_list fail ++ cleanup_code st b). split.
    - rewrite <- app_assoc. repeat f_equal. destruct I as [(k0 & k1 & k2 & l1 & -> & _ & _ & _ & E0 & E1 & _)].
      destruct b as [|[|b]]; [| |lia]; cbn in N; congruence.
    - apply Forall_app. split; [exact F|]. eapply cleanup_early; eauto.
  Qed.
  Lemma err_after tl st k : Dinv tl st -> nth_error st after_call = Some k -> quiet_frag (err_ret k).
  Proof. intros [(k0 & k1 & k2 & l1 & -> & _ & _ & _ & _ & _ & E2 & _)] N. cbn in N. congruence. Qed.

  Lemma frag_opt (P : frag -> Prop) f : Forall P (opt_list f) <-> (forall g, f = Some g -> P g).
  Proof. destruct f; cbn; split; intros H; repeat constructor; try (intros g E; injection E as <-; now inversion H); auto; discriminate. Qed.


  Lemma hstep_D tl s a s' : Dinv tl (w_blocks s) -> delegate_call mark a -> (tl = [] \/ ~ touches_before a) ->
    hstep s a = Ok s' -> Dinv tl (w_blocks s').
  Proof.
    intros I Q T H. unfold delegate_call in Q.
    assert (TB : touches_before a -> tl = []) by (intros X; destruct T as [T|T]; [exact T|contradiction]).
    destruct a as [ty nm ini arr|nm|w f|w n|w|w cnd b|w cnd f|w|w f|w p|i pre|i pre|t]; cbn [hstep] in H.
    - destruct (declare_variable _ _ _ _ _ _) as [d [v|]]; [|discriminate]. cbn [bind] in H. injection H as <-. exact I.
    - injection H as <-. exact I.
    - apply on_blocks_fields in H as [st [E ->]]. cbn [w_blocks set_blocks]. destruct w; cbn [blk] in E; cbn [on_before fragments] in Q.
      + rewrite (TB Logic.I) in *. eapply emit_before_D; [exact I|exact E|]. inversion Q; subst. constructor; [left; assumption|constructor].
      + eapply emit_after_D; [exact I|exact E|]. inversion Q; subst. constructor; [assumption|constructor].
    - apply on_blocks_fields in H as [st [E ->]]. cbn [w_blocks set_blocks]. destruct w; cbn [blk] in E.
      + rewrite (TB Logic.I) in *. eapply emit_before_D; [exact I|exact E|]. repeat constructor.
      + eapply emit_after_D; [exact I|exact E|]. repeat constructor.
    - apply on_blocks_fields in H as [st [E ->]]. cbn [w_blocks set_blocks]. destruct w; cbn [blk] in E.
      + rewrite (TB Logic.I) in *. eapply emit_before_D; [exact I|exact E|]. repeat constructor.
      + eapply emit_after_D; [exact I|exact E|]. repeat constructor.
    - apply on_blocks_fields in H as [st [E ->]]. cbn [w_blocks set_blocks]. destruct w; cbn [blk] in E; cbn [on_before fragments] in Q;
        inversion Q as [|? ? Q1 Q2]; subst.
      + rewrite (TB Logic.I) in *. eapply emit_before_D; [exact I|exact E|]. constructor; [|constructor]. split; assumption.
      + eapply emit_after_D; [exact I|exact E|]. constructor; [|constructor]. split; assumption.
    - apply on_blocks_fields in H as [st [E ->]]. cbn [w_blocks set_blocks]. unfold write_error_check in E.
      destruct (nth_error (w_blocks s) (blk w)) as [k|] eqn:N; [|discriminate]. destruct w; cbn [blk] in *; cbn [on_before fragments] in Q;
        inversion Q as [|? ? Q1 Q2]; subst.
      + rewrite (TB Logic.I) in *. eapply emit_before_D; [exact I|exact E|]. constructor; [|constructor].
        eapply check_early; eauto.
      + eapply emit_after_D; [exact I|exact E|]. constructor; [|constructor]. split; [exact Q1|]. apply Forall_app. split; [exact Q2|].
        apply Forall_app. split; [eapply cleanup_late; eauto|]. constructor; [eapply err_after; eauto|constructor].
    - apply on_blocks_fields in H as [st [E ->]]. cbn [w_blocks set_blocks]. unfold write_error_return in E.
      destruct (nth_error (w_blocks s) (blk w)) as [k|] eqn:N; [|discriminate]. rewrite map_app in E. destruct w; cbn [blk] in *.
      + rewrite (TB Logic.I) in *. eapply emit_before_D; [exact I|exact E|]. apply Forall_app. split.
        * apply code_early. eapply cleanup_early; [exact I|unfold before_call; lia].
        * constructor; [|constructor]. right. destruct I as [(k0 & k1 & k2 & l1 & Est & _ & _ & _ & E0 & E1 & _)]. rewrite Est in N. cbn in N. congruence.
      + eapply emit_after_D; [exact I|exact E|]. apply Forall_app. split; [apply code_late; eapply cleanup_late; eauto|].
        constructor; [|constructor]. eapply err_after; eauto.
    - unfold add_cleanup_code in H. destruct (nth_error (w_blocks s) (blk w)) as [k|] eqn:N; [|discriminate]. cbn [bind fst] in H. injection H as <-.
      cbn [w_blocks set_blocks].
      destruct I as [(k0 & k1 & k2 & l1 & Est & P0 & P1 & P2 & E0 & E1 & E2 & A0 & A1 & A2 & O0 & O1 & O1' & O2)].
      rewrite Est in *. destruct w; cbn [blk before_call after_call nth_error] in N; cbn [on_before fragments] in Q; inversion Q as [|? ? Q1 _]; subst.
      + injection N as <-. constructor. eexists k0, _, k2, l1. split; [reflexivity|]. cbn [pred err_ret actions out].
        repeat (split; [first [assumption|rewrite map_app; apply Forall_app; split; [assumption|constructor; [exact Q1|constructor]]]|]). assumption.
      + injection N as <-. constructor. eexists k0, k1, _, l1. split; [reflexivity|]. cbn [pred err_ret actions out].
        repeat (split; [first [assumption|rewrite map_app; apply Forall_app; split; [assumption|constructor; [exact Q1|constructor]]]|]). assumption.
    - apply on_blocks_fields in H as [st [E ->]]. cbn [w_blocks set_blocks]. unfold remove_cleanup_code in E.
      destruct (nth_error (w_blocks s) (blk w)) as [k|] eqn:N; [|discriminate]. destruct (existsb _ _); [|discriminate]. injection E as <-.
      destruct I as [(k0 & k1 & k2 & l1 & Est & P0 & P1 & P2 & E0 & E1 & E2 & A0 & A1 & A2 & O0 & O1 & O1' & O2)].
      assert (FF : forall (P : frag -> Prop) l, Forall P (map snd l) -> Forall P (map snd (filter (fun x : nat * frag => negb (Nat.eqb (fst x) p)) l))).
      { intros P l. rewrite !Forall_forall. intros X x Hx. apply in_map_iff in Hx. destruct Hx as (y & <- & Hy). apply filter_In in Hy. apply X. now apply in_map. }
      rewrite Est in *. destruct w; cbn [blk before_call after_call nth_error] in N.
      + injection N as <-. constructor. eexists k0, _, k2, l1. split; [reflexivity|]. cbn [pred err_ret actions out].
        repeat (split; [first [assumption|now apply FF]|]). assumption.
      + injection N as <-. constructor. eexists k0, k1, _, l1. split; [reflexivity|]. cbn [pred err_ret actions out].
        repeat (split; [first [assumption|now apply FF]|]). assumption.
    - injection H as <-. exact I.
    - injection H as <-. exact I.
    - injection H as <-. exact I.
  Qed.
  Lemma hrun_D tl l : Forall (delegate_call mark) l -> (tl = [] \/ Forall (fun a => ~ touches_before a) l) -> forall s s',
    Dinv tl (w_blocks s) -> hrun s l = Ok s' -> Dinv tl (w_blocks s').
  Proof.
    induction 1 as [|a l Ha _ IH]; intros T s s' I H; cbn [hrun] in H; [now injection H as <-|].
    destruct (hstep s a) as [s1|] eqn:E; [|discriminate]. cbn [bind] in H. eapply IH; [| |exact H].
    - destruct T as [T|T]; [now left|right; now inversion T].
    - eapply hstep_D; [exact I|exact Ha| |exact E]. destruct T as [T|T]; [now left|right; now inversion T].
  Qed.

  Lemma py_soft t : APy t <> fetch -> soft_frag (py_frag t).
  Proof. intros N. repeat constructor; auto; discriminate. Qed.

  Lemma parse_D tl s s' : Dinv tl (w_blocks s) -> generate_parse c s = Ok s' -> Dinv tl (w_blocks s').
  Proof.
    intros I E. unfold generate_parse in E. destruct (parse_get_parameters _) as [p|]; [|discriminate]. cbn [bind] in E.
    destruct (get_keywords _) as [kw|]; [|discriminate]. cbn [bind] in E.
    assert (CK : forall st st' cnd, Dinv tl st -> soft_frag cnd -> write_error_check st before_parse cnd None = Ok st' -> Dinv tl st').
    { intros st st' cnd I' C W. unfold write_error_check in W. destruct (nth_error st before_parse) as [k|] eqn:N; [|discriminate].
      eapply emit_parse_D; [exact I'|exact W|]. constructor; [|constructor]. eapply check_early; eauto; constructor. }
    match type of E with (if ?b then _ else _) = _ => destruct b end; [|now injection E as <-].
    match type of E with (if ?b then _ else _) = _ => destruct b end.
    - apply on_blocks_fields in E as [st [E ->]]. cbn [w_blocks set_blocks]. eapply CK; [|apply py_soft|exact E]; [exact I|discriminate].
    - destruct (declare_variable _ _ _ _ _ _) as [d [x|]]; [|discriminate]. cbn [bind] in E.
      match type of E with bind ?r _ = _ => destruct r as [t1|] eqn:F1; [|discriminate] end.
      cbn [bind] in E. injection E as <-. apply on_blocks_fields in F1 as [st [E ->]]. cbn [w_blocks set_blocks add_flag].
      eapply CK; [|apply py_soft|exact E]; [exact I|discriminate].
  Qed.

  Lemma result_D tl s s' : Dinv tl (w_blocks s) -> build_result s = Ok s' -> Dinv tl (w_blocks s').
  Proof.
    intros I H. unfold build_result in H.
    match type of H with bind ?r _ = _ => destruct r as [s1|] eqn:E1; [|discriminate] end. cbn [bind] in H.
    match type of H with bind ?r _ = _ => destruct r as [s2|] eqn:E2; [|discriminate] end. cbn [bind] in H.
    apply on_blocks_fields in E1 as [st1 [E1 ->]]. apply on_blocks_fields in E2 as [st2 [E2 ->]]. apply on_blocks_fields in H as [st3 [E3 ->]].
    cbn [w_blocks set_blocks] in *.
    assert (I1 : Dinv tl st1).
    { eapply emit_after_D; [exact I|exact E1|]. destruct (params_are_empty _); repeat (apply Forall_cons || apply Forall_nil);
        apply soft_quiet, py_soft; discriminate. }
    assert (I2 : Dinv tl st2).
    { eapply emit_after_D; [exact I1|exact E2|]. apply code_late. eapply cleanup_late; eauto. }
    eapply emit_after_D; [exact I2|exact E3|]. constructor; [|constructor]. split; repeat constructor; discriminate.
  Qed.

  Definition call_piece (cl : list frag) (args : list string) : item frag := call_item c cl args.

  Theorem delegate_body s : generate_body c (init_state c) = Ok s ->
    exists pre cl args post, body s = pre ++ call_item c cl args :: post /\ Forall early pre /\ Forall late post /\ Forall quiet_frag cl.
  Proof.
    intros H. destruct (phases _ _ _ H) as [s0 [v [s1 [s2 [s3 [s4 [s5 [s6 [E0 [E1 [E2 [E3 [E4 [E5 [E6 E7]]]]]]]]]]]]]]].
    apply convert_all_ok in E1. pose proof (dl_handlers _ _ _ HD) as Q. unfold handler_calls in Q.
    apply Forall_app in Q as [Qa Q]. apply Forall_app in Q as [Qb Q]. apply Forall_app in Q as [Qc Qd].
    assert (I : Dinv [] (w_blocks (init_state c))).
    { constructor. eexists _, _, _, []. split; [reflexivity|]. cbn [new_block pred err_ret actions out map]. rewrite (dl_parse_error _ _ _ HD).
      do 5 (split; [reflexivity|]). split; [apply (dl_error _ _ _ HD)|]. do 4 (split; [constructor|]). split; [reflexivity|]. split; constructor. }
    assert (I0 : Dinv [] (w_blocks s0)).
    { unfold thread_phase in E0. destruct (c_unblock c); [|injection E0 as <- <-; exact I].
      unfold thread_var in E0. destruct (declare_variable _ _ _ _ _ _) as [d [x|]]; [|discriminate]. cbn [bind] in E0.
      match type of E0 with bind ?r _ = _ => destruct r as [t|] eqn:E; [|discriminate] end. cbn [bind] in E0.
      injection E0 as <- <-. apply on_blocks_fields in E as [st [E ->]]. cbn [w_blocks set_blocks set_decls] in *.
      eapply emit_after_D; [exact I|exact E|]. repeat constructor; discriminate. }
    assert (I1 : Dinv [] (w_blocks s1)) by (eapply hrun_D; [exact Qa|now left|exact I0|exact E1]).
    assert (I2 : Dinv [] (w_blocks s2)).
    { unfold deprecated_phase in E2. destruct (c_deprecated c) as [m|]; [|now injection E2 as <-].
      apply on_blocks_fields in E2 as [st [E2 ->]]. cbn [w_blocks set_blocks]. unfold write_error_check in E2.
      destruct (nth_error (w_blocks s1) before_call) as [k|] eqn:N; [|discriminate].
      eapply emit_before_D; [exact I1|exact E2|]. constructor; [|constructor]. eapply check_early; [exact I1|unfold before_call; lia|exact N| |constructor].
      apply py_soft. discriminate. }
    assert (I3 : Dinv [] (w_blocks s3)) by (eapply hrun_D; [exact Qb|now left|exact I2|exact E3]).
    assert (I4 : Dinv [] (w_blocks s4)).
    { unfold save_phase in E4. destruct (c_unblock c); [|now injection E4 as <-].
      apply on_blocks_fields in E4 as [st [E4 ->]]. cbn [w_blocks set_blocks]. eapply emit_before_D; [exact I3|exact E4|].
      constructor; [|constructor]. left. repeat constructor; discriminate. }
    assert (I5 : exists cl args, Dinv [call_item c cl args] (w_blocks s5) /\ Forall quiet_frag cl).
    { unfold generate_call in E5. unfold call_item. destruct (c_throw c) as [|e es].
      - apply on_blocks_fields in E5 as [st [E5 ->]]. exists [], (w_call s4). split; [|constructor]. eapply emit_call_D; eauto.
      - apply on_blocks_fields in E5 as [st [E5 ->]]. exists (cleanup_code (w_blocks s4) before_call), (w_call s4). split; [eapply emit_call_D; eauto|].
        eapply Forall_impl; [intros a; apply soft_quiet|]. eapply cleanup_early; [exact I4|unfold before_call; lia]. }
    destruct I5 as (cl & args & I5 & Hcl).
    pose proof (parse_D _ _ _ I5 E6) as I6.
    assert (I7 : Dinv [call_item c cl args] (w_blocks s)).
    { pose proof (dl_late _ _ _ HD) as NT. unfold late_calls in NT. apply Forall_app in NT as [NT1 NT2].
      unfold return_phase in E7.
      assert (R : exists s8, Dinv [call_item c cl args] (w_blocks s8) /\
         (build_result s8 = Ok s \/ on_blocks s8 (write_cleanup (w_blocks s8) after_call) = Ok s)).
      { destruct (c_return c) as [h|].
        - destruct (convert s6 h) as [s7|] eqn:Ec; [|discriminate]. apply convert_ok in Ec as [Ec _]. cbn [bind] in E7.
          destruct (hrun s7 (c_postcall c)) as [s8|] eqn:Ep; [|discriminate]. cbn [bind] in E7. exists s8. split; [|auto].
          eapply hrun_D; [exact Qd|right; exact NT2| |exact Ep]. eapply hrun_D; [exact Qc|right; exact NT1|exact I6|exact Ec].
        - destruct (c_have_return c).
          + cbn [bind] in E7. destruct (hrun s6 (c_postcall c)) as [s8|] eqn:Ep; [|discriminate]. cbn [bind] in E7. exists s8. split; [|auto].
            eapply hrun_D; [exact Qd|right; exact NT2|exact I6|exact Ep].
          + destruct (params_are_empty _); [|discriminate]. cbn [bind] in E7.
            destruct (hrun s6 (c_postcall c)) as [s8|] eqn:Ep; [|discriminate]. cbn [bind] in E7. exists s8. split; [|auto].
            eapply hrun_D; [exact Qd|right; exact NT2|exact I6|exact Ep]. }
      destruct R as (s8 & I8 & [R|R]); [eapply result_D; eauto|].
      apply on_blocks_fields in R as [st [R ->]]. cbn [w_blocks set_blocks]. unfold write_cleanup in R.
      eapply emit_after_D; [exact I8|exact R|]. apply code_late. eapply cleanup_late; eauto. }
    destruct I7 as [(k0 & k1 & k2 & l & Est & _ & _ & _ & _ & _ & _ & _ & _ & _ & O0 & O1 & O1' & O2)].
    rewrite (body_blocks _ _ _ _ Est), O1. exists (out k0 ++ l), cl, args, (out k2). split.
    - now rewrite <- !app_assoc.
    - split; [now apply Forall_app|]. auto.
  Qed.

  Lemma until_mark a b : (forall x, ~ In (ACpp x) a) -> until_throw (a ++ ACpp mark :: b) = a ++ [ACpp mark].
  Proof.
    induction a as [|x a IH]; intros H; cbn [app until_throw]; [reflexivity|].
    destruct x; try (rewrite IH; [reflexivity|intros y I; apply (H y); now right]). exfalso. apply (H what). now left.
  Qed.

  (** A run either stops before the call, having fetched the error, or makes the call and never fetches. *)
  Definition bad_run (t : list act) : Prop := exists u, t = u ++ pe_acts /\ Forall soft u.
  Definition good_run (t : list act) : Prop := exists u w, t = u ++ ACpp mark :: w /\ Forall soft u /\ Forall quiet w.

  Lemma split_run u l : Forall soft u -> run_acts (u ++ ACpp mark :: l) = (u ++ ACpp mark :: fst (run_acts l), snd (run_acts l)).
  Proof.
    induction 1 as [|a u [_ R] _ IH]; cbn [app run_acts is_return].
    - destruct (run_acts l); reflexivity.
    - rewrite R, IH. reflexivity.
  Qed.

  Theorem delegate_runs s : generate_body c (init_state c) = Ok s -> forall ch,
    bad_run (fst (exec ch 0 (body s))) /\ snd (exec ch 0 (body s)) = Returned \/ good_run (fst (exec ch 0 (body s))).
  Proof.
    intros H ch. destruct (delegate_body s H) as (pre & cl & args & post & -> & Hpre & Hpost & Hcl).
    rewrite exec_app. destruct (exec_early pre Hpre ch 0) as [(t & -> & T)|(t & -> & T)]; cbn [fst snd].
    2:{ left. split; [|reflexivity]. exists t. auto. }
    right. generalize (0 + length pre). intros n. destruct (dl_call _ _ _ HD) as (a & b & CA & Ha & Hb & Hx).
    assert (L : forall m, Forall quiet (fst (exec ch m post))) by (intros m; now apply exec_late).
    assert (K : forall l, Forall quiet l -> good_run (t ++ fst (let (t', bb) := run_acts (a ++ ACpp mark :: l) in
        if bb then (t', Returned) else (t' ++ fst (exec ch (S n) post), snd (exec ch (S n) post))))).
    { intros l Hl. rewrite split_run by exact Ha. apply run_quiet in Hl. destruct (run_acts l) as [t' bb]. cbn [fst snd] in *. destruct bb; cbn [fst].
      - exists (t ++ a), t'. split; [now rewrite <- app_assoc|]. split; [now apply Forall_app|exact Hl].
      - exists (t ++ a), (t' ++ fst (exec ch (S n) post)). split; [rewrite <- !app_assoc; reflexivity|]. split; [now apply Forall_app|apply Forall_app; auto]. }
    unfold call_item. destruct (c_throw c) as [|e es] eqn:TH.
    - cbn [exec f_acts]. rewrite CA. now apply K.
    - cbn [exec]. destruct (ch n) as [|j].
      + cbn [frags_acts flat_map f_acts]. rewrite app_nil_r, CA. now apply K.
      + cbn [frags_acts flat_map f_acts]. rewrite app_nil_r, CA, until_mark by exact Hx.
        destruct (nth_error _ j) as [[g cb]|] eqn:N.
        * rewrite <- app_assoc. cbn [app]. apply K. change (flat_map f_acts cb) with (frags_acts cb). apply frags_quiet.
          apply nth_error_In in N. apply in_map_iff in N. destruct N as (e1 & E1 & I1). injection E1 as _ <-.
          apply Forall_app. split; [exact Hcl|]. constructor; [|repeat constructor; discriminate].
          pose proof (dl_throw _ _ _ HD) as DT. rewrite TH, Forall_forall in DT. now apply DT.
        * cbn [fst]. exists (t ++ a), []. split; [now rewrite <- app_assoc|]. split; [now apply Forall_app|constructor].
  Qed.
End D.

Lemma act_eqb_spec a b : act_eqb a b = true -> a = b.
Proof. destruct a, b; cbn; try discriminate; intros H; apply String.eqb_eq in H; congruence. Qed.

Lemma fetched_iff t : existsb (act_eqb fetch) t = true <-> In fetch t.
Proof.
  rewrite existsb_exists. split.
  - intros (x & I & E). apply act_eqb_spec in E. now subst.
  - intros I. exists fetch. split; [exact I|reflexivity].
Qed.

Theorem delegate_ok mark value c s : delegate mark value c -> generate_body c (init_state c) = Ok s -> forall ch,
  let t := fst (exec ch 0 (body s)) in
  (In fetch t /\ ~ In (ACpp mark) t /\ snd (exec ch 0 (body s)) = Returned /\ exists u, t = u ++ [AReturn value]) \/
  (~ In fetch t /\ In (ACpp mark) t).
Proof.
  intros HD H ch t. destruct (delegate_runs mark value c HD s H ch) as [[(u & E & Su) R]|(u & w & E & Su & Qw)]; subst t.
  - left. rewrite E. split; [apply in_app_iff; right; now left|]. split.
    + intros I. apply in_app_iff in I. destruct I as [I|I].
      * rewrite Forall_forall in Su. destruct (Su _ I) as [[_ N] _]. now apply N.
      * cbn in I. destruct I as [X|[X|[X|[X|[]]]]]; discriminate X.
    + split; [exact R|]. eexists (u ++ [_; _; _]). rewrite <- app_assoc. reflexivity.
  - right. rewrite E. split.
    + intros I. apply in_app_iff in I. rewrite Forall_forall in Su, Qw. destruct I as [I|[I|I]].
      * destruct (Su _ I) as [[N _] _]. now apply N.
      * discriminate I.
      * destruct (Qw _ I) as [N _]. now apply N.
    + apply in_app_iff. right. now left.
Qed.

From Verif.Proofs Require Import DispatchProofs.
Theorem dispatch_cpp (V : Type) value (d : string -> attempt V) (ds : list (trial V)) :
  (forall x, In x ds -> generated value x /\ d (tr_name x) = seen (tr_trace x) (tr_exc x) (tr_value x) (tr_pending x)) ->
  (exists s, (forall x, In x ds -> ~ makes_call x) /\ call_aggregator d (map tr_name ds) = Finished None s /\
     cs_error s = TypeErrorList (map (fun x => Some (tr_exc x)) ds) /\ calls (cs_events s) = map tr_name ds) \/
  (exists a x b s, ds = a ++ x :: b /\ (forall y, In y a -> ~ makes_call y) /\ makes_call x /\
     call_aggregator d (map tr_name ds) = Finished (tr_value x) s /\
     cs_error s = match tr_pending x with Some e => ByDelegate e | None => NoError end /\
     calls (cs_events s) = map tr_name (a ++ [x])).
Proof.
  intros H.
  assert (C : forall x, In x ds -> (d (tr_name x) = Rejected (Some (tr_exc x)) /\ ~ makes_call x) \/
                                   (d (tr_name x) = Completed (tr_value x) (tr_pending x) /\ makes_call x)).
  { intros x I. destruct (H x I) as [(c & s & ch & D & G & T) ->]. unfold seen, makes_call.
    pose proof (delegate_ok _ _ _ _ D G ch) as K. cbn zeta in K. rewrite <- T in K. destruct K as [(K1 & K2 & _)|(K1 & K2)].
    - left. apply fetched_iff in K1. rewrite K1. auto.
    - right. split; [|exact K2]. destruct (existsb (act_eqb fetch) (tr_trace x)) eqn:E; [|reflexivity]. apply fetched_iff in E. contradiction. }
  clear H.
  assert (S : (Forall (fun x => d (tr_name x) = Rejected (Some (tr_exc x)) /\ ~ makes_call x) ds) \/
    exists a x b, ds = a ++ x :: b /\ Forall (fun x => d (tr_name x) = Rejected (Some (tr_exc x)) /\ ~ makes_call x) a /\
      d (tr_name x) = Completed (tr_value x) (tr_pending x) /\ makes_call x).
  { induction ds as [|x ds IH]; [left; constructor|]. destruct (C x (or_introl eq_refl)) as [F|F].
    - destruct IH as [A|(a & y & b & -> & A & B)]; [intros y I; apply C; now right| |].
      + left. now constructor.
      + right. exists (x :: a), y, b. split; [reflexivity|]. split; [now constructor|exact B].
    - right. exists [], x, ds. split; [reflexivity|]. split; [constructor|exact F]. }
  assert (FA : forall l, Forall (fun x => d (tr_name x) = Rejected (Some (tr_exc x)) /\ ~ makes_call x) l ->
     fails d (map tr_name l) (map tr_exc l) /\ forall y, In y l -> ~ makes_call y).
  { induction 1 as [|x l [A B] _ [IH1 IH2]]; [split; [constructor|intros y []]|]. split; [constructor; auto|].
    intros y [<-|I]; auto. }
  destruct S as [F|(a & x & b & -> & F & D & M)].
  - left. destruct (FA _ F) as [F1 F2]. destruct (dispatch_none d _ _ F1) as (s & R & E & K & _). exists s. split; [exact F2|]. split; [exact R|].
    split; [|exact K]. rewrite E. now rewrite map_map.
  - right. destruct (FA _ F) as [F1 F2]. rewrite map_app. cbn [map]. destruct (dispatch_first d _ _ (map tr_name b) _ _ _ F1 D) as (s & R & E & K & _).
    exists a, x, b, s. split; [reflexivity|]. split; [exact F2|]. split; [exact M|]. split; [exact R|]. split; [exact E|].
    rewrite K, map_app. reflexivity.
Qed.
