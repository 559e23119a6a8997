(** What generate_body leaves in the argument lists, the flags and the blocks (C08, C09). *)
From Coq Require Import Lia.
From Verif.Model Require Import Py CodeSink Decls CodeBlock Params MiniC ForwardWrapper.
From Verif.Spec Require Import ParamSpec WrapperSpec HandlerSpec BodySpec.
From Verif.Proofs Require Import BlockProofs ParamProofs WrapperProofs WrapperBody.
Open Scope list_scope.

Lemma on_blocks_fields s r s' : on_blocks s r = Ok s' ->
  exists b, r = Ok b /\ s' = set_blocks s b.
Proof. unfold on_blocks. destruct r as [b|]; [|discriminate]. intros [= <-]. eauto. Qed.

Lemma hstep_fields s a s' : hstep s a = Ok s' ->
  w_parse s' = prun (w_parse s) (parse_calls [a]) /\
  w_build s' = vrun (w_build s) (build_calls [a]) /\
  w_call s' = w_call s ++ call_args [a] /\ w_flags s' = w_flags s.
Proof.
  destruct a; cbn [hstep]; intros H;
    try (apply on_blocks_fields in H as [b [_ ->]]; cbn; rewrite ?app_nil_r; auto).
  - destruct (declare_variable _ _ _ _ _ _) as [d [v|]]; [|discriminate]. injection H as <-. cbn. rewrite app_nil_r. auto.
  - injection H as <-. cbn. rewrite app_nil_r; auto.
  - destruct (add_cleanup_code _ _ _) as [x|]; [|discriminate]. injection H as <-. cbn. rewrite app_nil_r; auto.
  - injection H as <-. cbn. rewrite app_nil_r; auto.
  - injection H as <-. cbn. rewrite app_nil_r; auto.
  - injection H as <-. cbn. auto.
Qed.

Lemma prun_app l a b : prun l (a ++ b) = prun (prun l a) b.
Proof. apply fold_left_app. Qed.
Lemma vrun_app l a b : vrun l (a ++ b) = vrun (vrun l a) b.
Proof. apply fold_left_app. Qed.

Lemma hrun_fields l : forall s s', hrun s l = Ok s' ->
  w_parse s' = prun (w_parse s) (parse_calls l) /\
  w_build s' = vrun (w_build s) (build_calls l) /\
  w_call s' = w_call s ++ call_args l /\ w_flags s' = w_flags s.
Proof.
  induction l as [|a r IH]; intros s s' H; cbn [hrun] in H.
  - injection H as <-. cbn. rewrite app_nil_r; auto.
  - destruct (hstep s a) as [s1|] eqn:E; [|discriminate]. cbn [bind] in H.
    apply hstep_fields in E as [E1 [E2 [E3 E4]]]. apply IH in H as [H1 [H2 [H3 H4]]].
    change (a :: r) with ([a] ++ r).
    unfold parse_calls, build_calls, call_args in *. rewrite !flat_map_app, prun_app, vrun_app.
    rewrite app_assoc. rewrite H1, H2, H3, H4, E1, E2, E3, E4. auto.
Qed.

Definition same_args (s s' : wstate) : Prop :=
  w_parse s' = w_parse s /\ w_build s' = w_build s /\ w_call s' = w_call s.
Lemma same_on_blocks s r s' : on_blocks s r = Ok s' -> same_args s s' /\ w_flags s' = w_flags s.
Proof. intros H. apply on_blocks_fields in H as [b [_ ->]]. repeat split. Qed.
Lemma same_trans a b c : same_args a b -> same_args b c -> same_args a c.
Proof. unfold same_args. intuition congruence. Qed.

Lemma thread_same c s s' v : thread_phase c s = Ok (s', v) -> same_args s s' /\ w_flags s' = w_flags s.
Proof.
  unfold thread_phase. destruct (c_unblock c); [|intros [= <- <-]; repeat split].
  unfold thread_var. destruct (declare_variable _ _ _ _ _ _) as [d [x|]]; [|discriminate]. cbn [bind].
  match goal with |- bind ?r _ = _ -> _ => destruct r as [s1|] eqn:E; [|discriminate] end. cbn [bind].
  intros [= <- <-]. apply same_on_blocks in E as [[A [B C]] D]. cbn in *. repeat split; auto.
Qed.
Lemma deprecated_same c s s' : deprecated_phase c s = Ok s' -> same_args s s' /\ w_flags s' = w_flags s.
Proof.
  unfold deprecated_phase. destruct (c_deprecated c); [apply same_on_blocks|]. intros [= <-]. repeat split.
Qed.
Lemma save_same c v s s' : save_phase c v s = Ok s' -> same_args s s' /\ w_flags s' = w_flags s.
Proof.
  unfold save_phase. destruct (c_unblock c); [apply same_on_blocks|]. intros [= <-]. repeat split.
Qed.
Lemma call_same c s s' : generate_call c s = Ok s' -> same_args s s' /\ w_flags s' = w_flags s.
Proof. unfold generate_call. destruct (c_throw c); apply same_on_blocks. Qed.
Lemma parse_same c s s' : generate_parse c s = Ok s' -> same_args s s'.
Proof.
  unfold generate_parse. destruct (parse_get_parameters _); [|discriminate]. cbn [bind].
  destruct (get_keywords _); [|discriminate]. cbn [bind].
  match goal with |- (if ?b then _ else _) = _ -> _ => destruct b end; [|intros [= <-]; repeat split].
  match goal with |- (if ?b then _ else _) = _ -> _ => destruct b end.
  - intros H. apply same_on_blocks in H as [H _]. exact H.
  - destruct (declare_variable _ _ _ _ _ _) as [d [x|]]; [|discriminate]. cbn [bind].
    match goal with |- bind ?r _ = _ -> _ => destruct r as [s1|] eqn:E; [|discriminate] end. cbn [bind].
    intros [= <-]. apply same_on_blocks in E as [H _]. exact H.
Qed.
Lemma result_same s s' : build_result s = Ok s' -> same_args s s' /\ w_flags s' = w_flags s.
Proof.
  unfold build_result. intros H.
  match type of H with bind ?r _ = _ => destruct r as [s1|] eqn:E1; [|discriminate] end. cbn [bind] in H.
  match type of H with bind ?r _ = _ => destruct r as [s2|] eqn:E2; [|discriminate] end. cbn [bind] in H.
  apply same_on_blocks in H as [H1 H2]. apply same_on_blocks in E1 as [A1 A2]. apply same_on_blocks in E2 as [B1 B2].
  split; [eapply same_trans; [exact A1|]; eapply same_trans; eauto|congruence].
Qed.

(** The run of generate_body, with the argument lists at the point where parsing code is generated, and
    just before the result is built. *)
Lemma body_args c s : generate_body c (init_state c) = Ok s ->
  exists s5 s6 s8,
    w_parse s5 = parse_order (parse_calls (early_calls c)) /\
    w_call s5 = call_args (early_calls c) /\
    w_flags s5 = [] /\
    generate_parse c s5 = Ok s6 /\ w_flags s = w_flags s6 /\
    hrun s6 (late_calls c) = Ok s8 /\
    w_build s8 = build_order (build_calls (handler_calls c)) /\
    (match c_return c, c_have_return c with
     | None, false => params_are_empty (build_get_parameters (w_build s6) false) = true /\
                      on_blocks s8 (write_cleanup (w_blocks s8) after_call) = Ok s
     | _, _ => build_result s8 = Ok s end).
Proof.
  intros H. destruct (phases _ _ _ H) as [s0 [v [s1 [s2 [s3 [s4 [s5 [s6 [E0 [E1 [E2 [E3 [E4 [E5 [E6 E7]]]]]]]]]]]]]]].
  apply convert_all_ok in E1.
  apply thread_same in E0 as [[A1 [A2 A3]] A4]. apply hrun_fields in E1 as [B1 [B2 [B3 B4]]].
  apply deprecated_same in E2 as [[C1 [C2 C3]] C4]. apply hrun_fields in E3 as [D1 [D2 [D3 D4]]].
  apply save_same in E4 as [[F1 [F2 F3]] F4]. apply call_same in E5 as [[G1 [G2 G3]] G4].
  pose proof (parse_same _ _ _ E6) as [H1 [H2 H3]].
  cbn [w_parse w_build w_call w_flags init_state] in *.
  assert (P5 : w_parse s5 = parse_order (parse_calls (early_calls c))).
  { rewrite <- parse_order_ok. unfold early_calls, parse_calls in *. rewrite flat_map_app, prun_app. congruence. }
  assert (Q5 : w_call s5 = call_args (early_calls c)).
  { unfold early_calls, call_args in *. rewrite flat_map_app. rewrite G3, F3, D3, C3, B3, A3. reflexivity. }
  assert (B5 : w_build s6 = vrun [] (build_calls (early_calls c))).
  { unfold early_calls, build_calls in *. rewrite flat_map_app, vrun_app. congruence. }
  assert (R : exists s8, hrun s6 (late_calls c) = Ok s8 /\
    match c_return c, c_have_return c with
     | None, false => params_are_empty (build_get_parameters (w_build s6) false) = true /\
                      on_blocks s8 (write_cleanup (w_blocks s8) after_call) = Ok s
     | _, _ => build_result s8 = Ok s end).
  { unfold return_phase, late_calls in *. destruct (c_return c) as [h|].
    - destruct (convert s6 h) as [s7|] eqn:Ec; [|discriminate]. apply convert_ok in Ec as [Ec _]. cbn [bind] in E7.
      destruct (hrun s7 (c_postcall c)) as [s8|] eqn:Ep; [|discriminate]. cbn [bind] in E7.
      exists s8. rewrite hrun_app, Ec. cbn [bind]. auto.
    - destruct (c_have_return c).
      + cbn [bind] in E7. destruct (hrun s6 (c_postcall c)) as [s8|] eqn:Ep; [|discriminate]. cbn [bind] in E7.
        exists s8. auto.
      + destruct (params_are_empty _); [|discriminate]. cbn [bind] in E7.
        destruct (hrun s6 (c_postcall c)) as [s8|] eqn:Ep; [|discriminate]. cbn [bind] in E7. exists s8. auto. }
  destruct R as [s8 [R1 R2]]. pose proof (hrun_fields _ _ _ R1) as [L1 [L2 [L3 L4]]].
  exists s5, s6, s8. repeat (split; [try congruence|]); auto.
  - transitivity (w_flags s8); [|exact L4].
    destruct (c_return c); [apply result_same in R2; apply R2|].
    destruct (c_have_return c); [apply result_same in R2; apply R2|]. destruct R2 as [_ R2].
    apply same_on_blocks in R2. apply R2.
  - rewrite L2, B5, <- vrun_app, <- build_order_ok. f_equal. unfold build_calls, early_calls, late_calls, handler_calls.
    now rewrite <- flat_map_app, <- !app_assoc.
Qed.

(** ** Blocks *)
Lemma emit_other (st st' : store frag) b l b' : emit st b l = Ok st' -> b' <> b -> nth_error st' b' = nth_error st b'.
Proof.
  unfold emit. destruct (nth_error st b) eqn:E; [|discriminate]. intros [= <-] Hn.
  apply put_other; auto. apply nth_error_Some; congruence.
Qed.
Lemma emit_same (st st' : store frag) b l : emit st b l = Ok st' ->
  exists k, nth_error st b = Some k /\ nth_error st' b = Some (addout k l).
Proof.
  unfold emit. destruct (nth_error st b) as [k|] eqn:E; [|discriminate]. intros [= <-]. exists k. split; [reflexivity|].
  rewrite put_same by (apply nth_error_Some; congruence). reflexivity.
Qed.
Lemma check_other (st st' : store frag) b c f b' : write_error_check st b c f = Ok st' -> b' <> b -> nth_error st' b' = nth_error st b'.
Proof. unfold write_error_check. destruct (nth_error st b) eqn:E; [|discriminate]. apply emit_other. Qed.

Definition on_block (a : hact) : option nat :=
  match a with
  | XCode w _ | XIndent w _ | XUnindent w | XIf w _ _ | XCheck w _ _ | XErrorReturn w | XCleanup w _ | XCancel w _ => Some (blk w)
  | _ => None
  end.
Lemma hstep_other s a s' b : hstep s a = Ok s' -> on_block a <> Some b ->
  nth_error (w_blocks s') b = nth_error (w_blocks s) b.
Proof.
  destruct a; cbn [hstep on_block]; intros H Hb; try (apply on_blocks_fields in H as [st [H ->]]; cbn [w_blocks set_blocks]).
  - destruct (declare_variable _ _ _ _ _ _) as [d [v|]]; [|discriminate]. injection H as <-. reflexivity.
  - injection H as <-. reflexivity.
  - eapply emit_other; [exact H|congruence].
  - eapply emit_other; [exact H|congruence].
  - eapply emit_other; [exact H|congruence].
  - eapply emit_other; [exact H|congruence].
  - eapply check_other; [exact H|congruence].
  - unfold write_error_return in H. destruct (nth_error _ _); [|discriminate]. eapply emit_other; [exact H|congruence].
  - unfold add_cleanup_code in H. destruct (nth_error _ _) eqn:E; [|discriminate]. injection H as <-. cbn.
    apply put_other; [apply nth_error_Some; congruence|congruence].
  - unfold remove_cleanup_code in H. destruct (nth_error _ _) eqn:E; [|discriminate].
    destruct (existsb _ _); [|discriminate]. injection H as <-.
    apply put_other; [apply nth_error_Some; congruence|congruence].
  - injection H as <-. reflexivity.
  - injection H as <-. reflexivity.
  - injection H as <-. reflexivity.
Qed.
Lemma hrun_other l b : Forall (fun a => on_block a <> Some b) l -> forall s s', hrun s l = Ok s' ->
  nth_error (w_blocks s') b = nth_error (w_blocks s) b.
Proof.
  induction 1 as [|a r Ha _ IH]; intros s s' H; cbn [hrun] in H.
  - now injection H as <-.
  - destruct (hstep s a) as [s1|] eqn:E; [|discriminate]. cbn [bind] in H.
    rewrite (IH _ _ H). eapply hstep_other; eauto.
Qed.
Lemma never_0 l : Forall (fun a => on_block a <> Some 0) l.
Proof. apply Forall_forall. intros a _. destruct a; cbn; try discriminate; destruct w; discriminate. Qed.

Lemma result_other s s' b : build_result s = Ok s' -> b <> after_call -> nth_error (w_blocks s') b = nth_error (w_blocks s) b.
Proof.
  unfold build_result. intros H Hb.
  match type of H with bind ?r _ = _ => destruct r as [s1|] eqn:E1; [|discriminate] end. cbn [bind] in H.
  match type of H with bind ?r _ = _ => destruct r as [s2|] eqn:E2; [|discriminate] end. cbn [bind] in H.
  apply on_blocks_fields in H as [x [H ->]]. apply on_blocks_fields in E1 as [y [E1 ->]]. apply on_blocks_fields in E2 as [z [E2 ->]].
  cbn [w_blocks set_blocks] in *. rewrite (emit_other _ _ _ _ _ H Hb). unfold write_cleanup in E2.
  rewrite (emit_other _ _ _ _ _ E2 Hb). now rewrite (emit_other _ _ _ _ _ E1 Hb).
Qed.

(** Block 0 when the parsing code is generated, and at the end. *)
Lemma body_blocks0 c s : generate_body c (init_state c) = Ok s ->
  exists s5 s6 s8,
    (w_parse s5 = parse_order (parse_calls (early_calls c)) /\ w_flags s5 = [] /\
    generate_parse c s5 = Ok s6 /\ w_flags s = w_flags s6) /\
    nth_error (w_blocks s5) 0 = Some (new_block None (c_parse_error c)) /\
    nth_error (w_blocks s) 0 = nth_error (w_blocks s6) 0 /\
    hrun s6 (late_calls c) = Ok s8.
Proof.
  intros H. destruct (phases _ _ _ H) as [s0 [v [s1 [s2 [s3 [s4 [s5 [s6 [E0 [E1 [E2 [E3 [E4 [E5 [E6 E7]]]]]]]]]]]]]]].
  apply convert_all_ok in E1.
  pose proof (thread_same _ _ _ _ E0) as [[A1 [A2 A3]] A4]. pose proof (hrun_fields _ _ _ E1) as [B1 [B2 [B3 B4]]].
  pose proof (deprecated_same _ _ _ E2) as [[C1 [C2 C3]] C4]. pose proof (hrun_fields _ _ _ E3) as [D1 [D2 [D3 D4]]].
  pose proof (save_same _ _ _ _ E4) as [[F1 [F2 F3]] F4]. pose proof (call_same _ _ _ E5) as [[G1 [G2 G3]] G4].
  cbn [w_parse w_build w_call w_flags init_state] in *.
  assert (P5 : w_parse s5 = parse_order (parse_calls (early_calls c))).
  { rewrite <- parse_order_ok. unfold early_calls, parse_calls in *. rewrite flat_map_app, prun_app. congruence. }
  assert (K0 : nth_error (w_blocks s0) 0 = Some (new_block None (c_parse_error c))).
  { unfold thread_phase in E0. destruct (c_unblock c); [|injection E0 as <- <-; reflexivity].
    unfold thread_var in E0. destruct (declare_variable _ _ _ _ _ _) as [d [x|]]; [|discriminate]. cbn [bind] in E0.
    match type of E0 with bind ?r _ = _ => destruct r as [t|] eqn:E; [|discriminate] end. cbn [bind] in E0.
    injection E0 as <- <-. apply on_blocks_fields in E as [st [E ->]]. cbn [w_blocks set_blocks].
    rewrite (emit_other _ _ _ _ 0 E); [reflexivity|discriminate]. }
  assert (K1 : nth_error (w_blocks s1) 0 = nth_error (w_blocks s0) 0) by (eapply hrun_other; [apply never_0|eauto]).
  assert (K2 : nth_error (w_blocks s2) 0 = nth_error (w_blocks s1) 0).
  { unfold deprecated_phase in E2. destruct (c_deprecated c); [|now injection E2 as <-].
    apply on_blocks_fields in E2 as [st [E2 ->]]. eapply check_other; [exact E2|discriminate]. }
  assert (K3 : nth_error (w_blocks s3) 0 = nth_error (w_blocks s2) 0) by (eapply hrun_other; [apply never_0|eauto]).
  assert (K4 : nth_error (w_blocks s4) 0 = nth_error (w_blocks s3) 0).
  { unfold save_phase in E4. destruct (c_unblock c); [|now injection E4 as <-].
    apply on_blocks_fields in E4 as [st [E4 ->]]. eapply emit_other; [exact E4|discriminate]. }
  assert (K5 : nth_error (w_blocks s5) 0 = nth_error (w_blocks s4) 0).
  { unfold generate_call in E5. destruct (c_throw c); apply on_blocks_fields in E5 as [st [E5 ->]];
      (eapply emit_other; [exact E5|discriminate]). }
  unfold return_phase in E7.
  assert (R : exists s8, hrun s6 (late_calls c) = Ok s8 /\ nth_error (w_blocks s) 0 = nth_error (w_blocks s8) 0 /\ w_flags s = w_flags s8).
  { unfold late_calls. destruct (c_return c) as [h|].
    - destruct (convert s6 h) as [s7|] eqn:Ec; [|discriminate]. apply convert_ok in Ec as [Ec _]. cbn [bind] in E7.
      destruct (hrun s7 (c_postcall c)) as [s8|] eqn:Ep; [|discriminate]. cbn [bind] in E7.
      exists s8. rewrite hrun_app, Ec. cbn [bind]. split; [auto|]. split; [eapply result_other; [eauto|discriminate]|].
      apply result_same in E7; apply E7.
    - destruct (c_have_return c).
      + cbn [bind] in E7. destruct (hrun s6 (c_postcall c)) as [s8|] eqn:Ep; [|discriminate]. cbn [bind] in E7.
        exists s8. split; [auto|]. split; [eapply result_other; [eauto|discriminate]|]. apply result_same in E7; apply E7.
      + destruct (params_are_empty _); [|discriminate]. cbn [bind] in E7.
        destruct (hrun s6 (c_postcall c)) as [s8|] eqn:Ep; [|discriminate]. cbn [bind] in E7. exists s8.
        split; [auto|]. pose proof (same_on_blocks _ _ _ E7) as [_ X]. split; [|exact X].
        apply on_blocks_fields in E7 as [st [E7 ->]]. unfold write_cleanup in E7.
        eapply emit_other; [exact E7|discriminate]. }
  destruct R as [s8 [R1 [R2 R3]]]. pose proof (hrun_fields _ _ _ R1) as [L1 [L2 [L3 L4]]].
  exists s5, s6, s8. split; [repeat split; auto; congruence|]. split; [congruence|]. split; [|auto].
  rewrite R2. eapply hrun_other; [apply never_0|exact R1].
Qed.

Lemma empty_params (l : list pitem) req opt : well_ordered l req opt -> (forall i, In i l -> p_template i <> ""%string) ->
  params_are_empty ((dquote ++ format_of req opt ++ dquote)%string :: flat_map p_values l) = true <-> l = [].
Proof.
  intros W Ht. destruct (parameters_ok l) as [P _]. specialize (P _ _ W).
  pose proof (is_empty_ok l Ht) as E. unfold parse_is_empty in E. rewrite P in E. unfold bind in E.
  unfold params_are_empty. rewrite <- E. split; [now intros ->|]. congruence.
Qed.

(** The three forms of the parsing code. *)
Theorem flags_ok c s : generate_body c (init_state c) = Ok s ->
  let items := parse_order (parse_calls (early_calls c)) in
  (forall i, In i items -> p_template i <> ""%string) ->
  exists req opt, well_ordered items req opt /\
  let fmt := ("(char *) " ++ dquote ++ format_of req opt ++ dquote)%string in
  let targets := flat_map p_values items in
  let parsing (callee : string) (args : list string) :=
    [ICheck (py_frag ("!" ++ callee ++ "(" ++ join ", " args ++ ")")%string) [c_parse_error c]] in
  (items = [] /\ c_force_parse c = None /\ w_flags s = ["METH_NOARGS"%string] /\ block_out s before_parse = []) \/
  ((items <> [] \/ c_force_parse c <> None) /\ c_force_parse c <> Some parse_tuple_and_keywords /\
     Forall (fun i => p_name i = None) items /\ w_flags s = ["METH_VARARGS"%string] /\
     block_out s before_parse = parsing "PyArg_ParseTuple"%string ("args"%string :: fmt :: targets)) \/
  ((c_force_parse c = Some parse_tuple_and_keywords \/ items <> []) /\
   exists kw, ((kw = [] /\ c_force_parse c = Some parse_tuple_and_keywords /\ Forall (fun i => p_name i = None) items) \/
               (kw <> [] /\ map p_name items = map Some kw)) /\
     w_flags s = ["METH_VARARGS"; "METH_KEYWORDS"]%string /\
     exists v d d', declare_variable d 0 "const char *" "keywords"
         (Some ("{" ++ join ", " (map (fun k => (dquote ++ k ++ dquote)%string) kw ++ ["NULL"])%list ++ "}")%string) (Some "[]"%string) = (d', Ok v) /\
     block_out s before_parse =
       parsing "PyArg_ParseTupleAndKeywords"%string ("args" :: "kwargs" :: fmt :: ("(char **) " ++ v) :: targets)%string).
Proof.
  intros H items Ht. destruct (body_blocks0 _ _ H) as [s5 [s6 [s8 [[A1 [A2 [A3 A4]]] [K5 [K6 _]]]]]].
  fold items in A1. destruct (parameters_ok items) as [P1 [P2 [P3 _]]].
  unfold generate_parse in A3. rewrite A1 in A3.
  destruct P3 as [[req [opt W]]|M]; [|rewrite (P2 M) in A3; discriminate].
  specialize (P1 _ _ W). rewrite P1 in A3. cbn [bind] in A3.
  exists req, opt. split; [exact W|]. cbv zeta.
  destruct (keywords_ok items) as [Q1 [Q2 _]].
  destruct (get_keywords items) as [kws|] eqn:Ek; [|discriminate]. cbn [bind] in A3.
  pose proof (empty_params _ _ _ W Ht) as Em.
  set (pr := (dquote ++ format_of req opt ++ dquote)%string) in *.
  assert (C : forall st' cnd, write_error_check (w_blocks s5) before_parse cnd None = Ok st' ->
     nth_error st' 0 = Some (addout (new_block None (c_parse_error c)) [ICheck cnd [c_parse_error c]])).
  { intros st' cnd X. unfold write_error_check, before_parse in *. rewrite K5 in X.
    assert (Cl : cleanup_code (w_blocks s5) 0 = []).
    { unfold cleanup_code. cbn [get_cleanup_code]. rewrite K5. reflexivity. }
    rewrite Cl in X. cbn [opt_list app err_ret new_block] in X. apply emit_same in X as [k [X1 X2]].
    rewrite K5 in X1. injection X1 as <-. exact X2. }
  destruct (params_are_empty (pr :: flat_map p_values items)) eqn:Ee.
  - clear Ee. assert (Ee : items = []) by (apply Em; reflexivity).
    destruct (c_force_parse c) as [fp|] eqn:Ef; cbn [negb orb] in A3.
    + (* forced *)
      assert (Kn : kws = None). { rewrite Ee in Ek. now injection Ek as <-. } subst kws.
      cbn [andb] in A3. destruct (Nat.eqb fp parse_tuple_and_keywords) eqn:Efp; cbn [negb] in A3.
      * right; right. apply Nat.eqb_eq in Efp. subst fp. split; [auto|]. exists []. split; [left; repeat split; auto; rewrite Ee; constructor|].
        destruct (declare_variable _ _ _ _ _ _) as [d' [v|]] eqn:Ed; [|discriminate]. cbn [bind] in A3.
        match type of A3 with bind ?r _ = _ => destruct r as [s7|] eqn:E7; [|discriminate] end. cbn [bind] in A3.
        injection A3 as <-. apply on_blocks_fields in E7 as [st [E7 ->]]. cbn [w_blocks set_decls add_flag] in E7.
        apply C in E7. split; [rewrite A4; cbn; now rewrite A2|]. exists v, (w_decls (add_flag s5 "METH_VARARGS")), d'. split; [exact Ed|].
        unfold block_out, before_parse. rewrite K6. cbn [add_flag set_blocks w_blocks]. rewrite E7. reflexivity.
      * right; left. apply on_blocks_fields in A3 as [st [E7 ->]]. cbn [w_blocks add_flag] in E7. apply C in E7.
        apply Nat.eqb_neq in Efp. split; [right; discriminate|]. split; [congruence|]. split; [rewrite Ee; constructor|].
        split; [rewrite A4; cbn; now rewrite A2|]. unfold block_out, before_parse. rewrite K6. cbn [add_flag set_blocks w_blocks].
        rewrite E7. reflexivity.
    + left. injection A3 as <-. split; [auto|]. split; [auto|]. split; [rewrite A4; cbn; now rewrite A2|].
      unfold block_out, before_parse. rewrite K6. cbn [add_flag w_blocks]. now rewrite K5.
  - assert (Ne : items <> []) by (intros X; apply Em in X; congruence).
    cbn [negb orb] in A3. destruct kws as [kw|].
    + cbn [andb] in A3. right; right. split; [auto|]. exists kw.
      destruct (Q1 kw) as [Q1' _]. specialize (Q1' eq_refl). destruct Q1' as [_ Q1'].
      assert (Nk : kw <> []). { intros ->. destruct items; [congruence|discriminate]. }
      split; [right; auto|].
      destruct (declare_variable _ _ _ _ _ _) as [d' [v|]] eqn:Ed; [|discriminate]. cbn [bind] in A3.
      match type of A3 with bind ?r _ = _ => destruct r as [s7|] eqn:E7; [|discriminate] end. cbn [bind] in A3.
      injection A3 as <-. apply on_blocks_fields in E7 as [st [E7 ->]]. cbn [w_blocks set_decls add_flag] in E7.
      apply C in E7. split; [rewrite A4; cbn; now rewrite A2|]. exists v, (w_decls (add_flag s5 "METH_VARARGS")), d'. split; [exact Ed|].
      unfold block_out, before_parse. rewrite K6. cbn [add_flag set_blocks w_blocks]. rewrite E7. reflexivity.
    + assert (Kn : Forall (fun i => p_name i = None) items) by (apply Q2; reflexivity).
      destruct (c_force_parse c) as [fp|] eqn:Ef.
      * cbn [andb] in A3. destruct (Nat.eqb fp parse_tuple_and_keywords) eqn:Efp; cbn [negb] in A3.
        -- right; right. apply Nat.eqb_eq in Efp. subst fp. split; [auto|]. exists []. split; [left; repeat split; auto|].
           destruct (declare_variable _ _ _ _ _ _) as [d' [v|]] eqn:Ed; [|discriminate]. cbn [bind] in A3.
           match type of A3 with bind ?r _ = _ => destruct r as [s7|] eqn:E7; [|discriminate] end. cbn [bind] in A3.
           injection A3 as <-. apply on_blocks_fields in E7 as [st [E7 ->]]. cbn [w_blocks set_decls add_flag] in E7.
           apply C in E7. split; [rewrite A4; cbn; now rewrite A2|]. exists v, (w_decls (add_flag s5 "METH_VARARGS")), d'. split; [exact Ed|].
           unfold block_out, before_parse. rewrite K6. cbn [add_flag set_blocks w_blocks]. rewrite E7. reflexivity.
        -- right; left. apply on_blocks_fields in A3 as [st [E7 ->]]. cbn [w_blocks add_flag] in E7. apply C in E7.
           apply Nat.eqb_neq in Efp. split; [auto|]. split; [congruence|]. split; [auto|].
           split; [rewrite A4; cbn; now rewrite A2|]. unfold block_out, before_parse. rewrite K6. cbn [add_flag set_blocks w_blocks].
           rewrite E7. reflexivity.
      * cbn [andb negb] in A3. right; left. apply on_blocks_fields in A3 as [st [E7 ->]]. cbn [w_blocks add_flag] in E7. apply C in E7.
        split; [auto|]. split; [discriminate|]. split; [auto|].
        split; [rewrite A4; cbn; now rewrite A2|]. unfold block_out, before_parse. rewrite K6. cbn [add_flag set_blocks w_blocks].
        rewrite E7. reflexivity.
Qed.

(** ** The result (C08) *)
Lemma concat_nonempty l : (forall x, In x l -> x <> ""%string) -> l <> [] -> String.concat "" l <> ""%string.
Proof.
  destruct l as [|x r]; [congruence|]. intros H _ E. destruct r as [|y r]; cbn in E.
  - apply (H x); [now left|exact E].
  - assert (x <> ""%string) by (apply H; now left). destruct x; [congruence|discriminate].
Qed.
Lemma build_empty l : (forall i, In i l -> b_template i <> ""%string) ->
  params_are_empty (build_get_parameters l false) = true <-> l = [].
Proof.
  intros Ht. split; [|intros ->; reflexivity]. intros H. destruct l as [|i r]; [reflexivity|]. exfalso.
  unfold params_are_empty, build_get_parameters in H.
  destruct (flat_map b_values (i :: r)); [|discriminate]. apply String.eqb_eq in H.
  assert (N : String.concat "" (map b_template (i :: r)) <> ""%string).
  { apply concat_nonempty; [|discriminate]. intros x Hx. apply in_map_iff in Hx as [j [<- Hj]]. now apply Ht. }
  destruct (String.concat "" (map b_template (i :: r))) as [|a t]; [congruence|].
  unfold dquote in H. cbn in H. injection H as _ H. destruct t; discriminate.
Qed.

Theorem result_ok c s : generate_body c (init_state c) = Ok s ->
  (c_return c <> None \/ c_have_return c = true) ->
  let values := build_order (build_calls (handler_calls c)) in
  (forall i, In i values -> b_template i <> ""%string) ->
  exists pre cleanups,
    block_out s after_call = pre ++
      (match values with
       | [] => [ICode (py_frag "Py_INCREF(Py_None);"); ICode (py_frag "py_retval = Py_None;")]
       | _ => [ICode (py_frag ("py_retval = Py_BuildValue(" ++
                 join ", " (("(char *) " ++ dquote ++ String.concat "" (map b_template values) ++ dquote)%string
                            :: flat_map b_values values) ++ ");"))]
       end)
      ++ map ICode cleanups
      ++ [ICode {| f_text := "return py_retval;"; f_acts := [AReturn "py_retval"]; f_pass := [] |}].
Proof.
  intros H Hr values Ht. destruct (body_args _ _ H) as [s5 [s6 [s8 [_ [_ [_ [_ [_ [_ [B R]]]]]]]]]].
  fold values in B.
  assert (R' : build_result s8 = Ok s).
  { destruct (c_return c); [exact R|]. destruct (c_have_return c); [exact R|]. destruct Hr; congruence. }
  clear R. unfold build_result in R'. rewrite B in R'.
  match type of R' with context [emit _ _ (if ?b then ?x else ?y)] => remember (if b then x else y) as code eqn:Ecode end.
  match type of R' with bind ?r _ = _ => destruct r as [s1|] eqn:E1; [|discriminate] end. cbn [bind] in R'.
  match type of R' with bind ?r _ = _ => destruct r as [s2|] eqn:E2; [|discriminate] end. cbn [bind] in R'.
  apply on_blocks_fields in R' as [x [X ->]]. apply on_blocks_fields in E1 as [y [Y ->]]. apply on_blocks_fields in E2 as [z [Z ->]].
  cbn [w_blocks set_blocks] in *.
  apply emit_same in Y as [k [_ Y]]. unfold write_cleanup in Z. apply emit_same in Z as [k1 [Y' Z]].
  apply emit_same in X as [k2 [Z' X]]. rewrite Y in Y'. injection Y' as <-. rewrite Z in Z'. injection Z' as <-.
  unfold block_out. cbn [w_blocks set_blocks]. rewrite X. cbn [out addout].
  exists (out k), (cleanup_code y after_call). rewrite <- !app_assoc. do 2 f_equal.
  pose proof (build_empty values Ht) as E. rewrite Ecode. destruct values as [|v r].
  - reflexivity.
  - destruct (params_are_empty _); [|reflexivity]. destruct E as [E _]. now specialize (E eq_refl).
Qed.

(** Order of the values. *)
Lemma no_vclear_since h : (forall o, In o h -> o <> VClear) -> since_vclear h = h.
Proof.
  induction h as [|o r IH] using rev_ind; intros H; [reflexivity|]. rewrite since_vclear_snoc.
  rewrite IH by (intros x Hx; apply H, in_app_iff; now left).
  assert (o <> VClear) by (apply H, in_app_iff; right; now left). now destruct o.
Qed.
Lemma build_calls_no_clear l o : In o (build_calls l) -> o <> VClear.
Proof.
  unfold build_calls. rewrite in_flat_map. intros [a [_ Ha]]. destruct a; cbn in Ha; try contradiction.
  destruct Ha as [<-|[]]. discriminate.
Qed.
Lemma values_order l : build_order (build_calls l) = rev (vprepended (build_calls l)) ++ vappended (build_calls l).
Proof. unfold build_order. rewrite no_vclear_since; [reflexivity|apply build_calls_no_clear]. Qed.


Lemma only_appends_ok l : only_appends l -> vprepended (build_calls l) = [] /\ vappended (build_calls l) = builds l.
Proof.
  induction l as [|a r IH]; intros H; [now split|].
  assert (Hr : only_appends r) by (intros i p Hin; apply (H i p); now right).
  destruct (IH Hr) as [E1 E2]. unfold vprepended, vappended, build_calls, builds in *.
  destruct a; cbn; auto. assert (prepend = false) by (apply (H i prepend); now left). subst. cbn. rewrite E1, E2. auto.
Qed.

Lemma vprep_app a b : vprepended (a ++ b) = vprepended a ++ vprepended b.
Proof. apply flat_map_app. Qed.
Lemma vapp_app a b : vappended (a ++ b) = vappended a ++ vappended b.
Proof. apply flat_map_app. Qed.
Lemma build_calls_app a b : build_calls (a ++ b) = build_calls a ++ build_calls b.
Proof. apply flat_map_app. Qed.

Theorem order_prepend c h r : c_return c = Some h -> only_appends (early_calls c) -> only_appends (c_postcall c) ->
  build_calls (h_acts h) = [VAdd r true] ->
  build_order (build_calls (handler_calls c)) = r :: builds (early_calls c) ++ builds (c_postcall c).
Proof.
  intros Hr He Hp Hh. rewrite values_order. unfold handler_calls. rewrite Hr.
  rewrite (app_assoc (flat_map _ _)). fold (early_calls c). rewrite !build_calls_app, !vprep_app, !vapp_app, Hh.
  destruct (only_appends_ok _ He) as [-> ->]. destruct (only_appends_ok _ Hp) as [-> ->]. reflexivity.
Qed.
Theorem order_append c h r : c_return c = Some h -> only_appends (early_calls c) -> only_appends (c_postcall c) ->
  build_calls (h_acts h) = [VAdd r false] ->
  build_order (build_calls (handler_calls c)) = builds (early_calls c) ++ r :: builds (c_postcall c).
Proof.
  intros Hr He Hp Hh. rewrite values_order. unfold handler_calls. rewrite Hr.
  rewrite (app_assoc (flat_map _ _)). fold (early_calls c). rewrite !build_calls_app, !vprep_app, !vapp_app, Hh.
  destruct (only_appends_ok _ He) as [-> ->]. destruct (only_appends_ok _ Hp) as [-> ->]. reflexivity.
Qed.

Theorem forced_flags c s : generate_body c (init_state c) = Ok s ->
  (forall i, In i (parse_order (parse_calls (early_calls c))) -> p_template i <> ""%string) ->
  c_force_parse c = Some parse_tuple_and_keywords -> w_flags s = ["METH_VARARGS"; "METH_KEYWORDS"]%string.
Proof.
  intros H Ht Hf. destruct (flags_ok _ _ H Ht) as [req [opt [_ F]]]. cbv zeta in F.
  destruct F as [[_ [E _]]|[[_ [E _]]|[_ [kw [_ [E _]]]]]]; [congruence|contradiction|exact E].
Qed.
