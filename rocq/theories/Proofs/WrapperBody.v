(** C05 for whole wrapper bodies. *)
From Coq Require Import Lia.
From Verif.Model Require Import Py CodeSink Decls CodeBlock Params MiniC ForwardWrapper.
From Verif.Spec Require Import WrapperSpec HandlerSpec.
From Verif.Proofs Require Import BlockProofs WrapperProofs.
Open Scope list_scope.

Lemma hrun_app s a b : hrun s (a ++ b) = bind (hrun s a) (fun s' => hrun s' b).
Proof.
  revert s; induction a as [|x r IH]; intros s; cbn; [reflexivity|].
  destruct (hstep s x); cbn; [apply IH|reflexivity].
Qed.

Lemma convert_ok s h s' : convert s h = Ok s' -> hrun s (h_acts h) = Ok s' /\ h_raise h = None.
Proof.
  unfold convert. destruct (hrun s (h_acts h)) as [x|e].
  - destruct (h_raise h) as [e|]; [destruct e; discriminate|]. intros [= <-]. auto.
  - destruct e; discriminate.
Qed.
Lemma convert_all_ok l s s' : convert_all s l = Ok s' -> hrun s (flat_map h_acts l) = Ok s'.
Proof.
  revert s; induction l as [|h r IH]; intros s H; cbn in *; [exact H|].
  destruct (convert s h) as [s1|] eqn:E; [|discriminate]. apply convert_ok in E as [E _].
  rewrite hrun_app, E. cbn. now apply IH.
Qed.

Lemma disciplined_app a b : disciplined a -> disciplined b -> disciplined (a ++ b).
Proof.
  induction 1; cbn; intros; auto.
  - apply d_harmless; auto.
  - eapply d_acquire; eauto.
  - eapply d_check_acquire; eauto.
Qed.
Lemma disciplined_flat l : Forall (fun h => disciplined (h_acts h)) l -> disciplined (flat_map h_acts l).
Proof. induction 1; cbn; [constructor|now apply disciplined_app]. Qed.

Lemma no_late_app a b : no_late_cleanup (a ++ b) ->
  no_late_cleanup a /\ no_late_cleanup b /\ (has_check_after a -> no_before_cleanup b).
Proof.
  intros H. split; [|split].
  - intros l1 c f l2 -> g Hg. apply (H l1 c f (l2 ++ b)) with (g := g).
    + now rewrite <- app_assoc.
    + apply in_app_iff; now left.
  - intros l1 c f l2 -> g Hg. apply (H (a ++ l1) c f l2) with (g := g); [now rewrite app_assoc|auto].
  - intros [c [f Hin]] g Hg. apply in_split in Hin as [l1 [l2 ->]].
    apply (H l1 c f (l2 ++ b)) with (g := g).
    + now rewrite <- app_assoc.
    + apply in_app_iff; now right.
Qed.

(** The phases of generate_body. *)
Definition thread_phase (c : config) (s : wstate) : res (wstate * string) :=
  if c_unblock c then
    bind (thread_var s) (fun sv => let (s, v) := sv in
    bind (on_blocks s (emit (w_blocks s) after_call
      [ICode {| f_text := (nl ++ "if (" ++ v ++ ")" ++ nl ++ "     PyEval_RestoreThread(" ++ v ++ ");" ++ nl)%string;
                f_acts := [ARestoreThread]; f_pass := [] |}])) (fun s => Ok (s, v)))
  else Ok (s, ""%string).
Definition deprecated_phase (c : config) (s : wstate) : res wstate :=
  match c_deprecated c with
  | Some msg => on_blocks s (write_error_check (w_blocks s) before_call
       (py_frag ("PyErr_Warn(PyExc_DeprecationWarning, (char *) " ++ quoted msg ++ ")")) None)
  | None => Ok s end.
Definition save_phase (c : config) (v : string) (s : wstate) : res wstate :=
  if c_unblock c then
    on_blocks s (emit (w_blocks s) before_call
      [ICode {| f_text := (nl ++ "if (PyEval_ThreadsInitialized ())" ++ nl ++ "     " ++ v
                          ++ " = PyEval_SaveThread();" ++ nl)%string;
                f_acts := [ASaveThread]; f_pass := [] |}])
  else Ok s.
Definition return_phase (c : config) (s : wstate) : res wstate :=
  match c_return c, c_have_return c with
  | None, false =>
      if params_are_empty (build_get_parameters (w_build s) false) then
        bind (hrun s (c_postcall c)) (fun s => on_blocks s (write_cleanup (w_blocks s) after_call))
      else Err AssertionError
  | ret, _ =>
      bind (match ret with Some h => convert s h | None => Ok s end) (fun s =>
      bind (hrun s (c_postcall c)) (fun s => build_result s))
  end.

Lemma phases c s s' : generate_body c s = Ok s' ->
  exists s0 v s1 s2 s3 s4 s5 s6,
    thread_phase c s = Ok (s0, v) /\ convert_all s0 (c_params c) = Ok s1 /\ deprecated_phase c s1 = Ok s2 /\
    hrun s2 (c_precall c) = Ok s3 /\ save_phase c v s3 = Ok s4 /\ generate_call c s4 = Ok s5 /\
    generate_parse c s5 = Ok s6 /\ return_phase c s6 = Ok s'.
Proof.
  intros H. change (generate_body c s) with
    (bind (thread_phase c s) (fun sv => let (s, v) := sv in
     bind (convert_all s (c_params c)) (fun s =>
     bind (deprecated_phase c s) (fun s =>
     bind (hrun s (c_precall c)) (fun s =>
     bind (save_phase c v s) (fun s =>
     bind (generate_call c s) (fun s =>
     bind (generate_parse c s) (fun s => return_phase c s)))))))) in H.
  destruct (thread_phase c s) as [[s0 v]|] eqn:E0; [|discriminate]. cbn [bind] in H.
  destruct (convert_all s0 (c_params c)) as [s1|] eqn:E1; [|discriminate]. cbn [bind] in H.
  destruct (deprecated_phase c s1) as [s2|] eqn:E2; [|discriminate]. cbn [bind] in H.
  destruct (hrun s2 (c_precall c)) as [s3|] eqn:E3; [|discriminate]. cbn [bind] in H.
  destruct (save_phase c v s3) as [s4|] eqn:E4; [|discriminate]. cbn [bind] in H.
  destruct (generate_call c s4) as [s5|] eqn:E5; [|discriminate]. cbn [bind] in H.
  destruct (generate_parse c s5) as [s6|] eqn:E6; [|discriminate]. cbn [bind] in H.
  exists s0, v, s1, s2, s3, s4, s5, s6. split; [reflexivity|]. repeat (split; [assumption|]). exact H.
Qed.

(** Releasing everything. *)
Lemma seq_release l rs base : covers l rs -> seq_ok (rev rs ++ base) (map ICode (rev (map snd l))) base.
Proof.
  intros H; revert base; induction H as [|p f r l rs [x [E Hx]] _ IH]; intros base; cbn; [constructor|].
  rewrite map_app, <- app_assoc. eapply seq_ok_app; [apply IH|]. cbn. apply seq_one. left. rewrite E. split.
  - intros y [Hy|Hy]; [discriminate|]. eapply plain_noret; eauto.
  - constructor. now apply lifo_plain.
Qed.

Lemma exec_last l f ch n : (exists a w b, f_acts f = a ++ AReturn w :: b /\ noret a) ->
  snd (exec ch n (l ++ [ICode f])) <> Fell.
Proof.
  intros [a [w [b [E Hn]]]]. revert n; induction l as [|i r IH]; intros n.
  - cbn. rewrite E, run_acts_ret by exact Hn. discriminate.
  - specialize (IH (S n)).
    assert (K : forall t, snd (let (t', b) := run_acts t in
        if b then (t', Returned) else (t' ++ fst (exec ch (S n) (r ++ [ICode f])), snd (exec ch (S n) (r ++ [ICode f])))) <> Fell).
    { intros t. destruct (run_acts t) as [t' [|]]; [discriminate|exact IH]. }
    destruct i; cbn [app exec]; auto.
    + destruct (Nat.eqb (ch n) 0); auto.
    + destruct (Nat.eqb (ch n) 0); auto.
    + destruct (ch n); auto. destruct (nth_error catches n0) as [[? ?]|]; auto. discriminate.
Qed.

Section Body.
Variable c : config.
Hypothesis W : well_behaved c.
Let Hpe := wb_parse_error c W.
Let Her := wb_error c W.

Notation Inv := (Inv c).
Notation Shape := (Shape c).

Lemma init_Inv base : Inv base (init_state c) [] [].
Proof.
  eexists _, _, _. split.
  - split; try reflexivity; constructor.
  - constructor.
  - constructor.
  - constructor.
Qed.

Lemma Inv_emit_before base s rb ra l s' : Inv base s rb ra -> on_blocks s (emit (w_blocks s) before_call l) = Ok s' ->
  seq_ok (rev rb) l (rev rb) -> Inv base s' rb ra.
Proof.
  intros [k0 [k1 [k2 I]]] E Hl. pose proof (sh_blocks _ _ _ _ _ _ _ (iv_shape _ _ _ _ _ _ _ _ I)) as B.
  rewrite (emit_before _ _ _ _ _ B) in E. injection E as <-.
  exists k0, (addout k1 l), k2. now apply inv_emit_before.
Qed.
Lemma Inv_emit_after base s rb ra l s' : Inv base s rb ra -> on_blocks s (emit (w_blocks s) after_call l) = Ok s' ->
  seq_ok (rev ra ++ base) l (rev ra ++ base) -> Inv base s' rb ra.
Proof.
  intros [k0 [k1 [k2 I]]] E Hl. pose proof (sh_blocks _ _ _ _ _ _ _ (iv_shape _ _ _ _ _ _ _ _ I)) as B.
  rewrite (emit_after _ _ _ _ _ B) in E. injection E as <-.
  exists k0, k1, (addout k2 l). now apply inv_emit_after.
Qed.
Lemma Inv_same base s s' rb ra : w_blocks s' = w_blocks s -> Inv base s rb ra -> Inv base s' rb ra.
Proof. intros E [k0 [k1 [k2 I]]]. exists k0, k1, k2. eapply inv_same; eauto. Qed.

Lemma Inv_thread base s s' v rb ra : Inv base s rb ra -> thread_phase c s = Ok (s', v) -> Inv base s' rb ra.
Proof.
  intros I E. unfold thread_phase in E. destruct (c_unblock c); [|now injection E as <- <-].
  unfold thread_var in E. destruct (declare_variable _ _ _ _ _ _) as [d [x|]]; [|discriminate]. cbn [bind] in E.
  match type of E with bind ?r _ = _ => destruct r as [s1|] eqn:E1; [|discriminate] end.
  cbn [bind] in E. injection E as <- <-. eapply Inv_emit_after; [|exact E1|].
  - eapply Inv_same; [|exact I]. reflexivity.
  - apply seq_one. left. split; [intros y [|[]]; discriminate|]. apply lifo_other; try discriminate. constructor.
Qed.

Lemma Inv_deprecated base s s' rb ra : Inv base s rb ra -> deprecated_phase c s = Ok s' -> Inv base s' rb ra.
Proof.
  intros [k0 [k1 [k2 I]]] E. unfold deprecated_phase in E. destruct (c_deprecated c) as [m|].
  2:{ injection E as <-. now exists k0, k1, k2. }
  match type of E with on_blocks _ (write_error_check _ _ ?f _) = _ => set (cnd := f) in * end.
  assert (P : plain_frag cnd) by (repeat constructor).
  destruct (check_before c Hpe base s k0 k1 k2 rb ra cnd None I (proj1 P) Logic.I (rev rb)) as [it [E1 E2]].
  { apply falls_plain, Forall_app; split; apply P. }
  rewrite E1 in E. injection E as <-. exists k0, (addout k1 it), k2. now apply inv_emit_before.
Qed.

Lemma Inv_save base s s' v rb ra : Inv base s rb ra -> save_phase c v s = Ok s' -> Inv base s' rb ra.
Proof.
  intros I E. unfold save_phase in E. destruct (c_unblock c); [|now injection E as <-].
  eapply Inv_emit_before; [exact I|exact E|]. apply seq_one. left. split; [intros y [|[]]; discriminate|].
  apply lifo_other; try discriminate. constructor.
Qed.

Lemma until_plain l : Forall plain l -> Forall plain (until_throw l).
Proof. induction 1 as [|a l Ha _ IH]; cbn; [constructor|]. destruct a; constructor; auto. Qed.

Lemma Inv_call base s s' rb ra : Inv base s rb ra -> generate_call c s = Ok s' -> Inv base s' rb ra.
Proof.
  intros I E. unfold generate_call in E.
  pose proof (wb_call c W) as Hc. pose proof (wb_throw c W) as Ht.
  destruct (c_throw c) as [|e0 es] eqn:Ee.
  - eapply Inv_emit_before; [exact I|exact E|]. apply seq_one. left. now apply falls_plain.
  - eapply Inv_emit_before; [exact I|exact E|]. clear E. apply seq_one. cbn [item_ok].
    assert (Fc : frags_acts [{| f_text := c_call_text c (w_call s); f_acts := c_call_acts c; f_pass := [] |}] = c_call_acts c)
      by (unfold frags_acts; cbn; apply app_nil_r).
    rewrite Fc. split; [now apply falls_plain|].
    rewrite Forall_map. rewrite Forall_forall in Ht |- *. intros e Hin. cbn [snd].
    specialize (Ht e Hin). destruct I as [k0 [k1 [k2 I]]].
    destruct (shape_cleanup _ _ _ _ _ _ _ (iv_shape _ _ _ _ _ _ _ _ I)) as [_ [-> _]].
    destruct (covers_release _ _ (sh_c1 _ _ _ _ _ _ _ (iv_shape _ _ _ _ _ _ _ _ I))) as [R1 R2].
    exists (until_throw (c_call_acts c) ++ frags_acts (rev (map snd (actions k1))) ++ f_acts (snd e)), (c_catch_value c), [].
    rewrite frags_app. split; [|split].
    + unfold frags_acts at 2. cbn. rewrite <- !app_assoc. reflexivity.
    + apply noret_app; [intros x; apply plain_noret, until_plain, Hc|]. apply noret_app; [auto|].
      intros x; apply plain_noret, Ht.
    + eapply lifo_app; [apply lifo_plain, until_plain, Hc|]. specialize (R1 []). rewrite app_nil_r in R1.
      eapply lifo_app; [exact R1|]. apply lifo_plain, Ht.
Qed.

Lemma Inv_parse_check base s s' rb ra cnd : Inv base s rb ra ->
  on_blocks s (write_error_check (w_blocks s) before_parse (py_frag cnd) None) = Ok s' -> Inv base s' rb ra.
Proof.
  intros [k0 [k1 [k2 I]]] E. pose proof (iv_shape _ _ _ _ _ _ _ _ I) as Sh.
  pose proof (sh_blocks _ _ _ _ _ _ _ Sh) as B. unfold write_error_check in E. rewrite B in E at 1.
  cbn [nth_error before_parse] in E. rewrite (emit_parse _ _ _ _ _ B) in E. injection E as <-.
  eexists _, k1, k2. apply inv_emit_parse; [exact I|].
  apply seq_one. destruct (shape_cleanup _ _ _ _ _ _ _ Sh) as [-> _]. split.
  - apply falls_plain. repeat constructor.
  - cbn [opt_list app]. unfold frags_acts. cbn [flat_map]. rewrite app_nil_r, (sh_e0 _ _ _ _ _ _ _ Sh).
    change (f_acts (py_frag cnd) ++ f_acts (c_parse_error c)) with ([APy cnd] ++ [] ++ f_acts (c_parse_error c)).
    apply branch_ok; auto.
    + repeat constructor.
    + constructor.
    + intros x [].
Qed.

Lemma Inv_parse base s s' rb ra : Inv base s rb ra -> generate_parse c s = Ok s' -> Inv base s' rb ra.
Proof.
  intros I E. unfold generate_parse in E.
  destruct (parse_get_parameters (w_parse s)) as [ps|]; [|discriminate]. cbn [bind] in E.
  destruct (get_keywords (w_parse s)) as [kws|]; [|discriminate]. cbn [bind] in E.
  match type of E with (if ?b then _ else _) = _ => destruct b end.
  2:{ injection E as <-. eapply Inv_same; [|exact I]. reflexivity. }
  match type of E with (if ?b then _ else _) = _ => destruct b end.
  - eapply Inv_parse_check; [|exact E]. eapply Inv_same; [|exact I]. reflexivity.
  - destruct (declare_variable _ _ _ _ _ _) as [d [x|]]; [|discriminate]. cbn [bind] in E.
    match type of E with bind ?r _ = _ => destruct r as [s1|] eqn:E1; [|discriminate] end.
    cbn [bind] in E. injection E as <-. apply (Inv_same base s1); [reflexivity|].
    eapply Inv_parse_check; [|exact E1]. eapply Inv_same; [|exact I]. reflexivity.
Qed.

(** The final part. *)
Lemma body_blocks s k0 k1 k2 : w_blocks s = [k0; k1; k2] -> body s = out k0 ++ out k1 ++ out k2.
Proof. intros B. unfold body, block_out. now rewrite B. Qed.

Definition final_ok (s : wstate) : Prop :=
  (exists s', seq_ok [] (body s) s' /\ exists l f, body s = l ++ [ICode f] /\
     exists a w b, f_acts f = a ++ AReturn w :: b /\ noret a) \/
  (c_return c = None /\ c_have_return c = false /\ seq_ok [] (body s) []).

Lemma cleanup_final s s' rb ra : Inv (rev rb) s rb ra -> on_blocks s (write_cleanup (w_blocks s) after_call) = Ok s' ->
  exists k0 k1 k2, w_blocks s' = [k0; k1; k2] /\ seq_ok [] (body s') [].
Proof.
  intros [k0 [k1 [k2 I]]] E. pose proof (iv_shape _ _ _ _ _ _ _ _ I) as Sh.
  pose proof (sh_blocks _ _ _ _ _ _ _ Sh) as B. unfold write_cleanup in E.
  rewrite (emit_after _ _ _ _ _ B) in E. injection E as <-.
  eexists k0, k1, _. split; [reflexivity|].
  match goal with |- seq_ok _ (body (set_blocks _ [?x; ?y; ?z])) _ => rewrite (body_blocks (set_blocks s [x; y; z]) x y z eq_refl) end.
  destruct I as [_ I0 I1 I2]. eapply seq_ok_app; [exact I0|]. eapply seq_ok_app; [exact I1|].
  cbn [addout out]. eapply seq_ok_app; [exact I2|].
  destruct (shape_cleanup _ _ _ _ _ _ _ Sh) as [_ [_ ->]]. rewrite map_app.
  eapply seq_ok_app.
  - apply seq_release. apply (sh_c2 _ _ _ _ _ _ _ Sh).
  - rewrite <- (app_nil_r (rev rb)). apply seq_release. apply (sh_c1 _ _ _ _ _ _ _ Sh).
Qed.

Lemma build_final s s' rb ra : Inv (rev rb) s rb ra -> build_result s = Ok s' -> 
  exists s'', seq_ok [] (body s') s'' /\ exists l f, body s' = l ++ [ICode f] /\
     exists a w b, f_acts f = a ++ AReturn w :: b /\ noret a.
Proof.
  intros I E. unfold build_result in E.
  match type of E with bind ?r _ = _ => destruct r as [s1|] eqn:E1; [|discriminate] end. cbn [bind] in E.
  assert (I1 : Inv (rev rb) s1 rb ra).
  { eapply Inv_emit_after; [exact I|exact E1|].
    destruct (params_are_empty _).
    - econstructor; [left; apply falls_plain; repeat constructor|]. apply seq_one. left; apply falls_plain; repeat constructor.
    - apply seq_one. left; apply falls_plain; repeat constructor. }
  match type of E with bind ?r _ = _ => destruct r as [s2|] eqn:E2; [|discriminate] end. cbn [bind] in E.
  destruct (cleanup_final _ _ _ _ I1 E2) as [k0 [k1 [k2 [B Q]]]].
  rewrite (emit_after _ _ _ _ _ B) in E. injection E as <-.
  rewrite (body_blocks _ _ _ _ B) in Q.
  match goal with |- context [body (set_blocks ?s [?x; ?y; ?z])] => rewrite (body_blocks (set_blocks s [x; y; z]) x y z eq_refl) end. cbn [addout out].
  rewrite (app_assoc (out k1)), (app_assoc (out k0)). 
  exists []. split.
  - eapply seq_ok_app; [exact Q|]. apply seq_one. right.
    exists [], "py_retval"%string, []. split; [reflexivity|]. split; [intros x []|constructor].
  - eexists _, _. split; [reflexivity|]. exists [], "py_retval"%string, []. split; [reflexivity|intros x []].
Qed.

Theorem body_ok : forall s, generate_body c (init_state c) = Ok s -> final_ok s.
Proof.
  intros s H. destruct (phases _ _ _ H) as [s0 [v [s1 [s2 [s3 [s4 [s5 [s6 [E0 [E1 [E2 [E3 [E4 [E5 [E6 E7]]]]]]]]]]]]]]].
  apply convert_all_ok in E1.
  pose proof (disciplined_flat _ (wb_params c W)) as D1. pose proof (wb_precall c W) as D2.
  pose proof (wb_postcall c W) as D4.
  set (rl := match c_return c with Some h => h_acts h | None => [] end).
  assert (D3 : disciplined rl).
  { unfold rl. destruct (c_return c) as [h|] eqn:Er; [|constructor]. now apply (wb_return c W). }
  pose proof (wb_late c W) as Late. unfold handler_calls in Late. fold rl in Late.
  apply no_late_app in Late as [N1 [Late C1]]. apply no_late_app in Late as [N2 [Late C2]].
  apply no_late_app in Late as [N3 [N4 C3]].
  (* the run of the return handler and the hook *)
  assert (R : exists s7 s8, hrun s6 rl = Ok s7 /\ hrun s7 (c_postcall c) = Ok s8 /\
    ((build_result s8 = Ok s) \/
     (c_return c = None /\ c_have_return c = false /\ on_blocks s8 (write_cleanup (w_blocks s8) after_call) = Ok s))).
  { unfold return_phase in E7. unfold rl. destruct (c_return c) as [h|].
    - destruct (convert s6 h) as [s7|] eqn:Ec; [|discriminate]. apply convert_ok in Ec as [Ec _]. cbn [bind] in E7.
      destruct (hrun s7 (c_postcall c)) as [s8|] eqn:Ep; [|discriminate]. cbn [bind] in E7. eauto 8.
    - destruct (c_have_return c).
      + cbn [bind] in E7. destruct (hrun s6 (c_postcall c)) as [s8|] eqn:Ep; [|discriminate]. cbn [bind] in E7.
        exists s6, s8. split; [reflexivity|]. auto.
      + destruct (params_are_empty _); [|discriminate]. cbn [bind] in E7.
        destruct (hrun s6 (c_postcall c)) as [s8|] eqn:Ep; [|discriminate]. cbn [bind] in E7.
        exists s6, s8. split; [reflexivity|]. auto 8. }
  destruct R as [s7 [s8 [E8 [E9 E10]]]].
  (* shapes *)
  pose proof (Inv_Shape _ _ _ _ _ (Inv_thread _ _ _ _ _ _ (init_Inv []) E0)) as S0.
  destruct (hrun_shape c _ D1 _ _ _ _ E1 S0) as [rb1 [ra1 [S1 _]]].
  assert (S2 : Shape s2 rb1 ra1).
  { unfold deprecated_phase in E2. destruct (c_deprecated c); [|now injection E2 as <-].
    unfold on_blocks in E2. destruct (write_error_check _ _ _ _) eqn:X; [|discriminate]. injection E2 as <-.
    eapply Shape_check; eauto. }
  destruct (hrun_shape c _ D2 _ _ _ _ E3 S2) as [rb3 [ra3 [S3 Y3]]].
  assert (S4 : Shape s4 rb3 ra3).
  { unfold save_phase in E4. destruct (c_unblock c); [|now injection E4 as <-].
    unfold on_blocks in E4. destruct (emit _ _ _) eqn:X; [|discriminate]. injection E4 as <-. eapply Shape_emit; eauto. }
  assert (S5 : Shape s5 rb3 ra3).
  { unfold generate_call in E5. destruct (c_throw c);
    unfold on_blocks in E5; (destruct (emit _ _ _) eqn:X; [|discriminate]); injection E5 as <-; eapply Shape_emit; eauto. }
  assert (S6 : Shape s6 rb3 ra3).
  { assert (P : forall a b cnd, Shape a rb3 ra3 -> on_blocks a (write_error_check (w_blocks a) before_parse cnd None) = Ok b -> Shape b rb3 ra3).
    { intros a b cnd Sa X. unfold on_blocks in X. destruct (write_error_check _ _ _ _) eqn:Y; [|discriminate]. injection X as <-.
      eapply Shape_check; eauto. }
    unfold generate_parse in E6.
    destruct (parse_get_parameters (w_parse s5)); [|discriminate]. cbn [bind] in E6.
    destruct (get_keywords (w_parse s5)); [|discriminate]. cbn [bind] in E6.
    match type of E6 with (if ?b then _ else _) = _ => destruct b end.
    2:{ injection E6 as <-. eapply Shape_same; [|exact S5]. reflexivity. }
    match type of E6 with (if ?b then _ else _) = _ => destruct b end.
    - eapply P; [|exact E6]. eapply Shape_same; [|exact S5]. reflexivity.
    - destruct (declare_variable _ _ _ _ _ _) as [d [x|]]; [|discriminate]. cbn [bind] in E6.
      match type of E6 with bind ?r _ = _ => destruct r as [t1|] eqn:F1; [|discriminate] end.
      cbn [bind] in E6. injection E6 as <-. apply (Shape_same c t1); [reflexivity|].
      eapply P; [|exact F1]. eapply Shape_same; [|exact S5]. reflexivity. }
  destruct (hrun_shape c _ D3 _ _ _ _ E8 S6) as [rb7 [ra7 [S7 Y7]]].
  destruct (hrun_shape c _ D4 _ _ _ _ E9 S7) as [rb8 [ra8 [S8 Y8]]].
  (* invariant with base := rev rb8 *)
  assert (NB : forall a b, no_before_cleanup (a ++ b) -> no_before_cleanup a /\ no_before_cleanup b).
  { intros a b Q. split; intros g Hg; apply (Q g), in_app_iff; auto. }
  assert (I1 : Inv (rev rb8) s1 rb1 ra1).
  { refine (hrun_ok c Hpe Her _ D1 _ _ _ _ _ _ _ E1 (Inv_thread _ _ _ _ _ _ (init_Inv _) E0) S1 N1 _).
    intros Q. apply C1 in Q. apply NB in Q as [Q2 Q]. apply NB in Q as [Q3 Q4].
    rewrite (Y8 Q4), (Y7 Q3), (Y3 Q2). reflexivity. }
  pose proof (Inv_deprecated _ _ _ _ _ I1 E2) as I2.
  assert (I3 : Inv (rev rb8) s3 rb3 ra3).
  { refine (hrun_ok c Hpe Her _ D2 _ _ _ _ _ _ _ E3 I2 S3 N2 _).
    intros Q. apply C2 in Q. apply NB in Q as [Q3 Q4]. rewrite (Y8 Q4), (Y7 Q3). reflexivity. }
  pose proof (Inv_parse _ _ _ _ _ (Inv_call _ _ _ _ _ (Inv_save _ _ _ _ _ _ I3 E4) E5) E6) as I6.
  assert (I7 : Inv (rev rb8) s7 rb7 ra7).
  { refine (hrun_ok c Hpe Her _ D3 _ _ _ _ _ _ _ E8 I6 S7 N3 _). intros Q. apply C3 in Q. now rewrite (Y8 Q). }
  assert (I8 : Inv (rev rb8) s8 rb8 ra8).
  { refine (hrun_ok c Hpe Her _ D4 _ _ _ _ _ _ _ E9 I7 S8 N4 _). auto. }
  destruct E10 as [E10|[Hn [Hh E10]]].
  - left. eapply build_final; eauto.
  - right. split; [exact Hn|]. split; [exact Hh|]. now destruct (cleanup_final _ _ _ _ I8 E10) as [? [? [? [_ Q]]]].
Qed.

Theorem releases_all : forall s, generate_body c (init_state c) = Ok s -> forall ch,
  match snd (exec ch 0 (body s)) with
  | Returned => clean_return (fst (exec ch 0 (body s)))
  | Fell => c_return c = None /\ c_have_return c = false /\ lifo [] (fst (exec ch 0 (body s))) []
  | Escaped => True
  end.
Proof.
  intros s H ch. destruct (body_ok s H) as [[s' [Q [l [f [E F]]]]]|[Hn [Hh Q]]].
  - pose proof (exec_ok _ _ _ Q ch 0) as G. unfold good_run in G.
    pose proof (exec_last l f ch 0 F) as L. rewrite <- E in L.
    destruct (snd (exec ch 0 (body s))); [congruence| |exact I].
    destruct G as [t0 [w [-> [G1 G2]]]]. exists t0, w. auto.
  - pose proof (exec_ok _ _ _ Q ch 0) as G. unfold good_run in G.
    destruct (snd (exec ch 0 (body s))); [| |exact I].
    + destruct G as [_ G]. auto.
    + destruct G as [t0 [w [-> [G1 G2]]]]. exists t0, w. auto.
Qed.
End Body.
