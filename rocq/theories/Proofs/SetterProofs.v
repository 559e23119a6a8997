(** C35: setters and converters. *)
From Coq Require Import Lia.
From Verif.Model Require Import Py CodeSink Decls CodeBlock Params MiniC ForwardWrapper ReverseWrapper.
From Verif.Spec Require Import WrapperSpec HandlerSpec SetterSpec.
From Verif.Proofs Require Import BlockProofs WrapperProofs WrapperBody LockProofs GenProofs ReverseProofs ReverseTop.
Open Scope list_scope.

(** Every check ends with the error return, and nothing else returns. *)
Section Err.
Variable E : frag.
Definition err_item (i : item frag) : Prop :=
  match i with
  | ICode f => noret (f_acts f)
  | IIndent _ | IUnindent => True
  | IIf c b => noret (f_acts c ++ f_pass c) /\ noret (f_acts c ++ frags_acts b)
  | ICheck c b => noret (f_acts c ++ f_pass c) /\ exists x, b = x ++ [E] /\ noret (frags_acts x)
  | ITry _ _ => False
  end.
Definition err_block (k : block frag) : Prop :=
  Forall err_item (out k) /\ Forall (fun f => noret (f_acts f)) (map snd (actions k)) /\ err_ret k = E.
Definition err_store (st : store frag) : Prop := forall b k, nth_error st b = Some k -> err_block k.

Lemma noret_frags l : Forall (fun f => noret (f_acts f)) l -> noret (frags_acts l).
Proof. unfold frags_acts. induction 1 as [|f l Hf _ IH]; cbn; [intros x []|]. now apply noret_app. Qed.

Lemma err_put st b k k' : nth_error st b = Some k -> err_store st -> err_block k' -> err_store (put st b k').
Proof.
  intros Hk H Hk' i x Hx. assert (Hb : b < length st) by (apply nth_error_Some; congruence).
  destruct (Nat.eq_dec i b) as [->|Hn]; [rewrite put_same in Hx by exact Hb; congruence|].
  rewrite put_other in Hx by auto. eauto.
Qed.
Lemma err_emit st b l st' : emit st b l = Ok st' -> err_store st -> Forall err_item l -> err_store st'.
Proof.
  unfold emit. destruct (nth_error st b) as [k|] eqn:Ek; [|discriminate]. intros H HS Hl.
  apply (f_equal (fun x => match x with Ok y => y | Err _ => st end)) in H. cbn beta iota in H. subst st'.
  eapply err_put; [exact Ek|exact HS|]. destruct (HS _ _ Ek) as [A [B C]]. split; [|split; [exact B|exact C]].
  cbn. now apply Forall_app.
Qed.
Lemma err_cleanup st b : err_store st -> Forall (fun f => noret (f_acts f)) (cleanup_code st b).
Proof.
  intros HS. unfold cleanup_code. generalize (S (length st)) as fuel. intros fuel. revert b.
  induction fuel as [|f IH]; intros b; cbn [get_cleanup_code]; [constructor|].
  destruct (nth_error st b) as [k|] eqn:Ek; [|constructor]. apply Forall_app. split.
  - apply Forall_forall. intros x Hx. apply in_rev in Hx. destruct (HS _ _ Ek) as [_ [A _]]. rewrite Forall_forall in A.
    refine (A x _). apply in_map_iff in Hx as [y [<- Hy]]. apply in_map, (sort_in (fun _ => True)), Hy.
  - destruct (pred k); [apply IH|constructor].
Qed.
Lemma err_check st b c f st' : write_error_check st b c f = Ok st' -> err_store st -> noret (f_acts c ++ f_pass c) ->
  Forall (fun f => noret (f_acts f)) (opt_list f) -> err_store st'.
Proof.
  unfold write_error_check. destruct (nth_error st b) as [k|] eqn:Ek; [|discriminate]. intros H HS Hc Hf.
  eapply err_emit; [exact H|exact HS|]. constructor; [|constructor]. split; [exact Hc|].
  destruct (HS _ _ Ek) as [_ [_ Ee]]. rewrite Ee.
  exists (opt_list f ++ cleanup_code st b). rewrite app_assoc. split; [reflexivity|].
  apply noret_frags, Forall_app. split; [exact Hf|now apply err_cleanup].
Qed.
Lemma err_add st b f st' p : add_cleanup_code st b f = Ok (st', p) -> err_store st -> noret (f_acts f) -> err_store st'.
Proof.
  unfold add_cleanup_code. destruct (nth_error st b) as [k|] eqn:Ek; [|discriminate]. intros H HS Hf.
  apply (f_equal (fun x => match x with Ok y => fst y | Err _ => st end)) in H. cbn beta iota in H. cbn [fst] in H. subst st'.
  eapply err_put; [exact Ek|exact HS|]. destruct (HS _ _ Ek) as [A [B C]]. split; [exact A|split; [|exact C]].
  cbn. rewrite map_app. apply Forall_app. split; [exact B|]. constructor; [exact Hf|constructor].
Qed.

Lemma plain_nr l : Forall plain l -> noret l.
Proof. intros H x. now apply plain_noret. Qed.
Lemma plain_opt_nr o : plain_opt o -> Forall (fun f => noret (f_acts f)) (opt_list o).
Proof. destruct o; cbn; intros H; constructor; auto. now apply plain_nr, H. Qed.

Lemma err_harmless a s s' : harmless a -> hstep s a = Ok s' -> err_store (w_blocks s) -> err_store (w_blocks s').
Proof.
  intros Ha H HS. destruct a; cbn [hstep harmless] in *; try (now destruct Ha);
    try (apply on_blocks_fields in H as [st [H ->]]; cbn [w_blocks set_blocks]).
  - destruct (declare_variable _ _ _ _ _ _) as [d [v|]]; [|discriminate]. injection H as <-. exact HS.
  - injection H as <-. exact HS.
  - eapply err_emit; [exact H|exact HS|]. constructor; [|constructor]. apply plain_nr, Ha.
  - eapply err_emit; [exact H|exact HS|]. repeat constructor.
  - eapply err_emit; [exact H|exact HS|]. repeat constructor.
  - destruct Ha as [[H1 H2] Hb]. eapply err_emit; [exact H|exact HS|]. constructor; [|constructor].
    split; apply plain_nr, Forall_app; split; auto. now apply frags_plain.
  - destruct Ha as [[H1 H2] Hf]. eapply err_check; [exact H|exact HS| |now apply plain_opt_nr]. apply plain_nr, Forall_app; auto.
  - injection H as <-. exact HS.
  - injection H as <-. exact HS.
  - injection H as <-. exact HS.
Qed.
Lemma err_cleanup_step w f s s' : noret (f_acts f) -> hstep s (XCleanup w f) = Ok s' -> err_store (w_blocks s) -> err_store (w_blocks s').
Proof.
  intros Hf H HS. cbn [hstep] in H. destruct (add_cleanup_code _ _ _) as [[st p]|] eqn:Ea; [|discriminate]. injection H as <-.
  cbn. eapply err_add; eauto.
Qed.
Lemma err_run l : disciplined l -> forall s s', hrun s l = Ok s' -> err_store (w_blocks s) -> err_store (w_blocks s').
Proof.
  induction 1 as [|a l Ha Hl IH|w f r cl l Hacq Hrel Hl IH|w cnd fail r cl l Hacq Hf Hrel Hl IH]; intros s s' Hr HS.
  - now injection Hr as <-.
  - cbn [hrun] in Hr. destruct (hstep s a) as [s1|] eqn:E1; [|discriminate]. cbn [bind] in Hr.
    eapply IH; [exact Hr|]. eapply err_harmless; eauto.
  - cbn [hrun] in Hr. destruct (hstep s (XCode w f)) as [s1|] eqn:E1; [|discriminate]. cbn [bind] in Hr.
    destruct (hstep s1 (XCleanup w cl)) as [s2|] eqn:E2; [|discriminate]. cbn [bind] in Hr.
    eapply IH; [exact Hr|]. eapply err_cleanup_step; [|exact E2|].
    + eapply releases_noret; eauto.
    + cbn [hstep] in E1. apply on_blocks_fields in E1 as [st [E1 ->]]. cbn. eapply err_emit; [exact E1|exact HS|].
      constructor; [|constructor]. eapply acquires_noret; eauto.
  - cbn [hrun] in Hr. destruct (hstep s (XCheck w cnd fail)) as [s1|] eqn:E1; [|discriminate]. cbn [bind] in Hr.
    destruct (hstep s1 (XCleanup w cl)) as [s2|] eqn:E2; [|discriminate]. cbn [bind] in Hr.
    eapply IH; [exact Hr|]. eapply err_cleanup_step; [|exact E2|].
    + eapply releases_noret; eauto.
    + cbn [hstep] in E1. apply on_blocks_fields in E1 as [st [E1 ->]]. cbn. destruct Hacq as [Hp Ep].
      eapply err_check; [exact E1|exact HS| |now apply plain_opt_nr].
      rewrite Ep. apply noret_app; [now apply plain_nr|]. intros x [|[]]; discriminate.
Qed.

Hypothesis HE : returns E.
Lemma exec_err l : Forall err_item l -> forall ch n,
  (snd (exec ch n l) = Fell /\ noret (fst (exec ch n l))) \/
  (snd (exec ch n l) = Returned /\ exists t, fst (exec ch n l) = t ++ f_acts E /\ noret t).
Proof.
  destruct HE as [El [Ew [HE1 HE2]]].
  induction 1 as [|i r Hi Hr IH]; intros ch n; [left; split; [reflexivity|intros x []]|].
  specialize (IH ch (S n)). cbn [exec]. set (k := exec ch (S n) r) in *.
  assert (KQ : forall t, noret t ->
    let x := (if false then (t, Returned) else (t ++ fst k, snd k)) in
    (snd x = Fell /\ noret (fst x)) \/
    (snd x = Returned /\ exists t1, fst x = t1 ++ f_acts E /\ noret t1)).
  { intros t Ht. cbn. destruct IH as [[-> IH]|[-> [t1 [-> IH]]]].
    - left. split; [reflexivity|now apply noret_app].
    - right. split; [reflexivity|]. exists (t ++ t1). rewrite app_assoc. split; [reflexivity|now apply noret_app]. }
  destruct i as [f|m| |c b|c b|b cs]; cbn [err_item] in Hi.
  - rewrite (run_acts_noret _ Hi). now apply KQ.
  - exact IH.
  - exact IH.
  - destruct Hi as [Hc [x [-> Hx]]]. destruct (Nat.eqb (ch n) 0).
    + rewrite run_acts_noret by exact Hc. now apply KQ.
    + right. assert (FA : frags_acts (x ++ [E]) = frags_acts x ++ El ++ [AReturn Ew]).
      { rewrite frags_app. f_equal. unfold frags_acts. cbn [flat_map]. now rewrite app_nil_r. }
      rewrite FA, !app_assoc. rewrite run_acts_ret.
      * cbn [fst snd]. split; [reflexivity|]. exists (f_acts c ++ frags_acts x). rewrite HE1, !app_assoc. split; [reflexivity|].
        apply noret_app; [|exact Hx]. intros y Hy. apply (Hc y), in_app_iff. now left.
      * apply noret_app; [apply noret_app; [|exact Hx]|now apply plain_nr].
        intros y Hy. apply (Hc y), in_app_iff. now left.
  - destruct Hi as [Hc Hb]. destruct (Nat.eqb (ch n) 0).
    + rewrite run_acts_noret by exact Hc. now apply KQ.
    + rewrite run_acts_noret by exact Hb. now apply KQ.
  - destruct Hi.
Qed.
End Err.

Lemma exec_codes l ch n : Forall (fun f => noret (f_acts f)) l -> exec ch n (map ICode l) = (frags_acts l, Fell).
Proof.
  intros H; revert n; induction H as [|f l Hf _ IH]; intros n; cbn [map exec]; [reflexivity|].
  rewrite (run_acts_noret _ Hf), IH. reflexivity.
Qed.

Section Setter.
Variable t : setter.
Hypothesis W : setter_well_behaved t.
Let e := t_error t.

Lemma setter_start_blocks : w_blocks (rinit e) = start_blocks e [] [].
Proof. reflexivity. Qed.
Lemma setter_start_Inv base : Inv (dummy e) base (rinit e) [] [].
Proof.
  eexists _, _, _. split.
  - split; try reflexivity; constructor.
  - constructor.
  - constructor.
  - constructor.
Qed.
Lemma setter_start_err : err_store e (w_blocks (rinit e)).
Proof.
  intros b k H. rewrite setter_start_blocks in H. destruct b as [|[|[|b]]]; cbn in H; try discriminate;
    try (injection H as <-; repeat split; constructor). destruct b; discriminate.
Qed.

Definition setter_list (chk : hact) : list hact :=
  (pack_code ++ t_predeclare t) ++ h_acts (t_return t) ++ [chk].

Lemma setter_disciplined p : disciplined (setter_list (XCheck Before (parse_cond "PyArg_ParseTuple" p) None)).
Proof.
  unfold setter_list. apply disciplined_app; [apply disciplined_app|apply disciplined_app].
  - unfold pack_code. apply d_harmless; [exact I|].
    apply (d_acquire Before _ r_result); [exists [APy "Py_BuildValue"]; split; [reflexivity|repeat constructor]|exists []; split; [reflexivity|constructor]|constructor].
  - pose proof (tw_predeclare _ W) as H. induction H as [|a l Ha _ IH]; [constructor|]. apply d_harmless; [|exact IH].
    destruct a; try destruct Ha; exact I.
  - apply (tw_handler _ W).
  - apply d_harmless; [|constructor]. repeat constructor.
Qed.
Lemma after_disciplined : disciplined (map (XCode After) (t_after t)).
Proof. pose proof (tw_after _ W) as H. induction H; cbn; [constructor|]. now apply d_harmless. Qed.

Lemma setter_late p : no_late_cleanup (setter_list (XCheck Before (parse_cond "PyArg_ParseTuple" p) None) ++ map (XCode After) (t_after t)).
Proof.
  unfold setter_list. rewrite <- (app_assoc (pack_code ++ t_predeclare t)), <- (app_assoc (h_acts (t_return t))).
  apply no_late_sandwich.
  - intros c f H. apply in_app_iff in H as [H|H].
    + unfold pack_code in H. repeat (destruct H as [H|H]; [discriminate|]). exact H.
    + pose proof (tw_predeclare _ W) as P. rewrite Forall_forall in P. now apply P in H.
  - apply (tw_late _ W).
  - intros g H. apply in_app_iff in H as [[H|[]]|H]; [discriminate|]. apply in_map_iff in H as [f [H _]]. discriminate.
Qed.

Lemma emits_after l : forall s s', hrun s (map (XCode After) l) = Ok s' ->
  forall k0 k1 k2, w_blocks s = [k0; k1; k2] -> w_blocks s' = [k0; k1; addout k2 (map ICode l)].
Proof.
  induction l as [|f l IH]; intros s s' H k0 k1 k2 B; cbn [map hrun] in H.
  - injection H as <-. rewrite B. cbn. now rewrite addout_nil.
  - cbn [hstep blk] in H. rewrite (emit_after _ _ _ _ _ B) in H. cbn [on_blocks bind] in H.
    rewrite (IH _ _ H k0 k1 (addout k2 [ICode f]) eq_refl). unfold addout. cbn. now rewrite <- app_assoc.
Qed.

Theorem setter_ok s : setter_code t = Ok s -> forall ch,
  snd (exec ch 0 (rbody s)) = Returned /\ clean_return (fst (exec ch 0 (rbody s))) /\
  exists t1, noret t1 /\
    ((exists rel, fst (exec ch 0 (rbody s)) = t1 ++ frags_acts (t_after t) ++ rel ++ f_acts (t_success t) /\
                  noret rel) \/
     fst (exec ch 0 (rbody s)) = t1 ++ f_acts (t_error t)).
Proof.
  unfold setter_code. fold e. intros H.
  assert (X0 : hrun (rinit e) (gil_code true) = Ok (rinit e)) by reflexivity. rewrite X0 in H. cbn [bind] in H.
  destruct (hrun (rinit e) (pack_code ++ t_predeclare t)) as [s1|] eqn:E1; [|discriminate]. cbn [bind] in H.
  destruct (run_handler s1 (t_return t)) as [s2|] eqn:E2; [|discriminate]. cbn [bind] in H. apply run_handler_ok in E2.
  destruct (parse_get_parameters (w_parse s2)) as [p|]; [|discriminate]. cbn [bind] in H.
  match type of H with bind (hstep _ ?q) _ = _ => set (chk := q) in *; destruct (hstep s2 chk) as [s3|] eqn:E3; [|discriminate] end. cbn [bind] in H.
  destruct (hrun s3 (map (XCode After) (t_after t))) as [s4|] eqn:E4; [|discriminate]. cbn [bind] in H.
  match type of H with bind ?q _ = _ => destruct q as [s5|] eqn:E5; [|discriminate] end. cbn [bind] in H.
  assert (R3 : hrun (rinit e) (setter_list chk) = Ok s3).
  { unfold setter_list. rewrite hrun_app, E1. cbn [bind]. rewrite hrun_app, E2. cbn [bind hrun]. rewrite E3. reflexivity. }
  assert (D3 : disciplined (setter_list chk)) by apply setter_disciplined.
  assert (R4 : hrun (rinit e) (setter_list chk ++ map (XCode After) (t_after t)) = Ok s4) by (rewrite hrun_app, R3; exact E4).
  assert (D4 : disciplined (setter_list chk ++ map (XCode After) (t_after t))) by (apply disciplined_app; [exact D3|apply after_disciplined]).
  pose proof (tw_error _ W) as He. fold e in He.
  (* release *)
  destruct (hrun_shape (dummy e) _ D4 _ _ _ _ R4 (Inv_Shape _ _ _ _ _ (setter_start_Inv []))) as [rb [ra [S4 _]]].
  assert (I4 : Inv (dummy e) (rev rb) s4 rb ra).
  { refine (hrun_ok (dummy e) He He _ D4 _ _ _ _ _ _ _ R4 (setter_start_Inv _) S4 (setter_late _) _). auto. }
  destruct (cleanup_final (dummy e) _ _ _ _ I4 E5) as [j0 [j1 [j2 [B5 SO]]]].
  (* error form *)
  pose proof (err_run e _ D3 _ _ R3 setter_start_err) as ER3.
  destruct (hrun_shape (dummy e) _ D3 _ _ _ _ R3 (Inv_Shape _ _ _ _ _ (setter_start_Inv []))) as [rb3 [ra3 [[k0 [k1 [k2 Sh3]]] _]]].
  pose proof (sh_blocks _ _ _ _ _ _ _ Sh3) as B3.
  pose proof (emits_after _ _ _ E4 _ _ _ B3) as B4.
  assert (O0 : out k0 = []).
  { assert (Z : nth_error (w_blocks s3) 0 = nth_error (w_blocks (rinit e)) 0) by (eapply (hrun_other _ 0); [apply never_0|exact R3]).
    rewrite B3, setter_start_blocks in Z. cbn in Z. injection Z as ->. reflexivity. }
  pose proof (err_run e _ D4 _ _ R4 setter_start_err) as ER4.
  pose proof (err_cleanup e (w_blocks s4) after_call ER4) as CL.
  set (cl := cleanup_code (w_blocks s4) after_call) in *.
  assert (B5' : w_blocks s5 = [k0; k1; addout (addout k2 (map ICode (t_after t))) (map ICode cl)]).
  { apply on_blocks_fields in E5 as [st [E5 ->]]. cbn. unfold write_cleanup in E5. fold cl in E5. rewrite B4 in E5.
    rewrite (emit_after _ k0 k1 _ _ eq_refl) in E5. now injection E5 as <-. }
  assert (B6 : w_blocks s = [k0; k1; addout (addout (addout k2 (map ICode (t_after t))) (map ICode cl)) [ICode (t_success t)]]).
  { apply on_blocks_fields in H as [st [H ->]]. cbn. rewrite B5' in H. rewrite (emit_after _ k0 k1 _ _ eq_refl) in H. now injection H as <-. }
  assert (HB : rbody s = (out k1 ++ out k2) ++ map ICode (t_after t) ++ map ICode cl ++ [ICode (t_success t)]).
  { unfold rbody, block_out. rewrite B6. cbn. now rewrite <- !app_assoc. }
  destruct (tw_success _ W) as [w Hw].
  assert (SO6 : seq_ok [] (rbody s) []).
  { rewrite HB. rewrite B5 in B5'. injection B5' as -> -> ->. rewrite (body_blocks _ _ _ _ B5), O0 in SO. cbn [app addout out] in SO.
    rewrite !app_assoc in *. eapply seq_ok_app; [exact SO|]. apply seq_one. right. exists [], w, []. rewrite Hw.
    split; [reflexivity|]. split; [intros ? []|constructor]. }
  intros ch. pose proof (exec_ok _ _ _ SO6 ch 0) as GR.
  assert (EI : Forall (err_item e) (out k1 ++ out k2)).
  { apply Forall_app. split; [apply (ER3 1 k1)|apply (ER3 2 k2)]; rewrite B3; reflexivity. }
  assert (AF : Forall (fun f => noret (f_acts f)) (t_after t)).
  { eapply Forall_impl; [|apply (tw_after _ W)]. intros f [Hf _]. now apply plain_nr. }
  set (o := out k1 ++ out k2) in *.
  assert (K : (exec ch 0 (rbody s) = (fst (exec ch 0 o) ++ frags_acts (t_after t) ++ frags_acts cl ++ f_acts (t_success t), Returned)
                /\ noret (fst (exec ch 0 o))) \/
              exists t1, exec ch 0 (rbody s) = (t1 ++ f_acts e, Returned) /\ noret t1).
  { rewrite HB. clear HB GR SO6. rewrite exec_app.
    destruct (exec_err e He _ EI ch 0) as [[F N]|[F [t1 [T1 N1]]]]; rewrite F.
    - left. split; [|exact N]. rewrite exec_app, exec_codes by exact AF. cbn [fst snd].
      rewrite exec_app, exec_codes by exact CL. cbn [fst snd]. cbn [exec]. rewrite Hw. reflexivity.
    - right. exists t1. rewrite T1. auto. }
  destruct K as [[K N]|[t1 [K N]]]; rewrite K in *; cbn [fst snd good_run] in *.
  - split; [reflexivity|]. split; [destruct GR as [t0 [w0 [A [B C]]]]; exists t0, w0; auto|].
    exists (fst (exec ch 0 o)). split; [exact N|]. left. exists (frags_acts cl).
    split; [reflexivity|now apply noret_frags].
  - split; [reflexivity|]. split; [destruct GR as [t0 [w0 [A [B C]]]]; exists t0, w0; auto|].
    exists t1. auto.
Qed.
End Setter.
