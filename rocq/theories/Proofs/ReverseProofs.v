(** C11: reverse wrappers. *)
From Coq Require Import Lia.
From Verif.Model Require Import Py CodeSink Decls CodeBlock Params MiniC ForwardWrapper ReverseWrapper.
From Verif.Spec Require Import WrapperSpec HandlerSpec ReverseSpec.
From Verif.Proofs Require Import BlockProofs WrapperProofs WrapperBody LockProofs GenProofs.
Open Scope list_scope.

(** Everything is relative to a property [Q] of actions which excludes taking and releasing the lock. *)
Section Q.
Variable Q : act -> Prop.
Hypothesis HQ : ~ Q (AAcquire gil) /\ ~ Q (ARelease gil).

Definition quiet (l : list act) : Prop := noret l /\ Forall Q l.
Definition quiet_frag (f : frag) : Prop := quiet (f_acts f).
Definition quiet_cond (f : frag) : Prop := quiet (f_acts f) /\ quiet (f_pass f).

Lemma quiet_app a b : quiet a -> quiet b -> quiet (a ++ b).
Proof. intros [A1 A2] [B1 B2]. split; [now apply noret_app|now apply Forall_app]. Qed.
Lemma quiet_nil : quiet [].
Proof. split; [intros x []|constructor]. Qed.
Lemma quiet_frags l : Forall quiet_frag l -> quiet (frags_acts l).
Proof.
  unfold frags_acts. induction 1 as [|f r Hf _ IH]; cbn; [apply quiet_nil|]. now apply quiet_app.
Qed.
Lemma quiet_gil l : quiet l -> ~ In (AAcquire gil) l /\ ~ In (ARelease gil) l.
Proof.
  intros [_ H]. rewrite Forall_forall in H. split; intros X; apply H in X; now apply HQ in X.
Qed.

Section E.
Variable E : frag.
Variable El : list act.
Variable Ew : string.
Hypothesis HE : f_acts E = El ++ [AReturn Ew].
Hypothesis HEl : Forall cpp_only El.

Definition G := gil_release_frag.

Definition item_gil (i : item frag) : Prop :=
  match i with
  | ICode f => quiet_frag f
  | IIndent _ | IUnindent => True
  | IIf c b => quiet_cond c /\ Forall quiet_frag b
  | ICheck c b => quiet_cond c /\ exists x, b = x ++ [G; E] /\ Forall quiet_frag x
  | ITry _ _ => False
  end.

Lemma exec_gil l : Forall item_gil l -> forall ch n,
  (snd (exec ch n l) = Fell /\ quiet (fst (exec ch n l))) \/
  (snd (exec ch n l) = Returned /\ exists t1, fst (exec ch n l) = t1 ++ ARelease gil :: El ++ [AReturn Ew] /\ quiet t1).
Proof.
  induction 1 as [|i r Hi Hr IH]; intros ch n; [left; split; [reflexivity|apply quiet_nil]|].
  specialize (IH ch (S n)). cbn [exec]. set (k := exec ch (S n) r) in *.
  assert (KQ : forall t, quiet t ->
    let x := (if false then (t, Returned) else (t ++ fst k, snd k)) in
    (snd x = Fell /\ quiet (fst x)) \/
    (snd x = Returned /\ exists t1, fst x = t1 ++ ARelease gil :: El ++ [AReturn Ew] /\ quiet t1)).
  { intros t Ht. cbn. destruct IH as [[-> IH]|[-> [t1 [-> IH]]]].
    - left. split; [reflexivity|now apply quiet_app].
    - right. split; [reflexivity|]. exists (t ++ t1). rewrite app_assoc. split; [reflexivity|now apply quiet_app]. }
  destruct i as [f|m| |c b|c b|b cs]; cbn [item_gil] in Hi.
  - rewrite (run_acts_noret _ (proj1 Hi)). apply KQ, Hi.
  - exact IH.
  - exact IH.
  - destruct Hi as [Hc [x [-> Hx]]]. destruct (Nat.eqb (ch n) 0).
    + rewrite run_acts_noret by (apply noret_app; apply Hc). apply KQ. apply quiet_app; apply Hc.
    + right.
      assert (FA : frags_acts (x ++ [G; E]) = frags_acts x ++ ARelease gil_resource :: El ++ [AReturn Ew]).
      { rewrite frags_app. f_equal. unfold frags_acts. cbn [flat_map G gil_release_frag f_acts app].
        now rewrite app_nil_r, HE. }
      rewrite FA.
      assert (N : run_acts (f_acts c ++ frags_acts x ++ ARelease gil_resource :: El ++ [AReturn Ew])
                = (f_acts c ++ frags_acts x ++ ARelease gil_resource :: El ++ [AReturn Ew], true)).
      { pose proof (run_acts_ret (f_acts c ++ frags_acts x ++ ARelease gil_resource :: El) Ew []) as R.
        rewrite <- !app_assoc in R. cbn [app] in R. rewrite R.
        - reflexivity.
        - apply noret_app; [apply Hc|]. apply noret_app; [apply quiet_frags, Hx|].
          intros y [Hy|Hy]; [discriminate|]. rewrite Forall_forall in HEl. now specialize (HEl _ Hy). }
      rewrite N. cbn [fst snd]. split; [reflexivity|]. exists (f_acts c ++ frags_acts x).
      split; [rewrite <- !app_assoc; reflexivity|]. apply quiet_app; [apply Hc|now apply quiet_frags].
  - destruct Hi as [Hc Hb]. destruct (Nat.eqb (ch n) 0).
    + rewrite run_acts_noret by (apply noret_app; apply Hc). apply KQ. apply quiet_app; apply Hc.
    + rewrite run_acts_noret by (apply noret_app; [apply Hc|apply quiet_frags, Hb]). apply KQ.
      apply quiet_app; [apply Hc|now apply quiet_frags].
  - destruct Hi.
Qed.

(** From the stack discipline of the whole trace to that of the part under the lock. *)
Lemma lifo_under s t1 t2 s' : ~ In gil s -> ~ In (AAcquire gil) t1 -> ~ In (ARelease gil) t1 ->
  lifo (s ++ [gil]) (t1 ++ ARelease gil :: t2) s' -> lifo s t1 [].
Proof.
  revert s; induction t1 as [|a t1 IH]; intros s Hs H1 H2 H; cbn [app] in H.
  - destruct s as [|r s]; [constructor|]. cbn [app] in H. inversion H; subst.
    + exfalso. apply Hs. now left.
    + exfalso. eapply H6. reflexivity.
  - assert (H1' : ~ In (AAcquire gil) t1) by (intros X; apply H1; now right).
    assert (H2' : ~ In (ARelease gil) t1) by (intros X; apply H2; now right).
    inversion H as [z Z1 Z2 Z3|z r t z' HL Z1 Z2 Z3|z r t z' HL Z1 Z2 Z3|z y t z' Hy1 Hy2 HL Z1 Z2 Z3]; subst.
    + constructor. apply IH; auto. intros [->|X]; [apply H1; now left|auto].
    + destruct s as [|r' q]; cbn [app] in Z1; injection Z1 as -> ->.
      * exfalso. apply H2. now left.
      * constructor. apply IH; auto. intros X; apply Hs; now right.
    + apply lifo_other; auto.
Qed.

Record dummy_ok (c : config) : Prop := { do_p : c_parse_error c = E; do_e : c_error c = E }.
Variable c : config.
Hypothesis Hc : dummy_ok c.

(** The blocks of a reverse wrapper: nothing in block 0; [pre] is written first and the release of the lock registered first. *)
Variable pre : list (item frag).
Record ginv (s : wstate) (k0 k1 k2 : block frag) (rb ra : list nat) : Prop := {
  gi_shape : shape c s k0 k1 k2 rb ra;
  gi_0 : out k0 = [];
  gi_1 : exists l, out k1 = pre ++ l /\ Forall item_gil l;
  gi_2 : Forall item_gil (out k2);
  gi_a1 : exists p l, actions k1 = (p, G) :: l /\ Forall quiet_frag (map snd l);
  gi_a2 : Forall quiet_frag (map snd (actions k2)) }.
Definition GInv s rb ra := exists k0 k1 k2, ginv s k0 k1 k2 rb ra.

Lemma GInv_Shape s rb ra : GInv s rb ra -> Shape c s rb ra.
Proof. intros [k0 [k1 [k2 I]]]. exists k0, k1, k2. apply (gi_shape _ _ _ _ _ _ I). Qed.

Lemma ginv_same s s' k0 k1 k2 rb ra : w_blocks s' = w_blocks s -> ginv s k0 k1 k2 rb ra -> ginv s' k0 k1 k2 rb ra.
Proof. intros E0 [[B P0 P1 P2 E1 E2 E3 A0 C1 C2 I1 I2] H0 H1 H2 H3 H4]. split; auto. split; auto. congruence. Qed.

Lemma ginv_emit_before s k0 k1 k2 rb ra l : ginv s k0 k1 k2 rb ra -> Forall item_gil l ->
  ginv (set_blocks s [k0; addout k1 l; k2]) k0 (addout k1 l) k2 rb ra.
Proof.
  intros [[B P0 P1 P2 E1 E2 E3 A0 C1 C2 I1 I2] H0 [m [H1 H1']] H2 H3 H4] Hl. split; auto; [split; auto|].
  exists (m ++ l). cbn. rewrite H1, app_assoc. split; [reflexivity|]. now apply Forall_app.
Qed.
Lemma ginv_emit_after s k0 k1 k2 rb ra l : ginv s k0 k1 k2 rb ra -> Forall item_gil l ->
  ginv (set_blocks s [k0; k1; addout k2 l]) k0 k1 (addout k2 l) rb ra.
Proof.
  intros [[B P0 P1 P2 E1 E2 E3 A0 C1 C2 I1 I2] H0 H1 H2 H3 H4] Hl. split; auto; [split; auto|].
  cbn. now apply Forall_app.
Qed.

Lemma quiet_rev l : Forall quiet_frag l -> Forall quiet_frag (rev l).
Proof. rewrite !Forall_forall. intros H x Hx. apply H. now apply in_rev. Qed.

Lemma ginv_check s k0 k1 k2 rb ra w cnd fail : ginv s k0 k1 k2 rb ra -> quiet_cond cnd -> Forall quiet_frag (opt_list fail) ->
  exists it, Forall item_gil it /\
    write_error_check (w_blocks s) (blk w) cnd fail =
    Ok (match w with Before => [k0; addout k1 it; k2] | After => [k0; k1; addout k2 it] end).
Proof.
  intros I Hq Hf. pose proof (gi_shape _ _ _ _ _ _ I) as Sh. pose proof (sh_blocks _ _ _ _ _ _ _ Sh) as B.
  destruct (gi_a1 _ _ _ _ _ _ I) as [p [l [A1 A1']]]. pose proof (gi_a2 _ _ _ _ _ _ I) as A2.
  destruct (shape_cleanup _ _ _ _ _ _ _ Sh) as [_ [K1 K2]].
  destruct w; cbn [blk].
  - exists [ICheck cnd (opt_list fail ++ cleanup_code (w_blocks s) before_call ++ [err_ret k1])]. split.
    + constructor; [|constructor]. split; [exact Hq|].
      exists (opt_list fail ++ rev (map snd l)). rewrite K1, A1, (sh_e1 _ _ _ _ _ _ _ Sh), (do_p _ Hc). cbn [map rev snd].
      split; [now rewrite <- !app_assoc|]. apply Forall_app; split; [exact Hf|now apply quiet_rev].
    + unfold write_error_check. rewrite B at 1. cbn [nth_error before_call]. now apply emit_before.
  - exists [ICheck cnd (opt_list fail ++ cleanup_code (w_blocks s) after_call ++ [err_ret k2])]. split.
    + constructor; [|constructor]. split; [exact Hq|].
      exists (opt_list fail ++ rev (map snd (actions k2)) ++ rev (map snd l)).
      rewrite K2, A1, (sh_e2 _ _ _ _ _ _ _ Sh), (do_e _ Hc). cbn [map rev snd].
      split; [now rewrite <- !app_assoc|]. apply Forall_app; split; [exact Hf|]. apply Forall_app; split; now apply quiet_rev.
    + unfold write_error_check. rewrite B at 1. cbn [nth_error after_call]. now apply emit_after.
Qed.

Definition quiet_act (a : hact) : Prop :=
  match a with
  | XErrorReturn _ | XCancel _ _ => False
  | XCode _ f | XCleanup _ f => quiet_frag f
  | XIf _ c b => quiet_cond c /\ Forall quiet_frag b
  | XCheck _ c f => quiet_cond c /\ Forall quiet_frag (opt_list f)
  | _ => True
  end.

Lemma GInv_step a s s' rb ra rb' ra' : quiet_act a -> hstep s a = Ok s' -> GInv s rb ra -> Shape c s' rb' ra' ->
  GInv s' rb' ra'.
Proof.
  intros Ha Es [k0 [k1 [k2 I]]] S'. pose proof (gi_shape _ _ _ _ _ _ I) as Sh. pose proof (sh_blocks _ _ _ _ _ _ _ Sh) as B.
  assert (Same : forall rb2 ra2, GInv s' rb2 ra2 -> GInv s' rb' ra').
  { intros rb2 ra2 X. destruct (Shape_fun c _ _ _ _ _ S' (GInv_Shape _ _ _ X)) as [-> ->]. exact X. }
  assert (EM : forall w l, Forall item_gil l -> on_blocks s (emit (w_blocks s) (blk w) l) = Ok s' -> GInv s' rb' ra').
  { intros w l Hl X. destruct w; cbn [blk] in X; [rewrite (emit_before _ _ _ _ _ B) in X|rewrite (emit_after _ _ _ _ _ B) in X];
      injection X as <-; apply (Same rb ra).
    - exists k0, (addout k1 l), k2. now apply ginv_emit_before.
    - exists k0, k1, (addout k2 l). now apply ginv_emit_after. }
  destruct a; cbn [hstep quiet_act] in *; try (now destruct Ha).
  - destruct (declare_variable _ _ _ _ _ _) as [d [v|]]; [|discriminate]. injection Es as <-.
    apply (Same rb ra). exists k0, k1, k2. eapply ginv_same; [|exact I]. reflexivity.
  - injection Es as <-. apply (Same rb ra). exists k0, k1, k2. eapply ginv_same; [|exact I]. reflexivity.
  - eapply EM; [|exact Es]. constructor; [|constructor]. exact Ha.
  - eapply EM; [|exact Es]. repeat constructor.
  - eapply EM; [|exact Es]. repeat constructor.
  - eapply EM; [|exact Es]. constructor; [|constructor]. exact Ha.
  - destruct Ha as [Ha1 Ha2]. destruct (ginv_check _ _ _ _ _ _ w c0 fail I) as [it [Hi Ew']]; auto.
    rewrite Ew' in Es. destruct w; injection Es as <-; apply (Same rb ra).
    + exists k0, (addout k1 it), k2. now apply ginv_emit_before.
    + exists k0, k1, (addout k2 it). now apply ginv_emit_after.
  - rewrite B in Es.
    destruct S' as [j0 [j1 [j2 S']]]. pose proof (sh_blocks _ _ _ _ _ _ _ S') as B'.
    destruct I as [_ H0 H1 H2 [p [l [A1 A1']]] A2].
    destruct w; injection Es as <-; cbn in B'; injection B' as <- <- <-.
    + exists k0, (addact k1 f), k2. split; auto. cbn. exists p, (l ++ [(S (last_pos k1), f)]). rewrite A1.
      split; [reflexivity|]. rewrite map_app. apply Forall_app. split; [exact A1'|]. constructor; auto.
    + exists k0, k1, (addact k2 f). split; auto.
      * exists p, l. auto.
      * cbn. rewrite map_app. apply Forall_app. split; [exact A2|]. constructor; auto.
  - injection Es as <-. apply (Same rb ra). exists k0, k1, k2. eapply ginv_same; [|exact I]. reflexivity.
  - injection Es as <-. apply (Same rb ra). exists k0, k1, k2. eapply ginv_same; [|exact I]. reflexivity.
  - injection Es as <-. apply (Same rb ra). exists k0, k1, k2. eapply ginv_same; [|exact I]. reflexivity.
Qed.

(** Disciplined calls whose code satisfies [Q]. *)
Definition q_frag (f : frag) : Prop := Forall Q (f_acts f ++ f_pass f).
Definition q_calls (l : list hact) : Prop := Forall (fun a => Forall q_frag (fragments a)) l.

Lemma q_quiet f l : q_frag f -> incl l (f_acts f ++ f_pass f) -> noret l -> quiet l.
Proof. intros H I N. split; [exact N|]. unfold q_frag in H. rewrite Forall_forall in *. auto. Qed.
Lemma q_plain_frag f : q_frag f -> plain_frag f -> quiet_frag f /\ quiet_cond f.
Proof.
  intros H [H1 H2].
  assert (A : quiet (f_acts f)) by (eapply q_quiet; [exact H|apply incl_appl, incl_refl|intros x; now apply plain_noret]).
  assert (B : quiet (f_pass f)) by (eapply q_quiet; [exact H|apply incl_appr, incl_refl|intros x; now apply plain_noret]).
  repeat split; apply A || apply B.
Qed.
Lemma q_plain_list l : Forall q_frag l -> Forall plain_frag l -> Forall quiet_frag l.
Proof. induction 1; intros P; inversion P; subst; constructor; auto. now apply q_plain_frag. Qed.
Lemma q_plain_opt o : Forall q_frag (opt_list o) -> plain_opt o -> Forall quiet_frag (opt_list o).
Proof. destruct o; cbn; intros H P; [|constructor]. apply q_plain_list; [exact H|]. constructor; [exact P|constructor]. Qed.
Lemma harmless_quiet a : harmless a -> Forall q_frag (fragments a) -> quiet_act a.
Proof.
  destruct a; cbn; try tauto; intros H F.
  - inversion F; subst. now apply q_plain_frag.
  - inversion F; subst. destruct H. split; [now apply q_plain_frag|now apply q_plain_list].
  - inversion F; subst. destruct H. split; [now apply q_plain_frag|now apply q_plain_opt].
Qed.
Lemma acquires_noret r f : acquires r f -> noret (f_acts f).
Proof.
  intros [l [-> H]]. apply noret_app; [intros x; now apply plain_noret|]. intros x [|[]]; discriminate.
Qed.
Lemma releases_noret r f : releases r f -> noret (f_acts f).
Proof. intros [l [-> H]]. intros x [|X]; [discriminate|]. eapply plain_noret; eauto. Qed.

Lemma GInv_run l : disciplined l -> forall s s' rb ra, q_calls l -> hrun s l = Ok s' -> GInv s rb ra ->
  exists rb' ra', GInv s' rb' ra'.
Proof.
  induction 1 as [|a l Ha Hl IH|w f r cl l Hacq Hrel Hl IH|w cnd fail r cl l Hacq Hf Hrel Hl IH];
    intros s s' rb ra HF Hr I.
  - injection Hr as <-. eauto.
  - cbn [hrun] in Hr. destruct (hstep s a) as [s1|] eqn:Es; [|discriminate]. cbn [bind] in Hr.
    inversion HF as [|? ? F1 F2]; subst. eapply IH; [exact F2|exact Hr|].
    eapply GInv_step; [apply harmless_quiet; [exact Ha|exact F1]|exact Es|exact I|].
    eapply Shape_harmless; [exact Ha|exact Es|eapply GInv_Shape; exact I].
  - inversion HF as [|? ? F1 F2]; subst. inversion F2 as [|? ? F3 F4]; subst. cbn in F1, F3.
    inversion F1 as [|? ? Hqf Hqf']; subst. inversion F3 as [|? ? Hqc Hqc']; subst.
    cbn [hrun] in Hr. destruct (hstep s (XCode w f)) as [s1|] eqn:Es; [|discriminate]. cbn [bind] in Hr.
    assert (S1 : Shape c s1 rb ra).
    { cbn [hstep] in Es. unfold on_blocks in Es. destruct (emit _ _ _) eqn:E1; [|discriminate]. injection Es as <-.
      eapply Shape_emit; [eapply GInv_Shape; exact I|exact E1]. }
    assert (I1 : GInv s1 rb ra).
    { eapply GInv_step; [|exact Es|exact I|exact S1]. cbn. eapply q_quiet; [exact Hqf|apply incl_appl, incl_refl|].
      eapply acquires_noret; eauto. }
    destruct (hstep s1 (XCleanup w cl)) as [s2|] eqn:E2; [|discriminate]. cbn [bind] in Hr.
    pose proof (Shape_cleanup c _ _ _ _ _ _ _ S1 Hrel E2) as S2.
    eapply IH; [exact F4|exact Hr|]. eapply GInv_step; [|exact E2|exact I1|exact S2].
    cbn. eapply q_quiet; [exact Hqc|apply incl_appl, incl_refl|]. eapply releases_noret; eauto.
  - inversion HF as [|? ? F1 F2]; subst. inversion F2 as [|? ? F3 F4]; subst. cbn in F1, F3.
    inversion F1 as [|? ? Hqf Hqf']; subst. inversion F3 as [|? ? Hqc Hqc']; subst.
    cbn [hrun] in Hr. destruct (hstep s (XCheck w cnd fail)) as [s1|] eqn:Es; [|discriminate]. cbn [bind] in Hr.
    assert (S1 : Shape c s1 rb ra).
    { cbn [hstep] in Es. unfold on_blocks in Es. destruct (write_error_check _ _ _ _) eqn:E1; [|discriminate]. injection Es as <-.
      eapply Shape_check; [eapply GInv_Shape; exact I|exact E1]. }
    assert (I1 : GInv s1 rb ra).
    { eapply GInv_step; [|exact Es|exact I|exact S1]. cbn. destruct Hacq as [Hp Ep]. split.
      - split; (eapply q_quiet; [exact Hqf|apply incl_appl, incl_refl || apply incl_appr, incl_refl|]).
        + intros x; now apply plain_noret.
        + rewrite Ep. intros x [|[]]; discriminate.
      - now apply q_plain_opt. }
    destruct (hstep s1 (XCleanup w cl)) as [s2|] eqn:E2; [|discriminate]. cbn [bind] in Hr.
    pose proof (Shape_cleanup c _ _ _ _ _ _ _ S1 Hrel E2) as S2.
    eapply IH; [exact F4|exact Hr|]. eapply GInv_step; [|exact E2|exact I1|exact S2].
    cbn. eapply q_quiet; [exact Hqc|apply incl_appl, incl_refl|]. eapply releases_noret; eauto.
Qed.

Lemma map_code_gil l : Forall quiet_frag l -> Forall item_gil (map ICode l).
Proof. induction 1; constructor; auto. Qed.

(** The text of the body when generation ends. *)
Lemma final_form s rb ra s1 s2 ret : GInv s rb ra ->
  on_blocks s (write_cleanup (w_blocks s) after_call) = Ok s1 ->
  on_blocks s1 (emit (w_blocks s1) after_call [ICode ret]) = Ok s2 ->
  body s2 = rbody s2 /\ exists L, rbody s2 = pre ++ L ++ [ICode G; ICode ret] /\ Forall item_gil L.
Proof.
  intros [k0 [k1 [k2 I]]] E1 E2. pose proof (gi_shape _ _ _ _ _ _ I) as Sh. pose proof (sh_blocks _ _ _ _ _ _ _ Sh) as B.
  unfold write_cleanup in E1. rewrite (emit_after _ _ _ _ _ B) in E1. injection E1 as <-.
  cbn [w_blocks set_blocks] in E2. rewrite (emit_after _ k0 k1 _ _ eq_refl) in E2. injection E2 as <-.
  destruct (shape_cleanup _ _ _ _ _ _ _ Sh) as [_ [_ K2]]. rewrite K2. clear K2.
  destruct (gi_1 _ _ _ _ _ _ I) as [l1 [O1 Q1]]. destruct (gi_a1 _ _ _ _ _ _ I) as [p [l [A1 A1']]].
  split; [unfold rbody, body, block_out; cbn; now rewrite (gi_0 _ _ _ _ _ _ I)|].
  exists (l1 ++ out k2 ++ map ICode (rev (map snd (actions k2)) ++ rev (map snd l))). split.
  - unfold rbody, block_out. cbn. rewrite O1, A1. cbn [map rev snd]. rewrite !map_app. cbn [map]. now rewrite <- !app_assoc.
  - apply Forall_app. split; [exact Q1|]. apply Forall_app. split; [apply (gi_2 _ _ _ _ _ _ I)|].
    apply map_code_gil, Forall_app. split; apply quiet_rev; [apply (gi_a2 _ _ _ _ _ _ I)|exact A1'].
Qed.

(** What such a body does, after [pre]. *)
Lemma exec_final L ret rw ch n : f_acts ret = [AReturn rw] -> Forall item_gil L ->
  let x := exec ch n (L ++ [ICode G; ICode ret]) in
  snd x = Returned /\
  exists t1, quiet t1 /\
    ((snd (exec ch n L) = Fell /\ t1 = fst (exec ch n L) /\ fst x = t1 ++ ARelease gil :: [] ++ [AReturn rw]) \/
     (snd (exec ch n L) = Returned /\ fst x = t1 ++ ARelease gil :: El ++ [AReturn Ew])).
Proof.
  intros Hret HL x. unfold x. rewrite exec_app. destruct (exec_gil L HL ch n) as [[F Qt]|[R [t1 [T Qt]]]].
  - rewrite F. cbn [exec G gil_release_frag f_acts run_acts is_return]. rewrite Hret. cbn.
    split; [reflexivity|]. eexists. split; [exact Qt|]. left. auto.
  - rewrite R. cbn. split; [reflexivity|]. exists t1. split; [exact Qt|]. right. split; [reflexivity|exact T].
Qed.

(** It returns early only if a check failed. *)
Lemma exec_failed l : Forall item_gil l -> forall ch n, snd (exec ch n l) = Returned -> exists m, n <= m /\ ch m <> 0.
Proof.
  induction 1 as [|i r Hi Hr IH]; intros ch n R; [discriminate|]. cbn [exec] in R. specialize (IH ch (S n)).
  assert (K : snd (exec ch (S n) r) = Returned -> exists m, n <= m /\ ch m <> 0).
  { intros X. destruct (IH X) as [m [A B]]. exists m. split; [apply Nat.lt_le_incl; exact A|exact B]. }
  destruct i as [f|m| |c0 b|c0 b|b cs]; cbn [item_gil] in Hi.
  - rewrite (run_acts_noret _ (proj1 Hi)) in R. auto.
  - auto.
  - auto.
  - destruct (Nat.eqb (ch n) 0) eqn:Z.
    + rewrite run_acts_noret in R by (apply noret_app; apply Hi). auto.
    + exists n. split; [apply le_n|]. now apply Nat.eqb_neq.
  - destruct (Nat.eqb (ch n) 0) eqn:Z.
    + rewrite run_acts_noret in R by (apply noret_app; apply Hi). auto.
    + exists n. split; [apply le_n|]. now apply Nat.eqb_neq.
  - destruct Hi.
Qed.
End E.
End Q.
