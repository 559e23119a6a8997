(** C11 and C34: whole reverse wrappers and virtual-method proxies. *)
From Coq Require Import Lia.
From Verif.Model Require Import Py CodeSink Decls CodeBlock Params MiniC ForwardWrapper ReverseWrapper.
From Verif.Spec Require Import WrapperSpec HandlerSpec ReverseSpec.
From Verif.Proofs Require Import BlockProofs WrapperProofs WrapperBody LockProofs GenProofs ReverseProofs.
Open Scope list_scope.

(** A configuration with only the error returns of interest (the block lemmas mention nothing else). *)
Definition dummy (e : frag) : config :=
  {| c_parse_error := e; c_error := e; c_params := []; c_return := None; c_have_return := false; c_retval_type := None;
     c_force_parse := None; c_unblock := false; c_deprecated := None; c_precall := []; c_postcall := [];
     c_call_text := fun _ => ""%string; c_call_acts := []; c_throw := []; c_catch_value := ""%string |}.
Lemma dummy_dummy e : dummy_ok e (dummy e).
Proof. split; reflexivity. Qed.

(** ** What rgenerate asks for *)
Definition chk_ok (l : list hact) : Prop :=
  disciplined l /\ (forall c f, ~ In (XCheck After c f) l) /\ (forall g, ~ In (XCleanup Before g) l) /\
  Forall (fun a => Forall (fun f => Forall (fun x => exists w, x = APy w) (f_acts f ++ f_pass f)) (fragments a)) l.

Lemma result_check_ok s l : result_check s = Ok l -> chk_ok l.
Proof.
  unfold result_check. destruct (parse_is_empty (w_parse s)) as [e|]; [|discriminate]. cbn [bind]. destruct e.
  - intros [= <-]. unfold chk_ok. repeat split.
    + apply d_harmless; [|constructor]. repeat constructor.
    + intros c f [H|[]]; discriminate.
    + intros g [H|[]]; discriminate.
    + constructor; [|constructor]. cbn. constructor; [|constructor; [|constructor]]; cbn; constructor; eauto.
  - destruct (parse_get_parameters (w_parse s)) as [p|]; [|discriminate]. cbn [bind]. intros [= <-]. unfold chk_ok. repeat split.
    + apply d_harmless; [repeat constructor|]. apply d_harmless; [|constructor]. repeat constructor.
    + intros c f [H|[H|[]]]; discriminate.
    + intros g [H|[H|[]]]; discriminate.
    + constructor; [|constructor; [|constructor]]; cbn.
      * constructor; [|constructor]; cbn; constructor; eauto.
      * constructor; [|constructor; [|constructor]]; cbn; constructor; eauto.
Qed.

Lemma run_handler_ok s h s' : run_handler s h = Ok s' -> hrun s (h_acts h) = Ok s'.
Proof. unfold run_handler. destruct (hrun s (h_acts h)); cbn; [|discriminate]. destruct (h_raise h); congruence. Qed.
Lemma run_handlers_ok l s s' : run_handlers s l = Ok s' -> hrun s (flat_map h_acts l) = Ok s'.
Proof.
  revert s; induction l as [|h r IH]; intros s H; cbn in *; [exact H|].
  destruct (run_handler s h) as [s1|] eqn:E; [|discriminate]. apply run_handler_ok in E.
  rewrite hrun_app, E. cbn. now apply IH.
Qed.

Definition ret_decl (r : rconfig) : list hact :=
  match r_retval_type r with Some t => [XDeclare t "retval" None None] | None => [] end.
Definition rlist (r : rconfig) (b : list string) (chk : list hact) : list hact :=
  XDeclare "PyObject*" "py_retval" None None :: ret_decl r ++ reverse_calls r (r_call r b) ++ chk.

Lemma rgen_run r s s' : rgenerate r s = Ok s' -> exists b chk s1 s2,
  chk_ok chk /\ hrun s (rlist r b chk) = Ok s1 /\
  on_blocks s1 (write_cleanup (w_blocks s1) after_call) = Ok s2 /\
  on_blocks s2 (emit (w_blocks s2) after_call [ICode (r_return_stmt r)]) = Ok s'.
Proof.
  unfold rgenerate. intros H.
  destruct (declare_exact s "PyObject*" "py_retval") as [s1|] eqn:E1; [|discriminate]. cbn [bind] in H.
  match type of H with bind ?x _ = _ => destruct x as [s2|] eqn:E2; [|discriminate] end. cbn [bind] in H.
  destruct (run_handlers s2 (r_params r)) as [s3|] eqn:E3; [|discriminate]. cbn [bind] in H.
  match type of H with bind ?x _ = _ => destruct x as [s4|] eqn:E4; [|discriminate] end. cbn [bind] in H.
  destruct (run_handler s4 (r_return r)) as [s5|] eqn:E5; [|discriminate]. cbn [bind] in H.
  destruct (result_check s5) as [chk|] eqn:E6; [|discriminate]. cbn [bind] in H.
  destruct (hrun s5 chk) as [s6|] eqn:E7; [|discriminate]. cbn [bind] in H.
  match type of H with bind ?x _ = _ => destruct x as [s7|] eqn:E8; [|discriminate] end. cbn [bind] in H.
  exists (build_get_parameters (w_build s3) false), chk, s6, s7.
  split; [now apply result_check_ok in E6|]. split; [|split; assumption].
  unfold rlist. cbn [hrun].
  assert (D1 : hstep s (XDeclare "PyObject*" "py_retval" None None) = Ok s1).
  { cbn [hstep]. unfold declare_exact in E1. destruct (declare_variable _ _ _ _ _ _) as [d [v|]]; [|discriminate]. cbn [bind] in *.
    destruct (String.eqb v "py_retval"); congruence. }
  rewrite D1. cbn [bind]. rewrite hrun_app.
  assert (D2 : hrun s1 (ret_decl r) = Ok s2).
  { unfold ret_decl. destruct (r_retval_type r); [|exact E2]. cbn [hrun]. rewrite E2. reflexivity. }
  rewrite D2. cbn [bind]. unfold reverse_calls. rewrite <- !app_assoc, hrun_app, (run_handlers_ok _ _ _ E3). cbn [bind].
  rewrite hrun_app, E4. cbn [bind]. rewrite hrun_app, (run_handler_ok _ _ _ E5). exact E7.
Qed.

Lemma rlist_disciplined r b chk : reverse_well_behaved r -> chk_ok chk -> disciplined (rlist r b chk).
Proof.
  intros [W1 W2 W3 _ _ _] [C _]. unfold rlist. apply d_harmless; [exact I|]. apply disciplined_app.
  - unfold ret_decl. destruct (r_retval_type r); [|constructor]. apply d_harmless; [exact I|constructor].
  - apply disciplined_app; [|exact C]. unfold reverse_calls. apply disciplined_app; [now apply disciplined_flat|].
    apply disciplined_app; auto.
Qed.

Lemma no_late_sandwich a m z : (forall c f, ~ In (XCheck After c f) a) -> no_late_cleanup m ->
  (forall g, ~ In (XCleanup Before g) z) -> no_late_cleanup (a ++ m ++ z).
Proof.
  intros Ha Hm Hz l1 c f l2 E g Hg.
  assert (X : forall (u v : list hact) l1 l2 q, u ++ v = l1 ++ q :: l2 -> (exists w, u = l1 ++ q :: w /\ l2 = w ++ v) \/ (exists w, v = w ++ q :: l2 /\ l1 = u ++ w)).
  { clear. induction u as [|y u IH]; intros v l1 l2 q E.
    - right. exists l1. auto.
    - destruct l1 as [|z l1]; cbn in E; injection E as -> E.
      + left. exists u. auto.
      + destruct (IH _ _ _ _ E) as [[w [-> ->]]|[w [-> ->]]]; [left; exists w; auto|right; exists w; auto]. }
  destruct (X _ _ _ _ _ E) as [[w [Ea _]]|[w [E1 _]]].
  - apply (Ha c f). rewrite Ea. apply in_app_iff. right. now left.
  - destruct (X _ _ _ _ _ E1) as [[w2 [Em ->]]|[w2 [Ez _]]].
    + apply in_app_iff in Hg as [Hg|Hg]; [|now apply (Hz g)]. subst m. now apply (Hm w c f w2 eq_refl g).
    + apply (Hz g). rewrite Ez. apply in_app_iff. right. now right.
Qed.

Lemma rlist_late r b chk a : reverse_well_behaved r -> chk_ok chk -> (forall c f, ~ In (XCheck After c f) a) ->
  no_late_cleanup (a ++ rlist r b chk).
Proof.
  intros W [_ [_ [C _]]] Ha. unfold rlist.
  replace (a ++ XDeclare "PyObject*" "py_retval" None None :: ret_decl r ++ reverse_calls r (r_call r b) ++ chk)
    with ((a ++ XDeclare "PyObject*" "py_retval" None None :: ret_decl r) ++ reverse_calls r (r_call r b) ++ chk)
    by (rewrite <- !app_assoc; reflexivity).
  apply no_late_sandwich; [|apply (rw_late _ W)|exact C].
  intros c f H. apply in_app_iff in H as [H|[H|H]]; [now apply (Ha c f)|discriminate|].
  unfold ret_decl in H. destruct (r_retval_type r); [destruct H as [H|[]]; discriminate|destruct H].
Qed.

Lemma rlist_q (Q : act -> Prop) r b chk : (forall w, Q (APy w)) -> q_calls Q (reverse_calls r (r_call r b)) -> chk_ok chk ->
  q_calls Q (rlist r b chk).
Proof.
  intros HP H [_ [_ [_ C]]]. unfold rlist. constructor; [constructor|]. apply Forall_app. split.
  - unfold ret_decl. destruct (r_retval_type r); repeat constructor.
  - apply Forall_app. split; [exact H|]. eapply Forall_impl; [|exact C]. intros a Ha. eapply Forall_impl; [|exact Ha].
    intros f Hf. eapply Forall_impl; [|exact Hf]. intros x [w ->]. apply HP.
Qed.

(** ** From a start state to the end *)
Section Main.
Variable E : frag.
Variable El : list act.
Variable Ew : string.
Hypothesis HE : f_acts E = El ++ [AReturn Ew].
Hypothesis HEl : Forall cpp_only El.
Variable r : rconfig.
Hypothesis W : reverse_well_behaved r.

Lemma E_returns : returns E.
Proof.
  exists El, Ew. split; [exact HE|]. eapply Forall_impl; [|exact HEl]. intros [] H; try destruct H; exact I.
Qed.

Lemma rgen_form (Q : act -> Prop) pre s s' rb ra : ~ Q (AAcquire gil) /\ ~ Q (ARelease gil) -> (forall w, Q (APy w)) -> (forall b, q_calls Q (reverse_calls r (r_call r b))) ->
  GInv Q E (dummy E) pre s rb ra -> rgenerate r s = Ok s' ->
  body s' = rbody s' /\ exists L, rbody s' = pre ++ L ++ [ICode G; ICode (r_return_stmt r)] /\ Forall (item_gil Q E) L.
Proof.
  intros HG HP HQ I H. destruct (rgen_run _ _ _ H) as [b [chk [s1 [s2 [C [R [E1 E2]]]]]]].
  destruct (GInv_run Q HG E (dummy E) (dummy_dummy E) pre _ (rlist_disciplined r b chk W C) _ _ _ _ (rlist_q _ _ _ _ HP (HQ b) C) R I)
    as [rb' [ra' I']].
  exact (final_form Q E (dummy E) pre s1 rb' ra' s2 s' _ I' E1 E2).
Qed.

Lemma rgen_release P s0 s1 s' rb0 : disciplined P -> (forall c f, ~ In (XCheck After c f) P) ->
  (forall base, Inv (dummy E) base s0 rb0 []) -> hrun s0 P = Ok s1 -> rgenerate r s1 = Ok s' ->
  seq_ok [] (body s') [].
Proof.
  intros DP NP I0 HP H. destruct (rgen_run _ _ _ H) as [b [chk [s2 [s3 [C [R [E1 E2]]]]]]].
  assert (D : disciplined (P ++ rlist r b chk)) by (apply disciplined_app; [exact DP|now apply rlist_disciplined]).
  assert (RR : hrun s0 (P ++ rlist r b chk) = Ok s2) by (rewrite hrun_app, HP; exact R).
  destruct (hrun_shape (dummy E) _ D _ _ _ _ RR (Inv_Shape _ _ _ _ _ (I0 []))) as [rb' [ra' [S' _]]].
  assert (I2 : Inv (dummy E) (rev rb') s2 rb' ra').
  { refine (hrun_ok (dummy E) E_returns E_returns _ D _ _ _ _ _ _ _ RR (I0 _) S' (rlist_late r b chk P W C NP) _). auto. }
  destruct (cleanup_final (dummy E) _ _ _ _ I2 E1) as [k0 [k1 [k2 [B SO]]]].
  rewrite (emit_after _ _ _ _ _ B) in E2. injection E2 as <-. rewrite (body_blocks _ _ _ _ B) in SO.
  destruct (rw_stmt _ W) as [w Hw].
  match goal with |- context [body (set_blocks ?s [?x; ?y; ?z])] => rewrite (body_blocks (set_blocks s [x; y; z]) x y z eq_refl) end.
  cbn [addout out]. rewrite !app_assoc in *. eapply seq_ok_app; [exact SO|]. apply seq_one. right.
  exists [], w, []. rewrite Hw. split; [reflexivity|]. split; [intros ? []|constructor].
Qed.
End Main.

(** ** C11 *)
Definition Qg (a : act) : Prop := a <> AAcquire gil /\ a <> ARelease gil.
Lemma Qg_ok : ~ Qg (AAcquire gil) /\ ~ Qg (ARelease gil).
Proof. split; intros [A B]; congruence. Qed.
Lemma Qg_py w : Qg (APy w).
Proof. split; discriminate. Qed.
Lemma no_gil_q l : no_gil_calls l -> q_calls Qg l.
Proof.
  intros H. eapply Forall_impl; [|exact H]. intros a Ha. eapply Forall_impl; [|exact Ha]. intros f [H1 H2].
  unfold q_frag. rewrite Forall_forall. intros x Hx. split; intros ->; auto.
Qed.

Lemma finish_run E El Ew ret rw L pre0 s' : f_acts E = El ++ [AReturn Ew] -> Forall cpp_only El -> f_acts ret = [AReturn rw] ->
  pre0 = [ICode ensure_frag] -> body s' = rbody s' -> rbody s' = pre0 ++ L ++ [ICode G; ICode ret] -> Forall (item_gil Qg E) L ->
  seq_ok [] (body s') [] ->
  forall ch, snd (exec ch 0 (rbody s')) = Returned /\ reverse_run (fst (exec ch 0 (rbody s'))).
Proof.
  intros HE HEl Hret -> HB HR HL SO ch. rewrite HB in SO.
  pose proof (exec_ok _ _ _ SO ch 0) as Gr. rewrite HR in *. clear HB HR SO.
  destruct (exec_final Qg Qg_ok E El Ew HE HEl L ret rw ch 1 Hret HL) as [R [t1 [[N1 Q1] T]]].
  cbn [app exec ensure_frag f_acts run_acts is_return] in *. set (x := exec ch 1 (L ++ [ICode G; ICode ret])) in *.
  cbn [fst snd] in *. rewrite R in *. split; [reflexivity|]. cbn [app] in Gr |- *.
  destruct Gr as [t0 [w [Et [N0 LF]]]]. cbn [fst] in Et.
  assert (QG := quiet_gil Qg Qg_ok t1 (conj N1 Q1)).
  assert (K : exists t2 w2, fst x = t1 ++ ARelease gil :: t2 ++ [AReturn w2] /\ Forall cpp_only t2).
  { destruct T as [[_ [_ T]]|[_ T]]; [exists [], rw|exists El, Ew]; auto. }
  destruct K as [t2 [w2 [T2 C2]]]. rewrite T2 in *.
  exists t1, t2, w2. split; [reflexivity|].
  assert (Et0 : t0 = AAcquire gil :: t1 ++ ARelease gil :: t2 /\ w = w2).
  { change (AAcquire gil_resource) with (AAcquire gil) in Et.
    replace (AAcquire gil :: t1 ++ ARelease gil :: t2 ++ [AReturn w2])
      with ((AAcquire gil :: t1 ++ ARelease gil :: t2) ++ [AReturn w2]) in Et
      by (cbn; rewrite <- app_assoc; reflexivity).
    apply app_inj_tail in Et as [<- Et]. injection Et as ->. auto. }
  destruct Et0 as [-> ->].
  split; [|split; [exact N1|split; [apply QG|split; [apply QG|exact C2]]]].
  inversion LF as [|? ? ? ? LF1| |? ? ? ? X1 X2 LF1]; subst.
  - apply (lifo_under [] t1 t2 []); [intros []|apply QG|apply QG|exact LF1].
  - exfalso. now apply (X1 gil).
Qed.

(** The start states. *)
Definition block1 (e : frag) (acts : list frag) (o : list (item frag)) : block frag :=
  {| pred := Some before_parse; actions := combine (seq 1 (length acts)) acts; last_pos := length acts; err_ret := e; out := o |}.
Definition start_blocks (e : frag) (acts : list frag) (o : list (item frag)) : store frag :=
  [new_block None e; block1 e acts o; new_block (Some before_call) e].

Lemma start_gil err s : hrun (rinit err) (gil_code false) = Ok s -> w_blocks s = start_blocks err [G] [ICode ensure_frag].
Proof. intros H. vm_compute in H. injection H as <-. reflexivity. Qed.

Lemma start1_Inv E s base : w_blocks s = start_blocks E [G] [ICode ensure_frag] -> Inv (dummy E) base s [gil] [].
Proof.
  intros B. eexists _, _, _. split.
  - split; [exact B|reflexivity ..|constructor|constructor|apply (inc_snoc 0 [] 1); [constructor|lia]|constructor].
    + exists []. split; [reflexivity|constructor].
    + constructor.
  - constructor.
  - apply seq_one. left. split; [intros x [|[]]; discriminate|]. constructor. constructor.
  - constructor.
Qed.
Lemma start1_GInv Q E s : w_blocks s = start_blocks E [G] [ICode ensure_frag] -> GInv Q E (dummy E) [ICode ensure_frag] s [gil] [].
Proof.
  intros B. destruct (Inv_Shape _ _ _ _ _ (start1_Inv E s [] B)) as [k0 [k1 [k2 Sh]]].
  pose proof (sh_blocks _ _ _ _ _ _ _ Sh) as B'. rewrite B in B'. injection B' as <- <- <-.
  eexists _, _, _. split; [exact Sh|reflexivity| | | |].
  - exists []. split; [reflexivity|constructor].
  - constructor.
  - exists 1, []. split; [reflexivity|constructor].
  - constructor.
Qed.

Theorem reverse_ok err r s : cpp_return err -> reverse_well_behaved r -> reverse_wrapper err r = Ok s ->
  forall ch, snd (exec ch 0 (rbody s)) = Returned /\ reverse_run (fst (exec ch 0 (rbody s))).
Proof.
  intros [El [Ew [HE HEl]]] W H. unfold reverse_wrapper in H.
  destruct (hrun (rinit err) (gil_code false)) as [s0|] eqn:E0; [|discriminate]. cbn [bind] in H.
  apply start_gil in E0.
  destruct (rgen_form err r W Qg _ _ _ _ _ Qg_ok Qg_py (fun b => no_gil_q _ (rw_gil _ W b)) (start1_GInv Qg err s0 E0) H)
    as [HB [L [HR HL]]].
  pose proof (rgen_release err El Ew HE HEl r W [] s0 s0 s [gil] (d_nil) (fun c f X => X) (fun base => start1_Inv err s0 base E0) eq_refl H) as SO.
  destruct (rw_stmt _ W) as [w Hw].
  eapply finish_run; eauto.
Qed.

(** ** Virtual method proxies *)
Definition lookup_frag (x : proxy) : frag :=
  {| f_text := ("py_method = PyObject_GetAttrString(m_pyself, (char *) " ++ quoted (x_method x) ++ "); PyErr_Clear();")%string;
     f_acts := [APy "PyObject_GetAttrString"; AAcquire r_method]; f_pass := [] |}.
Definition drop_method : frag := {| f_text := "Py_XDECREF(py_method);"; f_acts := [ARelease r_method]; f_pass := [] |}.
Definition proxy_pre (x : proxy) : list hact := no_override x :: object_code x.

Lemma proxy_split x s : virtual_proxy x = Ok s -> exists s0 s1,
  w_blocks s0 = start_blocks (proxy_error_return x) [G; drop_method] [ICode ensure_frag; ICode (lookup_frag x)] /\
  hrun s0 (proxy_pre x) = Ok s1 /\ rgenerate (proxy_config x) s1 = Ok s.
Proof.
  unfold virtual_proxy. intros H.
  destruct (hrun (rinit (x_c_error_return x)) (gil_code false)) as [a|] eqn:E0; [|discriminate]. cbn [bind] in H.
  destruct (hrun a (lookup_code x)) as [b|] eqn:E1; [|discriminate]. cbn [bind] in H.
  match type of H with bind ?q _ = _ => destruct q as [s0|] eqn:E2; [|discriminate] end. cbn [bind] in H.
  destruct (hstep s0 (no_override x)) as [d|] eqn:E3; [|discriminate]. cbn [bind] in H.
  destruct (hrun d (object_code x)) as [s1|] eqn:E4; [|discriminate]. cbn [bind] in H.
  exists s0, s1. split; [|split; [|exact H]].
  - assert (B : w_blocks b = start_blocks (x_c_error_return x) [G; drop_method] [ICode ensure_frag; ICode (lookup_frag x)]).
    { apply start_gil in E0. unfold lookup_code in E1. cbn [hrun] in E1.
      destruct (hstep a (XDeclare "PyObject*" "py_method" None None)) as [a1|] eqn:Ed; [|discriminate].
      assert (Ea : w_blocks a1 = w_blocks a).
      { cbn [hstep] in Ed. destruct (declare_variable _ _ _ _ _ _) as [dd [v|]]; [|discriminate]. cbn [bind] in Ed.
        injection Ed as <-. reflexivity. }
      rewrite <- Ea in E0. clear - E0 E1. cbn [bind hstep blk] in E1. rewrite E0 in E1. cbn in E1. injection E1 as <-. reflexivity. }
    destruct (x_void x) eqn:Ev.
    + injection E2 as <-. unfold proxy_error_return. rewrite Ev. exact B.
    + unfold rset_error_return in E2. rewrite B in E2. cbn in E2. injection E2 as <-. reflexivity.
  - unfold proxy_pre. cbn [hrun]. rewrite E3. exact E4.
Qed.

Lemma start2_Inv E x s base : w_blocks s = start_blocks E [G; drop_method] [ICode ensure_frag; ICode (lookup_frag x)] ->
  Inv (dummy E) base s [gil; r_method] [].
Proof.
  intros B. eexists _, _, _. split.
  - split; [exact B|reflexivity ..|constructor|constructor| |constructor].
    + exists []. split; [reflexivity|constructor].
    + constructor; [|constructor]. exists []. split; [reflexivity|constructor].
    + apply (inc_snoc 1 [(1, G)] 2); [|lia]. apply (inc_snoc 0 [] 1); [constructor|lia].
  - constructor.
  - cbn [rev app]. eapply (so_cons _ _ [gil]).
    + left. split; [intros y [|[]]; discriminate|]. constructor. constructor.
    + apply seq_one. left. split; [intros y [|[|[]]]; discriminate|]. apply lifo_other; try discriminate. constructor. constructor.
  - constructor.
Qed.
Lemma start2_GInv E x s : w_blocks s = start_blocks E [G; drop_method] [ICode ensure_frag; ICode (lookup_frag x)] ->
  GInv Qg E (dummy E) [ICode ensure_frag] s [gil; r_method] [].
Proof.
  intros B. destruct (Inv_Shape _ _ _ _ _ (start2_Inv E x s [] B)) as [k0 [k1 [k2 Sh]]].
  pose proof (sh_blocks _ _ _ _ _ _ _ Sh) as B'. rewrite B in B'. injection B' as <- <- <-.
  eexists _, _, _. split; [exact Sh|reflexivity| | | |].
  - exists [ICode (lookup_frag x)]. split; [reflexivity|]. constructor; [|constructor].
    split; [intros y [|[|[]]]; discriminate|]. repeat constructor; discriminate.
  - constructor.
  - exists 1, [(2, drop_method)]. split; [reflexivity|]. constructor; [|constructor]. cbn.
    split; [intros y [|[]]; discriminate|]. repeat constructor; discriminate.
  - constructor.
Qed.

Lemma proxy_pre_ok x : disciplined (proxy_pre x) /\ (forall c f, ~ In (XCheck After c f) (proxy_pre x)) /\ no_gil_calls (proxy_pre x).
Proof.
  split; [|split].
  - unfold proxy_pre. apply d_harmless.
    + split; [repeat constructor|]. destruct (x_void x && x_concrete x)%bool; [repeat constructor|exact I].
    + unfold object_code. apply d_harmless; [exact I|]. apply d_harmless; [repeat constructor|].
      apply (d_acquire Before _ r_object); [exists []; split; [reflexivity|constructor]|exists []; split; [reflexivity|constructor]|constructor].
  - intros c f H. unfold proxy_pre, no_override, object_code in H. cbn in H.
    repeat (destruct H as [H|H]; [discriminate|]). exact H.
  - unfold proxy_pre, no_override, object_code. repeat (apply Forall_cons || apply Forall_nil); cbn.
    + destruct (x_void x && x_concrete x)%bool; cbn; split; intros X; repeat (destruct X as [X|X]; [discriminate|]); exact X.
    + destruct (x_void x && x_concrete x)%bool; cbn; [|constructor]. constructor; [|constructor].
      split; intros X; repeat (destruct X as [X|X]; [discriminate|]); exact X.
    + split; intros X; repeat (destruct X as [X|X]; [discriminate|]); exact X.
    + split; intros X; repeat (destruct X as [X|X]; [discriminate|]); exact X.
    + split; intros X; repeat (destruct X as [X|X]; [discriminate|]); exact X.
Qed.

Theorem proxy_ok x s : cpp_return (proxy_error_return x) -> reverse_well_behaved (proxy_config x) -> virtual_proxy x = Ok s ->
  forall ch, snd (exec ch 0 (rbody s)) = Returned /\ reverse_run (fst (exec ch 0 (rbody s))).
Proof.
  intros [El [Ew [HE HEl]]] W H. destruct (proxy_split x s H) as [s0 [s1 [B [R1 R2]]]].
  destruct (proxy_pre_ok x) as [P1 [P2 P3]].
  destruct (GInv_run Qg Qg_ok _ _ (dummy_dummy (proxy_error_return x)) [ICode ensure_frag] _ P1 _ _ _ _ (no_gil_q _ P3) R1
    (start2_GInv _ x s0 B)) as [rb [ra I1]].
  destruct (rgen_form _ _ W Qg _ _ _ _ _ Qg_ok Qg_py (fun b => no_gil_q _ (rw_gil _ W b)) I1 R2) as [HB [L [HR HL]]].
  pose proof (rgen_release _ El Ew HE HEl _ W _ s0 s1 s _ P1 P2 (fun base => start2_Inv _ x s0 base B) R1 R2) as SO.
  destruct (rw_stmt _ W) as [w Hw].
  eapply finish_run; eauto.
Qed.

(** ** C34 *)
Definition override_cond : frag := py_frag "py_method == NULL || Py_TYPE(py_method) == &PyCFunction_Type".
Definition skip_frags (x : proxy) : list frag := if (x_void x && x_concrete x)%bool then [parent_stmt x] else [].
Definition save_frag (x : proxy) : frag :=
  {| f_text := ("self_obj_before = reinterpret_cast< " ++ x_struct x ++ "* >(m_pyself)->obj;")%string;
     f_acts := [ALocal "save obj"]; f_pass := [] |}.
Definition redirect_frag (x : proxy) : frag :=
  {| f_text := ("reinterpret_cast< " ++ x_struct x ++ "* >(m_pyself)->obj = " ++ x_this x ++ ";")%string;
     f_acts := [AAcquire r_object]; f_pass := [] |}.
Definition restore_frag (x : proxy) : frag :=
  {| f_text := ("reinterpret_cast< " ++ x_struct x ++ "* >(m_pyself)->obj = self_obj_before;")%string;
     f_acts := [ARelease r_object]; f_pass := [] |}.
Definition proxy_head (x : proxy) : list (item frag) :=
  [ICode ensure_frag; ICode (lookup_frag x);
   ICheck override_cond (skip_frags x ++ [drop_method; G; proxy_error_return x]);
   ICode (save_frag x); ICode (redirect_frag x)].

Lemma proxy_head_blocks x s0 s1 : 
  w_blocks s0 = start_blocks (proxy_error_return x) [G; drop_method] [ICode ensure_frag; ICode (lookup_frag x)] ->
  hrun s0 (proxy_pre x) = Ok s1 ->
  w_blocks s1 = start_blocks (proxy_error_return x) [G; drop_method; restore_frag x] (proxy_head x).
Proof.
  intros B H. unfold proxy_pre in H. cbn [hrun] in H.
  destruct (hstep s0 (no_override x)) as [a|] eqn:E0; [|discriminate]. cbn [bind] in H.
  assert (Ba : w_blocks a = start_blocks (proxy_error_return x) [G; drop_method] (firstn 3 (proxy_head x))).
  { unfold no_override in E0. cbn [hstep blk] in E0. rewrite B in E0. unfold proxy_head, skip_frags.
    destruct (x_void x && x_concrete x)%bool; cbn in E0; injection E0 as <-; reflexivity. }
  unfold object_code in H. cbn [hrun] in H.
  match type of H with bind ?q _ = _ => destruct q as [b|] eqn:Ed; [|discriminate] end. cbn [bind] in H.
  assert (Eb : w_blocks b = w_blocks a).
  { cbn [hstep] in Ed. destruct (declare_variable _ _ _ _ _ _) as [dd [v|]]; [|discriminate]. cbn [bind] in Ed.
    injection Ed as <-. reflexivity. }
  rewrite <- Eb in Ba. clear - Ba H. cbn [bind hstep blk] in H. rewrite Ba in H. cbn in H. injection H as <-. reflexivity.
Qed.

Lemma start3_GInv (Q : act -> Prop) E x s : Q (ARelease r_method) -> Q (ARelease r_object) ->
  w_blocks s = start_blocks E [G; drop_method; restore_frag x] (proxy_head x) ->
  GInv Q E (dummy E) (proxy_head x) s [gil; r_method; r_object] [].
Proof.
  intros Q1 Q2 B. eexists _, _, _. split.
  - split; [exact B|reflexivity ..|constructor|constructor| |constructor].
    + exists []. split; [reflexivity|constructor].
    + constructor; [|constructor; [|constructor]]; exists []; (split; [reflexivity|constructor]).
    + apply (inc_snoc 2 [(1, G); (2, drop_method)] 3); [|lia].
      apply (inc_snoc 1 [(1, G)] 2); [|lia]. apply (inc_snoc 0 [] 1); [constructor|lia].
  - reflexivity.
  - exists []. split; [symmetry; apply app_nil_r|constructor].
  - constructor.
  - exists 1, [(2, drop_method); (3, restore_frag x)]. split; [reflexivity|]. constructor; [|constructor; [|constructor]]; cbn.
    + split; [intros y [|[]]; discriminate|]. repeat constructor; assumption.
    + split; [intros y [|[]]; discriminate|]. repeat constructor; assumption.
  - constructor.
Qed.

Definition Qx (x : proxy) (a : act) : Prop := Qg a /\ a <> ACpp (parent_call x).

(** The general form of the body. *)
Lemma proxy_form x s : reverse_well_behaved (proxy_config x) ->
  (forall b, never (ACpp (parent_call x)) (reverse_calls (proxy_config x) (override_call x b))) ->
  virtual_proxy x = Ok s ->
  exists L, rbody s = proxy_head x ++ L ++ [ICode G; ICode (r_return_stmt (proxy_config x))] /\
    Forall (item_gil (Qx x) (proxy_error_return x)) L.
Proof.
  intros W N H. destruct (proxy_split x s H) as [s0 [s1 [B [R1 R2]]]].
  assert (HG : ~ Qx x (AAcquire gil) /\ ~ Qx x (ARelease gil)).
  { split; intros [[A C] _]; congruence. }
  assert (HP : forall w, Qx x (APy w)) by (intros w; repeat split; discriminate).
  assert (HC : forall b, q_calls (Qx x) (reverse_calls (proxy_config x) (r_call (proxy_config x) b))).
  { intros b. pose proof (no_gil_q _ (rw_gil _ W b)) as A. specialize (N b). unfold q_calls, never in *.
    rewrite Forall_forall in *. intros h Hh. specialize (A h Hh). specialize (N h Hh). rewrite Forall_forall in *.
    intros f Hf. specialize (A f Hf). specialize (N f Hf). unfold q_frag in *. rewrite Forall_forall in *. intros y Hy.
    split; [now apply A|]. intros ->. now apply N. }
  assert (I3 : GInv (Qx x) (proxy_error_return x) (dummy (proxy_error_return x)) (proxy_head x) s1 [gil; r_method; r_object] []).
  { apply start3_GInv; [repeat split; discriminate|repeat split; discriminate|]. eapply proxy_head_blocks; eauto. }
  destruct (rgen_form _ _ W (Qx x) _ _ _ _ _ HG HP HC I3 R2) as [_ K]. exact K.
Qed.

(** Code once written stays. *)
Definition has_item (s : wstate) (b : nat) (i : item frag) : Prop :=
  exists k, nth_error (w_blocks s) b = Some k /\ In i (out k).
Lemma emit_has (st st' : store frag) b l b' k i : emit st b l = Ok st' -> nth_error st b' = Some k -> In i (out k) ->
  exists k', nth_error st' b' = Some k' /\ In i (out k').
Proof.
  intros H Hk Hi. unfold emit in H. destruct (nth_error st b) as [q|] eqn:Eq; [|discriminate].
  assert (Hb : b < length st) by (apply nth_error_Some; congruence).
  apply (f_equal (fun x => match x with Ok y => y | Err _ => st end)) in H. cbn beta iota in H. subst st'.
  destruct (Nat.eq_dec b' b) as [->|Hn].
  - rewrite put_same by exact Hb. eexists. split; [reflexivity|]. cbn. rewrite Eq in Hk. injection Hk as ->. apply in_app_iff; now left.
  - rewrite put_other by auto. eauto.
Qed.
Lemma emit_new (st st' : store frag) b l i : emit st b l = Ok st' -> In i l -> exists k', nth_error st' b = Some k' /\ In i (out k').
Proof.
  intros H Hi. unfold emit in H. destruct (nth_error st b) as [q|] eqn:Eq; [|discriminate].
  assert (Hb : b < length st) by (apply nth_error_Some; congruence).
  apply (f_equal (fun x => match x with Ok y => y | Err _ => st end)) in H. cbn beta iota in H. subst st'.
  rewrite put_same by exact Hb. eexists. split; [reflexivity|]. cbn. apply in_app_iff; now right.
Qed.
Lemma hstep_has s a s' b i : hstep s a = Ok s' -> has_item s b i -> has_item s' b i.
Proof.
  intros H [k [Hk Hi]]. unfold has_item. destruct a; cbn [hstep] in H;
    try (apply on_blocks_fields in H as [st [H ->]]; cbn [w_blocks set_blocks]).
  - destruct (declare_variable _ _ _ _ _ _) as [d [v|]]; [|discriminate]. injection H as <-. eauto.
  - injection H as <-. eauto.
  - eapply emit_has; eauto.
  - eapply emit_has; eauto.
  - eapply emit_has; eauto.
  - eapply emit_has; eauto.
  - unfold write_error_check in H. destruct (nth_error _ (blk w)); [|discriminate]. eapply emit_has; eauto.
  - unfold write_error_return in H. destruct (nth_error _ (blk w)); [|discriminate]. eapply emit_has; eauto.
  - unfold add_cleanup_code in H. destruct (nth_error _ (blk w)) as [q|] eqn:Eq; [|discriminate]. cbn [bind fst] in H. injection H as <-.
    cbn [w_blocks set_blocks]. destruct (Nat.eq_dec b (blk w)) as [->|Hn].
    + rewrite put_same by (apply nth_error_Some; congruence). eexists. split; [reflexivity|]. cbn. congruence.
    + rewrite put_other by (auto; apply nth_error_Some; congruence). eauto.
  - unfold remove_cleanup_code in H. destruct (nth_error _ (blk w)) as [q|] eqn:Eq; [|discriminate].
    destruct (existsb _ _); [|discriminate]. injection H as <-.
    destruct (Nat.eq_dec b (blk w)) as [->|Hn].
    + rewrite put_same by (apply nth_error_Some; congruence). eexists. split; [reflexivity|]. cbn. congruence.
    + rewrite put_other by (auto; apply nth_error_Some; congruence). eauto.
  - injection H as <-. eauto.
  - injection H as <-. eauto.
  - injection H as <-. eauto.
Qed.
Lemma hrun_has l : forall s s' b i, hrun s l = Ok s' -> has_item s b i -> has_item s' b i.
Proof.
  induction l as [|a l IH]; intros s s' b i H Hi; cbn in H; [now injection H as <-|].
  destruct (hstep s a) as [s1|] eqn:E; [|discriminate]. cbn in H. eapply IH; [exact H|]. eapply hstep_has; eauto.
Qed.
Lemma hrun_code l : forall s s' w f, hrun s l = Ok s' -> In (XCode w f) l -> has_item s' (blk w) (ICode f).
Proof.
  induction l as [|a l IH]; intros s s' w f H Hi; [destruct Hi|]. cbn in H.
  destruct (hstep s a) as [s1|] eqn:E; [|discriminate]. cbn in H. destruct Hi as [->|Hi]; [|eauto].
  eapply hrun_has; [exact H|]. cbn [hstep] in E. apply on_blocks_fields in E as [st [E ->]].
  eapply emit_new; [exact E|now left].
Qed.

Definition call_frag (x : proxy) (b : list string) : frag :=
  {| f_text := ("py_retval = PyObject_CallMethod(" ++ join ", " ("m_pyself" :: ("(char *) " ++ quoted (x_method x)) :: prefix_head b) ++ ");")%string;
     f_acts := [APy "PyObject_CallMethod"]; f_pass := [] |}.
Lemma rgen_has_call x s s' : rgenerate (proxy_config x) s = Ok s' -> exists b, In (ICode (call_frag x b)) (rbody s').
Proof.
  intros H. destruct (rgen_run _ _ _ H) as [b [chk [s1 [s2 [C [R [E1 E2]]]]]]]. exists b.
  assert (A : has_item s1 before_call (ICode (call_frag x b))).
  { apply (hrun_code _ _ _ Before (call_frag x b) R). unfold rlist. right. apply in_app_iff. right. apply in_app_iff. left.
    unfold reverse_calls. apply in_app_iff. right. apply in_app_iff. left. left. reflexivity. }
  apply on_blocks_fields in E1 as [st1 [E1 ->]]. apply on_blocks_fields in E2 as [st2 [E2 ->]].
  destruct A as [k [Hk Hi]]. destruct (emit_has _ _ _ _ _ _ _ E1 Hk Hi) as [k1 [Hk1 Hi1]].
  destruct (emit_has _ _ _ _ _ _ _ E2 Hk1 Hi1) as [k2 [Hk2 Hi2]].
  unfold rbody, block_out. cbn [w_blocks set_blocks]. rewrite Hk2. apply in_app_iff. now left.
Qed.

Lemma exec_fell_in f l : In (ICode f) l -> forall ch n, snd (exec ch n l) = Fell -> incl (f_acts f) (fst (exec ch n l)).
Proof.
  induction l as [|i l IH]; intros Hi ch n F; [destruct Hi|].
  assert (K : forall t, snd (let (t', b) := run_acts t in
      if b then (t', Returned) else (t' ++ fst (exec ch (S n) l), snd (exec ch (S n) l))) = Fell ->
      In (ICode f) l -> incl (f_acts f) (fst (let (t', b) := run_acts t in
      if b then (t', Returned) else (t' ++ fst (exec ch (S n) l), snd (exec ch (S n) l))))).
  { intros t Ft Hl. destruct (run_acts t) as [t' [|]]; [discriminate|]. cbn [fst snd] in *. apply incl_appr. now apply IH. }
  destruct Hi as [->|Hi].
  - cbn [exec] in *. destruct (run_acts (f_acts f)) as [t b] eqn:Er. destruct b; [discriminate|]. cbn [fst snd] in *.
    apply incl_appl. assert (X : t = f_acts f); [|rewrite X; apply incl_refl].
    clear - Er. revert t Er. generalize (f_acts f) as m. induction m as [|a m IH]; intros t Er; cbn in Er; [congruence|].
    destruct (is_return a); [congruence|]. destruct (run_acts m) as [t' b'] eqn:Em. injection Er as <- ->. f_equal. now apply IH.
  - destruct i; cbn [exec] in *; auto.
    + destruct (Nat.eqb (ch n) 0); auto.
    + destruct (Nat.eqb (ch n) 0); auto.
    + destruct (ch n) as [|j]; auto. destruct (nth_error catches j) as [[h cb]|]; auto. discriminate.
Qed.

(** No override: exactly the parent implementation. *)
Theorem proxy_not_overridden x s : cpp_return (proxy_error_return x) -> reverse_well_behaved (proxy_config x) ->
  (forall b, never (ACpp (parent_call x)) (reverse_calls (proxy_config x) (override_call x b))) ->
  virtual_proxy x = Ok s -> forall ch, ch 2 <> 0 ->
  fst (exec ch 0 (rbody s)) =
    [AAcquire gil; APy "PyObject_GetAttrString"; AAcquire r_method; APy (f_text override_cond)] ++
    (if (x_void x && x_concrete x)%bool then [ACpp (parent_call x)] else []) ++
    [ARelease r_method; ARelease gil] ++ f_acts (proxy_error_return x).
Proof.
  intros [El [Ew [HE HEl]]] W N H ch Hc. destruct (proxy_form x s W N H) as [L [-> HL]].
  unfold proxy_head. cbn [app exec]. cbn [ensure_frag lookup_frag f_acts run_acts is_return fst snd app].
  apply Nat.eqb_neq in Hc. rewrite Hc.
  assert (X : frags_acts (skip_frags x ++ [drop_method; G; proxy_error_return x]) =
     (frags_acts (skip_frags x) ++ [ARelease r_method; ARelease gil] ++ El) ++ [AReturn Ew]).
  { rewrite frags_app. unfold frags_acts at 2. cbn [flat_map drop_method G gil_release_frag f_acts app]. rewrite app_nil_r, HE.
    now rewrite <- !app_assoc. }
  rewrite X. rewrite app_assoc.
  rewrite run_acts_ret.
  - cbn [fst]. rewrite HE. unfold skip_frags, override_cond. destruct (x_void x && x_concrete x)%bool; reflexivity.
  - apply noret_app; [intros y [|[]]; discriminate|]. apply noret_app.
    + unfold skip_frags. destruct (x_void x && x_concrete x)%bool; [intros y [|[]]; discriminate|intros y []].
    + apply noret_app; [intros y [|[|[]]]; discriminate|]. now apply cpp_noret.
Qed.

Theorem proxy_overridden x s : cpp_return (proxy_error_return x) -> reverse_well_behaved (proxy_config x) ->
  (forall b, never (ACpp (parent_call x)) (reverse_calls (proxy_config x) (override_call x b))) ->
  virtual_proxy x = Ok s -> forall ch, ch 2 = 0 ->
  exists t, ~ In (ACpp (parent_call x)) t /\
    ((fst (exec ch 0 (rbody s)) = t ++ f_acts (r_return_stmt (proxy_config x)) /\ In (APy "PyObject_CallMethod") t) \/
     (exists n, 2 < n /\ ch n <> 0) /\ fst (exec ch 0 (rbody s)) = t ++ f_acts (proxy_error_return x)).
Proof.
  intros [El [Ew [HE HEl]]] W N H ch Hc. destruct (proxy_form x s W N H) as [L [HR HL]].
  destruct (proxy_split x s H) as [s0 [s1 [_ [_ Hg]]]]. destruct (rgen_has_call x _ _ Hg) as [b Hin].
  assert (HG : ~ Qx x (AAcquire gil) /\ ~ Qx x (ARelease gil)).
  { split; intros [[A C] _]; congruence. }
  destruct (rw_stmt _ W) as [w Hw].
  destruct (exec_final (Qx x) HG _ El Ew HE HEl L _ w ch 5 Hw HL) as [R [t1 [[N1 Q1] T]]].
  assert (Hp : ~ In (ACpp (parent_call x)) t1).
  { intros X. rewrite Forall_forall in Q1. now apply Q1 in X as [_ X]. }
  assert (HinL : In (ICode (call_frag x b)) L).
  { rewrite HR in Hin. apply in_app_iff in Hin as [Hin|Hin].
    - exfalso. unfold proxy_head in Hin. repeat (destruct Hin as [Hin|Hin]; [discriminate Hin|]). exact Hin.
    - apply in_app_iff in Hin as [Hin|Hin]; [exact Hin|exfalso]. destruct Hin as [Hin|[Hin|[]]]; [discriminate|].
      apply (f_equal (fun i => match i with ICode f => f_acts f | _ => [] end)) in Hin. cbn beta iota in Hin.
      rewrite Hw in Hin. discriminate. }
  set (hd := [AAcquire gil; APy "PyObject_GetAttrString"; AAcquire r_method; APy (f_text override_cond); ALocal "save obj"; AAcquire r_object]).
  assert (X : fst (exec ch 0 (rbody s)) = hd ++ fst (exec ch 5 (L ++ [ICode G; ICode (r_return_stmt (proxy_config x))]))).
  { rewrite HR. unfold proxy_head. cbn [app exec]. rewrite Hc. cbn [Nat.eqb].
    cbn [ensure_frag lookup_frag override_cond py_frag save_frag redirect_frag f_acts f_pass run_acts is_return fst snd app]. reflexivity. }
  rewrite X. destruct T as [[F [-> T]]|[F T]]; rewrite T.
  - exists (hd ++ fst (exec ch 5 L) ++ [ARelease gil]). split.
    + intros Y. apply in_app_iff in Y as [Y|Y]; [unfold hd in Y; repeat (destruct Y as [Y|Y]; [discriminate|]); exact Y|].
      apply in_app_iff in Y as [Y|[Y|[]]]; [now apply Hp|discriminate].
    + left. rewrite Hw, <- !app_assoc. split; [reflexivity|]. apply in_app_iff. right. apply in_app_iff. left.
      apply (exec_fell_in _ _ HinL ch 5 F). now left.
  - exists (hd ++ t1 ++ [ARelease gil]). split.
    + intros Y. apply in_app_iff in Y as [Y|Y]; [unfold hd in Y; repeat (destruct Y as [Y|Y]; [discriminate|]); exact Y|].
      apply in_app_iff in Y as [Y|[Y|[]]]; [now apply Hp|discriminate].
    + right. split; [|rewrite HE, <- !app_assoc; reflexivity].
      destruct (exec_failed _ _ L HL ch 5 F) as [m [A B]]. exists m. split; [lia|exact B].
Qed.

(** The object pointer. *)
Lemma pointer_lifo s t s' : lifo s t s' -> forall p, (p = Redirected -> In r_object s) -> pointer_after t p = Redirected -> In r_object s'.
Proof.
  induction 1 as [s|s r t s' H IH|s r t s' H IH|s a t s' H1 H2 H IH]; intros p Hp E.
  - auto.
  - cbn [pointer_after] in E. eapply IH; [|exact E]. destruct (Nat.eqb r r_object) eqn:X.
    + apply Nat.eqb_eq in X as ->. intros _. now left.
    + intros Y. right. auto.
  - cbn [pointer_after] in E. eapply IH; [|exact E]. destruct (Nat.eqb r r_object) eqn:X; [discriminate|].
    intros Y. destruct (Hp Y) as [->|Z]; [now rewrite Nat.eqb_refl in X|exact Z].
  - eapply IH; [exact Hp|]. destruct a; auto; [now specialize (H1 r)|now specialize (H2 r)].
Qed.
Lemma pointer_app a b p : pointer_after (a ++ b) p = pointer_after b (pointer_after a p).
Proof. revert p; induction a as [|x a IH]; intros p; cbn; [reflexivity|]. destruct x; cbn; apply IH. Qed.
Lemma pointer_cpp l p : Forall cpp_only l -> pointer_after l p = p.
Proof. induction 1 as [|a l Ha _ IH]; [reflexivity|]. destruct a; destruct Ha; exact IH. Qed.
Theorem pointer_restored t : reverse_run t -> pointer_after t Original = Original.
Proof.
  intros [t1 [t2 [w [-> [L [_ [_ [_ C]]]]]]]]. cbn [pointer_after]. cbn [gil Nat.eqb r_object].
  rewrite pointer_app. cbn [pointer_after]. cbn [gil Nat.eqb r_object]. rewrite pointer_app, (pointer_cpp t2) by exact C. cbn.
  destruct (pointer_after t1 Original) eqn:E; [reflexivity|]. exfalso.
  apply (pointer_lifo _ _ _ L Original); [discriminate|exact E].
Qed.
