From Verif.Model Require Import Py PyState Mangle Errors Overloading Module.
From Verif.Spec Require Import OverloadSpec ModuleSpec PolicySpec SectionSpec.
From Verif.Proofs Require Import StrLemmas OverloadProofs ModuleProofs ModuleSteps ModuleNames ModulePaths Steps GenSteps PruneProofs EscapeProofs ScriptProofs EscapeTop OfferProofs PlaceProofs OnceProofs.
From Coq Require Import Lia Permutation.
Open Scope string_scope.
Open Scope list_scope.
Open Scope st_scope.

(** * Everything declared is generated *)
Definition grows (g g' : gstate) : Prop :=
  w_mods (g_world g') = w_mods (g_world g) /\ incl (w_once (g_world g)) (w_once (g_world g')) /\ exists l, g_out g' = g_out g ++ l.
Lemma grows_refl g : grows g g.
Proof. split; [reflexivity|]. split; [apply incl_refl|]. exists []. now rewrite app_nil_r. Qed.
Lemma grows_trans a b c : grows a b -> grows b c -> grows a c.
Proof.
  intros (A & B & l & C) (A' & B' & l' & C'). split; [congruence|]. split; [eapply incl_tran; eauto|]. exists (l ++ l'). now rewrite C', C, app_assoc.
Qed.
Global Hint Resolve grows_refl : core.
Lemma grows_out g g' x : grows g g' -> In x (g_out g) -> In x (g_out g').
Proof. intros (_ & _ & l & ->) I. apply in_or_app. now left. Qed.
Lemma grows_once g g' n : grows g g' -> In n (w_once (g_world g)) -> In n (w_once (g_world g')).
Proof. intros (_ & B & _). apply B. Qed.
Lemma gr_emit g0 k x g : grows g0 g -> grows g0 (emit k x g).
Proof. intros H. eapply grows_trans; [exact H|]. split; [reflexivity|]. split; [apply incl_refl|]. now exists [(k, x)]. Qed.
Lemma gr_once g0 n pr k g : grows g0 g -> grows g0 (once n pr k g).
Proof. intros H. eapply grows_trans; [exact H|]. split; [reflexivity|]. split; [cbn; apply incl_appl, incl_refl|]. now exists [(k, PDefine n)]. Qed.
Lemma gr_sink multi g0 s g : grows g0 g -> grows g0 (fst (sink_for multi s g)).
Proof.
  intros H. unfold sink_for. destruct multi; [|exact H]. destruct s as [s|]; [|exact H]. destruct (mem s (g_started g)); [exact H|]. cbn [fst].
  eapply grows_trans; [exact H|]. split; [reflexivity|]. split; [apply incl_refl|]. cbn. eauto.
Qed.
Lemma gr_claim g0 n g : grows g0 g -> grows g0 (emit SHeader (PProto n) (claim_state n g)).
Proof. intros H. apply gr_emit. eapply grows_trans; [exact H|]. split; [reflexivity|]. split; [cbn; apply incl_appl, incl_refl|]. exists []. cbn. now rewrite app_nil_r. Qed.
Lemma gr_note g0 k e g : grows g0 g -> grows g0 (gnote k e g).
Proof. intros H. eapply grows_trans; [exact H|]. split; [reflexivity|]. split; [apply incl_refl|]. exists []. cbn. now rewrite app_nil_r. Qed.

Section Grow.
  Context (p : policy) (multi : bool).
  Lemma grows_type t : steps grows (gen_type multi t).
  Proof.
    intros g0. refine (keeps_type multi (grows g0) t _ _ _ _ _ g0 (grows_refl g0)); intros; auto using gr_emit, gr_sink, gr_once.
  Qed.
  Lemma grows_function f : steps grows (gen_function p multi f).
  Proof.
    intros g0. refine (keeps_function p multi (grows g0) _ f _ _ _ _ g0 (grows_refl g0)); intros; auto using gr_emit, gr_sink, gr_note.
  Qed.
  Lemma grows_functions l : steps grows (gen_functions p multi l).
  Proof.
    induction l as [|f l IH]; cbn [gen_functions]; [apply steps_ret, grows_refl|]. apply steps_bind; [exact grows_trans|apply grows_function|]. intros a.
    apply steps_bind; [exact grows_trans|exact IH|]. intros rows. apply steps_ret, grows_refl.
  Qed.
  Lemma grows_forward_type t : steps grows (forward_type t).
  Proof. intros g0. refine (keeps_forward_type (grows g0) t _ _ _ g0 (grows_refl g0)); intros; auto using gr_emit, gr_once, gr_claim. Qed.
  Lemma grows_put k x : steps grows (put k x).
  Proof. apply steps_modify. intros g. apply gr_emit, grows_refl. Qed.
  Lemma grows_flush : steps grows flush_header.
  Proof. intros g. unfold flush_header. cbn [fst]. split; [reflexivity|]. split; [apply incl_refl|]. cbn. eauto. Qed.
  Lemma grows_for {A} (f : A -> st gstate unit) l : (forall x, steps grows (f x)) -> steps grows (for_each f l).
  Proof. intros F. apply steps_for; [exact grows_refl|exact grows_trans|auto]. Qed.
  Lemma grows_forward fuel : forall i, steps grows (forward_module fuel i).
  Proof.
    induction fuel as [|fuel IH]; intros i; cbn [forward_module]; [apply steps_raise, grows_refl|]. apply steps_bind; [exact grows_trans|intros g; apply grows_refl|].
    intros m. apply steps_bind; [exact grows_trans|apply grows_for, grows_forward_type|]. intros _. apply grows_for, IH.
  Qed.
  Lemma grows_module fuel : forall i, steps grows (gen_module p multi fuel i).
  Proof.
    induction fuel as [|fuel IH]; intros i; cbn [gen_module]; [apply steps_raise, grows_refl|]. apply steps_bind; [exact grows_trans|intros g; apply grows_refl|].
    intros m. apply steps_bind; [exact grows_trans|apply grows_for, IH|]. intros _. apply steps_bind; [exact grows_trans|apply grows_functions|]. intros rows.
    apply steps_bind; [exact grows_trans|apply grows_put|]. intros _. apply steps_bind; [exact grows_trans|apply grows_for, grows_type|]. intros _.
    apply steps_bind; [exact grows_trans|apply grows_for, grows_type|]. intros _. apply steps_bind; [exact grows_trans|apply grows_flush|]. intros _.
    apply steps_bind; [exact grows_trans|intros g; apply grows_refl|]. intros subs. apply grows_put.
  Qed.

  (** A computation succeeded on the way to [g']. *)
  Definition ran {A} (m : st gstate A) (g' : gstate) : Prop := exists g1 g2 a, m g1 = (g2, Ok a) /\ grows g2 g'.
  Lemma ran_grows {A} (m : st gstate A) g g' : grows g g' -> ran m g -> ran m g'.
  Proof. intros G (g1 & g2 & a & E & H). exists g1, g2, a. split; [exact E|]. eapply grows_trans; eauto. Qed.
  Lemma for_ran {A} (F : A -> st gstate unit) (P : A -> gstate -> Prop) l :
    (forall x, steps grows (F x)) -> (forall x g g', grows g g' -> P x g -> P x g') ->
    forall g g' u, for_each F l g = (g', Ok u) ->
    (forall x g1 g2, In x l -> w_mods (g_world g1) = w_mods (g_world g) -> F x g1 = (g2, Ok tt) -> P x g2) -> forall x, In x l -> P x g'.
  Proof.
    intros St Mono. induction l as [|y l IH]; intros g g' u H Q x I; [destruct I|]. cbn [for_each] in H. unfold sbind in H.
    destruct (F y g) as [g1 [[]|]] eqn:Fy; [|discriminate].
    pose proof (grows_for F l St g1) as C. rewrite H in C. cbn [fst] in C. pose proof (St y g) as C1. rewrite Fy in C1. cbn [fst] in C1.
    destruct I as [<-|I]; [apply (Mono _ g1); [exact C|eapply Q; [now left|reflexivity|exact Fy]]|].
    eapply (IH g1); [exact H| |exact I]. intros z g2 g3 J S. apply Q; [now right|]. destruct C1 as (C1 & _). congruence.
  Qed.
  Lemma functions_ran l : forall g g' rows, gen_functions p multi l g = (g', Ok rows) -> forall f, In f l -> ran (gen_function p multi f) g'.
  Proof.
    induction l as [|f l IH]; intros g g' rows H u I; [destruct I|]. cbn [gen_functions] in H. unfold sbind at 1 in H.
    destruct (gen_function p multi f g) as [g1 [r|]] eqn:G; [|discriminate]. unfold sbind at 1 in H.
    destruct (gen_functions p multi l g1) as [g2 [rows'|]] eqn:Gs; [|discriminate].
    assert (g' = g2) by (unfold ret in H; congruence). subst g2. pose proof (grows_functions l g1) as C. rewrite Gs in C. cbn [fst] in C.
    destruct I as [<-|I]; [|eapply IH; eauto]. exists g, g1, r. auto.
  Qed.
  Lemma kinds l t : In t l -> In t (ordered l) \/ In t (filter (of_kind KEnum) l).
  Proof.
    intros I. unfold ordered. rewrite !in_app_iff, !filter_In. unfold of_kind. destruct (kind_eq_dec (ti_kind t) KClass), (kind_eq_dec (ti_kind t) KContainer),
      (kind_eq_dec (ti_kind t) KException), (kind_eq_dec (ti_kind t) KEnum); destruct (ti_imported t); cbn; try tauto. all: destruct (ti_kind t); congruence.
  Qed.
  Lemma bind_inv {A B} (m : st gstate A) (f : A -> st gstate B) g g' b : sbind m f g = (g', Ok b) -> exists g1 a, m g = (g1, Ok a) /\ f a g1 = (g', Ok b).
  Proof. unfold sbind. destruct (m g) as [g1 [a|e]]; [eauto|discriminate]. Qed.
  Lemma step_of {A} (m : st gstate A) g g' r : steps grows m -> m g = (g', r) -> grows g g'.
  Proof. intros S H. specialize (S g). now rewrite H in S. Qed.
  Lemma module_ran fuel : forall i g g' u, gen_module p multi fuel i g = (g', Ok u) ->
    forall j m, below (w_mods (g_world g)) i j -> nth_error (w_mods (g_world g)) j = Some m ->
    (forall f, In f (m_functions m) -> ran (gen_function p multi f) g') /\ (forall t, In t (m_types m) -> ran (gen_type multi t) g').
  Proof.
    induction fuel as [|fuel IH]; intros i g g' u H j m Bl Nj; cbn [gen_module] in H; [discriminate|].
    apply bind_inv in H. destruct H as (g0 & mi & Gm & H). unfold get_gmod in Gm.
    destruct (nth_error (w_mods (g_world g)) i) as [mi'|] eqn:Ni; [|discriminate]. assert (g0 = g /\ mi' = mi) as [-> ->] by (split; congruence). clear Gm.
    apply bind_inv in H. destruct H as (g1 & [] & H1 & H). pose proof (step_of _ _ _ _ (grows_for _ _ (grows_module fuel)) H1) as C1.
    apply bind_inv in H. destruct H as (g2 & rows & H2 & H). pose proof (step_of _ _ _ _ (grows_functions _) H2) as C2.
    apply bind_inv in H. destruct H as (g3 & [] & H3 & H). pose proof (step_of _ _ _ _ (grows_put _ _) H3) as C3.
    apply bind_inv in H. destruct H as (g4 & [] & H4 & H). pose proof (step_of _ _ _ _ (grows_for _ _ grows_type) H4) as C4.
    apply bind_inv in H. destruct H as (g5 & [] & H5 & H). pose proof (step_of _ _ _ _ (grows_for _ _ grows_type) H5) as C5.
    assert (C6 : grows g5 g').
    { match type of H with ?m g5 = _ => assert (S : steps grows m); [|exact (step_of m _ _ _ S H)] end.
      apply steps_bind; [exact grows_trans|apply grows_flush|]. intros _. apply steps_bind; [exact grows_trans|intros x; apply grows_refl|]. intros subs. apply grows_put. }
    destruct Bl as [i|i mi' k j Nk Ik Bl].
    - assert (m = mi) by congruence. subst mi. split.
      + intros f If. eapply ran_grows; [exact (grows_trans _ _ _ C3 (grows_trans _ _ _ C4 (grows_trans _ _ _ C5 C6)))|]. eapply functions_ran; eauto.
      + intros t It. destruct (kinds _ _ It) as [K|K].
        * eapply ran_grows; [exact (grows_trans _ _ _ C5 C6)|]. refine (for_ran (gen_type multi) (fun t g => ran (gen_type multi t) g) _ grows_type _ _ _ _ H4 _ t K).
          -- intros x a b. apply ran_grows.
          -- intros x a b _ _ G. exists a, b, tt. auto.
        * eapply ran_grows; [exact C6|]. refine (for_ran (gen_type multi) (fun t g => ran (gen_type multi t) g) _ grows_type _ _ _ _ H5 _ t K).
          -- intros x a b. apply ran_grows.
          -- intros x a b _ _ G. exists a, b, tt. auto.
    - assert (mi' = mi) by congruence. subst mi'. pose proof (grows_trans _ _ _ C2 (grows_trans _ _ _ C3 (grows_trans _ _ _ C4 (grows_trans _ _ _ C5 C6)))) as C.
      enough (X : (forall f, In f (m_functions m) -> ran (gen_function p multi f) g1) /\ (forall t, In t (m_types m) -> ran (gen_type multi t) g1))
        by (destruct X as (X & Y); split; [intros f If|intros t It]; eapply ran_grows; eauto).
      refine (for_ran (gen_module p multi fuel) (fun k g' => below (w_mods (g_world g)) k j ->
        (forall f, In f (m_functions m) -> ran (gen_function p multi f) g') /\ (forall t, In t (m_types m) -> ran (gen_type multi t) g')) (m_submodules mi) (grows_module fuel) _ g g1 tt H1 _ k Ik Bl).
      + intros x a b Gr D B. destruct (D B) as (D1 & D2). split; [intros f If|intros t It]; eapply ran_grows; eauto.
      + intros x a b Ix S G B. eapply (IH x a b _ G j m); [now rewrite S|now rewrite S].
  Qed.
  Lemma forward_ran fuel : forall i g g' u, forward_module fuel i g = (g', Ok u) ->
    forall j m t, below (w_mods (g_world g)) i j -> nth_error (w_mods (g_world g)) j = Some m -> In t (m_types m) -> ti_kind t <> KEnum -> ran (forward_type t) g'.
  Proof.
    induction fuel as [|fuel IH]; intros i g g' u H j m t Bl Nj It NE; cbn [forward_module] in H; [discriminate|].
    apply bind_inv in H. destruct H as (g0 & mi & Gm & H). unfold get_gmod in Gm.
    destruct (nth_error (w_mods (g_world g)) i) as [mi'|] eqn:Ni; [|discriminate]. assert (g0 = g /\ mi' = mi) as [-> ->] by (split; congruence). clear Gm.
    apply bind_inv in H. destruct H as (g1 & [] & H1 & H). pose proof (step_of _ _ _ _ (grows_for _ _ grows_forward_type) H1) as C1.
    pose proof (step_of _ _ _ _ (grows_for _ _ (grows_forward fuel)) H) as C2.
    destruct Bl as [i|i mi' k j Nk Ik Bl].
    - assert (m = mi) by congruence. subst mi. eapply ran_grows; [exact C2|].
      assert (K : In t (ordered (m_types m))).
      { destruct (kinds _ _ It) as [K|K]; [exact K|]. apply filter_In in K. destruct K as (_ & K). unfold of_kind in K. destruct (kind_eq_dec (ti_kind t) KEnum); [contradiction|discriminate]. }
      refine (for_ran forward_type (fun t g => ran (forward_type t) g) _ grows_forward_type _ _ _ _ H1 _ t K).
      + intros x a b. apply ran_grows.
      + intros x a b _ _ G. exists a, b, tt. auto.
    - assert (mi' = mi) by congruence. subst mi'. destruct C1 as (S1 & _).
      refine (for_ran (forward_module fuel) (fun k g' => below (w_mods (g_world g)) k j -> ran (forward_type t) g') (m_submodules mi) (grows_forward fuel) _ g1 g' u H _ k Ik Bl).
      + intros x a b Gr D B. eapply ran_grows; eauto.
      + intros x a b Ix S G B. rewrite S1 in S. eapply (IH x a b _ G j m t); auto; now rewrite S.
  Qed.

  (** What a type leaves. *)
  Lemma action_ran text k a g g' : run_action text k a g = (g', Ok tt) ->
    match a with AText x => In (k, text x) (g_out g') | AOnce n _ => In n (w_once (g_world g')) | ARaise _ => False end.
  Proof.
    destruct a as [x|n pr|e]; cbn [run_action]; intros H.
    - replace g' with (emit k (text x) g) by (unfold put, modify in H; congruence). cbn. apply in_or_app. right. now left.
    - destruct (mem n (w_once (g_world g))) eqn:M.
      + apply mem_spec in M. now replace g' with g by congruence.
      + replace g' with (once n pr k g) by congruence. cbn. apply in_or_app. right. now left.
    - discriminate.
  Qed.
  Lemma grows_action text k a : steps grows (run_action text k a).
  Proof. apply steps_action; [exact grows_refl| |]; intros; [intros g; apply gr_emit|apply gr_once]; apply grows_refl. Qed.
  Lemma actions_ran text k l g g' : for_each (run_action text k) l g = (g', Ok tt) ->
    (forall x, In (AText x) l -> In (k, text x) (g_out g')) /\ (forall n b, In (AOnce n b) l -> In n (w_once (g_world g'))).
  Proof.
    intros H.
    pose proof (for_ran (run_action text k) (fun a g' => match a with AText x => In (k, text x) (g_out g') | AOnce n _ => In n (w_once (g_world g')) | ARaise _ => False end) l
      (grows_action text k)) as Q.
    assert (Mo : forall (a : action) g g', grows g g' -> match a with AText x => In (k, text x) (g_out g) | AOnce n _ => In n (w_once (g_world g)) | ARaise _ => False end ->
      match a with AText x => In (k, text x) (g_out g') | AOnce n _ => In n (w_once (g_world g')) | ARaise _ => False end).
    { intros [x|n b|e] a1 a2 Gr; [now apply grows_out|now apply grows_once|auto]. }
    specialize (Q Mo g g' tt H (fun a g1 g2 _ _ => action_ran text k a g1 g2)). split.
    - intros x I. exact (Q _ I).
    - intros n b I. exact (Q _ I).
  Qed.
  Lemma type_ran t g' : ran (gen_type multi t) g' ->
    (forall x, In (AText x) (ti_body t) -> In (file_of multi (ti_section t), PText x (ti_id t)) (g_out g')) /\
    (forall n b, In (AOnce n b) (ti_body t) -> In n (w_once (g_world g'))).
  Proof.
    intros (g1 & g2 & [] & H & Gr). unfold gen_type in H. rewrite (sbind_ok _ _ _ _ _ (sink_value multi _ g1)) in H.
    apply bind_inv in H. destruct H as (g3 & [] & _ & H). apply bind_inv in H. destruct H as (g4 & [] & H4 & H).
    assert (C : grows g4 g2).
    { match type of H with ?m g4 = _ => assert (S : steps grows m); [|exact (step_of m _ _ _ S H)] end.
      apply steps_bind; [exact grows_trans|destruct (ti_claim t); [apply grows_put|apply steps_ret, grows_refl]|]. intros _. apply grows_put. }
    destruct (actions_ran _ _ _ _ _ H4) as (A & B). pose proof (grows_trans _ _ _ C Gr) as C'. split.
    - intros x I. eapply grows_out; [exact C'|]. exact (A x I).
    - intros n b I. eapply grows_once; [exact C'|]. exact (B n b I).
  Qed.
  Lemma forward_type_ran t g' : ran (forward_type t) g' ->
    (forall x, In (AText x) (ti_forward t) -> In (SHeader, PForward x (ti_id t)) (g_out g')) /\
    (forall n b, In (AOnce n b) (ti_forward t) -> In n (w_once (g_world g'))) /\ (forall n, ti_claim t = Some n -> In n (w_once (g_world g'))).
  Proof.
    intros (g1 & g2 & [] & H & Gr). unfold forward_type in H. apply bind_inv in H. destruct H as (g4 & [] & H4 & H).
    destruct (actions_ran _ _ _ _ _ H4) as (A & B).
    assert (C : grows g4 g2 /\ forall n, ti_claim t = Some n -> In n (w_once (g_world g2))).
    { destruct (ti_claim t) as [n|].
      - destruct (mem n (w_once (g_world g4))); [discriminate|]. split; [|intros n' [= <-]].
        + match type of H with (?a, _) = _ => replace g2 with a by congruence end. apply gr_claim, grows_refl.
        + match type of H with (?a, _) = _ => replace g2 with a by congruence end. cbn. apply in_or_app. right. now left.
      - replace g2 with g4 by (unfold ret in H; congruence). split; [apply grows_refl|discriminate]. }
    destruct C as (C & D). pose proof (grows_trans _ _ _ C Gr) as C'. repeat split.
    - intros x I. eapply grows_out; [exact C'|]. exact (A x I).
    - intros n b I. eapply grows_once; [exact C'|]. exact (B n b I).
    - intros n I. eapply grows_once; [exact Gr|]. exact (D n I).
  Qed.

  Lemma generate_ran w g' : generate p multi w = (g', Ok tt) -> forall j m, below (w_mods w) 0 j -> nth_error (w_mods w) j = Some m ->
    (forall f, In f (m_functions m) -> ran (gen_function p multi f) g') /\ (forall t, In t (m_types m) -> ran (gen_type multi t) g') /\
    (forall t, In t (m_types m) -> ti_kind t <> KEnum ->
      (forall x, In (AText x) (ti_forward t) -> In (SHeader, PForward x (ti_id t)) (g_out g')) /\
      (forall n b, In (AOnce n b) (ti_forward t) -> In n (w_once (g_world g'))) /\ (forall n, ti_claim t = Some n -> In n (w_once (g_world g')))).
  Proof.
    unfold generate. set (g := mk_gstate w _ _ _). intros H j m Bl Nj. unfold gen_root in H.
    rewrite (sbind_ok _ _ _ _ _ (eq_refl : gets g_world g = (g, Ok w))) in H. destruct (w_includes w) as [incs|]; [|discriminate].
    apply bind_inv in H. destruct H as (g1 & fwd & Cp & H). unfold captured in Cp.
    destruct (forward_module (length (w_mods w)) 0 (with_out [] g)) as [g0 [[]|]] eqn:F; [|discriminate].
    assert (g1 = with_out (g_out g) g0 /\ fwd = g_out g0) as [-> ->] by (split; congruence). clear Cp.
    pose proof (step_of _ _ _ _ (grows_forward (length (w_mods w)) 0) F) as C0.
    apply bind_inv in H. destruct H as (g2 & [] & H2 & H). pose proof (step_of _ _ _ _ (grows_for _ _ (fun s => grows_put SHeader (PInclude s))) H2) as C2.
    unfold sbind at 1, modify at 1 in H. unfold sbind at 1, modify at 1 in H.
    match type of H with gen_module _ _ _ _ ?s = _ => set (g3 := s) in H end.
    pose proof (step_of _ _ _ _ (grows_module _ _) H) as C3.
    assert (M3 : w_mods (g_world g3) = w_mods w).
    { destruct C0 as (C0 & _), C2 as (C2 & _). unfold g3. cbn. rewrite C2. cbn. exact C0. }
    assert (O3 : incl (w_once (g_world g0)) (w_once (g_world g3))) by (destruct C2 as (_ & C2 & _); exact C2).
    destruct (module_ran _ _ _ _ _ H j m) as (Rf & Rt); [now rewrite M3|now rewrite M3|]. split; [exact Rf|]. split; [exact Rt|].
    intros t It K. destruct (forward_type_ran t g0 (forward_ran _ _ _ _ _ F j m t Bl Nj It K)) as (A & B & D).
    assert (O : forall n, In n (w_once (g_world g0)) -> In n (w_once (g_world g'))).
    { intros n I. eapply grows_once; [exact C3|]. now apply O3. }
    repeat split.
    - intros x I. eapply grows_out; [exact C3|]. unfold g3. cbn. apply in_or_app. right. exact (A x I).
    - intros n b I. apply O. exact (B n b I).
    - intros n I. apply O. exact (D n I).
  Qed.
End Grow.
