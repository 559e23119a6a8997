From Verif.Model Require Import Py PyState Mangle Errors Overloading Module.
From Verif.Spec Require Import OverloadSpec ModuleSpec PolicySpec SectionSpec.
From Verif.Proofs Require Import StrLemmas ModuleProofs ModuleSteps ModuleNames ModulePaths Steps GenSteps EscapeProofs ScriptProofs.
From Coq Require Import Lia.
Open Scope string_scope.
Open Scope list_scope.
Open Scope st_scope.

Section Raises.
  Context (p : policy) (multi : bool) (mods : list modul).
  (** Starting with these modules, the computation keeps them and fails only with errors in [P]. *)
  Definition raises {A} (P : pyexc -> Prop) (m : st gstate A) : Prop :=
    forall g, w_mods (g_world g) = mods -> w_mods (g_world (fst (m g))) = mods /\ forall e, snd (m g) = Err e -> P e.
  Lemma ra_ret {A} P (a : A) : raises P (ret a).
  Proof. intros g E. split; [exact E|discriminate]. Qed.
  Lemma ra_bind {A B} P (m : st gstate A) (f : A -> st gstate B) : raises P m -> (forall a, raises P (f a)) -> raises P (sbind m f).
  Proof.
    intros M F g E. destruct (M g E) as (M1 & M2). unfold sbind. destruct (m g) as [g' [a|e]]; cbn [fst snd] in *; [now apply F|].
    split; [exact M1|]. intros e' X. apply M2. congruence.
  Qed.
  Lemma ra_for {A} P (f : A -> st gstate unit) l : (forall x, In x l -> raises P (f x)) -> raises P (for_each f l).
  Proof.
    induction l as [|x l IH]; intros F; cbn [for_each]; [apply ra_ret|]. apply ra_bind; [apply F; now left|]. intros _. apply IH.
    intros y I. apply F. now right.
  Qed.
  Lemma ra_modify P f : (forall g, w_mods (g_world (f g)) = w_mods (g_world g)) -> raises P (modify f).
  Proof. intros F g E. unfold modify. cbn [fst snd]. split; [now rewrite F|discriminate]. Qed.
  Lemma ra_put P k x : raises P (put k x).
  Proof. apply ra_modify. reflexivity. Qed.
  Lemma ra_calm {A} (P : pyexc -> Prop) (m : st gstate A) : steps calm m -> (forall g e, snd (m g) = Err e -> P e) -> raises P m.
  Proof. intros C F g E. destruct (C g) as (M & _). unfold same_mods in M. split; [congruence|apply F]. Qed.

  Definition fails (e : pyexc) : Prop :=
    (exists i m f, nth_error mods i = Some m /\ In f (m_functions m) /\ function_fails p f e) \/
    (exists i m t, nth_error mods i = Some m /\ In t (m_types m) /\ type_fails t e).

  Lemma ra_functions i m l : nth_error mods i = Some m -> (forall f, In f l -> In f (m_functions m)) -> raises fails (gen_functions p multi l).
  Proof.
    intros E. induction l as [|f l IH]; intros I; cbn [gen_functions]; [apply ra_ret|]. apply ra_bind.
    - apply ra_calm; [apply calm_function|]. intros g e X. left. exists i, m, f. split; [exact E|]. split; [apply I; now left|].
      destruct (gen_function p multi f g) as [g' r] eqn:G. cbn [snd] in X. subst r. exact (function_escape p multi f g g' e G).
    - intros a. apply ra_bind; [apply IH; intros u Iu; apply I; now right|]. intros rows. apply ra_ret.
  Qed.
  Lemma ra_action (P : pyexc -> Prop) text k a : (forall e, a = ARaise e -> P e) -> raises P (run_action text k a).
  Proof.
    intros H. destruct a as [t|n pr|e]; cbn [run_action]; [apply ra_put| |].
    - intros g E. destruct (mem n (w_once (g_world g))); cbn [fst snd]; (split; [exact E|discriminate]).
    - intros g E. cbn [fst snd raise]. split; [exact E|]. intros e' X. apply H. unfold raise in X. cbn [snd] in X. congruence.
  Qed.
  Lemma ra_forward_type i m t : nth_error mods i = Some m -> In t (m_types m) -> raises fails (forward_type t).
  Proof.
    intros E I. unfold forward_type. apply ra_bind.
    - apply ra_for. intros a Ia. apply ra_action. intros e ->. right. exists i, m, t. split; [exact E|]. split; [exact I|]. now left.
    - intros _. destruct (ti_claim t) as [n|] eqn:C; [|apply ra_ret]. intros g Eg. destruct (mem n (w_once (g_world g))); cbn [fst snd]; (split; [exact Eg|]); [|discriminate].
      intros e X. right. exists i, m, t. split; [exact E|]. split; [exact I|]. right; right. split; congruence.
  Qed.
  Lemma ra_gen_type i m t : nth_error mods i = Some m -> In t (m_types m) -> raises fails (gen_type multi t).
  Proof.
    intros E I. unfold gen_type. apply ra_bind.
    - apply ra_calm; [intros g; apply calm_sink|]. intros g e X. exfalso. unfold sink_for in X. destruct multi; [|discriminate]. destruct (mem _ _); discriminate.
    - intros k. apply ra_bind; [apply ra_put|]. intros _. apply ra_bind.
      + apply ra_for. intros a Ia. apply ra_action. intros e ->. right. exists i, m, t. split; [exact E|]. split; [exact I|]. right; now left.
      + intros _. apply ra_bind; [destruct (ti_claim t); [apply ra_put|apply ra_ret]|]. intros _. apply ra_put.
  Qed.
  Lemma ordered_in l t : In t (ordered l) -> In t l.
  Proof. unfold ordered. rewrite !in_app_iff, !filter_In. tauto. Qed.
  Lemma children_later i m j : wf mods -> nth_error mods i = Some m -> In j (m_submodules m) -> i < j /\ j < length mods.
  Proof.
    intros W E I. destruct (wf_sub _ W _ _ _ E I) as (mj & Ej & Pj). destruct (wf_parent _ W _ _ _ Ej Pj) as (L & _). split; [exact L|].
    now apply nth_valid in Ej.
  Qed.
  Lemma ra_gmod P i : i < length mods -> forall {B} (f : modul -> st gstate B), (forall m, nth_error mods i = Some m -> raises P (f m)) -> raises P (sbind (get_gmod i) f).
  Proof.
    intros L B f F g E. unfold sbind, get_gmod. rewrite E. destruct (valid_nth mods i L) as (m & Em). rewrite Em. exact (F m Em g E).
  Qed.
  Lemma ra_forward : wf mods -> forall fuel i, i < length mods -> length mods <= fuel + i -> raises fails (forward_module fuel i).
  Proof.
    intros W. induction fuel as [|fuel IH]; intros i L F; [lia|]. cbn [forward_module]. apply ra_gmod; [exact L|]. intros m E. apply ra_bind.
    - apply ra_for. intros t It. eapply ra_forward_type; [exact E|now apply ordered_in].
    - intros _. apply ra_for. intros j Ij. destruct (children_later _ _ _ W E Ij). apply IH; lia.
  Qed.
  Lemma ra_module : wf mods -> forall fuel i, i < length mods -> length mods <= fuel + i -> raises fails (gen_module p multi fuel i).
  Proof.
    intros W. induction fuel as [|fuel IH]; intros i L F; [lia|]. cbn [gen_module]. apply ra_gmod; [exact L|]. intros m E. apply ra_bind.
    - apply ra_for. intros j Ij. destruct (children_later _ _ _ W E Ij). apply IH; lia.
    - intros _. apply ra_bind; [eapply ra_functions; [exact E|auto]|]. intros rows. apply ra_bind; [apply ra_put|]. intros _.
      apply ra_bind; [apply ra_for; intros t It; eapply ra_gen_type; [exact E|now apply ordered_in]|]. intros _.
      apply ra_bind; [apply ra_for; intros t It; eapply ra_gen_type; [exact E|apply filter_In in It; tauto]|]. intros _.
      apply ra_bind; [intros g Eg; split; [exact Eg|discriminate]|]. intros _.
      apply ra_bind; [intros g Eg; split; [exact Eg|discriminate]|]. intros subs. apply ra_put.
  Qed.
  Lemma ra_captured P m : raises P m -> raises P (captured m).
  Proof.
    intros M g E. unfold captured. destruct (M (with_out [] g) E) as (M1 & M2). destruct (m (with_out [] g)) as [g1 [a|e]]; cbn [fst snd] in *;
      (split; [exact M1|]); [discriminate|]. intros e' X. apply M2. congruence.
  Qed.
  Lemma generate_fails w g e : wf mods -> w_mods w = mods -> generate p multi w = (g, Err e) ->
    fails e \/ (w_includes w = None /\ e = TypeError).
  Proof.
    intros W E G. destruct (wf_root _ W) as (m0 & E0 & _). apply nth_valid in E0. unfold generate in G.
    set (g0 := mk_gstate w _ _ _) in G. unfold gen_root in G. rewrite (sbind_ok _ _ _ _ _ (eq_refl : gets g_world g0 = (g0, Ok w))) in G.
    destruct (w_includes w) as [incs|] eqn:I; [|right; split; [reflexivity|unfold raise in G; congruence]]. left.
    match type of G with ?m g0 = _ => assert (Q : raises fails m) end.
    { rewrite E. apply ra_bind; [apply ra_captured, ra_forward; [exact W|lia|lia]|]. intros fwd.
      apply ra_bind; [apply ra_for; intros; apply ra_put|]. intros _. apply ra_bind; [apply ra_modify; reflexivity|]. intros _.
      apply ra_bind; [apply ra_modify; reflexivity|]. intros _. apply ra_module; [exact W|lia|lia]. }
    destruct (Q g0 E) as (_ & Q2). apply Q2. now rewrite G.
  Qed.
End Raises.

Section Top.
  Context {V : Type} (make : list string -> list (string * string) -> res V).
  Theorem script_fails p0 name ns cs w tr p multi g e : run make p0 cs (new_root name ns) = (w, tr) -> generate p multi w = (g, Err e) ->
    (exists f, in_tree m_functions w f /\ function_fails p f e) \/ (exists t, in_tree m_types w t /\ type_fails t e).
  Proof.
    intros H G. destruct (run_inv make p0 _ _ _ _ (root_wf name ns) (root_prefixed name ns) H) as (W & _ & _).
    destruct (generate_fails p multi (w_mods w) w g e W eq_refl G) as [[(i & m & f & A & B & C)|(i & m & t & A & B & C)]|(I & _)].
    - left. exists f. split; [exists i, m; auto|exact C].
    - right. exists t. split; [exists i, m; auto|exact C].
    - destruct (script_fields make p0 _ _ _ _ _ H) as (_ & _ & _ & X). congruence.
  Qed.
  (** The fuel is sufficient: [OutOfFuel] and [Unmodelled] are not among the errors. *)
End Top.
