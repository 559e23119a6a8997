From Verif.Model Require Import Py PyState Mangle Errors Overloading Module.
From Verif.Spec Require Import OverloadSpec ModuleSpec PolicySpec SectionSpec.
From Verif.Proofs Require Import StrLemmas OverloadProofs ModuleProofs ModuleSteps ModuleNames ModulePaths Steps GenSteps PruneProofs EscapeProofs ScriptProofs EscapeTop OfferProofs PlaceProofs.
From Coq Require Import Lia Permutation.
Open Scope string_scope.
Open Scope list_scope.
Open Scope st_scope.

(** * One-time definitions *)
Definition nodef (x : piece) : Prop := match x with PDefine _ => False | _ => True end.
Definition claims (t : titem) : list string := match ti_claim t with Some n => [n] | None => [] end.
Lemma definitions_app a b : definitions (a ++ b) = definitions a ++ definitions b.
Proof. unfold definitions. apply flat_map_app. Qed.
Lemma definitions_header l : Forall nodef l -> definitions (map (fun x => (SHeader, x)) l) = [].
Proof. induction 1 as [|x l N _ IH]; [reflexivity|]. unfold definitions in *. cbn [map flat_map snd]. rewrite IH. now destruct x. Qed.

Section Once.
  Context (p : policy) (multi : bool) (w : world).
  (** The names claimed so far are those defined, those pending and those claimed before. *)
  Definition pend (L : list string) (g : gstate) : Prop :=
    w_mods (g_world g) = w_mods w /\ Forall nodef (g_header g) /\ NoDup (w_once (g_world g)) /\
    Permutation (w_once (g_world g)) (definitions (g_out g) ++ L ++ w_once w).
  Lemma pend_perm L L' g : Permutation L L' -> pend L g -> pend L' g.
  Proof.
    intros P (A & H & B & C). split; [exact A|]. split; [exact H|]. split; [exact B|]. rewrite C. apply Permutation_app_head, Permutation_app_tail, P.
  Qed.
  Lemma pend_emit L k x g : nodef x -> pend L g -> pend L (emit k x g).
  Proof.
    intros N (A & H & B & C). split; [exact A|]. split; [exact H|]. split; [exact B|]. cbn [emit g_out g_world]. rewrite definitions_app.
    unfold definitions at 2. cbn [flat_map snd]. destruct x; try contradiction; cbn [app]; now rewrite app_nil_r.
  Qed.
  Lemma pend_define L n k g : pend (n :: L) g -> pend L (emit k (PDefine n) g).
  Proof.
    intros (A & H & B & C). split; [exact A|]. split; [exact H|]. split; [exact B|]. cbn [emit g_out g_world]. rewrite definitions_app.
    unfold definitions at 2. cbn [flat_map snd app]. rewrite C, <- app_assoc. reflexivity.
  Qed.
  Lemma nodup_snoc {A} (l : list A) n : NoDup l -> ~ In n l -> NoDup (l ++ [n]).
  Proof. intros N I. rewrite <- Permutation_cons_append. now constructor. Qed.
  Lemma pend_once L n pr k g : mem n (w_once (g_world g)) = false -> pend L g -> pend L (once n pr k g).
  Proof.
    intros M (A & H & B & C). apply mem_false in M. split; [exact A|]. split; [cbn; apply Forall_app; split; [exact H|destruct pr; repeat constructor]|].
    unfold once, add_once. cbn [g_world w_once g_out]. split; [now apply nodup_snoc|]. rewrite definitions_app.
    unfold definitions at 2. cbn [flat_map snd app]. rewrite C, <- !app_assoc. apply Permutation_app_head. rewrite app_assoc. rewrite <- Permutation_cons_append. reflexivity.
  Qed.
  Lemma pend_claim L n g : mem n (w_once (g_world g)) = false -> pend L g -> pend (n :: L) (emit SHeader (PProto n) (claim_state n g)).
  Proof.
    intros M (A & H & B & C). apply mem_false in M. apply pend_emit; [exact Logic.I|]. split; [exact A|]. split; [exact H|].
    unfold claim_state, add_once. cbn [g_world w_once g_out]. split; [now apply nodup_snoc|]. rewrite <- Permutation_cons_append, C.
    cbn [app]. apply Permutation_middle.
  Qed.
  Lemma pend_sink L s g : pend L g -> pend L (fst (sink_for multi s g)).
  Proof.
    intros H. unfold sink_for. destruct multi; [|exact H]. destruct s as [s|]; [|exact H]. destruct (mem s (g_started g)); [exact H|].
    cbn [fst]. apply pend_emit; [exact Logic.I|exact H].
  Qed.

  (** Forward declarations claim the names of the converters. *)
  Definition produces {A} (L : list string) (m : st gstate A) : Prop := forall L' g, pend L' g ->
    match snd (m g) with Ok _ => pend (L ++ L') (fst (m g)) | Err _ => exists L'', pend L'' (fst (m g)) end.
  Lemma pr_keeps {A} (m : st gstate A) : (forall L, keeps (pend L) m) -> produces [] m.
  Proof. intros K L' g H. pose proof (K L' g H). destruct (snd (m g)); [assumption|eauto]. Qed.
  Lemma pr_bind {A B} L1 L2 (m : st gstate A) (f : A -> st gstate B) : produces L1 m -> (forall a, produces L2 (f a)) -> produces (L1 ++ L2) (sbind m f).
  Proof.
    intros M F L' g H. specialize (M L' g H). unfold sbind. destruct (m g) as [g1 [a|e]]; cbn [fst snd] in *; [|exact M].
    specialize (F a _ _ M). destruct (snd (f a g1)); [|exact F]. eapply pend_perm; [|exact F]. rewrite !app_assoc. apply Permutation_app_tail, Permutation_app_comm.
  Qed.
  Lemma pr_for {A} (c : A -> list string) (f : A -> st gstate unit) l : (forall x, In x l -> produces (c x) (f x)) -> produces (flat_map c l) (for_each f l).
  Proof.
    induction l as [|x l IH]; intros F; cbn [for_each flat_map]; [intros L' g H; exact H|]. apply pr_bind; [apply F; now left|]. intros _. apply IH. intros y I. apply F. now right.
  Qed.
  Lemma pr_forward_type t : produces (claims t) (forward_type t).
  Proof.
    unfold forward_type. change (claims t) with ([] ++ claims t). apply pr_bind.
    - apply pr_keeps. intros L. apply keeps_for. intros a _. apply steps_action; [apply keeping_refl| |].
      + intros x _ g H. now apply pend_emit.
      + intros n pr g _ M H. now apply pend_once.
    - intros _. unfold claims. destruct (ti_claim t) as [n|]; [|intros L' g H; exact H]. intros L' g H.
      destruct (mem n (w_once (g_world g))) eqn:M; cbn [fst snd]; [eauto|]. now apply pend_claim.
  Qed.
  Fixpoint forward_claims (fuel i : nat) : list string :=
    match fuel with
    | O => []
    | S f => match nth_error (w_mods w) i with
             | Some m => flat_map claims (ordered (m_types m)) ++ flat_map (forward_claims f) (m_submodules m)
             | None => []
             end
    end.
  Lemma pr_gmod {B} L i (f : modul -> st gstate B) : (forall m, nth_error (w_mods w) i = Some m -> produces L (f m)) -> produces L (sbind (get_gmod i) f).
  Proof.
    intros F L' g H. unfold sbind, get_gmod. pose proof H as (A & _). rewrite A. destruct (nth_error (w_mods w) i) as [m|]; [apply F; auto|cbn [fst snd]; eauto].
  Qed.
  Lemma pr_forward fuel : forall i, produces (forward_claims fuel i) (forward_module fuel i).
  Proof.
    induction fuel as [|fuel IH]; intros i; cbn [forward_module forward_claims]; [intros L' g H; cbn; eauto|]. apply pr_gmod. intros m E. rewrite E.
    apply pr_bind; [apply pr_for; intros t _; apply pr_forward_type|]. intros _. apply pr_for. intros j _. apply IH.
  Qed.

  (** Generation defines them. *)
  Definition consumes {A} (L : list string) (m : st gstate A) : Prop := forall L' g, pend (L ++ L') g ->
    match snd (m g) with Ok _ => pend L' (fst (m g)) | Err _ => exists L'', pend L'' (fst (m g)) end.
  Lemma co_keeps {A} (m : st gstate A) : (forall L, keeps (pend L) m) -> consumes [] m.
  Proof. intros K L' g H. pose proof (K L' g H). destruct (snd (m g)); [assumption|eauto]. Qed.
  Lemma co_bind {A B} L1 L2 (m : st gstate A) (f : A -> st gstate B) : consumes L1 m -> (forall a, consumes L2 (f a)) -> consumes (L1 ++ L2) (sbind m f).
  Proof.
    intros M F L' g H. rewrite <- app_assoc in H. specialize (M _ g H). unfold sbind. destruct (m g) as [g1 [a|e]]; cbn [fst snd] in *; [|exact M].
    exact (F a _ _ M).
  Qed.
  Lemma co_bind0 {A B} L2 (m : st gstate A) (f : A -> st gstate B) : (forall L, keeps (pend L) m) -> (forall a, consumes L2 (f a)) -> consumes L2 (sbind m f).
  Proof. intros M F. change L2 with ([] ++ L2). apply co_bind; [now apply co_keeps|exact F]. Qed.
  Lemma co_bind1 {A B} L1 (m : st gstate A) (f : A -> st gstate B) : consumes L1 m -> (forall a, consumes [] (f a)) -> consumes L1 (sbind m f).
  Proof. intros M F. rewrite <- (app_nil_r L1). now apply co_bind. Qed.
  Lemma co_for {A} (c : A -> list string) (f : A -> st gstate unit) l : (forall x, In x l -> consumes (c x) (f x)) -> consumes (flat_map c l) (for_each f l).
  Proof.
    induction l as [|x l IH]; intros F; cbn [for_each flat_map]; [intros L' g H; exact H|]. apply co_bind; [apply F; now left|]. intros _. apply IH. intros y I. apply F. now right.
  Qed.
  Lemma k_put L k x : nodef x -> keeps (pend L) (put k x).
  Proof. intros N. apply steps_modify. intros g H. now apply pend_emit. Qed.
  Lemma co_type t : consumes (claims t) (gen_type multi t).
  Proof.
    unfold gen_type. apply co_bind0; [intros L g H; now apply pend_sink|]. intros k. apply co_bind0; [intros L; now apply k_put|]. intros _.
    apply co_bind0.
    - intros L. apply keeps_for. intros a _. apply steps_action; [apply keeping_refl| |].
      + intros x _ g H. now apply pend_emit.
      + intros n pr g _ M H. now apply pend_once.
    - intros _. apply co_bind1; [|intros _; apply co_keeps; intros L; now apply k_put]. unfold claims. destruct (ti_claim t) as [n|].
      + intros L' g H. unfold put, modify. cbn [fst snd]. now apply pend_define.
      + intros L' g H. exact H.
  Qed.
  Fixpoint gen_claims (fuel i : nat) : list string :=
    match fuel with
    | O => []
    | S f => match nth_error (w_mods w) i with
             | Some m => flat_map (gen_claims f) (m_submodules m) ++ flat_map claims (ordered (m_types m)) ++ flat_map claims (filter (of_kind KEnum) (m_types m))
             | None => []
             end
    end.
  Lemma co_gmod {B} L i (f : modul -> st gstate B) : (forall m, nth_error (w_mods w) i = Some m -> consumes L (f m)) -> consumes L (sbind (get_gmod i) f).
  Proof.
    intros F L' g H. unfold sbind, get_gmod. pose proof H as (A & _). rewrite A. destruct (nth_error (w_mods w) i) as [m|]; [apply F; auto|cbn [fst snd]; eauto].
  Qed.
  Lemma k_functions L l : keeps (pend L) (gen_functions p multi l).
  Proof.
    induction l as [|f l IH]; cbn [gen_functions]; [apply keeps_ret|]. apply keeps_bind; [|intros a; apply keeps_bind; [exact IH|intros; apply keeps_ret]].
    apply keeps_function.
    - intros k e g (A & H & B & C). split; [exact A|]. split; [exact H|]. split; [exact B|exact C].
    - intros g H. now apply pend_sink.
    - intros g H. now apply pend_emit.
    - intros c g _ H. now apply pend_emit.
    - intros n g H. now apply pend_emit.
  Qed.
  Lemma co_module fuel : forall i, consumes (gen_claims fuel i) (gen_module p multi fuel i).
  Proof.
    induction fuel as [|fuel IH]; intros i; cbn [gen_module gen_claims]; [intros L' g H; cbn; eauto|]. apply co_gmod. intros m E. rewrite E.
    apply co_bind; [apply co_for; intros j _; apply IH|]. intros _. apply co_bind0; [intros L; apply k_functions|]. intros rows.
    apply co_bind0; [intros L; now apply k_put|]. intros _. apply co_bind; [apply co_for; intros t _; apply co_type|]. intros _.
    apply co_bind1; [apply co_for; intros t _; apply co_type|]. intros _. apply co_bind0.
    - intros L g (A & H & B & C). unfold flush_header. cbn [fst]. split; [exact A|]. split; [constructor|]. split; [exact B|]. cbn [g_world g_out].
      rewrite definitions_app, (definitions_header _ H), app_nil_r. exact C.
    - intros _. apply co_bind0; [intros L; apply steps_gets, keeping_refl|]. intros subs. apply co_keeps. intros L. now apply k_put.
  Qed.
  Lemma same_claims : (forall i m t, nth_error (w_mods w) i = Some m -> In t (m_types m) -> ti_kind t = KEnum -> ti_claim t = None) ->
    forall fuel i, Permutation (forward_claims fuel i) (gen_claims fuel i).
  Proof.
    intros NE. induction fuel as [|fuel IH]; intros i; cbn [forward_claims gen_claims]; [constructor|]. destruct (nth_error (w_mods w) i) as [m|] eqn:E; [|constructor].
    assert (Z : flat_map claims (filter (of_kind KEnum) (m_types m)) = []).
    { assert (Q : forall l, incl l (m_types m) -> flat_map claims (filter (of_kind KEnum) l) = []).
      { induction l as [|t l IHl]; intros Il; cbn [filter]; [reflexivity|]. assert (IHl' : flat_map claims (filter (of_kind KEnum) l) = []) by (apply IHl; intros x Ix; apply Il; now right).
        destruct (of_kind KEnum t) eqn:K; [|exact IHl']. cbn [flat_map]. rewrite IHl', app_nil_r. unfold claims. unfold of_kind in K.
        destruct (kind_eq_dec (ti_kind t) KEnum) as [Kt|]; [|discriminate]. rewrite (NE i m t E); auto. apply Il. now left. }
      apply Q, incl_refl. }
    rewrite Z, app_nil_r, Permutation_app_comm. apply Permutation_app_tail. induction (m_submodules m) as [|j l IHl]; cbn [flat_map]; [constructor|].
    now rewrite (IH j), IHl.
  Qed.
  Lemma defined_once g r : NoDup (w_once w) -> (forall i m t, nth_error (w_mods w) i = Some m -> In t (m_types m) -> ti_kind t = KEnum -> ti_claim t = None) ->
    generate p multi w = (g, r) -> exists L, pend L g /\ (r = Ok tt -> L = []).
  Proof.
    unfold generate. set (g0 := mk_gstate w _ _ _). intros ND NE H. unfold gen_root in H.
    assert (P0 : forall o, definitions o = [] -> pend [] (mk_gstate w o ["__main__"] [])).
    { intros o D. split; [reflexivity|]. split; [constructor|]. split; [exact ND|]. cbn [g_world g_out]. rewrite D. reflexivity. }
    assert (D0 : definitions (g_out g0) = []) by (cbn [g0 g_out]; destruct multi; reflexivity).
    rewrite (sbind_ok _ _ _ _ _ (eq_refl : gets g_world g0 = (g0, Ok w))) in H. destruct (w_includes w) as [incs|].
    2: { exists []. replace g with g0 by (unfold raise in H; congruence). split; [now apply P0|reflexivity]. }
    unfold captured at 1 in H. unfold sbind at 1 in H.
    pose proof (pr_forward (length (w_mods w)) 0 [] (with_out [] g0) (P0 [] eq_refl)) as F1.
    destruct (forward_module (length (w_mods w)) 0 (with_out [] g0)) as [g1 [a|e]] eqn:F; cbn [fst snd] in F1.
    - rewrite app_nil_r in F1.
      assert (FI : forall l s, for_each (fun s => put SHeader (PInclude s)) l s = (with_out (g_out s ++ map (fun s => (SHeader, PInclude s)) l) s, Ok tt)).
      { induction l as [|x l IHl]; intros s; cbn [for_each map]; [rewrite app_nil_r; destruct s; reflexivity|]. unfold put.
        rewrite (sbind_ok _ _ _ _ _ (eq_refl : modify (emit SHeader (PInclude x)) s = (emit SHeader (PInclude x) s, Ok tt))). fold put. rewrite IHl.
        unfold with_out, emit. cbn [g_out g_world g_started g_header]. now rewrite <- app_assoc. }
      rewrite (sbind_ok _ _ _ _ _ (FI incs _)) in H. unfold sbind at 1, modify at 1 in H. unfold sbind at 1, modify at 1 in H.
      match type of H with gen_module _ _ _ _ ?s = _ => set (g2 := s) in H end.
      assert (K : pend (gen_claims (length (w_mods w)) 0) g2).
      { eapply pend_perm; [apply (same_claims NE)|]. destruct F1 as (A & Hh & B & C). split; [exact A|]. split; [exact Hh|]. split; [exact B|].
        unfold g2, with_out, drop_includes. cbn [g_out g_world w_once]. rewrite !definitions_app, D0.
        replace (definitions (map (fun s => (SHeader, PInclude s)) incs)) with (@nil string); [exact C|].
        clear. induction incs as [|x l IHl]; [reflexivity|exact IHl]. }
      pose proof (co_module (length (w_mods w)) 0 [] g2) as Q. rewrite app_nil_r in Q. specialize (Q K). rewrite H in Q. cbn [fst snd] in Q.
      destruct r as [[]|e]; [exists []; auto|]. destruct Q as (L & Q). exists L. split; [exact Q|discriminate].
    - destruct F1 as (L & A & Hh & B & C).
      exists (definitions (g_out g1) ++ L). replace g with (with_out (g_out g0) g1) by congruence. replace r with (Err e : res unit) by congruence.
      split; [|discriminate]. split; [exact A|]. split; [exact Hh|]. split; [exact B|]. cbn [with_out g_out g_world]. rewrite D0. cbn [app]. now rewrite <- app_assoc.
  Qed.
End Once.
