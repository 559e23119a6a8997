From Verif.Model Require Import Py PyState Mangle Errors Overloading Module.
From Verif.Spec Require Import OverloadSpec ModuleSpec PolicySpec.
From Verif.Proofs Require Import StrLemmas OverloadProofs ModuleProofs ModuleSteps PruneProofs.
From Coq Require Import Lia.
Open Scope string_scope.
Open Scope list_scope.
Open Scope st_scope.

Section Sim.
  Context (h : handler) (p : policy) (multi : bool).

  Definition good_module (m : modul) : Prop := forall f, In f (m_functions m) -> accepted h f /\ one_section f.
  Definition mod_rel (m m' : modul) : Prop := pruned_module m m' /\ good_module m.
  Definition world_rel (w w' : world) : Prop :=
    Forall2 mod_rel (w_mods w) (w_mods w') /\ w_section w = w_section w' /\ w_includes w = w_includes w' /\ w_once w = w_once w'.
  Definition sim (a b : gstate) : Prop :=
    world_rel (g_world a) (g_world b) /\ essential (g_out a) = essential (g_out b) /\ g_header a = g_header b.

  Definition simulates {A B} (R : A -> B -> Prop) (m : st gstate A) (m' : st gstate B) : Prop :=
    forall a b, sim a b -> sim (fst (m a)) (fst (m' b)) /\
      match snd (m a), snd (m' b) with Ok x, Ok y => R x y | Err e, Err e' => e = e' | _, _ => False end.

  Lemma sim_ret {A B} (R : A -> B -> Prop) x y : R x y -> simulates R (ret x) (ret y).
  Proof. intros H a b S. split; [exact S|exact H]. Qed.
  Lemma sim_raise {A B} (R : A -> B -> Prop) e : simulates R (raise e) (raise e).
  Proof. intros a b S. split; [exact S|reflexivity]. Qed.
  Lemma sim_bind {A B C D} (R : A -> B -> Prop) (Q : C -> D -> Prop) m m' f f' :
    simulates R m m' -> (forall x y, R x y -> simulates Q (f x) (f' y)) -> simulates Q (sbind m f) (sbind m' f').
  Proof.
    intros M F a b S. destruct (M a b S) as [S' X]. unfold sbind. destruct (m a) as [a' [x|e]], (m' b) as [b' [y|e']]; cbn [fst snd] in *; try contradiction.
    - exact (F x y X a' b' S').
    - auto.
  Qed.
  Lemma sim_modify (f : gstate -> gstate) : (forall a b, sim a b -> sim (f a) (f b)) -> simulates eq (modify f) (modify f).
  Proof. intros F a b S. split; [exact (F a b S)|reflexivity]. Qed.
  Lemma sim_emit k x a b : sim a b -> sim (emit k x a) (emit k x b).
  Proof.
    intros (W & O & H). split; [exact W|]. split; [|exact H]. unfold essential in *. cbn [emit g_out]. now rewrite !filter_app, O.
  Qed.
  Lemma sim_put k x : simulates eq (put k x) (put k x).
  Proof. apply sim_modify. intros a b. apply sim_emit. Qed.
  Lemma sim_for {A} (f f' : A -> st gstate unit) l : (forall x, simulates eq (f x) (f' x)) -> simulates eq (for_each f l) (for_each f' l).
  Proof.
    intros F. induction l as [|x l IH]; cbn [for_each]; [now apply sim_ret|]. eapply sim_bind; [apply F|]. intros _ _ _. exact IH.
  Qed.
  Lemma sim_weaken {A B} (R Q : A -> B -> Prop) m m' : (forall x y, R x y -> Q x y) -> simulates R m m' -> simulates Q m m'.
  Proof.
    intros I M a b S. destruct (M a b S) as [S' X]. split; [exact S'|]. destruct (snd (m a)), (snd (m' b)); auto.
  Qed.
  Lemma sim_once a b : sim a b -> w_once (g_world a) = w_once (g_world b).
  Proof. intros ((_ & _ & _ & E) & _). exact E. Qed.

  Lemma sim_sink s : simulates eq (sink_for multi s) (sink_for multi s).
  Proof.
    intros a b S. destruct (sink_for_adds multi s a) as (a' & -> & (M & O & H)), (sink_for_adds multi s b) as (b' & -> & (M' & O' & H')).
    cbn [fst snd]. split; [|reflexivity]. destruct S as ((W1 & W2 & W3 & W4) & So & Sh).
    destruct M as (M1 & M2 & M3 & M4), M' as (M1' & M2' & M3' & M4'). rewrite app_nil_r in O, O'.
    split; [|split; congruence]. split; [now rewrite M1, M1'|]. repeat split; congruence.
  Qed.

  Lemma sim_adds l a a' b b' : sim a b -> adds l a a' -> adds l b b' -> sim a' b'.
  Proof.
    intros ((W1 & W2 & W3 & W4) & So & Sh) ((M1 & M2 & M3 & M4) & O & H) ((M1' & M2' & M3' & M4') & O' & H').
    split; [|split; congruence]. split; [now rewrite M1, M1'|]. repeat split; congruence.
  Qed.

  Lemma sim_functions l l' : pruned_sets l l' -> (forall f, In f l -> accepted h f /\ one_section f) ->
    simulates eq (gen_functions (Some h) multi l) (gen_functions p multi l').
  Proof.
    induction 1 as [|f ks l l' K N P IH|f l l' K P IH]; intros G.
    - cbn [gen_functions]. now apply sim_ret.
    - destruct (G f (or_introl eq_refl)) as [A O]. pose proof (dirty multi h f ks K A O) as D.
      destruct ks as [|w r]; [now destruct N|]. destruct D as (out & res & D1 & D2).
      cbn [gen_functions]. eapply (sim_bind eq).
      + intros a b S. destruct (D1 a) as (a' & E1 & A1), (D2 p b) as (b' & E2 & A2). rewrite E1, E2. cbn [fst snd].
        split; [exact (sim_adds _ _ _ _ _ S A1 A2)|]. destruct res; reflexivity.
      + intros x y <-. eapply (sim_bind eq); [apply IH; intros u I; apply G; now right|]. intros rows rows' <-. now apply sim_ret.
    - destruct (G f (or_introl eq_refl)) as [A O]. pose proof (dirty multi h f [] K A O) as D. cbn iota in D.
      cbn [gen_functions]. intros a b S. destruct (D a) as (a' & E & A1). unfold sbind. rewrite E.
      assert (S' : sim a' b) by exact (sim_adds [] _ _ _ _ S A1 (adds_refl b)).
      destruct (IH (fun u I => G u (or_intror I)) a' b S') as [S2 X].
      destruct (gen_functions (Some h) multi l a') as [a2 [r|e]], (gen_functions p multi l' b) as [b2 [r'|e']]; cbn [fst snd] in *; try contradiction.
      + subst r'. split; [exact S2|reflexivity].
      + subst e'. split; [exact S2|reflexivity].
  Qed.

  Lemma sim_action text k a : simulates eq (run_action text k a) (run_action text k a).
  Proof.
    destruct a as [t|n pr|e]; cbn [run_action]; [apply sim_put| |apply sim_raise].
    intros a b S. rewrite (sim_once a b S). destruct (mem n (w_once (g_world b))); [split; [exact S|reflexivity]|].
    cbn [fst snd]. split; [|reflexivity]. destruct S as ((W1 & W2 & W3 & W4) & So & Sh). unfold once.
    split; [split; [exact W1|]; repeat split; cbn; congruence|]. cbn [g_out g_header]. split; [|congruence].
    unfold essential in *. now rewrite !filter_app, So.
  Qed.
  Lemma sim_forward_type t : simulates eq (forward_type t) (forward_type t).
  Proof.
    unfold forward_type. eapply (sim_bind eq); [apply sim_for; intros x; apply sim_action|]. intros _ _ _.
    destruct (ti_claim t) as [n|]; [|now apply sim_ret]. intros a b S. rewrite (sim_once a b S).
    destruct (mem n (w_once (g_world b))); [split; [exact S|reflexivity]|]. cbn [fst snd]. split; [|reflexivity].
    apply sim_emit. destruct S as ((W1 & W2 & W3 & W4) & So & Sh).
    split; [split; [exact W1|]; repeat split; cbn; congruence|]. split; assumption.
  Qed.
  Lemma sim_gen_type t : simulates eq (gen_type multi t) (gen_type multi t).
  Proof.
    unfold gen_type. eapply (sim_bind eq); [apply sim_sink|]. intros k k' <-.
    eapply (sim_bind eq); [apply sim_put|]. intros _ _ _.
    eapply (sim_bind eq); [apply sim_for; intros x; apply sim_action|]. intros _ _ _.
    eapply (sim_bind eq); [destruct (ti_claim t); [apply sim_put|now apply sim_ret]|]. intros _ _ _. apply sim_put.
  Qed.
  Lemma sim_gmod i : simulates mod_rel (get_gmod i) (get_gmod i).
  Proof.
    intros a b S. unfold get_gmod. cbn [fst snd]. split; [exact S|]. destruct S as ((W1 & _) & _).
    revert i. induction W1 as [|m m' l l' R W IH]; intros [|i]; cbn; auto; exact (IH i).
  Qed.
  Lemma mod_rel_eq m m' : mod_rel m m' -> m_types m' = m_types m /\ m_submodules m' = m_submodules m /\ m_prefix m' = m_prefix m /\ m_name m' = m_name m.
  Proof. intros ((l & -> & _) & _). repeat split. Qed.

  Lemma sim_forward fuel : forall i, simulates eq (forward_module fuel i) (forward_module fuel i).
  Proof.
    induction fuel as [|fuel IH]; intros i; cbn [forward_module]; [apply sim_raise|].
    eapply sim_bind; [apply sim_gmod|]. intros m m' R. destruct (mod_rel_eq _ _ R) as (-> & -> & _).
    eapply (sim_bind eq); [apply sim_for; intros x; apply sim_forward_type|]. intros _ _ _. apply sim_for. exact IH.
  Qed.
  Lemma sim_flush : simulates eq flush_header flush_header.
  Proof.
    intros a b (W & O & H). cbn [flush_header fst snd]. split; [|reflexivity]. split; [exact W|]. cbn [g_out g_header]. split; [|reflexivity].
    unfold essential in *. now rewrite !filter_app, O, H.
  Qed.
  Lemma sim_module fuel : forall i, simulates eq (gen_module (Some h) multi fuel i) (gen_module p multi fuel i).
  Proof.
    induction fuel as [|fuel IH]; intros i; cbn [gen_module]; [apply sim_raise|].
    eapply sim_bind; [apply sim_gmod|]. intros m m' R. destruct (mod_rel_eq _ _ R) as (-> & -> & -> & _).
    destruct R as ((l & -> & P) & G). cbn [m_functions with_functions].
    eapply (sim_bind eq); [apply sim_for; exact IH|]. intros _ _ _.
    eapply (sim_bind eq); [apply sim_functions; [exact P|exact G]|]. intros rows rows' <-.
    eapply (sim_bind eq); [apply sim_put|]. intros _ _ _.
    eapply (sim_bind eq); [apply sim_for; intros x; apply sim_gen_type|]. intros _ _ _.
    eapply (sim_bind eq); [apply sim_for; intros x; apply sim_gen_type|]. intros _ _ _.
    eapply (sim_bind eq); [apply sim_flush|]. intros _ _ _.
    eapply (sim_bind eq); [|intros subs subs' <-; apply sim_put].
    intros a b S. unfold gets. cbn [fst snd]. split; [exact S|]. apply flat_map_ext. intros j.
    pose proof (sim_gmod j a b S) as [_ X]. unfold get_gmod in X. cbn [snd] in X.
    destruct (nth_error (w_mods (g_world a)) j) as [x|], (nth_error (w_mods (g_world b)) j) as [y|]; try contradiction; [|reflexivity].
    destruct (mod_rel_eq _ _ X) as (_ & _ & -> & ->). reflexivity.
  Qed.
  Lemma sim_with_out o o' a b : sim a b -> essential o = essential o' -> sim (with_out o a) (with_out o' b).
  Proof. intros (W & O & H) E. split; [exact W|]. split; [exact E|exact H]. Qed.
  Lemma sim_captured m m' : simulates eq m m' -> simulates (fun x y => essential x = essential y) (captured m) (captured m').
  Proof.
    intros M a b S. assert (S0 : sim (with_out [] a) (with_out [] b)) by (apply sim_with_out; [exact S|reflexivity]).
    destruct (M _ _ S0) as [S' X]. unfold captured. destruct S as (W & O & H).
    destruct (m (with_out [] a)) as [a' [x|e]], (m' (with_out [] b)) as [b' [y|e']]; cbn [fst snd] in *; try contradiction.
    - split; [apply sim_with_out; assumption|]. apply S'.
    - split; [apply sim_with_out; assumption|exact X].
  Qed.
  Lemma sim_root : simulates eq (gen_root (Some h) multi) (gen_root p multi).
  Proof.
    unfold gen_root. eapply (sim_bind world_rel).
    { intros a b S. unfold gets. cbn [fst snd]. split; [exact S|apply S]. }
    intros w w' (W1 & W2 & W3 & W4). rewrite W3. destruct (w_includes w') as [incs|]; [|apply sim_raise].
    assert (length (w_mods w) = length (w_mods w')) as -> by (clear - W1; induction W1; cbn; congruence).
    eapply sim_bind; [apply sim_captured, sim_forward|]. intros fwd fwd' E.
    eapply (sim_bind eq); [apply sim_for; intros x; apply sim_put|]. intros _ _ _.
    eapply (sim_bind eq); [apply sim_modify; intros a b ((V1 & V2 & V3 & V4) & O & H); split; [split; [exact V1|]; repeat split; cbn; congruence|split; assumption]|].
    intros _ _ _. eapply (sim_bind eq).
    { intros a b S. unfold modify. cbn [fst snd]. split; [|reflexivity]. apply sim_with_out; [exact S|].
      unfold essential in *. rewrite !filter_app, E. f_equal. apply S. }
    intros _ _ _. apply sim_module.
  Qed.

  Theorem generation w w' : (forall m f, In m (w_mods w) -> In f (m_functions m) -> accepted h f /\ one_section f) -> pruned w w' ->
    snd (generate (Some h) multi w) = snd (generate p multi w') /\
    essential (g_out (fst (generate (Some h) multi w))) = essential (g_out (fst (generate p multi w'))).
  Proof.
    intros G (P & P2 & P3 & P4). unfold generate.
    assert (S : sim (mk_gstate w (if multi then [(SMain, PCommonHeader)] else []) ["__main__"] []) (mk_gstate w' (if multi then [(SMain, PCommonHeader)] else []) ["__main__"] [])).
    { split; [|split; reflexivity]. split; [|auto]. cbn [g_world]. 
      assert (G' : forall m, In m (w_mods w) -> good_module m) by (intros m I f J; eapply G; eauto).
      clear - P G'. induction P as [|m m' l l' R P IH]; constructor; [split; [exact R|apply G'; now left]|]. apply IH. intros x I. apply G'. now right. }
    destruct (sim_root _ _ S) as [(_ & O & _) X]. split; [|exact O].
    destruct (snd (gen_root (Some h) multi _)) as [[]|e], (snd (gen_root p multi _)) as [[]|e']; try contradiction; congruence.
  Qed.
End Sim.
