(** Which methods the helper classes override once all forward declarations have been generated. *)
From Verif.Model Require Import Py PyState Hierarchy MethodTable Dispatch.
From Verif.Spec Require Import HierarchySpec MethodTableSpec VirtualSpec.
From Verif.Proofs Require Import StrLemmas HierarchyProofs PureProofs PureScript AbstractProofs HelperProofs HierarchyTop.
From Coq Require Import Lia.
Open Scope list_scope.

Lemma fold_first ms : forall h p, (forall m, In m ms -> mt_virtual m = true) ->
  In p (hp_virtuals (fold_left (fun h m => add_virtual_method false m h) ms h)) ->
  In p (hp_virtuals h) \/ exists a b, ms = a ++ p :: b /\ (forall x, In x a -> signature x <> signature p) /\
    forall x, In x (hp_virtuals h) -> signature x <> signature p.
Proof.
  induction ms as [|m ms IH]; intros h p V H; cbn [fold_left] in H; [now left|].
  assert (Vm : mt_virtual m = true) by (apply V; now left).
  destruct (IH _ p (fun x Hx => V x (or_intror Hx)) H) as [X|(a & b & -> & A1 & A2)].
  - unfold add_virtual_method in X. destruct (existsb _ _) eqn:Ex; [now left|]. cbn [hp_virtuals] in X. apply in_app_iff in X.
    destruct X as [X|[<-|[]]]; [now left|]. right. exists [], ms. split; [reflexivity|]. split; [intros x []|].
    intros x Hx S. assert (E : existsb (fun e => matches_signature m e) (hp_virtuals h) = true); [|congruence].
    apply existsb_exists. exists x. split; [assumption|]. now apply matches_eq.
  - right. exists (m :: a), b. split; [reflexivity|]. destruct (add_virtual_in m h Vm) as (B1 & B2 & q & B3 & B4). split.
    + intros x [<-|Hx]; [|auto]. intros S. apply (A2 q B3). congruence.
    + intros x Hx. apply A2. now apply B1.
Qed.

Lemma app_split {B} (x y a : list B) p b : x ++ y = a ++ p :: b -> (exists c, x = a ++ p :: c) \/ exists c, a = x ++ c /\ y = c ++ p :: b.
Proof.
  revert a. induction x as [|z x IH]; intros a E; [right; exists a; auto|]. destruct a as [|z' a]; cbn in E; injection E as -> E.
  - left. now exists x.
  - destruct (IH a E) as [(c & ->)|(c & -> & ->)]; [left; now exists c|right; now exists c].
Qed.
Lemma flat_split {A B} (f : A -> list B) (l : list A) a p b : flat_map f l = a ++ p :: b ->
  exists l1 c l2, l = l1 ++ c :: l2 /\ In p (f c) /\ forall d, In d l1 -> forall x, In x (f d) -> In x a.
Proof.
  revert a. induction l as [|c l IH]; intros a E; cbn in E; [destruct a; discriminate|].
  destruct (app_split _ _ _ _ _ E) as [(r & Er)|(a' & -> & E')].
  - exists [], c, l. split; [reflexivity|]. split; [rewrite Er; apply in_or_app; right; now left|intros d []].
  - destruct (IH a' E') as (l1 & d & l2 & -> & Hp & Ha). exists (c :: l1), d, l2. split; [reflexivity|]. split; [assumption|].
    intros e [<-|He] x Hx; apply in_or_app; [now left|right; eauto].
Qed.
Lemma filter_split {A} (f : A -> bool) l : forall a p b, filter f l = a ++ p :: b ->
  exists l1 l2, l = l1 ++ p :: l2 /\ filter f l1 = a.
Proof.
  induction l as [|x l IH]; intros a p b E; cbn in E; [destruct a; discriminate|]. destruct (f x) eqn:F.
  - destruct a as [|y a]; cbn in E; injection E as <- E.
    + exists [], l. auto.
    + destruct (IH a p b E) as (l1 & l2 & -> & H). exists (x :: l1), l2. split; [reflexivity|]. cbn. now rewrite F, H.
  - destruct (IH a p b E) as (l1 & l2 & -> & H). exists (x :: l1), l2. split; [reflexivity|]. cbn. now rewrite F.
Qed.

Section Helper.
  Variables (dn ds : bool) (proxy : method -> bool).
  Notation step := (run_hcall dn ds proxy).
  Notation script := (hscript dn ds proxy).

  Definition forwards (l : list nat) : list hcall := map HForward l.

  Lemma forward_step w (W : wf w) i : let w' := fst (step (HForward i) w) in
    (forall c, bases w' c = bases w c) /\ length w' = length w /\ (forall c x, In x (wrapped_methods w' c) <-> In x (wrapped_methods w c)) /\
    (forall c, enabled w' c = true -> enabled w c = true).
  Proof.
    intros w'. pose proof (step_exactly dn ds proxy w W (HForward i)) as E. fold w' in E.
    remember (HForward i) as c eqn:Ec. destruct E as [c|d k H A D|j d k K|j n k K|j f k K Fk|j b|c j f T Qf]; try discriminate.
    - repeat split; auto.
    - injection Ec as ->. split; [|split; [|split]].
      + intros c. unfold bases. rewrite change_nth. destruct (Nat.eqb c i); [|reflexivity]. destruct (nth_error w c); cbn; [apply Fk|reflexivity].
      + apply change_length.
      + intros c x. apply (wrapped_change proxy). intros k0. apply Fk.
      + intros c. apply enabled_back; [assumption| |]; intros k0; apply Fk.
    - split; [|split; [|split]].
      + intros c0. unfold bases. rewrite change_nth. destruct (Nat.eqb c0 j); [|reflexivity]. destruct (nth_error w c0); cbn; [apply Qf|reflexivity].
      + apply change_length.
      + intros c0 x. apply (wrapped_change proxy). intros k0. apply Qf.
      + intros c0. apply enabled_back; [assumption| |]; intros k0; [apply Qf|]. destruct (Qf k0) as (_ & _ & _ & -> & _). auto.
  Qed.
  Lemma forwards_script l : forall w, wf w -> let w' := fst (script (forwards l) w) in
    (forall c, bases w' c = bases w c) /\ length w' = length w /\ (forall c x, In x (wrapped_methods w' c) <-> In x (wrapped_methods w c)) /\
    (forall c, enabled w' c = true -> enabled w c = true).
  Proof.
    induction l as [|i l IH]; intros w W; cbn [forwards map hscript fst]; [repeat split; auto|].
    destruct (forward_step w W i) as (A1 & A2 & A3 & A4).
    assert (W' : wf (fst (step (HForward i) w))) by (eapply effect_wf; [exact W|now apply step_effect]).
    destruct (IH _ W') as (B1 & B2 & B3 & B4). cbn zeta in *. split; [|split; [|split]].
    - intros c. now rewrite B1, A1.
    - rewrite <- A2. exact B2.
    - intros c x. rewrite B3. apply A3.
    - intros c H. now apply A4, B4.
  Qed.

  Variables (decls : list hcall) (order : list nat).
  Hypothesis ND : forall j b, ~ In (HDisable j b) decls.
  Hypothesis NF : forall j, ~ In (HForward j) decls.
  Hypothesis Once : NoDup order.
  Notation cs := (decls ++ forwards order).
  Notation w := (fst (script cs [])).
  Notation answers := (snd (script cs [])).

  Lemma in_forwards x l : In x (forwards l) -> exists i, x = HForward i /\ In i l.
  Proof. unfold forwards. intros H. apply in_map_iff in H. destruct H as (i & <- & H). eauto. Qed.

  Lemma helper_content i l h : In i order -> i < length w -> line (bases w) i l ->
    (forall j k, In j l -> nth_error w j = Some k -> k_disabled k = false) -> helper_at w i = Some h ->
    (forall c m, In c l -> In m (wrapped_methods w c) -> mt_virtual m = true -> exists p, In p (hp_virtuals h) /\ signature p = signature m) /\
    (forall p, In p (hp_virtuals h) -> mt_virtual p = true /\ exists before c after, l = before ++ c :: after /\ In p (wrapped_methods w c) /\
       forall b x, In b before -> In x (wrapped_methods w b) -> mt_virtual x = true -> signature x <> signature p).
  Proof.
    intros Hi Lw Ln En Hh. apply in_split in Hi. destruct Hi as (o1 & o2 & Eo).
    assert (Ni : ~ In i o1 /\ ~ In i o2). { rewrite Eo in Once. apply NoDup_remove_2 in Once. rewrite in_app_iff in Once. tauto. }
    set (w1 := fst (script (decls ++ forwards o1) [])). set (w2 := fst (step (HForward i) w1)).
    assert (Ew : w = fst (script (forwards o2) w2)).
    { unfold w2, w1. rewrite Eo. unfold forwards at 1. rewrite map_app. cbn [map]. rewrite app_assoc, script_app. cbn [fst hscript]. reflexivity. }
    assert (W1 : wf w1) by apply final_wf. assert (W2 : wf w2) by (eapply effect_wf; [exact W1|now apply step_effect]).
    destruct (forward_step w1 W1 i) as (A1 & A2 & A3 & A4). fold w2 in A1, A2, A3, A4.
    destruct (forwards_script o2 w2 W2) as (B1 & B2 & B3 & B4). rewrite <- Ew in B1, B2, B3, B4. cbn zeta in *.
    assert (Bs : forall c, bases w1 c = bases w c) by (intros c; now rewrite B1, A1).
    assert (Ms : forall c x, In x (wrapped_methods w1 c) <-> In x (wrapped_methods w c)) by (intros c x; rewrite B3, A3; tauto).
    assert (L1 : i < length w1) by lia.
    assert (Ln1 : line (bases w1) i l) by (eapply line_ext; [|exact Ln]; intros; now rewrite Bs).
    pose proof (mro_line w1 W1 i l Ln1) as G1. pose proof (mro_line w (final_wf dn ds proxy cs) i l Ln) as G.
    assert (E1 : enabled w1 i = true).
    { apply A4, B4. apply enabled_spec; [apply final_wf|]. intros c k Ac K. apply (En c k); [|assumption].
      clear - Ln Ac. induction Ln as [j E|j b r E Ln IH]; inversion Ac as [|? c' ? Hc Ac']; subst; try (now left).
      - rewrite E in Hc. destruct Hc.
      - rewrite E in Hc. destruct Hc as [<-|[]]. right. auto. }
    assert (Gd : good w1 i).
    { apply script_good; [apply wf_nil| | |].
      - intros k K. destruct i; discriminate.
      - intros j b H. apply in_app_iff in H. destruct H as [H|H]; [now apply (ND j b)|]. apply in_forwards in H. destruct H as (? & ? & _). discriminate.
      - intros H. apply in_app_iff in H. destruct H as [H|H]; [now apply (NF i)|]. apply in_forwards in H. destruct H as (? & [= <-] & H). tauto. }
    destruct (nth_error w1 i) as [k|] eqn:K; [|apply nth_error_None in K; lia].
    destruct (forward_exact proxy w1 W1 i k l K G1) as (f & a & hooks & Ef & Fk & Fa).
    assert (Hw2 : helper_at w2 i = k_helper (f k)).
    { unfold w2. cbn [run_hcall]. rewrite (sbind_ok _ _ _ _ _ Ef). cbn [fst ret]. unfold helper_at. now rewrite change_nth, Nat.eqb_refl, K. }
    assert (Hw : helper_at w i = helper_at w2 i).
    { rewrite Ew. apply script_helper; [assumption|lia| |].
      - intros d H. apply in_forwards in H. destruct H as (? & ? & _). discriminate.
      - intros H. apply in_forwards in H. destruct H as (? & [= <-] & H). tauto. }
    rewrite Hw, Hw2 in Hh. destruct a as [ps|]; [|congruence]. destruct Fa as (h0 & Hk & _ & Hf). rewrite Hf in Hh. injection Hh as <-.
    destruct (Gd k K) as (G1' & G2 & G3). rewrite Hk in G1'. specialize (G1' h0 eq_refl).
    assert (Sub : k_subclassing k = true /\ k_singleton k = false).
    { destruct (k_subclassing k), (k_singleton k); auto; rewrite G3 in Hk by auto; discriminate. }
    specialize (G2 E1 (proj1 Sub) (proj2 Sub)).
    assert (exists r, l = i :: r) as (r & ->) by (inversion Ln1; eauto). cbn [tl].
    assert (Wi : forall x, In x (wrapped_methods w i) <-> In x (get_all_methods k)).
    { intros x. rewrite <- Ms. unfold wrapped_methods. now rewrite K. }
    unfold inherit_virtuals. rewrite classes_methods.
    set (ms := filter mt_virtual (flat_map (wrapped_methods w1) r)).
    assert (Vms : forall m, In m ms -> mt_virtual m = true) by (intros m Hm; apply filter_In in Hm; tauto).
    destruct (fold_virtuals ms h0 Vms) as (F1 & F2 & F3). split.
    - intros c m [<-|Hc] Hm V.
      + apply Wi in Hm. destruct (G2 m Hm V) as (h1 & p & Eh & Hp & S). rewrite Hk in Eh. injection Eh as <-. exists p. auto.
      + apply F3. apply filter_In. split; [|assumption]. apply in_flat_map. exists c. split; [assumption|]. now apply Ms.
    - intros p Hp. apply fold_first in Hp; [|assumption]. destruct Hp as [Hp|(a & b & Em & Ha & Hn)].
      + destruct (G1' p Hp) as [Hin V]. split; [assumption|]. exists [], i, r. split; [reflexivity|]. split; [now apply Wi|intros ? ? []].
      + assert (V : mt_virtual p = true) by (apply Vms; rewrite Em; apply in_or_app; right; now left).
        split; [assumption|]. destruct (filter_split _ _ _ _ _ Em) as (l1 & l2 & Fl & Fa).
        destruct (flat_split _ _ _ _ _ Fl) as (r1 & c & r2 & -> & Hc & Hr). exists (i :: r1), c, r2. split; [reflexivity|].
        split; [now apply Ms|]. intros d x [<-|Hd] Hx Vx.
        * apply Wi in Hx. destruct (G2 x Hx Vx) as (h1 & q & Eh & Hq & S). rewrite Hk in Eh. injection Eh as <-. rewrite <- S. now apply Hn.
        * apply Ha. rewrite <- Fa. apply filter_In. split; [|assumption]. apply (Hr d Hd). now apply Ms.
  Qed.
End Helper.
