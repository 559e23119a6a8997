(** The statements on class hierarchies, in terms of what a script declares. *)
From Verif.Model Require Import Py PyState Hierarchy.
From Verif.Spec Require Import HierarchySpec.
From Verif.Proofs Require Import HierarchyProofs PureProofs PureScript AbstractProofs HelperProofs.
From Coq Require Import Lia.
Open Scope list_scope.
Open Scope st_scope.

(** ** Equal parents *)
Lemma ancestor_ext p q : (forall i, p i = q i) -> forall i c, ancestor p i c <-> ancestor q i c.
Proof.
  intros E i c. split; intros A; induction A as [|i b c H A IH]; try constructor; eapply ancestor_up; eauto; [now rewrite <- E|now rewrite E].
Qed.
Lemma level_ext p q : (forall i, p i = q i) -> forall i n, level p i n = level q i n.
Proof. intros E i n. induction n; cbn; [reflexivity|]. rewrite IHn. now apply flat_map_ext. Qed.
Lemma levels_ext p q : (forall i, p i = q i) -> forall i n, levels p i n = levels q i n.
Proof. intros E i n. unfold levels. apply flat_map_ext. now apply level_ext. Qed.
Lemma line_ext p q : (forall i, p i = q i) -> forall i l, line p i l -> line q i l.
Proof. intros E i l H. induction H; [apply line_end|eapply line_up]; rewrite <- ?E; eauto. Qed.
Lemma timely_ext p q cs i : (forall i, p i = q i) -> timely p cs i -> timely q cs i.
Proof.
  intros E T before j d after Eq C H. apply (T before j d after Eq C). destruct H as [H|[H1 H2]]; [now left|right].
  split; [assumption|]. now apply (ancestor_ext p q E).
Qed.

Section Top.
  Variables (dn ds : bool) (ok : method -> bool).
  Notation step := (run_hcall dn ds ok).
  Notation script := (hscript dn ds ok).

  Lemma step_class d w : snd (step (HClass d) w) = Ok (RClass (length w)) /\
      (forall n, n < length w -> bases (fst (step (HClass d) w)) n = bases w n) /\ length (fst (step (HClass d) w)) = S (length w) /\
      bases (fst (step (HClass d) w)) (length w) = (match cd_parents d with Some l => l | None => [] end) \/
    fst (step (HClass d) w) = w /\ forall a, snd (step (HClass d) w) <> Ok a.
  Proof.
    cbn [run_hcall]. destruct (new_class_effect dn ds d w) as (w' & r & E & [[-> N]|(k & -> & -> & P & R & B & _)]); unfold sbind; rewrite E.
    - right. destruct r as [i|e]; [now elim (N i)|]. split; [reflexivity|discriminate].
    - left. cbn [fst snd ret]. split; [reflexivity|]. split; [|split].
      + intros n L. unfold bases. now rewrite nth_error_app1.
      + rewrite app_length. cbn. lia.
      + unfold bases. now rewrite nth_error_app2, Nat.sub_diag by lia.
  Qed.
  Lemma step_length c w (W : wf w) : (forall d, c <> HClass d) -> length (fst (step c w)) = length w.
  Proof.
    intros N. pose proof (step_exactly dn ds ok w W c) as E.
    destruct E as [c|d k H A D|j d k K|j n k K|j f k K Fk|j b|c j f T Qf]; rewrite ?change_length; try reflexivity. now elim (N d).
  Qed.
  Lemma skip_parents c r l i : (forall d, c <> HClass d) -> declared_parents ((c, r) :: l) i = declared_parents l i.
  Proof. intros N. destruct c; try reflexivity. now elim (N d). Qed.

  Lemma script_parents cs : forall w, wf w -> forall i,
    bases (fst (script cs w)) i = if Nat.ltb i (length w) then bases w i else declared_parents (snd (script cs w)) i.
  Proof.
    induction cs as [|c cs IH]; intros w W i; cbn [hscript fst snd].
    - destruct (Nat.ltb i (length w)) eqn:L; [reflexivity|]. cbn. unfold bases. apply Nat.ltb_ge in L.
      assert (X : nth_error w i = None) by now apply nth_error_None. now rewrite X.
    - assert (W' : wf (fst (step c w))) by (eapply effect_wf; [exact W|now apply step_effect]). rewrite (IH _ W').
      destruct (match c with HClass _ => true | _ => false end) eqn:M.
      + destruct c as [d| | | | | | | | | |]; try discriminate.
        destruct (step_class d w) as [(R & B & Ln & Bl)|[E R]].
        * rewrite R, Ln. cbn [declared_parents]. destruct (Nat.ltb i (length w)) eqn:L.
          -- apply Nat.ltb_lt in L. assert (L' : Nat.ltb i (S (length w)) = true) by (apply Nat.ltb_lt; lia). rewrite L'. now apply B.
          -- apply Nat.ltb_ge in L. destruct (Nat.eqb (length w) i) eqn:E.
             ++ apply Nat.eqb_eq in E. subst i. assert (L' : Nat.ltb (length w) (S (length w)) = true) by (apply Nat.ltb_lt; lia). now rewrite L'.
             ++ apply Nat.eqb_neq in E. assert (L' : Nat.ltb i (S (length w)) = false) by (apply Nat.ltb_ge; lia). now rewrite L'.
        * rewrite E. cbn [declared_parents]. destruct (snd (step (HClass d) w)) as [a|e]; [now elim (R a)|reflexivity].
      + assert (N : forall d, c <> HClass d) by (intros d ->; discriminate). rewrite (step_length c w W N), skip_parents by assumption.
        destruct (Nat.ltb i (length w)) eqn:L; [|reflexivity]. apply Nat.ltb_lt in L.
        apply (effect_bases w c); [now apply step_effect|assumption].
  Qed.
  Lemma parents_ok cs i : bases (fst (script cs [])) i = declared_parents (snd (script cs [])) i.
  Proof. rewrite script_parents by apply wf_nil. reflexivity. Qed.

  Lemma final_wf cs : wf (fst (script cs [])). Proof. apply script_wf, wf_nil. Qed.

  (** ** Inheritance *)
  Lemma order_ok cs i : let w := fst (script cs []) in let P := declared_parents (snd (script cs [])) in
    exists l, get_mro w i = Ok (i :: l) /\ (forall c, In c (i :: l) <-> ancestor P i c) /\
      firsts [] (i :: l) = firsts [] (levels P i i) /\ (NoDup (levels P i i) -> i :: l = levels P i i).
  Proof.
    intros w P. pose proof (final_wf cs) as W. fold w in W. destruct (mro_firsts w W i) as (l & G & F & _).
    destruct (mro_head w i l G) as (r & ->). exists r. split; [assumption|].
    assert (E : forall n, bases w n = P n) by apply parents_ok. split; [|split].
    - intros c. rewrite <- (ancestor_ext _ _ E). now apply mro_ancestor.
    - now rewrite <- (levels_ext _ _ E).
    - rewrite <- (levels_ext _ _ E). intros N. pose proof (mro_tree w W i N). congruence.
  Qed.
  Lemma subclass_ok cs i j : let w := fst (script cs []) in let P := declared_parents (snd (script cs [])) in
    exists b, is_subclass w i j = Ok b /\ (b = true <-> ancestor P i j).
  Proof.
    intros w P. destruct (is_subclass_ok w (final_wf cs) i j) as (b & E & H). exists b. split; [assumption|]. rewrite H.
    apply ancestor_ext. apply parents_ok.
  Qed.
  Lemma line_ok cs i l : let w := fst (script cs []) in let P := declared_parents (snd (script cs [])) in
    line P i l -> get_mro w i = Ok l.
  Proof.
    intros w P L. apply (mro_line w (final_wf cs)). eapply line_ext; [|exact L]. intros n. symmetry. apply parents_ok.
  Qed.
  (** Parents are classes created before. *)
  Lemma earlier cs i b : let P := declared_parents (snd (script cs [])) in In b (P i) -> b < i.
  Proof. intros P H. apply (final_wf cs i b). now rewrite parents_ok. Qed.

  (** ** Abstract classes *)
  Lemma abstract_ok cs i l : let w := fst (script cs []) in let answers := snd (script cs []) in
    i < length w -> get_mro w i = Ok l -> timely (declared_parents answers) cs i ->
    (forall c, In c l -> consistent (declares answers) c) ->
    exists b, snd (step (HPure i) w) = Ok (RBool b) /\ (b = true <-> abstract (declares answers) l).
  Proof.
    intros w answers L G T C. exists (answer w i). split; [apply pure_step; [apply final_wf|assumption]|].
    apply answer_spec; auto. eapply timely_ext; [|exact T]. intros n. symmetry. apply parents_ok.
  Qed.
  Lemma abstract_line_ok cs i l : let w := fst (script cs []) in let answers := snd (script cs []) in
    i < length w -> line (declared_parents answers) i l -> timely (declared_parents answers) cs i ->
    (forall c, In c l -> consistent (declares answers) c) ->
    (forall c m, In c l -> declares answers c m -> mt_pure m = true -> mt_virtual m = true) ->
    exists b, snd (step (HPure i) w) = Ok (RBool b) /\ (b = true <-> exists m, final (declares answers) l m /\ mt_pure m = true).
  Proof.
    intros w answers L Ln T C V. pose proof (line_ok cs i l Ln) as G. fold w in G.
    destruct (abstract_ok cs i l L G T C) as (b & E & H). exists b. split; [assumption|]. unfold answers in *. rewrite H.
    apply (abstract_line w); auto. intros. apply declared_methods.
  Qed.

  Lemma helper_ok cs i l ps before c after m : let w := fst (script cs []) in let answers := snd (script cs []) in
    (forall j b, ~ In (HDisable j b) cs) -> ~ In (HForward i) cs ->
    (forall j k, ancestor (declared_parents answers) i j -> nth_error w j = Some k -> k_disabled k = false) ->
    i < length w -> get_mro w i = Ok l -> snd (step (HForward i) w) = Ok (RProxies (Some ps)) ->
    l = before ++ c :: after -> declares_wrapped answers c m -> mt_virtual m = true -> mt_pure m = true ->
    (forall d x, In d before -> declares answers d x -> mt_virtual x = true -> signature x = signature m -> mt_pure x = true) ->
    consistent (declares answers) c ->
    exists p, In p ps /\ signature p = signature m.
  Proof.
    intros w answers A1 A2 A3 A4 A5 A6 A7 A8 A9 A10 A11 A12.
    apply (helper_overrides dn ds ok cs i l ps before c after m); auto.
    intros j k H. apply A3. apply (ancestor_ext _ _ (parents_ok cs)). exact H.
  Qed.

  (** The constructors, generated after the forward declarations of the class. *)
  Lemma constructor_ok pre post i v o c : let cs := pre ++ HForward i :: post in
    let w1 := fst (script pre []) in let w := fst (script cs []) in let answers := snd (script cs []) in
    i < length w1 -> snd (step (HForward i) w1) = Ok (RProxies o) -> (forall d, ~ In (HMethod i d) post) -> ~ In (HForward i) post ->
    snd (step (HConstructor i v) w) = Ok (RCtor c) ->
    timely (declared_parents answers) cs i -> forall l, get_mro w i = Ok l -> (forall c, In c l -> consistent (declares answers) c) ->
    (cc_subclass c = MHelper <-> o <> None) /\
    (cc_exact c = MClass \/ cc_subclass c = MClass -> ~ abstract (declares answers) l) /\
    (v = Public -> ~ abstract (declares answers) l -> (forall k, nth_error w i = Some k -> k_cannot k = "") -> cc_exact c = MClass).
  Proof.
    intros cs w1 w answers L1 R1 N1 N2 R T l G C.
    assert (W : wf w) by apply final_wf. assert (W1 : wf w1) by apply final_wf.
    set (w2 := fst (step (HForward i) w1)). assert (W2 : wf w2) by (eapply effect_wf; [exact W1|now apply step_effect]).
    assert (L2 : i < length w2) by (unfold w2; rewrite step_length; [assumption|assumption|discriminate]).
    assert (Ew : w = fst (script post w2)).
    { unfold w, cs. rewrite script_app. cbn [fst]. reflexivity. }
    assert (Lw : i < length w) by (rewrite Ew; eapply (script_bases dn ds ok post w2 W2 i L2)).
    assert (Hh : helper_at w i = helper_at w2 i) by (rewrite Ew; now apply script_helper).
    destruct (constructor_step dn ds ok w W i v c Lw R) as (C1 & C2 & C3).
    pose proof (forward_helper dn ds ok w1 W1 i o L1 R1) as Fo. fold w2 in Fo. rewrite <- Hh in Fo.
    assert (A : answer w i = true <-> abstract (declares answers) l).
    { apply answer_spec; auto. eapply timely_ext; [|exact T]. intros n. symmetry. apply parents_ok. }
    split; [rewrite C1; tauto|]. split.
    - intros H Ab. apply C2 in H. apply A in Ab. congruence.
    - intros V Na Cn. destruct (nth_error w i) as [k|] eqn:K; [|apply nth_error_None in K; lia].
      apply (C3 k eq_refl V); [|now apply Cn]. destruct (answer w i); [|reflexivity]. elim Na. now apply A.
  Qed.
End Top.
