(** Proofs for C06 and C08. *)
From Coq Require Import Lia.
From Verif.Model Require Import Py Params.
From Verif.Spec Require Import ParamSpec.
Open Scope list_scope.

Lemma since_pclear_snoc h o :
  since_pclear (h ++ [o]) = match o with PClear => [] | _ => since_pclear h ++ [o] end.
Proof. unfold since_pclear. rewrite fold_left_app. reflexivity. Qed.

Theorem parse_order_ok : forall h, prun [] h = parse_order h.
Proof.
  induction h as [|o r IH] using rev_ind; [reflexivity|].
  unfold prun in *. rewrite fold_left_app, IH. unfold parse_order. rewrite since_pclear_snoc.
  destruct o as [i [|]|]; [| |reflexivity]; unfold prepended, appended; rewrite !flat_map_app; cbn.
  - now rewrite rev_app_distr, app_nil_r.
  - now rewrite app_nil_r, app_assoc.
Qed.

Lemma since_vclear_snoc h o :
  since_vclear (h ++ [o]) = match o with VClear => [] | _ => since_vclear h ++ [o] end.
Proof. unfold since_vclear. rewrite fold_left_app. reflexivity. Qed.

Theorem build_order_ok : forall h, vrun [] h = build_order h.
Proof.
  induction h as [|o r IH] using rev_ind; [reflexivity|].
  unfold vrun in *. rewrite fold_left_app, IH. unfold build_order. rewrite since_vclear_snoc.
  destruct o as [i [|]|]; [| |reflexivity]; unfold vprepended, vappended; rewrite !flat_map_app; cbn.
  - now rewrite rev_app_distr, app_nil_r.
  - now rewrite app_nil_r, app_assoc.
Qed.

Lemma template_opt l : Forall (fun i => p_optional i = true) l ->
  parse_template l true = Ok (map p_template l).
Proof.
  induction 1 as [|i r Hi _ IH]; [reflexivity|]. cbn. rewrite Hi; cbn. now rewrite IH.
Qed.

Lemma template_ok req opt l : well_ordered l req opt ->
  parse_template l false =
  Ok (map p_template req ++ match opt with [] => [] | _ => ["|"%string] end ++ map p_template opt).
Proof.
  intros [-> [Hr Ho]]. induction Hr as [|i r Hi _ IH]; cbn.
  - destruct Ho as [|i r Hi Ho]; [reflexivity|]. cbn. rewrite Hi; cbn.
    now rewrite (template_opt _ Ho).
  - rewrite Hi; cbn. now rewrite IH.
Qed.

Lemma template_err_opt l : Exists (fun i => p_optional i = false) l -> parse_template l true = Err ValueError.
Proof.
  induction 1 as [i r Hi|i r Hr IH]; cbn.
  - now rewrite Hi.
  - destruct (p_optional i); cbn; [now rewrite IH|reflexivity].
Qed.

Lemma misplaced_err l : misplaced l -> parse_template l false = Err ValueError.
Proof.
  intros [l1 [x [l2 [y [l3 [-> [Hx Hy]]]]]]].
  induction l1 as [|i r IH]; cbn.
  - rewrite Hx; cbn. rewrite template_err_opt; [reflexivity|]. apply Exists_app; right. now left.
  - destruct (p_optional i); cbn.
    + rewrite template_err_opt; [reflexivity|]. apply Exists_app; right. right. apply Exists_app; right. now left.
    + now rewrite IH.
Qed.

Lemma split_or_misplaced l : (exists req opt, well_ordered l req opt) \/ misplaced l.
Proof.
  induction l as [|i r [[req [opt [E [H1 H2]]]]|M]].
  - left; exists [], []; repeat split; auto.
  - destruct (p_optional i) eqn:Hi.
    + destruct req as [|y req].
      * left. exists [], (i :: opt). cbn in E; subst r. repeat split; auto.
      * right. exists [], i, [], y, (req ++ opt). inversion H1; subst. auto.
    + left. exists (i :: req), opt. subst r. repeat split; auto.
  - right. destruct M as [l1 [x [l2 [y [l3 [-> M]]]]]]. exists (i :: l1), x, l2, y, l3. auto.
Qed.

Theorem parameters_ok : forall l,
  (forall req opt, well_ordered l req opt ->
     parse_get_parameters l = Ok ((dquote ++ format_of req opt ++ dquote)%string :: flat_map p_values l)) /\
  (misplaced l -> parse_get_parameters l = Err ValueError) /\
  ((exists req opt, well_ordered l req opt) \/ misplaced l) /\
  ~ ((exists req opt, well_ordered l req opt) /\ misplaced l).
Proof.
  intros l. split; [|split; [|split]].
  - intros req opt H. unfold parse_get_parameters. rewrite (template_ok _ _ _ H). reflexivity.
  - intros H. unfold parse_get_parameters. now rewrite misplaced_err.
  - apply split_or_misplaced.
  - intros [[req [opt W]] M]. apply template_ok in W. apply misplaced_err in M. congruence.
Qed.

Definition names (l : list pitem) : list string :=
  flat_map (fun i => match p_name i with Some n => [n] | None => [] end) l.

Lemma names_cons i r : names (i :: r) = match p_name i with Some n => n :: names r | None => names r end.
Proof. unfold names; cbn. destruct (p_name i); reflexivity. Qed.

Lemma keywords_loop_ok l acc kw : keywords_loop l acc = Ok kw -> kw = acc ++ names l.
Proof.
  revert acc; induction l as [|i r IH]; cbn; intros acc H.
  - injection H as <-; now rewrite app_nil_r.
  - destruct (p_name i).
    + apply IH in H. now rewrite <- app_assoc in H.
    + destruct acc; [|discriminate]. now apply IH in H.
Qed.
Lemma keywords_loop_err l acc e : keywords_loop l acc = Err e ->
  e = ValueError /\ Exists (fun i => p_name i = None) l /\ (acc <> [] \/ Exists (fun i => p_name i <> None) l).
Proof.
  revert acc; induction l as [|i r IH]; cbn; intros acc H; [discriminate|].
  destruct (p_name i) eqn:Hi.
  - apply IH in H as [H1 [H2 _]]. split; [easy|]. split; [now right|]. right; left. congruence.
  - destruct acc.
    + apply IH in H as [H1 [H2 H3]]. split; [easy|]. split; [now right|]. destruct H3; [congruence|]. right; now right.
    + injection H as <-. split; [easy|]. split; [now left|]. left; discriminate.
Qed.

Lemma names_length l : length (names l) <= length l.
Proof. induction l as [|i r IH]; [cbn; lia|rewrite names_cons; cbn [length map]]. destruct (p_name i); cbn [length]; lia. Qed.
Lemma names_full l : length (names l) = length l -> map p_name l = map Some (names l).
Proof.
  induction l as [|i r IH]; intros H; [|rewrite names_cons in H; cbn [length map] in H]; [reflexivity|].
  pose proof (names_length r). rewrite names_cons. cbn [map].
  destruct (p_name i) eqn:E; cbn [length map] in *; [rewrite IH by lia; reflexivity|lia].
Qed.
Lemma names_none l : names l = [] -> Forall (fun i => p_name i = None) l.
Proof.
  induction l as [|i r IH]; intros H; [|rewrite names_cons in H; cbn [length map] in H]; [constructor|].
  destruct (p_name i) eqn:E; [discriminate|]. constructor; auto.
Qed.
Lemma names_some l kw : map p_name l = map Some kw -> names l = kw.
Proof.
  revert kw; induction l as [|i r IH]; intros [|k kw] H; try discriminate; [reflexivity|].
  injection H as H1 H2. rewrite names_cons, H1. f_equal. now apply IH.
Qed.
Lemma names_mixed l : names l <> [] -> Exists (fun i => p_name i <> None) l.
Proof.
  induction l as [|i r IH]; intros H; [|rewrite names_cons in H; cbn [length map] in H]; [now destruct H|].
  destruct (p_name i) eqn:E; [left; congruence|]. right. now apply IH.
Qed.
Lemma names_short l : length (names l) <> length l -> Exists (fun i => p_name i = None) l.
Proof.
  induction l as [|i r IH]; intros H; [|rewrite names_cons in H; cbn [length map] in H]; [now destruct H|].
  destruct (p_name i) eqn:E; [right; apply IH; cbn [length map] in *; lia|now left].
Qed.

Lemma keywords_cases l :
  (l <> [] /\ exists kw, map p_name l = map Some kw /\ get_keywords l = Ok (Some kw)) \/
  (Forall (fun i => p_name i = None) l /\ get_keywords l = Ok None) \/
  (Exists (fun i => p_name i = None) l /\ Exists (fun i => p_name i <> None) l /\
   get_keywords l = Err ValueError).
Proof.
  unfold get_keywords. destruct (keywords_loop l []) as [kw|e] eqn:K.
  - apply keywords_loop_ok in K; cbn in K. subst kw. cbn [bind].
    destruct (names l) as [|n ns] eqn:N.
    + right; left. split; [now apply names_none|reflexivity].
    + rewrite <- N. destruct (Nat.eqb_spec (length (names l)) (length l)) as [E|E].
      * left. split; [intros ->; discriminate|]. exists (names l). split; [now apply names_full|reflexivity].
      * right; right. split; [now apply names_short|]. split; [|reflexivity]. apply names_mixed; congruence.
  - apply keywords_loop_err in K as [-> [K1 K2]]. right; right. split; [easy|]. split; [|reflexivity].
    destruct K2; [congruence|easy].
Qed.

Theorem keywords_ok : forall l,
  (forall kw, get_keywords l = Ok (Some kw) <-> l <> [] /\ map p_name l = map Some kw) /\
  (get_keywords l = Ok None <-> Forall (fun i => p_name i = None) l) /\
  (forall e, get_keywords l = Err e <-> e = ValueError /\
     Exists (fun i => p_name i = None) l /\ Exists (fun i => p_name i <> None) l).
Proof.
  intros l.
  assert (X1 : forall kw, l <> [] -> map p_name l = map Some kw -> ~ Exists (fun i => p_name i = None) l).
  { intros kw _ H E. apply Exists_exists in E as [x [E1 E2]].
    apply (in_map p_name) in E1. rewrite H, E2 in E1. apply in_map_iff in E1 as [y [E1 _]]. discriminate. }
  assert (X2 : Forall (fun i => p_name i = None) l -> ~ Exists (fun i => p_name i <> None) l).
  { intros F E. apply Exists_exists in E as [x [E1 E2]]. rewrite Forall_forall in F. now apply E2, F. }
  assert (X3 : forall kw, l <> [] -> map p_name l = map Some kw -> ~ Forall (fun i => p_name i = None) l).
  { intros kw Hl H F. apply (X1 kw Hl H). destruct l; [congruence|]. inversion F; now left. }
  destruct (keywords_cases l) as [[Hl [kw [H1 H2]]]|[[H1 H2]|[H1 [H2 H3]]]].
  - rewrite H2. split; [|split].
    + intros kw'. split.
      * intros [= <-]. auto.
      * intros [_ H]. apply names_some in H, H1. congruence.
    + split; [discriminate|]. intros F. now destruct (X3 kw Hl H1).
    + split; [discriminate|]. intros [_ [E _]]. now destruct (X1 kw Hl H1).
  - rewrite H2. split; [|split].
    + intros kw'. split; [discriminate|]. intros [Hl H]. now destruct (X3 kw' Hl H).
    + split; auto.
    + split; [discriminate|]. intros [_ [_ E]]. now destruct (X2 H1).
  - rewrite H3. split; [|split].
    + intros kw'. split; [discriminate|]. intros [Hl H]. now destruct (X1 kw' Hl H).
    + split; [discriminate|]. intros F. now destruct (X2 F).
    + intros e. split; [intros [= <-]; auto|intros [-> _]; auto].
Qed.

(** A parse list is reported empty exactly when no unit and no value is present. *)
Theorem is_empty_ok : forall l, (forall i, In i l -> p_template i <> ""%string) ->
  (parse_is_empty l = Ok true <-> l = []).
Proof.
  intros l Ht. split; [|intros ->; reflexivity].
  unfold parse_is_empty. destruct (parse_get_parameters l) as [p|] eqn:E; [|discriminate]. cbn [bind].
  intros H. destruct l as [|i r]; [reflexivity|]. exfalso.
  unfold parse_get_parameters in E. cbn [parse_template] in E.
  destruct (false && negb (p_optional i)); [discriminate|].
  destruct (parse_template r _) as [t|]; [|discriminate]. unfold bind in E.
  assert (G : forall x v, Ok (x :: v) = Ok p -> x = (dquote ++ dquote)%string).
  { intros x v [= <-]. destruct v; [|discriminate]. apply String.eqb_eq. now injection H. }
  apply G in E. clear G H.
  specialize (Ht i (or_introl eq_refl)).
  destruct (negb false && p_optional i); [discriminate|].
  destruct (p_template i) as [|ch s]; [congruence|]. cbn in E.
  destruct t; cbn in E; injection E as E1 E2; destruct s; cbn in E2; unfold dquote in E2; try discriminate.
  match goal with H : (?a ++ _)%string = _ |- _ => destruct a; cbn in H; discriminate end.
Qed.
