(** C14: TypeTraits describes the outermost level of the type. *)
From Verif.Model Require Import Py Tokenizer CType.
From Verif.Spec Require Import TypeSpec.
From Verif.Proofs Require Import ReorderProofs MeaningProofs.
From Coq Require Import Lia.
Open Scope string_scope.
Open Scope list_scope.

Definition starfree (l : list item) : Prop := Forall (fun x => is_star x = false) l.
Definition puts (v : level) (l : list item) : level := fold_left (fun v i => put i v) l v.
Definition nconst (i : item) : bool := negb (named i "const").

Lemma split_star l : starfree l \/ exists l1 s seg, l = l1 ++ s :: seg /\ is_star s = true /\ starfree seg.
Proof.
  induction l as [|x l [IH|[l1 [s [seg [-> [A B]]]]]]]; [left; constructor| |].
  - destruct (is_star x) eqn:E; [right; exists [], x, l; auto|left; now constructor].
  - right. exists (x :: l1), s, seg. auto.
Qed.

Lemma read_starfree l : separate l -> starfree l -> forall v, read_from v l = [puts v l].
Proof.
  induction 1 as [|x l Hx _ IH]; intros F v; [reflexivity|]. apply Forall_cons_iff in F. destruct F as [A B].
  cbn [read_from]. rewrite (nostar_marks _ A Hx). now rewrite IH.
Qed.

Lemma read_split l1 s seg : separate (l1 ++ s :: seg) -> is_star s = true -> starfree seg -> forall v,
  exists m, marks s = [m] /\ read_from v (l1 ++ s :: seg) = read_from v l1 ++ [puts (bare (Some m)) seg].
Proof.
  intros S H F. destruct (star_marks _ H) as [m M]. intros v. exists m. split; [exact M|]. revert v.
  induction l1 as [|x l1 IH]; intros v; cbn [app] in S |- *; apply Forall_cons_iff in S; destruct S as [A B]; cbn [read_from].
  - rewrite M. cbn [app]. now rewrite read_starfree.
  - specialize (IH B). destruct (marks x) as [|m1 [|m2 r]] eqn:E; [apply IH|rewrite IH; reflexivity|cbn in A; lia].
Qed.

Lemma puts_cons v x l : puts v (x :: l) = puts (put x v) l.
Proof. reflexivity. Qed.

Lemma puts_mark v l : lv_mark (puts v l) = lv_mark v.
Proof. revert v. induction l as [|x l IH]; intros v; [reflexivity|]. rewrite puts_cons, IH. unfold put. destruct (is_word x "const"); [reflexivity|]. now destruct (is_word x "volatile"). Qed.

Lemma puts_const v l : (0 <? lv_const (puts v l))%nat = (0 <? lv_const v)%nat || existsb (fun i => named i "const") l.
Proof.
  revert v. induction l as [|x l IH]; intros v; cbn [existsb]; [now rewrite orb_false_r|]. rewrite puts_cons, IH.
  unfold put. change (is_word x "const") with (named x "const"). destruct (named x "const"); cbn [lv_const].
  - now rewrite orb_true_r.
  - destruct (is_word x "volatile"); reflexivity.
Qed.

Lemma puts_no_const v l : lv_const v = 0 ->
  puts v (filter nconst l) = mk_level (lv_mark (puts v l)) (lv_words (puts v l)) 0 (lv_volatile (puts v l)).
Proof.
  intros V. enough (G : forall w, lv_mark v = lv_mark w -> lv_words v = lv_words w -> lv_volatile v = lv_volatile w ->
    puts v (filter nconst l) = mk_level (lv_mark (puts w l)) (lv_words (puts w l)) 0 (lv_volatile (puts w l))) by now apply G.
  revert v V. induction l as [|x l IH]; intros v V w E1 E2 E3; cbn [filter].
  - cbn. destruct v; cbn in *. congruence.
  - unfold nconst at 1. destruct (named x "const") eqn:E; cbn [negb].
    + rewrite (IH v V (put x w)); [reflexivity| | |]; unfold put; change (is_word x "const") with (named x "const"); rewrite E; assumption.
    + rewrite !puts_cons. apply IH; unfold put; change (is_word x "const") with (named x "const"); rewrite E;
        destruct (is_word x "volatile"); cbn; congruence.
Qed.

Lemma read_no_mods l : separate l -> forall v, read_from (no_qualifiers v) (remove_modifiers l) = map no_qualifiers (read_from v l).
Proof.
  unfold remove_modifiers, remove_modifier. induction 1 as [|x l Hx _ IH]; intros v; [reflexivity|].
  cbn [filter]. destruct (named x "const") eqn:Ec; cbn [negb].
  - cbn [read_from]. rewrite (const_marks _ Ec). rewrite <- IH. f_equal. unfold put. change (is_word x "const") with (named x "const"). now rewrite Ec.
  - cbn [filter]. destruct (named x "volatile") eqn:Ev; cbn [negb].
    + cbn [read_from]. rewrite (volatile_marks _ Ev). rewrite <- IH. f_equal. unfold put. change (is_word x "const") with (named x "const"). change (is_word x "volatile") with (named x "volatile"). now rewrite Ec, Ev.
    + cbn [read_from]. destruct (marks x) as [|m1 [|m2 r]] eqn:E; [|cbn [map]; rewrite <- IH; reflexivity|cbn in Hx; lia].
      rewrite <- IH. f_equal. unfold put. change (is_word x "const") with (named x "const"). change (is_word x "volatile") with (named x "volatile"). now rewrite Ec, Ev.
Qed.

(** The scan. *)
Lemma delete_first_app dn x tl : Forall (fun i => named i "const" = false) dn -> named x "const" = true ->
  delete_first "const" (dn ++ x :: tl) = Some (dn ++ tl).
Proof. intros H X. induction H as [|y dn Hy _ IH]; cbn; [now rewrite X|]. now rewrite Hy, IH. Qed.

Lemma const_nostar x : named x "const" = true -> named x "*" = false /\ named x "&" = false.
Proof. intros H. apply (named_star _ _ const_mod) in H. unfold is_star in H. now apply orb_false_elim in H. Qed.

Lemma scan_seg0 c rf p tc ps tl : forall rs dn pos, starfree rs -> Forall (fun i => named i "const" = false) dn ->
  scan_loop (mk_scan 0 c rf p tc ps (rev (dn ++ rs ++ tl))) pos (rs ++ tl) =
  scan_loop (mk_scan 0 (c || existsb (fun i => named i "const") rs) rf p tc ps (rev (dn ++ filter nconst rs ++ tl))) (pos + length rs) tl.
Proof.
  intros rs. revert c. induction rs as [|x rs IH]; intros c dn pos F D; cbn [app].
  - cbn. now rewrite orb_false_r, Nat.add_0_r.
  - apply Forall_cons_iff in F. destruct F as [Fx F]. cbn [scan_loop]. unfold scan_step.
    destruct (named x "const") eqn:Ec; cbn [sc_level sc_no_const].
    + unfold remove_outer_modifier. rewrite rev_involutive, delete_first_app by assumption. cbn [bind].
      cbn [sc_ref sc_ptr sc_tconst sc_pos]. rewrite IH by assumption.
      cbn [existsb length filter]. unfold nconst at 2. rewrite Ec. cbn [negb]. rewrite !orb_true_r. cbn [orb]. now rewrite Nat.add_succ_r.
    + unfold is_star in Fx. apply orb_false_elim in Fx. destruct Fx as [-> ->]. cbn [bind].
      replace (dn ++ x :: rs ++ tl) with ((dn ++ [x]) ++ rs ++ tl) by (rewrite <- app_assoc; reflexivity).
      rewrite IH; [|exact F|apply Forall_app; auto].
      cbn [existsb length filter]. unfold nconst at 2. rewrite Ec. cbn [negb orb]. rewrite Nat.add_succ_r. now rewrite <- app_assoc.
Qed.

Lemma scan_seg1 c rf p ps nc tl : forall rs tc pos, starfree rs ->
  scan_loop (mk_scan 1 c rf p tc ps nc) pos (rs ++ tl) =
  scan_loop (mk_scan 1 c rf p (tc || existsb (fun i => named i "const") rs) ps nc) (pos + length rs) tl.
Proof.
  induction rs as [|x rs IH]; intros tc pos F; cbn [app].
  - cbn. now rewrite orb_false_r, Nat.add_0_r.
  - apply Forall_cons_iff in F. destruct F as [Fx F]. cbn [scan_loop]. unfold scan_step.
    destruct (named x "const") eqn:Ec; cbn [sc_level sc_no_const bind sc_const sc_ref sc_ptr sc_tconst sc_pos].
    + rewrite IH by exact F. cbn [existsb length]. rewrite Ec, orb_true_r. cbn [orb]. now rewrite Nat.add_succ_r.
    + unfold is_star in Fx. apply orb_false_elim in Fx. destruct Fx as [-> ->]. cbn [bind]. rewrite IH by exact F.
      cbn [existsb length]. rewrite Ec. cbn [orb]. now rewrite Nat.add_succ_r.
Qed.

Lemma scan_deep c rf p tc ps nc : forall l n pos, exists n', 
  scan_loop (mk_scan (S (S n)) c rf p tc ps nc) pos l = Ok (mk_scan n' c rf p tc ps nc).
Proof.
  induction l as [|x l IH]; intros n pos; [now eexists|]. cbn [scan_loop]. unfold scan_step. cbn [sc_level sc_const sc_ref sc_ptr sc_tconst sc_pos sc_no_const].
  destruct (named x "const"); [apply IH|]. destruct (named x "*"); [apply IH|]. destruct (named x "&"); apply IH.
Qed.

Definition has_const (l : list item) : bool := existsb (fun i => named i "const") l.
Lemma has_const_rev l : existsb (fun i => named i "const") (rev l) = has_const l.
Proof.
  unfold has_const. induction l as [|x l IH]; [reflexivity|]. cbn [rev existsb]. rewrite existsb_app, IH. cbn. rewrite orb_false_r. apply orb_comm.
Qed.
Lemma filter_rev {A} (f : A -> bool) l : filter f (rev l) = rev (filter f l).
Proof. induction l as [|x l IH]; [reflexivity|]. cbn. rewrite filter_app, IH. cbn. destruct (f x); [reflexivity|]. now rewrite app_nil_r. Qed.

Lemma starfree_rev l : starfree l -> starfree (rev l).
Proof. unfold starfree. intros H. now apply Forall_rev. Qed.

Lemma star_cases s : is_star s = true -> named s "const" = false /\
  ((named s "*" = true /\ marks s = ["*"%char]) \/ (named s "*" = false /\ named s "&" = true /\ marks s = ["&"%char])).
Proof.
  intros H. assert (C : named s "const" = false) by (destruct (named s "const") eqn:E; [now rewrite (named_star _ _ const_mod E) in H|reflexivity]).
  split; [exact C|]. destruct s as [t|]; [|discriminate]. unfold is_star in H. cbn in H |- *.
  destruct (String.eqb (t_name t) "*"); [auto|]. cbn in H. rewrite H. auto.
Qed.

(** Types without a star. *)
Lemma scan_base l : starfree l ->
  scan_loop (mk_scan 0 false false false false None l) 0 (rev l) =
  Ok (mk_scan 0 (has_const l) false false false None (filter nconst l)).
Proof.
  intros F. pose proof (scan_seg0 false false false false None [] (rev l) [] 0 (starfree_rev _ F) (Forall_nil _)) as X.
  cbn [app] in X. rewrite !app_nil_r, rev_involutive in X. rewrite X. cbn [scan_loop]. rewrite has_const_rev, filter_rev, rev_involutive. reflexivity.
Qed.

(** Types with a star: what is left of the target. *)
Definition target_const (l1 : list item) (b : bool) : Prop :=
  (starfree l1 /\ b = has_const l1) \/ exists l2 s2 seg2, l1 = l2 ++ s2 :: seg2 /\ is_star s2 = true /\ starfree seg2 /\ b = has_const seg2.

Lemma scan_target c rf p ps nc l1 pos : exists n b, target_const l1 b /\
  scan_loop (mk_scan 1 c rf p false ps nc) pos (rev l1) = Ok (mk_scan n c rf p b ps nc).
Proof.
  destruct (split_star l1) as [F|[l2 [s2 [seg2 [-> [Hs F]]]]]].
  - exists 1, (has_const l1). split; [left; auto|].
    rewrite <- (app_nil_r (rev l1)). rewrite scan_seg1 by now apply starfree_rev. cbn [scan_loop orb]. now rewrite has_const_rev.
  - rewrite rev_app_distr. cbn [rev]. rewrite <- !app_assoc. cbn [app]. rewrite scan_seg1 by now apply starfree_rev.
    cbn [scan_loop orb]. unfold scan_step. cbn [sc_level]. destruct (star_cases _ Hs) as [-> SC].
    destruct (scan_deep c rf p (has_const seg2) ps nc (rev l2) 0 (S (pos + length (rev seg2)))) as [n E].
    exists n, (has_const seg2). split; [right; exists l2, s2, seg2; auto|]. rewrite has_const_rev.
    destruct SC as [[-> _]|[-> [-> _]]]; cbn [bind sc_const sc_ref sc_ptr sc_tconst sc_pos sc_no_const]; exact E.
Qed.

Lemma scan_pointer l1 s seg : is_star s = true -> starfree seg ->
  exists n b, target_const l1 b /\
  scan_loop (mk_scan 0 false false false false None (l1 ++ s :: seg)) 0 (rev (l1 ++ s :: seg)) =
  Ok (mk_scan n (has_const seg) (negb (named s "*")) (named s "*") b (Some (length seg + 1)) (l1 ++ s :: filter nconst seg)).
Proof.
  intros Hs F.
  pose proof (scan_seg0 false false false false None (s :: rev l1) (rev seg) [] 0 (starfree_rev _ F) (Forall_nil _)) as X.
  cbn [app] in X. replace (rev (l1 ++ s :: seg)) with (rev seg ++ s :: rev l1) by (rewrite rev_app_distr; cbn; rewrite <- app_assoc; reflexivity).
  replace (l1 ++ s :: seg) with (rev (rev seg ++ s :: rev l1)) by (rewrite rev_app_distr; cbn; rewrite !rev_involutive, <- app_assoc; reflexivity).
  destruct (scan_target (has_const seg) (negb (named s "*")) (named s "*") (Some (length seg + 1)) (l1 ++ s :: filter nconst seg) l1 (S (0 + length (rev seg)))) as [n [b [T E]]].
  exists n, b. split; [exact T|]. rewrite X. cbn [scan_loop]. unfold scan_step. cbn [sc_level].
  rewrite has_const_rev, rev_length. cbn [orb Nat.add].
  replace (rev (filter nconst (rev seg) ++ s :: rev l1)) with (l1 ++ s :: filter nconst seg)
    by (rewrite filter_rev, rev_app_distr; cbn; rewrite !rev_involutive, <- app_assoc; reflexivity).
  rewrite rev_length in E. cbn [Nat.add] in E.
  destruct (star_cases _ Hs) as [-> SC].
  destruct SC as [[SC _]|[SC [SC2 _]]]; rewrite SC in *; [|rewrite SC2]; cbn [bind negb sc_const sc_ref sc_ptr sc_tconst sc_pos sc_no_const] in *; exact E.
Qed.

Lemma traits_total l : exists t, traits_of l = Ok t.
Proof.
  unfold traits_of. destruct (split_star l) as [F|[l1 [s [seg [-> [Hs F]]]]]].
  - rewrite scan_base by exact F. cbn. eauto.
  - destruct (scan_pointer l1 s seg Hs F) as [n [b [_ E]]]. rewrite E. cbn [bind]. eauto.
Qed.

Lemma outer_app a x : outer (a ++ [x]) = x.
Proof. apply last_last. Qed.
Lemma without_app a (x : level) : without_outer (a ++ [x]) = a.
Proof. apply removelast_last. Qed.

Lemma target_const_ok l1 b : separate l1 -> target_const l1 b -> b = (0 <? lv_const (outer (read l1)))%nat.
Proof.
  intros S [[F ->]|[l2 [s2 [seg2 [-> [Hs [F ->]]]]]]].
  - unfold read. rewrite read_starfree by assumption. cbn [outer last]. now rewrite puts_const.
  - destruct (read_split l2 s2 seg2 S Hs F (bare None)) as [m [_ E]]. unfold read. rewrite E, outer_app, puts_const. reflexivity.
Qed.

Definition flags_ok (l : list item) (t : traits) : Prop :=
  (tt_is_const t = true <-> 0 < lv_const (outer (read l))) /\
  (tt_is_pointer t = true <-> lv_mark (outer (read l)) = Some "*"%char) /\
  (tt_is_reference t = true <-> lv_mark (outer (read l)) = Some "&"%char) /\
  (tt_target_is_const t = true <-> lv_mark (outer (read l)) <> None /\ 0 < lv_const (outer (without_outer (read l)))).

Lemma traits_ok l t : separate l -> traits_of l = Ok t ->
  tt_ctype t = l /\ flags_ok l t /\
  match tt_target t with
  | None => lv_mark (outer (read l)) = None
  | Some g => lv_mark (outer (read l)) <> None /\ read g = map no_qualifiers (without_outer (read l))
  end /\
  read (tt_no_modifiers t) = map no_qualifiers (read l) /\
  read (tt_no_const t) = outer_const 0 (read l) /\
  (lv_mark (outer (read l)) = Some "&"%char -> lv_words (outer (read l)) = [] -> lv_volatile (outer (read l)) = 0 ->
   read (tt_no_const_no_ref t) = without_outer (read l)) /\
  (Forall (fun v => lv_mark v <> Some "&"%char) (read l) -> tt_no_const_no_ref t = tt_no_const t).
Proof.
  intros S H. unfold traits_of in H.
  assert (NM : read (remove_modifiers l) = map no_qualifiers (read l)) by exact (read_no_mods l S (bare None)).
  assert (B : forall n, (0 <? n)%nat = true <-> 0 < n) by (intros n; apply Nat.ltb_lt).
  assert (NOAMP : forall x, separate x -> Forall (fun v => lv_mark v <> Some "&"%char) (read x) -> delete_first "&" (rev x) = None).
  { intros x Sx Hx. assert (G : forall y v, separate y -> Forall (fun v => lv_mark v <> Some "&"%char) (read_from v y) -> Forall (fun i => named i "&" = false) y).
    { induction y as [|i y IH]; intros v Sy Hy; [constructor|]. apply Forall_cons_iff in Sy. destruct Sy as [Si Sy]. cbn [read_from] in Hy.
      destruct (named i "&") eqn:Ei.
      - exfalso. assert (is_star i = true) as Es by (unfold is_star; rewrite Ei; apply orb_true_r).
        assert (marks i = ["&"%char]) as M. { destruct i as [t0|]; [|discriminate]. cbn in Ei |- *. apply String.eqb_eq in Ei. now rewrite Ei. }
        rewrite M in Hy. inversion Hy as [|? ? _ Hy']; subst.
        assert (exists w r, read_from (bare (Some "&"%char)) y = w :: r /\ lv_mark w = Some "&"%char) as [w [r [Ew Mw]]].
        { clear - y. revert y. assert (K : forall y v, exists w r, read_from v y = w :: r /\ lv_mark w = lv_mark v).
          { induction y as [|i y IH]; intros v; [now eexists _, _|]. cbn [read_from]. destruct (marks i) as [|a [|b r]]; [|now eexists _, _|now eexists _, _].
            destruct (IH (put i v)) as [w [r [E M]]]. exists w, r. split; [exact E|]. rewrite M. unfold put. destruct (is_word i "const"); [reflexivity|]. now destruct (is_word i "volatile"). }
          intros y. apply K. }
        rewrite Ew in Hy'. inversion Hy'; subst. congruence.
      - constructor; [exact Ei|]. destruct (marks i) as [|a [|b r]]; [now apply (IH (put i v))| |cbn in Si; lia].
        inversion Hy; subst. now apply (IH (bare (Some a))). }
    pose proof (Forall_rev (G x (bare None) Sx Hx)) as K. clear - K. induction K as [|i y Hi _ IH]; [reflexivity|]. cbn. now rewrite Hi, IH. }
  destruct (split_star l) as [F|[l1 [s [seg [-> [Hs F]]]]]].
  - rewrite scan_base in H by exact F. cbn [bind sc_pos sc_no_const sc_const sc_ref sc_ptr sc_tconst] in H.
    assert (R : read l = [puts (bare None) l]) by (unfold read; now apply read_starfree).
    assert (F2 : starfree (filter nconst l)) by (apply Forall_forall; intros x J; apply filter_In in J; apply (proj1 (Forall_forall _ _) F), J).
    assert (S2 : separate (filter nconst l)) by (apply Forall_forall; intros x J; apply filter_In in J; apply (proj1 (Forall_forall _ _) S), J).
    assert (RN : read (filter nconst l) = outer_const 0 (read l)).
    { rewrite R. unfold read. rewrite read_starfree by assumption. rewrite puts_no_const by reflexivity. reflexivity. }
    assert (NA : delete_first "&" (rev (filter nconst l)) = None).
    { apply NOAMP; [exact S2|]. rewrite RN, R. cbn. constructor; [rewrite puts_mark; discriminate|constructor]. }
    injection H as <-. cbn [tt_ctype tt_no_modifiers tt_no_const tt_no_const_no_ref tt_target]. unfold flags_ok.
    cbn [tt_is_const tt_is_reference tt_is_pointer tt_target_is_const].
    unfold remove_outer_modifier. rewrite NA. rewrite R in *. cbn [outer last]. rewrite !puts_mark. cbn [lv_mark bare].
    split; [reflexivity|]. split; [|split; [reflexivity|split; [exact NM|split; [exact RN|split; [discriminate|reflexivity]]]]].
    split; [rewrite <- B, puts_const; reflexivity|]. split; [split; discriminate|]. split; [split; discriminate|].
    split; [discriminate|]. intros [X _]. congruence.
  - destruct (scan_pointer l1 s seg Hs F) as [n [b [T E]]]. rewrite E in H. cbn [bind sc_pos sc_no_const sc_const sc_ref sc_ptr sc_tconst] in H. clear E.
    destruct (read_split l1 s seg S Hs F (bare None)) as [m [M R]]. fold (read (l1 ++ s :: seg)) in R. fold (read l1) in R.
    assert (Sp : separate l1 /\ length (marks s) <= 1 /\ separate seg).
    { apply Forall_app in S. destruct S as [A X]. apply Forall_cons_iff in X. tauto. }
    destruct Sp as [S1 [Ss S3]].
    assert (F2 : starfree (filter nconst seg)) by (apply Forall_forall; intros x J; apply filter_In in J; apply (proj1 (Forall_forall _ _) F), J).
    assert (S2 : separate (filter nconst seg)) by (apply Forall_forall; intros x J; apply filter_In in J; apply (proj1 (Forall_forall _ _) S3), J).
    assert (SN : separate (l1 ++ s :: filter nconst seg)) by (apply Forall_app; split; [exact S1|now constructor]).
    destruct (read_split l1 s (filter nconst seg) SN Hs F2 (bare None)) as [m' [M' RN]].
    assert (m' = m) as -> by congruence. fold (read (l1 ++ s :: filter nconst seg)) in RN. fold (read l1) in RN. rewrite puts_no_const in RN by reflexivity.
    assert (RNC : read (l1 ++ s :: filter nconst seg) = outer_const 0 (read (l1 ++ s :: seg))).
    { rewrite RN, R. unfold outer_const. now rewrite outer_app, without_app. }
    assert (TC : b = (0 <? lv_const (outer (read l1)))%nat) by now apply target_const_ok.
    assert (SK : skipn (length seg + 1) (rev (l1 ++ s :: seg)) = rev l1).
    { rewrite rev_app_distr. cbn [rev]. replace (length seg + 1) with (length (rev seg ++ [s])) by (rewrite app_length, rev_length; reflexivity).
      rewrite <- (app_nil_l (rev l1)) at 2. rewrite skipn_app, skipn_all, Nat.sub_diag. reflexivity. }
    rewrite SK, rev_involutive in H. injection H as <-.
    cbn [tt_ctype tt_no_modifiers tt_no_const tt_no_const_no_ref tt_target]. unfold flags_ok.
    cbn [tt_is_const tt_is_reference tt_is_pointer tt_target_is_const].
    split; [reflexivity|].
    assert (MK : marks s = [m]) by exact M.
    assert (FL : named s "*" = Ascii.eqb m "*" /\ negb (named s "*") = Ascii.eqb m "&").
    { destruct (star_cases _ Hs) as [_ [[-> X]|[-> [_ X]]]]; rewrite X in MK; injection MK as <-; split; reflexivity. }
    destruct FL as [FL1 FL2].
    split.
    { rewrite R, outer_app, without_app, puts_mark. cbn [lv_mark bare]. split; [|split; [|split]].
      - rewrite <- B, puts_const. reflexivity.
      - rewrite FL1. split; [intros X; apply Ascii.eqb_eq in X; now rewrite X|intros X; injection X as ->; reflexivity].
      - rewrite FL2. split; [intros X; apply Ascii.eqb_eq in X; now rewrite X|intros X; injection X as ->; reflexivity].
      - rewrite TC, B. split; [intros X; split; [discriminate|exact X]|tauto]. }
    split.
    { rewrite R, outer_app, without_app, puts_mark. split; [discriminate|]. exact (read_no_mods l1 S1 (bare None)). }
    split; [exact NM|]. split; [exact RNC|]. split.
    + rewrite R, outer_app, without_app, puts_mark. cbn [lv_mark bare]. intros X W V. injection X as ->.
      assert (NN : filter nconst seg = []).
      { clear - W V F S3. assert (G : forall v, lv_words v = [] -> lv_volatile v = 0 -> lv_words (puts v seg) = [] -> lv_volatile (puts v seg) = 0 -> filter nconst seg = []).
        { clear. assert (MW : forall l v, lv_words (puts v l) = [] -> lv_words v = []).
          { induction l as [|x l IH]; intros v; [auto|]. rewrite puts_cons. intros H. specialize (IH (put x v) H). unfold put in IH. destruct (is_word x "const"); [exact IH|]. destruct (is_word x "volatile"); [exact IH|]. cbn in IH. now apply app_eq_nil in IH. }
          assert (MV : forall l v, lv_volatile (puts v l) = 0 -> lv_volatile v = 0).
          { induction l as [|x l IH]; intros v; [auto|]. rewrite puts_cons. intros H. specialize (IH (put x v) H). unfold put in IH. destruct (is_word x "const"); [exact IH|]. destruct (is_word x "volatile"); [discriminate|]. exact IH. }
          induction seg as [|x seg IH]; intros v A B C D; [reflexivity|]. rewrite puts_cons in C, D. cbn [filter]. unfold nconst at 1.
          destruct (named x "const") eqn:Ec; cbn [negb].
          - apply (IH (put x v)); try assumption; unfold put; change (is_word x "const") with (named x "const"); rewrite Ec; assumption.
          - exfalso. pose proof (MW _ _ C) as X. pose proof (MV _ _ D) as Y.
            unfold put in X, Y. change (is_word x "const") with (named x "const") in X, Y. rewrite Ec in X, Y.
            destruct (is_word x "volatile"); [discriminate Y|]. cbn in X. now apply app_eq_nil in X. }
        apply (G (bare (Some "&"%char))); auto. }
      rewrite NN. unfold remove_outer_modifier. rewrite rev_app_distr. cbn [rev app delete_first].
      assert (named s "&" = true) as -> by (destruct (star_cases _ Hs) as [_ [[_ Y]|[_ [Y _]]]]; [rewrite MK in Y; discriminate|exact Y]).
      now rewrite rev_involutive.
    + intros X. unfold remove_outer_modifier. rewrite NOAMP; [reflexivity|exact SN|]. rewrite RNC. unfold outer_const.
      rewrite R in *. rewrite without_app, outer_app. apply Forall_app in X. apply Forall_app. split; [apply X|].
      destruct X as [_ X]. inversion X; subst. constructor; [assumption|constructor].
Qed.

(** make_const and make_target_const. *)
Lemma read_snoc_const l : separate l -> forall v, read_from v (l ++ [const_token]) =
  let r := read_from v l in without_outer r ++ [addq 1 0 (outer r)].
Proof.
  intros S v. cbn zeta. destruct (split_star l) as [F|[l1 [s [seg [-> [Hs F]]]]]].
  - assert (FC : starfree (l ++ [const_token])) by (apply Forall_app; split; [exact F|repeat constructor]).
    assert (SC : separate (l ++ [const_token])) by (apply Forall_app; split; [exact S|constructor; [cbn; lia|constructor]]).
    rewrite !read_starfree by assumption. cbn. unfold puts. rewrite fold_left_app. cbn. fold (puts v l). unfold put, addq. cbn. reflexivity.
  - assert (FC : starfree (seg ++ [const_token])) by (apply Forall_app; split; [exact F|repeat constructor]).
    assert (SC : separate (l1 ++ s :: (seg ++ [const_token]))).
    { apply Forall_app in S. destruct S as [A X]. apply Forall_cons_iff in X. destruct X as [X Y]. apply Forall_app; split; [exact A|]. constructor; [exact X|].
      apply Forall_app; split; [exact Y|constructor; [cbn; lia|constructor]]. }
    rewrite <- app_assoc. cbn [app].
    destruct (read_split l1 s (seg ++ [const_token]) SC Hs FC v) as [m [M ->]].
    destruct (read_split l1 s seg S Hs F v) as [m' [M' ->]]. assert (m' = m) as -> by congruence.
    rewrite without_app, outer_app. unfold puts. rewrite fold_left_app. cbn. reflexivity.
Qed.

Lemma make_const_ok l t : separate l -> traits_of l = Ok t ->
  tt_is_const (make_const t) = true /\
  read (tt_ctype (make_const t)) = outer_const (Nat.max 1 (lv_const (outer (read l)))) (read l).
Proof.
  intros S H. destruct (traits_ok l t S H) as [E [[C _] _]]. unfold make_const.
  destruct (tt_is_const t) eqn:Et.
  - split; [exact Et|]. rewrite E. assert (X : 0 < lv_const (outer (read l))) by now apply C.
    replace (Nat.max 1 (lv_const (outer (read l)))) with (lv_const (outer (read l))) by lia.
    unfold outer_const. destruct (read l) as [|v r] eqn:R.
    + cbn in X. lia.
    + rewrite (app_removelast_last (bare None) (l := v :: r)) at 1 by discriminate. unfold without_outer. f_equal. f_equal.
      unfold outer. now destruct (last (v :: r) (bare None)).
  - split; [reflexivity|]. cbn [tt_ctype]. rewrite E. unfold read. rewrite read_snoc_const by exact S. cbn zeta. fold (read l).
    assert (X : lv_const (outer (read l)) = 0) by (destruct (lv_const (outer (read l))) eqn:Y; [reflexivity|]; exfalso; assert (false = true) by (apply C; lia); discriminate).
    unfold outer_const, addq. rewrite X. reflexivity.
Qed.

Lemma insert_target l1 s seg : is_star s = true -> starfree seg ->
  insert_target_const (l1 ++ s :: seg) = (l1 ++ [const_token]) ++ s :: seg.
Proof.
  intros Hs F. unfold insert_target_const. rewrite rev_app_distr. cbn [rev]. rewrite <- app_assoc. cbn [app].
  assert (G : forall a b, starfree a -> insert_after_first_star (a ++ s :: b) = a ++ s :: const_token :: b).
  { induction a as [|x a IH]; intros b Fa; cbn; [now rewrite Hs|]. apply Forall_cons_iff in Fa. destruct Fa as [-> Fa]. now rewrite IH. }
  rewrite G by now apply starfree_rev. rewrite rev_app_distr. cbn [rev]. rewrite !rev_involutive, <- !app_assoc. reflexivity.
Qed.

Lemma make_target_const_ok l t : separate l -> traits_of l = Ok t -> lv_mark (outer (read l)) <> None ->
  exists t', make_target_const t = Ok t' /\ tt_target_is_const t' = true /\
    read (tt_ctype t') =
      outer_const (Nat.max 1 (lv_const (outer (without_outer (read l))))) (without_outer (read l)) ++ [outer (read l)].
Proof.
  intros S H MK. destruct (traits_ok l t S H) as [E [[_ [P [RF TC]]] _]]. unfold make_target_const.
  destruct (split_star l) as [F|[l1 [s [seg [EL [Hs F]]]]]].
  { exfalso. apply MK. unfold read. rewrite read_starfree by assumption. cbn. now rewrite puts_mark. }
  clear H. rewrite EL in S, MK, P, RF, TC, E |- *. clear EL l.
  assert (PR : tt_is_pointer t || tt_is_reference t = true).
  { destruct (read_split l1 s seg S Hs F (bare None)) as [m [M R]]. fold (read (l1 ++ s :: seg)) in R. rewrite R in P, RF. rewrite outer_app, puts_mark in P, RF. cbn [lv_mark bare] in P, RF.
    apply orb_true_iff. destruct (star_cases _ Hs) as [_ [[_ Y]|[_ [_ Y]]]]; rewrite Y in M; injection M as <-; [left; now apply P|right; now apply RF]. }
  rewrite PR. cbn [negb].
  assert (S1 : separate l1) by (apply Forall_app in S; apply S).
  destruct (read_split l1 s seg S Hs F (bare None)) as [m [M R]]. fold (read (l1 ++ s :: seg)) in R. fold (read l1) in R.
  rewrite R in TC. rewrite R, without_app, !outer_app. rewrite outer_app, without_app, puts_mark in TC.
  destruct (tt_target_is_const t) eqn:Et.
  - exists t. split; [reflexivity|]. split; [exact Et|]. rewrite E, R. f_equal.
    assert (X : 0 < lv_const (outer (read l1))) by now apply TC.
    replace (Nat.max 1 (lv_const (outer (read l1)))) with (lv_const (outer (read l1))) by lia.
    unfold outer_const. destruct (read l1) as [|v r] eqn:R1; [cbn in X; lia|].
    rewrite (app_removelast_last (bare None) (l := v :: r)) at 1 by discriminate. unfold without_outer. f_equal. f_equal.
    unfold outer. now destruct (last (v :: r) (bare None)).
  - eexists. split; [reflexivity|]. split; [reflexivity|]. cbn [tt_ctype]. rewrite E, insert_target by assumption.
    assert (SC : separate ((l1 ++ [const_token]) ++ s :: seg)).
    { apply Forall_app in S. destruct S as [_ X]. apply Forall_app; split; [apply Forall_app; split; [exact S1|constructor; [cbn; lia|constructor]]|exact X]. }
    destruct (read_split (l1 ++ [const_token]) s seg SC Hs F (bare None)) as [m' [M' R']]. unfold read. rewrite R'. assert (m' = m) as -> by congruence. f_equal.
    rewrite read_snoc_const by exact S1. cbn zeta. fold (read l1).
    assert (X : lv_const (outer (read l1)) = 0) by (destruct (lv_const (outer (read l1))) eqn:Y; [reflexivity|]; exfalso; assert (false = true) by (apply TC; split; [discriminate|lia]); discriminate).
    unfold outer_const, addq. rewrite X. reflexivity.
Qed.
