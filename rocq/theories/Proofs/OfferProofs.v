From Verif.Model Require Import Py PyState Mangle Errors Overloading Module.
From Verif.Spec Require Import OverloadSpec ModuleSpec PolicySpec.
From Verif.Proofs Require Import StrLemmas OverloadProofs ModuleProofs ModuleSteps ModuleNames Steps GenSteps PruneProofs EscapeProofs.
From Coq Require Import Lia.
Open Scope string_scope.
Open Scope list_scope.
Open Scope st_scope.

Notation log_of g := (w_log (g_world g)).

Section Offer.
  Context (h : handler) (multi : bool) (Hh : honest h).

  Lemma agreed_app l1 l2 id e : agreed h l1 id e -> agreed h (l1 ++ l2) id e.
  Proof. intros (I & G & A). split; [apply in_or_app; now left|]. auto. Qed.
  Lemma agreed_app2 l1 l2 id e : agreed h l2 id e -> agreed h (l1 ++ l2) id e.
  Proof. intros (I & G & A). split; [apply in_or_app; now right|]. auto. Qed.

  Lemma handling_offer {A} k (m : st gstate A) g g' : calm g (fst (m g)) ->
    call_with_error_handling gnote (Some h) generation_errors k m g = (g', Err SkipWrapper) ->
    forall e, snd (m g) = Err e -> exists L, log_of g' = log_of g ++ L /\ (e = SkipWrapper \/ agreed h L k e).
  Proof.
    intros (_ & l & E) H e Se. unfold call_with_error_handling, try_except in H. destruct (m g) as [g1 r]. cbn [fst snd] in *. subst r.
    rewrite gen_error in H. destruct (generation_error e) eqn:G.
    - unfold sbind, handle_error, sbind, modify, lift in H. exists (l ++ [(k, e)]).
      assert (g' = gnote k e g1) by (destruct (h k e) as [[|]|]; unfold raise in H; congruence). subst g'. cbn [gnote g_world note w_log]. rewrite E, app_assoc.
      split; [reflexivity|]. right. split; [apply in_or_app; right; now left|]. split; [exact G|]. pose proof (Hh k e) as Hk. destruct (h k e) as [[|]|]; unfold raise in H; [reflexivity| |exfalso; apply Hk; congruence].
      assert (e = SkipWrapper) by congruence. subst e. discriminate.
    - exists l. unfold raise in H. assert (g' = g1 /\ e = SkipWrapper) as [-> ->] by (split; congruence). split; [exact E|now left].
  Qed.

  Lemma report_log k e g g' : report gnote (Some h) k e g = (g', Ok tt) -> log_of g' = log_of g ++ [(k, e)].
  Proof. unfold report, sbind, handle_error, sbind, modify, lift, ret. destruct (h k e); intros H; [|discriminate]. replace g' with (gnote k e g) by congruence. reflexivity. Qed.

  Definition told (L : list (nat * pyexc)) (w : fwrapper) : Prop :=
    match get_flags w with Err e => e = SkipWrapper \/ agreed h L (fw_id w) e | Ok _ => True end.
  Lemma told_app L L' w : told L w -> told (L ++ L') w.
  Proof. unfold told. destruct (get_flags w); [auto|]. intros [->|A]; [now left|right; now apply agreed_app]. Qed.
  Lemma told_app2 L L' w : told L' w -> told (L ++ L') w.
  Proof. unfold told. destruct (get_flags w); [auto|]. intros [->|A]; [now left|right; now apply agreed_app2]. Qed.

  Lemma pass_offered l : forall ex seen g g' r b, normalize_pass gnote (Some h) ex seen l g = (g', Ok (r, b)) ->
    exists L, log_of g' = log_of g ++ L /\ (forall w, In w l -> In w r \/ told L w) /\ (forall w, In w seen -> In w r).
  Proof.
    induction l as [|w l IH]; intros ex seen g g' r b H; cbn [normalize_pass] in H.
    - unfold ret in H. assert (g' = g /\ r = rev seen) as [-> ->] by (split; congruence). exists []. rewrite app_nil_r.
      split; [reflexivity|]. split; [intros w []|]. intros w I. now apply in_rev in I.
    - unfold sbind at 1 in H. unfold try_except at 1 in H. unfold sbind at 1 in H.
      pose proof (fun g' => handling_offer (fw_id w) (lift (get_flags w)) g g' (calm_refl _)) as HO. cbn [lift snd] in HO.
      destruct (get_flags w) as [f|e] eqn:F.
      + assert (X : call_with_error_handling gnote (Some h) generation_errors (fw_id w) (lift (Ok f)) g = (g, Ok f)) by (apply handling_ok; reflexivity).
        rewrite X in H. cbn [ret] in H. unfold ret at 1 in H.
        assert (T : told [] w) by (unfold told; now rewrite F).
        assert (K : forall g' r b ex', normalize_pass gnote (Some h) ex' (w :: seen) l g = (g', Ok (r, b)) ->
          exists L, log_of g' = log_of g ++ L /\ (forall u, In u (w :: l) -> In u r \/ told L u) /\ (forall u, In u seen -> In u r)).
        { intros g0 r0 b0 ex' H0. destruct (IH _ _ _ _ _ _ H0) as (L & E & I1 & I2). exists L. split; [exact E|]. split.
          - intros u [<-|I]; [left; apply I2; now left|auto].
          - intros u I. apply I2. now right. }
        destruct ex as [ex|]; [|exact (K _ _ _ _ H)]. destruct (set_eq f ex); [exact (K _ _ _ _ H)|].
        unfold sbind at 1 in H. destruct (report gnote (Some h) (fw_id w) SkipWrapper g) as [g1 [[]|]] eqn:Rp; [|discriminate].
        unfold ret in H. assert (g' = g1 /\ r = rev seen ++ l) as [-> ->] by (split; congruence).
        exists [(fw_id w, SkipWrapper)]. split; [now apply report_log|]. split.
        * intros u [<-|I]; [right; unfold told; now rewrite F|left; apply in_or_app; now right].
        * intros u I. apply in_or_app. left. now apply in_rev in I.
      + destruct (call_with_error_handling gnote (Some h) generation_errors (fw_id w) (lift (Err e)) g) as [g1 [f|e1]] eqn:X.
        { exfalso. unfold call_with_error_handling, try_except, lift in X. destruct (is_instance e generation_errors); [|discriminate].
          unfold sbind, handle_error, sbind, modify, lift in X. destruct (h (fw_id w) e) as [[|]|]; discriminate. }
        destruct (exc_eq_dec e1 SkipWrapper) as [->|N]; [|discriminate].
        destruct (HO _ eq_refl e eq_refl) as (L & E & C).
        unfold sbind at 1 in H. destruct (report gnote (Some h) (fw_id w) SkipWrapper g1) as [g2 [[]|]] eqn:Rp; [|discriminate].
        unfold ret in H. assert (g' = g2 /\ r = rev seen ++ l) as [-> ->] by (split; congruence).
        exists (L ++ [(fw_id w, SkipWrapper)]). split; [rewrite (report_log _ _ _ _ Rp), E; now rewrite app_assoc|]. split.
        * intros u [<-|I]; [right; unfold told; rewrite F|left; apply in_or_app; now right]. destruct C as [->|C]; [now left|right; now apply agreed_app].
        * intros u I. apply in_or_app. left. now apply in_rev in I.
  Qed.

  Lemma loop_offered fuel : forall l g g' r, normalize_loop gnote (Some h) fuel l g = (g', Ok r) ->
    exists L, log_of g' = log_of g ++ L /\ forall w, In w l -> In w r \/ told L w.
  Proof.
    induction fuel as [|fuel IH]; intros l g g' r H; cbn [normalize_loop] in H; [discriminate|]. unfold sbind at 1 in H.
    destruct (normalize_pass gnote (Some h) None [] l g) as [g1 [[r1 b]|]] eqn:P; [|discriminate].
    destruct (pass_offered _ _ _ _ _ _ _ P) as (L & E & I & _). cbn [fst snd] in H. destruct b.
    - destruct (IH _ _ _ _ H) as (L' & E' & I'). exists (L ++ L'). split; [now rewrite E', E, app_assoc|].
      intros w W. destruct (I w W) as [W'|T]; [destruct (I' w W') as [W2|T]; [now left|right; now apply told_app2]|right; now apply told_app].
    - unfold ret in H. exists L. replace g' with g1 by congruence. replace r with r1 by congruence. auto.
  Qed.

  Lemma normalize_offered ws ks g g' : length ws <> 1 -> survive None ws ks -> normalize_flags gnote (Some h) ws g = (g', Ok (map force ks)) ->
    exists L, log_of g' = log_of g ++ L /\ forall w e, In w ws -> fw_body w true = Err e -> e = SkipWrapper \/ agreed h L (fw_id w) e.
  Proof.
    intros NL Sv H. unfold normalize_flags in H. destruct ws as [|w0 [|w1 r]]; [|now destruct NL|].
    - exists []. cbn in H. unfold ret in H. replace g' with g by congruence. rewrite app_nil_r. split; [reflexivity|]. intros w e [].
    - set (ws := w0 :: w1 :: r) in *. destruct (loop_offered _ _ _ _ _ H) as (L & E & I). exists L. split; [exact E|].
      intros w e W B. destruct (I (force w) (in_map force _ _ W)) as [X|T].
      + exfalso. apply in_map_iff in X. destruct X as (v & Ev & X). destruct (survive_ok _ _ _ Sv v X) as (f & Bv).
        assert (Bq : fw_body v = fw_body w) by (change (fw_body (force v) = fw_body (force w)); now rewrite Ev). congruence.
      + unfold told in T. change (get_flags (force w)) with (fw_body w true) in T. now rewrite B in T.
  Qed.

  Lemma rest_calm p f k ws : steps calm (rest p f k ws).
  Proof.
    unfold rest. apply steps_bind; [exact calm_trans|apply steps_handled; [exact calm_refl|exact calm_trans|exact calm_note|]|].
    - apply steps_bind; [exact calm_trans|apply steps_overload; [exact calm_refl|exact calm_trans|exact calm_note|intros; apply calm_refl]|].
      intros x. apply steps_bind; [exact calm_trans|apply calm_put|]. intros _. apply steps_ret. exact calm_refl.
    - intros [[ws' b]|]; [|apply steps_ret; exact calm_refl]. apply steps_bind; [exact calm_trans|apply calm_put|]. intros _.
      apply steps_bind; [exact calm_trans|apply steps_row; [exact calm_refl|exact calm_trans|exact calm_note]|]. intros r. apply steps_ret. exact calm_refl.
  Qed.

  Lemma gen_function_calm p f g : exists g1, calm g g1 /\ forall a g2,
    handled p (fs_id f) (generate_overload gnote (write_to (place multi (set_section_of f))) p (fs_wrappers f)) g1 = (g2, a) ->
    gen_function p multi f g = match a with Ok (Some (ws, _)) => rest p f (place multi (set_section_of f)) ws g2 | Ok None => (g2, Ok None) | Err e => (g2, Err e) end.
  Proof.
    destruct (sink_for_adds multi (set_section_of f) g) as (g0 & E & _). pose proof (calm_sink multi (set_section_of f) g) as A. rewrite E in A. cbn [fst] in A.
    exists (emit (place multi (set_section_of f)) PBlank g0). split.
    - eapply calm_trans; [exact A|apply calm_emit].
    - intros a g2 H. unfold gen_function. rewrite (sbind_ok _ _ _ _ _ E). unfold put at 1. unfold sbind at 1, modify at 1.
      destruct a as [[[ws b]|]|e].
      + rewrite (sbind_ok _ _ _ _ _ H). reflexivity.
      + rewrite (sbind_ok _ _ _ _ _ H). reflexivity.
      + rewrite (sbind_err _ _ _ _ _ H). reflexivity.
  Qed.

  Lemma overload_calm p k ws : steps calm (generate_overload gnote (write_to k) p ws).
  Proof. apply steps_overload; [exact calm_refl|exact calm_trans|exact calm_note|intros; apply calm_emit]. Qed.

  Definition dropped_ok (f : fset) (L : list (nat * pyexc)) : Prop :=
    match fs_wrappers f with
    | [w] => forall id e, sole_problem (fs_id f) w = Some (id, e) -> agreed h L id e
    | ws => forall w e, In w ws -> fw_body w true = Err e -> agreed h L (fw_id w) e
    end.
  Lemma dropped_app f L1 L2 L3 : dropped_ok f L2 -> dropped_ok f (L1 ++ L2 ++ L3).
  Proof.
    unfold dropped_ok. destruct (fs_wrappers f) as [|w [|w2 r]]; intros H; [intros w e []| |].
    - intros id e S. apply agreed_app2, agreed_app. auto.
    - intros u e I B. apply agreed_app2, agreed_app. eauto.
  Qed.

  (** The first phase: success, or skipped with everybody told. *)
  Lemma overload_offered k f g g' r : no_skips f -> generate_overload gnote (write_to k) (Some h) (fs_wrappers f) g = (g', r) ->
    (forall e, r = Err e -> e = SkipWrapper) -> exists L, log_of g' = log_of g ++ L /\ dropped_ok f L.
  Proof.
    intros NS G RS. pose proof (overload_calm (Some h) k (fs_wrappers f) g) as (_ & Lc & Ec). rewrite G in Ec. cbn [fst] in Ec.
    destruct (Nat.eq_dec (length (fs_wrappers f)) 1) as [Ln|Ln].
    - unfold dropped_ok, no_skips in *. destruct (fs_wrappers f) as [|w [|w2 l]]; try discriminate Ln. clear Ln.
      unfold generate_overload in G. cbn [normalize_flags] in G. rewrite (sbind_ok _ _ _ _ _ (eq_refl : ret [w] g = (g, Ok [w]))) in G.
      destruct (sole_cases (fs_id f) w) as [(fl & B & NI & Sp)|[(e1 & N & B & Sp)|[(fl & e1 & N & B & B1 & Sp)|(e1 & N & B & Sp)]]]; rewrite Sp.
      + exists Lc. split; [exact Ec|discriminate].
      + exfalso. rewrite N in G. cbn [negb] in G. assert (Y : lift (get_flags w) g = (g, Err e1)) by (unfold lift, get_flags; now rewrite B).
        rewrite (sbind_err _ _ _ _ _ Y) in G. assert (r = Err e1) by congruence. pose proof (RS e1 H). subst e1. exact (NS w (fw_forced w) (or_introl eq_refl) B).
      + rewrite N in G. cbn [negb] in G. assert (Y : lift (get_flags w) g = (g, Ok fl)) by (unfold lift, get_flags; now rewrite B).
        rewrite (sbind_ok _ _ _ _ _ Y) in G. cbn [generate_delegates] in G.
        unfold sbind at 1 in G. unfold sbind at 1 in G. unfold modify at 1 in G. unfold sbind at 1 in G. unfold try_except at 1 in G. unfold sbind at 1 in G.
        set (m := generate_wrapper (write_to k) (force w) (actual_name w (delegate_name (fw_base w) 0)) true) in *.
        assert (Z : m (write_to k CBlank g) = (write_to k CBlank g, Err e1)).
        { unfold m, generate_wrapper, sbind, lift; change (get_flags (force w)) with (fw_body w true); now rewrite B1. }
        destruct (call_with_error_handling gnote (Some h) generation_errors (fw_id w) m (write_to k CBlank g)) as [g1 [x|e2]] eqn:H.
        { exfalso. unfold call_with_error_handling, try_except in H. rewrite Z in H. destruct (is_instance e1 generation_errors); [|discriminate].
          unfold sbind, handle_error, sbind, modify, lift in H. destruct (h (fw_id w) e1) as [[|]|]; discriminate. }
        assert (e2 = SkipWrapper).
        { destruct (exc_eq_dec e2 SkipWrapper) as [->|Ne]; [reflexivity|]. apply RS. symmetry. exact (f_equal snd G). }
        subst e2. destruct (exc_eq_dec SkipWrapper SkipWrapper) as [_|Ne]; [|now destruct Ne].
        assert (g' = g1) by (symmetry; exact (f_equal fst G)). subst g1.
        assert (Cm : calm (write_to k CBlank g) (fst (m (write_to k CBlank g)))) by (rewrite Z; apply calm_refl).
        destruct (handling_offer _ _ _ _ Cm H e1 (f_equal snd Z)) as (L & E & C). exists L. split; [exact E|].
        intros id e X. injection X as <- <-. destruct C as [->|C]; [|exact C]. exfalso. exact (NS w true (or_introl eq_refl) B1).
      + rewrite N in G. cbn [negb] in G.
        set (m := generate_wrapper (write_to k) w (fw_base w) false) in *.
        assert (Z : m g = (g, Err e1)) by (unfold m, generate_wrapper, sbind, lift, get_flags; now rewrite B).
        destruct (call_with_error_handling gnote (Some h) generation_errors (fw_id w) m g) as [g1 [x|e2]] eqn:H.
        { exfalso. unfold call_with_error_handling, try_except in H. rewrite Z in H. destruct (is_instance e1 generation_errors); [|discriminate].
          unfold sbind, handle_error, sbind, modify, lift in H. destruct (h (fw_id w) e1) as [[|]|]; discriminate. }
        rewrite (sbind_err _ _ _ _ _ H) in G. assert (g' = g1 /\ r = Err e2) as [-> ->] by (split; congruence). pose proof (RS e2 eq_refl). subst e2.
        assert (Cm : calm g (fst (m g))) by (rewrite Z; apply calm_refl).
        destruct (handling_offer _ _ _ _ Cm H e1 (f_equal snd Z)) as (L & E & C). exists L. split; [exact E|].
        intros id e X. injection X as <- <-. destruct C as [->|C]; [|exact C]. exfalso. exact (NS w _ (or_introl eq_refl) B).
    - assert (Cl : exists L, log_of g' = log_of g ++ L /\ forall w e, In w (fs_wrappers f) -> fw_body w true = Err e -> agreed h L (fw_id w) e).
      { destruct (normalize_cases gnote (Some h) (fs_wrappers f) g Ln) as [(ks & s' & Sv & N & _)|(w & e1 & s' & I & Rj & N)].
        - destruct (normalize_offered _ _ _ _ Ln Sv N) as (L & E & A). 
          assert (X : exists L', log_of g' = log_of s' ++ L').
          { pose proof (generate_many gnote (write_to k) (Some h) _ ks g s' Ln N Sv) as M. destruct ks as [|w r0].
            - rewrite M in G. exists []. rewrite app_nil_r. congruence.
            - destruct M as (fl & _ & M). rewrite M in G. replace g' with (writes (write_to k) (chunks_of (w :: r0) (mem "METH_KEYWORDS" fl)) s') by congruence.
              exists []. rewrite app_nil_r. generalize (chunks_of (w :: r0) (mem "METH_KEYWORDS" fl)). intros cs. unfold writes.
              clear. revert s'. induction cs as [|c cs IH]; intros s'; cbn [fold_left]; [reflexivity|]. now rewrite IH. }
          destruct X as (L' & X). exists (L ++ L'). split; [now rewrite X, E, app_assoc|].
          intros w e I B. apply agreed_app. destruct (A w e I B) as [->|A']; [|exact A']. exfalso. exact (NS w true I B).
        - exfalso. unfold generate_overload in G. rewrite (sbind_err _ _ _ _ _ N) in G. assert (r = Err e1) by congruence. subst r.
          pose proof (RS e1 eq_refl). subst e1.
          destruct Rj as [(B & Ne & _)|(e' & _ & He)]; [now apply Ne|exact (Hh _ _ He)]. }
      destruct Cl as (L & E & A). exists L. split; [exact E|]. unfold dropped_ok. destruct (fs_wrappers f) as [|w [|w2 l]]; [intros w e []|now destruct Ln|exact A].
  Qed.
  Theorem function_offered f g g' r : no_skips f -> gen_function (Some h) multi f g = (g', Ok r) ->
    exists L, log_of g' = log_of g ++ L /\
      ((exists e0, comes_out (Some h) f e0 /\ agreed h L (fs_id f) e0 /\ r = None) \/ dropped_ok f L).
  Proof.
    intros NS G. destruct (gen_function_calm (Some h) f g) as (g1 & C1 & E). set (k := place multi (set_section_of f)) in *.
    destruct (handled (Some h) (fs_id f) (generate_overload gnote (write_to k) (Some h) (fs_wrappers f)) g1) as [g2 a] eqn:H.
    specialize (E a g2 eq_refl). rewrite E in G.
    assert (Fin : (exists L, log_of g2 = log_of g1 ++ L /\ a = Ok None /\ exists e0, comes_out (Some h) f e0 /\ agreed h L (fs_id f) e0) \/
                  exists L, log_of g2 = log_of g1 ++ L /\ dropped_ok f L).
    { destruct (generate_overload gnote (write_to k) (Some h) (fs_wrappers f) g1) as [g3 r3] eqn:O.
      destruct r3 as [x|e].
      - right. assert (g2 = g3). { rewrite (handled_ok (Some h) (fs_id f) _ _ _ _ O) in H. congruence. } subst g3.
        eapply overload_offered; [exact NS|exact O|discriminate].
      - destruct (exc_eq_dec e SkipWrapper) as [->|N].
        + right. assert (g2 = g3).
          { unfold handled, try_except at 1 in H. unfold sbind at 1 in H. unfold call_with_error_handling, try_except in H. rewrite O in H.
            change (is_instance SkipWrapper generation_errors) with false in H. cbn in H. unfold ret in H. congruence. }
          subst g3. eapply overload_offered; [exact NS|exact O|congruence].
        + left. assert (Co : comes_out (Some h) f e).
          { destruct (overload_out (Some h) (write_to k) f g1 e) as [X|X]; [now rewrite O|contradiction|exact X]. }
          unfold handled, try_except at 1 in H. unfold sbind at 1 in H.
          destruct (call_with_error_handling gnote (Some h) generation_errors (fs_id f) (generate_overload gnote (write_to k) (Some h) (fs_wrappers f)) g1) as [g4 [x|e4]] eqn:Q.
          * exfalso. unfold call_with_error_handling, try_except in Q. rewrite O in Q. destruct (is_instance e generation_errors); [|discriminate].
            unfold sbind, handle_error, sbind, modify, lift in Q. destruct (h (fs_id f) e) as [[|]|]; discriminate.
          * destruct (exc_eq_dec e4 SkipWrapper) as [->|N4].
            -- pose proof (overload_calm (Some h) k (fs_wrappers f) g1) as Cm.
               destruct (handling_offer _ _ _ _ Cm Q e (f_equal snd O)) as (L & EL & [X|A]); [contradiction|].
               exists L. unfold ret in H. split; [congruence|]. split; [congruence|]. eauto.
            -- exfalso. assert (a = Err e4) by (unfold raise in H; congruence). subst a. congruence. }
    destruct C1 as (_ & L1 & E1).
    assert (C2 : exists L3, log_of g' = log_of g2 ++ L3 /\ (a = Ok None -> r = None)).
    { destruct a as [[[ws b]|]|e]; [| |discriminate].
      - pose proof (rest_calm (Some h) f k ws g2) as (_ & L3 & E3). rewrite G in E3. cbn [fst] in E3. exists L3. split; [exact E3|discriminate].
      - exists []. rewrite app_nil_r. split; [congruence|]. intros _. congruence. }
    destruct C2 as (L3 & E3 & RN).
    destruct Fin as [(L & EL & X)|(L & EL & D)].
    - exists (L1 ++ L ++ L3). split; [rewrite E3, EL, E1; now rewrite !app_assoc|].
      left. destruct X as (Ea & e0 & Co & A). exists e0. split; [exact Co|]. split; [apply agreed_app2, agreed_app; exact A|now apply RN].
    - exists (L1 ++ L ++ L3). split; [rewrite E3, EL, E1; now rewrite !app_assoc|]. right. now apply dropped_app.
  Qed.
End Offer.

(** ** Without a handler *)
Lemma none_pass {W} (note : nat -> pyexc -> W -> W) l : forall ex seen s s' r, normalize_pass note None ex seen l s = (s', Ok (r, true)) -> False.
Proof.
  induction l as [|w l IH]; intros ex seen s s' r H; cbn [normalize_pass] in H; [discriminate|].
  unfold sbind at 1 in H. unfold try_except at 1 in H. unfold sbind at 1 in H. unfold call_with_error_handling, lift in H.
  destruct (get_flags w) as [f|e].
  - unfold ret at 1 in H. destruct ex as [ex|]; [|eapply IH; eauto]. destruct (set_eq f ex); [eapply IH; eauto|discriminate].
  - destruct (exc_eq_dec e SkipWrapper); discriminate.
Qed.
Lemma none_normalize ws ks g g' : length ws <> 1 -> normalize_flags gnote None ws g = (g', Ok ks) -> survive None ws ws.
Proof.
  intros L H. unfold normalize_flags in H. destruct ws as [|w [|w2 r]]; [constructor|now destruct L|]. set (ws := w :: w2 :: r) in *.
  cbn [normalize_loop] in H. unfold sbind at 1 in H.
  destruct (pass_cases gnote None ws None [] g) as [(ex' & F & X)|[(a & u & b & ex' & s1 & Ew & F & Bd & N & X)|(u & e & s1 & I & Rj & X)]].
  - apply (fine_all _ _ _ F).
  - exfalso. eapply none_pass. exact X.
  - rewrite X in H. discriminate.
Qed.
Theorem function_no_handler multi f g g' r : no_skips f -> fs_wrappers f <> [] -> gen_function None multi f g = (g', Ok r) ->
  r <> None /\ match fs_wrappers f with [w] => sole_problem (fs_id f) w = None | ws => survive None ws ws end.
Proof.
  intros NS NE G. destruct (gen_function_calm multi None f g) as (g1 & _ & E). set (k := place multi (set_section_of f)) in *.
  destruct (handled None (fs_id f) (generate_overload gnote (write_to k) None (fs_wrappers f)) g1) as [g2 a] eqn:H.
  specialize (E a g2 eq_refl). rewrite E in G.
  destruct (generate_overload gnote (write_to k) None (fs_wrappers f) g1) as [g3 [[ws base]|e]] eqn:O.
  - assert (a = Ok (Some (ws, base))) by (rewrite (handled_ok None (fs_id f) _ _ _ _ O) in H; congruence). subst a.
    destruct (overload_left None (write_to k) f g1 g3 ws base O) as (C & K & _). split.
    + unfold rest in G. destruct (clean_overload ws C) as (cs & ws' & base' & Go & C' & _ & Ew).
      assert (H2 : handled None (fs_id f) (x <~ generate_overload gnote (fun _ g => g) None ws ;; put SMain (PDeclare (snd x)) ;~ ret x) g2
        = (emit SMain (PDeclare base') g2, Ok (Some (ws', base')))).
      { apply handled_ok. rewrite (sbind_ok _ _ _ _ _ (Go _ gnote (fun _ g => g) None g2)). rewrite writes_null. reflexivity. }
      rewrite (sbind_ok _ _ _ _ _ H2) in G. unfold put in G. unfold sbind at 1, modify at 1 in G. unfold sbind at 1 in G.
      destruct (get_row gnote None ws' base' (fs_name f) (emit k PBlank (emit SMain (PDeclare base') g2))) as [g4 [x|e2]]; [|discriminate].
      unfold ret in G. congruence.
    + destruct (fs_wrappers f) as [|w [|w2 l]] eqn:EW; [now destruct NE| |].
      * inversion K; subst; auto; exfalso; match goal with X : length ?l <> 1, Y : ?l = [_] |- _ => apply X; rewrite Y; reflexivity end.
      * assert (L : length (w :: w2 :: l) <> 1) by (cbn; lia). rewrite <- EW in *.
        destruct (normalize_cases gnote None (fs_wrappers f) g1 L) as [(ks & s' & Sv & N & _)|(u & e1 & s' & I & Rj & N)].
        -- eapply none_normalize; [exact L|exact N].
        -- unfold generate_overload in O. rewrite (sbind_err _ _ _ _ _ N) in O. discriminate.
  - exfalso. assert (e = SkipWrapper).
    { destruct (exc_eq_dec e SkipWrapper) as [X|N]; [exact X|]. exfalso. unfold handled, try_except in H. unfold sbind, call_with_error_handling in H. rewrite O in H.
      destruct (exc_eq_dec e SkipWrapper); [contradiction|]. assert (a = Err e) by (unfold raise in H; congruence). subst a. discriminate. }
    subst e. clear E G H. destruct (Nat.eq_dec (length (fs_wrappers f)) 1) as [L|L].
    + destruct (fs_wrappers f) as [|w [|w2 l]] eqn:EW; try discriminate L. unfold no_skips in NS. rewrite EW in NS.
      assert (X : comes_out None f SkipWrapper \/ True) by now right. clear X.
      unfold generate_overload in O. cbn [normalize_flags] in O. rewrite (sbind_ok _ _ _ _ _ (eq_refl : ret [w] g1 = (g1, Ok [w]))) in O.
      destruct (sole_cases (fs_id f) w) as [(fl & B & NI & Sp)|[(e1 & N & B & Sp)|[(fl & e1 & N & B & B1 & Sp)|(e1 & N & B & Sp)]]].
      * assert (C : clean [w]) by (left; exists w; eauto). destruct (clean_overload _ C) as (cs & ks' & base & H & _).
        specialize (H _ gnote (write_to k) None g1). unfold generate_overload in H. cbn [normalize_flags] in H.
        rewrite (sbind_ok _ _ _ _ _ (eq_refl : ret [w] g1 = (g1, Ok [w]))) in H. rewrite H in O. discriminate.
      * rewrite N in O. cbn [negb] in O. unfold sbind, lift, get_flags in O. rewrite B in O. assert (e1 = SkipWrapper) by congruence. subst e1.
        exact (NS w _ (or_introl eq_refl) B).
      * rewrite N in O. cbn [negb] in O. assert (Y : lift (get_flags w) g1 = (g1, Ok fl)) by (unfold lift, get_flags; now rewrite B).
        rewrite (sbind_ok _ _ _ _ _ Y) in O. cbn [generate_delegates] in O. unfold sbind, modify, try_except, call_with_error_handling, generate_wrapper, sbind, lift in O.
        change (get_flags (force w)) with (fw_body w true) in O. rewrite B1 in O.
        destruct (exc_eq_dec e1 SkipWrapper) as [->|N1]; [exact (NS w _ (or_introl eq_refl) B1)|]. unfold raise in O. congruence.
      * rewrite N in O. cbn [negb] in O. unfold sbind, call_with_error_handling, generate_wrapper, sbind, lift, get_flags in O. rewrite B in O.
        assert (e1 = SkipWrapper) by congruence. subst e1. exact (NS w _ (or_introl eq_refl) B).
    + destruct (normalize_cases gnote None (fs_wrappers f) g1 L) as [(ks & s' & Sv & N & _)|(u & e1 & s' & I & Rj & N)].
      * pose proof (none_normalize _ _ _ _ L N) as Sw. assert (ks = fs_wrappers f) by exact (survive_det _ _ _ Sv _ Sw). subst ks.
        pose proof (generate_many gnote (write_to k) None _ _ g1 s' L N Sv) as M. destruct (fs_wrappers f) as [|w r0]; [now destruct NE|].
        destruct M as (fl & _ & M). rewrite M in O. discriminate.
      * unfold generate_overload in O. rewrite (sbind_err _ _ _ _ _ N) in O. assert (e1 = SkipWrapper) by congruence. subst e1.
        destruct Rj as [B|B]; [exact (NS u true I B)|discriminate].
Qed.

(** ** The whole tree *)
Section Tree.
  Context (p : policy) (multi : bool).
  Definition did (f : fset) (g' : gstate) : Prop :=
    exists g1 g2 r l, gen_function p multi f g1 = (g2, Ok r) /\ log_of g' = log_of g2 ++ l.
  Lemma did_calm f g g' : did f g -> calm g g' -> did f g'.
  Proof. intros (g1 & g2 & r & l & G & E) (_ & l' & E'). exists g1, g2, r, (l ++ l'). split; [exact G|]. now rewrite E', E, app_assoc. Qed.
  Lemma functions_did l : forall g g' rows, gen_functions p multi l g = (g', Ok rows) -> forall f, In f l -> did f g'.
  Proof.
    induction l as [|f l IH]; intros g g' rows H u I; [destruct I|]. cbn [gen_functions] in H. unfold sbind at 1 in H.
    destruct (gen_function p multi f g) as [g1 [r|]] eqn:G; [|discriminate]. unfold sbind at 1 in H.
    destruct (gen_functions p multi l g1) as [g2 [rows'|]] eqn:Gs; [|discriminate].
    assert (g' = g2) by (unfold ret in H; congruence). subst g2. pose proof (calm_functions p multi l g1) as C. rewrite Gs in C. cbn [fst] in C.
    destruct I as [<-|I].
    - apply (did_calm f g1); [|exact C]. exists g, g1, r, []. rewrite app_nil_r. auto.
    - eapply IH; eauto.
  Qed.
  Lemma for_did {A} (F : A -> st gstate unit) (P : A -> gstate -> Prop) l :
    (forall x, steps calm (F x)) -> (forall x g g', calm g g' -> P x g -> P x g') ->
    forall g g', for_each F l g = (g', Ok tt) -> (forall x g1 g2, In x l -> same_mods g g1 -> F x g1 = (g2, Ok tt) -> P x g2) -> forall x, In x l -> P x g'.
  Proof.
    intros St Mono. induction l as [|y l IH]; intros g g' H Q x I; [destruct I|]. cbn [for_each] in H. unfold sbind in H.
    destruct (F y g) as [g1 [[]|]] eqn:Fy; [|discriminate].
    assert (Cf : steps calm (for_each F l)) by (apply steps_for; [exact calm_refl|exact calm_trans|auto]).
    pose proof (Cf g1) as C. rewrite H in C. cbn [fst] in C. pose proof (St y g) as C1. rewrite Fy in C1. cbn [fst] in C1.
    destruct I as [<-|I]; [apply (Mono _ g1); [exact C|eapply Q; [now left|reflexivity|exact Fy]]|].
    eapply (IH g1); [exact H| |exact I]. intros z g2 g3 J S. apply Q; [now right|]. destruct C1 as (C1 & _). unfold same_mods in *. congruence.
  Qed.
  Lemma module_did fuel : forall i g g', gen_module p multi fuel i g = (g', Ok tt) ->
    forall j m f, below (w_mods (g_world g)) i j -> nth_error (w_mods (g_world g)) j = Some m -> In f (m_functions m) -> did f g'.
  Proof.
    induction fuel as [|fuel IH]; intros i g g' H j m f Bl Nj If; cbn [gen_module] in H; [discriminate|].
    unfold sbind at 1 in H. unfold get_gmod in H. destruct (nth_error (w_mods (g_world g)) i) as [mi|] eqn:Ni; [|discriminate].
    unfold sbind at 1 in H. destruct (for_each (gen_module p multi fuel) (m_submodules mi) g) as [g1 [[]|]] eqn:Fs; [|discriminate].
    assert (C1 : calm g g1).
    { assert (steps calm (for_each (gen_module p multi fuel) (m_submodules mi))) as S by (apply steps_for; [exact calm_refl|exact calm_trans|intros; apply calm_module]).
      specialize (S g). now rewrite Fs in S. }
    unfold sbind at 1 in H. destruct (gen_functions p multi (m_functions mi) g1) as [g2 [rows|]] eqn:Gf; [|discriminate].
    assert (C2 : calm g1 g2) by (pose proof (calm_functions p multi (m_functions mi) g1) as S; now rewrite Gf in S).
    assert (C3 : calm g2 g').
    { match type of H with ?m g2 = _ => assert (S : steps calm m) end.
      - apply steps_bind; [exact calm_trans|apply calm_put|]. intros _.
        apply steps_bind; [exact calm_trans|apply steps_for; [exact calm_refl|exact calm_trans|intros; apply calm_gen_type]|]. intros _.
        apply steps_bind; [exact calm_trans|apply steps_for; [exact calm_refl|exact calm_trans|intros; apply calm_gen_type]|]. intros _.
        apply steps_bind; [exact calm_trans|apply calm_flush|]. intros _.
        apply steps_bind; [exact calm_trans|apply steps_gets; exact calm_refl|]. intros subs. apply calm_put.
      - specialize (S g2). now rewrite H in S. }
    destruct Bl as [i|i mi' k j Nk Ik Bl].
    - assert (m = mi) by congruence. subst mi. eapply did_calm; [|exact C3]. eapply functions_did; eauto.
    - assert (mi' = mi) by congruence. subst mi'. eapply did_calm; [|exact (calm_trans _ _ _ C2 C3)].
      refine (for_did (gen_module p multi fuel) (fun k g' => below (w_mods (g_world g)) k j -> did f g') (m_submodules mi) _ _ g g1 Fs _ k Ik Bl).
      + intros x. apply calm_module.
      + intros x a b C D B. eapply did_calm; [exact (D B)|exact C].
      + intros x a b Ix S G B. eapply (IH x a b G j m f); [unfold same_mods in S; now rewrite S|unfold same_mods in S; now rewrite S|exact If].
  Qed.
  Lemma generate_did w g' : generate p multi w = (g', Ok tt) ->
    forall j m f, below (w_mods w) 0 j -> nth_error (w_mods w) j = Some m -> In f (m_functions m) -> did f g'.
  Proof.
    unfold generate. set (g := mk_gstate w _ _ _). intros H j m f Bl Nj If. unfold gen_root in H.
    unfold sbind at 1 in H. unfold gets in H. change (g_world g) with w in H. destruct (w_includes w) as [incs|]; [|discriminate].
    unfold sbind at 1 in H. destruct (captured (forward_module (length (w_mods w)) 0) g) as [g1 [fwd|]] eqn:Cp; [|discriminate].
    assert (C1 : calm g g1) by (pose proof (calm_captured _ (calm_forward (length (w_mods w)) 0) g) as S; now rewrite Cp in S).
    unfold sbind at 1 in H. destruct (for_each (fun s => put SHeader (PInclude s)) incs g1) as [g2 [[]|]] eqn:Fi; [|discriminate].
    assert (C2 : calm g1 g2).
    { assert (steps calm (for_each (fun s => put SHeader (PInclude s)) incs)) as S by (apply steps_for; [exact calm_refl|exact calm_trans|intros; apply calm_put]).
      specialize (S g1). now rewrite Fi in S. }
    unfold sbind at 1 in H. unfold modify at 1 in H. unfold sbind at 1 in H. unfold modify at 1 in H.
    destruct (calm_trans _ _ _ C1 C2) as (M & _). unfold same_mods in M. change (w_mods (g_world g)) with (w_mods w) in M.
    eapply (module_did _ _ _ _ H); [cbn; rewrite M; exact Bl|cbn; rewrite M; exact Nj|exact If].
  Qed.
End Tree.

Theorem tree_no_handler multi w g' : generate None multi w = (g', Ok tt) ->
  forall j m f, below (w_mods w) 0 j -> nth_error (w_mods w) j = Some m -> In f (m_functions m) -> no_skips f -> fs_wrappers f <> [] ->
  match fs_wrappers f with [w] => sole_problem (fs_id f) w = None | ws => survive None ws ws end.
Proof.
  intros H j m f Bl Nj If NS NE. destruct (generate_did None multi w g' H j m f Bl Nj If) as (g1 & g2 & r & l & G & _).
  eapply function_no_handler; eauto.
Qed.
Theorem tree_offered h multi w g' : honest h -> generate (Some h) multi w = (g', Ok tt) ->
  forall j m f, below (w_mods w) 0 j -> nth_error (w_mods w) j = Some m -> In f (m_functions m) -> no_skips f ->
  (exists e0, comes_out (Some h) f e0 /\ agreed h (log_of g') (fs_id f) e0) \/
  match fs_wrappers f with
  | [w] => forall id e, sole_problem (fs_id f) w = Some (id, e) -> agreed h (log_of g') id e
  | ws => forall w e, In w ws -> fw_body w true = Err e -> agreed h (log_of g') (fw_id w) e
  end.
Proof.
  intros Hh H j m f Bl Nj If NS. destruct (generate_did (Some h) multi w g' H j m f Bl Nj If) as (g1 & g2 & r & l & G & E).
  destruct (function_offered h multi Hh f g1 g2 r NS G) as (L & EL & [(e0 & Co & A & _)|D]).
  - left. exists e0. split; [exact Co|]. rewrite E, EL. apply agreed_app, agreed_app2. exact A.
  - right. pose proof (dropped_app h f (log_of g1) L l D) as D'. rewrite E, EL, <- app_assoc. exact D'.
Qed.
