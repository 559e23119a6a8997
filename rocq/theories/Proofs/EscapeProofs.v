From Verif.Model Require Import Py PyState Mangle Errors Overloading Module.
From Verif.Spec Require Import OverloadSpec ModuleSpec PolicySpec.
From Verif.Proofs Require Import StrLemmas OverloadProofs ModuleProofs ModuleSteps Steps GenSteps PruneProofs.
From Coq Require Import Lia.
Open Scope string_scope.
Open Scope list_scope.
Open Scope st_scope.

Lemma gen_error e : is_instance e generation_errors = generation_error e.
Proof. destruct e; reflexivity. Qed.

Lemma handling_escape {A} p k (m : st gstate A) g : 
  match snd (m g) with
  | Ok a => call_with_error_handling gnote p generation_errors k m g = (fst (m g), Ok a)
  | Err e0 => exists g' e, call_with_error_handling gnote p generation_errors k m g = (g', Err e) /\
      (escapes p k e0 e \/ (e = SkipWrapper /\ exists h, p = Some h /\ generation_error e0 = true /\ h k e0 = Ok true /\ g' = gnote k e0 (fst (m g))))
  end.
Proof.
  unfold call_with_error_handling, escapes. destruct (m g) as [g1 [a|e0]] eqn:E; cbn [fst snd].
  - destruct p; [unfold try_except; rewrite E; reflexivity|exact E].
  - destruct p as [h|]; [|exists g1, e0; auto]. unfold try_except. rewrite E, gen_error. destruct (generation_error e0) eqn:G; [|exists g1, e0; auto].
    unfold sbind, handle_error, sbind, modify, lift. destruct (h k e0) as [[|]|e'] eqn:H; eexists _, _; (split; [reflexivity|]); eauto 10.
Qed.

Lemma handled_escape {A} p k (m : st gstate A) g g' e : handled p k m g = (g', Err e) ->
  e <> SkipWrapper /\ exists e0, snd (m g) = Err e0 /\ escapes p k e0 e.
Proof.
  unfold handled, try_except. pose proof (handling_escape p k m g) as H. destruct (snd (m g)) as [a|e0].
  - rewrite (sbind_ok _ _ _ _ _ H). discriminate.
  - destruct H as (g1 & e1 & H & C). rewrite (sbind_err _ _ _ _ _ H). destruct (exc_eq_dec e1 SkipWrapper) as [->|N]; [discriminate|].
    intros X. assert (e = e1) by (unfold raise in X; congruence). subst e1. split; [exact N|]. exists e0. split; [reflexivity|]. destruct C as [C|(C & _)]; [exact C|contradiction].
Qed.

(** ** What can be raised by generating a set *)
Lemma sole_cases set w : 
  (exists f, fw_body w (fw_forced w) = Ok f /\ (fw_needs_interface w = true -> exists f, fw_body w true = Ok f) /\ sole_problem set w = None) \/
  (exists e, fw_needs_interface w = true /\ fw_body w (fw_forced w) = Err e /\ sole_problem set w = Some (set, e)) \/
  (exists f e, fw_needs_interface w = true /\ fw_body w (fw_forced w) = Ok f /\ fw_body w true = Err e /\ sole_problem set w = Some (fw_id w, e)) \/
  (exists e, fw_needs_interface w = false /\ fw_body w (fw_forced w) = Err e /\ sole_problem set w = Some (fw_id w, e)).
Proof.
  unfold sole_problem. destruct (fw_body w (fw_forced w)) as [f|e] eqn:B, (fw_needs_interface w) eqn:N.
  - destruct (fw_body w true) as [f'|e'] eqn:B'; [left; exists f; eauto|right; right; left; exists f, e'; auto].
  - left. exists f. split; [reflexivity|]. split; [discriminate|reflexivity].
  - right; left. eauto.
  - right; right; right. eauto.
Qed.

Section Escape.
  Context (p : policy) (multi : bool).

  Lemma overload_out write f g e : snd (generate_overload gnote write p (fs_wrappers f) g) = Err e ->
    e = SkipWrapper \/ comes_out p f e.
  Proof.
    intros X. destruct (generate_overload gnote write p (fs_wrappers f) g) as [g' r] eqn:G. cbn [snd] in X. subst r.
    destruct (Nat.eq_dec (length (fs_wrappers f)) 1) as [L|L].
    - destruct (fs_wrappers f) as [|w [|w2 r]] eqn:EW; try discriminate L. clear L.
      unfold generate_overload in G. cbn [normalize_flags] in G. rewrite (sbind_ok _ _ _ _ _ (eq_refl : ret [w] g = (g, Ok [w]))) in G.
      destruct (sole_cases (fs_id f) w) as [(fl & B & NI & Sp)|[(e1 & N & B & Sp)|[(fl & e1 & N & B & B1 & Sp)|(e1 & N & B & Sp)]]].
      + exfalso. assert (C : clean [w]) by (left; exists w; eauto). destruct (clean_overload _ C) as (cs & ks' & base & H & _).
        specialize (H _ gnote write p g). unfold generate_overload in H. cbn [normalize_flags] in H.
        rewrite (sbind_ok _ _ _ _ _ (eq_refl : ret [w] g = (g, Ok [w]))) in H. rewrite H in G. discriminate.
      + rewrite N in G. cbn [negb] in G. assert (Y : lift (get_flags w) g = (g, Err e1)) by (unfold lift, get_flags; now rewrite B).
        rewrite (sbind_err _ _ _ _ _ Y) in G. right. eapply co_set; eauto. congruence.
      + rewrite N in G. cbn [negb] in G. assert (Y : lift (get_flags w) g = (g, Ok fl)) by (unfold lift, get_flags; now rewrite B).
        rewrite (sbind_ok _ _ _ _ _ Y) in G. cbn [generate_delegates] in G.
        unfold sbind at 1 in G. unfold sbind at 1 in G. unfold modify at 1 in G. unfold sbind at 1 in G. unfold try_except at 1 in G. unfold sbind at 1 in G.
        pose proof (handling_escape p (fw_id w) (generate_wrapper write (force w) (actual_name w (delegate_name (fw_base w) 0)) true) (write CBlank g)) as H.
        assert (Z : snd (generate_wrapper write (force w) (actual_name w (delegate_name (fw_base w) 0)) true (write CBlank g)) = Err e1)
          by (unfold generate_wrapper, sbind, lift; change (get_flags (force w)) with (fw_body w true); now rewrite B1).
        rewrite Z in H. destruct H as (g1 & e2 & H & C). rewrite H in G.
        destruct (exc_eq_dec e2 SkipWrapper) as [->|Ne].
        * left. assert (X : @Err (list fwrapper * string) SkipWrapper = Err e) by exact (f_equal snd G). congruence.
        * right. assert (X : @Err (list fwrapper * string) e2 = Err e) by exact (f_equal snd G). assert (e = e2) by congruence. subst e2. destruct C as [C|(C & _)]; [|contradiction]. eapply co_sole; eauto.
      + rewrite N in G. cbn [negb] in G.
        pose proof (handling_escape p (fw_id w) (generate_wrapper write w (fw_base w) false) g) as H.
        assert (Z : snd (generate_wrapper write w (fw_base w) false g) = Err e1) by (unfold generate_wrapper, sbind, lift, get_flags; now rewrite B).
        rewrite Z in H. destruct H as (g1 & e2 & H & C). rewrite (sbind_err _ _ _ _ _ H) in G. assert (e = e2) by congruence. subst e2.
        destruct C as [C|(-> & _)]; [right; eapply co_sole; eauto|now left].
    - destruct (normalize_cases gnote p (fs_wrappers f) g L) as [(ks & s' & Sv & N & _)|(w & e1 & s' & I & Rj & N)].
      + pose proof (generate_many gnote write p _ ks g s' L N Sv) as M. destruct ks as [|w r].
        * left. congruence.
        * destruct M as (fl & _ & M). rewrite M in G. discriminate.
      + right. unfold generate_overload in G. rewrite (sbind_err _ _ _ _ _ N) in G. assert (e = e1) by congruence. subst e1. eapply co_many; eauto.
  Qed.

  (** ... or by the second round, on what the first one left *)
  Lemma overload_left write f g g' ws base : generate_overload gnote write p (fs_wrappers f) g = (g', Ok (ws, base)) ->
    clean ws /\ kept (fs_id f) (fs_wrappers f) (match fs_wrappers f with [w] => [w] | _ => ws end) /\ map force ws = map force (match fs_wrappers f with [w] => [w] | _ => ws end).
  Proof.
    intros G. destruct (Nat.eq_dec (length (fs_wrappers f)) 1) as [L|L].
    - destruct (fs_wrappers f) as [|w [|w2 r]] eqn:EW; try discriminate L. clear L.
      destruct (sole_cases (fs_id f) w) as [(fl & B & NI & Sp)|C].
      + assert (C : clean [w]) by (left; exists w; eauto). destruct (clean_overload _ C) as (cs & ks' & base' & H & C' & _ & E).
        specialize (H _ gnote write p g). rewrite H in G. assert (W0 : ks' = ws) by congruence. rewrite W0 in C', E. split; [exact C'|]. split; [now apply kp_one|].
        rewrite E. destruct (negb (fw_needs_interface w)); reflexivity.
      + exfalso. unfold generate_overload in G. cbn [normalize_flags] in G. rewrite (sbind_ok _ _ _ _ _ (eq_refl : ret [w] g = (g, Ok [w]))) in G.
        destruct C as [(e1 & N & B & Sp)|[(fl & e1 & N & B & B1 & Sp)|(e1 & N & B & Sp)]]; rewrite N in G; cbn [negb] in G.
        * assert (Y : lift (get_flags w) g = (g, Err e1)) by (unfold lift, get_flags; now rewrite B). rewrite (sbind_err _ _ _ _ _ Y) in G. discriminate.
        * assert (Y : lift (get_flags w) g = (g, Ok fl)) by (unfold lift, get_flags; now rewrite B).
          rewrite (sbind_ok _ _ _ _ _ Y) in G. cbn [generate_delegates] in G.
          unfold sbind at 1 in G. unfold sbind at 1 in G. unfold modify at 1 in G. unfold sbind at 1 in G. unfold try_except at 1 in G. unfold sbind at 1 in G.
          pose proof (handling_escape p (fw_id w) (generate_wrapper write (force w) (actual_name w (delegate_name (fw_base w) 0)) true) (write CBlank g)) as H.
          assert (Z : snd (generate_wrapper write (force w) (actual_name w (delegate_name (fw_base w) 0)) true (write CBlank g)) = Err e1)
            by (unfold generate_wrapper, sbind, lift; change (get_flags (force w)) with (fw_body w true); now rewrite B1).
          rewrite Z in H. destruct H as (g1 & e2 & H & C). rewrite H in G. destruct (exc_eq_dec e2 SkipWrapper) as [->|Ne]; discriminate.
        * pose proof (handling_escape p (fw_id w) (generate_wrapper write w (fw_base w) false) g) as H.
          assert (Z : snd (generate_wrapper write w (fw_base w) false g) = Err e1) by (unfold generate_wrapper, sbind, lift, get_flags; now rewrite B).
          rewrite Z in H. destruct H as (g1 & e2 & H & C). rewrite (sbind_err _ _ _ _ _ H) in G. discriminate.
    - destruct (normalize_cases gnote p (fs_wrappers f) g L) as [(ks & s' & Sv & N & _)|(w & e1 & s' & I & Rj & N)].
      + pose proof (generate_many gnote write p _ ks g s' L N Sv) as M. destruct ks as [|w r]; [rewrite M in G; discriminate|].
        destruct M as (fl & _ & M). rewrite M in G. assert (ws = map force (w :: r)) by congruence. subst ws.
        assert (E : match fs_wrappers f with [w0] => [w0] | _ => map force (w :: r) end = map force (w :: r)).
        { destruct (fs_wrappers f) as [|a [|b l]]; [reflexivity|now destruct L|reflexivity]. }
        rewrite E. split; [eapply survive_clean; [exact Sv|discriminate]|]. split; [now apply kp_many|reflexivity].
      + unfold generate_overload in G. rewrite (sbind_err _ _ _ _ _ N) in G. discriminate.
  Qed.

  Lemma clean_row_err ks base name e : clean ks -> forall W (note : nat -> pyexc -> W -> W) p s s', get_row note p ks base name s = (s', Err e) ->
    e = CodeGenerationError /\ doc_conflict ks.
  Proof.
    intros C W note0 p0 s s' R. pose proof (doc_cases ks) as D. unfold docs in D.
    destruct C as [(w & -> & (f & B) & NI)|(L & F & fl & Fi)].
    - destruct (fw_needs_interface w) eqn:N.
      + cbn in D. unfold get_row in R. rewrite N in R. cbn [negb normalize_flags] in R.
        rewrite (sbind_ok _ _ _ _ _ (eq_refl : ret [w] s = (s, Ok [w]))) in R.
        assert (G : lift (get_flags w) s = (s, Ok f)) by (unfold lift, get_flags; now rewrite B).
        rewrite (sbind_ok _ _ _ _ _ G) in R.
        assert (K : lift (check_flags f [w]) s = (s, Ok tt)).
        { unfold lift. cbn [check_flags]. unfold get_flags. rewrite B. assert (Q : set_eq f f = true) by (apply set_eq_spec; intros x; tauto). now rewrite Q. }
        rewrite (sbind_ok _ _ _ _ _ K) in R. cbn in R. destruct (fw_doc w); cbn in R; discriminate.
      + unfold get_row in R. rewrite N in R. cbn [negb] in R.
        assert (G : lift (get_flags w) s = (s, Ok f)) by (unfold lift, get_flags; now rewrite B).
        rewrite (sbind_ok _ _ _ _ _ G) in R. discriminate.
    - pose proof (proj1 (fine_all _ _ _ Fi)) as Sv. assert (NA : ~ alone ks).
      { intros (w & -> & _). cbn in L. lia. }
      assert (NE : ks <> []) by (intros ->; cbn in L; lia).
      destruct (clean_row ks (or_intror (conj L (conj F (ex_intro _ fl Fi)))) base name) as (r & H). rewrite H in R.
      (* with the base name of the first wrapper the row is known; the name does not matter for failure *)
      destruct ks as [|w [|w2 l]]; cbn [length] in L; [lia|lia|]. set (ks := w :: w2 :: l) in *.
      destruct (row_many note0 p0 ks ks name s Sv NE NA) as (w' & r' & f & E & B & R1 & R2). rewrite F in R1, R2.
      destruct (doc_total ks) as [(d & Dd)|Dc].
      + exfalso. specialize (R1 d Dd). clear R2.
        assert (X : forall b1 b2 r1, get_row note0 p0 ks b1 name s = (s, Ok r1) -> exists r2, get_row note0 p0 ks b2 name s = (s, Ok r2)).
        { intros b1 b2 r1. unfold get_row. cbn [ks].
          unfold sbind at 1 4. destruct (normalize_flags note0 p0 ks s) as [s1 [?|?]]; [|discriminate].
          unfold sbind at 1 3. unfold lift at 1 3. destruct (get_flags w) as [fl0|]; [|discriminate].
          unfold sbind at 1 2. unfold lift at 1 2. destruct (check_flags fl0 ks) as [?|]; [|discriminate].
          destruct (distinct _) as [|d1 [|d2 l2]]; [|..]; unfold ret, raise; intros Y; try discriminate; (eexists; f_equal; congruence). }
        destruct (X _ base _ R1) as (r2 & R2). rewrite H in R2. congruence.
      + split; [|exact Dc]. specialize (R2 Dc). clear R1.
        assert (X : forall b1 b2 e1, get_row note0 p0 ks b1 name s = (s, Err e1) -> get_row note0 p0 ks b2 name s = (s, Err e1)).
        { intros b1 b2 e1. unfold get_row. cbn [ks].
          unfold sbind at 1 4. destruct (normalize_flags note0 p0 ks s) as [s1 [?|?]]; [|auto].
          unfold sbind at 1 3. unfold lift at 1 3. destruct (get_flags w) as [fl0|]; [|auto].
          unfold sbind at 1 2. unfold lift at 1 2. destruct (check_flags fl0 ks) as [?|]; [|auto].
          destruct (distinct _) as [|d1 [|d2 l2]]; unfold ret, raise; intros Y; try discriminate; exact Y. }
        specialize (X _ base _ R2). rewrite H in X. congruence.
  Qed.

  Lemma doc_conflict_force ks ks' : map force ks = map force ks' -> doc_conflict ks -> doc_conflict ks'.
  Proof.
    intros E (a & b & s & t & A & B & Da & Db & N).
    assert (X : forall x, In x ks -> exists y, In y ks' /\ fw_doc y = fw_doc x).
    { intros x I. apply (in_map force) in I. rewrite E in I. apply in_map_iff in I. destruct I as (y & E' & I). exists y. split; [exact I|].
      change (fw_doc (force y) = fw_doc (force x)). now rewrite E'. }
    destruct (X a A) as (a' & A' & Ea), (X b B) as (b' & B' & Eb). exists a', b', s, t. repeat split; auto; congruence.
  Qed.

  Theorem function_escape f g g' e : gen_function p multi f g = (g', Err e) ->
    (exists ks, kept (fs_id f) (fs_wrappers f) ks /\ doc_conflict ks /\ e = CodeGenerationError) \/
    (e <> SkipWrapper /\ exists e0, comes_out p f e0 /\ escapes p (fs_id f) e0 e).
  Proof.
    intros G. destruct (gen_function_eq multi p f g) as (g1 & _ & E). set (k := place multi (set_section_of f)) in *.
    destruct (handled p (fs_id f) (generate_overload gnote (write_to k) p (fs_wrappers f)) g1) as [g2 a] eqn:H.
    specialize (E a g2 eq_refl). rewrite E in G. destruct a as [[[ws base]|]|e1].
    - left.
      assert (O : exists g3, generate_overload gnote (write_to k) p (fs_wrappers f) g1 = (g3, Ok (ws, base))).
      { unfold handled, try_except in H. pose proof (handling_escape p (fs_id f) (generate_overload gnote (write_to k) p (fs_wrappers f)) g1) as X.
        destruct (generate_overload gnote (write_to k) p (fs_wrappers f) g1) as [g3 [x|e2]] eqn:O; cbn [snd fst] in X.
        - rewrite (sbind_ok _ _ _ _ _ X) in H. exists g3. unfold ret in H. congruence.
        - destruct X as (g4 & e3 & X & _). rewrite (sbind_err _ _ _ _ _ X) in H. destruct (exc_eq_dec e3 SkipWrapper); discriminate. }
      destruct O as (g3 & O). destruct (overload_left _ _ _ _ _ _ O) as (C & K & F).
      exists (match fs_wrappers f with [w] => [w] | _ => ws end). split; [exact K|].
      unfold rest in G. destruct (clean_overload ws C) as (cs & ws' & base' & Go & C' & _ & Ew).
      assert (H2 : handled p (fs_id f) (x <~ generate_overload gnote (fun _ g => g) p ws ;; put SMain (PDeclare (snd x)) ;~ ret x) g2
        = (emit SMain (PDeclare base') g2, Ok (Some (ws', base')))).
      { apply handled_ok. rewrite (sbind_ok _ _ _ _ _ (Go _ gnote (fun _ g => g) p g2)). rewrite writes_null. reflexivity. }
      rewrite (sbind_ok _ _ _ _ _ H2) in G. unfold put in G. unfold sbind at 1, modify at 1 in G.
      unfold sbind at 1 in G. destruct (get_row gnote p ws' base' (fs_name f) (emit k PBlank (emit SMain (PDeclare base') g2))) as [g4 [x|e2]] eqn:Rw; [discriminate|].
      assert (e = e2) by congruence. subst e2. destruct (clean_row_err ws' base' (fs_name f) e C' _ _ _ _ _ Rw) as [-> Dc]. split; [|reflexivity].
      eapply doc_conflict_force; [|exact Dc]. rewrite <- F. rewrite Ew. destruct (match ws with [w] => negb (fw_needs_interface w) | _ => false end); [reflexivity|].
      rewrite map_map. reflexivity.
    - discriminate.
    - right. assert (e = e1) by congruence. subst e1. destruct (handled_escape _ _ _ _ _ _ H) as (Ns & e0 & O & Es). split; [exact Ns|]. exists e0. split; [|exact Es].
      destruct (overload_out _ _ _ _ O) as [->|C]; [|exact C]. exfalso. unfold escapes in Es. destruct p as [h|]; [|contradiction]. cbn in Es. contradiction.
  Qed.
End Escape.
