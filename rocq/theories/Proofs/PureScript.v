(** The question whether a class is abstract, along a script. *)
From Verif.Model Require Import Py PyState Hierarchy.
From Verif.Spec Require Import HierarchySpec.
From Verif.Proofs Require Import HierarchyProofs PureProofs.
From Coq Require Import Lia.
Open Scope list_scope.
Open Scope st_scope.

(** ** Only the classes above matter *)
Lemma visit_ext_below w w' i (W : wf w) : (forall n, n <= i -> bases w n = bases w' n) ->
  forall f q v, (forall c, In c q -> c <= i) -> visit f w q v = visit f w' q v.
Proof.
  intros E. induction f; intros [|c q] v B; cbn [visit]; try reflexivity.
  rewrite <- (E c) by (apply B; now left). rewrite IHf; [reflexivity|].
  intros x Hx. apply in_app_or in Hx. destruct Hx as [Hx|Hx]; [apply B; now right|].
  apply filter_In in Hx. destruct Hx as [Hx _]. apply W in Hx. specialize (B c (or_introl eq_refl)). lia.
Qed.
Lemma ways_ext_below w w' i (W : wf w) : (forall n, n <= i -> bases w n = bases w' n) ->
  forall f c, c <= i -> ways f w c = ways f w' c.
Proof.
  intros E. induction f; intros c L; cbn [ways]; [reflexivity|]. rewrite <- (E c L). do 2 f_equal. apply map_ext_in.
  intros b Hb. apply W in Hb. apply IHf. lia.
Qed.
Lemma mro_ext_below w w' i (W : wf w) : (forall n, n <= i -> bases w n = bases w' n) -> get_mro w i = get_mro w' i.
Proof.
  intros E. unfold get_mro. rewrite (ways_ext_below w w' i W E) by lia. apply (visit_ext_below w w' i W E).
  intros c [<-|[]]. lia.
Qed.
Lemma fresh_ext_below w w' i (W : wf w) : (forall n, n <= i -> bases w n = bases w' n) ->
  (forall n, ancestor (bases w) i n -> relevant_of w n = relevant_of w' n) -> fresh w i = fresh w' i.
Proof.
  intros E R. rewrite !fresh_relevant. rewrite <- (mro_ext_below w w' i W E).
  destruct (get_mro w i) as [l|] eqn:G; [|reflexivity]. do 2 f_equal.
  assert (A : forall c, In c l -> relevant_of w c = relevant_of w' c).
  { intros c Hc. apply R. eapply mro_ancestor; eauto. }
  clear -A. induction l; cbn; [reflexivity|]. rewrite (A a) by now left. f_equal. apply IHl. intros. apply A. now right.
Qed.
Lemma ancestor_below w (W : wf w) i c : ancestor (bases w) i c -> c <= i.
Proof. induction 1; [lia|]. apply W in H. lia. Qed.

(** ** What a method adds *)
Lemma add_overload_split d n m : exists l1 l2, flat_map snd d = l1 ++ l2 /\ flat_map snd (add_overload d n m) = l1 ++ m :: l2.
Proof.
  induction d as [|[k l] d (l1 & l2 & E1 & E2)]; cbn [flat_map add_overload].
  - exists [], []. auto.
  - destruct (String.eqb k n); cbn [flat_map snd].
    + exists l, (flat_map snd d). split; [reflexivity|]. now rewrite <- app_assoc.
    + exists (l ++ l1), l2. rewrite E1, E2, <- !app_assoc. auto.
Qed.
Lemma relevant_adding m k : mt_function m = true \/ counts m = false -> relevant (adding m k) = relevant k.
Proof.
  intros H. unfold adding. destruct (_ && _); [reflexivity|].
  assert (F : forall l1 l2, filter counts (filter (fun m => negb (mt_function m)) (l1 ++ m :: l2)) =
                            filter counts (filter (fun m => negb (mt_function m)) (l1 ++ l2))).
  { intros l1 l2. rewrite !filter_app. cbn [filter]. destruct H as [-> | H]; [reflexivity|].
    destruct (mt_function m); cbn [negb]; rewrite ?filter_app; [reflexivity|]. cbn [filter]. now rewrite H. }
  destruct (is_public _).
  - unfold relevant, cpp_methods, get_all_methods. cbn [k_methods k_nonpublic k_dummy with_methods].
    destruct (add_overload_split (k_methods k) (mt_name m) m) as (l1 & l2 & -> & ->).
    rewrite <- !app_assoc. cbn [app]. apply F.
  - unfold relevant, cpp_methods, get_all_methods. cbn [k_methods k_nonpublic k_dummy with_nonpublic].
    rewrite <- !app_assoc. cbn [app]. rewrite !app_assoc. apply F.
Qed.

Definition pure_of (w : hier) (i : nat) : option bool := match nth_error w i with Some k => k_pure k | None => None end.

Lemma alike_pure w w' : alike w w' -> forall i, pure_of w i = pure_of w' i.
Proof.
  intros A i. pose proof (alike_nth _ _ i A) as E. unfold pure_of.
  destruct (nth_error w i) as [k|], (nth_error w' i) as [k'|]; cbn in E; try congruence. unfold view in E. congruence.
Qed.
Lemma alike_bases w w' : alike w w' -> forall i, bases w i = bases w' i.
Proof. intros A. apply bases_map. now apply view_fixed. Qed.

(** One change keeping the bases, not touching what counts for [i]. *)
Lemma fresh_change w (W : wf w) i j f : (forall k, k_bases (f k) = k_bases k) ->
  (ancestor (bases w) i j -> forall k, nth_error w j = Some k -> relevant (f k) = relevant k) -> fresh (change w j f) i = fresh w i.
Proof.
  intros B R. symmetry. assert (E : forall n, bases w n = bases (change w j f) n).
  { intros n. unfold bases. rewrite change_nth. destruct (Nat.eqb n j); [|reflexivity]. destruct (nth_error w n); cbn; [now rewrite B|reflexivity]. }
  apply fresh_ext; [assumption|assumption|].
  intros n A. unfold relevant_of. rewrite change_nth. destruct (Nat.eqb n j) eqn:N; [|reflexivity].
  apply Nat.eqb_eq in N. subst n. destruct (nth_error w j) as [k|] eqn:K; cbn; [|reflexivity]. now rewrite (R A k eq_refl).
Qed.
Lemma pure_change w i j f : pure_of (change w j f) i = if Nat.eqb i j then match nth_error w i with Some k => k_pure (f k) | None => None end else pure_of w i.
Proof. unfold pure_of. rewrite change_nth. destruct (Nat.eqb i j); [|reflexivity]. destruct (nth_error w i); reflexivity. Qed.

Lemma bases_resetting b m k : k_bases (resetting b (adding m k)) = k_bases k.
Proof. unfold resetting, adding. destruct b; destruct (_ && _); try destruct (is_public _); reflexivity. Qed.
Lemma relevant_resetting b k : relevant (resetting b k) = relevant k.
Proof. destruct b; reflexivity. Qed.
Lemma pure_adding m k : k_pure (adding m k) = k_pure k.
Proof. unfold adding. destruct (_ && _); try destruct (is_public _); reflexivity. Qed.

Lemma wf_app w k : wf w -> (forall b, In b (k_bases k) -> b < length w) -> wf (w ++ [k]).
Proof.
  intros W B i b. unfold bases. destruct (Nat.lt_ge_cases i (length w)) as [L|L].
  - rewrite nth_error_app1 by assumption. apply W.
  - rewrite nth_error_app2 by assumption. destruct (i - length w) as [|m] eqn:E; cbn.
    + intros H. apply B in H. lia.
    + destruct m; cbn; intros [].
Qed.
Lemma effect_wf w c w' : wf w -> effect w c w' -> wf w'.
Proof.
  intros W E. destruct E as [c w' A|d k P R B|i d w' M A|i d w' M V A|i n w' A|i c w' Q A].
  - eapply wf_alike; [apply alike_sym; exact A|assumption].
  - now apply wf_app.
  - eapply wf_alike; [apply alike_sym; exact A|]. apply wf_change; [|assumption]. intros k. apply bases_resetting.
  - eapply wf_alike; [apply alike_sym; exact A|]. apply wf_change; [|assumption]. reflexivity.
  - eapply wf_alike; [apply alike_sym; exact A|]. apply wf_change; [|assumption]. intros k. apply (bases_resetting false).
  - eapply wf_alike; [apply alike_sym; exact A|]. apply wf_change; [|assumption]. reflexivity.
Qed.
Lemma effect_bases w c w' : effect w c w' -> forall n, n < length w -> bases w' n = bases w n.
Proof.
  assert (Ch : forall j f, (forall k, k_bases (f k) = k_bases k) -> forall n, bases (change w j f) n = bases w n).
  { intros j f B n. unfold bases. rewrite change_nth. destruct (Nat.eqb n j); [|reflexivity]. destruct (nth_error w n); cbn; auto. }
  intros E n L. destruct E as [c w' A|d k P R B|i d w' M A|i d w' M V A|i m w' A|i c w' Q A]; try rewrite (alike_bases _ _ A).
  - reflexivity.
  - unfold bases. now rewrite nth_error_app1.
  - apply Ch. intros k. apply bases_resetting.
  - apply Ch. reflexivity.
  - apply Ch. intros k. apply (bases_resetting false).
  - apply Ch. reflexivity.
Qed.
Lemma effect_length w c w' : effect w c w' -> length w <= length w'.
Proof.
  intros E. destruct E as [c w' A|d k P R B|i d w' M A|i d w' M V A|i m w' A|i c w' Q A];
    try (apply alike_length in A; rewrite ?change_length in A); try lia.
  rewrite app_length. lia.
Qed.
Lemma valid_pure w i b : pure_of w i = Some b -> i < length w.
Proof. unfold pure_of. destruct (nth_error w i) eqn:K; [|discriminate]. intros _. apply nth_error_Some. congruence. Qed.

(** A stored answer is up to date. *)
Definition current (w : hier) (i : nat) : Prop := forall b, pure_of w i = Some b -> b = fresh w i.

Lemma effect_current w (W : wf w) c w' i (parents : nat -> list nat) : effect w c w' -> current w i ->
  (forall j d, c = HMethod j d -> counted d -> j = i /\ md_virtual d = Some false \/ j <> i /\ ancestor (bases w) i j -> pure_of w i = None) ->
  (~ asks i c -> pure_of w i = None -> pure_of w' i = None) /\ current w' i.
Proof.
  intros E C T.
  (* a change of class [j] *)
  assert (Ch : forall j f, alike w' (change w j f) -> (forall k, k_bases (f k) = k_bases k) ->
            (forall k, k_pure (f k) = k_pure k \/ k_pure (f k) = None) ->
            ((ancestor (bases w) i j -> forall k, nth_error w j = Some k -> relevant (f k) = relevant k) \/ pure_of w' i = None) ->
            (pure_of w i = None -> pure_of w' i = None) /\ current w' i).
  { intros j f A B P R.
    assert (N : pure_of w i = None -> pure_of w' i = None).
    { rewrite (alike_pure _ _ A), pure_change. destruct (Nat.eqb i j); [|auto]. unfold pure_of.
      destruct (nth_error w i) as [k|]; [|auto]. destruct (P k) as [-> | ->]; auto. }
    split; [assumption|]. intros b Hb. destruct R as [R|R]; [|congruence].
    rewrite <- (fresh_alike (change w j f) w' i); [|now apply wf_change|now apply alike_sym].
    rewrite (fresh_change w W i j f B R). apply C.
    rewrite (alike_pure _ _ A), pure_change in Hb. destruct (Nat.eqb i j); [|assumption]. unfold pure_of.
    destruct (nth_error w i) as [k|]; [|discriminate]. destruct (P k) as [<- | Q]; congruence. }
  destruct E as [c w' A|d k P R B|j d w' M A|j d w' M V A|j n w' A|j c w' Q A].
  - split; [intros _; now rewrite (alike_pure _ _ A)|]. intros b Hb. rewrite (alike_pure _ _ A) in Hb.
    rewrite (fresh_alike w' w i); [auto|eapply wf_alike; [apply alike_sym; exact A|assumption]|assumption].
  - assert (PE : pure_of (w ++ [k]) i = pure_of w i).
    { unfold pure_of. destruct (Nat.lt_ge_cases i (length w)) as [L|L].
      - now rewrite nth_error_app1.
      - rewrite nth_error_app2 by assumption. assert (X : nth_error w i = None) by now apply nth_error_None. rewrite X.
        destruct (i - length w) as [|m]; cbn; [assumption|destruct m; reflexivity]. }
    split; [now rewrite PE|]. intros b Hb. rewrite PE in Hb. rewrite (C b Hb). apply valid_pure in Hb.
    assert (S : forall n, n <= i -> nth_error (w ++ [k]) n = nth_error w n) by (intros n L; apply nth_error_app1; lia).
    apply fresh_ext_below; [assumption| |].
    + intros n L. unfold bases. now rewrite S.
    + intros n AA. apply (ancestor_below w W) in AA. unfold relevant_of. now rewrite S.
  - set (f := fun k => resetting (mt_virtual (method_of d)) (adding (method_of d) k)) in *.
    assert (Res : (pure_of w i = None -> pure_of w' i = None) /\ current w' i); [|tauto].
    apply (Ch j f A).
    + intros k. apply bases_resetting.
    + intros k. unfold f, resetting. destruct (mt_virtual _); [now right|left; apply pure_adding].
    + destruct (counts (method_of d)) eqn:Cn.
      * assert (Cd : counted d).
        { unfold counts, method_of in Cn. cbn in Cn. unfold counted. destruct (md_virtual d) as [[|]|], (md_pure d); cbn in Cn; auto; discriminate. }
        destruct (Nat.eq_dec j i) as [->|Nj].
        -- right. rewrite (alike_pure _ _ A), pure_change, Nat.eqb_refl. unfold f.
           destruct (mt_virtual (method_of d)) eqn:Mv.
           ++ destruct (nth_error w i); reflexivity.
           ++ assert (Md : md_virtual d = Some false).
              { unfold method_of in Mv, Cn. cbn in Mv, Cn. destruct (md_virtual d) as [[|]|]; auto; [discriminate|]. rewrite Mv in Cn. discriminate. }
              specialize (T i d eq_refl Cd (or_introl (conj eq_refl Md))). unfold pure_of in T. cbn [resetting].
              destruct (nth_error w i); [now rewrite pure_adding|reflexivity].
        -- destruct (in_dec Nat.eq_dec j (levels (bases w) i i)) as [H|H].
           ++ right. rewrite levels_ancestor in H by assumption. specialize (T j d eq_refl Cd (or_intror (conj Nj H))).
              rewrite (alike_pure _ _ A), pure_change. destruct (Nat.eqb i j) eqn:E; [apply Nat.eqb_eq in E; congruence|assumption].
           ++ left. intros H'. rewrite <- levels_ancestor in H' by assumption. contradiction.
      * left. intros _ k _. unfold f. rewrite relevant_resetting. apply relevant_adding. now right.
  - set (f := fun k => with_pure None (with_dummy (k_dummy k ++ [method_of d]) k)) in *.
    assert (Res : (pure_of w i = None -> pure_of w' i = None) /\ current w' i); [|tauto].
    assert (Cd : counted d) by now left.
    apply (Ch j f A); [reflexivity|now right|].
    destruct (Nat.eq_dec j i) as [->|Nj].
    + right. rewrite (alike_pure _ _ A), pure_change, Nat.eqb_refl. destruct (nth_error w i); reflexivity.
    + destruct (in_dec Nat.eq_dec j (levels (bases w) i i)) as [H|H].
      * right. rewrite levels_ancestor in H by assumption. specialize (T j d eq_refl Cd (or_intror (conj Nj H))).
        rewrite (alike_pure _ _ A), pure_change. destruct (Nat.eqb i j) eqn:E; [apply Nat.eqb_eq in E; congruence|assumption].
      * left. intros H'. rewrite <- levels_ancestor in H' by assumption. contradiction.
  - assert (Res : (pure_of w i = None -> pure_of w' i = None) /\ current w' i); [|tauto].
    apply (Ch _ _ A).
    + intros k. apply (bases_resetting false).
    + intros k. left. apply pure_adding.
    + left. intros _ k _. apply relevant_adding. now left.
  - split.
    + intros NA N. rewrite (alike_pure _ _ A), pure_change. destruct (Nat.eqb i j) eqn:E; [|assumption].
      apply Nat.eqb_eq in E. subst j. contradiction.
    + intros b Hb. rewrite <- (fresh_alike (change w j (with_pure (Some (answer w j)))) w' i); [|now apply wf_change|now apply alike_sym].
      rewrite (fresh_change w W i j); [|reflexivity|reflexivity].
      rewrite (alike_pure _ _ A), pure_change in Hb. destruct (Nat.eqb i j) eqn:E; [|now apply C].
      apply Nat.eqb_eq in E. subst j. unfold answer in Hb. unfold current, pure_of in C.
      destruct (nth_error w i) as [k|]; [|discriminate]. cbn in Hb. injection Hb as <-.
      destruct (k_pure k) as [x|]; [now apply C|reflexivity].
Qed.

Section Script.
  Variables (dn ds : bool) (ok : method -> bool).
  Notation step := (run_hcall dn ds ok).
  Notation script := (hscript dn ds ok).

  Lemma script_wf cs : forall w, wf w -> wf (fst (script cs w)).
  Proof.
    induction cs as [|c cs IH]; intros w W; cbn; [assumption|]. apply IH. eapply effect_wf; [exact W|]. now apply step_effect.
  Qed.
  Lemma script_bases cs : forall w, wf w -> forall n, n < length w -> bases (fst (script cs w)) n = bases w n /\ n < length (fst (script cs w)).
  Proof.
    induction cs as [|c cs IH]; intros w W n L; cbn; [auto|]. pose proof (step_effect dn ds ok w W c) as E.
    pose proof (effect_wf _ _ _ W E) as W'. pose proof (effect_length _ _ _ E). pose proof (effect_bases _ _ _ E n L).
    destruct (IH _ W' n) as [A B]; [lia|]. split; [congruence|assumption].
  Qed.
  Lemma wf_nil : wf [].
  Proof. intros [|i] b []. Qed.

  Lemma ancestor_later cs w (W : wf w) i j : i < length w -> ancestor (bases w) i j -> ancestor (bases (fst (script cs w))) i j.
  Proof.
    intros L A. induction A as [i|i b c H A IH]; [constructor|]. eapply ancestor_up; [|apply IH; apply W in H; lia].
    now rewrite (proj1 (script_bases cs w W i L)).
  Qed.

  Lemma script_current i cs : forall done w, wf w -> timely (bases (fst (script cs w))) (done ++ cs) i ->
    (Forall (fun c => ~ asks i c) done -> pure_of w i = None) -> current w i ->
    current (fst (script cs w)) i.
  Proof.
    induction cs as [|c cs IH]; intros done w W T N C; cbn; [assumption|].
    pose proof (step_effect dn ds ok w W c) as E.
    destruct (effect_current w W c _ i (fun _ => []) E C) as [N' C'].
    - intros j d -> Cd H. destruct (pure_of w i) as [b|] eqn:P; [|reflexivity]. exfalso.
      assert (F : Forall (fun c => ~ asks i c) done); [|apply N in F; congruence].
      apply Forall_forall. apply (T done j d cs eq_refl Cd).
      destruct H as [H|[H1 H2]]; [now left|right]. split; [assumption|].
      exact (ancestor_later (HMethod j d :: cs) w W i j (valid_pure _ _ _ P) H2).
    - apply (IH (done ++ [c])).
      + eapply effect_wf; eauto.
      + cbn in T. now rewrite <- app_assoc.
      + intros F. apply Forall_app in F. destruct F as [F1 F2]. inversion F2; subst. auto.
      + assumption.
  Qed.

  Lemma answer_fresh cs i : let w := fst (script cs []) in
    timely (bases w) cs i -> i < length w -> answer w i = fresh w i.
  Proof.
    intros w T L. unfold answer.
    assert (C : current w i).
    { apply (script_current i cs [] []); [apply wf_nil|exact T| |]; unfold current, pure_of; destruct i; cbn; (reflexivity || discriminate || (intros _; reflexivity)). }
    unfold current, pure_of in C. destruct (nth_error w i) as [k|] eqn:K; [|apply nth_error_None in K; lia].
    destruct (k_pure k); auto.
  Qed.
End Script.

(** ** The answer and the specification *)
Lemma same_types_eq a b : same_types a b = true <-> a = b.
Proof.
  revert b. induction a as [|x a IH]; intros [|y b]; cbn; try (split; congruence).
  rewrite andb_true_iff, String.eqb_eq, IH. split; [intros [-> ->]; reflexivity|intros [= -> ->]; auto].
Qed.
Lemma matches_eq a b : matches_signature a b = true <-> signature a = signature b.
Proof.
  unfold matches_signature, signature. rewrite !andb_true_iff, String.eqb_eq, same_types_eq.
  assert (B : forall x y, Bool.eqb x y = true <-> x = y) by (intros [] []; cbn; split; congruence).
  rewrite B. split; [intros [[-> ->] ->]; reflexivity|intros [= -> -> ->]; auto].
Qed.
(** A class does not implement [m]: the first virtual method it declares with the signature of [m], if any, is pure. *)
Inductive leaves_pure (m : method) : list method -> Prop :=
| leaves_none l : (forall c, In c l -> mt_virtual c = true -> signature c <> signature m) -> leaves_pure m l
| leaves_first l1 c l2 :
    (forall d, In d l1 -> mt_virtual d = true -> signature d <> signature m) ->
    mt_virtual c = true -> signature c = signature m -> mt_pure c = true -> leaves_pure m (l1 ++ c :: l2).
Definition abstract_in (methods : nat -> list method) (order : list nat) : Prop :=
  exists before c after m,
    order = before ++ c :: after /\ In m (methods c) /\ mt_pure m = true /\
    forall d, In d before -> leaves_pure m (methods d).
Lemma leaves_pure_spec m l : leaves_pure m l <-> implemented_by m l = false.
Proof.
  unfold implemented_by. split.
  - intros [l' H|l1 c l2 H V S P].
    + destruct (find _ l') as [c|] eqn:F; [|reflexivity]. apply find_some in F. destruct F as [I F].
      apply andb_prop in F. destruct F as [F1 F2]. apply matches_eq in F2. now elim (H c I F1).
    + assert (F : find (fun c0 => mt_virtual c0 && matches_signature c0 m) (l1 ++ c :: l2) = Some c).
      { induction l1 as [|d l1 IH]; cbn.
        - rewrite V. assert (M : matches_signature c m = true) by now apply matches_eq. now rewrite M.
        - destruct (mt_virtual d && matches_signature d m) eqn:E.
          + apply andb_prop in E. destruct E as [E1 E2]. apply matches_eq in E2. elim (H d); auto. now left.
          + apply IH. intros x Hx. apply H. now right. }
      rewrite F, P. reflexivity.
  - induction l as [|c l IH]; intros H.
    + apply leaves_none. intros c [].
    + cbn in H. destruct (mt_virtual c && matches_signature c m) eqn:E.
      * apply andb_prop in E. destruct E as [E1 E2]. apply matches_eq in E2.
        apply (leaves_first m [] c l); [intros d []|assumption|assumption|now destruct (mt_pure c)].
      * assert (X : mt_virtual c = true -> signature c <> signature m).
        { intros V S. apply matches_eq in S. rewrite V, S in E. discriminate. }
        destruct (IH H) as [l' G|l1 d l2 G V S P].
        -- apply leaves_none. intros x [->|Hx]; auto.
        -- apply (leaves_first m (c :: l1) d l2); auto. intros x [->|Hx]; auto.
Qed.

Definition methods_of (w : hier) (i : nat) : list method := match nth_error w i with Some k => cpp_methods k | None => [] end.

Lemma unimplemented_spec (f : nat -> cls) l : unimplemented (rev (map f l)) = true <-> abstract_in (fun c => cpp_methods (f c)) l.
Proof.
  assert (G : forall r, unimplemented (map f r) = true <->
    exists a c b m, r = a ++ c :: b /\ In m (cpp_methods (f c)) /\ mt_pure m = true /\ forall d, In d b -> leaves_pure m (cpp_methods (f d))).
  { induction r as [|c r IH]; cbn [map unimplemented].
    - split; [discriminate|]. intros ([|? ?] & ? & ? & ? & H & _); discriminate.
    - rewrite orb_true_iff, existsb_exists, IH. split.
      + intros [(m & I & H)|(a & c' & b & m & -> & H)].
        * apply andb_prop in H. destruct H as [P N]. exists [], c, r, m. repeat split; auto.
          intros d Hd. apply leaves_pure_spec. destruct (implemented_by m (cpp_methods (f d))) eqn:Im; [|reflexivity].
          apply negb_true_iff in N. assert (existsb (implemented_in m) (map f r) = true); [|congruence].
          apply existsb_exists. exists (f d). split; [now apply in_map|exact Im].
        * exists (c :: a), c', b, m. auto.
      + intros ([|x a] & c' & b & m & E & I & P & H); injection E as -> ->.
        * left. exists m. split; [assumption|]. rewrite P. cbn. apply negb_true_iff.
          destruct (existsb _ _) eqn:X; [|reflexivity]. apply existsb_exists in X. destruct X as (k & Hk & Ik).
          apply in_map_iff in Hk. destruct Hk as (d & <- & Hd). apply H in Hd. apply leaves_pure_spec in Hd.
          unfold implemented_in in Ik. unfold implemented_by in Hd. congruence.
        * right. exists a, c', b, m. auto. }
  rewrite <- map_rev, G. unfold abstract_in. split.
  - intros (a & c & b & m & E & I & P & H). exists (rev b), c, (rev a), m. repeat split; auto.
    + rewrite <- (rev_involutive l), E, rev_app_distr. cbn. now rewrite <- app_assoc.
    + intros d Hd. apply H. now apply in_rev.
  - intros (a & c & b & m & -> & I & P & H). exists (rev b), c, (rev a), m. repeat split; auto.
    + rewrite rev_app_distr. cbn. now rewrite <- app_assoc.
    + intros d Hd. apply H. now apply in_rev.
Qed.

Lemma fresh_spec w i l : get_mro w i = Ok l -> (forall c, In c l -> c < length w) ->
  (fresh w i = true <-> abstract_in (methods_of w) l).
Proof.
  intros G B. unfold fresh. rewrite G.
  set (f := fun c => nth c w (mk_cls [] None false false false [] [] [] None None false "" [] None None)).
  assert (E : classes w l = map f l).
  { clear G. induction l as [|c l IH]; [reflexivity|].
    change (classes w (c :: l)) with ((match nth_error w c with Some k => [k] | None => [] end) ++ classes w l).
    rewrite IH by (intros; apply B; now right). cbn [map].
    assert (L : c < length w) by (apply B; now left).
    destruct (nth_error w c) as [k|] eqn:K; [|apply nth_error_None in K; lia].
    assert (F : f c = k) by (unfold f; now apply nth_error_nth). now rewrite F. }
  rewrite E, unimplemented_spec. unfold abstract_in.
  assert (M : forall c, In c l -> cpp_methods (f c) = methods_of w c).
  { intros c Hc. apply B in Hc. unfold methods_of, f. destruct (nth_error w c) eqn:K; [|apply nth_error_None in K; lia].
    now rewrite (nth_error_nth _ _ _ K). }
  split; intros (a & c & b & m & -> & I & P & H); exists a, c, b, m; (split; [reflexivity|]);
    (split; [|split; [assumption|]]).
  - rewrite <- M; [assumption|]. apply in_or_app. right. now left.
  - intros d Hd. rewrite <- M; [auto|]. apply in_or_app. now left.
  - rewrite M; [assumption|]. apply in_or_app. right. now left.
  - intros d Hd. rewrite M; [auto|]. apply in_or_app. now left.
Qed.
