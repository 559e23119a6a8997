(** Abstract classes: from the declarations of a script to the answer. *)
From Verif.Model Require Import Py PyState Hierarchy.
From Verif.Spec Require Import HierarchySpec.
From Verif.Proofs Require Import HierarchyProofs PureProofs PureScript.
From Coq Require Import Lia.
Open Scope list_scope.
Open Scope st_scope.

(** ** The methods declared *)
Definition kept (m : method) : Prop := ~ (mt_vis m = Protected /\ mt_virtual m = false).

Lemma all_methods_adding m k x : In x (get_all_methods (adding m k)) <-> In x (get_all_methods k) \/ (kept m /\ x = m).
Proof.
  unfold adding, kept. destruct (is_protected (mt_vis m) && negb (mt_virtual m)) eqn:P.
  - apply andb_prop in P. destruct P as [P V]. assert (mt_vis m = Protected) by (destruct (mt_vis m); auto; discriminate).
    apply negb_true_iff in V. tauto.
  - assert (K : ~ (mt_vis m = Protected /\ mt_virtual m = false)).
    { intros [A B]. rewrite A, B in P. discriminate. }
    unfold get_all_methods. destruct (is_public _); cbn [k_methods k_nonpublic with_methods with_nonpublic].
    + destruct (add_overload_split (k_methods k) (mt_name m) m) as (l1 & l2 & -> & ->).
      rewrite !in_app_iff. cbn [In]. intuition congruence.
    + rewrite !in_app_iff. cbn [In]. intuition congruence.
Qed.
Lemma dummy_adding m k : k_dummy (adding m k) = k_dummy k.
Proof. unfold adding. destruct (_ && _); try destruct (is_public _); reflexivity. Qed.
Lemma methods_resetting b k : get_all_methods (resetting b k) = get_all_methods k /\ k_dummy (resetting b k) = k_dummy k.
Proof. destruct b; split; reflexivity. Qed.
Lemma cpp_methods_in k x : In x (cpp_methods k) <-> (In x (get_all_methods k) \/ In x (k_dummy k)) /\ mt_function x = false.
Proof.
  unfold cpp_methods. rewrite filter_In, in_app_iff. destruct (mt_function x); cbn; intuition congruence.
Qed.

Lemma alike_methods w w' : alike w w' -> forall i, methods_of w i = methods_of w' i.
Proof.
  intros A i. pose proof (alike_nth _ _ i A) as E. unfold methods_of, cpp_methods, get_all_methods.
  destruct (nth_error w i) as [c|], (nth_error w' i) as [c0|]; cbn in E; try congruence. unfold view in E.
  assert (k_methods c = k_methods c0 /\ k_nonpublic c = k_nonpublic c0 /\ k_dummy c = k_dummy c0) as (-> & -> & ->); [|reflexivity].
  injection E. intros. auto.
Qed.

Section Script.
  Variables (dn ds : bool) (ok : method -> bool).
  Notation step := (run_hcall dn ds ok).
  Notation script := (hscript dn ds ok).

  Lemma method_step w (W : wf w) i d : valid w i = true ->
    exists w', step (HMethod i d) w = (w', Ok (RBool (md_wrappable d))) /\
      alike w' (if md_wrappable d then change w i (fun k => resetting (mt_virtual (method_of d)) (adding (method_of d) k))
                else match md_virtual d with
                     | Some true => change w i (fun k => with_pure None (with_dummy (k_dummy k ++ [method_of d]) k))
                     | _ => w
                     end).
  Proof.
    intros V. cbn [run_hcall]. unfold add_method. destruct (md_wrappable d).
    - destruct (add_method_obj_alike w W i (method_of d) V) as (w' & E & A). exists w'. split; [|assumption].
      unfold sbind. now rewrite E.
    - destruct (md_virtual d) as [[|]|].
      + destruct (dummy_alike w W i d V) as (w' & E & A). exists w'. split; [|assumption].
        unfold sbind at 1 2. now rewrite E.
      + exists w. split; reflexivity.
      + exists w. split; reflexivity.
  Qed.
  Lemma method_step_err w i d : valid w i = false -> md_wrappable d = true \/ md_virtual d = Some true ->
    step (HMethod i d) w = (w, Err Unmodelled).
  Proof.
    intros V R. assert (K : nth_error w i = None) by (apply nth_error_None; now apply Nat.ltb_ge).
    cbn [run_hcall]. unfold add_method, add_method_obj.
    destruct (md_wrappable d).
    - unfold sbind at 1 2 3. now rewrite (get_cls_err _ _ K).
    - destruct R as [R|R]; [discriminate|]. rewrite R. unfold sbind at 1 2 3. now rewrite (get_cls_err _ _ K).
  Qed.

  Lemma methods_change w j f i x : In x (methods_of (change w j f) i) <->
    (if Nat.eqb i j then exists k, nth_error w i = Some k /\ In x (cpp_methods (f k)) else In x (methods_of w i)).
  Proof.
    unfold methods_of. rewrite change_nth. destruct (Nat.eqb i j); [|tauto].
    destruct (nth_error w i) as [k|]; cbn; split; [eauto|intros (k' & E & H); congruence|intros []|intros (k' & E & H); congruence].
  Qed.

  (** One call. *)
  Lemma step_methods w (W : wf w) c i x : In x (methods_of (fst (step c w)) i) <->
    In x (methods_of w i) \/ declares [(c, snd (step c w))] i x.
  Proof.
    assert (No : (forall d, c <> HMethod i d) -> ~ declares [(c, snd (step c w))] i x).
    { intros H (d & a & [E|[]] & _). elim (H d). congruence. }
    assert (Same : forall w', alike w' w -> methods_of w' i = methods_of w i) by (intros; now apply alike_methods).
    destruct c as [d|j d|j n|j n|j n|j n|j b|j s|j|j|j v]; cycle 1.
    - destruct (valid w j) eqn:V.
      + destruct (method_step w W j d V) as (w' & E & A). rewrite E. cbn [fst snd]. rewrite (alike_methods _ _ A).
        destruct (md_wrappable d) eqn:Wd.
        * rewrite methods_change. destruct (Nat.eqb i j) eqn:N.
          -- apply Nat.eqb_eq in N. subst j. unfold methods_of.
             destruct (nth_error w i) as [k|] eqn:K; [|apply nth_invalid in K; congruence].
             assert (Cm : In x (cpp_methods (resetting (mt_virtual (method_of d)) (adding (method_of d) k))) <->
                          In x (cpp_methods k) \/ (kept (method_of d) /\ x = method_of d)).
             { rewrite !cpp_methods_in. destruct (methods_resetting (mt_virtual (method_of d)) (adding (method_of d) k)) as [-> ->].
               rewrite all_methods_adding, dummy_adding. split; [tauto|].
               intros [H|[H1 ->]]; [tauto|]. split; [tauto|reflexivity]. }
             split.
             ++ intros (k' & E' & H). assert (k' = k) by congruence. subst k'. apply Cm in H. destruct H as [H|[H1 H2]]; [now left|].
                right. exists d, (RBool true). split; [now left|]. split; [|assumption]. unfold recorded. now rewrite Wd.
             ++ intros H. exists k. split; [reflexivity|]. apply Cm. destruct H as [H|(d' & a & [E'|[]] & R & X)]; [now left|].
                right. injection E' as Ed _. subst d'. split; [|assumption]. unfold recorded in R. now rewrite Wd in R.
          -- apply Nat.eqb_neq in N. split; [now left|]. intros [H|H]; [assumption|]. exfalso.
             destruct H as (d' & a & [E'|[]] & _). congruence.
        * destruct (md_virtual d) as [[|]|] eqn:Vd.
          -- rewrite methods_change. destruct (Nat.eqb i j) eqn:N.
             ++ apply Nat.eqb_eq in N. subst j. unfold methods_of.
                destruct (nth_error w i) as [k|] eqn:K; [|apply nth_invalid in K; congruence].
                assert (Cm : In x (cpp_methods (with_pure None (with_dummy (k_dummy k ++ [method_of d]) k))) <->
                          In x (cpp_methods k) \/ x = method_of d).
                { rewrite !cpp_methods_in. unfold get_all_methods. cbn [k_methods k_nonpublic k_dummy with_pure with_dummy].
                  rewrite (in_app_iff (k_dummy k)). cbn [In]. split; [intuition congruence|].
                  intros [H| ->]; [tauto|]. split; [tauto|reflexivity]. }
                split.
                ** intros (k' & E' & H). assert (k' = k) by congruence. subst k'. apply Cm in H. destruct H as [H|H]; [now left|].
                   right. exists d, (RBool false). split; [now left|]. split; [|assumption]. unfold recorded. now rewrite Wd.
                ** intros H. exists k. split; [reflexivity|]. apply Cm. destruct H as [H|(d' & a & [E'|[]] & R & X)]; [now left|].
                   right. congruence.
             ++ apply Nat.eqb_neq in N. split; [now left|]. intros [H|H]; [assumption|]. exfalso.
                destruct H as (d' & a & [E'|[]] & _). congruence.
          -- split; [now left|]. intros [H|(d' & a & [E'|[]] & R & _)]; [assumption|]. exfalso.
             assert (d' = d) by congruence. subst d'. unfold recorded in R. rewrite Wd in R. congruence.
          -- split; [now left|]. intros [H|(d' & a & [E'|[]] & R & _)]; [assumption|]. exfalso.
             assert (d' = d) by congruence. subst d'. unfold recorded in R. rewrite Wd in R. congruence.
      + assert (D : md_wrappable d = true \/ md_virtual d = Some true \/ (md_wrappable d = false /\ md_virtual d <> Some true)).
        { destruct (md_wrappable d); auto. destruct (md_virtual d) as [[|]|]; auto; right; right; split; congruence. }
        destruct D as [D|[D|D]].
        * rewrite (method_step_err w j d V) by auto. cbn [fst snd]. split; [now left|].
          intros [H|(d' & a & [E'|[]] & _)]; [assumption|congruence].
        * rewrite (method_step_err w j d V) by auto. cbn [fst snd]. split; [now left|].
          intros [H|(d' & a & [E'|[]] & _)]; [assumption|congruence].
        * assert (E : step (HMethod j d) w = (w, Ok (RBool false))).
          { cbn [run_hcall]. unfold add_method. destruct D as [-> D]. destruct (md_virtual d) as [[|]|]; [congruence|reflexivity|reflexivity]. }
          rewrite E. cbn [fst snd]. split; [now left|]. intros [H|(d' & a & [E'|[]] & R & _)]; [assumption|]. exfalso.
          assert (d' = d) by congruence. subst d'. unfold recorded in R. rewrite (proj1 D) in R. tauto.
    - pose proof (step_effect dn ds ok w W (HFunction j n)) as E.
      assert (M : In x (methods_of (fst (step (HFunction j n) w)) i) <-> In x (methods_of w i)).
      { inversion E as [c w' A|d k P R B|i' d w' M A|i' d w' M V A|i' m w' A|i' c w' Q A]; subst.
        - now rewrite (Same _ A).
        - rewrite (alike_methods _ _ A), methods_change. destruct (Nat.eqb i j) eqn:N; [|tauto]. unfold methods_of.
          destruct (nth_error w i) as [k|] eqn:K; [|split; [intros (k' & E' & _); discriminate|intros []]].
          assert (Cm : In x (cpp_methods (adding (mk_method n [] false false false Public true) k)) <-> In x (cpp_methods k)).
          { rewrite !cpp_methods_in, all_methods_adding, dummy_adding. split; [|tauto].
            intros [[[H|[_ -> ]]|H] F]; [tauto|discriminate|tauto]. }
          split; [intros (k' & E' & H); apply Cm; congruence|intros H; exists k; split; [reflexivity|now apply Cm]].
        - destruct Q as [Q|[Q|(v & Q)]]; discriminate. }
      rewrite M. split; [now left|]. intros [H|H]; [assumption|]. now apply No in H.
    - pose proof (step_effect dn ds ok w W (HHook j n)) as E. inversion E as [c w' A|d k P R B|i' d w' M A|i' d w' M V A|i' m w' A|i' c w' Q A]; subst;
        [|destruct Q as [Q|[Q|(v & Q)]]; discriminate]. rewrite (Same _ A). split; [now left|]. intros [H|H]; [assumption|now apply No in H].
    - pose proof (step_effect dn ds ok w W (HCreation j n)) as E. inversion E as [c w' A|d k P R B|i' d w' M A|i' d w' M V A|i' m w' A|i' c w' Q A]; subst;
        [|destruct Q as [Q|[Q|(v & Q)]]; discriminate]. rewrite (Same _ A). split; [now left|]. intros [H|H]; [assumption|now apply No in H].
    - pose proof (step_effect dn ds ok w W (HPost j n)) as E. inversion E as [c w' A|d k P R B|i' d w' M A|i' d w' M V A|i' m w' A|i' c w' Q A]; subst;
        [|destruct Q as [Q|[Q|(v & Q)]]; discriminate]. rewrite (Same _ A). split; [now left|]. intros [H|H]; [assumption|now apply No in H].
    - pose proof (step_effect dn ds ok w W (HDisable j b)) as E. inversion E as [c w' A|d k P R B|i' d w' M A|i' d w' M V A|i' m w' A|i' c w' Q A]; subst;
        [|destruct Q as [Q|[Q|(v & Q)]]; discriminate]. rewrite (Same _ A). split; [now left|]. intros [H|H]; [assumption|now apply No in H].
    - pose proof (step_effect dn ds ok w W (HCannot j s)) as E. inversion E as [c w' A|d k P R B|i' d w' M A|i' d w' M V A|i' m w' A|i' c w' Q A]; subst;
        [|destruct Q as [Q|[Q|(v & Q)]]; discriminate]. rewrite (Same _ A). split; [now left|]. intros [H|H]; [assumption|now apply No in H].
    - pose proof (step_effect dn ds ok w W (HPure j)) as E.
      assert (M : methods_of (fst (step (HPure j) w)) i = methods_of w i).
      { inversion E as [c w' A|d k P R B|i' d w' M A|i' d w' M V A|i' m w' A|i' c w' Q A]; subst; [now apply Same|].
        rewrite (alike_methods _ _ A). unfold methods_of. rewrite change_nth. destruct (Nat.eqb _ _); [|reflexivity].
        destruct (nth_error w i); reflexivity. }
      rewrite M. split; [now left|]. intros [H|H]; [assumption|now apply No in H].
    - pose proof (step_effect dn ds ok w W (HForward j)) as E.
      assert (M : methods_of (fst (step (HForward j) w)) i = methods_of w i).
      { inversion E as [c w' A|d k P R B|i' d w' M A|i' d w' M V A|i' m w' A|i' c w' Q A]; subst; [now apply Same|].
        rewrite (alike_methods _ _ A). unfold methods_of. rewrite change_nth. destruct (Nat.eqb _ _); [|reflexivity].
        destruct (nth_error w i); reflexivity. }
      rewrite M. split; [now left|]. intros [H|H]; [assumption|now apply No in H].
    - pose proof (step_effect dn ds ok w W (HConstructor j v)) as E.
      assert (M : methods_of (fst (step (HConstructor j v) w)) i = methods_of w i).
      { inversion E as [c w' A|d k P R B|i' d w' M A|i' d w' M V A|i' m w' A|i' c w' Q A]; subst; [now apply Same|].
        rewrite (alike_methods _ _ A). unfold methods_of. rewrite change_nth. destruct (Nat.eqb _ _); [|reflexivity].
        destruct (nth_error w i); reflexivity. }
      rewrite M. split; [now left|]. intros [H|H]; [assumption|now apply No in H].
    - cbn [run_hcall]. assert (M : methods_of (fst (step (HClass d) w)) i = methods_of w i).
      { cbn [run_hcall]. unfold new_class, sbind.
        assert (Main : forall l, methods_of (fst (match (if forallb (fun b => Nat.ltb b (length w)) l then
          match memory_policy w l (cd_policy d) with
          | Err e => (w, Err e)
          | Ok p =>
              match subclassing ds w l (cd_subclassing d) (cd_destructor d) with
              | Err e => (w, Err e)
              | Ok sub => (w ++ [mk_cls l p (narrowing dn w l (cd_narrowing d)) sub (cd_singleton d) [] [] []
                                   None None false "" [] None None], Ok (length w))
              end
          end
          else (w, Err Unmodelled)) with (s, Ok a) => ret (RClass a) s | (s, Err e) => (s, Err e) end)) i = methods_of w i).
        { intros l. destruct (forallb _ _); [|reflexivity]. destruct (memory_policy _ _ _); [|reflexivity].
          destruct (subclassing _ _ _ _ _); [|reflexivity]. cbn [fst ret]. unfold methods_of.
          destruct (Nat.lt_ge_cases i (length w)) as [L|L].
          - now rewrite nth_error_app1.
          - rewrite nth_error_app2 by assumption. assert (X : nth_error w i = None) by now apply nth_error_None. rewrite X.
            destruct (i - length w) as [|p]; cbn; [reflexivity|destruct p; reflexivity]. }
        destruct (cd_parents d) as [[|b l]|]; [reflexivity|apply (Main (b :: l))|apply (Main [])]. }
      cbn [run_hcall] in M. rewrite M. split; [now left|]. intros [H|H]; [assumption|]. apply No in H; [destruct H|discriminate].
  Qed.

  Lemma declares_cons p l i x : declares (p :: l) i x <-> declares [p] i x \/ declares l i x.
  Proof.
    unfold declares. split.
    - intros (d & a & [E|E] & R); [left|right]; exists d, a; split; auto. now left.
    - intros [(d & a & [E|[]] & R)|(d & a & E & R)]; exists d, a; split; auto; [now left|now right].
  Qed.
  Lemma script_methods cs i x : forall w, wf w -> In x (methods_of (fst (script cs w)) i) <->
    In x (methods_of w i) \/ declares (snd (script cs w)) i x.
  Proof.
    induction cs as [|c cs IH]; intros w W; cbn [hscript fst snd].
    - split; [now left|]. intros [H|(d & a & [] & _)]. assumption.
    - rewrite IH by (eapply effect_wf; [exact W|now apply step_effect]). rewrite step_methods by assumption.
      rewrite (declares_cons (c, snd (step c w)) (snd (script cs (fst (step c w))))). tauto.
  Qed.
  Lemma declared_methods cs i x : In x (methods_of (fst (script cs [])) i) <-> declares (snd (script cs [])) i x.
  Proof.
    rewrite script_methods by apply wf_nil. split; [|now right]. intros [H|H]; [|assumption]. destruct i; destruct H.
  Qed.
End Script.

(** ** From lists to declarations *)
Lemma leaves_declared (w : hier) (D : nat -> method -> Prop) c m : (forall x, In x (methods_of w c) <-> D c x) -> consistent D c ->
  (leaves_pure m (methods_of w c) <-> forall x, D c x -> mt_virtual x = true -> signature x = signature m -> mt_pure x = true).
Proof.
  intros E C. split.
  - intros L x Dx V S. inversion L as [l H|l1 p l2 H Vp Sp Pp Eq]; subst.
    + apply E in Dx. now elim (H x Dx V).
    + assert (Dp : D c p). { apply E. rewrite <- Eq. apply in_or_app. right. now left. }
      rewrite <- Pp. apply C; auto. congruence.
  - intros H. apply leaves_pure_spec. unfold implemented_by. destruct (find _ _) as [p|] eqn:F; [|reflexivity].
    apply find_some in F. destruct F as [I F]. apply andb_prop in F. destruct F as [V S]. apply matches_eq in S. apply E in I.
    now rewrite (H p I V S).
Qed.
Lemma abstract_declared (w : hier) (D : nat -> method -> Prop) l : (forall c x, In x (methods_of w c) <-> D c x) ->
  (forall c, In c l -> consistent D c) -> (abstract_in (methods_of w) l <-> abstract D l).
Proof.
  intros E C. unfold abstract_in, abstract. split; intros (a & c & b & m & -> & I & P & H); exists a, c, b, m.
  - repeat split; auto; [now apply E|]. intros d x Hd Dx. revert x Dx. apply (leaves_declared w D d m (E d)); [|auto].
    apply C. apply in_or_app. now left.
  - repeat split; auto; [now apply E|]. intros d Hd. apply (leaves_declared w D d m (E d)); [|eauto].
    apply C. apply in_or_app. now left.
Qed.

(** Single inheritance. *)
Lemma declared_by (w : hier) (D : nat -> method -> Prop) : (forall c x, In x (methods_of w c) <-> D c x) ->
  forall c m, (exists x, D c x /\ mt_virtual x = true /\ signature x = signature m) \/
              (forall x, D c x -> mt_virtual x = true -> signature x <> signature m).
Proof.
  intros E c m. destruct (find (fun x => mt_virtual x && matches_signature x m) (methods_of w c)) as [x|] eqn:F.
  - left. exists x. apply find_some in F. destruct F as [I F]. apply andb_prop in F. destruct F as [V S]. apply matches_eq in S.
    split; [now apply E|auto].
  - right. intros x Dx V S. apply E in Dx. apply (find_none _ _ F) in Dx. apply matches_eq in S. now rewrite V, S in Dx.
Qed.
Lemma abstract_line (w : hier) (D : nat -> method -> Prop) l : (forall c x, In x (methods_of w c) <-> D c x) ->
  (forall c, In c l -> consistent D c) -> (forall c m, In c l -> D c m -> mt_pure m = true -> mt_virtual m = true) ->
  (abstract D l <-> exists m, final D l m /\ mt_pure m = true).
Proof.
  intros E. induction l as [|c l IH]; intros C V.
  - split.
    + intros ([|? ?] & ? & ? & ? & H & _); discriminate.
    + intros (m & F & _). inversion F.
  - assert (IH' : abstract D l <-> (exists m, final D l m /\ mt_pure m = true)).
    { apply IH; intros; [apply C|apply (V c0 m)]; auto; now right. } clear IH.
    split.
    + intros ([|c0 a] & c' & b & m & Eq & I & P & H); injection Eq as -> ->.
      * exists m. split; [|assumption]. apply final_here; [assumption|]. apply (V c'); auto. now left.
      * assert (A : abstract D (a ++ c' :: b)).
        { exists a, c', b, m. repeat split; auto. intros d x Hd. apply H. now right. }
        destruct (declared_by w D E c0 m) as [(x & Dx & Vx & Sx)|N].
        -- exists x. split; [now apply final_here|]. apply (H c0); auto. now left.
        -- assert (G : exists m', final D (a ++ c' :: b) m' /\ mt_pure m' = true /\ signature m' = signature m).
           { clear A IH'. assert (H' : forall d x, In d a -> D d x -> mt_virtual x = true -> signature x = signature m -> mt_pure x = true).
             { intros d x Hd. apply H. now right. }
             assert (V' : mt_virtual m = true). { apply (V c'); auto. right. apply in_or_app. right. now left. }
             clear H N C V. induction a as [|e a IHa]; cbn.
             - exists m. split; [now apply final_here|auto].
             - destruct (declared_by w D E e m) as [(x & Dx & Vx & Sx)|N].
               + exists x. split; [now apply final_here|]. split; [|assumption]. apply (H' e); auto. now left.
               + destruct IHa as (m' & F & P' & S'); [intros; eapply H'; eauto; now right|].
                 exists m'. split; [|auto]. apply final_above; [|assumption]. intros x Dx Vx. rewrite S'. now apply N. }
           destruct G as (m' & F & P' & S'). exists m'. split; [|assumption]. apply final_above; [|assumption].
           intros x Dx Vx. rewrite S'. now apply N.
    + intros (m & F & P). inversion F as [c0 l0 m0 Dm Vm|c0 l0 m0 N F']; subst.
      * exists [], c, l, m. repeat split; auto; try (intros d x []; fail).
      * assert (G : forall l m, final D l m -> mt_pure m = true -> (forall c, In c l -> consistent D c) -> exists a c' b m', l = a ++ c' :: b /\ D c' m' /\ mt_pure m' = true /\
           signature m' = signature m /\ forall d x, In d a -> D d x -> mt_virtual x = true -> signature x = signature m' -> mt_pure x = true).
        { clear. intros l m F. induction F as [c l m Dm Vm|c l m N F IH]; intros P C.
          - exists [], c, l, m. repeat split; auto; try (intros d x []; fail).
          - destruct (IH P) as (a & c' & b & m' & -> & Dm & Pm & Sm & H); [intros; apply C; now right|].
            exists (c :: a), c', b, m'. repeat split; auto. intros d x [->|Hd] Dx Vx Sx; [|eauto].
            exfalso. apply (N x Dx Vx). congruence. }
        destruct (G l m F' P) as (a & c' & b & m' & -> & Dm & Pm & Sm & H); [intros; apply C; now right|].
        exists (c :: a), c', b, m'. repeat split; auto. intros d x [->|Hd] Dx Vx Sx; [|eauto].
        exfalso. apply (N x Dx Vx). congruence.
Qed.

(** ** The answer *)
Section Answer.
  Variables (dn ds : bool) (ok : method -> bool).
  Notation step := (run_hcall dn ds ok).
  Notation script := (hscript dn ds ok).

  Lemma mro_valid w (W : wf w) i l : get_mro w i = Ok l -> i < length w -> forall c, In c l -> c < length w.
  Proof. intros G L c Hc. apply (mro_ancestor w W i l c G) in Hc. apply (ancestor_below w W) in Hc. lia. Qed.

  Lemma answer_spec cs i l : let w := fst (script cs []) in let D := declares (snd (script cs [])) in
    i < length w -> get_mro w i = Ok l -> timely (bases w) cs i -> (forall c, In c l -> consistent D c) ->
    (answer w i = true <-> abstract D l).
  Proof.
    intros w D L G T C. pose proof (script_wf dn ds ok cs [] wf_nil) as W. fold w in W.
    assert (Dm : forall c x, In x (methods_of w c) <-> D c x) by (intros; apply declared_methods).
    assert (F : answer w i = fresh w i) by now apply (answer_fresh dn ds ok cs i).
    assert (S : fresh w i = true <-> abstract_in (methods_of w) l).
    { apply fresh_spec; [assumption|]. eapply mro_valid; eauto. }
    rewrite F, S. now apply abstract_declared.
  Qed.
  Lemma pure_step w (W : wf w) i : i < length w -> snd (step (HPure i) w) = Ok (RBool (answer w i)).
  Proof. intros L. cbn [run_hcall]. unfold sbind. rewrite have_pure_ok; [reflexivity|assumption|]. now apply Nat.ltb_lt. Qed.
End Answer.
