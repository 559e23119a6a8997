(** What classes inherit from their parents. *)
From Verif.Model Require Import Py PyState Hierarchy.
From Verif.Spec Require Import HierarchySpec SettingsSpec.
From Verif.Proofs Require Import HierarchyProofs PureProofs PureScript AbstractProofs HelperProofs HierarchyTop.
From Coq Require Import Lia.
Open Scope list_scope.
Open Scope st_scope.

Definition fixed_at (w : hier) (n : nat) := option_map fixed_part (nth_error w n).
Lemma fixed_resetting b m k : fixed_part (resetting b (adding m k)) = fixed_part k.
Proof. unfold resetting, adding. destruct b; destruct (_ && _); try destruct (is_public _); reflexivity. Qed.
Lemma effect_fixed w c w' : effect w c w' -> forall n, n < length w -> fixed_at w' n = fixed_at w n.
Proof.
  assert (Al : forall w' w'', alike w' w'' -> forall n, fixed_at w' n = fixed_at w'' n).
  { intros a b A n. pose proof (alike_nth _ _ n A) as E. unfold fixed_at.
    destruct (nth_error a n), (nth_error b n); cbn in *; try congruence. unfold view in E. congruence. }
  assert (Ch : forall j f, (forall k, fixed_part (f k) = fixed_part k) -> forall n, fixed_at (change w j f) n = fixed_at w n).
  { intros j f B n. unfold fixed_at. rewrite change_nth. destruct (Nat.eqb n j); [|reflexivity]. destruct (nth_error w n); cbn; [now rewrite B|reflexivity]. }
  intros E n L. destruct E as [c w' A|d k P R B|i d w' M A|i d w' M V A|i m w' A|i c w' Q A]; try rewrite (Al _ _ A).
  - reflexivity.
  - unfold fixed_at. now rewrite nth_error_app1.
  - apply Ch. intros k. apply fixed_resetting.
  - apply Ch. reflexivity.
  - apply Ch. intros k. apply (fixed_resetting false).
  - apply Ch. reflexivity.
Qed.
Lemma fixed_policy a b n : fixed_at a n = fixed_at b n -> policy_of a n = policy_of b n.
Proof. unfold fixed_at, policy_of. destruct (nth_error a n), (nth_error b n); cbn; unfold fixed_part; congruence. Qed.
Lemma fixed_narrowing a b n : fixed_at a n = fixed_at b n -> narrowing_of a n = narrowing_of b n.
Proof. unfold fixed_at, narrowing_of. destruct (nth_error a n), (nth_error b n); cbn; unfold fixed_part; congruence. Qed.
Lemma fixed_subclassing a b n : fixed_at a n = fixed_at b n -> subclassing_of a n = subclassing_of b n.
Proof. unfold fixed_at, subclassing_of. destruct (nth_error a n), (nth_error b n); cbn; unfold fixed_part; congruence. Qed.

Lemma inherited_first w l : inherited_policy w l = first_of (map (policy_of w) l).
Proof. induction l as [|b l IH]; cbn; [reflexivity|]. destruct (policy_of w b); auto. Qed.

Section Settings.
  Variables (dn ds : bool) (ok : method -> bool).
  Notation step := (run_hcall dn ds ok).
  Notation script := (hscript dn ds ok).

  Lemma script_fixed cs : forall w, wf w -> forall n, n < length w -> fixed_at (fst (script cs w)) n = fixed_at w n.
  Proof.
    induction cs as [|c cs IH]; intros w W n L; cbn; [reflexivity|]. pose proof (step_effect dn ds ok w W c) as E.
    rewrite IH; [now apply (effect_fixed w c)|eapply effect_wf; eauto|]. pose proof (effect_length _ _ _ E). lia.
  Qed.

  (** What a call of the constructor makes. *)
  Record made_class (w : hier) (d : cdecl) (i : nat) (w' : hier) : Prop := {
    mc_index : i = length w;
    mc_known : forall b, In b (parents_in d) -> b < length w;
    mc_policy : policy_of w' i = (match first_of (map (policy_of w) (parents_in d)) with Some p => Some p | None => cd_policy d end);
    mc_given : first_of (map (policy_of w) (parents_in d)) = None \/ cd_policy d = None;
    mc_narrowing : narrowing_of w' i = (match cd_narrowing d, head_parent d with Some b, _ => b | None, Some p => narrowing_of w p | None, None => dn end);
    mc_subclassing : subclassing_of w' i = (match cd_destructor d with Private => false | _ =>
        match cd_subclassing d, head_parent d with Some b, _ => b | None, Some p => subclassing_of w p | None, None => ds end end);
    mc_kept : cd_subclassing d = Some false -> forall b, In b (parents_in d) -> subclassing_of w b = false }.
  Lemma new_class_made d w i w' : step (HClass d) w = (w', Ok (RClass i)) -> made_class w d i w'.
  Proof.
    cbn [run_hcall]. unfold new_class, sbind. intros H.
    assert (M : (match (if forallb (fun b => Nat.ltb b (length w)) (parents_in d) then
          match memory_policy w (parents_in d) (cd_policy d) with
          | Err e => (w, Err e)
          | Ok p =>
              match subclassing ds w (parents_in d) (cd_subclassing d) (cd_destructor d) with
              | Err e => (w, Err e)
              | Ok sub => (w ++ [mk_cls (parents_in d) p (narrowing dn w (parents_in d) (cd_narrowing d)) sub (cd_singleton d) [] [] []
                                   None None false "" [] None None], Ok (length w))
              end
          end
          else (w, Err Unmodelled)) with (s, Ok a) => ret (RClass a) s | (s, Err e) => (s, Err e) end) = (w', Ok (RClass i))).
    { unfold parents_in. destruct (cd_parents d) as [[|b l]|]; [discriminate|exact H|exact H]. }
    clear H. destruct (forallb _ _) eqn:F; [|discriminate].
    destruct (memory_policy w (parents_in d) (cd_policy d)) as [p|] eqn:Mp; [|discriminate].
    destruct (subclassing ds w (parents_in d) (cd_subclassing d) (cd_destructor d)) as [sub|] eqn:Sb; [|discriminate].
    cbn [ret] in M. injection M as <- <-.
    unfold memory_policy in Mp. rewrite inherited_first in Mp.
    split.
    - reflexivity.
    - intros b Hb. rewrite forallb_forall in F. apply F in Hb. now apply Nat.ltb_lt.
    - unfold policy_of at 1. rewrite nth_error_app2, Nat.sub_diag by lia. cbn [nth_error k_policy].
      destruct (first_of _); [destruct (cd_policy d); congruence|congruence].
    - destruct (first_of _); [destruct (cd_policy d); [discriminate|auto]|auto].
    - unfold narrowing_of at 1. rewrite nth_error_app2, Nat.sub_diag by lia. cbn [nth_error k_narrowing].
      unfold narrowing, head_parent. destruct (cd_narrowing d); [reflexivity|]. destruct (parents_in d); reflexivity.
    - unfold subclassing_of at 1. rewrite nth_error_app2, Nat.sub_diag by lia. cbn [nth_error k_subclassing].
      unfold subclassing in Sb. unfold head_parent. destruct (cd_subclassing d) as [b|].
      + destruct (existsb _ _ && negb b); [discriminate|]. destruct (cd_destructor d); congruence.
      + destruct (parents_in d); destruct (cd_destructor d); congruence.
    - intros E b Hb. unfold subclassing in Sb. rewrite E in Sb. cbn [negb] in Sb. rewrite andb_true_r in Sb.
      destruct (existsb _ _) eqn:X; [discriminate|]. destruct (subclassing_of w b) eqn:Sw; [|reflexivity].
      assert (existsb (subclassing_of w) (parents_in d) = true); [|congruence]. apply existsb_exists. eauto.
  Qed.

  Lemma made_later w (W : wf w) d i w' cs : made_class w d i w' -> length w' = S (length w) -> wf w' ->
    (forall n, n < length w -> fixed_at w' n = fixed_at w n) ->
    let z := fst (script cs w') in
    policy_of z i = (match first_of (map (policy_of z) (parents_in d)) with Some p => Some p | None => cd_policy d end) /\
    (first_of (map (policy_of z) (parents_in d)) = None \/ cd_policy d = None) /\
    narrowing_of z i = (match cd_narrowing d, head_parent d with Some b, _ => b | None, Some p => narrowing_of z p | None, None => dn end) /\
    subclassing_of z i = (match cd_destructor d with Private => false | _ =>
        match cd_subclassing d, head_parent d with Some b, _ => b | None, Some p => subclassing_of z p | None, None => ds end end) /\
    (cd_subclassing d = Some false -> forall b, In b (parents_in d) -> subclassing_of z b = false).
  Proof.
    intros M L W' Old z.
    assert (New : fixed_at z i = fixed_at w' i) by (apply script_fixed; [assumption|]; rewrite L, (mc_index _ _ _ _ M); lia).
    assert (Par : forall b, In b (parents_in d) -> fixed_at z b = fixed_at w b).
    { intros b Hb. apply (mc_known _ _ _ _ M) in Hb. rewrite <- Old by assumption. apply script_fixed; [assumption|lia]. }
    assert (Pol : map (policy_of z) (parents_in d) = map (policy_of w) (parents_in d)).
    { apply map_ext_in. intros b Hb. now apply fixed_policy, Par. }
    assert (Hd : forall p, head_parent d = Some p -> fixed_at z p = fixed_at w p).
    { intros p Hp. apply Par. unfold head_parent in Hp. destruct (parents_in d); [discriminate|]. injection Hp as ->. now left. }
    rewrite Pol. split; [|split; [|split; [|split]]].
    - rewrite (fixed_policy _ _ _ New). apply M.
    - apply M.
    - rewrite (fixed_narrowing _ _ _ New), (mc_narrowing _ _ _ _ M). destruct (cd_narrowing d); [reflexivity|].
      destruct (head_parent d) as [p|]; [|reflexivity]. symmetry. now apply fixed_narrowing, Hd.
    - rewrite (fixed_subclassing _ _ _ New), (mc_subclassing _ _ _ _ M). destruct (cd_destructor d); try reflexivity;
        (destruct (cd_subclassing d); [reflexivity|]; destruct (head_parent d) as [p|]; [|reflexivity]; symmetry; now apply fixed_subclassing, Hd).
    - intros E b Hb. rewrite (fixed_subclassing _ _ _ (Par b Hb)). now apply (mc_kept _ _ _ _ M).
  Qed.

  Lemma settings_ok cs d i : forall w, wf w -> In (HClass d, Ok (RClass i)) (snd (script cs w)) ->
    let z := fst (script cs w) in
    policy_of z i = (match first_of (map (policy_of z) (parents_in d)) with Some p => Some p | None => cd_policy d end) /\
    (first_of (map (policy_of z) (parents_in d)) = None \/ cd_policy d = None) /\
    narrowing_of z i = (match cd_narrowing d, head_parent d with Some b, _ => b | None, Some p => narrowing_of z p | None, None => dn end) /\
    subclassing_of z i = (match cd_destructor d with Private => false | _ =>
        match cd_subclassing d, head_parent d with Some b, _ => b | None, Some p => subclassing_of z p | None, None => ds end end) /\
    (cd_subclassing d = Some false -> forall b, In b (parents_in d) -> subclassing_of z b = false).
  Proof.
    induction cs as [|c cs IH]; intros w W H; [destruct H|]. cbn [hscript fst snd] in *.
    assert (W' : wf (fst (step c w))) by (eapply effect_wf; [exact W|now apply step_effect]).
    destruct H as [H|H]; [|now apply IH]. injection H as -> R.
    apply (made_later w W d i (fst (step (HClass d) w)) cs); auto.
    - apply new_class_made. rewrite <- R. now destruct (step (HClass d) w).
    - destruct (step_class dn ds ok d w) as [(_ & _ & Ln & _)|[_ N]]; [assumption|]. now elim (N _ R).
    - apply (effect_fixed w (HClass d)). now apply step_effect.
  Qed.

  (** Which classes are refused. *)
  Lemma refused d w : (forall b, In b (parents_in d) -> b < length w) ->
    snd (step (HClass d) w) =
      if (match cd_parents d with Some [] => true | _ => false end) then Err IndexError
      else if (match first_of (map (policy_of w) (parents_in d)), cd_policy d with Some _, Some _ => true | _, _ => false end) then Err AssertionError
      else if (match cd_subclassing d with Some false => existsb (subclassing_of w) (parents_in d) | _ => false end) then Err ValueError
      else Ok (RClass (length w)).
  Proof.
    intros B. cbn [run_hcall]. unfold new_class, sbind.
    assert (F : forallb (fun b => Nat.ltb b (length w)) (parents_in d) = true).
    { apply forallb_forall. intros b Hb. apply Nat.ltb_lt. auto. }
    assert (M : snd (match (if forallb (fun b => Nat.ltb b (length w)) (parents_in d) then
          match memory_policy w (parents_in d) (cd_policy d) with
          | Err e => (w, Err e)
          | Ok p =>
              match subclassing ds w (parents_in d) (cd_subclassing d) (cd_destructor d) with
              | Err e => (w, Err e)
              | Ok sub => (w ++ [mk_cls (parents_in d) p (narrowing dn w (parents_in d) (cd_narrowing d)) sub (cd_singleton d) [] [] []
                                   None None false "" [] None None], Ok (length w))
              end
          end
          else (w, Err Unmodelled)) with (s, Ok a) => ret (RClass a) s | (s, Err e) => (s, Err e) end) =
      if (match first_of (map (policy_of w) (parents_in d)), cd_policy d with Some _, Some _ => true | _, _ => false end) then Err AssertionError
      else if (match cd_subclassing d with Some false => existsb (subclassing_of w) (parents_in d) | _ => false end) then Err ValueError
      else Ok (RClass (length w))).
    { rewrite F. unfold memory_policy. rewrite inherited_first.
      assert (X : forall p, snd (match (match subclassing ds w (parents_in d) (cd_subclassing d) (cd_destructor d) with
              | Err e => (w, Err e)
              | Ok sub => (w ++ [mk_cls (parents_in d) p (narrowing dn w (parents_in d) (cd_narrowing d)) sub (cd_singleton d) [] [] []
                                   None None false "" [] None None], Ok (length w))
              end) with (s, Ok a) => ret (RClass a) s | (s, Err e) => (s, Err e) end) =
        if (match cd_subclassing d with Some false => existsb (subclassing_of w) (parents_in d) | _ => false end) then Err ValueError
        else Ok (RClass (length w))).
      { intros p. unfold subclassing. destruct (cd_subclassing d) as [[|]|]; cbn [negb]; rewrite ?andb_false_r, ?andb_true_r; try reflexivity.
        destruct (existsb _ _); reflexivity. }
      destruct (first_of _); [destruct (cd_policy d); [reflexivity|apply X]|apply X]. }
    unfold parents_in in *. destruct (cd_parents d) as [[|b l]|]; [reflexivity|exact M|exact M].
  Qed.

  (** ** Creation functions *)
  Definition creation_of (w : hier) (i : nat) : option nat := match nth_error w i with Some k => k_creation k | None => None end.
  Definition post_of (w : hier) (i : nat) : option nat := match nth_error w i with Some k => k_post k | None => None end.
  Definition selected (f : hcall -> option nat) (a : hcall * res hanswer) (acc : option nat) : option nat :=
    match f (fst a), snd a with Some n, Ok _ => Some n | _, _ => acc end.

  Definition hidden (k : cls) := (k_creation k, k_post k).
  Lemma hidden_adding m k : hidden (adding m k) = hidden k.
  Proof. unfold adding. destruct (_ && _); [|destruct (is_public _)]; reflexivity. Qed.
  Lemma hidden_helped b dm m k : hidden (helped b dm m k) = hidden k.
  Proof. unfold helped. destruct b; [|reflexivity]. destruct (_ && _); reflexivity. Qed.
  Lemma hidden_method_added b d k : hidden (method_added b d k) = hidden k.
  Proof.
    unfold method_added, obj_added. destruct (md_wrappable d).
    - destruct (mt_virtual _); [now rewrite hidden_helped, hidden_adding|]. destruct (protected_plain _); [destruct b; reflexivity|apply hidden_adding].
    - destruct (md_virtual d) as [[|]|]; try reflexivity. now rewrite hidden_helped.
  Qed.
  Definition hidden_at (w : hier) (n : nat) := (creation_of w n, post_of w n).
  Lemma hidden_change w j f n : (forall k, hidden (f k) = hidden k) -> hidden_at (change w j f) n = hidden_at w n.
  Proof.
    intros H. unfold hidden_at, creation_of, post_of. rewrite change_nth. destruct (Nat.eqb n j); [|reflexivity].
    destruct (nth_error w n) as [k|]; cbn [option_map]; [|reflexivity]. specialize (H k). unfold hidden in H. congruence.
  Qed.
  Lemma forward_hidden w (W : wf w) i k : nth_error w i = Some k -> exists f r, generate_forward ok i w = (change w i f, r) /\ forall k, hidden (f k) = hidden k.
  Proof.
    intros K. unfold generate_forward. rewrite (sbind_ok _ _ _ _ _ (get_cls_ok _ _ _ K)). destruct (mro_ok w W i) as (l & G).
    match goal with |- context [sbind ?m _ w] => assert (First : exists f a, m w = (change w i f, Ok a) /\ (forall k, hidden (f k) = hidden k) /\ (forall k, k_bases (f k) = k_bases k)) end.
    { destruct (k_helper k) as [h|].
      - unfold mro_classes, sbind. rewrite G.
        destruct (helper_proxies ok (inherit_virtuals h (tl (classes w l)))) as [ps|]; [destruct (hp_cannot _)|];
          unfold update, modify, ret; rewrite ?change_compose; eexists _, _; (split; [reflexivity|]); split; reflexivity.
      - exists (fun k => k), (None, []). rewrite change_id by auto. repeat split; reflexivity. }
    destruct First as (f & a & E & Hf & Bf). rewrite (sbind_ok _ _ _ _ _ E).
    assert (W1 : wf (change w i f)) by (apply wf_change; assumption).
    assert (V1 : valid (change w i f) i = true) by (unfold valid; rewrite change_length; apply (nth_valid w i k K)).
    rewrite (sbind_ok _ _ _ _ _ (have_pure_ok _ W1 i V1)). rewrite change_compose. set (g := fun k0 : cls => with_pure (Some (answer (change w i f) i)) (f k0)).
    assert (K2 : nth_error (change w i g) i = Some (g k)) by now rewrite change_nth, Nat.eqb_refl, K.
    rewrite (sbind_ok _ _ _ _ _ (get_cls_ok _ _ _ K2)).
    destruct (_ && _); unfold sbind, update, modify, ret; rewrite ?change_compose; eexists _, _; (split; [reflexivity|]); intros k0; unfold g; cbn; apply (Hf k0).
  Qed.

  Lemma step_hidden w (W : wf w) c n :
    hidden_at (fst (step c w)) n = (selected (set_creation n) (c, snd (step c w)) (creation_of w n), selected (set_post n) (c, snd (step c w)) (post_of w n)).
  Proof.
    assert (Set1 : forall c i (f : cls -> cls -> cls), (forall k k', hidden (f k k') = hidden k') -> set_creation n c = None -> set_post n c = None ->
      hidden_at (fst ((k <~ get_cls i ;; update i (f k) ;~ ret RNothing) w)) n =
      (selected (set_creation n) (c, snd ((k <~ get_cls i ;; update i (f k) ;~ ret RNothing) w)) (creation_of w n),
       selected (set_post n) (c, snd ((k <~ get_cls i ;; update i (f k) ;~ ret RNothing) w)) (post_of w n))).
    { intros c0 i f Hf S1 S2. unfold selected. cbn [fst snd]. rewrite S1, S2. fold (hidden_at w n).
      destruct (nth_error w i) as [k|] eqn:K.
      - rewrite (sbind_ok _ _ _ _ _ (get_cls_ok _ _ _ K)). unfold sbind, update, modify, ret. cbn [fst]. now apply hidden_change.
      - now rewrite (sbind_err _ _ _ _ _ (get_cls_err _ _ K)). }
    destruct c as [d|i d|i m|i m|i m|i m|i b|i s|i|i|i v]; cbn [run_hcall].
    - unfold selected. cbn. fold (hidden_at w n). destruct (new_class_effect dn ds d w) as (w' & r & E & [[-> N]|(k & -> & -> & P & R & B & _)]).
      + unfold sbind. rewrite E. destruct r; reflexivity.
      + pose proof E as E0. unfold sbind. rewrite E. cbn [fst ret].
        assert (Hk : hidden k = (None, None)).
        { unfold new_class in E0. clear E. destruct (cd_parents d) as [[|b l]|]; [discriminate| |];
            (destruct (forallb _ _); [|discriminate]; destruct (memory_policy _ _ _); [|discriminate]; destruct (subclassing _ _ _ _ _); [|discriminate]);
            apply (f_equal fst) in E0; cbn [fst] in E0; apply app_inv_head in E0; injection E0 as <-; reflexivity. }
        unfold hidden_at, creation_of, post_of. destruct (Nat.lt_ge_cases n (length w)) as [L|L].
        * now rewrite nth_error_app1.
        * rewrite nth_error_app2 by assumption. assert (X : nth_error w n = None) by now apply nth_error_None. rewrite X.
          destruct (n - length w) as [|p]; cbn; [exact Hk|destruct p; reflexivity].
    - change (hidden_at (fst (step (HMethod i d) w)) n = hidden_at w n).
      destruct (nth_error w i) as [k|] eqn:K.
      + cbn [run_hcall]. rewrite (sbind_ok _ _ _ _ _ (add_method_exact w W i k d K)). cbn [fst ret]. apply hidden_change. intros k0. apply hidden_method_added.
      + destruct (Bool.bool_dec (md_wrappable d) true) as [Wd|Wd].
        * now rewrite (method_step_err dn ds ok w i d (nth_invalid _ _ K) (or_introl Wd)).
        * apply not_true_is_false in Wd. destruct (md_virtual d) as [[|]|] eqn:Vd.
          -- now rewrite (method_step_err dn ds ok w i d (nth_invalid _ _ K) (or_intror Vd)).
          -- cbn [run_hcall]. unfold add_method. now rewrite Wd, Vd.
          -- cbn [run_hcall]. unfold add_method. now rewrite Wd, Vd.
    - change (hidden_at (fst (step (HFunction i m) w)) n = hidden_at w n).
      destruct (nth_error w i) as [k|] eqn:K.
      + cbn [run_hcall]. unfold add_function_as_method. rewrite (sbind_ok _ _ _ _ _ (add_method_obj_exact w W i k _ K)). cbn [fst ret].
        apply hidden_change. intros k0. reflexivity.
      + cbn [run_hcall]. unfold add_function_as_method, add_method_obj, sbind at 1 2. now rewrite (get_cls_err _ _ K).
    - apply (Set1 (HHook i m) i (fun k => with_hooks (k_hooks k ++ [m]))); reflexivity.
    - unfold selected. cbn [fst snd set_creation set_post]. destruct (nth_error w i) as [k|] eqn:K.
      + rewrite (sbind_ok _ _ _ _ _ (get_cls_ok _ _ _ K)). unfold sbind, update, modify, ret. cbn [fst snd].
        unfold hidden_at, creation_of, post_of. rewrite change_nth, (Nat.eqb_sym n i). destruct (Nat.eqb i n) eqn:N; [|reflexivity].
        apply Nat.eqb_eq in N. subst n. now rewrite K.
      + rewrite (sbind_err _ _ _ _ _ (get_cls_err _ _ K)). cbn. destruct (Nat.eqb i n); reflexivity.
    - unfold selected. cbn [fst snd set_creation set_post]. destruct (nth_error w i) as [k|] eqn:K.
      + rewrite (sbind_ok _ _ _ _ _ (get_cls_ok _ _ _ K)). unfold sbind, update, modify, ret. cbn [fst snd].
        unfold hidden_at, creation_of, post_of. rewrite change_nth, (Nat.eqb_sym n i). destruct (Nat.eqb i n) eqn:N; [|reflexivity].
        apply Nat.eqb_eq in N. subst n. now rewrite K.
      + rewrite (sbind_err _ _ _ _ _ (get_cls_err _ _ K)). cbn. destruct (Nat.eqb i n); reflexivity.
    - apply (Set1 (HDisable i b) i (fun k => with_disabled b)); reflexivity.
    - apply (Set1 (HCannot i s) i (fun k => with_cannot s)); reflexivity.
    - change (hidden_at (fst (step (HPure i) w)) n = hidden_at w n). destruct (nth_error w i) as [k|] eqn:K.
      + cbn [run_hcall]. rewrite (sbind_ok _ _ _ _ _ (have_pure_ok w W i (nth_valid _ _ _ K))). cbn [fst ret]. now apply hidden_change.
      + cbn [run_hcall]. unfold have_pure_virtual_methods, sbind at 1 2. now rewrite (get_cls_err _ _ K).
    - change (hidden_at (fst (step (HForward i) w)) n = hidden_at w n). destruct (nth_error w i) as [k|] eqn:K.
      + destruct (forward_hidden w W i k K) as (f & r & E & Hf). cbn [run_hcall]. unfold sbind. rewrite E.
        destruct r; cbn [fst ret]; now apply hidden_change.
      + cbn [run_hcall]. unfold generate_forward, sbind at 1 2. now rewrite (get_cls_err _ _ K).
    - change (hidden_at (fst (step (HConstructor i v) w)) n = hidden_at w n). destruct (nth_error w i) as [k|] eqn:K.
      + assert (Cn : exists r, get_construct_name i w = (w, r) \/ get_construct_name i w = (change w i (with_pure (Some (answer w i))), r)).
        { unfold get_construct_name. rewrite (sbind_ok _ _ _ _ _ (get_cls_ok _ _ _ K)). destruct (nonempty _); [eexists; left; reflexivity|].
          rewrite (sbind_ok _ _ _ _ _ (have_pure_ok w W i (nth_valid _ _ _ K))). destruct (answer w i); eexists; right; reflexivity. }
        destruct Cn as (r & Cn).
        assert (Hw : hidden_at (fst (get_construct_name i w)) n = hidden_at w n).
        { destruct Cn as [-> | ->]; cbn [fst]; [reflexivity|]. now apply hidden_change. }
        cbn [run_hcall]. unfold generate_constructor. unfold sbind at 1. rewrite (sbind_ok _ _ _ _ _ (get_cls_ok _ _ _ K)).
        destruct v; destruct (k_helper k); cbn [is_public]; try reflexivity.
        * unfold try_except, sbind. destruct (get_construct_name i w) as [w1 [u|e]]; cbn [fst ret] in *; [assumption|].
          destruct (exc_eq_dec e CodeGenerationError); cbn; assumption.
        * unfold sbind. destruct (get_construct_name i w) as [w1 [u|e]]; cbn [fst ret] in *; assumption.
      + cbn [run_hcall]. unfold generate_constructor, sbind at 1 2. now rewrite (get_cls_err _ _ K).
  Qed.

  Lemma script_hidden cs n : forall w, wf w ->
    hidden_at (fst (script cs w)) n =
      (fold_left (fun acc a => selected (set_creation n) a acc) (snd (script cs w)) (creation_of w n),
       fold_left (fun acc a => selected (set_post n) a acc) (snd (script cs w)) (post_of w n)).
  Proof.
    induction cs as [|c cs IH]; intros w W; cbn [hscript fst snd fold_left]; [reflexivity|].
    rewrite IH by (eapply effect_wf; [exact W|now apply step_effect]). pose proof (step_hidden w W c n) as E. unfold hidden_at in E.
    injection E as -> ->. reflexivity.
  Qed.
  Lemma creation_latest cs n : let z := fst (script cs []) in let answers := snd (script cs []) in
    creation_of z n = latest (set_creation n) answers /\ post_of z n = latest (set_post n) answers.
  Proof.
    intros z answers. pose proof (script_hidden cs n [] wf_nil) as E. unfold hidden_at in E. injection E as E1 E2.
    unfold z, answers. rewrite E1, E2. unfold creation_of, post_of. destruct n; split; reflexivity.
  Qed.

  (** The nearest in the order. *)
  Lemma creation_order w l : l <> [] -> (forall c, In c l -> c < length w) ->
    match instance_creation (classes w l) with
    | CustomCreation n => exists before c after, l = before ++ c :: after /\ creation_of w c = Some n /\ forall b, In b before -> creation_of w b = None
    | PolicyCreation p => (forall c, In c l -> creation_of w c = None) /\ policy_of w (last l 0) = Some p
    | DefaultCreation => (forall c, In c l -> creation_of w c = None) /\ policy_of w (last l 0) = None
    end.
  Proof.
    induction l as [|c l IH]; intros N B; [congruence|]. assert (L : c < length w) by (apply B; now left).
    change (classes w (c :: l)) with ((match nth_error w c with Some k => [k] | None => [] end) ++ classes w l).
    destruct (nth_error w c) as [k|] eqn:K; [|apply nth_error_None in K; lia]. cbn [app instance_creation].
    destruct (k_creation k) as [n|] eqn:C.
    - exists [], c, l. split; [reflexivity|]. split; [unfold creation_of; now rewrite K|intros b []].
    - assert (C0 : creation_of w c = None) by (unfold creation_of; now rewrite K).
      destruct l as [|c2 l].
      + cbn. destruct (k_policy k) as [p|] eqn:P; (split; [intros x [<-|[]]; assumption|unfold policy_of; now rewrite K]).
      + assert (B' : forall x, In x (c2 :: l) -> x < length w) by (intros x Hx; apply B; now right).
        specialize (IH ltac:(discriminate) B').
        destruct (classes w (c2 :: l)) as [|k2 r] eqn:Cl.
        * assert (L2 : c2 < length w) by (apply B'; now left).
          change (classes w (c2 :: l)) with ((match nth_error w c2 with Some k => [k] | None => [] end) ++ classes w l) in Cl.
          destruct (nth_error w c2) as [k2|] eqn:K2; [discriminate|apply nth_error_None in K2; lia].
        * destruct (instance_creation (k2 :: r)) as [n|p|].
          -- destruct IH as (a & x & b & E & I & H). exists (c :: a), x, b. split; [now rewrite E|]. split; [assumption|].
             intros y [<-|Hy]; auto.
          -- destruct IH as [I1 I2]. split; [|exact I2]. intros y [<-|Hy]; auto.
          -- destruct IH as [I1 I2]. split; [|exact I2]. intros y [<-|Hy]; auto.
  Qed.
  Lemma post_order w l : (forall c, In c l -> c < length w) ->
    match post_creation (classes w l) with
    | Some n => exists before c after, l = before ++ c :: after /\ post_of w c = Some n /\ forall b, In b before -> post_of w b = None
    | None => forall c, In c l -> post_of w c = None
    end.
  Proof.
    induction l as [|c l IH]; intros B; [intros c []|]. assert (L : c < length w) by (apply B; now left).
    change (classes w (c :: l)) with ((match nth_error w c with Some k => [k] | None => [] end) ++ classes w l).
    destruct (nth_error w c) as [k|] eqn:K; [|apply nth_error_None in K; lia]. cbn [app post_creation].
    destruct (k_post k) as [n|] eqn:C.
    - exists [], c, l. split; [reflexivity|]. split; [unfold post_of; now rewrite K|intros b []].
    - assert (C0 : post_of w c = None) by (unfold post_of; now rewrite K).
      assert (B' : forall x, In x l -> x < length w) by (intros x Hx; apply B; now right). specialize (IH B').
      destruct (post_creation (classes w l)) as [n|].
      + destruct IH as (a & x & b & E & I & H). exists (c :: a), x, b. split; [now rewrite E|]. split; [assumption|]. intros y [<-|Hy]; auto.
      + intros y [<-|Hy]; auto.
  Qed.

  Lemma creation_ok cs i l : let z := fst (script cs []) in let answers := snd (script cs []) in
    i < length z -> get_mro z i = Ok l ->
    match instance_creation (classes z l) with
    | CustomCreation n => exists before c after, l = before ++ c :: after /\ latest (set_creation c) answers = Some n /\
                            forall b, In b before -> latest (set_creation b) answers = None
    | PolicyCreation p => (forall c, In c l -> latest (set_creation c) answers = None) /\ policy_of z (last l 0) = Some p
    | DefaultCreation => (forall c, In c l -> latest (set_creation c) answers = None) /\ policy_of z (last l 0) = None
    end /\
    match post_creation (classes z l) with
    | Some n => exists before c after, l = before ++ c :: after /\ latest (set_post c) answers = Some n /\
                  forall b, In b before -> latest (set_post b) answers = None
    | None => forall c, In c l -> latest (set_post c) answers = None
    end.
  Proof.
    intros z answers L G. assert (B : forall c, In c l -> c < length z) by (eapply mro_valid; [apply final_wf|eassumption|assumption]).
    assert (N : l <> []) by (destruct (mro_head z i l G) as (r & ->); discriminate).
    assert (E1 : forall c, creation_of z c = latest (set_creation c) answers) by (intros c; apply (creation_latest cs c)).
    assert (E2 : forall c, post_of z c = latest (set_post c) answers) by (intros c; apply (creation_latest cs c)).
    split.
    - pose proof (creation_order z l N B) as H. destruct (instance_creation (classes z l)) as [n|p|].
      + destruct H as (a & c & b & H1 & H2 & H3). exists a, c, b. rewrite <- E1. split; [assumption|]. split; [assumption|]. intros x Hx. rewrite <- E1. auto.
      + destruct H as [H1 H2]. split; [|assumption]. intros c Hc. rewrite <- E1. auto.
      + destruct H as [H1 H2]. split; [|assumption]. intros c Hc. rewrite <- E1. auto.
    - pose proof (post_order z l B) as H. destruct (post_creation (classes z l)) as [n|].
      + destruct H as (a & c & b & H1 & H2 & H3). exists a, c, b. rewrite <- E2. split; [assumption|]. split; [assumption|]. intros x Hx. rewrite <- E2. auto.
      + intros c Hc. rewrite <- E2. auto.
  Qed.

  (** ** Roots *)
  Lemma chain_ext p q : (forall i, p i = q i) -> forall i r, chain p i r -> chain q i r.
  Proof. intros E i r H. induction H; [constructor|]. eapply chain_up; [rewrite <- E; eassumption|assumption]. Qed.
  Lemma chain_trans p a b c : chain p a b -> chain p b c -> chain p a c.
  Proof. intros H. induction H; auto. intros. eapply chain_up; eauto. Qed.
  Lemma climb_ok w (W : wf w) : forall f i, i < f -> narrowing_of w i = true -> exists r, climb f w i = Ok r /\ chain (bases w) i r /\
    (forall c, chain (bases w) i c -> chain (bases w) c r -> narrowing_of w c = true) /\
    (forall b l, bases w r = b :: l -> narrowing_of w b = false).
  Proof.
    induction f; intros i L Nr; [lia|]. cbn [climb]. unfold first_parent. destruct (bases w i) as [|b l] eqn:E.
    - exists i. split; [reflexivity|]. split; [constructor|]. split; [|intros b l X; congruence].
      intros c Hc _. inversion Hc; subst; [assumption|congruence].
    - assert (Bi : b < i) by (apply W; rewrite E; now left). destruct (narrowing_of w b) eqn:Nb.
      + destruct (IHf b) as (r & C1 & C2 & C3 & C4); [lia|assumption|]. exists r. split; [assumption|].
        split; [eapply chain_up; eauto|]. split; [|assumption]. intros c Hc Hr. inversion Hc as [|x b' l' r' Eb Cb]; subst; [assumption|].
        apply C3; [|assumption]. congruence.
      + exists i. split; [reflexivity|]. split; [constructor|]. split.
        * intros c Hc Hr. inversion Hc as [|x b' l' r' Eb Cb]; subst; [assumption|]. exfalso.
          assert (D : forall a z, chain (bases w) a z -> z <= a).
          { clear -W. intros a z H. induction H as [|i b l r Hb H IH]; [lia|]. assert (b < i) by (apply W; rewrite Hb; now left). lia. }
          assert (b' = b) by congruence. subst b'. apply D in Cb, Hr. lia.
        * intros b' l' X. congruence.
  Qed.
  Lemma narrowing_root_ok cs i : let z := fst (script cs []) in let P := declared_parents (snd (script cs [])) in
    if narrowing_of z i then
      exists r, type_narrowing_root z i = Ok (Some r) /\ chain P i r /\
        (forall c, chain P i c -> chain P c r -> narrowing_of z c = true) /\ (forall b l, P r = b :: l -> narrowing_of z b = false)
    else type_narrowing_root z i = Ok None.
  Proof.
    intros z P. assert (E : forall n, bases z n = P n) by apply parents_ok. assert (E' : forall n, P n = bases z n) by (intros; now rewrite E).
    unfold type_narrowing_root. destruct (narrowing_of z i) eqn:N; [|reflexivity].
    destruct (climb_ok z (final_wf dn ds ok cs) (S i) i ltac:(lia) N) as (r & C1 & C2 & C3 & C4). exists r. rewrite C1.
    split; [reflexivity|]. split; [now apply (chain_ext _ _ E)|]. split.
    - intros c H1 H2. apply C3; now apply (chain_ext _ _ E').
    - intros b l H. apply (C4 b l). now rewrite E.
  Qed.
  Lemma registry_ok w (W : wf w) : forall f i, i < f -> exists r, registry_owner f w i = Ok r /\ chain (bases w) i r /\ bases w r = [].
  Proof.
    induction f; intros i L; [lia|]. cbn [registry_owner]. unfold first_parent. destruct (bases w i) as [|b l] eqn:E.
    - exists i. split; [reflexivity|]. split; [constructor|assumption].
    - assert (Bi : b < i) by (apply W; rewrite E; now left). destruct (IHf b) as (r & R1 & R2 & R3); [lia|].
      exists r. split; [assumption|]. split; [eapply chain_up; eauto|assumption].
  Qed.
  Lemma wrapper_registry_ok cs i : let z := fst (script cs []) in let P := declared_parents (snd (script cs [])) in
    exists r, wrapper_registry z i = Ok r /\ chain P i r /\ P r = [].
  Proof.
    intros z P. assert (E : forall n, bases z n = P n) by apply parents_ok.
    destruct (registry_ok z (final_wf dn ds ok cs) (S i) i ltac:(lia)) as (r & R1 & R2 & R3). exists r.
    split; [assumption|]. split; [now apply (chain_ext _ _ E)|]. now rewrite <- E.
  Qed.
  Lemma chain_end p a : forall r s, chain p a r -> p r = [] -> chain p a s -> p s = [] -> r = s.
  Proof.
    intros r s H. induction H as [i|i b l r Hb H IH]; intros E1 K E2.
    - inversion K; congruence.
    - inversion K as [|x b' l' r' Eb Cb]; subst; [congruence|]. apply IH; auto. congruence.
  Qed.
  (** Classes related by first parents share the registry. *)
  Lemma registry_shared cs i j : let z := fst (script cs []) in let P := declared_parents (snd (script cs [])) in
    chain P i j -> wrapper_registry z i = wrapper_registry z j.
  Proof.
    intros z P H. destruct (wrapper_registry_ok cs i) as (r & R1 & R2 & R3). destruct (wrapper_registry_ok cs j) as (s & S1 & S2 & S3).
    unfold z. rewrite R1, S1. f_equal. exact (chain_end P i r s R2 R3 (chain_trans P i j s H S2) S3).
  Qed.

  (** Single inheritance: the memory policy is that of the only class of the line that is given one. *)
  Lemma parents_of_decl cs i d : In (HClass d, Ok (RClass i)) (snd (script cs [])) -> parents_in d = declared_parents (snd (script cs [])) i.
  Proof.
    unfold parents_in.
    assert (U : forall cs w, wf w -> In (HClass d, Ok (RClass i)) (snd (script cs w)) -> length w <= i /\ declared_parents (snd (script cs w)) i = match cd_parents d with Some l => l | None => [] end).
    { clear cs. induction cs as [|c cs IH]; intros w W H; [destruct H|]. cbn [hscript snd] in *.
      assert (W' : wf (fst (step c w))) by (eapply effect_wf; [exact W|now apply step_effect]).
      destruct H as [H|H].
      - injection H as -> R. destruct (step_class dn ds ok d w) as [(R' & _)|[_ N]]; [|now elim (N _ R)].
        assert (i = length w) by congruence. subst i. split; [lia|]. rewrite R'. cbn. now rewrite Nat.eqb_refl.
      - destruct (IH _ W' H) as [L D]. destruct (match c with HClass _ => true | _ => false end) eqn:M.
        + destruct c as [d'| | | | | | | | | |]; try discriminate. destruct (step_class dn ds ok d' w) as [(R & _ & Ln & _)|[E R]].
          * rewrite Ln in L. split; [lia|]. rewrite R. cbn. assert (N : Nat.eqb (length w) i = false) by (apply Nat.eqb_neq; lia). now rewrite N.
          * rewrite E in L. split; [assumption|]. cbn [declared_parents]. destruct (snd (step (HClass d') w)) as [a|e]; [now elim (R a)|assumption].
        + assert (N : forall d, c <> HClass d) by (intros d0 ->; discriminate). rewrite (step_length dn ds ok c w W N) in L.
          split; [assumption|]. now rewrite skip_parents. }
    intros I. symmetry. now apply (U cs [] wf_nil).
  Qed.
  Lemma parents_single cs i d b : In (HClass d, Ok (RClass i)) (snd (script cs [])) -> declared_parents (snd (script cs [])) i = [b] ->
    parents_in d = [b].
  Proof. intros I E. now rewrite (parents_of_decl cs i d I). Qed.
  Lemma class_declared cs n : forall w, wf w -> length w <= n -> n < length (fst (script cs w)) ->
    exists d, In (HClass d, Ok (RClass n)) (snd (script cs w)).
  Proof.
    induction cs as [|c cs IH]; intros w W L H; cbn [hscript fst snd] in *; [lia|].
    assert (W' : wf (fst (step c w))) by (eapply effect_wf; [exact W|now apply step_effect]).
    destruct (match c with HClass _ => true | _ => false end) eqn:M.
    - destruct c as [d'| | | | | | | | | |]; try discriminate. destruct (step_class dn ds ok d' w) as [(R & _ & Ln & _)|[E R]].
      + destruct (Nat.eq_dec n (length w)) as [->|N]; [exists d'; left; congruence|].
        destruct (IH _ W') as (d & I); [lia|assumption|]. exists d. now right.
      + destruct (IH _ W') as (d & I); [now rewrite E|assumption|]. exists d. now right.
    - assert (N : forall d, c <> HClass d) by (intros d0 ->; discriminate).
      destruct (IH _ W') as (d & I); [now rewrite (step_length dn ds ok c w W N)|assumption|]. exists d. now right.
  Qed.
  Lemma line_policy cs i l : let z := fst (script cs []) in let answers := snd (script cs []) in
    line (declared_parents answers) i l -> i < length z -> forall c d, In c l -> In (HClass d, Ok (RClass c)) answers ->
    forall p, cd_policy d = Some p -> policy_of z i = Some p.
  Proof.
    intros z answers H. induction H as [i Hp|i b l Hp H IH]; intros L c d Hc Hd p Ep.
    - destruct Hc as [<-|[]]. destruct (settings_ok cs d i [] wf_nil Hd) as (P1 & P2 & _). fold z in P1, P2. rewrite P1.
      destruct P2 as [P2|P2]; [now rewrite P2|congruence].
    - destruct Hc as [<-|Hc].
      + destruct (settings_ok cs d i [] wf_nil Hd) as (P1 & P2 & _). fold z in P1, P2. rewrite P1. destruct P2 as [P2|P2]; [now rewrite P2|congruence].
      + assert (Bi : b < i) by (apply (earlier dn ds ok cs); fold answers; rewrite Hp; now left).
        assert (Pb : policy_of z b = Some p) by (apply (IH ltac:(lia) c d Hc Hd p Ep)).
        destruct (class_declared cs i [] wf_nil ltac:(cbn; lia) L) as (di & Hi).
        destruct (settings_ok cs di i [] wf_nil Hi) as (P1 & _). fold z in P1. rewrite P1.
        rewrite (parents_single cs i di b Hi Hp). cbn. now rewrite Pb.
  Qed.
  Lemma line_no_policy cs i l : let z := fst (script cs []) in let answers := snd (script cs []) in
    line (declared_parents answers) i l -> i < length z ->
    (forall c d, In c l -> In (HClass d, Ok (RClass c)) answers -> cd_policy d = None) -> policy_of z i = None.
  Proof.
    intros z answers H. induction H as [i Hp|i b l Hp H IH]; intros L No;
      (destruct (class_declared cs i [] wf_nil ltac:(cbn; lia) L) as (di & Hi); destruct (settings_ok cs di i [] wf_nil Hi) as (P1 & _); fold z in P1; rewrite P1;
       assert (Cd : cd_policy di = None) by (apply (No i); [now left|assumption])).
    - assert (E : parents_in di = []).
      { unfold z in L. destruct (parents_in di) as [|b l] eqn:E; [reflexivity|]. exfalso.
        pose proof (parents_of_decl cs i di Hi) as X. fold answers in X. congruence. }
      now rewrite E.
    - assert (Bi : b < i) by (apply (earlier dn ds ok cs); fold answers; rewrite Hp; now left).
      rewrite (parents_single cs i di b Hi Hp). cbn. rewrite IH; [assumption|lia|]. intros c d Hc. apply No. now right.
  Qed.
  (** Single inheritance: subclassing, once allowed, stays allowed. *)
  Lemma line_subclassing cs i b : let z := fst (script cs []) in let answers := snd (script cs []) in
    declared_parents answers i = [b] -> i < length z -> subclassing_of z b = true ->
    (forall d, In (HClass d, Ok (RClass i)) answers -> cd_destructor d <> Private) -> subclassing_of z i = true.
  Proof.
    intros z answers Hp L S D. destruct (class_declared cs i [] wf_nil ltac:(cbn; lia) L) as (di & Hi).
    destruct (settings_ok cs di i [] wf_nil Hi) as (_ & _ & _ & S1 & S2). fold z in S1, S2. specialize (D di Hi).
    pose proof (parents_single cs i di b Hi Hp) as Pd. rewrite S1. unfold head_parent. rewrite Pd.
    assert (X : (match cd_subclassing di with Some x => x | None => subclassing_of z b end) = true).
    { destruct (cd_subclassing di) as [[|]|]; [reflexivity| |assumption]. rewrite (S2 eq_refl b) in S; [discriminate|]. rewrite Pd. now left. }
    destruct (cd_destructor di); [exact X|exact X|congruence].
  Qed.
End Settings.
