(** The methods a class holds are those declared. *)
From Verif.Model Require Import Py PyState Hierarchy MethodTable.
From Verif.Spec Require Import HierarchySpec MethodTableSpec.
From Verif.Proofs Require Import StrLemmas HierarchyProofs PureProofs PureScript AbstractProofs HelperProofs HierarchyTop.
From Coq Require Import Lia.
Open Scope list_scope.
Open Scope st_scope.

Definition view (k : cls) := (k_methods k, k_nonpublic k, k_bases k).
Definition views (w : hier) (i : nat) := option_map view (nth_error w i).
Definition alike_view (w w' : hier) : Prop := forall i, views w' i = views w i.

Definition gentle {A} (c : st hier A) : Prop := forall w, alike_view w (fst (c w)).
Definition mild (f : cls -> cls) : Prop := forall k, view (f k) = view k.

Lemma alike_trans a b c : alike_view a b -> alike_view b c -> alike_view a c.
Proof. intros H1 H2 i. now rewrite H2, H1. Qed.
Lemma gentle_bind {A B} (c : st hier A) (f : A -> st hier B) : gentle c -> (forall a, gentle (f a)) -> gentle (sbind c f).
Proof.
  intros C F w. unfold sbind. pose proof (C w) as H. destruct (c w) as [w1 [a|e]]; cbn [fst] in *; [|exact H].
  eapply alike_trans; [exact H|apply F].
Qed.
Lemma gentle_ret {A} (a : A) : gentle (ret a). Proof. intros w i. reflexivity. Qed.
Lemma gentle_raise {A} e : gentle (@raise hier A e). Proof. intros w i. reflexivity. Qed.
Lemma gentle_get i : gentle (get_cls i). Proof. intros w j. reflexivity. Qed.
Lemma gentle_mro i : gentle (mro_classes i). Proof. intros w j. reflexivity. Qed.
Lemma views_change w i f j : mild f -> views (change w i f) j = views w j.
Proof.
  intros M. unfold views. rewrite change_nth. destruct (Nat.eqb j i) eqn:E; [|reflexivity].
  destruct (nth_error w j); cbn; [now rewrite M|reflexivity].
Qed.
Lemma gentle_update i f : mild f -> gentle (update i f).
Proof. intros M w j. cbn [update modify fst]. now apply views_change. Qed.
Lemma gentle_try {A} (c : st hier A) h : gentle c -> (forall e, gentle (h e)) -> gentle (try_except c h).
Proof.
  intros C H w. unfold try_except. pose proof (C w) as X. destruct (c w) as [w1 [a|e]]; cbn [fst] in *; [exact X|].
  eapply alike_trans; [exact X|apply H].
Qed.

Ltac gentle := repeat match goal with
  | |- gentle (sbind _ _) => apply gentle_bind; [|intros ?]
  | |- gentle (ret _) => apply gentle_ret
  | |- gentle (raise _) => apply gentle_raise
  | |- gentle (get_cls _) => apply gentle_get
  | |- gentle (mro_classes _) => apply gentle_mro
  | |- gentle (update _ _) => apply gentle_update; intros ?; reflexivity
  | |- gentle (try_except _ _) => apply gentle_try; [|intros ?]
  | |- gentle (if ?b then _ else _) => destruct b
  | |- gentle (match ?b with _ => _ end) => destruct b
  end.
Lemma gentle_pure i : gentle (have_pure_virtual_methods i). Proof. unfold have_pure_virtual_methods. gentle. Qed.
Lemma gentle_forward ok i : gentle (generate_forward ok i).
Proof. unfold generate_forward. gentle; try apply gentle_pure. Qed.
Lemma gentle_construct i : gentle (get_construct_name i). Proof. unfold get_construct_name. gentle; apply gentle_pure. Qed.
Lemma gentle_constructor i v : gentle (generate_constructor i v).
Proof. unfold generate_constructor. gentle; try apply gentle_construct. Qed.

(** ** What each call adds *)
Definition methods_at (w : hier) (i : nat) : dict (list method) := match nth_error w i with Some k => k_methods k | None => [] end.
Definition nonpublic_at (w : hier) (i : nat) : list method := match nth_error w i with Some k => k_nonpublic k | None => [] end.

Definition adds_public (i : nat) (c : hcall) (r : res hanswer) : option method :=
  match c, r with
  | HMethod j d, Ok _ => if Nat.eqb j i && md_wrappable d && is_public (md_vis d) then Some (method_of d) else None
  | _, _ => None
  end.
Definition adds_nonpublic (i : nat) (c : hcall) (r : res hanswer) : list method :=
  match c, r with
  | HMethod j d, Ok _ => if Nat.eqb j i && md_wrappable d && negb (is_public (md_vis d)) && negb (protected_plain (method_of d)) then [method_of d] else []
  | _, _ => []
  end.

Lemma helped_view b dm m k : view (helped b dm m k) = view k.
Proof. unfold helped. destruct b; [|reflexivity]. destruct (_ && _); reflexivity. Qed.
Lemma public_plain m : is_public (mt_vis m) = true -> protected_plain m = false.
Proof. unfold protected_plain. destruct (mt_vis m); cbn; congruence. Qed.
Lemma added_view b d k : view (method_added b d k) =
  ((if md_wrappable d && is_public (md_vis d) then add_overload (k_methods k) (md_name d) (method_of d) else k_methods k),
   k_nonpublic k ++ (if md_wrappable d && negb (is_public (md_vis d)) && negb (protected_plain (method_of d)) then [method_of d] else []),
   k_bases k).
Proof.
  unfold method_added. destruct (md_wrappable d) eqn:Wd; cbn [andb].
  - unfold obj_added. destruct (protected_plain (method_of d)) eqn:Pp.
    + assert (V : mt_virtual (method_of d) = false). { unfold protected_plain in Pp. apply andb_prop in Pp. now apply negb_true_iff. }
      rewrite V. assert (Np : is_public (md_vis d) = false).
      { destruct (is_public (md_vis d)) eqn:Q; [|reflexivity]. rewrite (public_plain (method_of d) Q) in Pp. discriminate. }
      rewrite Np. cbn. rewrite app_nil_r. destruct b; reflexivity.
    + assert (A : view (adding (method_of d) k) =
        ((if is_public (md_vis d) then add_overload (k_methods k) (md_name d) (method_of d) else k_methods k),
         k_nonpublic k ++ (if negb (is_public (md_vis d)) && negb false then [method_of d] else []), k_bases k)).
      { unfold adding. fold (protected_plain (method_of d)). rewrite Pp. change (mt_vis (method_of d)) with (md_vis d).
        destruct (is_public (md_vis d)); cbn; [now rewrite app_nil_r|reflexivity]. }
      destruct (mt_virtual (method_of d)); [now rewrite helped_view|exact A].
  - cbn. rewrite app_nil_r. destruct (md_virtual d) as [[|]|]; [rewrite helped_view|..]; reflexivity.
Qed.

Section Script.
  Variables (dn ds : bool) (ok : method -> bool).
  Notation step := (run_hcall dn ds ok).
  Notation script := (hscript dn ds ok).

  Lemma alike_at w w' i : alike_view w w' -> methods_at w' i = methods_at w i /\ nonpublic_at w' i = nonpublic_at w i.
  Proof.
    intros A. specialize (A i). unfold views, methods_at, nonpublic_at in *.
    destruct (nth_error w' i) as [k'|], (nth_error w i) as [k|]; cbn in A; try discriminate; [|auto].
    injection A as H1 H2 _. auto.
  Qed.
  Lemma step_adds w (W : wf w) c i : (forall j n, c <> HFunction j n) ->
    methods_at (fst (step c w)) i =
      (match adds_public i c (snd (step c w)) with Some m => add_overload (methods_at w i) (mt_name m) m | None => methods_at w i end) /\
    nonpublic_at (fst (step c w)) i = nonpublic_at w i ++ adds_nonpublic i c (snd (step c w)).
  Proof.
    intros NF.
    assert (G : forall A (m : st hier A) f, gentle m -> step c = (a <~ m ;; ret (f a)) -> match c with HMethod _ _ => False | _ => True end ->
      methods_at (fst (step c w)) i =
      (match adds_public i c (snd (step c w)) with Some m => add_overload (methods_at w i) (mt_name m) m | None => methods_at w i end) /\
      nonpublic_at (fst (step c w)) i = nonpublic_at w i ++ adds_nonpublic i c (snd (step c w))).
    { intros A m f Gm E NM. assert (Gs : gentle (step c)) by (rewrite E; apply gentle_bind; [exact Gm|intros; apply gentle_ret]).
      destruct (alike_at w _ i (Gs w)) as [H1 H2].
      assert (N1 : adds_public i c (snd (step c w)) = None) by (destruct c; try reflexivity; destruct NM).
      assert (N2 : adds_nonpublic i c (snd (step c w)) = []) by (destruct c; try reflexivity; destruct NM).
      rewrite N1, N2, app_nil_r. auto. }
    assert (G' : gentle (step c) -> match c with HMethod _ _ => False | _ => True end ->
      methods_at (fst (step c w)) i =
      (match adds_public i c (snd (step c w)) with Some m => add_overload (methods_at w i) (mt_name m) m | None => methods_at w i end) /\
      nonpublic_at (fst (step c w)) i = nonpublic_at w i ++ adds_nonpublic i c (snd (step c w))).
    { intros Gs NM. destruct (alike_at w _ i (Gs w)) as [H1 H2].
      assert (N1 : adds_public i c (snd (step c w)) = None) by (destruct c; try reflexivity; destruct NM).
      assert (N2 : adds_nonpublic i c (snd (step c w)) = []) by (destruct c; try reflexivity; destruct NM).
      rewrite N1, N2, app_nil_r. auto. }
    clear G. destruct c as [d|j d|j n|j n|j n|j n|j b|j s|j|j|j v].
    - clear G'. cbn [adds_public adds_nonpublic]. rewrite app_nil_r. cbn [run_hcall].
      unfold new_class, sbind. destruct (cd_parents d) as [[|b l]|]; [cbn; auto| |].
      + destruct (forallb _ _); [|cbn; auto]. destruct (memory_policy _ _ _); [|cbn; auto]. destruct (subclassing _ _ _ _ _); [|cbn; auto].
        cbn [fst ret]. unfold methods_at, nonpublic_at. destruct (Nat.lt_ge_cases i (length w)) as [L|L].
        * now rewrite nth_error_app1.
        * rewrite nth_error_app2 by assumption. assert (X : nth_error w i = None) by now apply nth_error_None. rewrite X.
          destruct (i - length w) as [|p]; cbn; [auto|destruct p; auto].
      + destruct (forallb _ _); [|cbn; auto]. destruct (memory_policy _ _ _); [|cbn; auto]. destruct (subclassing _ _ _ _ _); [|cbn; auto].
        cbn [fst ret]. unfold methods_at, nonpublic_at. destruct (Nat.lt_ge_cases i (length w)) as [L|L].
        * now rewrite nth_error_app1.
        * rewrite nth_error_app2 by assumption. assert (X : nth_error w i = None) by now apply nth_error_None. rewrite X.
          destruct (i - length w) as [|p]; cbn; [auto|destruct p; auto].
    - clear G'. destruct (nth_error w j) as [k|] eqn:K.
      + cbn [run_hcall]. rewrite (sbind_ok _ _ _ _ _ (add_method_exact w W j k d K)). cbn [fst snd ret adds_public adds_nonpublic].
        unfold methods_at, nonpublic_at. rewrite change_nth. rewrite (Nat.eqb_sym j i). destruct (Nat.eqb i j) eqn:N; cbn [andb].
        * apply Nat.eqb_eq in N. subst j. rewrite K. cbn [option_map]. pose proof (added_view (allowed w i k) d k) as V.
          unfold view in V. injection V as V1 V2 _. rewrite V1, V2. destruct (md_wrappable d && is_public (md_vis d)); auto.
        * rewrite app_nil_r. auto.
      + destruct (Bool.bool_dec (md_wrappable d) true) as [Wd|Wd].
        * rewrite (method_step_err dn ds ok w j d (nth_invalid _ _ K) (or_introl Wd)). cbn [fst snd adds_public adds_nonpublic].
          rewrite app_nil_r. auto.
        * apply not_true_is_false in Wd. assert (E : fst (step (HMethod j d) w) = w).
          { destruct (md_virtual d) as [[|]|] eqn:Vd.
            - now rewrite (method_step_err dn ds ok w j d (nth_invalid _ _ K) (or_intror Vd)).
            - cbn [run_hcall]. unfold add_method. now rewrite Wd, Vd.
            - cbn [run_hcall]. unfold add_method. now rewrite Wd, Vd. }
          rewrite E. cbn [adds_public adds_nonpublic]. rewrite Wd, andb_false_r. cbn. destruct (snd _); rewrite app_nil_r; auto.
    - now elim (NF j n).
    - apply G'; [|exact Logic.I]. cbn [run_hcall]. gentle.
    - apply G'; [|exact Logic.I]. cbn [run_hcall]. gentle.
    - apply G'; [|exact Logic.I]. cbn [run_hcall]. gentle.
    - apply G'; [|exact Logic.I]. cbn [run_hcall]. gentle.
    - apply G'; [|exact Logic.I]. cbn [run_hcall]. gentle.
    - apply G'; [|exact Logic.I]. cbn [run_hcall]. gentle; apply gentle_pure.
    - apply G'; [|exact Logic.I]. cbn [run_hcall]. gentle; apply gentle_forward.
    - apply G'; [|exact Logic.I]. cbn [run_hcall]. gentle; apply gentle_constructor.
  Qed.

  (** ** Dicts of overloads *)
  Definition extend (o : option (list method)) (l : list method) : option (list method) :=
    match o with Some x => Some (x ++ l) | None => match l with [] => None | _ => Some l end end.
  Lemma extend_nil o : extend o [] = o. Proof. destruct o; cbn; [now rewrite app_nil_r|reflexivity]. Qed.
  Lemma extend_app o a b : extend (extend o a) b = extend o (a ++ b).
  Proof. destruct o; cbn; [now rewrite app_assoc|]. destruct a; [reflexivity|]. reflexivity. Qed.
  Lemma overload_get d n m n' : dict_get (add_overload d n m) n' = if String.eqb n' n then extend (dict_get d n') [m] else dict_get d n'.
  Proof.
    induction d as [|[k l] d IH]; cbn [add_overload dict_get].
    - destruct (String.eqb n' n); reflexivity.
    - destruct (String.eqb k n) eqn:E; cbn [dict_get].
      + apply String.eqb_eq in E. subst k. destruct (String.eqb n' n); reflexivity.
      + destruct (String.eqb n' k) eqn:F.
        * apply String.eqb_eq in F. subst k. now rewrite E.
        * exact IH.
  Qed.
  Lemma overload_keys d n m : forall x, In x (map fst (add_overload d n m)) <-> In x (map fst d) \/ x = n.
  Proof.
    intros x. induction d as [|[k l] d IH]; cbn.
    - intuition auto.
    - destruct (String.eqb k n) eqn:E; cbn; [apply String.eqb_eq in E; subst; intuition auto|rewrite IH; tauto].
  Qed.
  Lemma overload_nodup d n m : NoDup (map fst d) -> NoDup (map fst (add_overload d n m)).
  Proof.
    induction d as [|[k l] d IH]; cbn; intros N.
    - constructor; [intros []|constructor].
    - inversion N as [|? ? N1 N2]; subst. destruct (String.eqb k n) eqn:E; cbn; [assumption|].
      constructor; [|auto]. rewrite overload_keys. apply String.eqb_neq in E. intros [H| ->]; [auto|congruence].
  Qed.

  Lemma script_adds cs : (forall j n, ~ In (HFunction j n) cs) -> forall w, wf w -> forall i,
    (forall n, dict_get (methods_at (fst (script cs w)) i) n = extend (dict_get (methods_at w i) n) (public_methods (snd (script cs w)) i n)) /\
    (NoDup (map fst (methods_at w i)) -> NoDup (map fst (methods_at (fst (script cs w)) i))) /\
    nonpublic_at (fst (script cs w)) i = nonpublic_at w i ++ flat_map (fun x => adds_nonpublic i (fst x) (snd x)) (snd (script cs w)).
  Proof.
    induction cs as [|c cs IH]; intros NF w W i; cbn [hscript fst snd].
    - cbn. split; [intros n; now rewrite extend_nil|]. split; [auto|now rewrite app_nil_r].
    - assert (W' : wf (fst (step c w))) by (eapply effect_wf; [exact W|now apply step_effect]).
      destruct (IH (fun j n H => NF j n (or_intror H)) _ W' i) as (H1 & H2 & H3).
      assert (NF' : forall j n, c <> HFunction j n) by (intros j n ->; apply (NF j n); now left).
      destruct (step_adds w W c i NF') as [A1 A2]. split; [|split].
      + intros n. rewrite H1, A1. cbn [public_methods]. destruct c as [d|j d|j n0|j n0|j n0|j n0|j b|j s|j|j|j v]; try reflexivity.
        cbn [adds_public]. destruct (snd (step (HMethod j d) w)) as [a|e]; [|reflexivity].
        destruct (Nat.eqb j i); cbn [andb]; [|reflexivity]. destruct (md_wrappable d); cbn [andb].
        * destruct (is_public (md_vis d)); cbn [andb]; [|now rewrite andb_false_r].
          rewrite overload_get. change (mt_name (method_of d)) with (md_name d). rewrite (String.eqb_sym n).
          destruct (String.eqb (md_name d) n); cbn; [|reflexivity]. now rewrite extend_app.
        * now rewrite andb_false_r.
      + intros N. apply H2. rewrite A1. destruct (adds_public _ _ _); [now apply overload_nodup|assumption].
      + cbn [flat_map fst snd]. rewrite H3, A2, app_assoc. reflexivity.
  Qed.

  (** ** The declared methods *)
  Lemma held cs i n : (forall j m, ~ In (HFunction j m) cs) ->
    dict_get (methods_at (fst (script cs [])) i) n = match public_methods (snd (script cs [])) i n with [] => None | l => Some l end.
  Proof. intros NF. destruct (script_adds cs NF [] wf_nil i) as [H _]. rewrite H. destruct i; cbn; (destruct (public_methods _ _ _); reflexivity). Qed.
  Lemma held_nodup cs i : (forall j m, ~ In (HFunction j m) cs) -> NoDup (map fst (methods_at (fst (script cs [])) i)).
  Proof. intros NF. destruct (script_adds cs NF [] wf_nil i) as (_ & H & _). apply H. destruct i; constructor. Qed.
  Lemma held_nonpublic cs i p : (forall j m, ~ In (HFunction j m) cs) ->
    In p (nonpublic_at (fst (script cs [])) i) <-> declares_wrapped (snd (script cs [])) i p /\ mt_vis p <> Public.
  Proof.
    intros NF. destruct (script_adds cs NF [] wf_nil i) as (_ & _ & H). rewrite H. replace (nonpublic_at [] i) with (@nil method) by (destruct i; reflexivity).
    cbn [app]. rewrite in_flat_map. split.
    - intros ([c r] & Hc & Hp). cbn [fst snd] in Hp. destruct c as [d|j d|j n0|j n0|j n0|j n0|j b|j s|j|j|j v]; try destruct Hp.
      cbn [adds_nonpublic] in Hp. destruct r as [a|e]; [|destruct Hp].
      destruct (Nat.eqb j i && md_wrappable d && negb (is_public (md_vis d)) && negb (protected_plain (method_of d))) eqn:E; [|destruct Hp].
      destruct Hp as [<-|[]]. apply andb_prop in E as [E E4]. apply andb_prop in E as [E E3]. apply andb_prop in E as [E1 E2].
      apply Nat.eqb_eq in E1. subst j. split.
      + exists d, a. split; [assumption|]. split; [|auto]. unfold recorded. rewrite E2. intros [P V]. unfold protected_plain in E4.
        change (mt_vis (method_of d)) with (md_vis d) in E4. rewrite P, V in E4. discriminate.
      + change (mt_vis (method_of d)) with (md_vis d). intros E. rewrite E in E3. discriminate.
    - intros [(d & a & Hc & R & Wd & ->) V]. exists (HMethod i d, Ok a). split; [assumption|]. cbn [fst snd adds_nonpublic].
      rewrite Nat.eqb_refl, Wd. unfold recorded in R. rewrite Wd in R. change (mt_vis (method_of d)) with (md_vis d) in V.
      assert (P : is_public (md_vis d) = false) by (destruct (md_vis d); [congruence|reflexivity|reflexivity]). rewrite P.
      assert (Q : protected_plain (method_of d) = false).
      { unfold protected_plain. change (mt_vis (method_of d)) with (md_vis d). destruct (md_vis d) eqn:X; cbn [is_protected andb]; try reflexivity.
        destruct (mt_virtual (method_of d)) eqn:Y; [reflexivity|]. elim R. auto. }
      rewrite Q. now left.
  Qed.
End Script.

Lemma public_facts answers i n m : In m (public_methods answers i n) -> mt_name m = n /\ mt_vis m = Public /\ mt_function m = false.
Proof.
  induction answers as [|[c r] l IH]; cbn; [intros []|]. destruct c as [d|j d|j n0|j n0|j n0|j n0|j b|j s|j|j|j v]; auto.
  destruct r as [a|e]; auto. destruct (Nat.eqb j i && String.eqb (md_name d) n && md_wrappable d && is_public (md_vis d)) eqn:E; auto.
  intros [<-|H]; [|auto]. apply andb_prop in E as [E E4]. apply andb_prop in E as [E E3]. apply andb_prop in E as [E1 E2].
  apply String.eqb_eq in E2. cbn. split; [assumption|]. split; [|reflexivity]. destruct (md_vis d); [reflexivity|discriminate|discriminate].
Qed.
