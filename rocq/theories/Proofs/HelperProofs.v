(** Helper classes: which virtual methods they override, and what constructors create. *)
From Verif.Model Require Import Py PyState Hierarchy.
From Verif.Spec Require Import HierarchySpec.
From Verif.Proofs Require Import HierarchyProofs PureProofs PureScript AbstractProofs.
From Coq Require Import Lia.
Open Scope list_scope.
Open Scope st_scope.

Definition enabled (w : hier) (i : nat) : bool :=
  match get_mro w i with Ok l => negb (existsb k_disabled (classes w l)) | Err _ => false end.
Definition is_some {A} (o : option A) : bool := match o with Some _ => true | None => false end.
Definition allowed (w : hier) (i : nat) (k : cls) : bool :=
  enabled w i && k_subclassing k && (negb (k_singleton k) || is_some (k_helper k)).
Definition helper_of (k : cls) : helper := match k_helper k with Some h => h | None => mk_helper [] false end.

Lemma classes_in w l k : In k (classes w l) <-> exists c, In c l /\ nth_error w c = Some k.
Proof.
  unfold classes. rewrite in_flat_map. split.
  - intros (c & Hc & H). exists c. split; [assumption|]. destruct (nth_error w c); cbn in H; [destruct H as [->|[]]; reflexivity|destruct H].
  - intros (c & Hc & E). exists c. split; [assumption|]. rewrite E. now left.
Qed.
Lemma enabled_spec w (W : wf w) i : enabled w i = true <->
  forall c k, ancestor (bases w) i c -> nth_error w c = Some k -> k_disabled k = false.
Proof.
  unfold enabled. destruct (mro_ok w W i) as (l & G). rewrite G, negb_true_iff. split.
  - intros H c k A K. destruct (k_disabled k) eqn:D; [|reflexivity].
    assert (existsb k_disabled (classes w l) = true); [|congruence]. apply existsb_exists. exists k. split; [|assumption].
    apply classes_in. exists c. split; [|assumption]. now apply (mro_ancestor w W i l c G).
  - intros H. destruct (existsb _ _) eqn:X; [|reflexivity]. apply existsb_exists in X. destruct X as (k & I & D).
    apply classes_in in I. destruct I as (c & Hc & K). apply (mro_ancestor w W i l c G) in Hc. rewrite (H c k Hc K) in D. discriminate.
Qed.

Lemma with_helper_same k b : k_helper k = b -> with_helper b k = k.
Proof. destruct k. cbn. intros <-. reflexivity. Qed.
Lemma change_id w i f : (forall k, nth_error w i = Some k -> f k = k) -> change w i f = w.
Proof. revert i. induction w; intros [|i]; cbn; intros H; f_equal; auto. Qed.

Lemma get_helper_exact w (W : wf w) i k : nth_error w i = Some k ->
  get_helper_class i w = (if allowed w i k then change w i (with_helper (Some (helper_of k))) else w,
                          Ok (if allowed w i k then Some (helper_of k) else None)).
Proof.
  intros K. unfold get_helper_class, mro_classes, sbind, get_cls, allowed, enabled.
  destruct (mro_ok w W i) as (l & ->). rewrite K. destruct (existsb k_disabled _); [reflexivity|]. cbn [negb andb].
  destruct (k_subclassing k); [|reflexivity]. cbn [negb andb]. unfold helper_of.
  destruct (k_helper k) as [h|] eqn:H; cbn [is_some].
  - rewrite orb_true_r. unfold ret. f_equal. symmetry. apply change_id. intros k' K'. apply with_helper_same. congruence.
  - rewrite orb_false_r. destruct (k_singleton k); reflexivity.
Qed.

Definition helped (b dummy : bool) (m : method) (k : cls) : cls :=
  if b then
    let h := add_virtual_method dummy m (helper_of k) in
    if dummy && hp_cannot h then with_disabled true (with_helper None (with_pure None k)) else with_helper (Some h) (with_pure None k)
  else with_pure None k.

Lemma enabled_change w (W : wf w) i j f : (forall k, k_bases (f k) = k_bases k) -> (forall k, k_disabled (f k) = k_disabled k) ->
  enabled (change w j f) i = enabled w i.
Proof.
  intros B D. pose proof (wf_change w j f B W) as W'.
  assert (E : forall n, bases (change w j f) n = bases w n).
  { intros n. unfold bases. rewrite change_nth. destruct (Nat.eqb n j); [|reflexivity]. destruct (nth_error w n); cbn; auto. }
  assert (An : forall c, ancestor (bases (change w j f)) i c <-> ancestor (bases w) i c).
  { intros c. split; intros A; induction A as [|i b c H A IH]; try constructor; eapply ancestor_up; eauto; [now rewrite <- E|now rewrite E]. }
  apply eq_true_iff_eq. rewrite !enabled_spec by assumption. split.
  - intros H c k A K. rewrite <- (An c) in A. specialize (H c). rewrite change_nth, K in H. destruct (Nat.eqb c j); cbn in H.
    + rewrite <- D. now apply (H (f k)).
    + now apply H.
  - intros H c k A K. apply (An c) in A. rewrite change_nth in K. destruct (Nat.eqb c j).
    + destruct (nth_error w c) as [k0|] eqn:K0; cbn in K; [|discriminate]. injection K as <-. rewrite D. now apply (H c).
    + now apply (H c).
Qed.

Lemma add_to_helper_exact w (W : wf w) i k dummy m : nth_error w i = Some k ->
  add_to_helper i dummy m w = (change w i (helped (allowed w i k) dummy m), Ok tt).
Proof.
  intros K. unfold add_to_helper, sbind at 1, update, modify.
  set (w0 := change w i (with_pure None)).
  assert (W0 : wf w0) by (apply wf_change; [reflexivity|assumption]).
  assert (K0 : nth_error w0 i = Some (with_pure None k)) by (unfold w0; now rewrite change_nth, Nat.eqb_refl, K).
  assert (A0 : allowed w0 i (with_pure None k) = allowed w i k).
  { unfold allowed, w0. rewrite enabled_change by (assumption || reflexivity). reflexivity. }
  rewrite (sbind_ok _ _ _ _ _ (get_helper_exact w0 W0 i _ K0)). rewrite A0.
  assert (H0 : helper_of (with_pure None k) = helper_of k) by reflexivity. rewrite H0.
  unfold helped. destruct (allowed w i k); [|reflexivity].
  unfold sbind, ret, w0. destruct (dummy && hp_cannot _) eqn:X; rewrite !change_compose; f_equal; apply change_ext; intros k' K';
    replace k' with k by congruence; rewrite X; destruct k; reflexivity.
Qed.

Lemma enabled_adding w (W : wf w) i j m : enabled (change w j (adding m)) i = enabled w i.
Proof.
  apply enabled_change; [assumption| |]; intros k; unfold adding; destruct (_ && _); try destruct (is_public _); reflexivity.
Qed.
Lemma allowed_adding w (W : wf w) i m k : allowed (change w i (adding m)) i (adding m k) = allowed w i k.
Proof.
  unfold allowed. rewrite enabled_adding by assumption. unfold adding. destruct (is_protected _ && _); try destruct (is_public _); reflexivity.
Qed.
Lemma wf_adding w i m : wf w -> wf (change w i (adding m)).
Proof. apply wf_change. intros k. unfold adding. destruct (_ && _); try destruct (is_public _); reflexivity. Qed.

Definition protected_plain (m : method) : bool := is_protected (mt_vis m) && negb (mt_virtual m).
Definition obj_added (b : bool) (m : method) (k : cls) : cls :=
  if mt_virtual m then helped b false m (adding m k)
  else if protected_plain m then (if b then with_helper (Some (helper_of k)) k else k) else adding m k.

Lemma add_method_obj_exact w (W : wf w) i k m : nth_error w i = Some k ->
  add_method_obj i m w = (change w i (obj_added (allowed w i k) m), Ok tt).
Proof.
  intros K. unfold add_method_obj. rewrite (sbind_ok _ _ _ _ _ (get_cls_ok _ _ _ K)). unfold obj_added. fold (protected_plain m).
  destruct (mt_virtual m) eqn:V.
  - assert (P : protected_plain m = false) by (unfold protected_plain; rewrite V; apply andb_false_r). rewrite P.
    assert (F : (if is_public (mt_vis m) then update i (with_methods (add_overload (k_methods k) (mt_name m) m))
                 else update i (with_nonpublic (k_nonpublic k ++ [m]))) w = (change w i (adding m), Ok tt)).
    { unfold adding. fold (protected_plain m). rewrite P. destruct (is_public _); unfold update, modify; f_equal; apply change_ext; intros k' K';
        now replace k' with k by congruence. }
    rewrite (sbind_ok _ _ _ _ _ F).
    assert (K1 : nth_error (change w i (adding m)) i = Some (adding m k)) by now rewrite change_nth, Nat.eqb_refl, K.
    rewrite (add_to_helper_exact _ (wf_adding w i m W) i _ false m K1), allowed_adding by assumption. now rewrite change_compose.
  - destruct (protected_plain m) eqn:P.
    + unfold sbind. rewrite (get_helper_exact w W i k K). unfold ret. destruct (allowed w i k).
      * f_equal. apply change_ext. intros k' K'. now replace k' with k by congruence.
      * f_equal. symmetry. now apply change_id.
    + assert (F : (if is_public (mt_vis m) then update i (with_methods (add_overload (k_methods k) (mt_name m) m))
                 else update i (with_nonpublic (k_nonpublic k ++ [m]))) w = (change w i (adding m), Ok tt)).
      { unfold adding. fold (protected_plain m). rewrite P. destruct (is_public _); unfold update, modify; f_equal; apply change_ext; intros k' K';
          now replace k' with k by congruence. }
      rewrite (sbind_ok _ _ _ _ _ F). reflexivity.
Qed.

Definition method_added (b : bool) (d : mdecl) (k : cls) : cls :=
  if md_wrappable d then obj_added b (method_of d) k
  else match md_virtual d with
       | Some true => helped b true (method_of d) (with_dummy (k_dummy k ++ [method_of d]) k)
       | _ => k
       end.
Lemma add_method_exact w (W : wf w) i k d : nth_error w i = Some k ->
  add_method i d w = (change w i (method_added (allowed w i k) d), Ok (md_wrappable d)).
Proof.
  intros K. unfold add_method, method_added. destruct (md_wrappable d).
  - rewrite (sbind_ok _ _ _ _ _ (add_method_obj_exact w W i k (method_of d) K)). reflexivity.
  - destruct (md_virtual d) as [[|]|].
    + assert (E : (k <~ get_cls i ;; update i (with_dummy (k_dummy k ++ [method_of d])) ;~ add_to_helper i true (method_of d)) w =
                  (change w i (fun k0 => helped (allowed w i k) true (method_of d) (with_dummy (k_dummy k0 ++ [method_of d]) k0)), Ok tt)).
      { rewrite (sbind_ok _ _ _ _ _ (get_cls_ok _ _ _ K)). unfold sbind, update, modify.
        set (w1 := change w i (with_dummy (k_dummy k ++ [method_of d]))).
        assert (W1 : wf w1) by (apply wf_change; [reflexivity|assumption]).
        assert (K1 : nth_error w1 i = Some (with_dummy (k_dummy k ++ [method_of d]) k)) by (unfold w1; now rewrite change_nth, Nat.eqb_refl, K).
        rewrite (add_to_helper_exact w1 W1 i _ true (method_of d) K1). f_equal.
        assert (A : allowed w1 i (with_dummy (k_dummy k ++ [method_of d]) k) = allowed w i k).
        { unfold allowed, w1. rewrite enabled_change by (assumption || reflexivity). reflexivity. }
        rewrite A. unfold w1. rewrite change_compose. apply change_ext. intros k' K'. now replace k' with k by congruence. }
      rewrite (sbind_ok _ _ _ _ _ E). reflexivity.
    + cbn. unfold ret. f_equal. symmetry. now apply change_id.
    + cbn. unfold ret. f_equal. symmetry. now apply change_id.
Qed.

Lemma classes_tl w i l : get_mro w i = Ok l -> forall k, nth_error w i = Some k -> classes w l = k :: classes w (tl l).
Proof. intros G k K. apply mro_head in G as (r & ->). cbn [tl]. unfold classes at 1. cbn [flat_map]. now rewrite K. Qed.

Section Forward.
  Variable ok : method -> bool.
  Lemma forward_exact w (W : wf w) i k l : nth_error w i = Some k -> get_mro w i = Ok l ->
    exists f a hooks, generate_forward ok i w = (change w i f, Ok (a, hooks)) /\ (forall k0, k_bases (f k0) = k_bases k0 /\ get_all_methods (f k0) = get_all_methods k0 /\ k_dummy (f k0) = k_dummy k0 /\ k_subclassing (f k0) = k_subclassing k0 /\ k_singleton (f k0) = k_singleton k0 /\ (k_disabled k0 = true -> k_disabled (f k0) = true)) /\ match a with
      | Some ps => exists h, k_helper k = Some h /\ helper_proxies ok (inherit_virtuals h (classes w (tl l))) = Some ps /\ k_helper (f k) = Some (inherit_virtuals h (classes w (tl l)))
      | None => k_helper (f k) = None
      end.
  Proof.
    intros K G. unfold generate_forward. rewrite (sbind_ok _ _ _ _ _ (get_cls_ok _ _ _ K)).
    match goal with |- context [sbind ?m _ w] => assert (First : exists f a hooks, m w = (change w i f, Ok (a, hooks)) /\
      (forall k0, k_bases (f k0) = k_bases k0 /\ get_all_methods (f k0) = get_all_methods k0 /\ k_dummy (f k0) = k_dummy k0 /\
                  k_subclassing (f k0) = k_subclassing k0 /\ k_singleton (f k0) = k_singleton k0 /\
                  (k_disabled k0 = true -> k_disabled (f k0) = true)) /\
      match a with
      | Some ps => exists h, k_helper k = Some h /\ helper_proxies ok (inherit_virtuals h (classes w (tl l))) = Some ps /\
                     k_helper (f k) = Some (inherit_virtuals h (classes w (tl l)))
      | None => k_helper (f k) = None
      end) end.
    { destruct (k_helper k) as [h|] eqn:Hk.
      - unfold mro_classes, sbind. rewrite G, (classes_tl w i l G k K). cbn [tl].
        destruct (helper_proxies ok (inherit_virtuals h (classes w (tl l)))) as [ps|] eqn:P;
          [destruct (hp_cannot (inherit_virtuals h (classes w (tl l))))|].
        + unfold update, modify, ret. rewrite change_compose. eexists _, _, _. split; [reflexivity|]. split; [|reflexivity].
          intros k0. repeat split; reflexivity.
        + unfold update, modify, ret. eexists _, _, _. split; [reflexivity|]. split; [intros k0; repeat split; auto|].
          exists h. auto.
        + unfold update, modify, ret. rewrite change_compose. eexists _, _, _. split; [reflexivity|]. split; [|reflexivity].
          intros k0. repeat split; reflexivity.
      - exists (fun k => k), None, []. split; [unfold ret; f_equal; symmetry; now apply change_id|]. split; [|assumption].
        intros k0. repeat split; auto. }
    destruct First as (f & a & hooks & E & Fk & Fa). rewrite (sbind_ok _ _ _ _ _ E).
    set (w1 := change w i f).
    assert (W1 : wf w1) by (apply wf_change; [intros k0; apply Fk|assumption]).
    assert (V1 : valid w1 i = true) by (unfold valid, w1; rewrite change_length; apply (nth_valid w i k K)).
    rewrite (sbind_ok _ _ _ _ _ (have_pure_ok w1 W1 i V1)).
    set (g := with_pure (Some (answer w1 i))).
    assert (K2 : nth_error (change w1 i g) i = Some (g (f k))) by (unfold w1; now rewrite !change_nth, Nat.eqb_refl, K).
    rewrite (sbind_ok _ _ _ _ _ (get_cls_ok _ _ _ K2)).
    destruct (_ && _).
    - unfold sbind, update, modify, ret, w1. rewrite !change_compose. eexists _, a, hooks. split; [reflexivity|].
      split; [|destruct a as [ps|]; exact Fa]. intros k0. destruct (Fk k0) as (F1 & F2 & F3 & F4 & F5 & F6).
      repeat split; assumption.
    - unfold sbind, update, modify, ret, w1. rewrite !change_compose. eexists _, a, hooks. split; [reflexivity|].
      split; [|destruct a as [ps|]; exact Fa]. intros k0. destruct (Fk k0) as (F1 & F2 & F3 & F4 & F5 & F6).
      repeat split; assumption.
  Qed.
End Forward.

(** ** One call, exactly *)
Definition target (c : hcall) : option nat :=
  match c with
  | HClass _ => None
  | HMethod i _ | HFunction i _ | HHook i _ | HCreation i _ | HPost i _ | HDisable i _ | HCannot i _ | HPure i | HForward i
  | HConstructor i _ => Some i
  end.
(** Nothing about helper classes changes. *)
Definition quiet (f : cls -> cls) : Prop := forall k,
  k_helper (f k) = k_helper k /\ get_all_methods (f k) = get_all_methods k /\ k_dummy (f k) = k_dummy k /\
  k_disabled (f k) = k_disabled k /\ k_subclassing (f k) = k_subclassing k /\
  k_singleton (f k) = k_singleton k /\ k_bases (f k) = k_bases k.

Section Steps.
  Variables (dn ds : bool) (ok : method -> bool).
  Notation step := (run_hcall dn ds ok).
  Notation script := (hscript dn ds ok).

  Inductive exactly (w : hier) : hcall -> hier -> Prop :=
  | ex_same c : exactly w c w
  | ex_class d k : k_helper k = None -> get_all_methods k = [] -> k_dummy k = [] -> exactly w (HClass d) (w ++ [k])
  | ex_method i d k : nth_error w i = Some k -> exactly w (HMethod i d) (change w i (method_added (allowed w i k) d))
  | ex_function i n k : nth_error w i = Some k ->
      exactly w (HFunction i n) (change w i (adding (mk_method n [] false false false Public true)))
  | ex_forward i f k : nth_error w i = Some k ->
      (forall k0, k_bases (f k0) = k_bases k0 /\ get_all_methods (f k0) = get_all_methods k0 /\ k_dummy (f k0) = k_dummy k0 /\
                  k_subclassing (f k0) = k_subclassing k0 /\ k_singleton (f k0) = k_singleton k0 /\
                  (k_disabled k0 = true -> k_disabled (f k0) = true)) -> exactly w (HForward i) (change w i f)
  | ex_disable i b : exactly w (HDisable i b) (change w i (with_disabled b))
  | ex_quiet c i f : target c = Some i -> quiet f -> exactly w c (change w i f).

  Lemma quiet_pure b : quiet (with_pure b). Proof. intros k. repeat split; reflexivity. Qed.

  Lemma simple_exactly w i (f : cls -> cls) c : target c = Some i -> quiet f ->
    exactly w c (fst ((_ <~ get_cls i ;; update i f ;~ ret RNothing) w)).
  Proof.
    intros T Qf. destruct (nth_error w i) as [k|] eqn:K.
    - rewrite (sbind_ok _ _ _ _ _ (get_cls_ok _ _ _ K)). now apply ex_quiet with (i := i).
    - rewrite (sbind_err _ _ _ _ _ (get_cls_err _ _ K)). apply ex_same.
  Qed.
  Lemma construct_name_exact w (W : wf w) i k : nth_error w i = Some k ->
    exists f r, get_construct_name i w = (change w i f, r) /\ quiet f /\ (forall k, k_cannot (f k) = k_cannot k) /\
      (r = Ok tt \/ r = Err CodeGenerationError) /\ (r = Ok tt -> answer w i = false) /\
      (answer w i = false -> k_cannot k = "" -> r = Ok tt).
  Proof.
    intros K. unfold get_construct_name. rewrite (sbind_ok _ _ _ _ _ (get_cls_ok _ _ _ K)).
    destruct (nonempty (k_cannot k)) eqn:N.
    - exists (fun k => k), (Err CodeGenerationError). unfold raise. rewrite change_id by auto. split; [reflexivity|].
      split; [intros k0; repeat split; reflexivity|]. split; [reflexivity|]. split; [auto|]. split; [discriminate|].
      intros _ C. rewrite C in N. discriminate.
    - rewrite (sbind_ok _ _ _ _ _ (have_pure_ok w W i (nth_valid _ _ _ K))).
      exists (with_pure (Some (answer w i))). destruct (answer w i) eqn:A; (eexists; split; [reflexivity|]);
        (split; [apply quiet_pure|]); (split; [reflexivity|]); (split; [auto|]); split; auto; discriminate.
  Qed.
  Lemma constructor_exact w (W : wf w) i k v : nth_error w i = Some k ->
    exists f r, generate_constructor i v w = (change w i f, r) /\ quiet f /\
      (forall c, r = Ok c -> (cc_subclass c = MHelper <-> k_helper k <> None) /\
         (cc_exact c = MClass \/ cc_subclass c = MClass -> answer w i = false) /\
         (v = Public -> answer w i = false -> k_cannot k = "" -> cc_exact c = MClass)).
  Proof.
    intros K. unfold generate_constructor. rewrite (sbind_ok _ _ _ _ _ (get_cls_ok _ _ _ K)).
    destruct (construct_name_exact w W i k K) as (f & r & E & Qf & _ & R & A1 & A2).
    assert (Skip : exists f r, (w, @Err ctor_code SkipWrapper) = (change w i f, r) /\ quiet f /\
      (forall c, r = Ok c -> (cc_subclass c = MHelper <-> k_helper k <> None) /\
         (cc_exact c = MClass \/ cc_subclass c = MClass -> answer w i = false) /\
         (v = Public -> answer w i = false -> k_cannot k = "" -> cc_exact c = MClass))).
    { exists (fun k => k), (Err SkipWrapper). rewrite change_id by auto. split; [reflexivity|].
      split; [intros k0; repeat split; reflexivity|]. discriminate. }
    destruct v; destruct (k_helper k) as [h|] eqn:Hk; try exact Skip; cbn [is_public].
    - exists f. unfold try_except, sbind. rewrite E. destruct R as [-> | ->]; unfold ret.
      + eexists. split; [reflexivity|]. split; [assumption|]. intros c [= <-]. cbn. repeat split; auto; discriminate.
      + destruct (exc_eq_dec CodeGenerationError CodeGenerationError); [|congruence]. eexists. split; [reflexivity|].
        split; [assumption|]. intros c [= <-]. cbn. repeat split; auto; try discriminate.
        * intros [H|H]; discriminate.
        * intros _ H1 H2. specialize (A2 H1 H2). discriminate.
    - exists f. unfold sbind. rewrite E. destruct R as [-> | ->]; unfold ret.
      + eexists. split; [reflexivity|]. split; [assumption|]. intros c [= <-]. cbn. repeat split; auto; try congruence.
      + eexists. split; [reflexivity|]. split; [assumption|]. discriminate.
    - exists (fun k => k). rewrite change_id by auto. eexists. split; [reflexivity|].
      split; [intros k0; repeat split; reflexivity|]. intros c [= <-]. cbn. repeat split; auto; try discriminate.
      intros [H|H]; discriminate.
  Qed.

  Lemma step_exactly w (W : wf w) c : exactly w c (fst (step c w)).
  Proof.
    destruct c as [d|i d|i n|i n|i n|i n|i b|i s|i|i|i v]; cbn [run_hcall].
    - unfold new_class, sbind.
      assert (Main : forall l, exactly w (HClass d) (fst (match (if forallb (fun b => Nat.ltb b (length w)) l then
          match memory_policy w l (cd_policy d) with
          | Err e => (w, Err e)
          | Ok p =>
              match subclassing ds w l (cd_subclassing d) (cd_destructor d) with
              | Err e => (w, Err e)
              | Ok sub => (w ++ [mk_cls l p (narrowing dn w l (cd_narrowing d)) sub (cd_singleton d) [] [] []
                                   None None false "" [] None None], Ok (length w))
              end
          end
          else (w, Err Unmodelled)) with (s, Ok a) => ret (RClass a) s | (s, Err e) => (s, Err e) end))).
      { intros l. destruct (forallb _ _); [|apply ex_same]. destruct (memory_policy _ _ _); [|apply ex_same].
        destruct (subclassing _ _ _ _ _); [|apply ex_same]. now apply ex_class. }
      destruct (cd_parents d) as [[|b l]|]; [apply ex_same|apply (Main (b :: l))|apply (Main [])].
    - destruct (nth_error w i) as [k|] eqn:K.
      + rewrite (sbind_ok _ _ _ _ _ (add_method_exact w W i k d K)). now apply ex_method.
      + destruct (Bool.bool_dec (md_wrappable d) true) as [Wd|Wd]; [|destruct (md_virtual d) as [[|]|] eqn:Vd].
        * pose proof (method_step_err dn ds ok w i d (nth_invalid _ _ K) (or_introl Wd)) as E. cbn [run_hcall] in E. rewrite E. apply ex_same.
        * pose proof (method_step_err dn ds ok w i d (nth_invalid _ _ K) (or_intror Vd)) as E. cbn [run_hcall] in E. rewrite E. apply ex_same.
        * unfold add_method. apply not_true_is_false in Wd. rewrite Wd, Vd. apply ex_same.
        * unfold add_method. apply not_true_is_false in Wd. rewrite Wd, Vd. apply ex_same.
    - unfold add_function_as_method. destruct (nth_error w i) as [k|] eqn:K.
      + rewrite (sbind_ok _ _ _ _ _ (add_method_obj_exact w W i k _ K)). cbn [fst ret]. now apply ex_function with (k := k).
      + unfold add_method_obj, sbind at 1 2. rewrite (get_cls_err _ _ K). apply ex_same.
    - destruct (nth_error w i) as [k|] eqn:K.
      + rewrite (sbind_ok _ _ _ _ _ (get_cls_ok _ _ _ K)). apply ex_quiet with (i := i); [reflexivity|]. intros k0. repeat split; reflexivity.
      + rewrite (sbind_err _ _ _ _ _ (get_cls_err _ _ K)). apply ex_same.
    - apply simple_exactly; [reflexivity|]. intros k0. repeat split; reflexivity.
    - apply simple_exactly; [reflexivity|]. intros k0. repeat split; reflexivity.
    - destruct (nth_error w i) as [k|] eqn:K.
      + rewrite (sbind_ok _ _ _ _ _ (get_cls_ok _ _ _ K)). apply ex_disable.
      + rewrite (sbind_err _ _ _ _ _ (get_cls_err _ _ K)). apply ex_same.
    - apply simple_exactly; [reflexivity|]. intros k0. repeat split; reflexivity.
    - destruct (nth_error w i) as [k|] eqn:K.
      + rewrite (sbind_ok _ _ _ _ _ (have_pure_ok w W i (nth_valid _ _ _ K))). apply ex_quiet with (i := i); [reflexivity|]. apply quiet_pure.
      + unfold have_pure_virtual_methods, sbind at 1 2. rewrite (get_cls_err _ _ K). apply ex_same.
    - destruct (nth_error w i) as [k|] eqn:K.
      + destruct (mro_ok w W i) as (l & G). destruct (forward_exact ok w W i k l K G) as (f & a & hooks & E & Fk & _).
        rewrite (sbind_ok _ _ _ _ _ E). now apply ex_forward with (k := k).
      + unfold generate_forward, sbind at 1 2. rewrite (get_cls_err _ _ K). apply ex_same.
    - destruct (nth_error w i) as [k|] eqn:K.
      + destruct (constructor_exact w W i k v K) as (f & r & E & Qf & _). unfold sbind. rewrite E.
        destruct r; cbn [fst ret]; apply ex_quiet with (i := i); auto.
      + unfold generate_constructor, sbind at 1 2. rewrite (get_cls_err _ _ K). apply ex_same.
  Qed.
End Steps.

(** ** What helper classes contain *)
Lemma enabled_back w (W : wf w) i j f : (forall k, k_bases (f k) = k_bases k) -> (forall k, k_disabled k = true -> k_disabled (f k) = true) ->
  enabled (change w j f) i = true -> enabled w i = true.
Proof.
  intros B D. pose proof (wf_change w j f B W) as W'.
  assert (E : forall n, bases (change w j f) n = bases w n).
  { intros n. unfold bases. rewrite change_nth. destruct (Nat.eqb n j); [|reflexivity]. destruct (nth_error w n); cbn; auto. }
  assert (An : forall c, ancestor (bases w) i c -> ancestor (bases (change w j f)) i c).
  { intros c A; induction A as [|i b c H A IH]; try constructor; eapply ancestor_up; eauto. now rewrite E. }
  rewrite !enabled_spec by assumption. intros H c k A K. apply An in A. specialize (H c). rewrite change_nth, K in H.
  destruct (Nat.eqb c j); cbn in H.
  - destruct (k_disabled k) eqn:X; [|reflexivity]. rewrite <- (D k X). now apply H.
  - now apply H.
Qed.
Lemma enabled_app w (W : wf w) i k : (forall b, In b (k_bases k) -> b < length w) -> i < length w -> enabled (w ++ [k]) i = true -> enabled w i = true.
Proof.
  intros B L. pose proof (wf_app w k W B) as W'. rewrite !enabled_spec by assumption. intros H c x A K. apply (H c).
  - clear K H. revert L. induction A as [|i b c Hb A IH]; intros L; [constructor|]. pose proof (W _ _ Hb). eapply ancestor_up; [|apply IH; lia].
    unfold bases. rewrite nth_error_app1 by assumption. exact Hb.
  - rewrite nth_error_app1; [assumption|]. apply nth_error_Some. congruence.
Qed.

Definition good (w : hier) (i : nat) : Prop := forall k, nth_error w i = Some k ->
  (forall h, k_helper k = Some h -> forall p, In p (hp_virtuals h) -> In p (get_all_methods k) /\ mt_virtual p = true) /\
  (enabled w i = true -> k_subclassing k = true -> k_singleton k = false ->
     forall m, In m (get_all_methods k) -> mt_virtual m = true ->
     exists h p, k_helper k = Some h /\ In p (hp_virtuals h) /\ signature p = signature m) /\
  (k_subclassing k = false \/ k_singleton k = true -> k_helper k = None).

Lemma add_virtual_in m h : mt_virtual m = true ->
  (forall p, In p (hp_virtuals h) -> In p (hp_virtuals (add_virtual_method false m h))) /\
  (forall p, In p (hp_virtuals (add_virtual_method false m h)) -> In p (hp_virtuals h) \/ p = m) /\
  (exists p, In p (hp_virtuals (add_virtual_method false m h)) /\ signature p = signature m).
Proof.
  intros V. unfold add_virtual_method. destruct (existsb _ _) eqn:X.
  - split; [auto|]. split; [auto|]. apply existsb_exists in X. destruct X as (p & I & S). exists p. split; [assumption|].
    apply matches_eq in S. congruence.
  - cbn [hp_virtuals]. split; [intros; apply in_or_app; auto|]. split.
    + intros p H. apply in_app_or in H. destruct H as [H|[->|[]]]; auto.
    + exists m. split; [apply in_or_app; right; now left|reflexivity].
Qed.
Lemma add_dummy_in m h : hp_virtuals (add_virtual_method true m h) = hp_virtuals h.
Proof. unfold add_virtual_method. destruct (existsb _ _); [reflexivity|]. destruct (mt_pure m); reflexivity. Qed.

(** How one class changes. *)
Definition sound (all : list method) (o : option helper) : Prop :=
  forall h, o = Some h -> forall p, In p (hp_virtuals h) -> In p all /\ mt_virtual p = true.
Definition full (all : list method) (o : option helper) : Prop :=
  forall m, In m all -> mt_virtual m = true -> exists h p, o = Some h /\ In p (hp_virtuals h) /\ signature p = signature m.

Lemma all_helped b dummy m k : get_all_methods (helped b dummy m k) = get_all_methods k.
Proof. unfold helped. destruct b; [|reflexivity]. destruct (_ && _); reflexivity. Qed.
Lemma settings_helped b dummy m k : k_subclassing (helped b dummy m k) = k_subclassing k /\ k_singleton (helped b dummy m k) = k_singleton k /\
  k_bases (helped b dummy m k) = k_bases k /\ (k_disabled k = true -> k_disabled (helped b dummy m k) = true).
Proof. unfold helped. destruct b; [|repeat split; auto]. destruct (_ && _); repeat split; auto. Qed.
Lemma settings_adding m k : k_subclassing (adding m k) = k_subclassing k /\ k_singleton (adding m k) = k_singleton k /\
  k_bases (adding m k) = k_bases k /\ k_disabled (adding m k) = k_disabled k /\ k_helper (adding m k) = k_helper k.
Proof. unfold adding. destruct (_ && _); [|destruct (is_public _)]; repeat split; auto. Qed.

Lemma sound_weak all all' o : (forall x, In x all -> In x all') -> sound all o -> sound all' o.
Proof. intros S H h E p P. destruct (H h E p P). auto. Qed.
Lemma sound_helped b m k : mt_virtual m = true -> kept m ->
  sound (get_all_methods k) (k_helper k) -> sound (get_all_methods (adding m k)) (k_helper (helped b false m (adding m k))).
Proof.
  intros V Km S. assert (Hk : k_helper (adding m k) = k_helper k) by apply settings_adding.
  assert (Sub : forall x, In x (get_all_methods k) -> In x (get_all_methods (adding m k))).
  { intros x Hx. apply all_methods_adding. now left. }
  unfold helped. destruct b; cbn [andb with_helper with_pure k_helper].
  - intros h [= <-] p P. assert (Ho : helper_of (adding m k) = helper_of k) by (unfold helper_of; now rewrite Hk).
    rewrite Ho in P. apply (add_virtual_in m _ V) in P. destruct P as [P| ->].
    + unfold helper_of in P. destruct (k_helper k) as [h|] eqn:E; [|destruct P]. destruct (S h eq_refl p P). auto.
    + split; [apply all_methods_adding; auto|assumption].
  - rewrite Hk. eapply sound_weak; eauto.
Qed.
Lemma full_helped m k : mt_virtual m = true ->
  full (get_all_methods k) (k_helper k) -> full (get_all_methods (adding m k)) (k_helper (helped true false m (adding m k))).
Proof.
  intros V F x Hx Vx. assert (Hk : k_helper (adding m k) = k_helper k) by apply settings_adding.
  assert (Ho : helper_of (adding m k) = helper_of k) by (unfold helper_of; now rewrite Hk).
  unfold helped. cbn [andb with_helper with_pure k_helper]. rewrite Ho. eexists. apply all_methods_adding in Hx.
  destruct (add_virtual_in m (helper_of k) V) as (A1 & A2 & p & A3 & A4). destruct Hx as [Hx|[_ ->]].
  - destruct (F x Hx Vx) as (h & q & E & Q & S). exists q. split; [reflexivity|]. split; [|assumption]. apply A1.
    unfold helper_of. now rewrite E.
  - exists p. auto.
Qed.

Lemma allowed_true w i k : enabled w i = true -> k_subclassing k = true -> k_singleton k = false -> allowed w i k = true.
Proof. intros A B C. unfold allowed. now rewrite A, B, C. Qed.
Lemma allowed_false w i k : k_subclassing k = false \/ k_singleton k = true -> k_helper k = None -> allowed w i k = false.
Proof. intros [A|A] B; unfold allowed; rewrite A, ?B; [now rewrite andb_false_r|apply andb_false_r]. Qed.

Lemma method_added_settings b d k : k_subclassing (method_added b d k) = k_subclassing k /\ k_singleton (method_added b d k) = k_singleton k /\
  k_bases (method_added b d k) = k_bases k /\ (k_disabled k = true -> k_disabled (method_added b d k) = true).
Proof.
  unfold method_added, obj_added. destruct (md_wrappable d).
  - destruct (mt_virtual _).
    + destruct (settings_helped b false (method_of d) (adding (method_of d) k)) as (H1 & H2 & H3 & H4).
      destruct (settings_adding (method_of d) k) as (A1 & A2 & A3 & A4 & _). rewrite H1, H2, H3, A1, A2, A3. rewrite A4 in H4. auto.
    + destruct (protected_plain _); [destruct b; repeat split; auto|].
      destruct (settings_adding (method_of d) k) as (A1 & A2 & A3 & A4 & _). rewrite A1, A2, A3, A4. auto.
  - destruct (md_virtual d) as [[|]|]; [|repeat split; auto|repeat split; auto].
    destruct (settings_helped b true (method_of d) (with_dummy (k_dummy k ++ [method_of d]) k)) as (H1 & H2 & H3 & H4). auto.
Qed.

Lemma good_method w (W : wf w) i k d : nth_error w i = Some k -> good w i ->
  good (change w i (method_added (allowed w i k) d)) i.
Proof.
  intros K G k' K'. rewrite change_nth, Nat.eqb_refl, K in K'. cbn in K'. injection K' as <-.
  destruct (G k K) as (S & F & N). set (b := allowed w i k).
  destruct (method_added_settings b d k) as (E1 & E2 & E3 & E4). rewrite E1, E2.
  assert (En : enabled (change w i (method_added b d)) i = true -> enabled w i = true).
  { apply enabled_back; [assumption| |]; intros k0; apply method_added_settings. }
  assert (Fu : enabled w i = true -> k_subclassing k = true -> k_singleton k = false -> b = true /\ full (get_all_methods k) (k_helper k)).
  { intros X Y Z. split; [now apply allowed_true|]. exact (F X Y Z). }
  assert (No : k_subclassing k = false \/ k_singleton k = true -> b = false /\ k_helper k = None).
  { intros X. split; [apply allowed_false; auto|auto]. }
  change (sound (get_all_methods (method_added b d k)) (k_helper (method_added b d k)) /\
    (enabled (change w i (method_added b d)) i = true -> k_subclassing k = true -> k_singleton k = false ->
       full (get_all_methods (method_added b d k)) (k_helper (method_added b d k))) /\
    (k_subclassing k = false \/ k_singleton k = true -> k_helper (method_added b d k) = None)).
  assert (S' : sound (get_all_methods k) (k_helper k)) by exact S. clear S.
  unfold method_added at 1 2 4 5 6. clearbody b. destruct (md_wrappable d) eqn:Wd.
  - unfold obj_added. set (m := method_of d). destruct (mt_virtual m) eqn:V.
    + assert (Km : kept m) by (intros [_ X]; congruence). rewrite all_helped. split; [now apply sound_helped|]. split.
      * intros X Y Z. apply En in X. destruct (Fu X Y Z) as [-> Fl]. now apply full_helped.
      * intros X. destruct (No X) as [-> H]. cbn. rewrite <- H. apply settings_adding.
    + destruct (protected_plain m) eqn:P.
      * destruct b.
        -- cbn [with_helper k_helper]. change (get_all_methods (with_helper (Some (helper_of k)) k)) with (get_all_methods k).
           split; [|split].
           ++ intros h [= <-] p Hp. unfold helper_of in Hp. destruct (k_helper k) as [h|] eqn:E; [|destruct Hp]. exact (S' h eq_refl p Hp).
           ++ intros X Y Z x Hx Vx. apply En in X. destruct (Fu X Y Z) as [_ Fl]. destruct (Fl x Hx Vx) as (h & p & E & R).
              exists h, p. unfold helper_of. rewrite E. auto.
           ++ intros X. destruct (No X). discriminate.
        -- split; [assumption|]. split; [|intros X; now apply No]. intros X Y Z. apply En in X. now apply Fu.
      * destruct (settings_adding m k) as (_ & _ & _ & _ & Hk). rewrite Hk.
        split; [|split].
        -- eapply sound_weak; [|exact S']. intros x Hx. apply all_methods_adding. now left.
        -- intros X Y Z x Hx Vx. apply En in X. destruct (Fu X Y Z) as [_ Fl]. apply all_methods_adding in Hx.
           destruct Hx as [Hx|[_ ->]]; [now apply Fl|congruence].
        -- intros X. now apply No.
  - assert (Plain : sound (get_all_methods k) (k_helper k) /\
       (enabled (change w i (method_added b d)) i = true -> k_subclassing k = true -> k_singleton k = false -> full (get_all_methods k) (k_helper k)) /\
       (k_subclassing k = false \/ k_singleton k = true -> k_helper k = None)).
    { split; [assumption|]. split; [|intros X; now apply No]. intros X Y Z. apply En in X. now apply Fu. }
    assert (Hd : forall X, enabled (change w i (method_added b d)) i = true -> X = method_added b d k -> k_disabled X = false).
    { intros X H ->. rewrite enabled_spec in H.
      - apply (H i); [constructor|]. now rewrite change_nth, Nat.eqb_refl, K.
      - apply wf_change; [|assumption]. intros k0. apply method_added_settings. }
    destruct (md_virtual d) as [[|]|] eqn:Vd; [|exact Plain|exact Plain].
    rewrite all_helped. change (get_all_methods (with_dummy (k_dummy k ++ [method_of d]) k)) with (get_all_methods k).
    unfold helped. destruct b; [|exact Plain].
    change (helper_of (with_dummy (k_dummy k ++ [method_of d]) k)) with (helper_of k).
    destruct (true && hp_cannot (add_virtual_method true (method_of d) (helper_of k))) eqn:C.
    + cbn [k_helper with_disabled with_helper]. split; [discriminate|]. split; [|reflexivity].
      intros X _ _ x Hx Vx. exfalso. specialize (Hd _ X eq_refl). unfold method_added in Hd. rewrite Wd, Vd in Hd. unfold helped in Hd.
      change (helper_of (with_dummy (k_dummy k ++ [method_of d]) k)) with (helper_of k) in Hd. rewrite C in Hd. discriminate.
    + cbn [k_helper with_helper]. destruct Plain as (P1 & P2 & P3). split; [|split].
      * intros h [= <-] p Hp. rewrite add_dummy_in in Hp. unfold helper_of in Hp.
        destruct (k_helper k) as [h|] eqn:E; [|destruct Hp]. exact (S' h eq_refl p Hp).
      * intros X Y Z x Hx Vx. destruct (P2 X Y Z x Hx Vx) as (h & p & E & R). eexists _, p. split; [reflexivity|].
        rewrite add_dummy_in. unfold helper_of. now rewrite E.
      * intros X. destruct (No X). discriminate.
Qed.

Lemma good_quiet w (W : wf w) i j f : quiet f -> good w i -> good (change w j f) i.
Proof.
  intros Qf G k K. rewrite change_nth in K.
  assert (En : enabled (change w j f) i = enabled w i) by (apply enabled_change; [assumption| |]; intros k0; apply Qf).
  rewrite En. destruct (Nat.eqb i j).
  - destruct (nth_error w i) as [k0|] eqn:K0; cbn in K; [|discriminate]. injection K as <-.
    destruct (Qf k0) as (-> & -> & _ & _ & -> & -> & _). now apply G.
  - now apply G.
Qed.
(** Another class changes. *)
Lemma good_other w (W : wf w) i j f : i <> j -> (forall k, k_bases (f k) = k_bases k) -> (forall k, k_disabled k = true -> k_disabled (f k) = true) ->
  good w i -> good (change w j f) i.
Proof.
  intros N B D G k K. rewrite change_nth in K. apply Nat.eqb_neq in N. rewrite N in K. destruct (G k K) as (G1 & G2 & G3).
  split; [assumption|]. split; [|assumption]. intros X. apply (enabled_back w W i j f B D) in X. auto.
Qed.

Section Good.
  Variables (dn ds : bool) (ok : method -> bool).
  Notation step := (run_hcall dn ds ok).
  Notation script := (hscript dn ds ok).

  Lemma step_good w (W : wf w) c i : (forall j b, c <> HDisable j b) -> c <> HForward i -> good w i -> good (fst (step c w)) i.
  Proof.
    intros ND NF G. pose proof (step_effect dn ds ok w W c) as Ef. pose proof (step_exactly dn ds ok w W c) as E.
    remember (fst (step c w)) as w' eqn:Ew. destruct E as [c|d k H A D|j d k K|j n k K|j f k K Fk|j b|c j f T Qf].
    - assumption.
    - destruct (Nat.lt_trichotomy i (length w)) as [L|[L|L]].
      + intros k0 K0. rewrite nth_error_app1 in K0 by assumption. destruct (G k0 K0) as (G1 & G2 & G3).
        split; [assumption|]. split; [|assumption]. intros X. apply G2. revert X. apply enabled_app; [assumption| |assumption].
        pose proof (effect_wf _ _ _ W Ef) as W'. intros b Hb. apply (W' (length w)). unfold bases. rewrite nth_error_app2, Nat.sub_diag by lia. exact Hb.
      + subst i. intros k0 K0. rewrite nth_error_app2, Nat.sub_diag in K0 by lia. injection K0 as <-. rewrite H, A.
        split; [discriminate|]. split; [intros _ _ _ m []|reflexivity].
      + intros k0 K0. assert (nth_error (w ++ [k]) i = None) by (apply nth_error_None; rewrite app_length; cbn; lia). congruence.
    - destruct (Nat.eq_dec i j) as [->|N]; [now apply good_method|].
      apply good_other; [assumption|assumption| | |assumption]; intros k0; apply method_added_settings.
    - destruct (Nat.eq_dec i j) as [->|N].
      + intros k' K'. rewrite change_nth, Nat.eqb_refl, K in K'. cbn [option_map] in K'. injection K' as <-.
        set (m := mk_method n [] false false false Public true). destruct (settings_adding m k) as (-> & -> & _ & _ & ->).
        rewrite enabled_adding by assumption. destruct (G k K) as (G1 & G2 & G3). split; [|split].
        * intros h Hh p Hp. destruct (G1 h Hh p Hp). split; [|assumption]. apply all_methods_adding. now left.
        * intros X Y Z x Hx Vx. apply all_methods_adding in Hx. destruct Hx as [Hx|[_ ->]]; [now apply G2|discriminate].
        * assumption.
      + apply good_other; [assumption|assumption| | |assumption]; intros k0;
        destruct (settings_adding (mk_method n [] false false false Public true) k0) as (_ & _ & S3 & S4 & _); [exact S3|now rewrite S4].
    - assert (N : i <> j) by (intros ->; now apply NF). apply good_other; [assumption|assumption| | |assumption]; intros k0; apply Fk.
    - now elim (ND j b).
    - now apply good_quiet.
  Qed.
  Lemma script_good i cs : forall w, wf w -> good w i -> (forall j b, ~ In (HDisable j b) cs) -> ~ In (HForward i) cs -> good (fst (script cs w)) i.
  Proof.
    induction cs as [|c cs IH]; intros w W G ND NF; cbn; [assumption|]. apply IH.
    - eapply effect_wf; [exact W|]. now apply step_effect.
    - apply step_good; auto; [intros j b ->; apply (ND j b); now left|intros ->; apply NF; now left].
    - intros j b H. apply (ND j b). now right.
    - intros H. apply NF. now right.
  Qed.
End Good.

(** ** The proxies of a helper class *)
Lemma fold_virtuals ms : forall h, (forall m, In m ms -> mt_virtual m = true) ->
  let h' := fold_left (fun h m => add_virtual_method false m h) ms h in
  (forall p, In p (hp_virtuals h) -> In p (hp_virtuals h')) /\
  (forall p, In p (hp_virtuals h') -> In p (hp_virtuals h) \/ In p ms) /\
  (forall m, In m ms -> exists p, In p (hp_virtuals h') /\ signature p = signature m).
Proof.
  induction ms as [|m ms IH]; intros h V; cbn [fold_left].
  - split; [auto|]. split; [auto|]. intros m [].
  - assert (Vm : mt_virtual m = true) by (apply V; now left).
    destruct (add_virtual_in m h Vm) as (A1 & A2 & p0 & A3 & A4).
    destruct (IH (add_virtual_method false m h)) as (B1 & B2 & B3); [intros; apply V; now right|]. split; [|split].
    + intros p Hp. apply B1. now apply A1.
    + intros p Hp. apply B2 in Hp. destruct Hp as [Hp|Hp]; [|right; now right]. apply A2 in Hp. destruct Hp as [Hp| ->]; [now left|right; now left].
    + intros x [->|Hx]; [|now apply B3]. exists p0. split; [now apply B1|assumption].
Qed.
Lemma classes_app w a b : classes w (a ++ b) = classes w a ++ classes w b.
Proof. unfold classes. now rewrite flat_map_app. Qed.

Definition wrapped_methods (w : hier) (i : nat) : list method := match nth_error w i with Some k => get_all_methods k | None => [] end.
Lemma classes_methods w l : flat_map get_all_methods (classes w l) = flat_map (wrapped_methods w) l.
Proof.
  unfold classes, wrapped_methods. induction l as [|c l IH]; [reflexivity|]. cbn [flat_map]. rewrite flat_map_app, IH. f_equal.
  destruct (nth_error w c); cbn; [apply app_nil_r|reflexivity].
Qed.

(** A method of class [c] at some place of the order is overridden by a proxy, or by a method that is not pure before. *)
Lemma inherited_virtual w h l before c after m : l = before ++ c :: after -> In m (wrapped_methods w c) -> mt_virtual m = true ->
  exists p, In p (hp_virtuals (inherit_virtuals h (classes w l))) /\ signature p = signature m /\
    (In p (hp_virtuals h) \/ exists d, In d (before ++ [c]) /\ In p (wrapped_methods w d) /\ mt_virtual p = true).
Proof.
  intros -> I V. unfold inherit_virtuals. rewrite classes_methods.
  replace (before ++ c :: after) with ((before ++ [c]) ++ after) by now rewrite <- app_assoc.
  rewrite (flat_map_app (wrapped_methods w) (before ++ [c])), filter_app, fold_left_app.
  set (ms := filter mt_virtual (flat_map (wrapped_methods w) (before ++ [c]))).
  destruct (fold_virtuals ms h) as (A1 & A2 & A3); [intros x Hx; apply filter_In in Hx; tauto|].
  destruct (A3 m) as (p & P1 & P2).
  { apply filter_In. split; [|assumption]. apply in_flat_map. exists c. split; [apply in_or_app; right; now left|assumption]. }
  exists p. split; [|split; [assumption|]].
  - apply fold_virtuals; [|assumption]. intros x Hx. apply filter_In in Hx. tauto.
  - apply A2 in P1. destruct P1 as [P1|P1]; [now left|]. right. apply filter_In in P1. destruct P1 as [P1 Vp].
    apply in_flat_map in P1. destruct P1 as (d & D1 & D2). eauto.
Qed.
Lemma proxies_in ok h ps p : helper_proxies ok h = Some ps -> In p (hp_virtuals h) -> mt_pure p = true -> In p ps.
Proof.
  unfold helper_proxies. destruct (existsb _ _) eqn:X; [discriminate|]. intros [= <-] I P. apply filter_In. split; [assumption|].
  destruct (ok p) eqn:O; [reflexivity|]. assert (existsb (fun m => mt_pure m && negb (ok m)) (hp_virtuals h) = true); [|congruence].
  apply existsb_exists. exists p. split; [assumption|]. now rewrite P, O.
Qed.

(** ** The wrapped virtual methods *)
Section Wrapped.
  Variables (dn ds : bool) (ok : method -> bool).
  Notation step := (run_hcall dn ds ok).
  Notation script := (hscript dn ds ok).

  Lemma wrapped_method_added b d k x : mt_virtual x = true -> (In x (get_all_methods (method_added b d k)) <->
    In x (get_all_methods k) \/ (md_wrappable d = true /\ recorded d /\ x = method_of d)).
  Proof.
    intros V. unfold method_added, obj_added, recorded. destruct (md_wrappable d).
    - destruct (mt_virtual (method_of d)) eqn:Vm.
      + rewrite all_helped, all_methods_adding. unfold kept. rewrite Vm. cbn. tauto.
      + assert (N : x <> method_of d) by congruence. destruct (protected_plain _).
        * destruct b; [change (get_all_methods (with_helper (Some (helper_of k)) k)) with (get_all_methods k)|]; tauto.
        * rewrite all_methods_adding. tauto.
    - destruct (md_virtual d) as [[|]|].
      + rewrite all_helped. change (get_all_methods (with_dummy (k_dummy k ++ [method_of d]) k)) with (get_all_methods k). intuition congruence.
      + intuition congruence.
      + intuition congruence.
  Qed.
  Lemma wrapped_change w j f i x : (forall k, get_all_methods (f k) = get_all_methods k) ->
    In x (wrapped_methods (change w j f) i) <-> In x (wrapped_methods w i).
  Proof.
    intros E. unfold wrapped_methods. rewrite change_nth. destruct (Nat.eqb i j); [|tauto].
    destruct (nth_error w i); cbn [option_map]; [now rewrite E|tauto].
  Qed.
  Lemma step_wrapped w (W : wf w) c i x : mt_virtual x = true -> (In x (wrapped_methods (fst (step c w)) i) <->
    In x (wrapped_methods w i) \/ declares_wrapped [(c, snd (step c w))] i x).
  Proof.
    intros V. destruct (match c with HMethod _ _ => true | _ => false end) eqn:M.
    - destruct c as [d|j d|j n|j n|j n|j n|j b|j s|j|j|j v]; try discriminate. clear M.
      destruct (nth_error w j) as [k|] eqn:K.
      + cbn [run_hcall]. rewrite (sbind_ok _ _ _ _ _ (add_method_exact w W j k d K)). cbn [fst snd ret].
        unfold wrapped_methods at 1. rewrite change_nth. destruct (Nat.eqb i j) eqn:N.
        * apply Nat.eqb_eq in N. subst j. unfold wrapped_methods. rewrite K. cbn [option_map]. rewrite wrapped_method_added by assumption.
          split; intros [H|H]; auto; right.
          -- destruct H as (H1 & H2 & H3). exists d, (RBool (md_wrappable d)). split; [now left|auto].
          -- destruct H as (d' & a & [E|[]] & H1 & H2 & H3). assert (d' = d) by congruence. subst d'. auto.
        * apply Nat.eqb_neq in N. fold (wrapped_methods w i). split; [now left|]. intros [H|(d' & a & [E|[]] & _)]; [assumption|congruence].
      + destruct (Bool.bool_dec (md_wrappable d) true) as [Wd|Wd].
        * rewrite (method_step_err dn ds ok w j d (nth_invalid _ _ K) (or_introl Wd)). cbn [fst snd].
          split; [now left|]. intros [H|(d' & a & [E|[]] & _)]; [assumption|congruence].
        * assert (E : fst (step (HMethod j d) w) = w).
          { apply not_true_is_false in Wd. destruct (md_virtual d) as [[|]|] eqn:Vd.
            - now rewrite (method_step_err dn ds ok w j d (nth_invalid _ _ K) (or_intror Vd)).
            - cbn [run_hcall]. unfold add_method. now rewrite Wd, Vd.
            - cbn [run_hcall]. unfold add_method. now rewrite Wd, Vd. }
          rewrite E. split; [now left|]. intros [H|(d' & a & [E'|[]] & _ & H & _)]; [assumption|congruence].
    - assert (No : ~ declares_wrapped [(c, snd (step c w))] i x).
      { intros (d & a & [E|[]] & _). injection E as -> _. discriminate. }
      assert (Same : In x (wrapped_methods (fst (step c w)) i) <-> In x (wrapped_methods w i)); [|tauto].
      pose proof (step_exactly dn ds ok w W c) as E.
      destruct E as [c|d k H A D|j d k K|j n k K|j f k K Fk|j b|c j f T Qf].
      + tauto.
      + unfold wrapped_methods. destruct (Nat.lt_ge_cases i (length w)) as [L|L].
        * now rewrite nth_error_app1.
        * rewrite nth_error_app2 by assumption. assert (X : nth_error w i = None) by now apply nth_error_None. rewrite X.
          destruct (i - length w) as [|p]; cbn; [now rewrite A|destruct p; cbn; tauto].
      + discriminate.
      + unfold wrapped_methods. rewrite change_nth. destruct (Nat.eqb i j); [|tauto]. destruct (nth_error w i) as [k0|]; cbn [option_map]; [|tauto].
        rewrite all_methods_adding. split; [|now left]. intros [X|[_ ->]]; [assumption|discriminate].
      + apply wrapped_change. intros k0. apply Fk.
      + now apply wrapped_change.
      + apply wrapped_change. intros k0. apply Qf.
  Qed.
  Lemma script_wrapped cs i x : mt_virtual x = true -> forall w, wf w -> In x (wrapped_methods (fst (script cs w)) i) <->
    In x (wrapped_methods w i) \/ declares_wrapped (snd (script cs w)) i x.
  Proof.
    intros V. induction cs as [|c cs IH]; intros w W; cbn [hscript fst snd].
    - split; [now left|]. intros [H|(d & a & [] & _)]. assumption.
    - rewrite IH by (eapply effect_wf; [exact W|now apply step_effect]). rewrite step_wrapped by assumption.
      assert (Cn : forall p l, declares_wrapped (p :: l) i x <-> declares_wrapped [p] i x \/ declares_wrapped l i x).
      { intros p l. unfold declares_wrapped. split.
        - intros (d & a & [E|E] & R); [left|right]; exists d, a; split; auto. now left.
        - intros [(d & a & [E|[]] & R)|(d & a & E & R)]; exists d, a; split; auto; [now left|now right]. }
      rewrite (Cn (c, snd (step c w)) (snd (script cs (fst (step c w))))). tauto.
  Qed.
  Lemma wrapped_declared cs i x : mt_virtual x = true ->
    In x (wrapped_methods (fst (script cs [])) i) <-> declares_wrapped (snd (script cs [])) i x.
  Proof.
    intros V. rewrite script_wrapped by (assumption || apply wf_nil). split; [|now right]. intros [H|H]; [|assumption]. destruct i; destruct H.
  Qed.

  (** The methods that make the class abstract are overridden in the helper class. *)
  Lemma helper_overrides cs i l ps before c after m : let w := fst (script cs []) in let D := declares (snd (script cs [])) in
    (forall j b, ~ In (HDisable j b) cs) -> ~ In (HForward i) cs ->
    (forall j k, ancestor (bases w) i j -> nth_error w j = Some k -> k_disabled k = false) ->
    i < length w -> get_mro w i = Ok l -> snd (step (HForward i) w) = Ok (RProxies (Some ps)) ->
    l = before ++ c :: after -> declares_wrapped (snd (script cs [])) c m -> mt_virtual m = true -> mt_pure m = true ->
    (forall d x, In d before -> D d x -> mt_virtual x = true -> signature x = signature m -> mt_pure x = true) -> consistent D c ->
    exists p, In p ps /\ signature p = signature m.
  Proof.
    intros w D ND NF NoD L G R El Dm V P Bf Cc.
    pose proof (script_wf dn ds ok cs [] wf_nil) as W. fold w in W.
    assert (Gd : good w i).
    { apply script_good; auto; [apply wf_nil|]. intros k K. destruct i; discriminate. }
    destruct (nth_error w i) as [k|] eqn:K; [|apply nth_error_None in K; lia].
    destruct (forward_exact ok w W i k l K G) as (f & a & hooks & E & Fk & Fa).
    cbn [run_hcall] in R. rewrite (sbind_ok _ _ _ _ _ E) in R. cbn [fst snd ret] in R. injection R as ->.
    destruct Fa as (h & Hk & Hp & _). destruct (Gd k K) as (G1 & G2 & G3).
    assert (En : enabled w i = true) by now apply enabled_spec.
    assert (Dw : forall d x, mt_virtual x = true -> In x (wrapped_methods w d) -> D d x).
    { intros d x Vx Hx. apply wrapped_declared in Hx; [|assumption]. destruct Hx as (d0 & a & X1 & X2 & X3 & X4). exists d0, a. auto. }
    apply wrapped_declared in Dm; [|assumption]. fold w in Dm.
    assert (Pure : forall d x, In d (before ++ [c]) -> D d x -> mt_virtual x = true -> signature x = signature m -> mt_pure x = true).
    { intros d x Hd Dx Vx Sx. apply in_app_or in Hd. destruct Hd as [Hd|[<-|[]]]; [eauto|]. rewrite <- P. apply Cc; auto. }
    assert (Own : forall x, In x (hp_virtuals h) -> D i x /\ mt_virtual x = true).
    { intros x Hx. destruct (G1 h Hk x Hx) as [X Y]. split; [|assumption]. apply Dw; [assumption|]. unfold wrapped_methods. now rewrite K. }
    destruct (mro_head w i l G) as (r & Er). destruct before as [|b0 before].
    - cbn in El. assert (c = i) by congruence. subst c.
      assert (Sub : k_subclassing k = true /\ k_singleton k = false).
      { destruct (k_subclassing k) eqn:S1; [|rewrite G3 in Hk by auto; discriminate].
        destruct (k_singleton k) eqn:S2; [rewrite G3 in Hk by auto; discriminate|]. auto. }
      destruct (G2 En (proj1 Sub) (proj2 Sub) m) as (h0 & p & Eh & Ip & Sp); [unfold wrapped_methods in Dm; now rewrite K in Dm|assumption|].
      assert (h0 = h) by congruence. subst h0. exists p. split; [|assumption]. eapply proxies_in; [exact Hp| |].
      + unfold inherit_virtuals. apply fold_virtuals; [|assumption]. intros x Hx. apply filter_In in Hx. tauto.
      + destruct (Own p Ip). apply (Pure i); auto. now left.
    - cbn in El. assert (b0 = i /\ r = before ++ c :: after) as [-> Er'] by (split; congruence).
      rewrite Er in Hp. cbn [tl] in Hp.
      destruct (inherited_virtual w h r before c after m Er' Dm V) as (p & I & Sp & O).
      exists p. split; [|assumption]. eapply proxies_in; [exact Hp|exact I|].
      destruct O as [O|(d & Hd & Wd & Vd)].
      + destruct (Own p O). apply (Pure i); auto. now left.
      + apply (Pure d); auto. right. exact Hd.
  Qed.

  (** ** Constructors *)
  Lemma step_other c w (W : wf w) i : target c <> Some i -> i < length w -> nth_error (fst (step c w)) i = nth_error w i.
  Proof.
    intros T L. pose proof (step_exactly dn ds ok w W c) as E.
    destruct E as [c|d k H A D|j d k K|j n k K|j f k K Fk|j b|c j f T' Qf]; try (rewrite change_nth; assert (N : Nat.eqb i j = false) by (apply Nat.eqb_neq; cbn in T; congruence); now rewrite N).
    - reflexivity.
    - now rewrite nth_error_app1.
  Qed.
  Definition helper_at (w : hier) (i : nat) : option helper := match nth_error w i with Some k => k_helper k | None => None end.
  Lemma step_helper c w (W : wf w) i : i < length w -> (forall d, c <> HMethod i d) -> c <> HForward i ->
    helper_at (fst (step c w)) i = helper_at w i.
  Proof.
    intros L N1 N2. unfold helper_at. pose proof (step_exactly dn ds ok w W c) as E.
    destruct E as [c|d k H A D|j d k K|j n k K|j f k K Fk|j b|c j f T' Qf].
    - reflexivity.
    - now rewrite nth_error_app1.
    - rewrite change_nth. destruct (Nat.eqb i j) eqn:N; [|reflexivity]. apply Nat.eqb_eq in N. subst j. now elim (N1 d).
    - rewrite change_nth. destruct (Nat.eqb i j) eqn:N; [|reflexivity]. destruct (nth_error w i) as [k0|]; cbn [option_map]; [apply settings_adding|reflexivity].
    - rewrite change_nth. destruct (Nat.eqb i j) eqn:N; [|reflexivity]. apply Nat.eqb_eq in N. subst j. now elim N2.
    - rewrite change_nth. destruct (Nat.eqb i j) eqn:N; [|reflexivity]. destruct (nth_error w i) as [k0|]; reflexivity.
    - rewrite change_nth. destruct (Nat.eqb i j) eqn:N; [|reflexivity]. destruct (nth_error w i) as [k0|]; cbn [option_map]; [apply Qf|reflexivity].
  Qed.
  Lemma script_helper i cs : forall w, wf w -> i < length w -> (forall d, ~ In (HMethod i d) cs) -> ~ In (HForward i) cs ->
    helper_at (fst (script cs w)) i = helper_at w i.
  Proof.
    induction cs as [|c cs IH]; intros w W L N1 N2; cbn; [reflexivity|].
    pose proof (step_effect dn ds ok w W c) as Ef. rewrite IH.
    - apply step_helper; auto; [intros d ->; apply (N1 d); now left|intros ->; apply N2; now left].
    - eapply effect_wf; eauto.
    - pose proof (effect_length _ _ _ Ef). lia.
    - intros d H. apply (N1 d). now right.
    - intros H. apply N2. now right.
  Qed.
  Lemma script_app a b : forall w, script (a ++ b) w = (fst (script b (fst (script a w))), snd (script a w) ++ snd (script b (fst (script a w)))).
  Proof.
    induction a as [|c a IH]; intros w; cbn; [now destruct (script b w)|]. now rewrite IH.
  Qed.
  Lemma constructor_step w (W : wf w) i v c : i < length w -> snd (step (HConstructor i v) w) = Ok (RCtor c) ->
    (cc_subclass c = MHelper <-> helper_at w i <> None) /\ (cc_exact c = MClass \/ cc_subclass c = MClass -> answer w i = false) /\
    (forall k, nth_error w i = Some k -> v = Public -> answer w i = false -> k_cannot k = "" -> cc_exact c = MClass).
  Proof.
    intros L R. destruct (nth_error w i) as [k|] eqn:K; [|apply nth_error_None in K; lia].
    destruct (constructor_exact w W i k v K) as (f & r & E & Qf & Cr). cbn [run_hcall] in R. unfold sbind in R. rewrite E in R.
    destruct r as [c0|]; cbn in R; [|discriminate]. injection R as ->. destruct (Cr c eq_refl) as (C1 & C2 & C3).
    unfold helper_at. rewrite K. split; [assumption|]. split; [assumption|]. intros k0 [= <-]. assumption.
  Qed.
  Lemma forward_helper w (W : wf w) i o : i < length w -> snd (step (HForward i) w) = Ok (RProxies o) ->
    helper_at (fst (step (HForward i) w)) i = None <-> o = None.
  Proof.
    intros L R. destruct (nth_error w i) as [k|] eqn:K; [|apply nth_error_None in K; lia]. destruct (mro_ok w W i) as (l & G).
    destruct (forward_exact ok w W i k l K G) as (f & a & hooks & E & Fk & Fa).
    cbn [run_hcall] in *. rewrite (sbind_ok _ _ _ _ _ E) in *. cbn [fst snd ret] in *. injection R as ->.
    unfold helper_at. rewrite change_nth, Nat.eqb_refl, K. cbn [option_map]. destruct o as [ps|].
    - destruct Fa as (h & _ & _ & ->). split; discriminate.
    - rewrite Fa. tauto.
  Qed.
End Wrapped.
