(** Scripts of declarations on classes, and the pure virtual methods left. *)
From Verif.Model Require Import Py PyState Hierarchy.
From Verif.Spec Require Import HierarchySpec.
From Verif.Proofs Require Import HierarchyProofs.
From Coq Require Import Lia.
Open Scope list_scope.
Open Scope st_scope.

Lemma sbind_ok {W A B} (m : st W A) (f : A -> st W B) s s' a : m s = (s', Ok a) -> sbind m f s = f a s'.
Proof. intros E. unfold sbind. now rewrite E. Qed.
Lemma sbind_err {W A B} (m : st W A) (f : A -> st W B) s s' e : m s = (s', Err e) -> sbind m f s = (s', Err e).
Proof. intros E. unfold sbind. now rewrite E. Qed.

(** ** Changing one class *)
Lemma change_length w i f : length (change w i f) = length w.
Proof. revert i. induction w; intros [|i]; cbn; auto. Qed.
Lemma change_nth w i f n : nth_error (change w i f) n = if Nat.eqb n i then option_map f (nth_error w n) else nth_error w n.
Proof.
  revert i n. induction w as [|k w IH]; intros i n; cbn.
  - destruct n, i; cbn; try reflexivity. now destruct (Nat.eqb _ _).
  - destruct i, n; cbn; try reflexivity. apply IH.
Qed.
Lemma change_map {B} (v : cls -> B) w i f : (forall k, v (f k) = v k) -> map v (change w i f) = map v w.
Proof. intros E. revert i. induction w; intros [|i]; cbn; f_equal; auto. Qed.
Lemma change_compose w i f g : change (change w i f) i g = change w i (fun k => g (f k)).
Proof. revert i. induction w; intros [|i]; cbn; f_equal; auto. Qed.
Lemma change_ext w i f g : (forall k, nth_error w i = Some k -> f k = g k) -> change w i f = change w i g.
Proof. revert i. induction w; intros [|i]; cbn; intros E; f_equal; auto. Qed.

(** ** What the queries depend on *)
Definition fixed_part (k : cls) := (k_bases k, k_policy k, k_narrowing k, k_subclassing k, k_singleton k).
Definition view (k : cls) := (fixed_part k, k_methods k, k_nonpublic k, k_dummy k, k_pure k).

Lemma bases_map w w' : map fixed_part w = map fixed_part w' -> forall i, bases w i = bases w' i.
Proof.
  intros E i. unfold bases. assert (H : nth_error (map fixed_part w) i = nth_error (map fixed_part w') i) by now rewrite E.
  rewrite !nth_error_map in H. destruct (nth_error w i), (nth_error w' i); cbn in H; try congruence.
  unfold fixed_part in H. congruence.
Qed.
Lemma view_fixed w w' : map view w = map view w' -> map fixed_part w = map fixed_part w'.
Proof.
  intros E. apply (f_equal (map (fun v => fst (fst (fst (fst v)))))) in E. rewrite !map_map in E. exact E.
Qed.

Lemma ways_ext w w' : (forall i, bases w i = bases w' i) -> forall n i, ways n w i = ways n w' i.
Proof. intros E. induction n; intros i; cbn [ways]; [reflexivity|]. rewrite E. do 2 f_equal. apply map_ext. auto. Qed.
Lemma visit_ext w w' : (forall i, bases w i = bases w' i) -> forall f q v, visit f w q v = visit f w' q v.
Proof. intros E. induction f; intros [|c q] v; cbn [visit]; try reflexivity. rewrite E, IHf. reflexivity. Qed.
Lemma mro_ext w w' i : (forall i, bases w i = bases w' i) -> get_mro w i = get_mro w' i.
Proof. intros E. unfold get_mro. rewrite (ways_ext _ _ E). apply visit_ext. exact E. Qed.

(** ** The answer computed afresh *)
Definition fresh (w : hier) (i : nat) : bool :=
  match get_mro w i with Ok l => unimplemented (rev (classes w l)) | Err _ => false end.

(** The methods that count. *)
Definition counts (m : method) : bool := mt_virtual m || mt_pure m.
Definition relevant (k : cls) : list method := filter counts (cpp_methods k).

Lemma find_filter {A} (p q : A -> bool) l : (forall x, p x = true -> q x = true) -> find p (filter q l) = find p l.
Proof.
  intros H. induction l as [|x l IH]; cbn; [reflexivity|]. destruct (q x) eqn:Q; cbn.
  - now rewrite IH.
  - destruct (p x) eqn:P; [rewrite (H _ P) in Q; discriminate|assumption].
Qed.
Lemma existsb_filter {A} (p q : A -> bool) l : (forall x, p x = true -> q x = true) -> existsb p (filter q l) = existsb p l.
Proof.
  intros H. induction l as [|x l IH]; cbn; [reflexivity|]. destruct (q x) eqn:Q; cbn.
  - now rewrite IH.
  - destruct (p x) eqn:P; [rewrite (H _ P) in Q; discriminate|assumption].
Qed.
Definition implemented_by (m : method) (l : list method) : bool :=
  match find (fun c => mt_virtual c && matches_signature c m) l with Some c => negb (mt_pure c) | None => false end.
Fixpoint unimplemented_by (l : list (list method)) : bool :=
  match l with
  | [] => false
  | k :: children => existsb (fun m => mt_pure m && negb (existsb (implemented_by m) children)) k || unimplemented_by children
  end.
Lemma unimplemented_relevant l : unimplemented l = unimplemented_by (map relevant l).
Proof.
  induction l as [|k l IH]; [reflexivity|]. cbn [unimplemented map unimplemented_by]. rewrite IH. f_equal.
  change (relevant k) with (filter counts (cpp_methods k)). rewrite existsb_filter.
  - assert (E : forall m, existsb (implemented_in m) l = existsb (implemented_by m) (map relevant l)).
    { intros m. clear. induction l as [|x l IH]; cbn; [reflexivity|]. rewrite IH. f_equal.
      unfold implemented_in, implemented_by, relevant. rewrite find_filter; [reflexivity|].
      intros c H. apply andb_prop in H. unfold counts. now rewrite (proj1 H). }
    induction (cpp_methods k) as [|m r IHr]; cbn; [reflexivity|]. now rewrite E, IHr.
  - intros m H. apply andb_prop in H. unfold counts. rewrite (proj1 H). apply orb_true_r.
Qed.

Definition relevant_of (w : hier) (i : nat) : list (list method) :=
  match nth_error w i with Some k => [relevant k] | None => [] end.
Lemma fresh_relevant w i : fresh w i = match get_mro w i with Ok l => unimplemented_by (rev (flat_map (relevant_of w) l)) | Err _ => false end.
Proof.
  unfold fresh. destruct (get_mro w i) as [l|]; [|reflexivity]. rewrite unimplemented_relevant, map_rev. do 2 f_equal.
  unfold classes. induction l as [|c l IH]; cbn; [reflexivity|]. rewrite map_app, IH. f_equal.
  unfold relevant_of. destruct (nth_error w c); reflexivity.
Qed.
Lemma fresh_ext w w' i (W : wf w) : (forall n, bases w n = bases w' n) ->
  (forall n, ancestor (bases w) i n -> relevant_of w n = relevant_of w' n) -> fresh w i = fresh w' i.
Proof.
  intros E R. rewrite !fresh_relevant. rewrite <- (mro_ext w w' i E).
  destruct (get_mro w i) as [l|] eqn:G; [|reflexivity]. do 2 f_equal.
  assert (A : forall c, In c l -> relevant_of w c = relevant_of w' c).
  { intros c Hc. apply R. eapply mro_ancestor; eauto. }
  clear -A. induction l; cbn; [reflexivity|]. rewrite (A a) by now left. f_equal. apply IHl. intros. apply A. now right.
Qed.

(** ** Effects of the calls *)
Definition adding (m : method) (k : cls) : cls :=
  if is_protected (mt_vis m) && negb (mt_virtual m) then k
  else if is_public (mt_vis m) then with_methods (add_overload (k_methods k) (mt_name m) m) k
  else with_nonpublic (k_nonpublic k ++ [m]) k.
Definition resetting (b : bool) (k : cls) : cls := if b then with_pure None k else k.

Definition valid (w : hier) (i : nat) : bool := Nat.ltb i (length w).
Lemma nth_valid (w : hier) i k : nth_error w i = Some k -> valid w i = true.
Proof. intros H. apply Nat.ltb_lt. apply nth_error_Some. congruence. Qed.
Lemma nth_invalid (w : hier) i : nth_error w i = None -> valid w i = false.
Proof. intros H. apply Nat.ltb_ge. now apply nth_error_None. Qed.
Lemma change_invalid w i f : nth_error w i = None -> change w i f = w.
Proof. revert i. induction w; intros [|i]; cbn; intros H; try congruence. f_equal. auto. Qed.

(** Up to the fields not in [view]. *)
Definition alike (w w' : hier) : Prop := map view w = map view w'.
Lemma alike_refl w : alike w w. Proof. reflexivity. Qed.
Lemma alike_trans a b c : alike a b -> alike b c -> alike a c. Proof. unfold alike. congruence. Qed.
Lemma alike_sym a b : alike a b -> alike b a. Proof. unfold alike. congruence. Qed.
Lemma alike_change w i f : (forall k, view (f k) = view k) -> alike (change w i f) w.
Proof. intros. unfold alike. now apply change_map. Qed.
Lemma alike_update a b i f g : alike a b -> (forall k k', view k = view k' -> view (f k) = view (g k')) -> alike (change a i f) (change b i g).
Proof.
  unfold alike. intros E H. revert b i E. induction a as [|k a IH]; intros [|k' b] i E; cbn [map] in E; try discriminate.
  - reflexivity.
  - assert (E1 : view k = view k') by congruence. assert (E2 : map view a = map view b) by congruence.
    destruct i; cbn [change map]; [now rewrite (H k k' E1), E2|now rewrite E1, (IH b i E2)].
Qed.
Lemma alike_nth a b i : alike a b -> option_map view (nth_error a i) = option_map view (nth_error b i).
Proof. unfold alike. intros E. rewrite <- !nth_error_map. now rewrite E. Qed.
Lemma alike_length a b : alike a b -> length a = length b.
Proof. intros E. unfold alike in E. rewrite <- (map_length view a), E. apply map_length. Qed.

Lemma mro_ok w (W : wf w) i : exists l, get_mro w i = Ok l.
Proof. destruct (mro_firsts w W i) as (l & E & _). eauto. Qed.

Lemma get_helper_alike w (W : wf w) i : valid w i = true ->
  exists w' o, get_helper_class i w = (w', Ok o) /\ alike w' w.
Proof.
  intros V. unfold get_helper_class, mro_classes, sbind, get_cls. destruct (mro_ok w W i) as (l & ->).
  destruct (nth_error w i) as [k|] eqn:K; [|apply nth_invalid in K; congruence].
  destruct (existsb _ _); [exists w, None; split; reflexivity|].
  destruct (negb _); [exists w, None; split; reflexivity|].
  destruct (k_helper k) as [h|]; [exists w, (Some h); split; reflexivity|].
  destruct (k_singleton k); [exists w, None; split; reflexivity|].
  unfold update, modify, ret. eexists _, _. split; [reflexivity|]. now apply alike_change.
Qed.

Lemma wf_alike w w' : alike w w' -> wf w -> wf w'.
Proof. intros A W i b. rewrite <- (bases_map w w' (view_fixed _ _ A)). apply W. Qed.
Lemma wf_change w i f : (forall k, k_bases (f k) = k_bases k) -> wf w -> wf (change w i f).
Proof.
  intros E W j b. unfold bases. rewrite change_nth. destruct (Nat.eqb j i); [|apply W].
  specialize (W j b). unfold bases in W. destruct (nth_error w j); cbn; [rewrite E|]; auto.
Qed.

Lemma add_to_helper_alike w (W : wf w) i dummy m : valid w i = true ->
  exists w', add_to_helper i dummy m w = (w', Ok tt) /\ alike w' (change w i (with_pure None)).
Proof.
  intros V. unfold add_to_helper, sbind, update, modify.
  assert (V' : valid (change w i (with_pure None)) i = true) by (unfold valid; now rewrite change_length).
  assert (W' : wf (change w i (with_pure None))) by (apply wf_change; [reflexivity|assumption]).
  destruct (get_helper_alike _ W' i V') as (w1 & o & -> & A).
  destruct o as [h|]; [|exists w1; split; [reflexivity|assumption]].
  destruct (dummy && _).
  - eexists. split; [reflexivity|]. rewrite !change_compose. eapply alike_trans; [|exact A]. now apply alike_change.
  - eexists. split; [reflexivity|]. eapply alike_trans; [|exact A]. now apply alike_change.
Qed.

Lemma view_with_methods d k : view (with_methods d k) = (fixed_part k, d, k_nonpublic k, k_dummy k, k_pure k).
Proof. reflexivity. Qed.

Lemma add_method_obj_alike w (W : wf w) i m : valid w i = true ->
  exists w', add_method_obj i m w = (w', Ok tt) /\ alike w' (change w i (fun k => resetting (mt_virtual m) (adding m k))).
Proof.
  intros V. unfold add_method_obj.
  destruct (nth_error w i) as [k|] eqn:K; [|apply nth_invalid in K; congruence].
  assert (G : get_cls i w = (w, Ok k)) by (unfold get_cls; now rewrite K). rewrite (sbind_ok _ _ _ _ _ G).
  assert (First : exists w1, (if is_protected (mt_vis m) && negb (mt_virtual m) then _ <~ get_helper_class i ;; ret tt
     else if is_public (mt_vis m) then update i (with_methods (add_overload (k_methods k) (mt_name m) m))
     else update i (with_nonpublic (k_nonpublic k ++ [m]))) w = (w1, Ok tt) /\ alike w1 (change w i (adding m))).
  { unfold adding. destruct (is_protected (mt_vis m) && negb (mt_virtual m)).
    - unfold sbind. destruct (get_helper_alike w W i V) as (w1 & o & -> & A). exists w1. split; [reflexivity|].
      eapply alike_trans; [exact A|]. apply alike_sym. now apply alike_change.
    - destruct (is_public (mt_vis m)); unfold update, modify; eexists; (split; [reflexivity|]).
      + erewrite change_ext; [apply alike_refl|]. intros k' K'. replace k' with k by congruence. reflexivity.
      + erewrite change_ext; [apply alike_refl|]. intros k' K'. replace k' with k by congruence. reflexivity. }
  destruct First as (w1 & E & A).
  rewrite (sbind_ok _ _ _ _ _ E).
  assert (V1 : valid w1 i = true).
  { unfold valid in *. rewrite (alike_length _ _ A), change_length. assumption. }
  assert (W1 : wf w1).
  { eapply wf_alike; [apply alike_sym; exact A|]. apply wf_change; [|assumption]. intros k'. unfold adding.
    destruct (_ && _); [reflexivity|]. destruct (is_public _); reflexivity. }
  destruct (mt_virtual m).
  - destruct (add_to_helper_alike w1 W1 i false m V1) as (w2 & -> & A2). exists w2. split; [reflexivity|].
    eapply alike_trans; [exact A2|]. cbn [resetting]. rewrite <- (change_compose w i (adding m) (with_pure None)). apply alike_update; [assumption|].
    intros k1 k2 E'. unfold view in *. cbn. unfold fixed_part in *. cbn. congruence.
  - exists w1. split; [reflexivity|]. exact A.
Qed.

(** ** The effect of a call *)
Definition answer (w : hier) (i : nat) : bool :=
  match nth_error w i with Some k => match k_pure k with Some b => b | None => fresh w i end | None => false end.

Lemma with_pure_same k b : k_pure k = b -> with_pure b k = k.
Proof. destruct k. cbn. intros <-. reflexivity. Qed.

Lemma get_cls_ok w i k : nth_error w i = Some k -> get_cls i w = (w, Ok k).
Proof. intros H. unfold get_cls. now rewrite H. Qed.
Lemma get_cls_err w i : nth_error w i = None -> get_cls i w = (w, Err Unmodelled).
Proof. intros H. unfold get_cls. now rewrite H. Qed.

Lemma have_pure_ok w (W : wf w) i : valid w i = true ->
  have_pure_virtual_methods i w = (change w i (with_pure (Some (answer w i))), Ok (answer w i)).
Proof.
  intros V. unfold have_pure_virtual_methods.
  destruct (nth_error w i) as [k|] eqn:K; [|apply nth_invalid in K; congruence].
  rewrite (sbind_ok _ _ _ _ _ (get_cls_ok _ _ _ K)). unfold answer. rewrite K.
  destruct (k_pure k) as [b|] eqn:P.
  - unfold ret. f_equal. rewrite (change_ext w i _ (fun k => k)).
    + clear. revert i. induction w; intros [|i]; cbn; f_equal; auto.
    + intros k' K'. apply with_pure_same. congruence.
  - unfold mro_classes, sbind, fresh. destruct (mro_ok w W i) as (l & ->). reflexivity.
Qed.

Lemma fresh_alike w w' i (W : wf w) : alike w w' -> fresh w i = fresh w' i.
Proof.
  intros A. apply fresh_ext; [assumption|apply bases_map; now apply view_fixed|].
  intros n _. pose proof (alike_nth _ _ n A) as E. unfold relevant_of, relevant, cpp_methods, get_all_methods.
  destruct (nth_error w n), (nth_error w' n); cbn in E; try congruence. unfold view in E.
  assert (k_methods c = k_methods c0 /\ k_nonpublic c = k_nonpublic c0 /\ k_dummy c = k_dummy c0) as (-> & -> & ->); [|reflexivity].
  injection E. intros. auto.
Qed.
Lemma answer_alike w w' i (W : wf w) : alike w w' -> answer w i = answer w' i.
Proof.
  intros A. unfold answer. pose proof (alike_nth _ _ i A) as E. rewrite (fresh_alike _ _ i W A).
  destruct (nth_error w i) as [k|], (nth_error w' i) as [k'|]; cbn in E; try congruence.
  assert (P : k_pure k = k_pure k') by (unfold view in E; congruence). now rewrite P.
Qed.

Lemma pure_alike a b : alike a b -> forall i x y, x = y -> alike (change a i (with_pure x)) (change b i (with_pure y)).
Proof.
  intros A i x y <-. apply alike_update; [assumption|]. intros k k' E. unfold view in *. cbn. unfold fixed_part in *. cbn. congruence.
Qed.

Section Effects.
  Variables (dn ds : bool) (ok : method -> bool).
  Notation step := (run_hcall dn ds ok).

  Lemma forward_alike w (W : wf w) i : valid w i = true ->
    exists w' a, generate_forward ok i w = (w', Ok a) /\ alike w' (change w i (with_pure (Some (answer w i)))).
  Proof.
    intros V. unfold generate_forward.
    destruct (nth_error w i) as [k|] eqn:K; [|apply nth_invalid in K; congruence].
    rewrite (sbind_ok _ _ _ _ _ (get_cls_ok _ _ _ K)).
    match goal with |- context [sbind ?m _ w] => assert (First : exists w1 a, m w = (w1, Ok a) /\ alike w1 w) end.
    { destruct (k_helper k) as [h|]; [|exists w, (None, []); split; reflexivity].
      unfold mro_classes, sbind. destruct (mro_ok w W i) as (l & ->).
      destruct (helper_proxies ok _); [destruct (hp_cannot _)|]; unfold update, modify, ret; eexists _, _; (split; [reflexivity|]).
      - rewrite change_compose. now apply alike_change.
      - now apply alike_change.
      - rewrite change_compose. now apply alike_change. }
    destruct First as (w1 & a & E & A). rewrite (sbind_ok _ _ _ _ _ E).
    assert (V1 : valid w1 i = true) by (unfold valid in *; now rewrite (alike_length _ _ A)).
    assert (W1 : wf w1) by (eapply wf_alike; [apply alike_sym; exact A|assumption]).
    rewrite (sbind_ok _ _ _ _ _ (have_pure_ok w1 W1 i V1)).
    set (w2 := change w1 i (with_pure (Some (answer w1 i)))).
    assert (A2 : alike w2 (change w i (with_pure (Some (answer w i))))).
    { unfold w2. apply pure_alike; [assumption|]. f_equal. now apply answer_alike. }
    destruct (nth_error w2 i) as [k2|] eqn:K2.
    2: { apply nth_invalid in K2. unfold w2, valid in K2. rewrite change_length in K2. unfold valid in V1. congruence. }
    rewrite (sbind_ok _ _ _ _ _ (get_cls_ok _ _ _ K2)).
    destruct (_ && _); unfold sbind, update, modify, ret; eexists _, _; (split; [reflexivity|]).
    - eapply alike_trans; [|exact A2]. now apply alike_change.
    - exact A2.
  Qed.

  Inductive effect (w : hier) : hcall -> hier -> Prop :=
  | eff_same c w' : alike w' w -> effect w c w'
  | eff_class d k : k_pure k = None -> relevant k = [] -> (forall b, In b (k_bases k) -> b < length w) ->
      effect w (HClass d) (w ++ [k])
  | eff_method i d w' : md_wrappable d = true ->
      alike w' (change w i (fun k => resetting (mt_virtual (method_of d)) (adding (method_of d) k))) -> effect w (HMethod i d) w'
  | eff_dummy i d w' : md_wrappable d = false -> md_virtual d = Some true ->
      alike w' (change w i (fun k => with_pure None (with_dummy (k_dummy k ++ [method_of d]) k))) -> effect w (HMethod i d) w'
  | eff_function i n w' : alike w' (change w i (adding (mk_method n [] false false false Public true))) -> effect w (HFunction i n) w'
  | eff_ask i c w' : asks i c -> alike w' (change w i (with_pure (Some (answer w i)))) -> effect w c w'.

  Lemma dummy_alike w (W : wf w) i d : valid w i = true ->
    exists w', (k <~ get_cls i ;; update i (with_dummy (k_dummy k ++ [method_of d])) ;~ add_to_helper i true (method_of d)) w = (w', Ok tt) /\
      alike w' (change w i (fun k => with_pure None (with_dummy (k_dummy k ++ [method_of d]) k))).
  Proof.
    intros V. destruct (nth_error w i) as [k|] eqn:K; [|apply nth_invalid in K; congruence].
    rewrite (sbind_ok _ _ _ _ _ (get_cls_ok _ _ _ K)).
    unfold sbind, update, modify.
    set (w1 := change w i (with_dummy (k_dummy k ++ [method_of d]))).
    assert (V1 : valid w1 i = true) by (unfold valid, w1 in *; now rewrite change_length).
    assert (W1 : wf w1) by (apply wf_change; [reflexivity|assumption]).
    destruct (add_to_helper_alike w1 W1 i true (method_of d) V1) as (w2 & -> & A). exists w2. split; [reflexivity|].
    eapply alike_trans; [exact A|]. unfold w1. rewrite change_compose.
    erewrite change_ext; [apply alike_refl|]. intros k' K'. replace k' with k by congruence. reflexivity.
  Qed.

  Lemma construct_name_alike w (W : wf w) i : valid w i = true ->
    exists w' r, get_construct_name i w = (w', r) /\ (alike w' w \/ alike w' (change w i (with_pure (Some (answer w i))))) /\
      (r = Ok tt \/ r = Err CodeGenerationError) /\ (r = Ok tt -> answer w i = false).
  Proof.
    intros V. unfold get_construct_name. destruct (nth_error w i) as [k|] eqn:K; [|apply nth_invalid in K; congruence].
    rewrite (sbind_ok _ _ _ _ _ (get_cls_ok _ _ _ K)).
    destruct (nonempty _).
    - exists w, (Err CodeGenerationError). repeat split; auto; [left; apply alike_refl|discriminate].
    - rewrite (sbind_ok _ _ _ _ _ (have_pure_ok w W i V)). destruct (answer w i) eqn:E.
      + eexists _, _. split; [reflexivity|]. split; [right; apply alike_refl|]. split; [auto|discriminate].
      + eexists _, _. split; [reflexivity|]. split; [right; apply alike_refl|]. split; auto.
  Qed.

  Lemma constructor_alike w (W : wf w) i v : valid w i = true ->
    exists w' r, generate_constructor i v w = (w', r) /\ (alike w' w \/ alike w' (change w i (with_pure (Some (answer w i))))).
  Proof.
    intros V. unfold generate_constructor. destruct (nth_error w i) as [k|] eqn:K; [|apply nth_invalid in K; congruence].
    rewrite (sbind_ok _ _ _ _ _ (get_cls_ok _ _ _ K)).
    destruct (construct_name_alike w W i V) as (w1 & r & E & A & R & _).
    assert (Same : exists w' r0, (w, @Err ctor_code SkipWrapper) = (w', r0) /\ (alike w' w \/ alike w' (change w i (with_pure (Some (answer w i)))))).
    { eexists _, _. split; [reflexivity|]. left. apply alike_refl. }
    destruct v; destruct (k_helper k) as [h|]; try exact Same; cbn [is_public].
    - unfold try_except, sbind. rewrite E. destruct R as [-> | ->]; cbn [exc_eq_dec]; unfold ret.
      + eexists _, _. split; [reflexivity|]. exact A.
      + destruct (exc_eq_dec CodeGenerationError CodeGenerationError); [|congruence]. eexists _, _. split; [reflexivity|]. exact A.
    - unfold sbind. rewrite E. destruct R as [-> | ->]; unfold ret; (eexists _, _; split; [reflexivity|exact A]).
    - eexists _, _. split; [reflexivity|]. left. apply alike_refl.
  Qed.

  Lemma new_class_effect d w : exists w' r, new_class dn ds d w = (w', r) /\
    (w' = w /\ (forall i, r <> Ok i) \/
     exists k, w' = w ++ [k] /\ r = Ok (length w) /\ k_pure k = None /\ relevant k = [] /\
       k_bases k = match cd_parents d with Some l => l | None => [] end /\ (forall b, In b (k_bases k) -> b < length w)).
  Proof.
    assert (Main : forall l, exists w' r, (if forallb (fun b => Nat.ltb b (length w)) l then
          match memory_policy w l (cd_policy d) with
          | Err e => (w, Err e)
          | Ok p =>
              match subclassing ds w l (cd_subclassing d) (cd_destructor d) with
              | Err e => (w, Err e)
              | Ok sub => (w ++ [mk_cls l p (narrowing dn w l (cd_narrowing d)) sub (cd_singleton d) [] [] []
                                   None None false "" [] None None], Ok (length w))
              end
          end
        else (w, Err Unmodelled)) = (w', r) /\
      (w' = w /\ (forall i, r <> Ok i) \/
       exists k, w' = w ++ [k] /\ r = Ok (length w) /\ k_pure k = None /\ relevant k = [] /\ k_bases k = l /\
         (forall b, In b (k_bases k) -> b < length w))).
    { intros l. destruct (forallb _ l) eqn:F.
      - destruct (memory_policy _ _ _) as [p|].
        + destruct (subclassing _ _ _ _ _) as [sub|].
          * eexists _, _. split; [reflexivity|]. right. eexists. split; [reflexivity|]. do 4 (split; [reflexivity|]).
            cbn. intros b Hb. rewrite forallb_forall in F. apply F in Hb. now apply Nat.ltb_lt.
          * eexists _, _. split; [reflexivity|]. left. split; [reflexivity|discriminate].
        + eexists _, _. split; [reflexivity|]. left. split; [reflexivity|discriminate].
      - eexists _, _. split; [reflexivity|]. left. split; [reflexivity|discriminate]. }
    unfold new_class. destruct (cd_parents d) as [[|b l]|].
    - eexists _, _. split; [reflexivity|]. left. split; [reflexivity|discriminate].
    - exact (Main (b :: l)).
    - exact (Main []).
  Qed.

  Lemma simple_effect w i (f : cls -> cls -> cls) c : (forall k k', view (f k k') = view k') ->
    effect w c (fst ((k <~ get_cls i ;; update i (f k) ;~ ret RNothing) w)).
  Proof.
    intros V. apply eff_same. destruct (nth_error w i) as [k|] eqn:K.
    - rewrite (sbind_ok _ _ _ _ _ (get_cls_ok _ _ _ K)). unfold sbind, update, modify, ret. cbn [fst]. now apply alike_change.
    - rewrite (sbind_err _ _ _ _ _ (get_cls_err _ _ K)). apply alike_refl.
  Qed.

  Lemma step_effect w (W : wf w) c : effect w c (fst (step c w)).
  Proof.
    destruct c as [d|i d|i n|i n|i n|i n|i b|i s|i|i|i v]; cbn [run_hcall].
    - destruct (new_class_effect d w) as (w' & r & E & [[-> N]|(k & -> & -> & P & R & _ & B)]); unfold sbind; rewrite E.
      + destruct r as [i|e]; [now elim (N i)|]. apply eff_same, alike_refl.
      + cbn [fst ret]. now apply eff_class.
    - destruct (nth_error w i) as [k|] eqn:K.
      + apply nth_valid in K as V. unfold add_method. destruct (md_wrappable d) eqn:M.
        * destruct (add_method_obj_alike w W i (method_of d) V) as (w' & E & A).
          unfold sbind. rewrite E. cbn. now apply eff_method.
        * destruct (md_virtual d) as [[|]|] eqn:Vd.
          -- destruct (dummy_alike w W i d V) as (w' & E & A). unfold sbind at 1 2. rewrite E. cbn. now apply eff_dummy.
          -- cbn. apply eff_same, alike_refl.
          -- cbn. apply eff_same, alike_refl.
      + apply eff_same. unfold add_method, add_method_obj. destruct (md_wrappable d).
        * unfold sbind at 1 2 3. rewrite (get_cls_err _ _ K). apply alike_refl.
        * destruct (md_virtual d) as [[|]|]; [|apply alike_refl|apply alike_refl].
          unfold sbind at 1 2 3. rewrite (get_cls_err _ _ K). apply alike_refl.
    - destruct (nth_error w i) as [k|] eqn:K.
      + apply nth_valid in K as V. unfold add_function_as_method.
        destruct (add_method_obj_alike w W i (mk_method n [] false false false Public true) V) as (w' & E & A).
        unfold sbind. rewrite E. cbn [fst ret]. now apply eff_function.
      + apply eff_same. unfold add_function_as_method, add_method_obj.
        unfold sbind at 1 2. rewrite (get_cls_err _ _ K). apply alike_refl.
    - apply (simple_effect w i (fun k => with_hooks (k_hooks k ++ [n]))). reflexivity.
    - apply (simple_effect w i (fun k => with_creation (Some n))). reflexivity.
    - apply (simple_effect w i (fun k => with_post (Some n))). reflexivity.
    - apply (simple_effect w i (fun k => with_disabled b)). reflexivity.
    - apply (simple_effect w i (fun k => with_cannot s)). reflexivity.
    - destruct (nth_error w i) as [k|] eqn:K.
      + apply nth_valid in K. unfold sbind. rewrite (have_pure_ok w W i K). cbn [fst ret].
        apply (eff_ask w i); [now left|apply alike_refl].
      + apply eff_same. unfold have_pure_virtual_methods, sbind at 1 2. rewrite (get_cls_err _ _ K). apply alike_refl.
    - destruct (nth_error w i) as [k|] eqn:K.
      + apply nth_valid in K. destruct (forward_alike w W i K) as (w' & a & E & A). unfold sbind. rewrite E. cbn [fst ret].
        apply (eff_ask w i); [right; now left|assumption].
      + apply eff_same. unfold generate_forward, sbind at 1 2. rewrite (get_cls_err _ _ K). apply alike_refl.
    - destruct (nth_error w i) as [k|] eqn:K.
      + apply nth_valid in K. destruct (constructor_alike w W i v K) as (w' & r & E & A). unfold sbind. rewrite E.
        assert (F : fst (match r with Ok a => ret (RCtor a) w' | Err e => (w', Err e) end) = w') by now destruct r.
        replace (fst _) with w' by (destruct r; reflexivity).
        destruct A as [A|A]; [now apply eff_same|]. apply (eff_ask w i); [right; right; eauto|assumption].
      + apply eff_same. unfold generate_constructor, sbind at 1 2. rewrite (get_cls_err _ _ K). apply alike_refl.
  Qed.
End Effects.
