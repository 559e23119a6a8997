(** Members of classes in header files. *)
From Coq Require Import Lia.
From Verif.Model Require Import Py ScanMembers.
From Verif.Spec Require Import ScanMembersSpec.
Open Scope string_scope.
Open Scope list_scope.

Lemma existsb_name n l : existsb (String.eqb n) l = true <-> In n l.
Proof.
  rewrite existsb_exists. split; [intros (x & H & E); apply String.eqb_eq in E; now subst|]. intro H. exists n. split; [assumption|apply String.eqb_refl].
Qed.
Lemma params_ok e l : forallb (fun p => e_param e (fst p)) l = true <-> params_known e l.
Proof.
  rewrite forallb_forall. split; intros H.
  - intros t n Hi. exact (H (t, n) Hi).
  - intros [t n] Hi. exact (H t n Hi).
Qed.
Section Members.
Context (e : env).
(** Is the member looked at? *)
Definition looked_at (m : member) : bool := negb (existsb (String.eqb (member_name m)) (e_counting e)) && negb (member_ignored m).
Lemma looked_wanted m : looked_at m = true <-> wanted e m.
Proof.
  unfold looked_at. rewrite Bool.andb_true_iff, !Bool.negb_true_iff. rewrite <- Bool.not_true_iff_false, existsb_name. destruct m; cbn [member_name member_ignored wanted]; unfold named; reflexivity.
Qed.
Definition constructor_parts (k : ctor) : list call * list call :=
  let c := AddConstructor (k_params k) (k_access k) (k_exceptions k) (k_deprecated k) in
  if is_private (k_access k) then ([], []) else ((if forallb (fun p => e_param e (fst p)) (k_params k) then [c] else []), [c]).
Definition parts (m : member) : list call * list call :=
  if looked_at m then
    match m with
    | Method f => scan_function e (f_custom f) f
    | Operator s f => if String.eqb s "()" then scan_function e (Some "__call__") f else ([], [])
    | Constructor _ k => constructor_parts k
    | Attribute v => scan_variable e v
    | Destructor => ([], [])
    end
  else ([], []).
Definition trivial_of (m : member) : bool :=
  looked_at m && match m with Constructor _ k => negb (is_private (k_access k)) && match k_params k with [] => true | _ => false end | _ => false end.
Definition copy_of (m : member) : bool :=
  looked_at m && match m with Constructor _ k => negb (is_private (k_access k)) && forallb (fun p => e_param e (fst p)) (k_params k) && match k_params k with [_] => k_copy k | _ => false end | _ => false end.
Lemma scan_member_parts s m : scan_member e s m =
  mk_state (s_trivial s || trivial_of m) (s_copy s || copy_of m) (s_calls s ++ fst (parts m)) (s_script s ++ snd (parts m)).
Proof.
  assert (Z : s = mk_state (s_trivial s || false) (s_copy s || false) (s_calls s ++ []) (s_script s ++ [])).
  { rewrite !Bool.orb_false_r, !app_nil_r. now destruct s. }
  unfold scan_member, parts, trivial_of, copy_of, looked_at. destruct (existsb (String.eqb (member_name m)) (e_counting e)); [exact Z|].
  destruct (member_ignored m); [exact Z|]. cbn [negb andb]. destruct m as [f|sym f|n k|v|].
  - unfold emit. now rewrite !Bool.orb_false_r.
  - destruct (String.eqb sym "()"); [|exact Z]. unfold emit. now rewrite !Bool.orb_false_r.
  - unfold scan_constructor, constructor_parts. destruct (is_private (k_access k)); [exact Z|]. cbn [negb andb].
    destruct (k_params k) as [|p [|p2 r]] eqn:Ek.
    + cbn [forallb]. unfold emit; cbn [s_trivial s_copy s_calls s_script fst snd andb]. now rewrite Bool.orb_true_r, Bool.orb_false_r.
    + destruct (forallb (fun p => e_param e (fst p)) [p]); unfold emit; cbn [s_trivial s_copy s_calls s_script fst snd andb].
      * destruct (k_copy k); cbn [s_trivial s_copy s_calls s_script]; now rewrite ?Bool.orb_true_r, ?Bool.orb_false_r.
      * now rewrite !Bool.orb_false_r.
    + destruct (forallb (fun p => e_param e (fst p)) (p :: p2 :: r)); unfold emit; cbn [s_trivial s_copy s_calls s_script fst snd andb]; now rewrite !Bool.orb_false_r.
  - unfold emit. now rewrite !Bool.orb_false_r.
  - exact Z.
Qed.
Lemma fold_parts ms : forall s, fold_left (scan_member e) ms s =
  mk_state (s_trivial s || existsb trivial_of ms) (s_copy s || existsb copy_of ms) (s_calls s ++ flat_map (fun m => fst (parts m)) ms) (s_script s ++ flat_map (fun m => snd (parts m)) ms).
Proof.
  induction ms as [|m ms IH]; intro s; cbn [fold_left existsb flat_map].
  - rewrite !Bool.orb_false_r, !app_nil_r. now destruct s.
  - rewrite IH, scan_member_parts. cbn [s_trivial s_copy s_calls s_script]. now rewrite !Bool.orb_assoc, !app_assoc.
Qed.
Definition hidden_trivial (m : member) : bool :=
  match m with Constructor _ k => negb (is_public (k_access k)) && match k_params k with [] => true | _ => false end | _ => false end.
Definition hidden_copy (m : member) : bool :=
  match m with Constructor _ k => negb (is_public (k_access k)) && match k_params k with [_] => k_copy k | _ => false end | _ => false end.
Lemma fold_hidden ms : forall s, fold_left hidden_constructor ms s =
  mk_state (s_trivial s || existsb hidden_trivial ms) (s_copy s || existsb hidden_copy ms) (s_calls s) (s_script s).
Proof.
  induction ms as [|m ms IH]; intro s; cbn [fold_left existsb].
  - rewrite !Bool.orb_false_r. now destruct s.
  - rewrite IH, !Bool.orb_assoc.
    assert (H : hidden_constructor s m = mk_state (s_trivial s || hidden_trivial m) (s_copy s || hidden_copy m) (s_calls s) (s_script s)).
    { destruct s as [t c cs sc]. destruct m as [f|sym f|n k|v|]; cbn [hidden_constructor hidden_trivial hidden_copy s_trivial s_copy s_calls s_script]; rewrite ?Bool.orb_false_r; try reflexivity.
      destruct (is_public (k_access k)); cbn [negb andb]; [now rewrite !Bool.orb_false_r|]. destruct (k_params k) as [|p [|p2 r]].
      - now rewrite Bool.orb_true_r, Bool.orb_false_r.
      - destruct (k_copy k); now rewrite ?Bool.orb_true_r, ?Bool.orb_false_r.
      - now rewrite !Bool.orb_false_r. }
    rewrite H. reflexivity.
Qed.
Definition implicit_trivial (ms : list member) : bool := negb (existsb hidden_trivial ms || existsb trivial_of ms) && e_trivial e.
Definition implicit_copy (ms : list member) : bool := negb (existsb hidden_copy ms || existsb copy_of ms) && e_copy e.
Definition implicit (ms : list member) : list call :=
  (if implicit_trivial ms then [AddConstructor [] APublic [] false] else []) ++ (if implicit_copy ms then [AddCopyConstructor] else []).
Lemma scan_members_parts ms : scan_members e ms = (flat_map (fun m => fst (parts m)) ms ++ implicit ms, flat_map (fun m => snd (parts m)) ms ++ implicit ms).
Proof.
  unfold scan_members, implicit, implicit_trivial, implicit_copy. cbv zeta. rewrite fold_hidden, fold_parts. cbn [s_trivial s_copy s_calls s_script orb app].
  destruct (negb (existsb hidden_trivial ms || existsb trivial_of ms) && e_trivial e); unfold emit; cbn [s_trivial s_copy s_calls s_script fst snd];
  destruct (negb (existsb hidden_copy ms || existsb copy_of ms) && e_copy e); cbn [s_trivial s_copy s_calls s_script fst snd app]; now rewrite ?app_nil_r, <- ?app_assoc.
Qed.

(** ** One member *)
Lemma method_args_describes f custom : describes f custom (method_args custom f).
Proof.
  constructor; cbn; try reflexivity.
  - destruct (f_virtuality f); cbn; split; intro H; congruence.
  - destruct (f_virtuality f); cbn; split; intro H; congruence.
  - destruct (f_exceptions f); [right|left]; split; congruence.
Qed.
Lemma describes_unique f custom d : describes f custom d -> d = method_args custom f.
Proof.
  intros [A B C D F G H I J K L M]. destruct d as [d1 d2 d3 d4 d5 d6 d7 d8 d9 d10 d11 d12]. cbn in *. subst. unfold method_args.
  assert (V : d9 = is_virtual (f_virtuality f)) by (destruct d9, (f_virtuality f); cbn in *; try reflexivity; exfalso; intuition congruence).
  assert (P : d10 = is_pure (f_virtuality f)) by (destruct d10, (f_virtuality f); cbn in *; try reflexivity; exfalso; intuition congruence).
  assert (T : d6 = match f_exceptions f with [] => f_annotated f | l => l end) by (destruct M as [[M1 ->]|[M1 ->]]; [destruct (f_exceptions f); congruence|now rewrite M1]).
  now subst.
Qed.
Definition relevantb (f : func) : bool := negb (is_private (f_access f) && negb (is_virtual (f_virtuality f))).
Lemma relevant_b f : relevantb f = true <-> relevant f.
Proof. unfold relevantb, relevant. destruct (f_access f), (f_virtuality f); cbn; split; intro H; try reflexivity; try discriminate; try (left; discriminate); try (right; discriminate). destruct H; congruence. Qed.
Definition function_added (f : func) (custom : option string) : bool :=
  relevantb f && e_return e (f_return f) && forallb (fun p => e_param e (fst p)) (f_params f) && e_accepts e (method_args custom f).
Lemma function_calls f custom : filter addition (fst (scan_function e custom f)) = if function_added f custom then [AddMethod (method_args custom f)] else [].
Proof.
  unfold scan_function, function_added, relevantb. cbv zeta.
  assert (P : forall b c : bool, filter addition (if b && c then [SetCannotBeConstructed] else []) = []) by (intros [] []; reflexivity).
  assert (U : forall b : bool, filter addition (if b then [SetCannotBeConstructed; DisableHelper] else []) = []) by (intros []; reflexivity).
  destruct (is_private (f_access f) && negb (is_virtual (f_virtuality f))); cbn [negb andb fst]; [apply P|].
  destruct (e_return e (f_return f)); cbn [negb andb fst]; [|now rewrite filter_app, P, U].
  destruct (forallb (fun p => e_param e (fst p)) (f_params f)); cbn [negb andb fst]; [|now rewrite filter_app, P, U].
  destruct (e_accepts e (method_args custom f)); cbn [negb andb fst]; rewrite filter_app, P; [reflexivity|]. now rewrite U.
Qed.
Lemma function_script f custom : filter (fun c => addition c && succeeds e c) (snd (scan_function e custom f)) = if function_added f custom then [AddMethod (method_args custom f)] else [].
Proof.
  unfold scan_function, function_added, relevantb. cbv zeta.
  assert (U : forall b : bool, filter (fun c => addition c && succeeds e c) (if b then [SetCannotBeConstructed; DisableHelper] else []) = []) by (intros []; reflexivity).
  destruct (is_private (f_access f) && negb (is_virtual (f_virtuality f))); cbn [negb andb snd]; [reflexivity|].
  destruct (e_return e (f_return f)) eqn:E1; cbn [negb andb snd].
  2: { cbn [filter addition succeeds andb method_args d_return]. now rewrite E1. }
  destruct (forallb (fun p => e_param e (fst p)) (f_params f)) eqn:E2; cbn [negb andb snd].
  2: { cbn [filter addition succeeds andb method_args d_return d_params]. now rewrite E1, E2. }
  destruct (e_accepts e (method_args custom f)) eqn:E3; cbn [negb andb snd filter addition succeeds method_args d_return d_params] in *; rewrite E1, E2; fold (method_args custom f) in *; rewrite E3; [reflexivity|apply U].
Qed.
Lemma private_spec a : is_private a = false <-> a <> APrivate.
Proof. destruct a; cbn; split; congruence. Qed.
Lemma public_spec a : is_public a = false <-> a <> APublic.
Proof. destruct a; cbn; split; congruence. Qed.
Lemma constructor_script k : filter (fun c => addition c && succeeds e c) (snd (constructor_parts k)) = fst (constructor_parts k) /\ filter addition (fst (constructor_parts k)) = fst (constructor_parts k).
Proof.
  unfold constructor_parts. cbv zeta. destruct (is_private (k_access k)); [now split|]. cbn [fst snd filter addition succeeds andb].
  destruct (forallb (fun p => e_param e (fst p)) (k_params k)); now split.
Qed.
Lemma variable_script v : filter (fun c => addition c && succeeds e c) (snd (scan_variable e v)) = fst (scan_variable e v) /\ filter addition (fst (scan_variable e v)) = fst (scan_variable e v).
Proof.
  unfold scan_variable. cbv zeta. destruct (String.eqb (v_name v) ""); [now split|]. destruct (is_public (v_access v)); cbn [negb]; [|now split]. destruct (v_untyped v); [now split|].
  cbn [fst snd]. destruct (v_static v); cbn [filter addition succeeds andb]; destruct (e_return e (v_type v)); now split.
Qed.
Lemma part_script m : filter (fun c => addition c && succeeds e c) (snd (parts m)) = filter addition (fst (parts m)).
Proof.
  unfold parts. destruct (looked_at m); [|reflexivity]. destruct m as [f|sym f|n k|v|].
  - now rewrite function_script, function_calls.
  - destruct (String.eqb sym "()"); [|reflexivity]. now rewrite function_script, function_calls.
  - destruct (constructor_script k) as [A B]. now rewrite A, B.
  - destruct (variable_script v) as [A B]. now rewrite A, B.
  - reflexivity.
Qed.
Lemma filter_flat {A B} (p : B -> bool) (f : A -> list B) l : filter p (flat_map f l) = flat_map (fun x => filter p (f x)) l.
Proof. induction l as [|a l IH]; [reflexivity|]. cbn [flat_map]. now rewrite filter_app, IH. Qed.
Lemma implicit_additions ms : filter addition (implicit ms) = implicit ms /\ filter (fun c => addition c && succeeds e c) (implicit ms) = implicit ms.
Proof. unfold implicit. destruct (implicit_trivial ms), (implicit_copy ms); now split. Qed.
Lemma script_ok ms : filter (fun c => addition c && succeeds e c) (snd (scan_members e ms)) = filter addition (fst (scan_members e ms)).
Proof.
  rewrite scan_members_parts. cbn [fst snd]. rewrite !filter_app, !filter_flat. destruct (implicit_additions ms) as [A B]. rewrite A, B. f_equal.
  apply flat_map_ext. apply part_script.
Qed.

(** ** What is added *)
Lemma part_adds m : exists l, filter addition (fst (parts m)) = l /\ ((exists c, l = [c] /\ adds e m c) \/ l = [] /\ forall c, ~ adds e m c).
Proof.
  eexists. split; [reflexivity|]. unfold parts. destruct (looked_at m) eqn:EL.
  2: { right. split; [reflexivity|]. intros c [W _]. apply looked_wanted in W. congruence. }
  apply looked_wanted in EL.
  assert (Meth : forall f custom, as_method m f custom -> (forall f' custom', as_method m f' custom' -> f' = f /\ custom' = custom) ->
    (forall c, adds e m c <-> (wanted e m /\ exists f custom d, as_method m f custom /\ relevant f /\ types_known e f /\ describes f custom d /\ e_accepts e d = true /\ c = AddMethod d)) ->
    (exists c, filter addition (fst (scan_function e custom f)) = [c] /\ adds e m c) \/ filter addition (fst (scan_function e custom f)) = [] /\ forall c, ~ adds e m c).
  { intros f custom Ha Hu Hadds. rewrite function_calls. unfold function_added.
    destruct (relevantb f && e_return e (f_return f) && forallb (fun p => e_param e (fst p)) (f_params f) && e_accepts e (method_args custom f)) eqn:EF.
    - left. eexists. split; [reflexivity|]. apply Hadds. split; [assumption|]. rewrite !Bool.andb_true_iff in EF. destruct EF as [[[E1 E2] E3] E4].
      exists f, custom, (method_args custom f). split; [assumption|]. split; [now apply relevant_b|]. split; [split; [assumption|now apply params_ok]|]. split; [apply method_args_describes|]. now split.
    - right. split; [reflexivity|]. intros c Hc. apply Hadds in Hc. destruct Hc as (_ & f' & custom' & d & H1 & H2 & [H3 H4] & H5 & H6 & _). destruct (Hu _ _ H1) as [-> ->].
      apply describes_unique in H5. subst d. apply relevant_b in H2. apply params_ok in H4. rewrite H2, H3, H4, H6 in EF. discriminate. }
  destruct m as [f|sym f|n k|v|].
  - apply Meth; [constructor| |intro c; reflexivity]. intros f' c' H. inversion H; subst. now split.
  - destruct (String.eqb sym "()") eqn:ES.
    + apply String.eqb_eq in ES. subst sym. apply Meth; [constructor| |intro c; reflexivity]. intros f' c' H. inversion H; subst. now split.
    + right. split; [reflexivity|]. intros c (_ & f' & custom & d & H & _). inversion H; subst. discriminate.
  - destruct (constructor_script k) as [_ ->]. unfold constructor_parts. cbv zeta. destruct (is_private (k_access k)) eqn:EP.
    + right. split; [reflexivity|]. intros c (_ & H & _). apply private_spec in H. congruence.
    + apply private_spec in EP. cbn [fst]. destruct (forallb (fun p => e_param e (fst p)) (k_params k)) eqn:EK.
      * left. eexists. split; [reflexivity|]. split; [assumption|]. split; [assumption|]. split; [now apply params_ok|reflexivity].
      * right. split; [reflexivity|]. intros c (_ & _ & H & _). apply params_ok in H. congruence.
  - destruct (variable_script v) as [_ ->]. unfold scan_variable. cbv zeta.
    destruct (String.eqb (v_name v) "") eqn:E1; [right; split; [reflexivity|]; intros c (_ & (H & _) & _); apply String.eqb_eq in E1; congruence|].
    apply String.eqb_neq in E1. destruct (is_public (v_access v)) eqn:E2; cbn [negb].
    2: { right. split; [reflexivity|]. intros c (_ & (_ & H & _) & _). apply public_spec in E2. congruence. }
    assert (E2' : v_access v = APublic) by (destruct (v_access v); cbn in E2; congruence).
    destruct (v_untyped v) eqn:E3; [right; split; [reflexivity|]; intros c (_ & (_ & _ & H) & _); congruence|].
    cbn [fst]. destruct (e_return e (v_type v)) eqn:E4.
    + left. eexists. split; [reflexivity|]. split; [assumption|]. split; [now split|]. split; [assumption|]. unfold attribute_call. destruct (v_static v); [left|right]; now split.
    + right. split; [reflexivity|]. intros c (_ & _ & H & _). congruence.
  - right. split; [reflexivity|]. intros c [_ []].
Qed.
Lemma added_parts ms : added e ms (flat_map (fun m => filter addition (fst (parts m))) ms).
Proof.
  induction ms as [|m ms IH]; cbn [flat_map]; [constructor|]. destruct (part_adds m) as (l & -> & [(c & -> & H)|[-> H]]).
  - now apply added_one.
  - now apply added_none.
Qed.
Lemma existsb_iff {A} (p : A -> bool) (P : A -> Prop) l : (forall x, p x = true <-> P x) -> (existsb p l = true <-> exists x, In x l /\ P x).
Proof. intro H. rewrite existsb_exists. split; intros (x & A1 & A2); exists x; split; try assumption; now apply H. Qed.
Lemma hidden_trivial_iff m : hidden_trivial m = true <-> default_constructor m /\ not_public m.
Proof.
  split.
  - destruct m as [f|sym f|n k|v|]; cbn [hidden_trivial]; try discriminate. intro H. apply andb_prop in H. destruct H as [A B]. apply Bool.negb_true_iff, public_spec in A.
    split; [exists n, k; split; [reflexivity|]; now destruct (k_params k)|]. now exists n, k.
  - intros [(n & k & -> & H) (n' & k' & E & A)]. injection E as <- <-. cbn [hidden_trivial]. rewrite H. apply public_spec in A. now rewrite A.
Qed.
Lemma trivial_of_iff m : trivial_of m = true <-> default_constructor m /\ wanted e m /\ not_private m.
Proof.
  unfold trivial_of. rewrite Bool.andb_true_iff, looked_wanted. split.
  - intros [W H]. destruct m as [f|sym f|n k|v|]; try discriminate. apply andb_prop in H. destruct H as [A B]. apply Bool.negb_true_iff, private_spec in A.
    split; [exists n, k; split; [reflexivity|]; now destruct (k_params k)|]. split; [assumption|now exists n, k].
  - intros [(n & k & -> & H) [W (n' & k' & E & A)]]. injection E as <- <-. split; [assumption|]. rewrite H. apply private_spec in A. now rewrite A.
Qed.
Lemma hidden_copy_iff m : hidden_copy m = true <-> copy_constructor m /\ not_public m.
Proof.
  split.
  - destruct m as [f|sym f|n k|v|]; cbn [hidden_copy]; try discriminate. intro H. apply andb_prop in H. destruct H as [A B]. apply Bool.negb_true_iff, public_spec in A.
    split; [|now exists n, k]. destruct (k_params k) as [|p [|p2 r]] eqn:E; try discriminate. now exists n, k, p.
  - intros [(n & k & p & -> & H & C) (n' & k' & E & A)]. injection E as <- <-. cbn [hidden_copy]. rewrite H, C. apply public_spec in A. now rewrite A.
Qed.
Lemma copy_of_iff m : copy_of m = true <-> copy_constructor m /\ exists c, adds e m c.
Proof.
  unfold copy_of. rewrite Bool.andb_true_iff, looked_wanted. split.
  - intros [W H]. destruct m as [f|sym f|n k|v|]; try discriminate. rewrite !Bool.andb_true_iff in H. destruct H as [[A K] B]. apply Bool.negb_true_iff, private_spec in A.
    destruct (k_params k) as [|p [|p2 r]] eqn:E; try discriminate. split; [now exists n, k, p|].
    eexists. split; [assumption|]. split; [assumption|]. split; [apply params_ok; now rewrite E|reflexivity].
  - intros [(n & k & p & -> & H & C) (c & W & A & K & _)]. split; [assumption|]. apply params_ok in K. apply private_spec in A. rewrite A, K, H, C. reflexivity.
Qed.
Lemma implicit_trivial_iff ms : implicit_trivial ms = true <-> e_trivial e = true /\ ~ exists m, In m ms /\ default_constructor m /\ (not_public m \/ wanted e m /\ not_private m).
Proof.
  unfold implicit_trivial. rewrite Bool.andb_true_iff, Bool.negb_true_iff, Bool.orb_false_iff, <- !Bool.not_true_iff_false.
  rewrite (existsb_iff _ _ ms hidden_trivial_iff), (existsb_iff _ _ ms trivial_of_iff). split.
  - intros [[A B] C]. split; [assumption|]. intros (m & Hm & D & [H|H]); [apply A|apply B]; exists m; auto.
  - intros [A B]. split; [|assumption]. split; intros (m & Hm & D & H); apply B; exists m; auto.
Qed.
Lemma implicit_copy_iff ms : implicit_copy ms = true <-> e_copy e = true /\ ~ exists m, In m ms /\ copy_constructor m /\ (not_public m \/ exists c, adds e m c).
Proof.
  unfold implicit_copy. rewrite Bool.andb_true_iff, Bool.negb_true_iff, Bool.orb_false_iff, <- !Bool.not_true_iff_false.
  rewrite (existsb_iff _ _ ms hidden_copy_iff), (existsb_iff _ _ ms copy_of_iff). split.
  - intros [[A B] C]. split; [assumption|]. intros (m & Hm & D & [H|H]); [apply A|apply B]; exists m; auto.
  - intros [A B]. split; [|assumption]. split; intros (m & Hm & D & H); apply B; exists m; auto.
Qed.

(** ** Abstract classes *)
Lemma function_cannot f custom c : c = SetCannotBeConstructed \/ c = DisableHelper ->
  (In c (fst (scan_function e custom f)) <-> f_virtuality f = VPure /\ (~ (types_known e f /\ e_accepts e (method_args custom f) = true) \/ c = SetCannotBeConstructed /\ e_subclassing e = false)).
Proof.
  intro Hc. unfold scan_function, types_known. cbv zeta. rewrite <- params_ok.
  destruct (f_virtuality f) eqn:EV; cbn [is_pure is_virtual andb negb].
  - split; [|intros [H _]; discriminate]. intro H. exfalso. revert H. destruct (is_private (f_access f)); cbn [andb]; [intros []|].
    destruct (e_return e (f_return f)); cbn [negb]; [|intros []]. destruct (forallb _ _); cbn [negb]; [|intros []]. destruct (e_accepts e _); cbn; intros H; [|destruct H]. destruct H as [H|[]]. destruct Hc; congruence.
  - split; [|intros [H _]; discriminate]. intro H. exfalso. revert H. rewrite Bool.andb_false_r.
    destruct (e_return e (f_return f)); cbn [negb]; [|intros []]. destruct (forallb _ _); cbn [negb]; [|intros []]. destruct (e_accepts e _); cbn; intros H; [|destruct H]. destruct H as [H|[]]. destruct Hc; congruence.
  - rewrite Bool.andb_false_r. split.
    + intro H. split; [reflexivity|]. revert H.
      destruct (e_return e (f_return f)) eqn:E1; cbn [negb fst]; [|intros _; left; intros [[? _] _]; congruence].
      destruct (forallb (fun p => e_param e (fst p)) (f_params f)) eqn:E2; cbn [negb fst]; [|intros _; left; intros [[_ ?] _]; congruence].
      destruct (e_accepts e (method_args custom f)) eqn:E3; cbn [fst]; [|intros _; left; intros [_ ?]; congruence].
      intro H. right. apply in_app_or in H. destruct (e_subclassing e); cbn in H; destruct H as [H|H]; try (destruct H as [H|[]]); try contradiction; destruct Hc; try congruence; now split.
    + intros [_ H].
      assert (U : In c [SetCannotBeConstructed; DisableHelper]) by (cbn; destruct Hc; subst; tauto).
      destruct (e_return e (f_return f)) eqn:E1; cbn [negb fst]; [|apply in_or_app; now right].
      destruct (forallb (fun p => e_param e (fst p)) (f_params f)) eqn:E2; cbn [negb fst]; [|apply in_or_app; now right].
      destruct (e_accepts e (method_args custom f)) eqn:E3; cbn [fst]; [|apply in_or_app; now right].
      destruct H as [H|[-> ->]]; [exfalso; apply H; auto|]. now left.
Qed.
Lemma in_calls ms c : In c (fst (scan_members e ms)) <-> (exists m, In m ms /\ In c (fst (parts m))) \/ In c (implicit ms).
Proof. rewrite scan_members_parts. cbn [fst]. rewrite in_app_iff, in_flat_map. reflexivity. Qed.
Lemma cannot_iff ms c : c = SetCannotBeConstructed \/ c = DisableHelper ->
  (In c (fst (scan_members e ms)) <-> exists m f custom, In m ms /\ wanted e m /\ as_method m f custom /\ f_virtuality f = VPure /\
     ((forall d, ~ (types_known e f /\ describes f custom d /\ e_accepts e d = true)) \/ c = SetCannotBeConstructed /\ e_subclassing e = false)).
Proof.
  intro Hc. rewrite in_calls.
  assert (NI : ~ In c (implicit ms)).
  { unfold implicit. destruct (implicit_trivial ms), (implicit_copy ms); cbn; intro H; destruct Hc; subst; intuition discriminate. }
  assert (EQ : forall f custom, ~ (types_known e f /\ e_accepts e (method_args custom f) = true) <-> (forall d, ~ (types_known e f /\ describes f custom d /\ e_accepts e d = true))).
  { intros f custom. split.
    - intros H d (A & B & C). apply H. split; [assumption|]. apply describes_unique in B. now subst.
    - intros H [A B]. apply (H (method_args custom f)). split; [assumption|]. split; [apply method_args_describes|assumption]. }
  assert (PM : forall m, In c (fst (parts m)) <-> exists f custom, wanted e m /\ as_method m f custom /\ In c (fst (scan_function e custom f))).
  { intro m. unfold parts. destruct (looked_at m) eqn:EL.
    2: { split; [intros []|]. intros (f & custom & W & _). apply looked_wanted in W. congruence. }
    apply looked_wanted in EL. split.
    - intro H. destruct m as [f|sym f|n k|v|].
      + exists f, (f_custom f). split; [assumption|]. split; [constructor|assumption].
      + destruct (String.eqb sym "()") eqn:ES; [|destruct H]. apply String.eqb_eq in ES. subst. exists f, (Some "__call__"). split; [assumption|]. split; [constructor|assumption].
      + exfalso. destruct (constructor_script k) as [_ B]. rewrite <- B in H. apply filter_In in H. destruct H as [_ H]. destruct Hc; subst; discriminate.
      + exfalso. destruct (variable_script v) as [_ B]. rewrite <- B in H. apply filter_In in H. destruct H as [_ H]. destruct Hc; subst; discriminate.
      + destruct H.
    - intros (f & custom & _ & A & H). inversion A; subst; [assumption|]. cbn. assumption. }
  split.
  - intros [(m & Hm & H)|H]; [|contradiction]. apply PM in H. destruct H as (f & custom & W & A & H). apply function_cannot in H; [|assumption]. destruct H as [V H].
    exists m, f, custom. split; [assumption|]. split; [assumption|]. split; [assumption|]. split; [assumption|]. destruct H as [H|H]; [left; now apply EQ|now right].
  - intros (m & f & custom & Hm & W & A & V & H). left. exists m. split; [assumption|]. apply PM. exists f, custom. split; [assumption|]. split; [assumption|].
    apply function_cannot; [assumption|]. split; [assumption|]. destruct H as [H|H]; [left; now apply EQ|now right].
Qed.
End Members.
