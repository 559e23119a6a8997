From Verif.Model Require Import Py PygenScript.
From Verif.Spec Require Import PygenSpec.
Require Import Lia Permutation.
Open Scope string_scope.
Open Scope list_scope.

Fixpoint namespace_induction (P : namespace -> Prop)
    (H : forall x ts fs ns, (forall m, In m ns -> P m) -> P (mk_namespace x ts fs ns)) (n : namespace) : P n :=
  match n with
  | mk_namespace x ts fs ns => H x ts fs ns
      ((fix go (l : list namespace) : forall m, In m l -> P m :=
          match l with
          | [] => fun m F => match F with end
          | y :: r => fun m F => match F with or_introl E => eq_ind y P (namespace_induction P H y) m E | or_intror G => go r m G end
          end) ns)
  end.

(** ** What a scan writes to each sink *)
Section Effects.
  Context (sections : list nat).
  Definition eff (a b : nat) (ls : nat -> list (nat * line)) (m : list entry) (w w' : world) : Prop :=
    (forall s, In s sections -> k_level (w_sinks w s) = a) ->
    w_memory w' = w_memory w ++ m /\ (forall s, In s sections -> w_sinks w' s = mk_sink b (k_lines (w_sinks w s) ++ ls s)).
  Lemma eff_seq a b c l1 l2 m1 m2 w w1 w2 :
    eff a b l1 m1 w w1 -> eff b c l2 m2 w1 w2 -> eff a c (fun s => l1 s ++ l2 s) (m1 ++ m2) w w2.
  Proof.
    intros H1 H2 L. destruct (H1 L) as [M1 S1]. destruct H2 as [M2 S2]. { intros s Hs. now rewrite (S1 s Hs). }
    split. { now rewrite M2, M1, app_assoc. }
    intros s Hs. rewrite (S2 s Hs), (S1 s Hs). cbn. now rewrite app_assoc.
  Qed.
  Lemma eff_same a b l l' m m' w w' : (forall s, In s sections -> l s = l' s) -> m = m' -> eff a b l m w w' -> eff a b l' m' w w'.
  Proof. intros E -> H L. destruct (H L) as [M S]. split; [exact M|]. intros s Hs. rewrite (S s Hs). now rewrite (E s Hs). Qed.
  Lemma eff_nil a w : eff a a (fun _ => []) [] w w.
  Proof. intros L. split. { now rewrite app_nil_r. } intros s Hs. rewrite app_nil_r. rewrite <- (L s Hs). now destruct (w_sinks w s). Qed.
  Lemma eff_fold {A} a (f : world -> A -> world) (L : A -> nat -> list (nat * line)) (M : A -> list entry) (l : list A) :
    (forall x w, In x l -> eff a a (L x) (M x) w (f w x)) ->
    forall w, eff a a (fun s => flat_map (fun x => L x s) l) (flat_map M l) w (fold_left f l w).
  Proof.
    induction l as [|x l IH]; intros H w. { apply eff_nil. }
    cbn [fold_left flat_map]. eapply eff_seq. { apply H. now left. } apply IH. intros y w' Hy. apply H. now right.
  Qed.
  Lemma eff_all a b f ls w :
    (forall k, k_level k = a -> f k = mk_sink b (k_lines k ++ ls)) -> eff a b (fun _ => ls) [] w (all sections f w).
  Proof.
    intros H L. split. { cbn. now rewrite app_nil_r. }
    intros s Hs. cbn. assert (existsb (Nat.eqb s) sections = true) as ->. { apply existsb_exists. exists s. split; [exact Hs|apply Nat.eqb_refl]. }
    apply H. now apply L.
  Qed.
  Lemma eff_only a x f ls w :
    (forall k, k_level k = a -> f k = mk_sink a (k_lines k ++ ls)) -> eff a a (fun s => if Nat.eqb s x then ls else []) [] w (only x f w).
  Proof.
    intros H L. split. { cbn. now rewrite app_nil_r. }
    intros s Hs. cbn. destruct (Nat.eqb s x). { apply H. now apply L. }
    rewrite app_nil_r, <- (L s Hs). now destruct (w_sinks w s).
  Qed.
  Lemma eff_remember a l m w w' e : eff a a l m w w' -> eff a a l (m ++ [e]) w (remember e w').
  Proof. intros H L. destruct (H L) as [M S]. split; [|exact S]. cbn. now rewrite M, app_assoc. Qed.

  Definition items (a s : nat) (l : list (nat * nat)) : list (nat * line) := flat_map (fun i => if Nat.eqb s (snd i) then [(a, LAdd (fst i))] else []) l.
  Lemma eff_items a path l w :
    eff a a (fun s => items a s l) (flat_map (fun i => if every (snd i) then [InModule path (fst i)] else []) l) w
      (fold_left (fun w i => remember (InModule path (fst i)) (only (snd i) (writeln (LAdd (fst i))) w)) l w).
  Proof.
    unfold items. apply (eff_fold a (fun w i => remember (InModule path (fst i)) (only (snd i) (writeln (LAdd (fst i))) w))
      (fun i s => if Nat.eqb s (snd i) then [(a, LAdd (fst i))] else []) (fun i => if every (snd i) then [InModule path (fst i)] else [])).
    intros i w' _. cbn [every]. change [InModule path (fst i)] with ([] ++ [InModule path (fst i)]). apply eff_remember, eff_only.
    intros k K. unfold writeln. now rewrite K.
  Qed.
  Definition calls (f : string) (l : list nat) : list (nat * line) :=
    flat_map (fun x => if Nat.eqb x 0 then [] else [(1, LBegin x); (1, LSection x f); (1, LEnd x)]) l.
  Definition main_calls (f : string) (s : nat) : list (nat * line) := if Nat.eqb s 0 then calls f sections else [].
  Lemma eff_section_calls f w : eff 1 1 (main_calls f) [] w (section_calls sections f w).
  Proof.
    unfold section_calls. eapply (eff_same _ _ (fun s => flat_map (fun x => if Nat.eqb x 0 then [] else if Nat.eqb s 0 then [(1, LBegin x); (1, LSection x f); (1, LEnd x)] else []) sections) _ (flat_map (fun _ => []) sections)).
    - intros s _. unfold main_calls, calls. destruct (Nat.eqb s 0) eqn:E.
      + reflexivity.
      + clear. induction sections as [|x l IH]; [reflexivity|]. cbn [flat_map]. rewrite IH. now destruct (Nat.eqb x 0).
    - clear. induction sections as [|x l IH]; [reflexivity|]. exact IH.
    - apply (eff_fold 1 _ (fun x s => if Nat.eqb x 0 then [] else if Nat.eqb s 0 then [(1, LBegin x); (1, LSection x f); (1, LEnd x)] else []) (fun _ => [])).
      intros x w' _. destruct (Nat.eqb x 0). { apply eff_nil. }
      apply eff_only. intros k K. unfold writeln. cbn. now rewrite K, <- !app_assoc.
  Qed.

  (** types *)
  Definition nested_call (path : list string) (m : namespace) : list (nat * line) :=
    [(1, LBlank); (1, LBlank); (1, LBlank); (1, LNestedModule (ns_name m)); (1, LCallNested (types_function (path ++ [ns_name m]))); (1, LBlank)].
  Fixpoint types_text (name : string) (path : list string) (n : namespace) (s : nat) : list (nat * line) :=
    match n with
    | mk_namespace _ ts _ ns =>
        [(0, LDef name); (1, LRoot); (1, LBlank)] ++ (if String.eqb name "register_types" then main_calls "register_types" s else []) ++
        items 1 s ts ++ flat_map (nested_call path) ns ++ [(0, LBlank)] ++
        flat_map (fun m => types_text (types_function (path ++ [ns_name m])) (path ++ [ns_name m]) m s) ns
    end.
  Lemma flat_map_nil {A B} (l : list A) : flat_map (fun _ => @nil B) l = [].
  Proof. now induction l. Qed.
  Lemma eff_types n : forall name path w, eff 0 0 (types_text name path n) (types_in every path n) w (scan_types sections name path n w).
  Proof.
    induction n as [x ts fs ns IH] using namespace_induction. intros name path w. cbn [scan_types types_text types_in].
    set (f1 := fun k => writeln LBlank (writeln LRoot (indent (writeln (LDef name) k)))).
    set (w1 := all sections f1 w).
    set (w2 := if String.eqb name "register_types" then section_calls sections "register_types" w1 else w1).
    set (w3 := fold_left _ ts w2).
    set (w4 := fold_left _ ns w3).
    set (f5 := fun k => writeln LBlank (unindent k)).
    set (w5 := all sections f5 w4).
    assert (E1 : eff 0 1 (fun _ => [(0, LDef name); (1, LRoot); (1, LBlank)]) [] w w1).
    { apply eff_all. intros k K. unfold f1, writeln, indent. cbn. rewrite K, <- !app_assoc. reflexivity. }
    assert (E2 : eff 1 1 (fun s => if String.eqb name "register_types" then main_calls "register_types" s else []) [] w1 w2).
    { unfold w2. destruct (String.eqb name "register_types"). - apply eff_section_calls. - apply eff_nil. }
    assert (E3 := eff_items 1 path ts w2). fold w3 in E3.
    assert (E4 : eff 1 1 (fun s => flat_map (nested_call path) ns) (flat_map (fun _ => []) ns) w3 w4).
    { apply (eff_fold 1 _ (fun m _ => nested_call path m) (fun _ => [])). intros m w' _. apply eff_all.
      intros k K. unfold writeln, nested_call. cbn. rewrite K, <- !app_assoc. reflexivity. }
    assert (E5 : eff 1 0 (fun _ => [(0, LBlank)]) [] w4 w5).
    { apply eff_all. intros k K. unfold f5, writeln, unindent. cbn. now rewrite K. }
    assert (E6 := eff_fold 0 (fun w m => scan_types sections (types_function (path ++ [ns_name m])) (path ++ [ns_name m]) m w)
      (fun m s => types_text (types_function (path ++ [ns_name m])) (path ++ [ns_name m]) m s) (fun m => types_in every (path ++ [ns_name m]) m) ns
      (fun m w' Hm => IH m Hm _ _ w') w5).
    refine (eff_same _ _ _ _ _ _ _ _ _ _ (eff_seq _ _ _ _ _ _ _ _ _ _ E1 (eff_seq _ _ _ _ _ _ _ _ _ _ E2 (eff_seq _ _ _ _ _ _ _ _ _ _ E3 (eff_seq _ _ _ _ _ _ _ _ _ _ E4
      (eff_seq _ _ _ _ _ _ _ _ _ _ E5 E6)))))).
    - intros s _. reflexivity.
    - now rewrite flat_map_nil.
  Qed.

  (** methods *)
  Definition class_call (s : nat) (c : klass) : list (nat * line) :=
    if Nat.eqb s (c_section c) then [(1, LCallClass (methods_function (c_mangled c)) (c_id c))] else [].
  Definition class_text (s : nat) (c : klass) : list (nat * line) :=
    if Nat.eqb s (c_section c) then (0, LDef (methods_function (c_mangled c))) :: map (fun m => (1, LAdd m)) (c_members c) ++ [(1, LReturn); (0, LBlank)] else [].
  Definition methods_text (classes : list klass) (s : nat) : list (nat * line) :=
    [(0, LDef "register_methods")] ++ flat_map (class_call s) classes ++ main_calls "register_methods" s ++ [(1, LReturn); (0, LBlank)] ++
    flat_map (class_text s) classes.
  Lemma only_on x f w : w_sinks (only x f w) x = f (w_sinks w x).
  Proof. cbn. now rewrite Nat.eqb_refl. Qed.
  Lemma only_off x s f w : Nat.eqb s x = false -> w_sinks (only x f w) s = w_sinks w s.
  Proof. intros E. cbn. now rewrite E. Qed.
  Lemma members_fold c w l :
    let w' := fold_left (fun w m => remember (InClass (c_id c) m) (only (c_section c) (writeln (LAdd m)) w)) l w in
    w_memory w' = w_memory w ++ map (InClass (c_id c)) l /\
    (forall s, Nat.eqb s (c_section c) = false -> w_sinks w' s = w_sinks w s) /\
    w_sinks w' (c_section c) = mk_sink (k_level (w_sinks w (c_section c)))
      (k_lines (w_sinks w (c_section c)) ++ map (fun m => (k_level (w_sinks w (c_section c)), LAdd m)) l).
  Proof.
    revert w. induction l as [|m l IH]; intros w.
    { cbn. rewrite !app_nil_r. split; [reflexivity|]. split; [reflexivity|]. now destruct (w_sinks w (c_section c)). }
    cbn [fold_left]. destruct (IH (remember (InClass (c_id c) m) (only (c_section c) (writeln (LAdd m)) w))) as [M [O S]].
    cbn zeta in *. split. { rewrite M. cbn. now rewrite <- app_assoc. }
    split. { intros s E. rewrite (O s E). cbn [remember w_sinks]. now apply only_off. }
    rewrite S. cbn [remember w_sinks]. rewrite only_on. unfold writeln. cbn. now rewrite <- app_assoc.
  Qed.
  Lemma eff_class c w :
    eff 0 0 (fun s => class_text s c) (map (InClass (c_id c)) (c_members c)) w
      (let w := only (c_section c) (fun k => indent (writeln (LDef (methods_function (c_mangled c))) k)) w in
       let w := fold_left (fun w m => remember (InClass (c_id c) m) (only (c_section c) (writeln (LAdd m)) w)) (c_members c) w in
       only (c_section c) (fun k => writeln LBlank (unindent (writeln LReturn k))) w).
  Proof.
    intros L. cbn zeta. set (w1 := only (c_section c) _ w). destruct (members_fold c w1 (c_members c)) as [M [O S]]. cbn zeta in M, O, S.
    set (w2 := fold_left _ _ w1) in *. split. { cbn. rewrite M. reflexivity. }
    intros s Hs. unfold class_text. destruct (Nat.eqb s (c_section c)) eqn:E.
    - apply Nat.eqb_eq in E. subst s. rewrite only_on, S. unfold w1. rewrite only_on. unfold writeln, indent, unindent. cbn.
      rewrite (L _ Hs). cbn. now rewrite <- !app_assoc.
    - rewrite (only_off _ _ _ _ E), (O s E). unfold w1. rewrite (only_off _ _ _ _ E), app_nil_r, <- (L s Hs). now destruct (w_sinks w s).
  Qed.
  Lemma eff_methods (MAIN : In 0 sections) classes w : eff 0 0 (methods_text classes) (methods_in every classes) w (scan_methods sections classes w).
  Proof.
    unfold scan_methods.
    set (f1 := fun k => indent (writeln (LDef "register_methods") k)). set (w1 := all sections f1 w).
    set (w2 := fold_left _ classes w1).
    assert (existsb (Nat.eqb 0) sections = true) as ->. { apply existsb_exists. exists 0. now split. }
    set (w3 := section_calls sections "register_methods" w2). set (f4 := fun k => writeln LBlank (unindent (writeln LReturn k))). set (w4 := all sections f4 w3).
    assert (E1 : eff 0 1 (fun _ => [(0, LDef "register_methods")]) [] w w1).
    { apply eff_all. intros k K. unfold f1, writeln, indent. cbn. now rewrite K. }
    assert (E2 : eff 1 1 (fun s => flat_map (fun c => class_call s c) classes) (flat_map (fun _ => []) classes) w1 w2).
    { apply (eff_fold 1 _ (fun c s => class_call s c) (fun _ => [])). intros c w' _. apply eff_only. intros k K. unfold writeln. now rewrite K. }
    assert (E3 := eff_section_calls "register_methods" w2). fold w3 in E3.
    assert (E4 : eff 1 0 (fun _ => [(1, LReturn); (0, LBlank)]) [] w3 w4).
    { apply eff_all. intros k K. unfold f4, writeln, unindent. cbn. rewrite K, <- app_assoc. reflexivity. }
    assert (E5 := eff_fold 0 _ (fun c s => class_text s c) (fun c => map (InClass (c_id c)) (c_members c)) classes (fun c w' _ => eff_class c w') w4).
    refine (eff_same _ _ _ _ _ _ _ _ _ _ (eff_seq _ _ _ _ _ _ _ _ _ _ E1 (eff_seq _ _ _ _ _ _ _ _ _ _ E2 (eff_seq _ _ _ _ _ _ _ _ _ _ E3 (eff_seq _ _ _ _ _ _ _ _ _ _ E4 E5))))).
    - intros s _. reflexivity.
    - now rewrite flat_map_nil.
  Qed.

  (** functions *)
  Definition sub_call (path : list string) (m : namespace) : list (nat * line) := [(1, LCallSub (functions_function (path ++ [ns_name m])) (ns_name m))].
  Fixpoint functions_text (path : list string) (n : namespace) (s : nat) : list (nat * line) :=
    match n with
    | mk_namespace _ _ fs ns =>
        items 1 s fs ++ flat_map (sub_call path) ns ++ [(1, LReturn); (0, LBlank)] ++
        flat_map (fun m => (0, LDef (functions_function (path ++ [ns_name m]))) :: functions_text (path ++ [ns_name m]) m s) ns
    end.
  Lemma eff_functions n : forall path w, eff 1 0 (functions_text path n) (functions_in every path n) w (scan_namespace_functions sections path n w).
  Proof.
    induction n as [x ts fs ns IH] using namespace_induction. intros path w. cbn [scan_namespace_functions functions_text functions_in].
    set (w1 := fold_left _ fs w). set (w2 := fold_left _ ns w1).
    set (f3 := fun k => writeln LBlank (unindent (writeln LReturn k))). set (w3 := all sections f3 w2).
    assert (E1 := eff_items 1 path fs w). fold w1 in E1.
    assert (E2 : eff 1 1 (fun s => flat_map (sub_call path) ns) (flat_map (fun _ => []) ns) w1 w2).
    { apply (eff_fold 1 _ (fun m _ => sub_call path m) (fun _ => [])). intros m w' _. apply eff_all. intros k K. unfold writeln. now rewrite K. }
    assert (E3 : eff 1 0 (fun _ => [(1, LReturn); (0, LBlank)]) [] w2 w3).
    { apply eff_all. intros k K. unfold f3, writeln, unindent. cbn. rewrite K, <- app_assoc. reflexivity. }
    assert (E4 : forall m w', In m ns -> eff 0 0 (fun s => (0, LDef (functions_function (path ++ [ns_name m]))) :: functions_text (path ++ [ns_name m]) m s)
      (functions_in every (path ++ [ns_name m]) m) w' (let w := all sections (fun k => indent (writeln (LDef (functions_function (path ++ [ns_name m]))) k)) w' in
          scan_namespace_functions sections (path ++ [ns_name m]) m w)).
    { intros m w' Hm. cbn zeta.
      refine (eff_seq _ _ _ (fun _ => [(0, LDef (functions_function (path ++ [ns_name m])))]) _ [] _ _ _ _ _ (IH m Hm _ _)).
      apply eff_all. intros k K. unfold writeln, indent. cbn. now rewrite K. }
    refine (eff_same _ _ _ _ _ _ _ _ _ _ (eff_seq _ _ _ _ _ _ _ _ _ _ E1 (eff_seq _ _ _ _ _ _ _ _ _ _ E2 (eff_seq _ _ _ _ _ _ _ _ _ _ E3
      (eff_fold 0 _ (fun m s => (0, LDef (functions_function (path ++ [ns_name m]))) :: functions_text (path ++ [ns_name m]) m s) _ ns E4 w3))))).
    - intros s _. reflexivity.
    - now rewrite flat_map_nil.
  Qed.
  Definition all_functions_text (path : list string) (n : namespace) (s : nat) : list (nat * line) :=
    [(0, LDef "register_functions"); (1, LRoot)] ++ main_calls "register_functions" s ++ functions_text path n s.
  Lemma eff_all_functions path n w : eff 0 0 (all_functions_text path n) (functions_in every path n) w (scan_functions sections path n w).
  Proof.
    unfold scan_functions. set (w1 := all sections _ w).
    assert (E1 : eff 0 1 (fun _ => [(0, LDef "register_functions"); (1, LRoot)]) [] w w1).
    { apply eff_all. intros k K. unfold writeln, indent. cbn. rewrite K, <- app_assoc. reflexivity. }
    exact (eff_seq _ _ _ _ _ _ _ _ _ _ E1 (eff_seq _ _ _ _ _ _ _ _ _ _ (eff_section_calls _ _) (eff_functions n path _))).
  Qed.
End Effects.

(** ** The whole script *)
Definition the_text (p : program) (s : nat) : list (nat * line) :=
  types_text (p_sections p) "register_types" (p_path p) (p_root p) s ++ methods_text (p_sections p) (p_classes p) s ++
  all_functions_text (p_sections p) (p_path p) (p_root p) s.
Lemma scan_effect p (MAIN : In 0 (p_sections p)) :
  w_memory (scan p) = types_in every (p_path p) (p_root p) ++ methods_in every (p_classes p) ++ functions_in every (p_path p) (p_root p) /\
  forall s, In s (p_sections p) -> k_lines (w_sinks (scan p) s) = the_text p s.
Proof.
  unfold scan. set (w0 := mk_world _ []). cbn zeta.
  set (w1 := scan_types _ _ _ _ w0). set (w2 := scan_methods _ _ w1).
  assert (E := eff_seq _ _ _ _ _ _ _ _ _ _ _ (eff_types (p_sections p) (p_root p) "register_types" (p_path p) w0)
    (eff_seq _ _ _ _ _ _ _ _ _ _ _ (eff_methods (p_sections p) MAIN (p_classes p) w1) (eff_all_functions (p_sections p) (p_path p) (p_root p) w2))).
  destruct E as [M S]. { intros s _. reflexivity. }
  split. { exact M. } intros s Hs. rewrite (S s Hs). reflexivity.
Qed.

(** ** Reading the script *)
Definition blank (l : line) : bool := match l with LBlank => true | _ => false end.
Definition code (t : list (nat * line)) : list line := filter (fun l => negb (blank l)) (map snd t).
Lemma code_app a b : code (a ++ b) = code a ++ code b.
Proof. unfold code. now rewrite map_app, filter_app. Qed.
Definition indented (x : nat * line) : Prop := fst x = 1 /\ forall f, snd x <> LDef f.
Lemma read_body a t b d : Forall indented a -> read t = Some (b, d) -> read (a ++ t) = Some (code a ++ b, d).
Proof.
  induction a as [|[n l] a IH]; intros F R. { exact R. }
  inversion_clear F as [|? ? I F']. destruct I as [I N]. cbn in I, N. subst n. cbn [app read]. rewrite (IH F' R).
  destruct l; try reflexivity. now destruct (N f).
Qed.
Lemma read_below a b d1 d2 body : read b = Some ([], d2) -> read a = Some (body, d1) -> read (a ++ b) = Some (body, d1 ++ d2).
Proof.
  intros R. revert body d1. induction a as [|[n l] a IH]; intros body d1. { cbn. intros [= <- <-]. exact R. }
  cbn [app read]. destruct (read a) as [[b1 x1]|]; [|discriminate]. rewrite (IH _ _ eq_refl).
  destruct l, n as [|[|n]]; intros E; try discriminate E; try (injection E as <- <-; reflexivity).
  destruct b1; [discriminate E|]. injection E as <- <-. reflexivity.
Qed.
Lemma read_below_flat {A} (T : A -> list (nat * line)) (D : A -> list function) l :
  (forall x, In x l -> read (T x) = Some ([], D x)) -> read (flat_map T l) = Some ([], flat_map D l).
Proof.
  induction l as [|x l IH]; intros H. { reflexivity. }
  cbn [flat_map]. apply read_below. { apply IH. intros y Hy. apply H. now right. } apply H. now left.
Qed.
Lemma read_function f a t d : Forall indented a -> code a <> [] -> read t = Some ([], d) -> read ((0, LDef f) :: a ++ (0, LBlank) :: t) = Some ([], (f, code a) :: d).
Proof.
  intros F N R. assert (R' : read ((0, LBlank) :: t) = Some ([], d)). { cbn. now rewrite R. }
  cbn [read]. rewrite (read_body _ _ _ _ F R'), app_nil_r. destruct (code a); [now destruct N|reflexivity].
Qed.

Lemma indented_items s l : Forall indented (items 1 s l).
Proof.
  apply Forall_forall. intros x H. unfold items in H. apply in_flat_map in H as [i [_ H]]. destruct (Nat.eqb s (snd i)); [|destruct H].
  destruct H as [<-|[]]. split; [reflexivity|discriminate].
Qed.
Lemma indented_flat {A} (T : A -> list (nat * line)) l : (forall x, Forall indented (T x)) -> Forall indented (flat_map T l).
Proof. intros H. apply Forall_forall. intros x X. apply in_flat_map in X as [y [_ X]]. exact (proj1 (Forall_forall _ _) (H y) x X). Qed.
Lemma indented_calls sections f s : Forall indented (main_calls sections f s).
Proof.
  unfold main_calls. destruct (Nat.eqb s 0); [|constructor]. apply indented_flat. intros x. destruct (Nat.eqb x 0); repeat constructor; discriminate.
Qed.

Section Reading.
  Context (sections : list nat).
  Definition types_body (name : string) (path : list string) (n : namespace) (s : nat) : list (nat * line) :=
    match n with
    | mk_namespace _ ts _ ns =>
        [(1, LRoot); (1, LBlank)] ++ (if String.eqb name "register_types" then main_calls sections "register_types" s else []) ++
        items 1 s ts ++ flat_map (nested_call path) ns
    end.
  Fixpoint types_defs (name : string) (path : list string) (n : namespace) (s : nat) : list function :=
    (name, code (types_body name path n s)) ::
    match n with mk_namespace _ _ _ ns => flat_map (fun m => types_defs (types_function (path ++ [ns_name m])) (path ++ [ns_name m]) m s) ns end.
  Lemma read_types n : forall name path s, read (types_text sections name path n s) = Some ([], types_defs name path n s).
  Proof.
    induction n as [x ts fs ns IH] using namespace_induction. intros name path s. cbn [types_text types_defs].
    pose (body := types_body name path (mk_namespace x ts fs ns) s).
    assert (I : Forall indented body).
    { unfold body, types_body. apply Forall_app. split. { repeat constructor; discriminate. }
      apply Forall_app. split. { destruct (String.eqb name "register_types"); [apply indented_calls|constructor]. }
      apply Forall_app. split. { apply indented_items. } apply indented_flat. intros m. repeat constructor; discriminate. }
    assert (N : code body <> []). { unfold body, types_body. discriminate. }
    assert (R := read_function name body _ _ I N (read_below_flat (fun m => types_text sections (types_function (path ++ [ns_name m])) (path ++ [ns_name m]) m s)
      _ ns (fun m Hm => IH m Hm _ _ s))).
    refine (eq_trans _ R). f_equal. unfold body, types_body. cbn [app]. now rewrite <- !app_assoc.
  Qed.

  Definition class_body (c : klass) : list (nat * line) := map (fun m => (1, LAdd m)) (c_members c) ++ [(1, LReturn)].
  Definition class_defs (s : nat) (c : klass) : list function :=
    if Nat.eqb s (c_section c) then [(methods_function (c_mangled c), code (class_body c))] else [].
  Definition methods_body (classes : list klass) (s : nat) : list (nat * line) :=
    flat_map (class_call s) classes ++ main_calls sections "register_methods" s ++ [(1, LReturn)].
  Definition methods_defs (classes : list klass) (s : nat) : list function :=
    ("register_methods", code (methods_body classes s)) :: flat_map (class_defs s) classes.
  Lemma code_return a : code (a ++ [(1, LReturn)]) <> [].
  Proof. rewrite code_app. cbn. now destruct (code a). Qed.
  Lemma read_methods classes s : read (methods_text sections classes s) = Some ([], methods_defs classes s).
  Proof.
    assert (C : forall c, In c classes -> read (class_text s c) = Some ([], class_defs s c)).
    { intros c _. unfold class_text, class_defs. destruct (Nat.eqb s (c_section c)); [|reflexivity].
      assert (I : Forall indented (class_body c)).
      { unfold class_body. apply Forall_app. split; [|repeat constructor; discriminate]. apply Forall_forall. intros x X.
        apply in_map_iff in X as [m [<- _]]. split; [reflexivity|discriminate]. }
      refine (eq_trans _ (read_function (methods_function (c_mangled c)) (class_body c) [] [] I (code_return _) eq_refl)). unfold class_body. now rewrite <- app_assoc. }
    assert (I : Forall indented (methods_body classes s)).
    { unfold methods_body. apply Forall_app. split. { apply indented_flat. intros c. unfold class_call. destruct (Nat.eqb s (c_section c)); repeat constructor; discriminate. }
      apply Forall_app. split; [apply indented_calls|]. repeat constructor; discriminate. }
    assert (N : code (methods_body classes s) <> []). { unfold methods_body. rewrite app_assoc. apply code_return. }
    unfold methods_text, methods_defs. refine (eq_trans _ (read_function "register_methods" _ _ _ I N (read_below_flat (class_text s) _ classes C))).
    unfold methods_body. cbn [app]. now rewrite <- !app_assoc.
  Qed.

  Definition functions_body (path : list string) (n : namespace) (s : nat) : list (nat * line) :=
    match n with mk_namespace _ _ fs ns => items 1 s fs ++ flat_map (sub_call path) ns ++ [(1, LReturn)] end.
  Fixpoint functions_defs (path : list string) (n : namespace) (s : nat) : list function :=
    match n with mk_namespace _ _ fs ns =>
      flat_map (fun m => (functions_function (path ++ [ns_name m]), code (functions_body (path ++ [ns_name m]) m s)) :: functions_defs (path ++ [ns_name m]) m s) ns end.
  Lemma indented_functions path n s : Forall indented (functions_body path n s).
  Proof.
    destruct n as [x ts fs ns]. cbn. apply Forall_app. split; [apply indented_items|]. apply Forall_app. split; [|repeat constructor; discriminate].
    apply indented_flat. intros m. repeat constructor; discriminate.
  Qed.
  Lemma functions_code path n s : code (functions_body path n s) <> [].
  Proof. destruct n as [x ts fs ns]. cbn [functions_body]. rewrite app_assoc. apply code_return. Qed.
  Lemma functions_text_shape path n s : exists below, functions_text path n s = functions_body path n s ++ (0, LBlank) :: below /\
    below = match n with mk_namespace _ _ _ ns => flat_map (fun m => (0, LDef (functions_function (path ++ [ns_name m]))) :: functions_text (path ++ [ns_name m]) m s) ns end.
  Proof. destruct n as [x ts fs ns]. eexists. split; [|reflexivity]. cbn [functions_text functions_body]. now rewrite <- !app_assoc. Qed.
  Lemma read_functions n : forall path s, match n with mk_namespace _ _ _ ns =>
      read (flat_map (fun m => (0, LDef (functions_function (path ++ [ns_name m]))) :: functions_text (path ++ [ns_name m]) m s) ns) = Some ([], functions_defs path n s) end.
  Proof.
    induction n as [x ts fs ns IH] using namespace_induction. intros path s. cbn [functions_defs].
    apply (read_below_flat (fun m => (0, LDef (functions_function (path ++ [ns_name m]))) :: functions_text (path ++ [ns_name m]) m s)).
    intros m Hm. destruct (functions_text_shape (path ++ [ns_name m]) m s) as [below [-> B]].
    apply read_function; [apply indented_functions|apply functions_code|]. rewrite B. specialize (IH m Hm (path ++ [ns_name m]) s).
    destruct m as [y ts' fs' ns']. exact IH.
  Qed.
  Definition all_functions_body (path : list string) (n : namespace) (s : nat) : list (nat * line) :=
    [(1, LRoot)] ++ main_calls sections "register_functions" s ++ functions_body path n s.
  Definition all_functions_defs (path : list string) (n : namespace) (s : nat) : list function :=
    ("register_functions", code (all_functions_body path n s)) :: functions_defs path n s.
  Lemma read_all_functions path n s : read (all_functions_text sections path n s) = Some ([], all_functions_defs path n s).
  Proof.
    unfold all_functions_text, all_functions_defs. destruct (functions_text_shape path n s) as [below [-> B]].
    assert (R : read below = Some ([], functions_defs path n s)). { rewrite B. assert (X := read_functions n path s). destruct n as [x ts fs ns]. exact X. }
    assert (I : Forall indented (all_functions_body path n s)).
    { unfold all_functions_body. apply Forall_app. split; [repeat constructor; discriminate|]. apply Forall_app. split; [apply indented_calls|apply indented_functions]. }
    assert (N : code (all_functions_body path n s) <> []) by discriminate.
    refine (eq_trans _ (read_function "register_functions" _ _ _ I N R)). unfold all_functions_body. cbn [app]. now rewrite <- !app_assoc.
  Qed.
End Reading.
Definition the_defs (p : program) (s : nat) : list function :=
  types_defs (p_sections p) "register_types" (p_path p) (p_root p) s ++ methods_defs (p_sections p) (p_classes p) s ++
  all_functions_defs (p_sections p) (p_path p) (p_root p) s.
Lemma read_script p s : read (the_text p s) = Some ([], the_defs p s).
Proof. unfold the_text, the_defs. apply read_below; [apply read_below|]; [apply read_all_functions|apply read_methods|apply read_types]. Qed.

(** ** The names *)
Lemma join_underscores l : join "_" l = underscores l.
Proof. induction l as [|x [|y r] IH]; try reflexivity. cbn [join underscores] in *. now rewrite IH. Qed.
Lemma map_flat {A B C} (f : B -> C) (g : A -> list B) l : map f (flat_map g l) = flat_map (fun x => map f (g x)) l.
Proof. induction l as [|x l IH]; [reflexivity|]. cbn. now rewrite map_app, IH. Qed.
Lemma flat_map_same {A B} (f g : A -> list B) l : (forall x, In x l -> f x = g x) -> flat_map f l = flat_map g l.
Proof. induction l as [|x l IH]; intros H; [reflexivity|]. cbn. rewrite (H x (or_introl eq_refl)), IH; [reflexivity|]. intros y Y. apply H. now right. Qed.
Lemma types_names sections s n : forall name path, map fst (types_defs sections name path n s) = name :: map types_function (paths_inside path n).
Proof.
  induction n as [x ts fs ns IH] using namespace_induction. intros name path. cbn [types_defs paths_inside map fst]. f_equal.
  rewrite !map_flat. apply flat_map_same. intros m Hm. rewrite (IH m Hm). reflexivity.
Qed.
Lemma functions_names s n : forall path, map fst (functions_defs path n s) = map functions_function (paths_inside path n).
Proof.
  induction n as [x ts fs ns IH] using namespace_induction. intros path. cbn [functions_defs paths_inside].
  rewrite !map_flat. apply flat_map_same. intros m Hm. cbn [map fst]. now rewrite (IH m Hm).
Qed.
Lemma the_names p s : map fst (the_defs p s) = function_names s p.
Proof.
  unfold the_defs, function_names, methods_defs, all_functions_defs. rewrite !map_app, types_names. cbn [app map fst]. f_equal. f_equal.
  { apply map_ext. intros q. unfold types_function. now rewrite join_underscores. }
  f_equal. f_equal.
  { rewrite map_flat. apply flat_map_ext. intros c. unfold class_defs. now destruct (Nat.eqb s (c_section c)). }
  f_equal. rewrite functions_names. apply map_ext. intros q. unfold functions_function. now rewrite join_underscores.
Qed.
Lemma defined t d f b : read t = Some ([], d) -> NoDup (map fst d) -> In (f, b) d -> defines t f b.
Proof.
  intros R N I. apply in_split in I as [u [v ->]]. exists u, v. split; [exact R|].
  rewrite map_app in N. cbn in N. apply NoDup_remove_2 in N. intros H. apply N. apply in_or_app. now right.
Qed.

(** ** Running the script *)
Section Running.
  Context (T : nat -> list (nat * line)).
  Lemma run_items path n o s ts l e o' :
    run T s (mk_frame path n None) o l e o' ->
    run T s (mk_frame path n None) o (code (items 1 s ts) ++ l)
      (map (pair o) (flat_map (fun i => if Nat.eqb s (snd i) then [InModule path (fst i)] else []) ts) ++ e) o'.
  Proof.
    intros R. induction ts as [|i ts IH]. { exact R. }
    unfold items in *. cbn [flat_map]. destruct (Nat.eqb s (snd i)); [|exact IH]. cbn. now constructor.
  Qed.
  Definition defined_in (s : nat) (l : list function) : Prop := forall f b, In (f, b) l -> defines (T s) f b.
  Lemma types_head sections name path n s : In (name, code (types_body sections name path n s)) (types_defs sections name path n s).
  Proof. destruct n. left. reflexivity. Qed.
  Lemma run_types sections s n : forall name path o, String.eqb name "register_types" = false -> defined_in s (types_defs sections name path n s) ->
    run T s (mk_frame path None None) o (code (types_body sections name path n s)) (map (pair o) (types_in (Nat.eqb s) path n)) o.
  Proof.
    induction n as [x ts fs ns IH] using namespace_induction. intros name path o N D. cbn [types_body types_in]. rewrite N, !code_app. cbn [app code].
    cbn [map snd filter blank negb]. cbn [app]. constructor. rewrite map_app. apply run_items.
    assert (D' : forall m, In m ns -> defined_in s (types_defs sections (types_function (path ++ [ns_name m])) (path ++ [ns_name m]) m s)).
    { intros m Hm f b I. apply D. cbn [types_defs]. right. apply in_flat_map. now exists m. }
    clear D. generalize (@None (list string)) as q. induction ns as [|m ns IHn]; intros q. { constructor. }
    cbn [flat_map]. rewrite map_app. rewrite code_app. cbn [nested_call code map snd filter blank negb app]. constructor.
    refine (run_call_nested T s path (path ++ [ns_name m]) None o _ _ _ _ _ o o _ _ _).
    - apply (D' m (or_introl eq_refl)), types_head.
    - apply (IH m (or_introl eq_refl)); [reflexivity|]. apply D'. now left.
    - apply IHn. + intros m' H. apply IH. now right. + intros m' H. apply D'. now right.
  Qed.
  Lemma run_sections f (L : (nat -> bool) -> list entry) path n c sections l e o' :
    (forall x, In x sections -> x <> 0 -> exists body, defines (T x) f body /\ run T x (mk_frame path None None) (Some x) body (map (pair (Some x)) (L (Nat.eqb x))) (Some x)) ->
    run T 0 (mk_frame path n c) None l e o' ->
    run T 0 (mk_frame path n c) None (code (calls f sections) ++ l) (the_sections sections L ++ e) o'.
  Proof.
    intros H R. induction sections as [|x xs IH]. { exact R. }
    unfold calls, the_sections in *. cbn [flat_map]. rewrite code_app, <- !app_assoc.
    specialize (IH (fun y Y => H y (or_intror Y))). destruct (Nat.eqb x 0) eqn:E. { exact IH. }
    apply Nat.eqb_neq in E. destruct (H x (or_introl eq_refl) E) as [body [D B]]. cbn [code map snd filter blank negb app].
    constructor. eapply run_section; [exact D|exact B|]. constructor. exact IH.
  Qed.
  Lemma run_types_main sections n path :
    (forall x, In x sections -> defined_in x (types_defs sections "register_types" path n x)) -> In 0 sections ->
    run T 0 (mk_frame path None None) None (code (types_body sections "register_types" path n 0))
      (the_sections sections (fun k => types_in k path n) ++ the_main (fun k => types_in k path n)) None.
  Proof.
    intros D Z.
    assert (G : forall s o q, In s sections -> run T s (mk_frame path q None) o
      (match n with mk_namespace _ ts _ ns => code (items 1 s ts ++ flat_map (nested_call path) ns) end) (map (pair o) (types_in (Nat.eqb s) path n)) o).
    { intros s o q Hs. destruct n as [x ts fs ns]. cbn [types_in]. rewrite map_app, code_app. apply run_items.
      assert (D' : forall m, In m ns -> defined_in s (types_defs sections (types_function (path ++ [ns_name m])) (path ++ [ns_name m]) m s)).
      { intros m Hm f b I. apply (D s Hs). cbn [types_defs]. right. apply in_flat_map. now exists m. }
      clear D. revert q. induction ns as [|m ns IHn]; intros q. { constructor. }
      cbn [flat_map]. rewrite map_app. rewrite code_app. cbn [nested_call code map snd filter blank negb app]. constructor.
      refine (run_call_nested T s path (path ++ [ns_name m]) None o _ _ _ _ _ o o _ _ _).
      - apply (D' m (or_introl eq_refl)), types_head.
      - apply run_types; [reflexivity|]. apply D'. now left.
      - apply IHn. intros m' H. apply D'. now right. }
    destruct n as [x ts fs ns]. cbn [types_body]. rewrite !code_app. cbn [code map snd filter blank negb app]. constructor.
    unfold main_calls at 1. cbn [Nat.eqb].
    change (String.eqb "register_types" "register_types") with true. cbn iota.
    apply run_sections.
    - intros y Hy N0. exists (code (types_body sections "register_types" path (mk_namespace x ts fs ns) y)). split. { apply (D y Hy), types_head. }
      cbn [types_body]. change (String.eqb "register_types" "register_types") with true. cbn iota. unfold main_calls.
      apply Nat.eqb_neq in N0. rewrite N0. rewrite code_app. cbn [code map snd filter blank negb app]. constructor. now apply G.
    - rewrite <- code_app. now apply G.
  Qed.
End Running.

Section RunningMore.
  Context (T : nat -> list (nat * line)).
  (** methods *)
  Lemma run_members path n c o s l : run T s (mk_frame path n (Some c)) o (code (map (fun m => (1, LAdd m)) l ++ [(1, LReturn)])) (map (pair o) (map (InClass c) l)) o.
  Proof. induction l as [|m l IH]; cbn; constructor. exact IH. Qed.
  Lemma run_class_calls path q o s classes l e o' :
    defined_in T s (flat_map (class_defs s) classes) ->
    run T s (mk_frame path q None) o l e o' ->
    run T s (mk_frame path q None) o (code (flat_map (class_call s) classes) ++ l) (map (pair o) (methods_in (Nat.eqb s) classes) ++ e) o'.
  Proof.
    intros D R. induction classes as [|c classes IH]. { exact R. }
    assert (IH' := IH (fun f b I => D f b (in_or_app _ _ _ (or_intror I)))). clear IH.
    cbn [flat_map]. unfold methods_in in *. cbn [flat_map]. rewrite map_app, code_app, <- !app_assoc. unfold class_call at 1.
    destruct (Nat.eqb s (c_section c)) eqn:E; [|exact IH'].
    cbn [code map snd filter blank negb app]. refine (run_call_class T s path q None o _ _ _ _ _ _ o _ _ (run_members path None (c_id c) o s (c_members c)) _).
    - apply D. cbn [flat_map]. apply in_or_app. left. unfold class_defs. rewrite E. left. reflexivity.
    - exact IH'.
  Qed.
  Lemma run_methods sections path classes :
    (forall x, In x sections -> defined_in T x (methods_defs sections classes x)) -> In 0 sections ->
    run T 0 (mk_frame path None None) None (code (methods_body sections classes 0))
      (the_main (fun k => methods_in k classes) ++ the_sections sections (fun k => methods_in k classes)) None.
  Proof.
    intros D Z. unfold methods_body. rewrite !code_app. apply run_class_calls. { intros f b I. apply (D 0 Z). right. exact I. }
    rewrite <- (app_nil_r (the_sections _ _)). apply run_sections; [|constructor].
    intros x Hx N0. exists (code (methods_body sections classes x)). split. { apply (D x Hx). left. reflexivity. }
    unfold methods_body, main_calls. apply Nat.eqb_neq in N0. rewrite N0, code_app.
    rewrite <- (app_nil_r (map (pair (Some x)) _)). apply run_class_calls; [|constructor]. intros f b I. apply (D x Hx). right. exact I.
  Qed.
  (** functions *)
  Lemma run_functions s n : forall path o, defined_in T s (functions_defs path n s) ->
    run T s (mk_frame path None None) o (code (functions_body path n s)) (map (pair o) (functions_in (Nat.eqb s) path n)) o.
  Proof.
    induction n as [x ts fs ns IH] using namespace_induction. intros path o D. cbn [functions_body functions_in]. rewrite !code_app, map_app.
    apply run_items.
    assert (D' : forall m, In m ns -> defined_in T s ((functions_function (path ++ [ns_name m]), code (functions_body (path ++ [ns_name m]) m s)) :: functions_defs (path ++ [ns_name m]) m s)).
    { intros m Hm f b I. apply D. cbn [functions_defs]. apply in_flat_map. exists m. now split. }
    clear D. induction ns as [|m ns IHn]. { constructor. }
    cbn [flat_map]. rewrite map_app, code_app. cbn [sub_call code map snd filter blank negb app].
    refine (run_call_sub T s path None None o _ _ _ _ _ _ o _ (D' m (or_introl eq_refl) _ _ (or_introl eq_refl)) _ _).
    - apply (IH m (or_introl eq_refl)). intros f b I. apply (D' m (or_introl eq_refl)). now right.
    - apply IHn. + intros m' H. apply IH. now right. + intros m' H. apply D'. now right.
  Qed.
  Lemma run_all_functions sections path n :
    (forall x, In x sections -> defined_in T x (all_functions_defs sections path n x)) -> In 0 sections ->
    run T 0 (mk_frame path None None) None (code (all_functions_body sections path n 0))
      (the_sections sections (fun k => functions_in k path n) ++ the_main (fun k => functions_in k path n)) None.
  Proof.
    intros D Z. unfold all_functions_body. rewrite !code_app. cbn [code map snd filter blank negb app]. constructor. unfold main_calls. cbn [Nat.eqb].
    apply run_sections.
    - intros x Hx N0. exists (code (all_functions_body sections path n x)). split. { apply (D x Hx). left. reflexivity. }
      unfold all_functions_body, main_calls. apply Nat.eqb_neq in N0. rewrite N0, code_app. cbn [code map snd filter blank negb app]. constructor.
      apply run_functions. intros f b I. apply (D x Hx). right. exact I.
    - apply run_functions. intros f b I. apply (D 0 Z). right. exact I.
  Qed.
End RunningMore.

(** ** The theorems *)
Definition script (p : program) (s : nat) : list (nat * line) := k_lines (w_sinks (scan p) s).
Lemma defined_script p s : In 0 (p_sections p) -> In s (p_sections p) -> NoDup (function_names s p) -> defined_in (script p) s (the_defs p s).
Proof.
  intros Z Hs N f b I. unfold script. rewrite (proj2 (scan_effect p Z) s Hs). apply (defined _ _ _ _ (read_script p s)); [|exact I]. now rewrite the_names.
Qed.
Lemma script_executes p : In 0 (p_sections p) -> (forall s, In s (p_sections p) -> NoDup (function_names s p)) ->
  executes (script p) (p_path p)
    (the_sections (p_sections p) (fun k => types_in k (p_path p) (p_root p)) ++ the_main (fun k => types_in k (p_path p) (p_root p)))
    (the_main (fun k => methods_in k (p_classes p)) ++ the_sections (p_sections p) (fun k => methods_in k (p_classes p)))
    (the_sections (p_sections p) (fun k => functions_in k (p_path p) (p_root p)) ++ the_main (fun k => functions_in k (p_path p) (p_root p))).
Proof.
  intros Z N. assert (D := fun s Hs => defined_script p s Z Hs (N s Hs)).
  assert (D1 : forall x, In x (p_sections p) -> defined_in (script p) x (types_defs (p_sections p) "register_types" (p_path p) (p_root p) x)).
  { intros x Hx f b I. apply (D x Hx). unfold the_defs. apply in_or_app. now left. }
  assert (D2 : forall x, In x (p_sections p) -> defined_in (script p) x (methods_defs (p_sections p) (p_classes p) x)).
  { intros x Hx f b I. apply (D x Hx). unfold the_defs. apply in_or_app. right. apply in_or_app. now left. }
  assert (D3 : forall x, In x (p_sections p) -> defined_in (script p) x (all_functions_defs (p_sections p) (p_path p) (p_root p) x)).
  { intros x Hx f b I. apply (D x Hx). unfold the_defs. apply in_or_app. right. apply in_or_app. now right. }
  exists (code (types_body (p_sections p) "register_types" (p_path p) (p_root p) 0)), (code (methods_body (p_sections p) (p_classes p) 0)),
    (code (all_functions_body (p_sections p) (p_path p) (p_root p) 0)).
  split. { apply (D1 0 Z), types_head. } split. { now apply run_types_main. }
  split. { apply (D2 0 Z). now left. } split. { now apply run_methods. }
  split. { apply (D3 0 Z). now left. } now apply run_all_functions.
Qed.

(** The script has one meaning. *)
Lemma defines_one t f b b' : defines t f b -> defines t f b' -> b = b'.
Proof.
  intros [u [v [R N]]] [u' [v' [R' N']]]. rewrite R in R'. injection R' as E. clear R.
  revert u' E. induction u as [|x u IH]; intros [|y u'] E; cbn in E.
  - now injection E.
  - injection E as <- E. subst v. destruct N. rewrite map_app. apply in_or_app. right. now left.
  - injection E as -> E. subst v'. destruct N'. rewrite map_app. apply in_or_app. right. now left.
  - injection E as _ E. exact (IH _ E).
Qed.
Lemma run_one T s fr o l e o' : run T s fr o l e o' -> forall e' o'', run T s fr o l e' o'' -> e = e' /\ o' = o''.
Proof.
  induction 1; intros e2 o2 R; inversion R; subst; clear R;
    repeat match goal with
    | A : defines ?t ?f ?b, B : defines ?t ?f ?b' |- _ => assert (b = b') by exact (defines_one _ _ _ _ A B); subst; clear B
    | IH : forall e' o'', run ?T ?s ?fr ?o ?l e' o'' -> _, R : run ?T ?s ?fr ?o ?l _ _ |- _ => destruct (IH _ _ R); subst; clear IH R
    end; try (split; reflexivity).
Qed.
Lemma executes_one T path a b c a' b' c' : executes T path a b c -> executes T path a' b' c' -> a = a' /\ b = b' /\ c = c'.
Proof.
  intros [x [y [z [D1 [R1 [D2 [R2 [D3 R3]]]]]]]] [x' [y' [z' [D1' [R1' [D2' [R2' [D3' R3']]]]]]]].
  rewrite <- (defines_one _ _ _ _ D1 D1') in R1'. rewrite <- (defines_one _ _ _ _ D2 D2') in R2'. rewrite <- (defines_one _ _ _ _ D3 D3') in R3'.
  split; [exact (proj1 (run_one _ _ _ _ _ _ _ R1 _ _ R1'))|]. split; [exact (proj1 (run_one _ _ _ _ _ _ _ R2 _ _ R2'))|exact (proj1 (run_one _ _ _ _ _ _ _ R3 _ _ R3'))].
Qed.

(** Nothing is lost in the sections. *)
Lemma permutation_flat {A B} (f g : A -> list B) l : (forall x, In x l -> Permutation (f x) (g x)) -> Permutation (flat_map f l) (flat_map g l).
Proof. induction l as [|x l IH]; intros H; [constructor|]. cbn. apply Permutation_app; [apply H; now left|]. apply IH. intros y Y. apply H. now right. Qed.
Lemma flat_split {A B} (f g : A -> list B) l : Permutation (flat_map (fun x => f x ++ g x) l) (flat_map f l ++ flat_map g l).
Proof.
  induction l as [|x l IH]; [constructor|]. cbn. rewrite <- !app_assoc. apply Permutation_app_head. rewrite IH. rewrite !app_assoc. apply Permutation_app_tail, Permutation_app_comm.
Qed.
Lemma flat_swap {A B C} (f : A -> B -> list C) xs ys : Permutation (flat_map (fun x => flat_map (f x) ys) xs) (flat_map (fun y => flat_map (fun x => f x y) xs) ys).
Proof.
  induction xs as [|x xs IH]; cbn. { now rewrite flat_map_nil. }
  rewrite IH. symmetry. apply flat_split.
Qed.
Lemma pick {B} sections x (l : list B) : NoDup sections -> In x sections -> flat_map (fun s => if Nat.eqb s x then l else []) sections = l.
Proof.
  intros N I. induction sections as [|s r IH]; [destruct I|]. inversion_clear N as [|? ? N0 N1]. cbn. destruct I as [->|I].
  - rewrite Nat.eqb_refl. assert (forall y, In y r -> (if Nat.eqb y x then l else []) = []) as E.
    { intros y Y. destruct (Nat.eqb y x) eqn:Q; [|reflexivity]. apply Nat.eqb_eq in Q. now subst. }
    rewrite (flat_map_same _ (fun _ => []) r E), flat_map_nil. apply app_nil_r.
  - destruct (Nat.eqb s x) eqn:Q. { apply Nat.eqb_eq in Q. now subst. } exact (IH N1 I).
Qed.
Section Parts.
  Context (sections : list nat) (N : NoDup sections) (Z : In 0 sections).
  (* a list that is the union of its sections *)
  Definition shared (L : (nat -> bool) -> list entry) : Prop := Permutation (flat_map (fun s => L (Nat.eqb s)) sections) (L every).
  Lemma shared_events L : shared L -> Permutation (map snd (the_sections sections L ++ the_main L)) (L every).
  Proof.
    intros S. unfold the_sections, the_main. rewrite map_app, map_flat, map_map, map_id.
    transitivity (flat_map (fun s => (if Nat.eqb s 0 then [] else L (Nat.eqb s)) ++ (if Nat.eqb s 0 then L (Nat.eqb 0) else [])) sections).
    2: { unfold shared in S. rewrite <- S. apply permutation_flat. intros s _. destruct (Nat.eqb s 0) eqn:E; [|now rewrite app_nil_r]. apply Nat.eqb_eq in E. now subst. }
    rewrite flat_split, (pick sections 0 _ N Z). apply Permutation_app_tail. apply permutation_flat. intros s _.
    destruct (Nat.eqb s 0); [reflexivity|]. now rewrite map_map, map_id.
  Qed.
  Lemma shared_app L M : shared L -> shared M -> shared (fun k => L k ++ M k).
  Proof. intros A B. unfold shared in *. rewrite flat_split. now apply Permutation_app. Qed.
  Lemma shared_flat {A} (L : A -> (nat -> bool) -> list entry) l : (forall x, In x l -> shared (L x)) -> shared (fun k => flat_map (fun x => L x k) l).
  Proof. intros H. unfold shared. rewrite flat_swap. apply permutation_flat. exact H. Qed.
  Lemma shared_one x e : In x sections -> shared (fun k => if k x then e else []).
  Proof. intros I. unfold shared. cbn [every]. rewrite (pick sections x e N I). reflexivity. Qed.
  Lemma shared_types n : forall path, Forall (fun s => In s sections) (used n) -> shared (fun k => types_in k path n).
  Proof.
    induction n as [x ts fs ns IH] using namespace_induction. intros path U. cbn [used] in U. apply Forall_app in U as [U1 U]. apply Forall_app in U as [_ U2].
    cbn [types_in]. apply shared_app.
    - apply (shared_flat (fun i k => if k (snd i) then [InModule path (fst i)] else [])). intros i Hi. apply (shared_one (snd i)).
      apply (proj1 (Forall_forall _ _) U1). now apply in_map.
    - apply (shared_flat (fun m k => types_in k (path ++ [ns_name m]) m)). intros m Hm. apply (IH m Hm). apply Forall_forall. intros s Hs.
      apply (proj1 (Forall_forall _ _) U2). apply in_flat_map. now exists m.
  Qed.
  Lemma shared_functions n : forall path, Forall (fun s => In s sections) (used n) -> shared (fun k => functions_in k path n).
  Proof.
    induction n as [x ts fs ns IH] using namespace_induction. intros path U. cbn [used] in U. apply Forall_app in U as [_ U]. apply Forall_app in U as [U1 U2].
    cbn [functions_in]. apply shared_app.
    - apply (shared_flat (fun i k => if k (snd i) then [InModule path (fst i)] else [])). intros i Hi. apply (shared_one (snd i)).
      apply (proj1 (Forall_forall _ _) U1). now apply in_map.
    - apply (shared_flat (fun m k => functions_in k (path ++ [ns_name m]) m)). intros m Hm. apply (IH m Hm). apply Forall_forall. intros s Hs.
      apply (proj1 (Forall_forall _ _) U2). apply in_flat_map. now exists m.
  Qed.
  Lemma shared_methods classes : Forall (fun s => In s sections) (map c_section classes) -> shared (fun k => methods_in k classes).
  Proof.
    intros U. apply (shared_flat (fun c k => if k (c_section c) then map (InClass (c_id c)) (c_members c) else [])). intros c Hc. apply (shared_one (c_section c)).
    apply (proj1 (Forall_forall _ _) U). now apply in_map.
  Qed.
End Parts.
