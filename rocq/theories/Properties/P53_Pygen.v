(** C53: running the script that was written while header files were scanned declares what the scan declared in memory. *)
From Verif.Model Require Import Py PygenScript.
From Verif.Spec Require Import PygenSpec.
From Verif.Proofs Require Import PygenProofs.
Require Import Permutation.
Open Scope string_scope.
Open Scope list_scope.

(** When no two functions of one file of the script have the same name, main declares every type, method and function in its module or class,
    in this order, those of a section within begin_section and end_section of it.  And it does nothing else. *)
Theorem C53_script : forall p,
  In 0 (p_sections p) -> (forall s, In s (p_sections p) -> NoDup (function_names s p)) ->
  forall types methods functions,
  executes (fun s => k_lines (w_sinks (scan p) s)) (p_path p) types methods functions <->
  types = the_sections (p_sections p) (fun k => types_in k (p_path p) (p_root p)) ++ the_main (fun k => types_in k (p_path p) (p_root p)) /\
  methods = the_main (fun k => methods_in k (p_classes p)) ++ the_sections (p_sections p) (fun k => methods_in k (p_classes p)) /\
  functions = the_sections (p_sections p) (fun k => functions_in k (p_path p) (p_root p)) ++ the_main (fun k => functions_in k (p_path p) (p_root p)).
Proof.
  intros p Z N t m f. assert (E := script_executes p Z N). split.
  - intros R. exact (executes_one _ _ _ _ _ _ _ _ R E).
  - intros [-> [-> ->]]. exact E.
Qed.
(** In memory everything is declared at once, the types before the methods before the functions. *)
Theorem C53_memory : forall p, In 0 (p_sections p) ->
  w_memory (scan p) = types_in every (p_path p) (p_root p) ++ methods_in every (p_classes p) ++ functions_in every (p_path p) (p_root p).
Proof. intros p Z. exact (proj1 (scan_effect p Z)). Qed.
(** So the script declares the same things, each as often, whatever the sections. *)
Theorem C53_same : forall p types methods functions,
  classified p -> (forall s, In s (p_sections p) -> NoDup (function_names s p)) ->
  executes (fun s => k_lines (w_sinks (scan p) s)) (p_path p) types methods functions ->
  Permutation (map snd (types ++ methods ++ functions)) (w_memory (scan p)).
Proof.
  intros p t m f [U [Z C]] N R. apply Forall_app in C as [C1 C2].
  destruct (proj1 (C53_script p Z N t m f) R) as [-> [-> ->]]. rewrite (C53_memory p Z), map_app, (map_app _ (_ ++ _) (_ ++ _)).
  apply Permutation_app; [|apply Permutation_app].
  - apply (shared_events _ U Z (fun k => types_in k (p_path p) (p_root p))), shared_types; assumption.
  - rewrite map_app, (Permutation_app_comm (map snd (the_main _))), <- map_app. apply (shared_events _ U Z (fun k => methods_in k (p_classes p))), shared_methods; assumption.
  - apply (shared_events _ U Z (fun k => functions_in k (p_path p) (p_root p))), shared_functions; assumption.
Qed.
(** With one sink only, the order is the same too, and there is no section. *)
Theorem C53_one_sink : forall p types methods functions,
  p_sections p = [0] -> Forall (fun s => s = 0) (used (p_root p) ++ map c_section (p_classes p)) -> NoDup (function_names 0 p) ->
  executes (fun s => k_lines (w_sinks (scan p) s)) (p_path p) types methods functions ->
  types ++ methods ++ functions = map (pair None) (w_memory (scan p)).
Proof.
  intros p t m f S F N R. assert (Z : In 0 (p_sections p)). { rewrite S. now left. }
  assert (N' : forall s, In s (p_sections p) -> NoDup (function_names s p)). { intros s. rewrite S. intros [<-|[]]. exact N. }
  apply Forall_app in F as [F1 F2].
  destruct (proj1 (C53_script p Z N' t m f) R) as [-> [-> ->]]. rewrite (C53_memory p Z), S. unfold the_main, the_sections. cbn [flat_map]. change (Nat.eqb 0 0) with true. cbn iota. cbn [app]. rewrite app_nil_r, !map_app.
  assert (I : forall n path, Forall (fun s => s = 0) (used n) -> types_in (Nat.eqb 0) path n = types_in every path n /\ functions_in (Nat.eqb 0) path n = functions_in every path n).
  { clear. induction n as [x ts fs ns IH] using namespace_induction. intros path U. cbn [used] in U. apply Forall_app in U as [U1 U]. apply Forall_app in U as [U2 U3].
    assert (J : forall l, Forall (fun s => s = 0) (map snd l) ->
      flat_map (fun i : nat * nat => if Nat.eqb 0 (snd i) then [InModule path (fst i)] else []) l = flat_map (fun i => if every (snd i) then [InModule path (fst i)] else []) l).
    { intros l L. apply flat_map_same. intros i Hi. rewrite (proj1 (Forall_forall _ _) L (snd i) (in_map snd _ _ Hi)). reflexivity. }
    assert (K : forall m, In m ns -> Forall (fun s => s = 0) (used m)).
    { intros m Hm. apply Forall_forall. intros s Hs. apply (proj1 (Forall_forall _ _) U3). apply in_flat_map. now exists m. }
    cbn [types_in functions_in]. rewrite (J ts U1), (J fs U2). split; f_equal; apply flat_map_same; intros m Hm; apply (IH m Hm _ (K m Hm)). }
  cbv beta. destruct (I _ (p_path p) F1) as [-> ->].
  assert (methods_in (Nat.eqb 0) (p_classes p) = methods_in every (p_classes p)) as ->.
  { apply flat_map_same. intros c Hc. rewrite (proj1 (Forall_forall _ _) F2 (c_section c) (in_map c_section _ _ Hc)). reflexivity. }
  reflexivity.
Qed.
Print Assumptions C53_script.
Print Assumptions C53_memory.
Print Assumptions C53_same.
Print Assumptions C53_one_sink.

(** A program with two sections, nested namespaces and classes meets the hypotheses. *)
Definition sample : program :=
  mk_program ["m"]
    (mk_namespace "m" [(1, 0); (2, 7)] [(3, 7)]
      [mk_namespace "a" [(4, 0)] [(5, 0); (6, 7)] [mk_namespace "b" [(8, 7)] [] []]; mk_namespace "c" [] [(9, 0)] []])
    [mk_klass 1 "A" 0 [10; 11]; mk_klass 2 "B" 7 [12]] [0; 7].
Example C53_sample : classified sample /\ (forall s, In s (p_sections sample) -> NoDup (function_names s sample)).
Proof.
  split.
  - split; [|split]. + repeat constructor; cbn; intuition discriminate. + now left. + repeat constructor; cbn; tauto.
  - intros s [<-|[<-|[]]]; repeat constructor; cbn; intuition discriminate.
Qed.
Example C53_sample_types :
  the_sections (p_sections sample) (fun k => types_in k (p_path sample) (p_root sample)) ++ the_main (fun k => types_in k (p_path sample) (p_root sample)) =
  [(Some 7, InModule ["m"] 2); (Some 7, InModule ["m"; "a"; "b"] 8); (None, InModule ["m"] 1); (None, InModule ["m"; "a"] 4)].
Proof. reflexivity. Qed.

(** The hypothesis about names matters: the functions for the namespaces a::b_c and a_b::c have the same name, register_types_m_a_b_c, so that the
    type of one of them is declared twice by the script, in two namespaces, and that of the other never. *)
Definition clash : program :=
  mk_program ["m"]
    (mk_namespace "m" [] []
      [mk_namespace "a" [] [] [mk_namespace "b_c" [(1, 0)] [] []]; mk_namespace "a_b" [] [] [mk_namespace "c" [(2, 0)] [] []]])
    [] [0].
Definition clash_functions : list function := Eval vm_compute in the_defs clash 0.
Lemma clash_is : the_defs clash 0 = clash_functions.
Proof. vm_compute. reflexivity. Qed.
Theorem C53_clash_refuted :
  executes (fun s => k_lines (w_sinks (scan clash) s)) (p_path clash)
    [(None, InModule ["m"; "a"; "b_c"] 2); (None, InModule ["m"; "a_b"; "c"] 2)] [] [] /\
  w_memory (scan clash) = [InModule ["m"; "a"; "b_c"] 1; InModule ["m"; "a_b"; "c"] 2].
Proof.
  split; [|reflexivity].
  assert (D : forall f b, (exists before after, clash_functions = before ++ (f, b) :: after /\ ~ In f (map fst after)) ->
    defines (k_lines (w_sinks (scan clash) 0)) f b).
  { intros f b [u [v [E N]]]. exists u, v. split; [|exact N]. rewrite (proj2 (scan_effect clash (or_introl eq_refl)) 0 (or_introl eq_refl)), read_script, clash_is. now rewrite E. }
  assert (L : forall (l : list string) f, existsb (String.eqb f) l = false -> ~ In f l).
  { intros l f E I. assert (existsb (String.eqb f) l = true) as X. { apply existsb_exists. exists f. split; [exact I|apply String.eqb_refl]. } rewrite X in E. discriminate E. }
  set (k := fun s => k_lines (w_sinks (scan clash) s)).
  assert (D1 : defines (k 0) "register_types" [LRoot; LNestedModule "a"; LCallNested "register_types_m_a"; LNestedModule "a_b"; LCallNested "register_types_m_a_b"]).
  { apply D. eexists [], _. split; [reflexivity|]. apply L. reflexivity. }
  assert (D2 : defines (k 0) "register_types_m_a" [LRoot; LNestedModule "b_c"; LCallNested "register_types_m_a_b_c"]).
  { apply D. eexists [_], _. split; [reflexivity|]. apply L. reflexivity. }
  assert (D3 : defines (k 0) "register_types_m_a_b" [LRoot; LNestedModule "c"; LCallNested "register_types_m_a_b_c"]).
  { apply D. eexists [_; _; _], _. split; [reflexivity|]. apply L. reflexivity. }
  assert (D4 : defines (k 0) "register_types_m_a_b_c" [LRoot; LAdd 2]).
  { apply D. eexists [_; _; _; _], _. split; [reflexivity|]. apply L. reflexivity. }
  assert (D5 : defines (k 0) "register_methods" [LReturn]).
  { apply D. eexists [_; _; _; _; _], _. split; [reflexivity|]. apply L. reflexivity. }
  assert (D6 : defines (k 0) "register_functions" [LRoot; LCallSub "register_functions_m_a" "a"; LCallSub "register_functions_m_a_b" "a_b"; LReturn]).
  { apply D. eexists [_; _; _; _; _; _], _. split; [reflexivity|]. apply L. reflexivity. }
  assert (D7 : defines (k 0) "register_functions_m_a" [LCallSub "register_functions_m_a_b_c" "b_c"; LReturn]).
  { apply D. eexists [_; _; _; _; _; _; _], _. split; [reflexivity|]. apply L. reflexivity. }
  assert (D8 : defines (k 0) "register_functions_m_a_b" [LCallSub "register_functions_m_a_b_c" "c"; LReturn]).
  { apply D. eexists [_; _; _; _; _; _; _; _; _], _. split; [reflexivity|]. apply L. reflexivity. }
  assert (D9 : defines (k 0) "register_functions_m_a_b_c" [LReturn]).
  { apply D. eexists [_; _; _; _; _; _; _; _; _; _], _. split; [reflexivity|]. apply L. reflexivity. }
  clear D L. exists [LRoot; LNestedModule "a"; LCallNested "register_types_m_a"; LNestedModule "a_b"; LCallNested "register_types_m_a_b"], [LReturn],
    [LRoot; LCallSub "register_functions_m_a" "a"; LCallSub "register_functions_m_a_b" "a_b"; LReturn].
  split; [exact D1|]. split.
  { constructor. constructor. refine (run_call_nested k 0 _ _ _ _ _ _ _ [_] [_] _ _ D2 _ _).
    - constructor. constructor. refine (run_call_nested k 0 _ _ _ _ _ _ _ [_] [] _ _ D4 _ _); repeat constructor.
    - constructor. refine (run_call_nested k 0 _ _ _ _ _ _ _ [_] [] _ _ D3 _ _); [|constructor].
      constructor. constructor. refine (run_call_nested k 0 _ _ _ _ _ _ _ [_] [] _ _ D4 _ _); repeat constructor. }
  split; [exact D5|]. split; [constructor|]. split; [exact D6|].
  constructor. refine (run_call_sub k 0 _ _ _ _ _ _ _ _ [] [] _ _ D7 _ _).
  - refine (run_call_sub k 0 _ _ _ _ _ _ _ _ [] [] _ _ D9 _ _); constructor.
  - refine (run_call_sub k 0 _ _ _ _ _ _ _ _ [] [] _ _ D8 _ _); [|constructor].
    refine (run_call_sub k 0 _ _ _ _ _ _ _ _ [] [] _ _ D9 _ _); constructor.
Qed.
Print Assumptions C53_clash_refuted.
