(** C52: what the members of a class in a header file become. *)
From Verif.Model Require Import Py ScanMembers.
From Verif.Spec Require Import ScanMembersSpec.
From Verif.Proofs Require Import ScanMembersProofs.
Open Scope string_scope.
Open Scope list_scope.

(** What is added to the class: for each member, in their order, what the header says of it or nothing; then an implicit default
    constructor and an implicit copy constructor, each exactly if there is one and no explicit one is declared for it or hidden. *)
Theorem C52_added : forall e ms, exists own default copy,
  filter addition (fst (scan_members e ms)) = own ++ default ++ copy /\ added e ms own /\
  (default = [AddConstructor [] APublic [] false] /\ (e_trivial e = true /\ ~ exists m, In m ms /\ default_constructor m /\ (not_public m \/ wanted e m /\ not_private m)) \/
   default = [] /\ ~ (e_trivial e = true /\ ~ exists m, In m ms /\ default_constructor m /\ (not_public m \/ wanted e m /\ not_private m))) /\
  (copy = [AddCopyConstructor] /\ (e_copy e = true /\ ~ exists m, In m ms /\ copy_constructor m /\ (not_public m \/ exists c, adds e m c)) \/
   copy = [] /\ ~ (e_copy e = true /\ ~ exists m, In m ms /\ copy_constructor m /\ (not_public m \/ exists c, adds e m c))).
Proof.
  intros e ms. exists (flat_map (fun m => filter addition (fst (parts e m))) ms), (if implicit_trivial e ms then [AddConstructor [] APublic [] false] else []), (if implicit_copy e ms then [AddCopyConstructor] else []).
  split; [|split; [apply added_parts|split]].
  - rewrite scan_members_parts. cbn [fst]. rewrite filter_app, filter_flat. destruct (implicit_additions e ms) as [-> _]. reflexivity.
  - destruct (implicit_trivial e ms) eqn:E; [left; split; [reflexivity|now apply implicit_trivial_iff]|]. right. split; [reflexivity|]. rewrite <- implicit_trivial_iff. congruence.
  - destruct (implicit_copy e ms) eqn:E; [left; split; [reflexivity|now apply implicit_copy_iff]|]. right. split; [reflexivity|]. rewrite <- implicit_copy_iff. congruence.
Qed.
Print Assumptions C52_added.

(** The script: of the calls written there, those that succeed are the calls made in memory. *)
Theorem C52_script : forall e ms,
  filter (fun c => addition c && succeeds e c) (snd (scan_members e ms)) = filter addition (fst (scan_members e ms)).
Proof. exact script_ok. Qed.
Print Assumptions C52_script.

(** The class is marked as one that cannot be constructed exactly when a pure virtual method (not left out by annotation) cannot be
    wrapped or cannot be overridden, and its helper class is disabled exactly when such a method cannot be wrapped. *)
Theorem C52_pure : forall e ms,
  (In SetCannotBeConstructed (fst (scan_members e ms)) <-> exists m f custom, In m ms /\ wanted e m /\ as_method m f custom /\ f_virtuality f = VPure /\
     ((forall d, ~ (types_known e f /\ describes f custom d /\ e_accepts e d = true)) \/ e_subclassing e = false)) /\
  (In DisableHelper (fst (scan_members e ms)) <-> exists m f custom, In m ms /\ wanted e m /\ as_method m f custom /\ f_virtuality f = VPure /\
     forall d, ~ (types_known e f /\ describes f custom d /\ e_accepts e d = true)).
Proof.
  intros e ms. split; (rewrite cannot_iff; [|auto]); split; intros (m & f & custom & A & B & C & D & H); exists m, f, custom; (split; [assumption|]); (split; [assumption|]); (split; [assumption|]); (split; [assumption|]).
  - destruct H as [H|[_ H]]; auto.
  - destruct H as [H|H]; auto.
  - destruct H as [H|[H _]]; [assumption|discriminate].
  - now left.
Qed.
Print Assumptions C52_pure.

(** So no pure virtual method is forgotten: it is declared, as pure, or the class cannot be constructed. *)
Theorem C52_abstract : forall e ms m f custom, In m ms -> wanted e m -> as_method m f custom -> f_virtuality f = VPure ->
  (exists d, In (AddMethod d) (fst (scan_members e ms)) /\ d_name d = f_name f /\ d_params d = f_params f /\ d_const d = f_const f /\ d_virtual d = true /\ d_pure d = true) \/
  In SetCannotBeConstructed (fst (scan_members e ms)).
Proof.
  intros e ms m f custom Hm W A V.
  destruct (function_added e f custom) eqn:E.
  - left. exists (method_args custom f). split.
    + rewrite in_calls. left. exists m. split; [assumption|]. apply (proj2 (looked_wanted e m)) in W. unfold parts. rewrite W.
      assert (H : In (AddMethod (method_args custom f)) (fst (scan_function e custom f))).
      { apply (proj1 (filter_In addition (AddMethod (method_args custom f)) (fst (scan_function e custom f)))). rewrite function_calls, E. now left. }
      inversion A; subst; exact H.
    + destruct (method_args_describes f custom) as [D1 _ D3 _ _ D6 _ D8 D9 _ _ _]. split; [exact D1|]. split; [exact D3|]. split; [exact D6|]. split; [apply D8; rewrite V; discriminate|now apply D9].
  - right. apply C52_pure. exists m, f, custom. split; [assumption|]. split; [assumption|]. split; [assumption|]. split; [assumption|]. left.
    intros d ([T1 T2] & D & Acc). apply describes_unique in D. subst d. unfold function_added in E. apply params_ok in T2. rewrite T1, T2, Acc in E.
    assert (R : relevantb f = true) by (apply relevant_b; right; rewrite V; discriminate). now rewrite R in E.
Qed.
Print Assumptions C52_abstract.

(** ** Concrete cases *)
Definition plain (n : string) (a : access) (v : virtuality) (ret : string) (ps : list (string * string)) : func := mk_func n false a v false false false ret ps None None [] [].
Definition known (t : string) : bool := negb (String.eqb t "Odd").
Definition surroundings : env := mk_env ["Ref"; "Unref"] true true true known known (fun _ => true).
Definition shape : list member :=
  [Method (plain "Ref" APublic VNot "void" []); Method (plain "draw" APublic VPure "void" [("int", "x")]); Method (plain "helper" APrivate VNot "int" []);
   Operator "()" (plain "operator()" APublic VNot "int" []); Operator "+" (plain "operator+" APublic VNot "int" []);
   Constructor "Shape" (mk_ctor false APublic [("int", "n")] false false []); Constructor "Shape" (mk_ctor false APrivate [("Shape const &", "o")] true false []);
   Attribute (mk_var "size" false APublic false false "int" false); Attribute (mk_var "odd" false APublic false false "Odd" false); Destructor].
Example shape_calls : fst (scan_members surroundings shape) =
  [AddMethod (mk_method_decl "draw" "void" [("int", "x")] None None [] false false true true APublic false);
   AddMethod (mk_method_decl "operator()" "int" [] (Some "__call__") None [] false false false false APublic false);
   AddConstructor [("int", "n")] APublic [] false; AddInstanceAttribute "size" "int" false; AddConstructor [] APublic [] false].
Proof. reflexivity. Qed.
Example shape_script : snd (scan_members surroundings shape) =
  [AddMethod (mk_method_decl "draw" "void" [("int", "x")] None None [] false false true true APublic false);
   AddMethod (mk_method_decl "operator()" "int" [] (Some "__call__") None [] false false false false APublic false);
   AddConstructor [("int", "n")] APublic [] false; AddInstanceAttribute "size" "int" false; AddInstanceAttribute "odd" "Odd" false; AddConstructor [] APublic [] false].
Proof. reflexivity. Qed.
Example unwrapped_pure : fst (scan_members surroundings [Method (plain "area" AProtected VPure "Odd" [])]) = [SetCannotBeConstructed; DisableHelper; AddConstructor [] APublic [] false; AddCopyConstructor].
Proof. reflexivity. Qed.
Example shape_pure_wanted : wanted surroundings (Method (plain "draw" APublic VPure "void" [("int", "x")])).
Proof. split; [|reflexivity]. cbn. intuition discriminate. Qed.

(** ** Not so *)
(** A pure virtual method that is annotated ignore, or that is an operator, leaves no trace: the class counts as concrete. *)
Theorem C52_abstract_refuted : ~ (forall e ms m f, In m ms -> m = Method f \/ (exists s, m = Operator s f) -> f_virtuality f = VPure ->
  (exists d, In (AddMethod d) (fst (scan_members e ms)) /\ d_pure d = true) \/ In SetCannotBeConstructed (fst (scan_members e ms))).
Proof.
  intro H. specialize (H (mk_env [] true false false known known (fun _ => true)) [Operator "+" (plain "operator+" APublic VPure "int" [])] _ (plain "operator+" APublic VPure "int" []) (or_introl eq_refl) (or_intror (ex_intro _ "+" eq_refl)) eq_refl).
  cbn in H. destruct H as [(d & [] & _)|[]].
Qed.
Print Assumptions C52_abstract_refuted.
Theorem C52_ignored_pure_refuted : exists e f, f_virtuality f = VPure /\ f_ignore f = true /\ fst (scan_members e [Method f]) = [AddConstructor [] APublic [] false].
Proof. exists (mk_env [] true true false known known (fun _ => true)), (mk_func "draw" true APublic VPure false false false "void" [] None None [] []). now split. Qed.
Print Assumptions C52_ignored_pure_refuted.
(** An ignored default or copy constructor is declared all the same. *)
Theorem C52_ignored_constructor_refuted : exists e ms, (forall m, In m ms -> ~ wanted e m) /\ fst (scan_members e ms) = [AddConstructor [] APublic [] false; AddCopyConstructor].
Proof.
  exists surroundings, [Constructor "Shape" (mk_ctor true APublic [] false false []); Constructor "Shape" (mk_ctor true APublic [("Shape const &", "o")] true false [])].
  split; [|reflexivity]. intros m [<-|[<-|[]]] [_ H]; discriminate.
Qed.
Print Assumptions C52_ignored_constructor_refuted.
