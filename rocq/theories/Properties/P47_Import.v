(** C47: what importing a generated module gives. *)
From Verif.Model Require Import Py Import.
From Verif.Spec Require Import ImportSpec.
From Verif.Proofs Require Import ImportProofs ImportContents ImportOrder ImportNames.
From Coq Require Import Lia.
Open Scope string_scope.
Open Scope list_scope.

(** ** The import succeeds, and the types and exceptions have the declared bases *)
Theorem C47_imports decls const external :
  well_formed decls -> in_order decls -> found_elsewhere decls external -> exists r, import decls const external = Imported r.
Proof. intros W O F. destruct (imports_well decls const external W O F) as (r & H & _). eauto. Qed.
Theorem C47_bases decls const external r k m c :
  well_formed decls -> in_order decls -> found_elsewhere decls external -> import decls const external = Imported r ->
  declared decls k (DClass m c) -> c_import c = None -> exists y, r_type r (Cls k) = Some y /\ t_bases y = c_bases c.
Proof. intros W O F R. destruct (imports_well decls const external W O F) as (r' & R' & H & _). rewrite R in R'. injection R' as <-. apply H. Qed.
Theorem C47_classes_from_elsewhere decls const external r k m c s :
  well_formed decls -> in_order decls -> found_elsewhere decls external -> import decls const external = Imported r ->
  declared decls k (DClass m c) -> c_import c = Some s -> r_type r (Cls k) <> None.
Proof.
  intros W O F R Hk Ci. destruct (imports_well decls const external W O F) as (r' & R' & _ & H & _). rewrite R in R'. injection R' as <-.
  specialize (H k m c s Hk Ci). unfold is_ready in H. destruct (r_type r (Cls k)); discriminate.
Qed.
Theorem C47_exception_parents decls const external r k m n u p :
  well_formed decls -> in_order decls -> found_elsewhere decls external -> import decls const external = Imported r ->
  declared decls k (DException m n u p false) -> r_exc r k = Some p.
Proof. intros W O F R. destruct (imports_well decls const external W O F) as (r' & R' & _ & _ & H). rewrite R in R'. injection R' as <-. apply H. Qed.

(** ** Everything declared is found where it was declared, and nothing else is *)
Theorem C47_found decls const external r k p n x :
  well_formed decls -> compiles decls const = true -> import decls const external = Imported r ->
  offers decls const k p n x -> (forall k' y, offers decls const k' p n y -> y = x) -> attribute r p n = Some x.
Proof. intros W C R. exact (found decls const external W r k p n x R C). Qed.
Theorem C47_nothing_else decls const external r p n x :
  well_formed decls -> compiles decls const = true -> import decls const external = Imported r ->
  attribute r p n = Some x -> exists k, offers decls const k p n x.
Proof. intros W C R. exact (only decls const external W r p n x R C). Qed.

(** ** A module that cannot be imported makes the import fail *)
Theorem C47_missing_module decls const external k m c s mn r :
  well_formed decls -> declared decls k (DClass m c) -> c_import c = Some s -> names_module s mn -> external mn = None ->
  import decls const external <> Imported r.
Proof.
  intros W Hk Ci Nm E. rewrite <- (names_import s mn Nm) in E. rewrite (import_flat decls const external W). assert (Hs : In (SImport k (import_module s) (class_name c)) (flat decls const (length decls) 0)).
  { eapply (declared_flat decls const external W); [exact Hk|]. cbn. unfold class_code. rewrite Ci. now left. }
  generalize rt_start. induction (flat decls const (length decls) 0) as [|t l IH]; [destruct Hs|]. intros r0. cbn [run]. destruct Hs as [->|Hs].
  - cbn [exec]. rewrite E. discriminate.
  - destruct (exec decls external t r0); [now apply IH|discriminate|discriminate].
Qed.

(** ** Generation succeeds, and every type knows its full name *)
Theorem C47_generates decls :
  well_formed decls -> in_order decls -> exists l, generate decls = Ok l /\ forall k, defines_type decls k -> exists s, slot l k = Some s.
Proof. intros W O. destruct (generates_well decls W O) as (l & G & H). exists l. split; [exact G|]. intros k T. destruct (H k T) as (s & Hs & _). eauto. Qed.
Theorem C47_type_names decls l k s :
  well_formed decls -> in_order decls -> generate decls = Ok l -> defines_type decls k -> called decls k s -> slot l k = Some s.
Proof.
  intros W O G T C. destruct (generates_well decls W O) as (l' & G' & H). rewrite G in G'. injection G' as <-. destruct (H k T) as (s' & Hs & C').
  now rewrite (called_fun decls k s C s' C').
Qed.

(** ** A program *)
Definition cls (n full : string) (outer : option nat) (bases : list nat) : classd := mk_classd n None full outer bases false None [] false.
Definition app : list decl :=
  [ (* 0 *) DModule None "app" "";
    (* 1 *) DModule (Some 0) "net" "net";
    (* 2 *) DClass 0 (mk_classd "Base" None "Base" None [] true None ["_PyBase__typeid_map"] false);
    (* 3 *) DClass 0 (mk_classd "Thing" None "Thing" None [] false (Some "mod named lib") [] false);
    (* 4 *) DClass 1 (mk_classd "Node" (Some "PyNode") "net::Node" None [2; 3] true None [] true);
    (* 5 *) DClass 1 (cls "Inner" "net::Node::Inner" (Some 4) [4]);
    (* 6 *) DContainer 1 "IntVector" (Some 4);
    (* 7 *) DException 0 "Error" None None false;
    (* 8 *) DException 1 "NetError" (Some 5) (Some 7) false;
    (* 9 *) DTypedef 1 4 "Vertex";
    (* 10 *) DEnum 1 [EName "UP"; EPair "DOWN" "1 << 3"] "NODE_" (Some "deep") None false;
    (* 11 *) DEnum 1 [EName "RED"] "" None (Some 4) false;
    (* 12 *) DFunction 0 "run";
    (* 13 *) DModule (Some 0) "gui" "gui";
    (* 14 *) DClass 13 (cls "Widget" "gui::Widget" (Some 4) [4]) ].
Definition values (e : string) : option Z :=
  if String.eqb e "net::deep::NODE_UP" then Some 5%Z else if String.eqb e "1 << 3" then Some 8%Z else if String.eqb e "net::Node::RED" then Some 1%Z else None.
Definition others (m : string) : option (string -> bool) := if String.eqb m "mod" then Some (fun a => String.eqb a "Thing") else None.

Ltac each k H := unfold declared in H; cbn in H; repeat (destruct k as [|k]; [cbn in H; try discriminate H; try (inversion H; subst)|cbn in H; try discriminate H]).
Ltac here_it := match goal with H : home _ _ _ |- _ => destruct H as (? & ? & ?) end.
Example app_well_formed : well_formed app.
Proof.
  assert (Mo : a_module app 0 /\ a_module app 1 /\ a_module app 13) by (repeat split; do 3 eexists; reflexivity).
  assert (Cl : a_class app 2 /\ a_class app 3 /\ a_class app 4 /\ a_class app 5) by (repeat split; do 2 eexists; reflexivity).
  assert (Ex : an_exception app 7) by (do 5 eexists; reflexivity).
  split; [do 2 eexists; reflexivity|]. intros k d H. each k H; cbn; unfold earlier_class; cbn; intuition (try lia; try discriminate; try congruence);
    repeat match goal with X : Some _ = Some _ |- _ => injection X as <- end; subst; try lia; tauto.
Qed.
Ltac homes := repeat match goal with H : home _ _ _ |- _ => let d := fresh in let X := fresh in let Y := fresh in destruct H as (d & X & Y); unfold declared in X; cbn in X; injection X as <-; cbn in Y; subst end.
Example app_in_order : in_order app.
Proof.
  assert (B : earlier_branch app 1 13).
  { exists 0, 1, 13. split; [do 2 eexists; reflexivity|]. split; [do 2 eexists; reflexivity|]. split; [lia|]. split; constructor. }
  assert (E : encloses app 0 1) by (split; [discriminate|]; eapply under_sub; [do 2 eexists; reflexivity|constructor]).
  split; [|split; [|split]].
  - intros k o a b [(m & c & H & Ci & Co)|[(m & n & H)|(m & n & p & H)]] Ha Hb.
    + each k H; cbn in Co; try discriminate Co; injection Co as <-; homes; auto.
    + each k H; homes; auto.
    + each k H; homes; auto.
  - intros k o a b [(m & c & H & Ci & Co)|[(m & n & u & H)|(m & vs & p & ns & H)]] Ha Hb.
    + each k H; cbn in Co; try discriminate Ci; repeat (destruct Co as [<-|Co]); try contradiction; homes; auto.
    + each k H; homes; auto.
    + each k H; homes; auto.
  - intros k o s N (m' & c' & Ho & Ci'). destruct N as [(m & c & H & Ci & Co)|[(m & n & H)|(m & n & p & H)]].
    + each k H; cbn in Co; try discriminate Co; injection Co as <-; unfold declared in Ho; cbn in Ho; injection Ho as <- <-; discriminate Ci'.
    + each k H; unfold declared in Ho; cbn in Ho; injection Ho as <- <-; discriminate Ci'.
    + each k H; unfold declared in Ho; cbn in Ho; injection Ho as <- <-; discriminate Ci'.
  - intros k m c H. each k H; cbn; intros; (discriminate || reflexivity || congruence).
Qed.
Example app_found_elsewhere : found_elsewhere app others.
Proof. intros k m c s H. each k H; cbn; intros X; try discriminate X. injection X as <-. exists "mod". eexists. split; [|split; reflexivity].
  change "mod named lib" with ("mod" ++ " named " ++ "lib")%string. constructor. intros x y E. cbn [append] in E.
  do 3 (destruct x as [|? x]; [discriminate E|]; cbn [append] in E; injection E as <- E). destruct x as [|? x]; [reflexivity|]. exfalso. cbn [append] in E.
  repeat (injection E as _ E; destruct x as [|? x]; cbn [append] in E; [discriminate E|]). discriminate E.
Qed.
Example app_compiles : compiles app values = true.
Proof. reflexivity. Qed.
(** What Python sees: app.net.PyNode is a class with bases Base and Thing; app.net.PyNode.Inner.NetError is an Error; app.net.UP is 5 ... *)
Example app_contents : exists r, import app values others = Imported r /\
  attribute r (InModule 1) "PyNode" = Some (XType (Cls 4)) /\ attribute r (InModule 1) "PyNodeIter" = Some (XType (Iter 4)) /\ attribute r (InModule 1) "Vertex" = Some (XType (Cls 4)) /\
  option_map t_bases (r_type r (Cls 4)) = Some [2; 3] /\ attribute r (InClass 5) "NetError" = Some (XException 8) /\ r_exc r 8 = Some (Some 7) /\
  attribute r (InModule 1) "UP" = Some (XInt 5) /\ attribute r (InModule 1) "DOWN" = Some (XInt 8) /\ attribute r (InClass 4) "RED" = Some (XInt 1) /\
  attribute r (InModule 0) "net" = Some (XModule 1) /\ attribute r (InClass 4) "Widget" = Some (XType (Cls 14)) /\ attribute r (InModule 0) "Node" = None.
Proof. eexists. split; [vm_compute; reflexivity|]. repeat split; vm_compute; reflexivity. Qed.
Example app_names : exists l, generate app = Ok l /\ slot l 4 = Some "app.net.Node" /\ slot l 8 = Some "app.net.Node.Inner.NetError" /\ slot l 6 = Some "app.net.Node.IntVector".
Proof. eexists. split; [vm_compute; reflexivity|]. repeat split. Qed.
Example app_offers_uniquely : exists x, offers app values 5 (InClass 4) "Inner" x /\ forall k y, offers app values k (InClass 4) "Inner" y -> y = x.
Proof.
  exists (XType (Cls 5)). split; [apply (offers_class app values 5 1 (cls "Inner" "net::Node::Inner" (Some 4) [4])); reflexivity|].
  intros k y H. inversion H; subst; match goal with D : declared app k _ |- _ => each k D end; try reflexivity; try discriminate; cbn in *; try discriminate;
    repeat match goal with X : In _ _ |- _ => cbn in X end; intuition (subst; discriminate).
Qed.

(** ** Without the order *)
(** The base of a class is in a submodule: it is made ready with that class, before its own bases are known, and loses them. *)
Theorem C47_base_in_a_submodule_refuted : exists decls const external r y m c,
  well_formed decls /\ import decls const external = Imported r /\ declared decls 3 (DClass m c) /\ c_bases c = [2] /\ r_type r (Cls 3) = Some y /\ t_bases y = [].
Proof.
  exists [DModule None "m" ""; DModule (Some 0) "sub" "sub"; DClass 1 (cls "A" "sub::A" None []); DClass 1 (cls "B" "sub::B" None [2]); DClass 0 (cls "C" "C" None [3])], (fun _ => None), (fun _ => None).
  do 4 eexists. split; [|split; [vm_compute; reflexivity|split; [reflexivity|split; [reflexivity|split; reflexivity]]]].
  assert (Mo : forall m, m <= 1 -> a_module [DModule None "m" ""; DModule (Some 0) "sub" "sub"; DClass 1 (cls "A" "sub::A" None []); DClass 1 (cls "B" "sub::B" None [2]); DClass 0 (cls "C" "C" None [3])] m)
    by (intros [|[|m]] L; [do 3 eexists; reflexivity|do 3 eexists; reflexivity|lia]).
  split; [do 2 eexists; reflexivity|]. intros k d H. each k H; cbn; unfold earlier_class; cbn; (split; [|split] || idtac); try apply Mo; try lia; try (split; [discriminate|]);
    try (intros b Hb; cbn in Hb; intuition (subst; try lia; do 2 eexists; reflexivity)); try (split; [lia|apply Mo; lia]); try reflexivity.
Qed.
(** If it is not the first base, the import fails. *)
Theorem C47_second_base_in_a_submodule_refuted : exists decls, forall const external, import decls const external = ImportFailed /\ generate decls <> Err KeyError.
Proof.
  exists [DModule None "m" ""; DModule (Some 0) "sub" "sub"; DClass 0 (cls "A" "A" None []); DClass 1 (cls "B" "sub::B" None []); DClass 0 (cls "C" "C" None [2; 3])].
  intros; split; [reflexivity|vm_compute; discriminate].
Qed.
(** A class with static attributes reads the type of its base's type. *)
Theorem C47_static_attributes_base_in_a_submodule_refuted : exists decls, forall const external, import decls const external = Crashed.
Proof.
  exists [DModule None "m" ""; DModule (Some 0) "sub" "sub"; DClass 1 (cls "B" "sub::B" None []); DClass 0 (mk_classd "C" None "C" None [2] true None [] false)]. reflexivity.
Qed.
(** The parent of an exception is in a submodule: it is Exception instead. *)
Theorem C47_parent_exception_in_a_submodule_refuted : exists decls r, forall const external,
  import decls const external = Imported (r const external) /\ declared decls 3 (DException 0 "E" None (Some 2) false) /\ r_exc (r const external) 3 = Some None.
Proof.
  exists [DModule None "m" ""; DModule (Some 0) "sub" "sub"; DException 1 "P" None None false; DException 0 "E" None (Some 2) false].
  eexists (fun _ _ => _). intros. split; [vm_compute; reflexivity|]. split; reflexivity.
Qed.
(** A type nested in a class of an enclosing module, or in a class imported from elsewhere: no code is generated. *)
Theorem C47_nested_in_a_class_of_an_enclosing_module_refuted : exists decls, generate decls = Err KeyError /\ nth_error decls 3 = Some (DClass 1 (cls "B" "A::B" (Some 2) [])).
Proof. exists [DModule None "m" ""; DModule (Some 0) "sub" "sub"; DClass 0 (cls "A" "A" None []); DClass 1 (cls "B" "A::B" (Some 2) [])]. split; reflexivity. Qed.
Theorem C47_nested_in_an_imported_class_refuted : exists decls, generate decls = Err KeyError /\ nth_error decls 2 = Some (DContainer 0 "V" (Some 1)).
Proof. exists [DModule None "m" ""; DClass 0 (mk_classd "A" None "A" None [] false (Some "lib") [] false); DContainer 0 "V" (Some 1)]. split; reflexivity. Qed.
Theorem C47_nested_class_with_container_traits_refuted : exists decls, generate decls = Err AttributeError.
Proof. exists [DModule None "m" ""; DClass 0 (cls "A" "A" None []); DClass 0 (mk_classd "B" None "A::B" (Some 1) [] false None [] true)]. reflexivity. Qed.
(** A class that is not found in the module named is not reported: classes derived from it derive from object. *)
Theorem C47_class_missing_elsewhere_refuted : exists decls external r y,
  forall const, import decls const external = Imported r /\ declared decls 2 (DClass 0 (cls "B" "B" None [1])) /\ r_type r (Cls 2) = Some y /\ t_bases y = [].
Proof.
  exists [DModule None "m" ""; DClass 0 (mk_classd "A" None "A" None [] false (Some "lib") [] false); DClass 0 (cls "B" "B" None [1])], (fun _ => Some (fun _ => false)).
  do 2 eexists. intros. split; [vm_compute; reflexivity|]. split; [reflexivity|]. split; reflexivity.
Qed.
(** The prefix of the values of an enumeration is not used inside a class. *)
Theorem C47_prefix_of_a_nested_enumeration_refuted : exists decls const r,
  nth_error decls 2 = Some (DEnum 0 [EName "RED"] "COLOR_" None (Some 1) false) /\ const "A::COLOR_RED" = Some 1%Z /\ forall external,
  import decls const external = Imported r /\ attribute r (InClass 1) "RED" = Some (XInt 2).
Proof.
  exists [DModule None "m" ""; DClass 0 (cls "A" "A" None []); DEnum 0 [EName "RED"] "COLOR_" None (Some 1) false], (fun e => if String.eqb e "A::COLOR_RED" then Some 1%Z else Some 2%Z).
  eexists. split; [reflexivity|]. split; [reflexivity|]. intros. split; [vm_compute; reflexivity|reflexivity].
Qed.

Print Assumptions C47_imports.
Print Assumptions C47_bases.
Print Assumptions C47_classes_from_elsewhere.
Print Assumptions C47_exception_parents.
Print Assumptions C47_found.
Print Assumptions C47_nothing_else.
Print Assumptions C47_missing_module.
Print Assumptions C47_generates.
Print Assumptions C47_type_names.
Print Assumptions C47_base_in_a_submodule_refuted.
Print Assumptions C47_second_base_in_a_submodule_refuted.
Print Assumptions C47_static_attributes_base_in_a_submodule_refuted.
Print Assumptions C47_parent_exception_in_a_submodule_refuted.
Print Assumptions C47_nested_in_a_class_of_an_enclosing_module_refuted.
Print Assumptions C47_nested_in_an_imported_class_refuted.
Print Assumptions C47_nested_class_with_container_traits_refuted.
Print Assumptions C47_class_missing_elsewhere_refuted.
Print Assumptions C47_prefix_of_a_nested_enumeration_refuted.
