(** C45: which implementation a call of a virtual method reaches, from C++ and from Python. *)
From Verif.Model Require Import Py PyState Hierarchy MethodTable Dispatch.
From Verif.Spec Require Import HierarchySpec MethodTableSpec VirtualSpec.
From Verif.Proofs Require Import HierarchyTop TableOrder DispatchTop.
Open Scope string_scope.
Open Scope list_scope.

(** A script [decls] declares the classes and methods; then the forward declarations of the classes in [order] are generated,
    and after them the classes themselves.  [ok], [proxy]: there is code for the wrapper of a method, and for calling it from
    C++; [copyable]: see the model. *)
Section Statements.
  Variables (narrow sub : bool) (ok proxy : method -> bool) (copyable : nat -> bool).
  Variables (decls : list hcall) (order : list nat).
  Let result := hscript narrow sub proxy (decls ++ map HForward order) [].
  Let classes := fst result.
  Let answers := snd result.
  Let parents := declared_parents answers.

  (** The declarations are ordinary ones; every class is generated once. *)
  Definition ordinary : Prop :=
    (forall j n, ~ In (HFunction j n) decls) /\ (forall j b, ~ In (HDisable j b) decls) /\ (forall j, ~ In (HForward j) decls) /\
    NoDup order /\ forall c, In c order -> c < length classes.
  (** Class [i] and the classes above it, one parent each, are [l]; all of them are generated, and the helper class of none of
      them had to be given up. *)
  Definition single_line (i : nat) (l : list nat) : Prop :=
    line parents i l /\ (forall c, In c l -> In c order) /\
    forall j k, In j l -> nth_error classes j = Some k -> k_disabled k = false.
  (** [s] is a method as in VirtualSpec, not one of those with slots. *)
  Definition virtual (l : list nat) (s : selector) (v : visibility) : Prop :=
    one_virtual answers ok proxy l s v /\ ~ In (called s) slot_names /\ called s <> "__copy__".
  (** Objects of helper classes: only if there is a helper class.  (Python subclasses get one: C11.) *)
  Definition of_class (o : object) (i : nat) : Prop := ob_class o = i /\ (ob_helper o = true -> helper_class classes i <> None).
  Definition declared_on (l : list nat) (s : selector) : Prop := exists c m, In c l /\ has_method answers c s m.

  Ltac setup :=
    intros (NFn & ND & NF & Once & IN) (Ln & Lo & En) (One & Sl & Ny); apply special_slots in Sl.
  Ltac close L := eapply L; try eassumption; try reflexivity; auto.

  (** C++ calls the method of an object whose Python classes override it: the first of these is called. *)
  Theorem C45_cpp_overridden i l s v o k : ordinary -> single_line i l -> virtual l s v -> v <> Private ->
    of_class o i -> ob_helper o = true -> declared_on l s -> first_definer (called s) (ob_python o) 0 k ->
    call_virtual proxy classes o s = BPython k.
  Proof.
    setup. intros Nv [Oc Oh] Ho Ex Fd.
    close cpp_overridden.
  Qed.

  (** If none does, or the object was not made by a Python subclass: C++'s own answer, the implementation of the nearest class. *)
  Theorem C45_cpp i l s v o c : ordinary -> single_line i l -> virtual l s v -> v <> Private -> of_class o i ->
    (ob_helper o = true -> no_definer (called s) (ob_python o) 0) -> implementor answers l s c ->
    call_virtual proxy classes o s = BCpp c.
  Proof.
    setup. intros Nv [Oc Oh] Nd Im.
    close cpp_plain.
  Qed.

  (** Python calls the method: the first Python class that defines it, or else the implementation of the nearest C++ class. *)
  Theorem C45_python_defined o s from k : first_definer (called s) (ob_python o) from k ->
    call_python ok proxy copyable classes order o from s = BPython k.
  Proof. exact (python_defined narrow sub ok proxy copyable decls order s o from k). Qed.
  Theorem C45_python i l s o c : ordinary -> single_line i l -> virtual l s Public -> of_class o i ->
    no_definer (called s) (ob_python o) 0 -> implementor answers l s c ->
    call_python ok proxy copyable classes order o 0 s = BCpp c.
  Proof.
    setup. intros [Oc Oh] Nd Im.
    close python_plain.
  Qed.

  (** super(): a Python override of a method that the wrapped class itself implements calls that implementation: the call does
      not come back to the override. *)
  Theorem C45_super i l s o from : ordinary -> single_line i l -> virtual l s Public -> of_class o i -> ob_helper o = true ->
    no_definer (called s) (ob_python o) from -> implementor answers l s i ->
    call_python ok proxy copyable classes order o from s = BCpp i.
  Proof.
    setup. intros [Oc Oh] Ho Nd Im.
    close python_super.
  Qed.
  (** Otherwise - if the wrapped class only inherits it, or declares it pure - the call comes back to the first override. *)
  Theorem C45_super_back i l s o from k : ordinary -> single_line i l -> virtual l s Public -> of_class o i -> ob_helper o = true ->
    no_definer (called s) (ob_python o) from -> first_definer (called s) (ob_python o) 0 k -> declared_on l s -> ~ implementor answers l s i ->
    call_python ok proxy copyable classes order o from s = BPython k.
  Proof.
    setup. intros [Oc Oh] Ho Nd Fd Ex Ni.
    close python_super_back.
  Qed.

  (** Protected methods: Python subclasses can call the implementation they inherit, also from an override; other objects do
      not offer the method. *)
  Theorem C45_protected i l s o from c : ordinary -> single_line i l -> virtual l s Protected -> of_class o i -> ob_helper o = true ->
    no_definer (called s) (ob_python o) from -> implementor answers l s c ->
    call_python ok proxy copyable classes order o from s = BCpp c.
  Proof.
    setup. intros [Oc Oh] Ho Nd Im.
    close python_protected.
  Qed.
  Theorem C45_protected_refused i l s o from : ordinary -> single_line i l -> virtual l s Protected -> of_class o i -> ob_helper o = false ->
    no_definer (called s) (ob_python o) from ->
    let answer := call_python ok proxy copyable classes order o from s in answer = BTypeError \/ answer = BAttributeError.
  Proof.
    setup. intros [Oc Oh] Ho Nd.
    close python_refused.
  Qed.
End Statements.

(** ** Examples and limits *)
Definition cpp (ps : option (list nat)) : hcall := HClass (mk_cdecl ps None None (Some true) false Public).
Definition virt (i : nat) (n : string) (v : visibility) (wrappable : bool) : hcall := HMethod i (mk_mdecl n [] false (Some true) false v wrappable).
Definition pure (i : nat) (n : string) : hcall := HMethod i (mk_mdecl n [] false (Some true) true Public true).
Definition all_ok (m : method) : bool := true.
Definition nobody (i : nat) : bool := false.
Definition after (decls : list hcall) (order : list nat) := hscript true true all_ok (decls ++ map HForward order) [].

(** A with the methods m and (protected) p; B, derived from A, with m again and g. *)
Definition two : list hcall :=
  [cpp None; cpp (Some [0]); virt 0 "m" Public true; virt 0 "p" Protected true; virt 1 "m" Public true; virt 1 "g" Public true].
Ltac ordinary_script :=
  split; [intros j n H; repeat (destruct H as [H|H]; [discriminate|]); destruct H|];
  split; [intros j n H; repeat (destruct H as [H|H]; [discriminate|]); destruct H|];
  split; [intros j H; repeat (destruct H as [H|H]; [discriminate|]); destruct H|];
  split; [repeat (constructor; [cbn; intuition discriminate|]); constructor|];
  intros c H; vm_compute; vm_compute in H; intuition; subst; auto with arith.
Ltac line_of_two :=
  split; [apply (line_up _ 1 0); [reflexivity|]; apply line_end; reflexivity|];
  split; [intros c H; cbn in *; tauto|];
  intros j k [<-|[<-|[]]] H; vm_compute in H; injection H as <-; reflexivity.
Ltac pick_declaration H :=
  vm_compute in H; repeat (destruct H as [H|H]; [try discriminate; try (injection H; clear H; intros; subst)|]); try destruct H.
Example two_classes :
  ordinary true true all_ok two [0; 1] /\ single_line true true all_ok two [0; 1] 1 [1; 0] /\
  virtual true true all_ok all_ok two [0; 1] [1; 0] ("m", [], false) Public /\
  virtual true true all_ok all_ok two [0; 1] [1; 0] ("p", [], false) Protected /\
  implementor (snd (after two [0; 1])) [1; 0] ("m", [], false) 1 /\
  implementor (snd (after two [0; 1])) [1; 0] ("p", [], false) 0 /\
  let python o from n := call_python all_ok all_ok nobody (fst (after two [0; 1])) [0; 1] o from (n, [], false) in
  let derived := mk_object 1 true [["x"]; ["m"; "p"]] in
  of_class true true all_ok two [0; 1] derived 1 /\
  call_virtual all_ok (fst (after two [0; 1])) derived ("m", [], false) = BPython 1 /\
  python derived 0 "m" = BPython 1 /\ python derived 2 "m" = BCpp 1 /\ python derived 2 "p" = BCpp 0 /\
  python (mk_object 1 false []) 0 "m" = BCpp 1 /\ python (mk_object 1 false []) 0 "p" = BTypeError.
Proof.
  split; [ordinary_script|]. split; [line_of_two|].
  assert (D : forall c n, In c [1; 0] -> forall m, has_method (snd (after two [0; 1])) c (n, [], false) m -> mt_pure m = false).
  { intros c n _ m [(d & a & Hd & _ & _ & ->) _]. pick_declaration Hd; reflexivity. }
  split.
  { split; [|split; [cbn; intuition discriminate|discriminate]]. split.
    - intros c d a _ Hd Hn. pick_declaration Hd; try discriminate; repeat split.
    - intros c Hc m m' H H'. now rewrite (D c "m" Hc m H), (D c "m" Hc m' H'). }
  split.
  { split; [|split; [cbn; intuition discriminate|discriminate]]. split.
    - intros c d a _ Hd Hn. pick_declaration Hd; try discriminate; repeat split.
    - intros c Hc m m' H H'. now rewrite (D c "p" Hc m H), (D c "p" Hc m' H'). }
  split.
  { exists [], [0]. split; [reflexivity|]. split; [|intros b m []]. exists (mk_method "m" [] false true false Public false). split; [|reflexivity].
    split; [|reflexivity]. exists (mk_mdecl "m" [] false (Some true) false Public true), (RBool true). split; [vm_compute; tauto|].
    split; [|split; reflexivity]. unfold recorded. cbn. intros [H _]. discriminate. }
  split.
  { exists [1], []. split; [reflexivity|]. split.
    - exists (mk_method "p" [] false true false Protected false). split; [|reflexivity].
      split; [|reflexivity]. exists (mk_mdecl "p" [] false (Some true) false Protected true), (RBool true). split; [vm_compute; tauto|].
      split; [|split; reflexivity]. unfold recorded. cbn. intros [_ H]. discriminate.
    - intros b m [<-|[]] [(d & a & Hd & _ & _ & ->) Sg]. pick_declaration Hd; discriminate. }
  cbn zeta. split; [split; [reflexivity|vm_compute; discriminate]|].
  split; [vm_compute; reflexivity|]. split; [vm_compute; reflexivity|]. split; [vm_compute; reflexivity|]. split; [vm_compute; reflexivity|]. split; vm_compute; reflexivity.
Qed.

(** An override of an inherited method cannot call the implementation it inherits: the method is declared in A only; the call of
    super().m() in the override in a Python class derived from B calls the override again, and so on. *)
Theorem C45_super_inherited_refuted : exists decls i l s o,
  ordinary true true all_ok decls [0; 1] /\ single_line true true all_ok decls [0; 1] i l /\
  virtual true true all_ok all_ok decls [0; 1] l s Public /\ of_class true true all_ok decls [0; 1] o i /\ ob_helper o = true /\
  no_definer (called s) (ob_python o) 1 /\ (exists c, implementor (snd (after decls [0; 1])) l s c) /\
  call_python all_ok all_ok nobody (fst (after decls [0; 1])) [0; 1] o 1 s = BPython 0.
Proof.
  exists [cpp None; cpp (Some [0]); virt 0 "m" Public true; virt 1 "g" Public true], 1, [1; 0], ("m", [], false), (mk_object 1 true [["m"]]).
  split; [ordinary_script|]. split; [line_of_two|]. split.
  { split; [|split; [cbn; intuition discriminate|discriminate]]. split.
    - intros c d a _ Hd Hn. pick_declaration Hd; try discriminate; repeat split.
    - intros c Hc m m' [(d & a & Hd & _ & _ & ->) _] [(d' & a' & Hd' & _ & _ & ->) _]. pick_declaration Hd; pick_declaration Hd'; reflexivity. }
  split; [split; [reflexivity|vm_compute; discriminate]|]. split; [reflexivity|]. split; [intros [|j] names H E; [inversion H|destruct j; discriminate]|].
  split; [|vm_compute; reflexivity]. exists 0, [1], []. split; [reflexivity|]. split.
  - exists (mk_method "m" [] false true false Public false). split; [|reflexivity].
    split; [|reflexivity]. exists (mk_mdecl "m" [] false (Some true) false Public true), (RBool true). split; [vm_compute; tauto|].
    split; [|split; reflexivity]. unfold recorded. cbn. intros [H _]. discriminate.
  - intros b m [<-|[]] [(d & a & Hd & _ & _ & ->) Sg]. pick_declaration Hd; discriminate.
Qed.

(** A call from C++ of a private virtual method that no Python class overrides does not reach its implementation. *)
Theorem C45_private_refuted : exists decls i l s o c,
  ordinary true true all_ok decls [0] /\ line (declared_parents (snd (after decls [0]))) i l /\
  implementor (snd (after decls [0])) l s c /\ no_definer (called s) (ob_python o) 0 /\ ob_class o = i /\
  call_virtual all_ok (fst (after decls [0])) o s = BNone.
Proof.
  exists [cpp None; virt 0 "m" Private true], 0, [0], ("m", [], false), (mk_object 0 true [["x"]]), 0.
  split; [ordinary_script|]. split; [apply line_end; reflexivity|]. split; [|split; [|split; [reflexivity|vm_compute; reflexivity]]].
  - exists [], []. split; [reflexivity|]. split; [|intros b m []]. exists (mk_method "m" [] false true false Private false). split; [|reflexivity].
    split; [|reflexivity]. exists (mk_mdecl "m" [] false (Some true) false Private true), (RBool true). split; [vm_compute; tauto|].
    split; [|split; reflexivity]. unfold recorded. cbn. intros [H _]. discriminate.
  - intros [|j] names H E; [injection E as <-; cbn; intuition discriminate|destruct j; discriminate].
Qed.

(** A class overrides the method with types that are not known: objects of Python classes derived from it that do not override the
    method run the implementation of the parent, not that of the class. *)
Theorem C45_unknown_override_refuted : exists decls i l s o m,
  ordinary true true all_ok decls [0; 1] /\ line (declared_parents (snd (after decls [0; 1]))) i l /\
  declares (snd (after decls [0; 1])) i m /\ signature m = s /\ mt_virtual m = true /\ mt_pure m = false /\
  no_definer (called s) (ob_python o) 0 /\ ob_class o = i /\
  call_virtual all_ok (fst (after decls [0; 1])) o s = BCpp 0 /\ i <> 0.
Proof.
  exists [cpp None; cpp (Some [0]); virt 0 "m" Public true; virt 1 "m" Public false; virt 1 "g" Public true], 1, [1; 0], ("m", [], false),
    (mk_object 1 true [["x"]]), (mk_method "m" [] false true false Public false).
  split; [ordinary_script|]. split; [apply (line_up _ 1 0); [reflexivity|]; apply line_end; reflexivity|]. split.
  { exists (mk_mdecl "m" [] false (Some true) false Public false), (RBool false). split; [vm_compute; tauto|]. split; reflexivity. }
  split; [reflexivity|]. split; [reflexivity|]. split; [reflexivity|]. split; [|split; [reflexivity|split; [vm_compute; reflexivity|discriminate]]].
  intros [|j] names H E; [injection E as <-; cbn; intuition discriminate|destruct j; discriminate].
Qed.

Print Assumptions C45_cpp_overridden.
Print Assumptions C45_cpp.
Print Assumptions C45_python_defined.
Print Assumptions C45_python.
Print Assumptions C45_super.
Print Assumptions C45_super_back.
Print Assumptions C45_protected.
Print Assumptions C45_protected_refused.
Print Assumptions C45_super_inherited_refuted.
Print Assumptions C45_private_refuted.
Print Assumptions C45_unknown_override_refuted.
