(** C27: abstract classes.  A class is a number; [HPure i] asks get_have_pure_virtual_methods of class [i], [HForward i]
    generates its forward declarations (with the helper class), [HConstructor i v] one of its constructors. *)
From Verif.Model Require Import Py PyState Hierarchy.
From Verif.Spec Require Import HierarchySpec.
From Verif.Proofs Require HierarchyTop HierarchyMore.
Open Scope string_scope.
Open Scope list_scope.

(** The answer: the class is abstract, from the declarations of the script and the resolution order.  [timely]: no
    declaration for an ancestor came after the class was asked; [consistent]: no class declares one signature twice, once
    pure and once not. *)
Theorem C27_abstract : forall dn ds ok cs i l,
  let w := fst (hscript dn ds ok cs []) in let answers := snd (hscript dn ds ok cs []) in
  i < length w -> get_mro w i = Ok l -> timely (declared_parents answers) cs i ->
  (forall c, In c l -> consistent (declares answers) c) ->
  exists b, snd (run_hcall dn ds ok (HPure i) w) = Ok (RBool b) /\ (b = true <-> abstract (declares answers) l).
Proof. exact HierarchyTop.abstract_ok. Qed.
Print Assumptions C27_abstract.

(** With single inheritance this is what C++ means by abstract: some final overrider is pure. *)
Theorem C27_line : forall dn ds ok cs i l,
  let w := fst (hscript dn ds ok cs []) in let answers := snd (hscript dn ds ok cs []) in
  i < length w -> line (declared_parents answers) i l -> timely (declared_parents answers) cs i ->
  (forall c, In c l -> consistent (declares answers) c) ->
  (forall c m, In c l -> declares answers c m -> mt_pure m = true -> mt_virtual m = true) ->
  exists b, snd (run_hcall dn ds ok (HPure i) w) = Ok (RBool b) /\
    (b = true <-> exists m, final (declares answers) l m /\ mt_pure m = true).
Proof. exact HierarchyTop.abstract_line_ok. Qed.
Print Assumptions C27_line.

(** What the constructors create, when they are generated after the forward declarations of the class: the class itself
    only if it is not abstract, and for Python subclasses the helper class exactly if one was declared. *)
Theorem C27_constructor : forall dn ds ok pre post i v o c,
  let cs := pre ++ HForward i :: post in
  let w1 := fst (hscript dn ds ok pre []) in let w := fst (hscript dn ds ok cs []) in let answers := snd (hscript dn ds ok cs []) in
  i < length w1 -> snd (run_hcall dn ds ok (HForward i) w1) = Ok (RProxies o) ->
  (forall d, ~ In (HMethod i d) post) -> ~ In (HForward i) post ->
  snd (run_hcall dn ds ok (HConstructor i v) w) = Ok (RCtor c) ->
  timely (declared_parents answers) cs i -> forall l, get_mro w i = Ok l -> (forall c, In c l -> consistent (declares answers) c) ->
  (cc_subclass c = MHelper <-> o <> None) /\
  (cc_exact c = MClass \/ cc_subclass c = MClass -> ~ abstract (declares answers) l) /\
  (v = Public -> ~ abstract (declares answers) l -> (forall k, nth_error w i = Some k -> k_cannot k = "") -> cc_exact c = MClass).
Proof. exact HierarchyTop.constructor_ok. Qed.
Print Assumptions C27_constructor.

(** The helper class is not abstract because of methods that are wrapped: each pure method that makes the class abstract is
    overridden by a proxy the helper class declares (if no helper class on the way up is disabled). *)
Theorem C27_helper : forall dn ds ok cs i l ps before c after m,
  let w := fst (hscript dn ds ok cs []) in let answers := snd (hscript dn ds ok cs []) in
  (forall j b, ~ In (HDisable j b) cs) -> ~ In (HForward i) cs ->
  (forall j k, ancestor (declared_parents answers) i j -> nth_error w j = Some k -> k_disabled k = false) ->
  i < length w -> get_mro w i = Ok l -> snd (run_hcall dn ds ok (HForward i) w) = Ok (RProxies (Some ps)) ->
  l = before ++ c :: after -> declares_wrapped answers c m -> mt_virtual m = true -> mt_pure m = true ->
  (forall d x, In d before -> declares answers d x -> mt_virtual x = true -> signature x = signature m -> mt_pure x = true) ->
  consistent (declares answers) c ->
  exists p, In p ps /\ signature p = signature m.
Proof. exact HierarchyTop.helper_ok. Qed.
Print Assumptions C27_helper.

(** A class with a pure virtual method that cannot be wrapped (and that it does not also declare in a form that can) has no
    helper class from then on. *)
Theorem C27_unwrapped : forall dn ds ok pre post i d,
  let cs := pre ++ HMethod i d :: post in let w1 := fst (hscript dn ds ok pre []) in let w := fst (hscript dn ds ok cs []) in
  (forall j b, ~ In (HDisable j b) cs) -> ~ In (HForward i) pre ->
  (forall j k, ancestor (declared_parents (snd (hscript dn ds ok pre []))) i j -> nth_error w1 j = Some k -> k_disabled k = false) ->
  i < length w1 -> md_wrappable d = false -> md_virtual d = Some true -> md_pure d = true ->
  (forall x, declares_wrapped (snd (hscript dn ds ok pre [])) i x -> mt_virtual x = true -> signature x <> signature (method_of d)) ->
  snd (run_hcall dn ds ok (HForward i) w) = Ok (RProxies None).
Proof. exact HierarchyMore.unwrapped_ok. Qed.
Print Assumptions C27_unwrapped.

(** Constructors are generated at all exactly if the class has a helper class or is not abstract (unless
    set_cannot_be_constructed was called). *)
Theorem C27_generated : forall dn ds ok pre i o,
  let cs := pre ++ [HForward i] in
  let w1 := fst (hscript dn ds ok pre []) in let w := fst (hscript dn ds ok cs []) in let answers := snd (hscript dn ds ok cs []) in
  i < length w1 -> snd (run_hcall dn ds ok (HForward i) w1) = Ok (RProxies o) ->
  (forall s, In (HCannot i s) pre -> s = "") -> ~ In (HForward i) pre ->
  timely (declared_parents answers) cs i -> forall l, get_mro w i = Ok l -> (forall c, In c l -> consistent (declares answers) c) ->
  exists k, nth_error w i = Some k /\ (constructors_enabled k = true <-> o <> None \/ ~ abstract (declares answers) l).
Proof. exact HierarchyMore.enabled_ok. Qed.
Print Assumptions C27_generated.

(** ** Examples *)
Definition klass (l : list nat) : hcall := HClass (mk_cdecl (match l with [] => None | _ => Some l end) None None None false Public).
Definition virt (i : nat) (n : string) (pure : bool) : hcall := HMethod i (mk_mdecl n [] false (Some true) pure Public true).
Definition opaque (i : nat) (n : string) (v : option bool) : hcall := HMethod i (mk_mdecl n [] false v true Public false).
Definition all_proxies (m : method) : bool := true.
Notation run cs := (hscript false true all_proxies cs []).
Notation answer_of cs c := (snd (run_hcall false true all_proxies c (fst (run cs)))).

(** Shape(0): draw, area pure; Circle(1): draw; Disc(2): area. *)
Definition shapes : list hcall :=
  [klass []; virt 0 "draw" true; virt 0 "area" true; klass [0]; virt 1 "draw" false; klass [1]; virt 2 "area" false].
Example C27_shapes : answer_of shapes (HPure 0) = Ok (RBool true) /\ answer_of shapes (HPure 1) = Ok (RBool true) /\
  answer_of shapes (HPure 2) = Ok (RBool false).
Proof. repeat split; reflexivity. Qed.
Example C27_shapes_line : line (declared_parents (snd (run shapes))) 2 [2; 1; 0].
Proof. repeat (eapply line_up; [reflexivity|]). apply line_end. reflexivity. Qed.
Example C27_shapes_timely : forall i, timely (declared_parents (snd (run shapes))) shapes i.
Proof.
  intros i before j d after E _ _ c Hc A.
  assert (Hs : In c shapes) by (rewrite E; apply in_or_app; now left). clear -Hs A.
  cbn in Hs. destruct A as [->|[->|(v & ->)]]; repeat (destruct Hs as [Hs|Hs]; [discriminate|]); destruct Hs.
Qed.
Lemma declares_shapes c m : declares (snd (run shapes)) c m ->
  (c, mt_name m, mt_pure m, mt_virtual m) = (0, "draw", true, true) \/ (c, mt_name m, mt_pure m, mt_virtual m) = (0, "area", true, true) \/
  (c, mt_name m, mt_pure m, mt_virtual m) = (1, "draw", false, true) \/ (c, mt_name m, mt_pure m, mt_virtual m) = (2, "area", false, true).
Proof.
  intros (d & a & I & _ & ->). cbn in I.
  repeat (destruct I as [I|I]; [try discriminate I; injection I as <- <-; cbn; auto|]). destruct I.
Qed.
Example C27_shapes_consistent : forall c, consistent (declares (snd (run shapes))) c.
Proof.
  intros c x y Dx Dy _ _ S. apply declares_shapes in Dx, Dy. unfold signature in S.
  assert (N : mt_name x = mt_name y) by congruence.
  decompose [or] Dx; decompose [or] Dy; congruence.
Qed.
(** Disc is generated, then its constructor: the class itself for exact instances, the helper for subclasses. *)
Example C27_shapes_constructor :
  answer_of shapes (HForward 2) = Ok (RProxies (Some [mk_method "area" [] false true false Public false; mk_method "draw" [] false true false Public false])) /\
  answer_of (shapes ++ [HForward 2]) (HConstructor 2 Public) = Ok (RCtor (mk_ctor_code MHelper MClass)) /\
  answer_of (shapes ++ [HForward 1]) (HConstructor 1 Public) = Ok (RCtor (mk_ctor_code MHelper MNothing)).
Proof. repeat split; reflexivity. Qed.
(** The pure method area of Circle has a proxy. *)
Example C27_shapes_helper : exists ps p, answer_of shapes (HForward 1) = Ok (RProxies (Some ps)) /\ In p ps /\
  signature p = signature (mk_method "area" [] false true true Public false).
Proof. eexists _, (mk_method "area" [] false true true Public false). split; [reflexivity|]. split; [right; now left|reflexivity]. Qed.

(** An unwrappable pure method: no helper class, no constructors; its child implements it and gets both. *)
Definition odd_shapes : list hcall := [klass []; virt 0 "draw" true; opaque 0 "area" (Some true); klass [0]; virt 1 "draw" false].
Example C27_unwrapped_ex : answer_of odd_shapes (HForward 0) = Ok (RProxies None) /\
  option_map constructors_enabled (nth_error (fst (run (odd_shapes ++ [HForward 0]))) 0) = Some false /\
  option_map constructors_enabled (nth_error (fst (run (shapes ++ [HForward 2]))) 2) = Some true.
Proof. repeat split; reflexivity. Qed.

(** ** What does not hold *)
(** Without [timely]: a pure virtual method added to a parent after the child was asked goes unnoticed. *)
Theorem C27_stale_refuted : exists cs, cs = [klass []; klass [0]; HPure 1; virt 0 "draw" true] /\
  answer_of cs (HPure 0) = Ok (RBool true) /\ answer_of cs (HPure 1) = Ok (RBool false) /\
  abstract (declares (snd (run cs))) [1; 0].
Proof.
  eexists. split; [reflexivity|]. split; [reflexivity|]. split; [reflexivity|].
  exists [1], 0, [], (mk_method "draw" [] false true true Public false). split; [reflexivity|]. split; [|split; [reflexivity|]].
  - exists (mk_mdecl "draw" [] false (Some true) true Public true), (RBool true).
    split; [right; right; right; now left|]. split; [|reflexivity]. intros [H _]. discriminate.
  - intros d x [<-|[]] (d0 & a & I & _). cbn in I. repeat (destruct I as [I|I]; [discriminate I|]). destruct I.
Qed.
(** A pure virtual method with unknown types counts only if is_virtual=True is given explicitly: is_pure_virtual=True
    alone, which means virtual for methods with known types, leaves the class constructible. *)
Theorem C27_unwrapped_refuted :
  answer_of [klass []; opaque 0 "draw" (Some true)] (HPure 0) = Ok (RBool true) /\
  answer_of [klass []; opaque 0 "draw" None] (HPure 0) = Ok (RBool false) /\
  answer_of [klass []; opaque 0 "draw" None; HForward 0] (HConstructor 0 Public) = Ok (RCtor (mk_ctor_code MClass MClass)).
Proof. repeat split; reflexivity. Qed.
(** An ancestor placed before its descendant in the resolution order hides a redeclaration: A(0) defines f, B(1; A) makes
    it pure again, D(2; A, B): the order is D, A, B, A, so f counts as implemented in D although it is not in C++. *)
Theorem C27_order_refuted : exists cs, cs = [klass []; virt 0 "f" false; klass [0]; virt 1 "f" true; klass [0; 1]] /\
  answer_of cs (HPure 1) = Ok (RBool true) /\ answer_of cs (HPure 2) = Ok (RBool false).
Proof. eexists. repeat split; reflexivity. Qed.
(** The helper class knows nothing of the methods of ancestors whose types are unknown: the child of a class whose helper
    class was given up for such a method, but created before, is still given a helper class that lacks the method. *)
Theorem C27_helper_unwrapped_refuted : exists cs, cs = [klass []; klass [0]; virt 1 "g" false; opaque 0 "draw" (Some true)] /\
  answer_of cs (HPure 1) = Ok (RBool true) /\
  answer_of (cs ++ [HForward 1]) (HConstructor 1 Public) = Ok (RCtor (mk_ctor_code MHelper MNothing)) /\
  answer_of cs (HForward 1) = Ok (RProxies (Some [mk_method "g" [] false true false Public false])).
Proof. eexists. repeat split; reflexivity. Qed.
(** Likewise for a wrapped pure method declared while an ancestor is disabled. *)
Theorem C27_helper_disabled_refuted : exists cs, cs = [klass []; klass [0]; virt 1 "g" false; HDisable 0 true; virt 1 "f" true] /\
  answer_of cs (HPure 1) = Ok (RBool true) /\
  answer_of cs (HForward 1) = Ok (RProxies (Some [mk_method "g" [] false true false Public false])).
Proof. eexists. repeat split; reflexivity. Qed.
