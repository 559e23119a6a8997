(** C26: inheritance queries.  [hscript dn ds ok cs []] runs the calls [cs] from no class at all, for every value of the
    settings; its result is the final state and the answers. *)
From Verif.Model Require Import Py PyState Hierarchy.
From Verif.Spec Require Import HierarchySpec.
From Verif.Proofs Require HierarchyTop HierarchyMore.
Open Scope string_scope.
Open Scope list_scope.

(** The resolution order always exists, starts with the class, contains exactly the class and those reachable through
    the declared parents; the first occurrences come level by level, parents in the order declared. *)
Theorem C26_order : forall dn ds ok cs i,
  let w := fst (hscript dn ds ok cs []) in let parents := declared_parents (snd (hscript dn ds ok cs [])) in
  exists l, get_mro w i = Ok (i :: l) /\ (forall c, In c (i :: l) <-> ancestor parents i c) /\
    firsts [] (i :: l) = firsts [] (levels parents i i) /\
    (NoDup (levels parents i i) -> i :: l = levels parents i i).
Proof. exact HierarchyTop.order_ok. Qed.
Print Assumptions C26_order.

Theorem C26_is_subclass : forall dn ds ok cs i j,
  let w := fst (hscript dn ds ok cs []) in let parents := declared_parents (snd (hscript dn ds ok cs [])) in
  exists b, is_subclass w i j = Ok b /\ (b = true <-> ancestor parents i j).
Proof. exact HierarchyTop.subclass_ok. Qed.
Print Assumptions C26_is_subclass.

(** Single inheritance: the order is the line of parents. *)
Theorem C26_line : forall dn ds ok cs i l,
  let w := fst (hscript dn ds ok cs []) in let parents := declared_parents (snd (hscript dn ds ok cs [])) in
  line parents i l -> get_mro w i = Ok l.
Proof. exact HierarchyTop.line_ok. Qed.
Print Assumptions C26_line.

(** Hierarchies have no cycles: the parents of a class were created before it. *)
Theorem C26_acyclic : forall dn ds ok cs i b,
  let parents := declared_parents (snd (hscript dn ds ok cs [])) in In b (parents i) -> b < i.
Proof. exact HierarchyTop.earlier. Qed.
Print Assumptions C26_acyclic.

(** The hooks called before a helper class is generated: those of the classes of the resolution order, the last class first,
    in the order they were added to each. *)
Theorem C26_hooks : forall dn ds ok cs i l k,
  let w := fst (hscript dn ds ok cs []) in let answers := snd (hscript dn ds ok cs []) in
  nth_error w i = Some k -> k_helper k <> None -> get_mro w i = Ok l ->
  exists a, snd (generate_forward ok i w) = Ok (a, flat_map (declared_hooks answers) (rev l)).
Proof. exact HierarchyMore.hooks_ok. Qed.
Print Assumptions C26_hooks.

(** Examples. *)
Definition class_of (l : list nat) : hcall := HClass (mk_cdecl (match l with [] => None | _ => Some l end) None None None false Public).
Definition run_classes (l : list (list nat)) := hscript false true (fun _ => true) (map class_of l) [].
(** A(0), B(1), C(2; A, B), D(3; C), E(4; B): nothing shared above D. *)
Example C26_order_ex : get_mro (fst (run_classes [[]; []; [0; 1]; [2]; [1]])) 3 = Ok [3; 2; 0; 1].
Proof. reflexivity. Qed.
Example C26_tree_ex : levels (declared_parents (snd (run_classes [[]; []; [0; 1]; [2]; [1]]))) 3 3 = [3; 2; 0; 1].
Proof. reflexivity. Qed.
Example C26_line_ex : line (declared_parents (snd (run_classes [[]; [0]; [1]; [2]]))) 3 [3; 2; 1; 0].
Proof. repeat (eapply line_up; [reflexivity|]). apply line_end. reflexivity. Qed.
Example C26_is_subclass_ex :
  is_subclass (fst (run_classes [[]; []; [0; 1]; [2]; [1]])) 4 1 = Ok true /\ is_subclass (fst (run_classes [[]; []; [0; 1]; [2]; [1]])) 4 0 = Ok false.
Proof. split; reflexivity. Qed.

(** Not so: that a class occurs once in the order.  On a diamond the shared ancestor is enumerated twice, and the helper
    class hooks of a shared ancestor are called twice. *)
Theorem C26_once_refuted : exists w l, w = fst (run_classes [[]; [0]; [0]; [1; 2]]) /\ get_mro w 3 = Ok l /\ ~ NoDup l.
Proof.
  eexists _, _. split; [reflexivity|]. split; [reflexivity|]. intros N.
  inversion N; subst. inversion H2; subst. inversion H4; subst. inversion H6; subst. apply H7. now left.
Qed.
(** Not so: that a class comes before the classes it derives from.  D(2; A, B) with B(1; A). *)
Theorem C26_derived_first_refuted : exists w, w = fst (run_classes [[]; [0]; [0; 1]]) /\
  is_subclass w 1 0 = Ok true /\ get_mro w 2 = Ok [2; 0; 1].
Proof. eexists. repeat split; reflexivity. Qed.

Example C26_hooks_ex : let virt := mk_mdecl "f" [] false (Some true) false Public true in
  snd (generate_forward (fun _ => true) 1 (fst (hscript false true (fun _ => true)
    [class_of []; HHook 0 7; class_of [0]; HHook 1 5; HHook 0 8; HMethod 1 virt; HHook 1 6] []))) = Ok (Some [method_of virt], [7; 8; 5; 6]).
Proof. reflexivity. Qed.
