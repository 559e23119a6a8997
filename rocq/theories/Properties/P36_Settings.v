(** C36: what a class inherits from its parents.  [hscript dn ds ok cs []] runs the calls [cs]; [dn] and [ds] are the
    settings automatic_type_narrowing and allow_subclassing. *)
From Verif.Model Require Import Py PyState Hierarchy.
From Verif.Spec Require Import HierarchySpec SettingsSpec.
From Verif.Proofs Require SettingsProofs.
Open Scope string_scope.
Open Scope list_scope.

(** After any script, each class has the memory policy of the first parent that has one, otherwise the one given to it; it
    narrows types as given, else as its first parent, else as set; it allows subclassing likewise, unless its destructor
    is private, and never forbids it explicitly below a parent that allows it. *)
Theorem C36_inherited : forall dn ds ok cs d i,
  let z := fst (hscript dn ds ok cs []) in In (HClass d, Ok (RClass i)) (snd (hscript dn ds ok cs [])) ->
  policy_of z i = (match first_of (map (policy_of z) (parents_in d)) with Some p => Some p | None => cd_policy d end) /\
  (first_of (map (policy_of z) (parents_in d)) = None \/ cd_policy d = None) /\
  narrowing_of z i = (match cd_narrowing d, head_parent d with Some b, _ => b | None, Some p => narrowing_of z p | None, None => dn end) /\
  subclassing_of z i = (match cd_destructor d with Private => false | _ =>
      match cd_subclassing d, head_parent d with Some b, _ => b | None, Some p => subclassing_of z p | None, None => ds end end) /\
  (cd_subclassing d = Some false -> forall b, In b (parents_in d) -> subclassing_of z b = false).
Proof. intros dn ds ok cs d i. exact (SettingsProofs.settings_ok dn ds ok cs d i [] PureScript.wf_nil). Qed.
Print Assumptions C36_inherited.

(** The classes refused, and the error: an empty list of parents, a memory policy given twice, subclassing forbidden below
    a parent that allows it.  Everything else is accepted and gets the next number. *)
Theorem C36_refused : forall dn ds ok d w, (forall b, In b (parents_in d) -> b < length w) ->
  snd (run_hcall dn ds ok (HClass d) w) =
    if (match cd_parents d with Some [] => true | _ => false end) then Err IndexError
    else if (match first_of (map (policy_of w) (parents_in d)), cd_policy d with Some _, Some _ => true | _, _ => false end) then Err AssertionError
    else if (match cd_subclassing d with Some false => existsb (subclassing_of w) (parents_in d) | _ => false end) then Err ValueError
    else Ok (RClass (length w)).
Proof. exact SettingsProofs.refused. Qed.
Print Assumptions C36_refused.

(** Single inheritance: a policy given anywhere on the line is the policy of every class below; without one there is none. *)
Theorem C36_policy_line : forall dn ds ok cs i l,
  let z := fst (hscript dn ds ok cs []) in let answers := snd (hscript dn ds ok cs []) in
  line (declared_parents answers) i l -> i < length z -> forall c d, In c l -> In (HClass d, Ok (RClass c)) answers ->
  forall p, cd_policy d = Some p -> policy_of z i = Some p.
Proof. exact SettingsProofs.line_policy. Qed.
Print Assumptions C36_policy_line.
Theorem C36_no_policy_line : forall dn ds ok cs i l,
  let z := fst (hscript dn ds ok cs []) in let answers := snd (hscript dn ds ok cs []) in
  line (declared_parents answers) i l -> i < length z ->
  (forall c d, In c l -> In (HClass d, Ok (RClass c)) answers -> cd_policy d = None) -> policy_of z i = None.
Proof. exact SettingsProofs.line_no_policy. Qed.
Print Assumptions C36_no_policy_line.

(** Single inheritance: below a class that allows subclassing every class with an accessible destructor does (its instances
    have the instance dictionary the parent's code expects). *)
Theorem C36_subclassing_line : forall dn ds ok cs i b,
  let z := fst (hscript dn ds ok cs []) in let answers := snd (hscript dn ds ok cs []) in
  declared_parents answers i = [b] -> i < length z -> subclassing_of z b = true ->
  (forall d, In (HClass d, Ok (RClass i)) answers -> cd_destructor d <> Private) -> subclassing_of z i = true.
Proof. exact SettingsProofs.line_subclassing. Qed.
Print Assumptions C36_subclassing_line.

(** Instances are created by the function set on the nearest class of the resolution order, the latest set there; without
    one, as the policy of the last class of the order says, if it has one, otherwise by default.  The function called after
    creation is the nearest one too. *)
Theorem C36_creation : forall dn ds ok cs i l,
  let z := fst (hscript dn ds ok cs []) in let answers := snd (hscript dn ds ok cs []) in
  i < length z -> get_mro z i = Ok l ->
  match instance_creation (classes z l) with
  | CustomCreation n => exists before c after, l = before ++ c :: after /\ latest (set_creation c) answers = Some n /\
                          forall b, In b before -> latest (set_creation b) answers = None
  | PolicyCreation p => (forall c, In c l -> latest (set_creation c) answers = None) /\ policy_of z (last l 0) = Some p
  | DefaultCreation => (forall c, In c l -> latest (set_creation c) answers = None) /\ policy_of z (last l 0) = None
  end /\
  match post_creation (classes z l) with
  | Some n => exists before c after, l = before ++ c :: after /\ latest (set_post c) answers = Some n /\
                forall b, In b before -> latest (set_post b) answers = None
  | None => forall c, In c l -> latest (set_post c) answers = None
  end.
Proof. exact SettingsProofs.creation_ok. Qed.
Print Assumptions C36_creation.

(** The class whose map of types is used for narrowing: the topmost one reached through first parents that all narrow. *)
Theorem C36_narrowing_root : forall dn ds ok cs i,
  let z := fst (hscript dn ds ok cs []) in let parents := declared_parents (snd (hscript dn ds ok cs [])) in
  if narrowing_of z i then
    exists r, type_narrowing_root z i = Ok (Some r) /\ chain parents i r /\
      (forall c, chain parents i c -> chain parents c r -> narrowing_of z c = true) /\
      (forall b l, parents r = b :: l -> narrowing_of z b = false)
  else type_narrowing_root z i = Ok None.
Proof. exact SettingsProofs.narrowing_root_ok. Qed.
Print Assumptions C36_narrowing_root.

(** The wrapper registry is that of the root reached through first parents; so related classes share it. *)
Theorem C36_registry : forall dn ds ok cs i,
  let z := fst (hscript dn ds ok cs []) in let parents := declared_parents (snd (hscript dn ds ok cs [])) in
  exists r, wrapper_registry z i = Ok r /\ chain parents i r /\ parents r = [].
Proof. exact SettingsProofs.wrapper_registry_ok. Qed.
Print Assumptions C36_registry.
Theorem C36_registry_shared : forall dn ds ok cs i j,
  let z := fst (hscript dn ds ok cs []) in let parents := declared_parents (snd (hscript dn ds ok cs [])) in
  chain parents i j -> wrapper_registry z i = wrapper_registry z j.
Proof. exact SettingsProofs.registry_shared. Qed.
Print Assumptions C36_registry_shared.

(** ** Examples *)
Definition with_policy (ps : list nat) (p : option nat) : hcall :=
  HClass (mk_cdecl (match ps with [] => None | _ => Some ps end) p None None false Public).
Definition with_sub (ps : list nat) (s : option bool) (v : visibility) : hcall :=
  HClass (mk_cdecl (match ps with [] => None | _ => Some ps end) None None s false v).
Definition with_narrow (ps : list nat) (s : option bool) : hcall :=
  HClass (mk_cdecl (match ps with [] => None | _ => Some ps end) None s None false Public).
Notation run cs := (hscript false true (fun _ => true) cs []).

Definition family : list hcall := [with_policy [] None; with_policy [0] (Some 7); with_policy [1] None; with_policy [2] (Some 8)].
Example C36_family : map snd (snd (run family)) = [Ok (RClass 0); Ok (RClass 1); Ok (RClass 2); Err AssertionError] /\
  policy_of (fst (run family)) 2 = Some 7 /\ line (declared_parents (snd (run family))) 2 [2; 1; 0].
Proof. split; [reflexivity|]. split; [reflexivity|]. repeat (eapply line_up; [reflexivity|]). apply line_end. reflexivity. Qed.
Example C36_refused_ex : snd (run_hcall false true (fun _ => true) (with_sub [0] (Some false) Public) (fst (run [with_sub [] None Public]))) = Err ValueError.
Proof. reflexivity. Qed.
Example C36_creation_ex : exists l, get_mro (fst (run (family ++ [HCreation 1 5; HCreation 1 6; HPost 0 3]))) 2 = Ok l /\
  instance_creation (classes (fst (run (family ++ [HCreation 1 5; HCreation 1 6; HPost 0 3]))) l) = CustomCreation 6 /\
  post_creation (classes (fst (run (family ++ [HCreation 1 5; HCreation 1 6; HPost 0 3]))) l) = Some 3.
Proof. eexists. repeat split; reflexivity. Qed.
Example C36_narrowing_ex : type_narrowing_root (fst (run [with_narrow [] None; with_narrow [0] (Some true); with_narrow [1] None])) 2 = Ok (Some 1).
Proof. reflexivity. Qed.
Example C36_registry_ex : wrapper_registry (fst (run family)) 2 = Ok 0.
Proof. reflexivity. Qed.

(** ** What does not hold *)
(** Instances of a class are not always created as its own memory policy says: a policy introduced below the root (as in
    [family]) is ignored, the last class of the order having none. *)
Theorem C36_creation_policy_refuted : exists l, get_mro (fst (run family)) 2 = Ok l /\ policy_of (fst (run family)) 2 = Some 7 /\
  instance_creation (classes (fst (run family)) l) = DefaultCreation.
Proof. eexists. repeat split; reflexivity. Qed.
(** Below two parents, subclassing is inherited from the first only, although it cannot be forbidden explicitly; and a class
    with a private destructor forbids it below a parent that allows it. *)
Theorem C36_subclassing_refuted :
  let z := fst (run [with_sub [] (Some false) Public; with_sub [] (Some true) Public; with_sub [0; 1] None Public; with_sub [1] None Private]) in
  subclassing_of z 1 = true /\ subclassing_of z 2 = false /\ subclassing_of z 3 = false.
Proof. repeat split; reflexivity. Qed.
(** Below two parents with different policies the first one wins silently: an instance seen through the other parent is
    handled by another policy. *)
Theorem C36_policy_refuted :
  let z := fst (run [with_policy [] (Some 7); with_policy [] (Some 8); with_policy [0; 1] None]) in
  policy_of z 1 = Some 8 /\ policy_of z 2 = Some 7 /\ is_subclass z 2 1 = Ok true.
Proof. repeat split; reflexivity. Qed.
(** Nor do all subclasses of a class share its registry: only those through first parents. *)
Theorem C36_registry_refuted :
  let z := fst (run [with_policy [] None; with_policy [] None; with_policy [0; 1] None]) in
  is_subclass z 2 1 = Ok true /\ wrapper_registry z 2 = Ok 0 /\ wrapper_registry z 1 = Ok 1.
Proof. repeat split; reflexivity. Qed.
