(** C32: conversion of Python lists to C++ containers, iteration over them, and their lifetime. *)
From Verif.Model Require Import Py IntHandlers Containers.
From Verif.Spec Require Import ContainerSpec IntSpec.
From Verif.Proofs Require ContainerConv ContainerRep ContainerHeap ContainerSteps ContainerTop IntTop IntBack.
From Coq Require Import Permutation Sorted ZArith Lia.
Open Scope string_scope.
Open Scope list_scope.

Section C32.
  (** The element types that are not containers with their conversions; the order, equality and hash table placement of
      the elements; the declared container types. *)
  Variables leaf lval atom : Type.
  Variable leaf_in : leaf -> pyobj atom -> lval + argerr.
  Variable leaf_out : leaf -> lval -> atom.
  Variable leaf_prepends : leaf -> bool.
  Variable less equal : cval lval -> cval lval -> bool.
  Variable place : list (cval lval) -> cval lval -> nat.
  Variable D : string -> option (ctype leaf).
  (** C++ requires this of the comparison and equality. *)
  Hypothesis order : strict_weak_order lval less.
  Hypothesis equality : equivalence lval equal.
  Local Notation ctype := (ctype leaf).
  Local Notation cval := (cval lval).
  Local Notation pyobj := (pyobj atom).
  Local Notation state := (state leaf lval).
  Local Notation event := (event leaf lval atom).
  Local Notation convert := (convert leaf lval atom leaf_in less equal place).
  Local Notation step := (step leaf lval atom leaf_in leaf_out leaf_prepends less equal place).
  Local Notation history := (history leaf lval atom leaf_in leaf_out leaf_prepends less equal place).
  Local Notation legal := (legal leaf lval atom D).
  Local Notation is_container := (is_container leaf).
  Local Notation holds := (holds leaf lval).
  Local Notation live_wrapper := (live_wrapper leaf lval).
  Local Notation live_iter := (live_iter leaf lval).
  Local Notation usable := (usable lval atom).
  Local Notation represents := (represents leaf lval atom leaf_in less equal).
  Local Notation erroneous := (erroneous leaf lval atom leaf_in less equal).
  Local Notation shows := (shows leaf lval atom leaf_out).
  Local Notation shows_entry := (shows_entry leaf lval atom leaf_out).
  Local Notation keys_first := (keys_first leaf leaf_prepends).
  Local Notation asked := (asked leaf lval atom).
  Local Notation legal_history := (legal_history leaf lval atom leaf_in leaf_out leaf_prepends less equal place D).
  Local Notation reachable := (reachable leaf lval atom leaf_in leaf_out leaf_prepends less equal place D).

  (** ** Conversion *)
  (** Any object converts to a value it represents, or fails with the error of its first item that has one; which of the two
      does not depend on anything else. *)
  Theorem C32_convert : forall look ty o old, usable look o ->
    (exists v, convert look ty o old = Done v /\ represents look ty o v) \/
    (exists left e, convert look ty o old = Fails left e /\ erroneous look ty o e /\ forall v, ~ represents look ty o v).
  Proof. exact (fun look => ContainerRep.convert_total leaf lval atom leaf_in less equal place order equality look). Qed.
  Theorem C32_one_error : forall look ty o e e', erroneous look ty o e -> erroneous look ty o e' -> e' = e.
  Proof. intros look ty o e e' H. exact (proj2 (ContainerRep.exclusive leaf lval atom leaf_in less equal look ty o e H) e'). Qed.
  (** list, vector, deque: the elements in order. *)
  Theorem C32_in_order : forall look n e xs old v, convert look (TSeq n Back e) (PList (map Some xs)) old = Done v ->
    exists l, v = CSeq l /\ Forall2 (represents look e) xs l.
  Proof. exact (ContainerTop.in_order leaf lval atom leaf_in less equal place order equality). Qed.
  (** What a list of Python objects becomes, for each kind of container: [gathers] of the specification. *)
  Theorem C32_gathers : forall k vs, gathers lval less equal k vs (fold_left (seq_add lval less equal place k) vs []).
  Proof. exact (ContainerConv.gathers_ok lval less equal place order equality). Qed.
  Theorem C32_gathers_map : forall s vs, gathers_map lval less equal s vs (fold_left (map_add lval less equal place s) vs []).
  Proof. exact (ContainerConv.gathers_map_ok lval less equal place order equality). Qed.

  (** ** Every history *)
  (** No legal history has undefined behaviour: no use of a deleted container, no comparison of foreign iterators. *)
  Theorem C32_safe : forall h, legal_history start h -> exists s l, history start h = Some (s, l).
  Proof. exact (ContainerTop.safe leaf lval atom leaf_in leaf_out leaf_prepends less equal place D order equality). Qed.

  (** T(...): a new object with an empty container or the converted argument, or the error of the conversion; then nothing is
      left of the new object or its container.  Other objects are as before. *)
  Theorem C32_construct : forall s ty arg, reachable s -> legal s (Construct ty arg) ->
    exists s' a, step s (Construct ty arg) = Some (s', a) /\
    match arg with
    | None => a = Nothing /\ look_up s' (length (wraps s)) = Some (type_name ty, Some (fresh ty))
    | Some o => (exists v, represents (look_up s) ty o v /\ a = Nothing /\ look_up s' (length (wraps s)) = Some (type_name ty, Some v)) \/
                (exists e, erroneous (look_up s) ty o e /\ a = Raised e /\ (forall b, contents s' b = contents s b) /\ ~ live_wrapper s' (length (wraps s)))
    end /\ (forall w, w < length (wraps s) -> look_up s' w = look_up s w).
  Proof. exact (ContainerTop.construct leaf lval atom leaf_in leaf_out leaf_prepends less equal place D order equality). Qed.

  (** The contents of a wrapped container never change while it lives. *)
  Theorem C32_immutable : forall s h s' l w n v, reachable s -> legal_history s h -> history s h = Some (s', l) ->
    look_up s w = Some (n, Some v) -> live_wrapper s' w -> look_up s' w = Some (n, Some v).
  Proof. exact (ContainerTop.immutable leaf lval atom leaf_in leaf_out leaf_prepends less equal place D order equality). Qed.

  (** An iterator, asked for the k-th time (k = 0, 1, ...), whatever happened in between: the k-th entry of the container in
      container order, StopIteration after the last. *)
  Theorem C32_iteration : forall s w ty v h s1 l1, reachable s -> (exists r, nth_error (wraps s) w = Some r /\ wr_type r = ty) ->
    look_up s w = Some (type_name ty, Some v) -> legal_history s (GetIter w :: h) -> history s (GetIter w :: h) = Some (s1, l1) ->
    live_iter s1 (length (iters s)) ->
    exists s2, match nth_error (entries v) (asked (length (iters s)) h) with
               | Some e => exists x, step s1 (Next (length (iters s))) = Some (s2, Item x) /\ (keys_first ty -> shows_entry s2 ty e x)
               | None => step s1 (Next (length (iters s))) = Some (s2, StopIteration) /\ s2 = s1
               end.
  Proof. exact (ContainerTop.iteration leaf lval atom leaf_in leaf_out leaf_prepends less equal place D order equality). Qed.
  (** A live iterator keeps its container. *)
  Theorem C32_iterator_keeps_container : forall s i r, reachable s -> nth_error (iters s) i = Some r -> it_refs r <> 0 ->
    holds s (it_container r) (it_object r).
  Proof. exact (ContainerTop.iterator_keeps leaf lval atom leaf_in leaf_out leaf_prepends less equal place D order equality). Qed.

  (** Every container that has not been deleted has exactly one owner: one live Python object, or C++. *)
  Theorem C32_one_owner : forall s a v, reachable s -> contents s a = Some v ->
    (In a (given s) /\ forall w, ~ holds s w a) \/ (~ In a (given s) /\ exists w, holds s w a /\ forall w', holds s w' a -> w' = w).
  Proof. exact (ContainerTop.owned leaf lval atom leaf_in leaf_out leaf_prepends less equal place D order equality). Qed.
  Theorem C32_not_dangling : forall s w a, reachable s -> holds s w a -> exists v, contents s a = Some v /\ look_up s w <> None.
  Proof. exact (ContainerTop.not_dangling leaf lval atom leaf_in leaf_out leaf_prepends less equal place D order equality). Qed.
  Theorem C32_no_leak : forall s a v, reachable s -> (forall w, ~ live_wrapper s w) -> contents s a = Some v -> In a (given s).
  Proof. exact (ContainerTop.no_leak leaf lval atom leaf_in leaf_out leaf_prepends less equal place D order equality). Qed.

  (** A container parameter: C++ gets a copy of what the object represents (its own new container if ownership is
      transferred), or the call fails and nothing has changed. *)
  Theorem C32_argument : forall s ty how o, reachable s -> legal s (Argument ty how o) ->
    (exists v s', step s (Argument ty how o) = Some (s', Received v) /\ represents (look_up s) ty o v /\
       (forall w x, look_up s w = Some x -> look_up s' w = Some x) /\
       (how = Plain -> s' = s) /\ (how = GivenPointer -> exists a, contents s a = None /\ contents s' a = Some v /\ given s' = a :: given s)) \/
    (exists e, step s (Argument ty how o) = Some (s, Raised e) /\ erroneous (look_up s) ty o e).
  Proof. exact (ContainerTop.argument_ok leaf lval atom leaf_in leaf_out leaf_prepends less equal place D order equality). Qed.
  (** A container returned: a new object with a copy. *)
  Theorem C32_returned : forall s ty v, reachable s -> legal s (Wrap ty v) -> exists s' x, step s (Wrap ty v) = Some (s', Item x) /\ shows s' ty v x /\
    (is_container ty -> x = IWrapper (length (wraps s)) /\ nth_error (wraps s) (length (wraps s)) = None).
  Proof. exact (ContainerTop.returned leaf lval atom leaf_in leaf_out leaf_prepends less equal place D order equality). Qed.

  (** list(c) passed back as a sequence is the same container, if the elements' conversions are inverse. *)
  Theorem C32_round_trip : forall s n e l xs old, (forall t u, leaf_in t (PAtom (leaf_out t u)) = inl u) -> Forall2 (shows s e) l xs ->
    convert (look_up s) (TSeq n Back e) (PList (map (fun x => Some (ContainerTop.as_object atom x)) xs)) old = Done (CSeq l).
  Proof. exact (ContainerTop.round_trip leaf lval atom leaf_in leaf_out less equal place). Qed.
End C32.
Print Assumptions C32_convert.
Print Assumptions C32_one_error.
Print Assumptions C32_in_order.
Print Assumptions C32_gathers.
Print Assumptions C32_gathers_map.
Print Assumptions C32_safe.
Print Assumptions C32_construct.
Print Assumptions C32_immutable.
Print Assumptions C32_iteration.
Print Assumptions C32_iterator_keeps_container.
Print Assumptions C32_one_owner.
Print Assumptions C32_not_dangling.
Print Assumptions C32_no_leak.
Print Assumptions C32_argument.
Print Assumptions C32_returned.
Print Assumptions C32_round_trip.

(** ** Containers of integers *)
(** The converter function of an integer type uses the ReturnValue handler of the type (converter_functions.py:31-60), as the
    result of an override does; iteration uses the other direction, as the result of a function does. *)
Definition int_leaf : Type := return_handler * string.
Definition int_in (p : platform) (t : int_leaf) (o : pyobj pyvalue) : Z + argerr :=
  match o with
  | PAtom v => match override_returns p (fun _ => 0%Z) (fst t) (snd t) v with Passed z => inl z | Rejected e => inr e | Undefined => inr TypeE end
  | _ => inr TypeE
  end.
Definition int_out (p : platform) (t : int_leaf) (z : Z) : pyvalue :=
  match function_returns p (fst t) (snd t) z with Passed v => PyInt v | _ => PyOther end.

(** A list of integers becomes a vector of the same integers; if one does not fit, the conversion fails. *)
Theorem C32_integers : forall p less equal place look n h c zs old, valid_platform p -> In c (return_ctypes h) -> exact_return h ->
  let r := convert int_leaf Z pyvalue (int_in p) less equal place look (TSeq n Back (TLeaf (h, c))) (PList (map (fun z => Some (PAtom (PyInt z))) zs)) old in
  (Forall (in_range (return_type p h)) zs -> r = Done (CSeq (map CLeaf zs))) /\
  (~ Forall (in_range (return_type p h)) zs -> exists left e, r = Fails left e).
Proof.
  intros p less equal place look n h c zs old V C X. cbv zeta. rewrite ContainerRep.convert_seq.
  set (f := fun x => convert int_leaf Z pyvalue (int_in p) less equal place look (TLeaf (h, c)) x (CSeq [])).
  assert (F : forall z, (in_range (return_type p h) z -> f (PAtom (PyInt z)) = Done (CLeaf z)) /\ (~ in_range (return_type p h) z -> exists left e, f (PAtom (PyInt z)) = Fails left e)).
  { intros z. destruct (IntBack.exact_return_ok p h c z V C X) as [A B]. unfold f. cbn [convert int_in fst snd]. split; intros R.
    - rewrite (A R). reflexivity.
    - destruct (B R) as (e & ->). eauto. }
  split; intros H.
  - cut (forall c0, ContainerRep.seq_loop Z pyvalue (seq_add Z less equal place Back) f (map (fun z => Some (PAtom (PyInt z))) zs) c0 = Done (CSeq (c0 ++ map CLeaf zs))); [intros G; exact (G [])|].
    induction H as [|z zs Hz _ IH]; intros c0; cbn [map ContainerRep.seq_loop]; [rewrite app_nil_r; reflexivity|].
    rewrite (proj1 (F z) Hz), IH. cbn [seq_add]. rewrite <- app_assoc. reflexivity.
  - cut (forall c0, exists left e, ContainerRep.seq_loop Z pyvalue (seq_add Z less equal place Back) f (map (fun z => Some (PAtom (PyInt z))) zs) c0 = Fails left e); [intros G; exact (G [])|].
    induction zs as [|z zs IH]; intros c0; [exfalso; apply H; constructor|]. cbn [map ContainerRep.seq_loop].
    destruct (Z_le_dec (lowest (return_type p h)) z) as [A|A]; [destruct (Z_le_dec z (highest (return_type p h))) as [B|B]|].
    + rewrite (proj1 (F z) (conj A B)). apply IH. intros G. apply H. constructor; [exact (conj A B)|exact G].
    + destruct (proj2 (F z)) as (left & e & E); [intros [_ R]; contradiction|]. rewrite E. eauto.
    + destruct (proj2 (F z)) as (left & e & E); [intros [R _]; contradiction|]. rewrite E. eauto.
Qed.
Print Assumptions C32_integers.
(** The vector's elements come out as the integers that went in. *)
Theorem C32_integers_back : forall p h c z, valid_platform p -> In c (return_ctypes h) -> faithful_return h -> in_range (return_type p h) z ->
  int_in p (h, c) (PAtom (int_out p (h, c) z)) = inl z.
Proof.
  intros p h c z V C X R. unfold int_in, int_out; cbn [fst snd]. rewrite (IntBack.function_returns_ok p h c z V C R), (IntBack.return_unchanged p h c z V C X R). reflexivity.
Qed.
Print Assumptions C32_integers_back.

(** ** Examples *)
(** Numbers below 100 convert; the flag of an element type says whether its handler prepends. *)
Definition toy_in (t : bool) (o : pyobj nat) : nat + argerr :=
  match o with PAtom a => if Nat.ltb a 100 then inl a else inr OverflowE | _ => inr TypeE end.
Definition toy_out (t : bool) (v : nat) : nat := v.
Definition toy_key (x : cval nat) : nat := match x with CLeaf a => S a | CSeq l => 0 | CMap l => 0 end.
Definition toy_less (x y : cval nat) : bool := Nat.ltb (toy_key x) (toy_key y).
Definition toy_equal (x y : cval nat) : bool := Nat.eqb (toy_key x) (toy_key y).
Definition toy_place (l : list (cval nat)) (x : cval nat) : nat := 0.
Definition number : ctype bool := TLeaf true.
Definition vector : ctype bool := TSeq "V" Back number.
Definition vectors : ctype bool := TSeq "VV" Back vector.
Definition set : ctype bool := TSeq "S" (Ordered true) number.
Definition map_type : ctype bool := TMap "M" true number number.
Definition char_map : ctype bool := TMap "CM" true (TLeaf false) number.
Definition toy_types (n : string) : option (ctype bool) :=
  if String.eqb n "V" then Some vector else if String.eqb n "VV" then Some vectors else if String.eqb n "S" then Some set
  else if String.eqb n "M" then Some map_type else if String.eqb n "CM" then Some char_map else None.
Definition numbers (l : list nat) : pyobj nat := PList (map (fun n => Some (PAtom n)) l).
Definition toy_history := history bool nat nat toy_in toy_out (fun t => t) toy_less toy_equal toy_place.
Definition toy_legal := legal_history bool nat nat toy_in toy_out (fun t => t) toy_less toy_equal toy_place toy_types start.
Definition toy_convert := convert bool nat nat toy_in toy_less toy_equal toy_place.

Example toy_order : strict_weak_order nat toy_less /\ equivalence nat toy_equal.
Proof.
  unfold strict_weak_order, equivalence, toy_less, toy_equal. split; [split; [|split]|split; [|split]].
  - intros x. apply Nat.ltb_irrefl.
  - intros x y z. rewrite !Nat.ltb_lt. lia.
  - intros x y z. rewrite !Nat.ltb_lt. lia.
  - intros x. apply Nat.eqb_refl.
  - intros x y. apply Nat.eqb_sym.
  - intros x y z. rewrite !Nat.eqb_eq. congruence.
Qed.

Ltac be_legal := repeat (match goal with
  | |- ContainerSpec.legal_history _ _ _ _ _ _ _ _ _ _ _ [] => exact I
  | |- ContainerSpec.legal_history _ _ _ _ _ _ _ _ _ _ _ (_ :: _) => split; [|let s := fresh "s" in let a := fresh "a" in let E := fresh "E" in intros s a E; vm_compute in E; injection E as <- <-]
  | |- ContainerSpec.legal _ _ _ _ _ (GetIter _) => eexists; eexists; split; [reflexivity|split; [discriminate|reflexivity]]
  | |- ContainerSpec.legal _ _ _ _ _ (Next _) => eexists; split; [reflexivity|discriminate]
  | |- ContainerSpec.legal _ _ _ _ _ (TakeIter _) => eexists; split; [reflexivity|discriminate]
  | |- ContainerSpec.legal _ _ _ _ _ (DropIter _) => eexists; split; [reflexivity|discriminate]
  | |- ContainerSpec.legal _ _ _ _ _ (TakeWrapper _) => eexists; split; [reflexivity|discriminate]
  | |- ContainerSpec.legal _ _ _ _ _ (DropWrapper _) => eexists; split; [reflexivity|vm_compute; repeat constructor]
  | |- ContainerSpec.legal _ _ _ _ _ (CppDelete _) => vm_compute; tauto
  | |- ContainerSpec.legal _ _ _ _ _ (Init _ _) => split; [eexists; split; [reflexivity|split; [discriminate|reflexivity]]|cbn; eauto 20]
  | |- ContainerSpec.legal _ _ _ _ _ _ => cbn; repeat split; eauto 20
  end).

(** A vector and a set from lists; the iterator over the set outlives the set's last other reference. *)
Definition story : list (event bool nat nat) :=
  [Construct vector (Some (numbers [3; 1; 3])); Construct set (Some (numbers [3; 1; 3; 2])); Construct vector (Some (numbers [4; 200; 5]));
   GetIter 1; DropWrapper 1; Next 0; Next 0; GetIter 0; Next 1; Next 0; Next 0; Argument vector GivenPointer (PRef 0); Argument vectors Plain (PList [Some (PRef 0); Some (numbers [7])]); DropIter 0; DropIter 1; DropWrapper 0; CppDelete 3].
Example story_legal : toy_legal story.
Proof. unfold toy_legal, story. be_legal. Qed.
Example story_answers : option_map snd (toy_history start story) =
  Some [Nothing; Nothing; Raised OverflowE; Nothing; Nothing; Item (IAtom 1); Item (IAtom 2); Nothing; Item (IAtom 3); Item (IAtom 3); StopIteration;
        Received (CSeq [CLeaf 3; CLeaf 1; CLeaf 3]); Received (CSeq [CSeq [CLeaf 3; CLeaf 1; CLeaf 3]; CSeq [CLeaf 7]]); Nothing; Nothing; Nothing; Nothing].
Proof. reflexivity. Qed.
Example story_end : option_map (fun x => objs (fst x)) (toy_history start story) = Some [None; None; None; None].
Proof. reflexivity. Qed.
(** Elements that are containers are copies in new wrappers; maps give pairs. *)
Definition nested : list (event bool nat nat) :=
  [Construct vectors (Some (PList [Some (numbers [1; 2]); Some (numbers [])])); GetIter 0; Next 0; GetIter 1; Next 1; Next 0; Next 0;
   Construct map_type (Some (PList [Some (PTuple [PAtom 5; PAtom 6]); Some (PTuple [PAtom 2; PAtom 3]); Some (PTuple [PAtom 5; PAtom 9])])); GetIter 3; Next 2; Next 2; Next 2].
Example nested_legal : toy_legal nested.
Proof. unfold toy_legal, nested. be_legal. Qed.
Example nested_answers : option_map snd (toy_history start nested) =
  Some [Nothing; Nothing; Item (IWrapper 1); Nothing; Item (IAtom 1); Item (IWrapper 2); StopIteration; Nothing; Nothing;
        Item (ITuple (IAtom 2) (IAtom 3)); Item (ITuple (IAtom 5) (IAtom 6)); StopIteration].
Proof. reflexivity. Qed.
Example round_trips : forall t u, u < 100 -> toy_in t (PAtom (toy_out t u)) = inl u.
Proof. intros t u H. unfold toy_in, toy_out. apply Nat.ltb_lt in H. rewrite H. reflexivity. Qed.

(** ** Claims that do not hold *)
(** "A container is deleted with its last owner": a second __init__ forgets the first container. *)
Theorem C32_second_init_refuted : exists h s l a v, toy_history start h = Some (s, l) /\ l = [Nothing; Nothing; Nothing] /\
  contents s a = Some v /\ ~ In a (given s) /\ forall w, ~ live_wrapper bool nat s w.
Proof.
  exists [Construct vector (Some (numbers [1])); Init 0 None; DropWrapper 0]. eexists. eexists. exists 0, (CSeq [CLeaf 1]). split; [reflexivity|].
  split; [reflexivity|]. split; [reflexivity|]. split; [intros []|]. intros [|[|w]] (r & W & N); cbn in W; [|discriminate|discriminate]. injection W as <-. apply N. reflexivity.
Qed.
(** ... and iterators then compare positions of different containers: undefined behaviour. *)
Theorem C32_second_init_iterator_refuted :
  toy_history start [Construct vector (Some (numbers [1])); GetIter 0; Init 0 None; Next 0] = None /\
  toy_history start [Construct vector (Some (numbers [1])); GetIter 0; Init 0 None] <> None.
Proof. split; [reflexivity|discriminate]. Qed.
(** "Any object of the type can be iterated, copied, passed": not one created without __init__, nor after a failed __init__. *)
Theorem C32_uninitialised_refuted :
  toy_history start [New vector; GetIter 0] = None /\
  toy_history start [New vector; Argument vector Plain (PRef 0)] = None /\
  toy_history start [Construct vector (Some (numbers [1])); Init 0 (Some (numbers [200])); GetIter 0] = None.
Proof. repeat split; reflexivity. Qed.
(** "Any list can be converted": not one that shrinks while it is converted. *)
Theorem C32_shrinking_list_refuted : toy_history start [Construct vector (Some (PList [Some (PAtom 1); None]))] = None.
Proof. reflexivity. Qed.
(** "Iterating over a map gives pairs (key, value)": not with a key type whose handler does not prepend ('char',
    'char const *': stringtype.py CharReturn, CStringReturn). *)
Theorem C32_swapped_pair_refuted :
  option_map snd (toy_history start [Construct char_map (Some (PList [Some (PTuple [PAtom 5; PAtom 6])])); GetIter 0; Next 0]) =
  Some [Nothing; Nothing; Item (ITuple (IAtom 6) (IAtom 5))].
Proof. reflexivity. Qed.
(** "A failed conversion leaves its target alone": the container is cleared and filled up to the error. *)
Theorem C32_failed_target_refuted : exists v, v <> CSeq [CLeaf 9] /\
  toy_convert (fun _ => None) vector (numbers [1; 200]) (CSeq [CLeaf 9]) = Fails v OverflowE.
Proof. exists (CSeq [CLeaf 1]). split; [discriminate|reflexivity]. Qed.
(** "All pairs of the list are in the map": the second value for a key is dropped. *)
Theorem C32_last_pair_wins_refuted :
  toy_convert (fun _ => None) map_type (PList [Some (PTuple [PAtom 5; PAtom 6]); Some (PTuple [PAtom 5; PAtom 9])]) (CMap []) = Done (CMap [(CLeaf 5, CLeaf 6)]).
Proof. reflexivity. Qed.
