(** C21: C++ objects are deleted exactly once (default memory policy). *)
From Coq Require Import List Arith Bool.
From Verif.Model Require Import Ownership.
From Verif.Spec Require Import OwnSpec.
From Verif.Proofs Require OwnProps OwnMoves OwnFinal.
From Verif.Proofs Require Import OwnPaths.
Import ListNotations.

(** No history that respects the contract makes the generated code touch a
    deleted object, a deallocated wrapper or a NULL pointer: not in an event ... *)
Theorem C21_no_fault : forall cf strict s ev, (strict = true -> deletes cf) -> reach cf strict s -> may_run s ->
  allowed cf strict s ev -> exists s', step_event cf ev s = Ok s'.
Proof. exact OwnProps.no_fault_event. Qed.
Print Assumptions C21_no_fault.

(** ... nor in the pending deallocations and destructor calls, each of which finds its object. *)
Theorem C21_no_fault_pending : forall cf strict s, (strict = true -> deletes cf) -> reach cf strict s -> ~ quiet s ->
  exists s', tick cf s = Ok s'.
Proof. exact OwnProps.no_fault_tick. Qed.
Print Assumptions C21_no_fault_pending.

(** Pending work comes to an end. *)
Theorem C21_settles : forall cf strict s, (strict = true -> deletes cf) -> reach cf strict s ->
  exists s', ticks cf s s' /\ quiet s'.
Proof. exact OwnProps.settles. Qed.
Print Assumptions C21_settles.

(** At any time at most one of C++ and the wrappers owns an object, and none does once its destructor call is pending. *)
Theorem C21_exclusive : forall cf strict s a o, (strict = true -> deletes cf) -> reach cf strict s -> is_rc cf = false ->
  object s a o -> o_cpp o + owners cf s a <= 1 /\ (doomed s a -> o_cpp o = 0 /\ owners cf s a = 0).
Proof. exact OwnProps.exclusive. Qed.
Print Assumptions C21_exclusive.

(** A destructor call finds its object, which is owned by nobody, and no other destructor call for it is pending. *)
Theorem C21_delete_once : forall cf strict s a rest, (strict = true -> deletes cf) -> reach cf strict s ->
  s_todo s = KDelete a :: rest ->
  exists o, object s a o /\ o_cpp o = 0 /\ owners cf s a = 0 /\ ~ In (KDelete a) rest.
Proof. exact OwnProps.delete_once. Qed.
Print Assumptions C21_delete_once.

(** Objects disappear only through such a destructor call. *)
Theorem C21_only_delete : forall cf s s' a, exists_at s a ->
  (forall ev, step_event cf ev s = Ok s' -> exists_at s' a) /\
  (tick cf s = Ok s' -> free_address s' a -> exists rest, s_todo s = KDelete a :: rest).
Proof. intros cf s s' a X. split; [intros ev E; exact (OwnProps.event_keeps cf ev s s' a E X)|intros E F; exact (OwnProps.removed_by_delete cf s s' a E X F)]. Qed.
Print Assumptions C21_only_delete.

(** What C++ owns survives every history in which C++ does not give it up. *)
Theorem C21_cpp_keeps : forall cf strict s ls s' a o, (strict = true -> deletes cf) -> reach cf strict s ->
  object s a o -> 1 <= o_cpp o -> history cf strict s ls s' ->
  (forall ev, In (LEvent ev) ls -> ~ gives_up ev a) ->
  exists o', object s' a o' /\ o_cpp o <= o_cpp o'.
Proof. exact OwnProps.cpp_keeps. Qed.
Print Assumptions C21_cpp_keeps.

(** Nothing leaks: when nothing is pending, every object belongs to C++ or to exactly one live wrapper. *)
Theorem C21_no_leak : forall cf s a o, deletes cf -> reach cf true s -> quiet s -> is_rc cf = false -> object s a o ->
  (o_cpp o = 1 /\ forall w r, wrapper s w r -> w_obj r = Some a -> owns cf r = false)
  \/ (o_cpp o = 0 /\ exists w r, wrapper s w r /\ w_st r = Live /\ w_obj r = Some a /\ owns cf r = true
        /\ forall w' r', wrapper s w' r' -> w_obj r' = Some a -> owns cf r' = true -> w' = w).
Proof. exact OwnFinal.settled. Qed.
Print Assumptions C21_no_leak.

(** Dropping the last reference to an owning wrapper deletes wrapper and object. *)
Theorem C21_dies : forall cf s w r a o s1 s2,
  deletes cf -> reach cf true s -> quiet s -> wrapper s w r -> w_st r = Live -> w_refs r = 1 -> 1 <= w_ext r ->
  w_obj r = Some a -> owns cf r = true -> object s a o -> is_rc cf = false ->
  step_event cf (EvDrop w) s = Ok s1 -> ticks cf s1 s2 -> quiet s2 ->
  gone s2 w /\ free_address s2 a.
Proof.
  intros cf s w r a o s1 s2 SD R Q W L RF EX O1 OW G N. apply (OwnProps.dies_with cf s w r a o s1 s2 SD R Q W L RF EX O1 OW G).
  intros I. rewrite I in N. discriminate.
Qed.
Print Assumptions C21_dies.

(** Returning a pointer to an object that has no wrapper yet makes one: owning
    the object ([caller_owns_return]), pointing to it without owning it
    ([reference_existing_object], or not managed), or owning a copy. *)
Theorem C21_return : forall cf p v b s o s',
  object s v o -> o_helper o = false -> (get (s_reg s) v = None \/ c_registry cf = false) ->
  r_free p = false -> is_rc cf = false ->
  step_event cf (EvReturn (RPtr p) (Some v) b) s = Ok s' ->
  exists r, wrapper s' (length (s_wraps s)) r /\ w_st r = Live /\ w_refs r = 1 /\ w_ext r = 1
    /\ (forall x, x <> length (s_wraps s) -> get (s_wraps s') x = get (s_wraps s) x)
    /\ (exists o', object s' v o' /\
        if r_owns p then w_obj r = Some v /\ w_owned r = true /\ o_cpp o' = pred (o_cpp o)
        else o_cpp o' = o_cpp o /\
          if r_ref p || negb (r_manages p) then w_obj r = Some v /\ w_owned r = false
          else w_obj r = Some b /\ w_owned r = true /\ exists o2, object s' b o2 /\ o_cpp o2 = 0).
Proof.
  intros cf p v b s o s' G H L F N E. destruct (OwnMoves.return_new cf p v b s o s' G H L F E) as (r & A1 & A2 & A3 & A4 & A5 & _ & (o' & B1 & B2)).
  exists r. repeat (split; [assumption|]). exists o'. split; [assumption|]. rewrite N in B2. destruct (r_owns p); tauto.
Qed.
Print Assumptions C21_return.

(** Transferring an owned object to C++ empties the wrapper. *)
Theorem C21_transfer : forall cf s w r a o s', is_rc cf = false -> wrapper s w r -> w_st r = Live -> w_obj r = Some a -> object s a o ->
  step_event cf (EvPass w true) s = Ok s' ->
  wrapper s' w (w_set_obj r None) /\ object s' a (o_set_cpp o (S (o_cpp o)))
  /\ (forall x, x <> w -> get (s_wraps s') x = get (s_wraps s) x)
  /\ (c_registry cf = true -> forall x, ~ registered s' a x).
Proof. exact OwnMoves.pass_transfers. Qed.
Print Assumptions C21_transfer.

(** ** A concrete history: construct, copy, return owned, return by reference,
    transfer, drop *)
Definition story : list label :=
  [LEvent (EvNew false); LEvent (EvInit 0 0); LEvent (EvCopy 0 1); LEvent (EvCppNew 2); LEvent (EvReturn (RPtr owned) (Some 2) 9);
   LEvent (EvCppNew 3); LEvent (EvReturn (RPtr by_ref) (Some 3) 9); LEvent (EvReturn (RPtr by_copy) (Some 0) 4); LEvent (EvPass 1 true)].
Example C21_example : exists s, reach plain true s /\ quiet s /\ deletes plain /\
  map (option_map o_cpp) (s_objs s) = [Some 0; Some 1; Some 0; Some 1; Some 0] /\
  map (option_map (fun r => (w_obj r, w_owned r))) (s_wraps s)
    = [Some (Some 0, true); Some (None, true); Some (Some 2, true); Some (Some 3, false); Some (Some 4, true)].
Proof. eexists. split; [reachable story|]. vm_compute. repeat split; auto. Qed.
(** The wrapper of object 2 can be dropped: [C21_dies] applies to it. *)
Example C21_example_dies : exists s r o s1 s2, reach plain true s /\ quiet s /\ wrapper s 2 r /\ w_st r = Live /\ w_refs r = 1 /\ 1 <= w_ext r
  /\ w_obj r = Some 2 /\ owns plain r = true /\ object s 2 o /\ step_event plain (EvDrop 2) s = Ok s1 /\ ticks plain s1 s2 /\ quiet s2.
Proof.
  eexists _, _, _, _, _. split; [reachable story|]. split; [reflexivity|]. split; [reflexivity|]. split; [reflexivity|]. split; [reflexivity|].
  split; [repeat constructor|]. split; [reflexivity|]. split; [reflexivity|]. split; [reflexivity|]. split; [vm_compute; reflexivity|].
  split; [apply (run_ticks_ok plain 7); vm_compute; reflexivity|reflexivity].
Qed.
(** A destructor is running with another one pending; a wrapper dies inside it. *)
Example C21_example_pending : exists s, reach plain true s /\ exists rest, s_todo s = KDelete 0 :: rest /\ may_run s /\ rest <> [].
Proof.
  eexists. split; [reachable [LEvent (EvNew false); LEvent (EvInit 0 0); LEvent (EvDrop 0); LTick; LTick; LTick; LTick]|].
  eexists. split; [vm_compute; reflexivity|]. split; [|discriminate]. right. split; [eexists _, _; reflexivity|].
  intros w i c [E|[E|[]]] (r & A & B); [discriminate|]. injection E as <- <- <-. cbn in A. injection A as <-. discriminate.
Qed.

(** ** What the contract excludes, and why *)
Notation ev := LEvent (only parsing).
Notation t := LTick (only parsing).

(** An instance of a Python subclass that C++ owns comes back through a return
    value that does not take ownership: the wrapper becomes its owner too, and
    C++'s delete is the second one. *)
Theorem C21_by_reference_refuted : exists s, reach plain true s /\
  play plain [ev (EvReturn (RPtr by_ref) (Some 0) 9); ev (EvDrop 0); t; ev (EvCppRelease 0); t; t; t; t; t; t; t; t; t] s = Fault (FFreed 0).
Proof.
  eexists. split; [reachable [ev (EvNew true); ev (EvInit 0 0); ev (EvPass 0 true); ev (EvDrop 0); t]|]. vm_compute. reflexivity.
Qed.
Print Assumptions C21_by_reference_refuted.

(** Transferring an object the wrapper does not own is accepted. *)
Theorem C21_transfer_unowned_refuted : exists s, reach plain true s /\
  play plain [ev (EvPass 0 true); ev (EvCppRelease 0); t; ev (EvCppRelease 0)] s = Fault (FFreed 0).
Proof. eexists. split; [reachable [ev (EvCppNew 0); ev (EvReturn (RPtr by_ref) (Some 0) 9)]|]. vm_compute. reflexivity. Qed.
Print Assumptions C21_transfer_unowned_refuted.

(** Passing None where [null_ok] and [transfer_ownership] are both declared. *)
Theorem C21_null_transfer_refuted : forall cf s, is_rc cf = false -> step_event cf EvPassNone s = Fault FNotWrapper.
Proof.
  intros cf s N. cbn [step_event]. unfold run_code, gen_pass. rewrite N. cbn [exec exec_stmt bind eval_cond e_py].
  unfold gen_unregister. destruct (c_registry cf); reflexivity.
Qed.
Print Assumptions C21_null_transfer_refuted.

(** FreeFunctionPolicy ignores the "not owned" flag. *)
Definition freeing := Conf PFree true true true false true true false nobody.
Theorem C21_free_function_refuted : exists s, reach freeing true s /\
  play freeing [ev (EvReturn (RPtr by_ref) (Some 0) 9); ev (EvDrop 0); t; t; t; t; t; t; t; ev (EvCppRelease 0)] s = Fault (FFreed 0).
Proof. eexists. split; [reachable [ev (EvCppNew 0)]|]. vm_compute. reflexivity. Qed.
Print Assumptions C21_free_function_refuted.

(** With a registry, an object first returned by reference and then given to
    Python is never deleted: the registered wrapper is not made its owner. *)
Theorem C21_owned_later_refuted : exists s, reach plain true s /\ exists s', 
  play plain [ev (EvReturn (RPtr owned) (Some 0) 9); ev (EvDrop 0); t; ev (EvDrop 0); t; t; t; t; t; t] s = Ok s' /\ orphan plain s' 0.
Proof.
  eexists. split; [reachable [ev (EvCppNew 0); ev (EvReturn (RPtr by_ref) (Some 0) 9)]|].
  eexists. split; [vm_compute; reflexivity|]. eexists. split; [reflexivity|]. repeat split; reflexivity.
Qed.
Print Assumptions C21_owned_later_refuted.

(** Calling [__init__] twice loses the first object. *)
Theorem C21_init_twice_refuted : exists s, reach plain true s /\ exists s', play plain [ev (EvInit 0 1)] s = Ok s' /\ orphan plain s' 0.
Proof.
  eexists. split; [reachable [ev (EvNew false); ev (EvInit 0 0)]|].
  eexists. split; [vm_compute; reflexivity|]. eexists. split; [reflexivity|]. repeat split; reflexivity.
Qed.
Print Assumptions C21_init_twice_refuted.

(** An override that passes [self] on with transfer of ownership: at the end
    of the call the wrapper gets its object back. *)
Theorem C21_transfer_in_override_refuted : exists s, reach plain true s /\
  play plain [ev (EvPass 0 true); ev (EvEnd 9); t; ev (EvDrop 0); t; ev (EvCppRelease 0); t; t; t; t; t; t; t; t] s = Fault (FFreed 0).
Proof. eexists. split; [reachable [ev (EvNew true); ev (EvInit 0 0); ev (EvVirtBegin 0)]|]. vm_compute. reflexivity. Qed.
Print Assumptions C21_transfer_in_override_refuted.

(** A class that cannot be copied: an override's result is given to C++ but stays registered. *)
Definition nocopy := Conf PNone true true true false true false false nobody.
Theorem C21_give_back_refuted : exists s, reach nocopy true s /\
  play nocopy [ev (EvGiveBack 0 9); ev (EvDrop 0); t; t; t; t; t; t; ev (EvReturn (RPtr by_ref) (Some 0) 9)] s = Fault (FDead 0).
Proof. eexists. split; [reachable [ev (EvCppNew 0); ev (EvReturn (RPtr owned) (Some 0) 9)]|]. vm_compute. reflexivity. Qed.
Print Assumptions C21_give_back_refuted.

(** The collector may clear a wrapper that was only lent an object: C++'s object is deleted. *)
Theorem C21_lent_refuted : exists s, reach plain true s /\ (exists o, object s 0 o /\ o_cpp o = 1) /\ exists s',
  play plain [ev (EvGcClear 1); t; t; t] s = Ok s' /\ free_address s' 0.
Proof.
  eexists. split; [reachable [ev (EvNew true); ev (EvInit 0 0); ev (EvPass 0 true); ev (EvTmpBegin 0); ev (EvDrop 1); t]|].
  split; [eexists; split; reflexivity|]. eexists. split; [vm_compute; reflexivity|]. reflexivity.
Qed.
Print Assumptions C21_lent_refuted.
