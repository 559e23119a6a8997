(** C22: reference-counted classes keep a balanced count. *)
From Coq Require Import List Arith Bool.
From Verif.Model Require Import Ownership.
From Verif.Spec Require Import OwnSpec.
From Verif.Proofs Require OwnProps OwnMoves OwnFinal.
From Verif.Proofs Require Import OwnPaths.
Import ListNotations.

(** When nothing is pending, the count of every object is positive and equals
    the references of C++ plus the live wrappers that point to it. *)
Theorem C22_count : forall cf s a o, deletes cf -> reach cf true s -> quiet s -> is_rc cf = true -> object s a o ->
  1 <= o_rc o /\ o_rc o = o_cpp o + count_wraps (live_holder a) s.
Proof. exact OwnFinal.rc_live. Qed.
Print Assumptions C22_count.

(** At any moment, also while deallocations are pending, it equals C++'s
    references plus the wrappers that have not released theirs yet. *)
Theorem C22_count_pending : forall cf s a o, deletes cf -> reach cf true s -> is_rc cf = true -> object s a o ->
  o_rc o = o_cpp o + owners cf s a.
Proof. exact OwnProps.rc_count. Qed.
Print Assumptions C22_count_pending.

(** The object is freed exactly when the count drops to zero. *)
Theorem C22_zero : forall cf strict s a o, (strict = true -> deletes cf) -> reach cf strict s -> is_rc cf = true -> object s a o ->
  (o_rc o = 0 <-> doomed s a).
Proof. exact OwnProps.rc_doomed. Qed.
Print Assumptions C22_zero.

(** Without the side conditions of [strict], objects may leak but are never freed early. *)
Theorem C22_enough : forall cf strict s a o, (strict = true -> deletes cf) -> reach cf strict s -> is_rc cf = true -> object s a o ->
  o_cpp o + owners cf s a <= o_rc o.
Proof. exact OwnProps.rc_enough. Qed.
Print Assumptions C22_enough.

(** Dropping the last wrapper of an object C++ has no references to frees it. *)
Theorem C22_dies : forall cf s w r a o s1 s2,
  deletes cf -> reach cf true s -> quiet s -> wrapper s w r -> w_st r = Live -> w_refs r = 1 -> 1 <= w_ext r ->
  w_obj r = Some a -> owns cf r = true -> object s a o -> o_cpp o = 0 -> owners cf s a = 1 ->
  step_event cf (EvDrop w) s = Ok s1 -> ticks cf s1 s2 -> quiet s2 ->
  gone s2 w /\ free_address s2 a.
Proof.
  intros cf s w r a o s1 s2 SD R Q W L RF EX O1 OW G N1 N2. apply (OwnProps.dies_with cf s w r a o s1 s2 SD R Q W L RF EX O1 OW G). auto.
Qed.
Print Assumptions C22_dies.

(** A pointer return takes a reference for the new wrapper, or C++ gives it one. *)
Theorem C22_return : forall cf p v b s o s',
  object s v o -> o_helper o = false -> (get (s_reg s) v = None \/ c_registry cf = false) ->
  r_free p = false -> is_rc cf = true ->
  step_event cf (EvReturn (RPtr p) (Some v) b) s = Ok s' ->
  exists r o', wrapper s' (length (s_wraps s)) r /\ w_st r = Live /\ w_obj r = Some v /\ object s' v o' /\
    if r_owns p then o_cpp o' = pred (o_cpp o) /\ o_rc o' = o_rc o
    else o_cpp o' = o_cpp o /\ o_rc o' = if r_manages p then S (o_rc o) else o_rc o.
Proof.
  intros cf p v b s o s' G H L F N E. destruct (OwnMoves.return_new cf p v b s o s' G H L F E) as (r & A1 & A2 & _ & _ & _ & _ & (o' & B1 & B2)).
  exists r, o'. rewrite N in B2. destruct (r_owns p); [tauto|]. destruct B2 as (B2 & B3 & B4). destruct (r_manages p); tauto.
Qed.
Print Assumptions C22_return.

(** ** A concrete history *)
Definition story : list label :=
  [LEvent (EvCppNew 0); LEvent (EvReturn (RPtr by_ref) (Some 0) 9); LEvent (EvCppRef 0); LEvent (EvNew true); LEvent (EvInit 1 1);
   LEvent (EvPass 1 true); LEvent (EvCppRelease 0); LEvent (EvReturn (RPtr owned) (Some 0) 9); LEvent (EvNew false); LEvent (EvInit 3 2)].
Definition counted_bare := Conf PRef false true true false true true true nobody.
Example C22_example : exists s, reach counted_bare true s /\ quiet s /\ deletes counted_bare /\
  map (option_map (fun o => (o_rc o, o_cpp o))) (s_objs s) = [Some (2, 0); Some (2, 1); Some (1, 0)] /\
  map (fun a => count_wraps (live_holder a) s) [0; 1; 2] = [2; 1; 1].
Proof. eexists. split; [reachable story|]. vm_compute. repeat split; auto. Qed.
Example C22_example_dies : exists s r o s1 s2, reach counted_bare true s /\ quiet s /\ wrapper s 3 r /\ w_st r = Live /\ w_refs r = 1 /\ 1 <= w_ext r
  /\ w_obj r = Some 2 /\ owns counted_bare r = true /\ object s 2 o /\ o_cpp o = 0 /\ owners counted_bare s 2 = 1
  /\ step_event counted_bare (EvDrop 3) s = Ok s1 /\ ticks counted_bare s1 s2 /\ quiet s2.
Proof.
  eexists _, _, _, _, _. split; [reachable story|]. split; [reflexivity|]. split; [reflexivity|]. split; [reflexivity|]. split; [reflexivity|].
  split; [repeat constructor|]. split; [reflexivity|]. split; [reflexivity|]. split; [reflexivity|]. split; [reflexivity|]. split; [reflexivity|].
  split; [vm_compute; reflexivity|]. split; [apply (run_ticks_ok counted_bare 6); vm_compute; reflexivity|reflexivity].
Qed.

(** ** What the contract excludes, and why *)
Notation ev := LEvent (only parsing).
Notation t := LTick (only parsing).

(** [caller_manages_return=False]: the wrapper releases a reference it never took. *)
Theorem C22_unmanaged_refuted : exists s, reach counted true s /\
  play counted [ev (EvReturn (RPtr unmanaged) (Some 0) 9); ev (EvDrop 0); t; t; t; t; t; t; t; ev (EvCppRelease 0)] s = Fault (FFreed 0).
Proof. eexists. split; [reachable [ev (EvCppNew 0)]|]. vm_compute. reflexivity. Qed.
Print Assumptions C22_unmanaged_refuted.

(** An object with a registered wrapper passed to an override with transfer of
    ownership: C++'s reference is lost. *)
Theorem C22_transfer_argument_refuted : exists s, reach counted true s /\ exists s',
  play counted [ev (EvArg (APtr true) 0 9); ev (EvDrop 0); t; ev (EvDrop 0); t; t; t; t; t; t] s = Ok s' /\ orphan counted s' 0.
Proof.
  eexists. split; [reachable [ev (EvCppNew 0); ev (EvReturn (RPtr by_ref) (Some 0) 9)]|].
  eexists. split; [vm_compute; reflexivity|]. eexists. split; [reflexivity|]. repeat split; reflexivity.
Qed.
Print Assumptions C22_transfer_argument_refuted.

(** Without a peekref method the collector clears a wrapper whose object C++
    still references; when that object comes back, the count is one short. *)
Definition nopeek := Conf PRef true true true false true true false nobody.
Theorem C22_no_peekref_refuted : exists s, reach nopeek true s /\ exists s',
  play nopeek [ev (EvGcClear 0); t; t; t; t; ev (EvReturn (RPtr by_ref) (Some 0) 9); ev (EvCppRelease 0)] s = Ok s'
  /\ doomed s' 0 /\ exists r, wrapper s' 0 r /\ w_st r = Live /\ w_obj r = Some 0.
Proof.
  eexists. split; [reachable [ev (EvNew true); ev (EvInit 0 0); ev (EvCppRef 0); ev (EvDrop 0); t]|].
  eexists. split; [vm_compute; reflexivity|]. split; [left; reflexivity|]. eexists. repeat split; reflexivity.
Qed.
Print Assumptions C22_no_peekref_refuted.
