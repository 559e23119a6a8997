(** C23: the wrapper registry maps a live C++ object to its live wrapper. *)
From Coq Require Import List Arith Bool.
From Verif.Model Require Import Ownership.
From Verif.Spec Require Import OwnSpec.
From Verif.Proofs Require OwnWard OwnMoves OwnHist OwnStep.
From Verif.Proofs Require Import OwnPaths.
Import ListNotations.

(** Whenever the program runs, a registry entry leads to a live wrapper that
    points to the object (and is not merely lent it). *)
Theorem C23_entries : forall cf strict s a w, (strict = true -> deletes cf) -> reach cf strict s -> may_run s ->
  registered s a w -> c_registry cf = true /\ exists r, wrapper s w r /\ w_st r = Live /\ w_obj r = Some a /\ w_tmp r = false.
Proof. exact OwnWard.reg_alive. Qed.
Print Assumptions C23_entries.

(** Also in the middle of deallocations it never leads to a deallocated one. *)
Theorem C23_not_freed : forall cf strict s a w, (strict = true -> deletes cf) -> reach cf strict s ->
  registered s a w -> c_registry cf = true /\ exists r, wrapper s w r /\ w_st r <> Dead /\ w_obj r = Some a.
Proof. exact OwnWard.reg_not_freed. Qed.
Print Assumptions C23_not_freed.

(** Returning a registered object gives the program one more reference to the
    registered wrapper, creates no other and changes no other. *)
Theorem C23_same : forall cf strict s p v w b o s', (strict = true -> deletes cf) -> reach cf strict s -> may_run s ->
  registered s v w -> object s v o -> o_helper o = false -> r_free p = false ->
  step_event cf (EvReturn (RPtr p) (Some v) b) s = Ok s' ->
  exists r, wrapper s w r /\ wrapper s' w (w_set_ext (w_set_refs r (S (w_refs r))) (S (w_ext r)))
    /\ (forall x, x <> w -> get (s_wraps s') x = get (s_wraps s) x) /\ s_reg s' = s_reg s.
Proof. exact OwnWard.return_registered. Qed.
Print Assumptions C23_same.

(** Returning an unregistered one creates exactly one wrapper and registers it
    under the object it points to. *)
Theorem C23_new : forall cf p v b s o s',
  object s v o -> o_helper o = false -> get (s_reg s) v = None -> c_registry cf = true -> r_free p = false ->
  step_event cf (EvReturn (RPtr p) (Some v) b) s = Ok s' ->
  get (s_wraps s) (length (s_wraps s)) = None /\
  exists r c, wrapper s' (length (s_wraps s)) r /\ w_st r = Live /\ w_obj r = Some c /\ registered s' c (length (s_wraps s))
    /\ (forall x, x <> length (s_wraps s) -> get (s_wraps s') x = get (s_wraps s) x).
Proof.
  intros cf p v b s o s' G H L RG F E.
  destruct (OwnMoves.return_new cf p v b s o s' G H (or_introl L) F E) as (r & A1 & A2 & _ & _ & A5 & A6 & (o' & _ & B2)).
  split; [apply OwnStep.fresh_id|].
  assert (X : exists c, w_obj r = Some c).
  { destruct (r_owns p); [exists v; tauto|]. destruct B2 as [_ B2]. destruct (is_rc cf); [exists v; tauto|].
    destruct (r_ref p || negb (r_manages p)); [exists v|exists b]; tauto. }
  destruct X as (c & X). exists r, c. pose proof (A6 RG c X). auto.
Qed.
Print Assumptions C23_new.

(** How the entry of an address changes.  In an event: it is set to a newly
    created wrapper (or to the one whose lent object was replaced by a copy at
    the end of a call), or removed because the wrapper's object is transferred. *)
Theorem C23_event : forall cf e s s', step_event cf e s = Ok s' -> forall a,
  get (s_reg s') a = get (s_reg s) a
  \/ (exists w, get (s_reg s') a = Some w /\ (get (s_wraps s) w = None \/ exists b c rest, e = EvEnd b /\ s_calls s = FTmp w c :: rest))
  \/ (get (s_reg s') a = None /\ exists w r, e = EvPass w true /\ is_rc cf = false /\ get (s_wraps s) w = Some r /\ w_obj r = Some a).
Proof. exact OwnHist.event_reg. Qed.
Print Assumptions C23_event.

(** In a step of pending work: only by the deallocation of a wrapper of the object. *)
Theorem C23_tick : forall cf s s' a, tick cf s = Ok s' ->
  get (s_reg s') a = get (s_reg s) a \/
  get (s_reg s') a = None /\ exists w r c rest, s_todo s = KCode w (IUnregister :: c) :: rest /\ wrapper s w r /\ w_obj r = Some a.
Proof. exact OwnWard.history_tick_reg. Qed.
Print Assumptions C23_tick.

(** An entry stays while its wrapper lives, is the only one pointing at the
    object, and is not transferred to C++. *)
Theorem C23_persists : forall cf strict s ls s' a w, (strict = true -> deletes cf) -> reach cf strict s ->
  registered s a w ->
  along cf strict (fun t => alive t w /\ forall w' r', wrapper t w' r' -> w_obj r' = Some a -> w' = w) s ls s' ->
  (is_rc cf = false -> ~ In (LEvent (EvPass w true)) ls) ->
  registered s' a w.
Proof. exact OwnWard.reg_persists. Qed.
Print Assumptions C23_persists.

Notation ev := LEvent (only parsing).
Notation t := LTick (only parsing).

(** ** A concrete history: return, return again, drop twice, return again *)
Definition story : list label :=
  [ev (EvCppNew 0); ev (EvReturn (RPtr by_ref) (Some 0) 9); ev (EvReturn (RPtr by_ref) (Some 0) 9)].
Definition rest_of_story : list label :=
  [ev (EvDrop 0); t; ev (EvDrop 0); t; t; t; t; t; t; ev (EvReturn (RPtr by_ref) (Some 0) 9)].
Example C23_example : exists s s', reach plain true s /\ deletes plain /\ history plain true s rest_of_story s' /\
  registered s 0 0 /\ registered s' 0 1 /\ gone s' 0 /\ map (option_map w_refs) (s_wraps s) = [Some 2].
Proof.
  eexists _, _. split; [reachable story|]. split; [split; reflexivity|].
  split; [apply fair_history; [is_fair|vm_compute; reflexivity]|].
  split; [reflexivity|]. split; [reflexivity|]. split; [eexists; split; reflexivity|reflexivity].
Qed.
(** [C23_persists] applies to a history in which the object is returned again. *)
Example C23_example_persists : exists s s', reach plain true s /\ registered s 0 0 /\
  along plain true (fun t => alive t 0 /\ forall w' r', wrapper t w' r' -> w_obj r' = Some 0 -> w' = 0) s
    [ev (EvCppNew 1); ev (EvReturn (RPtr by_ref) (Some 0) 9); ev (EvReturn (RPtr owned) (Some 1) 9); ev (EvDrop 0); t] s'.
Proof.
  eexists _, _. split; [reachable story|]. split; [reflexivity|].
  assert (X : forall s, s_wraps s <> [] -> (forall w r, wrapper s w r -> w = 0 \/ w_obj r <> Some 0) -> (match get (s_wraps s) 0 with Some r => w_st r = Live | None => False end) ->
     alive s 0 /\ forall w' r', wrapper s w' r' -> w_obj r' = Some 0 -> w' = 0).
  { intros s _ A B. split.
    - unfold alive, wrapper. destruct (get (s_wraps s) 0) as [r|]; [exists r; auto|destruct B].
    - intros w' r' W O1. destruct (A w' r' W); tauto. }
  assert (Y : forall (l : list (option wrap)) w r, get l w = Some r -> In (Some r) l).
  { intros l w r. unfold get. destruct (nth_error l w) as [[x|]|] eqn:N; try discriminate. intros E; injection E as ->. eapply nth_error_In; eauto. }
  Local Ltac at_state X := apply X; [discriminate| |vm_compute; reflexivity];
    intros w r W; destruct w as [|[|w]]; [left; reflexivity| |];
    try (vm_compute in W; injection W as <-); try (right; discriminate); right; intros _; vm_compute in W; destruct w; discriminate.
  eapply along_event; [at_state X|is_fair|is_fair|vm_compute; reflexivity|].
  eapply along_event; [at_state X|is_fair|is_fair|vm_compute; reflexivity|].
  eapply along_event; [at_state X|is_fair|is_fair|vm_compute; reflexivity|].
  eapply along_event; [at_state X|is_fair|is_fair|vm_compute; reflexivity|].
  eapply along_tick; [at_state X|vm_compute; reflexivity|].
  apply along_nil. at_state X.
Qed.

(** ** Limits *)

(** Objects constructed from Python are not registered: returning one by
    reference makes a second wrapper. *)
Theorem C23_constructed : exists s s', reach plain true s /\ history plain true s [ev (EvReturn (RPtr by_ref) (Some 0) 9)] s' /\
  exists r r', wrapper s' 0 r /\ wrapper s' 1 r' /\ w_obj r = Some 0 /\ w_obj r' = Some 0.
Proof.
  eexists _, _. split; [reachable [ev (EvNew false); ev (EvInit 0 0)]|].
  split; [apply fair_history; [is_fair|vm_compute; reflexivity]|]. eexists _, _. repeat split; reflexivity.
Qed.
Print Assumptions C23_constructed.

(** The entry of a live wrapper is lost when another wrapper of the same object is emptied. *)
Theorem C23_entry_lost_refuted : exists s s', reach plain true s /\ registered s 0 1 /\ history plain true s [ev (EvPass 0 true)] s' /\
  alive s' 1 /\ forall w, ~ registered s' 0 w.
Proof.
  eexists _, _. split; [reachable [ev (EvNew false); ev (EvInit 0 0); ev (EvReturn (RPtr by_ref) (Some 0) 9)]|]. split; [reflexivity|].
  split; [apply fair_history; [is_fair|vm_compute; reflexivity]|]. split; [eexists; split; reflexivity|].
  intros w W. vm_compute in W. discriminate.
Qed.
Print Assumptions C23_entry_lost_refuted.

(** When the collector clears a registered wrapper its entry stays behind, and the
    next object allocated at the address gets the deallocated wrapper. *)
Theorem C23_collector_refuted : exists s, reach plain true s /\
  (exists s', play plain [ev (EvGcClear 0); t; t; t; t; t; t; t; t; t; t; t] s = Ok s' /\ quiet s' /\ gone s' 0 /\ registered s' 0 0) /\
  play plain [ev (EvGcClear 0); t; t; t; t; t; t; t; t; t; t; t; ev (EvCppNew 0); ev (EvReturn (RPtr by_ref) (Some 0) 9)] s = Fault (FDead 0).
Proof.
  eexists. split; [reachable [ev (EvCppNew 0); ev (EvReturn (RPtr owned) (Some 0) 9); ev (EvWard 0 0); ev (EvDrop 0); t]|]. split.
  - eexists. split; [vm_compute; reflexivity|]. split; [reflexivity|]. split; [eexists; split; reflexivity|reflexivity].
  - vm_compute. reflexivity.
Qed.
Print Assumptions C23_collector_refuted.
