(** C24: a custodian keeps its wards alive. *)
From Coq Require Import List Arith Bool ZArith.
From Verif.Model Require Import Ownership Custodians.
From Verif.Spec Require Import OwnSpec CustodianSpec.
From Verif.Proofs Require OwnProps OwnWard OwnFinal CustodianProofs.
From Verif.Proofs Require Import OwnPaths.
Import ListNotations.

(** In every history, what is on a wrapper's list of wards is alive. *)
Theorem C24_kept : forall cf strict s c rc w, (strict = true -> deletes cf) -> reach cf strict s ->
  wrapper s c rc -> In w (w_wards rc) -> alive s w.
Proof. exact OwnWard.ward_alive. Qed.
Print Assumptions C24_kept.

(** Declaring the relation puts the ward (or an object equal to it) on the list. *)
Theorem C24_added : forall cf s c w s', c_subclassing cf = true -> step_event cf (EvWard c w) s = Ok s' -> guards cf s' c w.
Proof. exact OwnWard.ward_added. Qed.
Print Assumptions C24_added.

(** A ward is never listed twice; declaring a relation again changes nothing. *)
Theorem C24_once : forall cf strict s, (strict = true -> deletes cf) -> reach cf strict s ->
  (forall w r, wrapper s w r -> NoDup (w_wards r)) /\
  (forall c rc w, wrapper s c rc -> In w (w_wards rc) -> alive s c -> alive s w -> step_event cf (EvWard c w) s = Ok s).
Proof. intros cf strict s SD R. split; [exact (OwnWard.wards_nodup cf strict s SD R)|intros c rc w; exact (OwnWard.ward_once cf c rc w s)]. Qed.
Print Assumptions C24_once.

(** The list only grows while the custodian lives (and the collector does not clear it). *)
Theorem C24_persists : forall cf strict s ls s' c rc, (strict = true -> deletes cf) -> reach cf strict s ->
  history cf strict s ls s' -> wrapper s c rc -> idle s c -> alive s' c -> ~ In (LEvent (EvGcClear c)) ls ->
  exists rc', wrapper s' c rc' /\ exists l, w_wards rc' = w_wards rc ++ l.
Proof. exact OwnWard.wards_persist. Qed.
Print Assumptions C24_persists.

(** So a ward lives as long as its custodian. *)
Theorem C24_as_long : forall cf strict s ls s' c rc w, (strict = true -> deletes cf) -> reach cf strict s ->
  history cf strict s ls s' -> wrapper s c rc -> In w (w_wards rc) -> idle s c -> alive s' c -> ~ In (LEvent (EvGcClear c)) ls ->
  alive s' w.
Proof.
  intros cf strict s ls s' c rc w SD R H W IN ID A NG.
  destruct (OwnWard.wards_persist cf strict s ls s' c rc SD R H W ID A NG) as (rc' & W' & l & E).
  apply (OwnWard.ward_alive cf strict s' c rc' w SD (OwnProps.reach_history cf strict s ls s' R H) W').
  rewrite E. apply in_or_app. auto.
Qed.
Print Assumptions C24_as_long.

(** A deallocated custodian has released its wards ... *)
Theorem C24_released : forall cf strict s c rc, (strict = true -> deletes cf) -> reach cf strict s ->
  wrapper s c rc -> w_st rc = Dead -> w_wards rc = [].
Proof. intros cf strict s c rc SD R W D. exact (proj1 (OwnWard.dead_wards cf strict s c rc SD R W D)). Qed.
Print Assumptions C24_released.

(** ... and a ward nobody else references dies with it. *)
Theorem C24_die_together : forall cf strict s c rc w r s1 s2,
  (strict = true -> deletes cf) -> reach cf strict s -> quiet s ->
  wrapper s c rc -> w_st rc = Live -> w_refs rc = 1 -> 1 <= w_ext rc ->
  wrapper s w r -> In w (w_wards rc) -> w_refs r = 1 ->
  step_event cf (EvDrop c) s = Ok s1 -> ticks cf s1 s2 -> quiet s2 -> gone s2 c /\ gone s2 w.
Proof. exact OwnFinal.ward_released. Qed.
Print Assumptions C24_die_together.

(** The relations of a wrapper are exactly the declared ones: [custodian] of a
    parameter or of the return value, and [return_internal_reference]; those
    involving the returned object are added after the call. *)
Theorem C24_scan : forall g, exists l, scan g = inr l /\ forall c w p, In (c, w, p) l <-> declared g c w p.
Proof. exact CustodianProofs.scan_spec. Qed.
Print Assumptions C24_scan.

Theorem C24_explicit : forall l c w p l', add_custodian_and_ward l c w p = inr l' ->
  exists b, l' = l ++ [(c, w, b)] /\
    (match p with Some q => b = q | None => b = true <-> c = (-1)%Z \/ w = (-1)%Z end).
Proof. exact CustodianProofs.explicit_spec. Qed.
Print Assumptions C24_explicit.

(** A whole call: after it, every declared custodian guards its ward. *)
Theorem C24_call : forall cf strict n l s s1 ls s2, (strict = true -> deletes cf) -> reach cf strict s -> may_run s ->
  c_subclassing cf = true ->
  (forall c w, In (c, w, false) l -> exists x y, denotes n c x /\ denotes n w y /\ held s x /\ held s y) ->
  precall cf n l s = inr (Ok s1) -> history cf strict s1 ls s2 -> may_run s2 ->
  (forall c w x, In (c, w, false) l -> denotes n c x -> alive s2 x /\ ~ In (LEvent (EvGcClear x)) ls) ->
  (forall c w, In (c, w, true) l -> exists x y, denotes n c x /\ denotes n w y /\ held s2 x /\ held s2 y) ->
  exists s3, postcall cf n l s2 = inr (Ok s3) /\ reach cf strict s3 /\
    forall c w p x y, In (c, w, p) l -> denotes n c x -> denotes n w y -> guards cf s3 x y.
Proof. exact CustodianProofs.call_spec. Qed.
Print Assumptions C24_call.

Notation ev := LEvent (only parsing).
Notation t := LTick (only parsing).

(** ** A concrete call: parameter 1 is kept by self, self by the returned object *)
Definition g := Sig [Some 0%Z; None] None true.
Example C24_example_scan : scan g = inr [(0, 1, false); (-1, 0, true)]%Z.
Proof. reflexivity. Qed.
Definition begin : list label := [ev (EvNew false); ev (EvInit 0 0); ev (EvNew false); ev (EvInit 1 1)].
Definition n := CEnv (Some (VObj 2)) (VObj 0) [Some (VObj 1); None].
Definition rels : list relation := [(0, 1, false); (-1, 0, true)]%Z.
Definition body : list label := [ev (EvCppNew 2); ev (EvReturn (RPtr by_ref) (Some 2) 9)].
Example C24_example_call : exists s s1 s2 s3, reach plain true s /\ precall plain n rels s = inr (Ok s1) /\
  history plain true s1 body s2 /\ postcall plain n rels s2 = inr (Ok s3) /\ guards plain s3 0 1 /\ guards plain s3 2 0 /\
  map (option_map w_refs) (s_wraps s3) = [Some 2; Some 2; Some 1].
Proof.
  eexists _, _, _, _. split; [reachable begin|]. split; [vm_compute; reflexivity|].
  split; [apply fair_history; [is_fair|vm_compute; reflexivity]|]. split; [vm_compute; reflexivity|].
  split; [eexists; split; [reflexivity|left; left; reflexivity]|]. split; [eexists; split; [reflexivity|left; left; reflexivity]|reflexivity].
Qed.
(** The whole chain dies with the last reference: wrapper 2 keeps 0, which keeps 1. *)
Example C24_example_die : exists s, reach plain true s /\ quiet s /\
  map (option_map (fun r => (w_st r, w_wards r))) (s_wraps s) = [Some (Dead, []); Some (Dead, []); Some (Dead, [])] /\
  map (option_map o_cpp) (s_objs s) = [None; None; Some 1].
Proof.
  eexists. split; [reachable (begin ++ body ++ [ev (EvWard 0 1); ev (EvWard 2 0); ev (EvWard 2 0); ev (EvDrop 0); t; ev (EvDrop 1); t; ev (EvDrop 2)]
      ++ repeat t 20)|]. vm_compute. repeat split; reflexivity.
Qed.

(** ** Limits *)

(** Without [allow_subclassing] instances have no dict: nothing is kept. *)
Definition flat := Conf PNone true false false false true true false nobody.
Theorem C24_no_dict_refuted : exists s s', reach flat true s /\ held s 0 /\ held s 1 /\ step_event flat (EvWard 0 1) s = Ok s' /\ s' = s.
Proof.
  eexists _, _. split; [reachable begin|]. split; [eexists; repeat split; repeat constructor|]. split; [eexists; repeat split; repeat constructor|].
  split; vm_compute; reflexivity.
Qed.
Print Assumptions C24_no_dict_refuted.

(** The list is searched with Python's [==]: a ward equal to one already kept is not added. *)
Definition equal := Conf PNone true true true false true true false (fun _ _ => true).
Theorem C24_equal_refuted : exists s s', reach equal true s /\ held s 2 /\ step_event equal (EvWard 0 2) s = Ok s' /\ s' = s /\
  exists r, wrapper s' 0 r /\ ~ In 2 (w_wards r).
Proof.
  eexists _, _. split; [reachable (begin ++ [ev (EvNew false); ev (EvWard 0 1)])|]. split; [eexists; repeat split; repeat constructor|].
  split; [vm_compute; reflexivity|]. split; [reflexivity|]. eexists. split; [reflexivity|]. cbn. intros [X|[]]; discriminate.
Qed.
Print Assumptions C24_equal_refuted.

(** Asking for a relation with the returned object before the call is a NameError. *)
Theorem C24_precall_refuted : forall l c w, add_custodian_and_ward l c w (Some false) = inl NoSuchName <-> (c = -1 \/ w = -1)%Z.
Proof.
  intros l c w. unfold add_custodian_and_ward. destruct (Z.eqb_spec c (-1)), (Z.eqb_spec w (-1)); cbn; split; intros X; auto; try discriminate; destruct X; contradiction.
Qed.
Print Assumptions C24_precall_refuted.
