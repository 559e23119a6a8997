(** * Concrete histories for the examples of C21-C24 *)
From Coq Require Import List Arith Bool Lia.
From Verif.Model Require Import Ownership.
From Verif.Spec Require Import OwnSpec.
Import ListNotations.

(** Every event respects the contract. *)
Fixpoint fair (cf : conf) (strict : bool) (ls : list label) (s : state) : Prop :=
  match ls with
  | [] => True
  | LEvent ev :: t =>
      may_run s /\ allowed cf strict s ev /\
      match step_event cf ev s with Ok s' => fair cf strict t s' | Fault _ => False end
  | LTick :: t => match tick cf s with Ok s' => fair cf strict t s' | Fault _ => False end
  end.

Lemma fair_history cf strict ls : forall s s', fair cf strict ls s -> play cf ls s = Ok s' -> history cf strict s ls s'.
Proof.
  induction ls as [|[ev|] ls IH]; cbn [fair play]; intros s s' F P.
  - injection P as <-. constructor.
  - destruct F as (M & A & F). destruct (step_event cf ev s) as [s1|] eqn:E; [|destruct F].
    econstructor; eauto.
  - destruct (tick cf s) as [s1|] eqn:E; [|destruct F]. econstructor; eauto.
Qed.
Lemma history_reach cf strict s ls s' : reach cf strict s -> history cf strict s ls s' -> reach cf strict s'.
Proof.
  intros R H. induction H as [s|s ev s1 ls s2 M A E H IH|s s1 ls s2 E H IH]; auto.
  - apply IH. eapply reach_event; eauto.
  - apply IH. eapply reach_tick; eauto.
Qed.
Lemma fair_reach cf strict ls s : fair cf strict ls start -> play cf ls start = Ok s -> reach cf strict s.
Proof. intros F P. eapply history_reach; [apply reach_start|eapply fair_history; eauto]. Qed.

Fixpoint run_ticks (cf : conf) (n : nat) (s : state) : res state :=
  match n with 0 => Ok s | S n => match tick cf s with Ok s' => run_ticks cf n s' | Fault f => Fault f end end.
Lemma run_ticks_ok cf n : forall s s', run_ticks cf n s = Ok s' -> ticks cf s s'.
Proof.
  induction n as [|n IH]; cbn; intros s s' E.
  - injection E as <-. constructor.
  - destruct (tick cf s) as [s1|] eqn:T; [|discriminate]. econstructor; eauto.
Qed.

Definition nobody (_ _ : wid) := false.
(** Default policy, registry, helper class, copyable. *)
Definition plain := Conf PNone true true true false true true false nobody.
(** The same without registry. *)
Definition bare := Conf PNone false true true false true true false nobody.
(** Reference counting, registry, helper class, peekref method. *)
Definition counted := Conf PRef true true true false true true true nobody.

Definition owned := ROpts true false true false.
Definition by_ref := ROpts false true true false.
Definition by_copy := ROpts false false true false.
Definition unmanaged := ROpts false false false false.

Ltac fair_steps := repeat
  match goal with
  | H : False |- _ => destruct H
  | H : _ = _ |- _ => solve [discriminate H]
  | |- True => exact Logic.I
  | |- _ /\ _ => split
  | |- exists _, _ => eexists
  | |- _ = _ => reflexivity
  | |- le _ _ => solve [repeat constructor]
  | |- _ \/ _ => first [solve [left; fair_steps] | right]
  | |- False -> False => exact (fun x => x)
  | |- forall _, _ => intro
  | |- ~ _ => intro
  | H : False \/ False |- _ => destruct H
  | _ => discriminate
  | _ => congruence
  end.
Ltac is_fair := vm_compute; fair_steps.
Ltac reachable ls := apply (fair_reach _ _ ls); [is_fair|vm_compute; reflexivity].
