(** C51: the order in which the classes of header files are registered. *)
From Coq Require Import List Arith Lia.
From Verif.Model Require Import Py ScanTypes.
From Verif.Spec Require Import ScanSpec.
From Verif.Proofs Require Import ScanProofs ScanComplete.
Import ListNotations.
Open Scope list_scope.

(** The scan of any program comes to an end, in one way: done, or refused. *)
Theorem C51_terminates : forall namespaces, exists events finished, scanned namespaces events finished /\
  forall events' finished', scanned namespaces events' finished' -> events' = events /\ finished' = finished.
Proof.
  intro ns. destruct (terminates (initial ns)) as (fuel & (es & b) & H). exists es, b. assert (A : scanned ns es b) by now exists fuel. split; [assumption|].
  intros es' b' H'. now apply scanned_unique with ns.
Qed.
Print Assumptions C51_terminates.

(** A class is registered in the scope it is declared in, with the bases it is declared with, after each of them and after the class
    around it - also in a scan that is refused later; the ignored, the anonymous and those over private classes never are. *)
Theorem C51_order : forall namespaces events finished before i parents outer after,
  scanned namespaces events finished -> events = before ++ ERegistered i parents outer :: after ->
  (exists l c scope, In l namespaces /\ declared l None c scope outer /\ c_id c = i /\ c_bases c = parents /\
     c_ignored c = false /\ c_anonymous c = false /\ c_private c = false) /\
  (forall p, In p parents -> registered_in before p) /\ (forall x, outer = Some x -> registered_in before x).
Proof.
  intros ns es b pre i ps o post H E. pose proof (scanned_ok ns es b H pre _ post E) as K. cbn [event_ok] in K. destruct K as ((c & (l & scope & Hl & Hd) & A) & B).
  split; [|assumption]. exists l, c, scope. now split.
Qed.
Print Assumptions C51_order.

(** No class is registered twice. *)
Theorem C51_once : forall namespaces events finished before i parents outer after,
  NoDup (all_numbers namespaces) -> scanned namespaces events finished -> events = before ++ ERegistered i parents outer :: after ->
  ~ registered_in before i /\ ~ registered_in after i.
Proof.
  intros ns es b pre i ps o post N H E. pose proof (scanned_once ns es b N H) as K. subst es. unfold registrations in K. rewrite flat_map_app in K. cbn [flat_map app] in K.
  apply NoDup_remove_2 in K.
  assert (Hin : forall l, registered_in l i -> In i (flat_map (fun e => match e with ERegistered i _ _ => [i] | _ => [] end) l)).
  { intros l (ps' & o' & Hl). apply in_flat_map. eexists. split; [exact Hl|]. now left. }
  split; intro R; apply K; apply in_or_app; [left|right]; now apply Hin.
Qed.
Print Assumptions C51_once.

(** A conversion is recorded for a casting operator of a registered class to a registered class, and reported as missing otherwise; a
    class is reported for a base that is not registered. *)
Theorem C51_conversions : forall namespaces events finished before i t after,
  scanned namespaces events finished ->
  (events = before ++ EConversion i t :: after ->
     (exists l c scope outer, In l namespaces /\ declared l None c scope outer /\ c_id c = i /\ In t (c_targets c)) /\ registered_in before i /\ registered_in before t) /\
  (events = before ++ EMissingTarget i t :: after ->
     (exists l c scope outer, In l namespaces /\ declared l None c scope outer /\ c_id c = i /\ In t (c_targets c)) /\ registered_in before i /\ ~ registered_in before t) /\
  (events = before ++ EMissingBase i t :: after ->
     (exists l c scope outer, In l namespaces /\ declared l None c scope outer /\ c_id c = i /\ In t (c_bases c)) /\ ~ registered_in before t).
Proof.
  intros ns es b pre i t post H. split; [|split]; intro E; pose proof (scanned_ok ns es b H pre _ post E) as K; cbn [event_ok] in K;
    destruct K as ((c & o & (l & scope & Hl & Hd) & A) & B); (split; [exists l, c, scope, o; now split|assumption]).
Qed.
Print Assumptions C51_conversions.

(** When the scan is done, nothing was lost: every class is registered, with its operators, or left out for one of the reasons. *)
Theorem C51_accounted : forall namespaces events l c, scanned namespaces events true -> In l namespaces -> In c l -> accounted events c.
Proof. exact scanned_accounted. Qed.
Print Assumptions C51_accounted.

(** When every base and every conversion target is declared beside the class, around it or in an earlier namespace and no class waits
    for more than nine levels of others, the scan is done, all is registered and nothing is reported - whatever the order of names. *)
Theorem C51_complete : forall rank namespaces, fine_program (fun _ => False) namespaces -> shallow rank namespaces ->
  exists events, scanned namespaces events true /\ (forall l c, In l namespaces -> In c l -> wrapped events c) /\
    forall c n, ~ In (EMissingBase c n) events /\ ~ In (EMissingTarget c n) events.
Proof. exact complete. Qed.
Print Assumptions C51_complete.

(** ** Concrete cases *)
Definition plain (i : nat) (bases targets : list nat) (nested : list cls) : cls := mk_cls i false false false bases targets nested.
(** namespace { class A(1) : B { class In(4) : B }; class B(2) { operator C(); }; class C(3); } namespace { class D(5) : A } *)
Definition example : list (list cls) := [[plain 1 [2] [] [plain 4 [2] [] []]; plain 2 [] [3] []; plain 3 [] [] []]; [plain 5 [1] [] []]].
Example example_events : scanned example [ERegistered 3 [] None; ERegistered 2 [] None; EConversion 2 3; ERegistered 1 [2] None; ERegistered 4 [2] (Some 1); ERegistered 5 [1] None] true.
Proof. exists 50. vm_compute. reflexivity. Qed.
Example example_distinct : NoDup (all_numbers example).
Proof. repeat constructor; cbn; intuition lia. Qed.
(** A chain of [n] classes each of which has the next as its base. *)
Definition chain (n : nat) : list cls := map (fun i => plain i (if Nat.eqb (S i) n then [] else [S i]) [] []) (seq 0 n).
Example chain_ten : exists events, scanned [chain 10] events true /\ forall c, In c (chain 10) -> wrapped events c.
Proof.
  destruct (C51_complete (fun i => 9 - i) [chain 10]) as (es & A & B & _).
  - constructor; [|constructor]. constructor.
    + intros c Hc. cbn in Hc. repeat (destruct Hc as [<-|Hc]; [now cbn|]). destruct Hc.
    + intros c n Hc Hn. right. cbn in Hc. repeat (destruct Hc as [<-|Hc]; [cbn in Hn; repeat (destruct Hn as [<-|Hn]; [vm_compute; tauto|]); destruct Hn|]). destruct Hc.
    + intros c Hc. cbn in Hc. repeat (destruct Hc as [<-|Hc]; [cbn; constructor; cbn; intros; contradiction|]). destruct Hc.
  - intros l c scope outer n [<-|[]] Hd Hn Hi. inversion Hd as [? ? ? Hc|? ? d ? ? ? Hc Hd']; subst.
    + cbn in Hc. repeat (destruct Hc as [<-|Hc]; [cbn in Hn; repeat (destruct Hn as [<-|Hn]; [cbn; lia|]); destruct Hn|]). destruct Hc.
    + exfalso. cbn in Hc. repeat (destruct Hc as [<-|Hc]; [inversion Hd' as [? ? ? Hx|? ? ? ? ? ? Hx]; destruct Hx|]). destruct Hc.
  - exists es. split; [assumption|]. intros c Hc. apply (B (chain 10)); [now left|assumption].
Qed.
Example postponed_twice : scanned [[plain 1 [] [2] []; plain 2 [3] [] []; plain 3 [] [] []]]
  [ERegistered 3 [] None; ERegistered 2 [3] None; ERegistered 1 [] None; EConversion 1 2] true.
Proof. exists 50. vm_compute. reflexivity. Qed.

(** ** Not so *)
(** A chain of eleven classes whose names are in the opposite order is refused, although each base is declared. *)
Theorem C51_chain_refuted : ~ (forall l : list cls, fine (fun _ => False) l -> (exists rank, forall c n, In c l -> In n (c_bases c) -> rank n < rank (c_id c)) ->
  (forall c, In c l -> c_targets c = [] /\ c_nested c = []) -> exists events, scanned [l] events true).
Proof.
  intro H. destruct (H (chain 11)) as (es & He).
  - constructor.
    + intros c Hc. cbn in Hc. repeat (destruct Hc as [<-|Hc]; [now cbn|]). destruct Hc.
    + intros c n Hc Hn. right. cbn in Hc. repeat (destruct Hc as [<-|Hc]; [cbn in Hn; repeat (destruct Hn as [<-|Hn]; [vm_compute; tauto|]); destruct Hn|]). destruct Hc.
    + intros c Hc. cbn in Hc. repeat (destruct Hc as [<-|Hc]; [cbn; constructor; cbn; intros; contradiction|]). destruct Hc.
  - exists (fun i => 10 - i). intros c n Hc Hn. cbn in Hc. repeat (destruct Hc as [<-|Hc]; [cbn in Hn; repeat (destruct Hn as [<-|Hn]; [cbn; lia|]); destruct Hn|]). destruct Hc.
  - intros c Hc. cbn in Hc. repeat (destruct Hc as [<-|Hc]; [now cbn|]). destruct Hc.
  - assert (F : exists events, scanned [chain 11] events false) by (eexists; exists 400; vm_compute; reflexivity). destruct F as (es' & F).
    destruct (scanned_unique _ _ _ _ _ He F) as [_ X]. discriminate.
Qed.
Print Assumptions C51_chain_refuted.
(** Two classes that convert to each other are refused. *)
Theorem C51_mutual_refuted : ~ (forall l, fine (fun _ => False) l -> (forall c, In c l -> c_bases c = []) -> exists events, scanned [l] events true).
Proof.
  intro H. destruct (H [plain 1 [] [2] []; plain 2 [] [1] []]) as (es & He).
  - constructor; cbn.
    + intros c [<-|[<-|[]]]; now cbn.
    + intros c n [<-|[<-|[]]] [<-|[]]; tauto.
    + intros c [<-|[<-|[]]]; constructor; cbn; intros; contradiction.
  - intros c [<-|[<-|[]]]; reflexivity.
  - assert (F : exists events, scanned [[plain 1 [] [2] []; plain 2 [] [1] []]] events false) by (eexists; exists 400; vm_compute; reflexivity). destruct F as (es' & F).
    destruct (scanned_unique _ _ _ _ _ He F) as [_ X]. discriminate.
Qed.
Print Assumptions C51_mutual_refuted.
(** A nested class whose base is declared beside the outer class, but has a later name, is left out. *)
Example nested_base_dropped : scanned [[plain 1 [] [] [plain 3 [2] [] []]; plain 2 [] [] []]] [ERegistered 1 [] None; EMissingBase 3 2; ERegistered 2 [] None] true.
Proof. exists 50. vm_compute. reflexivity. Qed.
(** Of two conversion targets, the first foreign, the second with a later name, both are lost: the search stops at the first. *)
Theorem C51_targets_refuted : ~ (forall l events c t, scanned [l] events true -> In c l -> In t (c_targets c) ->
  registered_in events (c_id c) -> registered_in events t -> In (EConversion (c_id c) t) events).
Proof.
  intro H. specialize (H [plain 1 [] [9; 2] []; plain 2 [] [] []] [ERegistered 1 [] None; EMissingTarget 1 9; EMissingTarget 1 2; ERegistered 2 [] None] (plain 1 [] [9; 2] []) 2).
  assert (K : In (EConversion 1 2) [ERegistered 1 [] None; EMissingTarget 1 9; EMissingTarget 1 2; ERegistered 2 [] None]).
  { apply H.
    - exists 50. vm_compute. reflexivity.
    - now left.
    - right. now left.
    - exists [], None. now left.
    - exists [], None. do 3 right. now left. }
  cbn in K. intuition discriminate.
Qed.
Print Assumptions C51_targets_refuted.
