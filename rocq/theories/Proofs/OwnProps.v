(** * The properties C21-C24, proved from the invariant *)
From Coq Require Import List Arith Bool Lia.
From Verif.Model Require Import Ownership.
From Verif.Spec Require Import OwnSpec.
From Verif.Proofs Require Import OwnHeap OwnInv OwnTick OwnEvents OwnStep OwnTop OwnRun OwnFacts OwnHist.
Import ListNotations.

Lemma reach_history cf strict s ls s' : reach cf strict s -> history cf strict s ls s' -> reach cf strict s'.
Proof.
  intros R H. induction H as [s|s ev s1 ls s2 M A E H IH|s s1 ls s2 E H IH]; auto.
  - apply IH. eapply reach_event; eauto.
  - apply IH. eapply reach_tick; eauto.
Qed.

Lemma cd_doomed a todo : lsum (cd a) todo = 0 <-> ~ In (KDelete a) todo.
Proof.
  induction todo as [|t l IH]; cbn; [tauto|]. rewrite Nat.eq_add_0, IH. unfold cd at 1.
  destruct t as [w|w c|b]; cbn; try (intuition congruence).
  destruct (Nat.eqb_spec b a) as [->|N]; cbn; intuition congruence.
Qed.

Lemma cd_pos a todo : lsum (cd a) todo <> 0 -> In (KDelete a) todo.
Proof.
  induction todo as [|t l IH]; cbn [lsum In]; [tauto|]. unfold cd at 1. destruct t as [w|w c|b]; cbn; auto.
  destruct (Nat.eqb_spec b a) as [->|N]; cbn; auto.
Qed.

Lemma units_bound cf strict o h d : is_rc cf = false -> units cf strict o h d -> o_cpp o + h + d <= 1.
Proof. unfold units. intros ->. destruct strict; lia. Qed.

(** ** C21 *)
Lemma no_fault_event cf strict s ev : (strict = true -> deletes cf) -> reach cf strict s -> may_run s ->
  allowed cf strict s ev -> exists s', step_event cf ev s = Ok s'.
Proof. intros SD R M A. destruct (event_inv cf strict s ev (reach_inv _ _ _ SD R) M A) as (s' & E & _). eauto. Qed.

Lemma no_fault_tick cf strict s : (strict = true -> deletes cf) -> reach cf strict s -> ~ quiet s ->
  exists s', tick cf s = Ok s'.
Proof. intros SD R N. destruct (tick_inv cf strict s SD (reach_inv _ _ _ SD R) N) as (s' & E & _). eauto. Qed.

Lemma settles cf strict s : (strict = true -> deletes cf) -> reach cf strict s ->
  exists s', ticks cf s s' /\ quiet s'.
Proof. intros SD R. destruct (inv_finish cf strict s SD (reach_inv _ _ _ SD R)) as (s' & T & Q & _). eauto. Qed.

Lemma exclusive cf strict s a o : (strict = true -> deletes cf) -> reach cf strict s -> is_rc cf = false ->
  object s a o -> o_cpp o + owners cf s a <= 1 /\ (doomed s a -> o_cpp o = 0 /\ owners cf s a = 0).
Proof.
  intros SD R N G. pose proof (i_units _ _ _ _ _ _ _ (reach_inv _ _ _ SD R) a) as U. red in G. rewrite G in U.
  apply units_bound in U; auto. rewrite owners_hsum. split; [lia|]. intros D.
  assert (lsum (cd a) (s_todo s) <> 0) by (intros Z; apply cd_doomed in Z; auto). lia.
Qed.

Lemma delete_once cf strict s a rest : (strict = true -> deletes cf) -> reach cf strict s ->
  s_todo s = KDelete a :: rest ->
  exists o, object s a o /\ o_cpp o = 0 /\ owners cf s a = 0 /\ ~ In (KDelete a) rest.
Proof.
  intros SD R T. pose proof (i_units _ _ _ _ _ _ _ (reach_inv _ _ _ SD R) a) as U. rewrite T in U. cbn [lsum] in U.
  assert (CD : cd a (KDelete a) = 1) by (unfold cd; rewrite Nat.eqb_refl; reflexivity). rewrite CD in U.
  destruct (get (s_objs s) a) as [o|] eqn:G; [|destruct U; lia]. exists o. split; [exact G|].
  rewrite owners_hsum, <- cd_doomed. unfold units in U. destruct (is_rc cf).
  - destruct U as [U1 U2]. destruct (o_rc o) eqn:RC; cbn in U2; [|lia]. destruct strict; lia.
  - destruct strict; lia.
Qed.

Lemma removed_by_delete cf s s' a : tick cf s = Ok s' -> exists_at s a -> free_address s' a ->
  exists rest, s_todo s = KDelete a :: rest.
Proof.
  intros E (o & G) F. destruct (tick_less _ _ _ E) as (_ & B & _). specialize (B a). red in G, F. rewrite G, F in B.
  destruct B as [_ B]. destruct (s_todo s) as [|t rest]; [discriminate|]. injection B as ->. eauto.
Qed.

Lemma event_keeps cf ev s s' a : step_event cf ev s = Ok s' -> exists_at s a -> exists_at s' a.
Proof. intros E (o & G). destruct (event_cpp _ _ _ _ E a o G) as (o' & G' & _). exists o'; exact G'. Qed.

(** C++'s share is safe as long as C++ does not give it up. *)
Lemma cpp_keeps cf strict s ls s' a o : (strict = true -> deletes cf) -> reach cf strict s ->
  object s a o -> 1 <= o_cpp o -> history cf strict s ls s' ->
  (forall ev, In (LEvent ev) ls -> ~ gives_up ev a) ->
  exists o', object s' a o' /\ o_cpp o <= o_cpp o'.
Proof.
  intros SD R G C1 H. revert o R G C1.
  induction H as [s|s ev s1 ls s2 M A E H IH|s s1 ls s2 E H IH]; intros o R G C1 NG; [eauto| |].
  - destruct (event_cpp _ _ _ _ E a o G) as (o1 & G1 & L1). specialize (L1 (NG ev (or_introl eq_refl))).
    destruct (IH o1) as (o' & G' & L'); auto; [eapply reach_event; eauto|lia|intros; apply NG; right; auto|].
    exists o'. split; auto. lia.
  - assert (X : exists o1, object s1 a o1 /\ o_cpp o <= o_cpp o1).
    { destruct (tick_less _ _ _ E) as (_ & B & _). specialize (B a). red in G. rewrite G in B.
      destruct (get (s_objs s1) a) as [o1|] eqn:G1.
      - exists o1. split; auto. destruct B as (B & _). lia.
      - exfalso. destruct B as [_ B]. destruct (s_todo s) as [|t rest] eqn:T; [discriminate|]. injection B as ->.
        destruct (delete_once cf strict s a rest SD R T) as (o2 & G2 & Z & _). red in G2. assert (o2 = o) by congruence. subst. lia. }
    destruct X as (o1 & G1 & L1).
    destruct (IH o1) as (o' & G' & L'); auto; [eapply reach_tick; eauto|lia|intros; apply NG; right; auto|].
    exists o'. split; auto. lia.
Qed.

Lemma owner_exists cf s a : 1 <= owners cf s a -> exists w r, wrapper s w r /\ owner_of cf r a = true.
Proof.
  rewrite owners_hsum. intros H. destruct (hsum_pos _ _ _ H) as (w & r & G & O1). exists w, r. split; auto.
  unfold ch in O1. destruct (owner_of cf r a); auto. cbn in O1. lia.
Qed.
Lemma owner_parts cf r a : owner_of cf r a = true -> owns cf r = true /\ w_obj r = Some a.
Proof.
  unfold owner_of. destruct (owns cf r); cbn; [|discriminate]. destruct (w_obj r) as [b|]; [|discriminate].
  intros E. apply Nat.eqb_eq in E. subst. auto.
Qed.

(** An owner of an object, when nothing is pending, is alive. *)
Lemma quiet_owner cf strict s a : (strict = true -> deletes cf) -> reach cf strict s -> quiet s -> 1 <= owners cf s a ->
  exists w r, wrapper s w r /\ w_st r = Live /\ w_obj r = Some a /\ owns cf r = true.
Proof.
  intros SD R Q H. destruct (owner_exists cf s a H) as (w & r & G & O1). apply owner_parts in O1. destruct O1 as [O1 O2].
  exists w, r. repeat split; auto. pose proof (reach_inv _ _ _ SD R) as P.
  destruct (w_st r) eqn:L; auto; exfalso.
  - assert (D : w_st r = Dead) by (eapply quiet_dead; eauto; congruence). congruence.
  - destruct (i_dead _ _ _ _ _ _ _ P w r G L). congruence.
Qed.

Lemma no_leak cf s a o : deletes cf -> reach cf true s -> quiet s -> is_rc cf = false -> object s a o ->
  o_cpp o + owners cf s a = 1.
Proof.
  intros SD R Q N G. pose proof (i_units _ _ _ _ _ _ _ (reach_inv cf true s (fun _ => SD) R) a) as U. red in G. rewrite G, Q in U.
  unfold units in U. rewrite N in U. rewrite owners_hsum. cbn [lsum] in U. lia.
Qed.

Lemma lives_on cf s a o : deletes cf -> reach cf true s -> quiet s -> is_rc cf = false -> object s a o -> o_cpp o = 0 ->
  exists w r, wrapper s w r /\ w_st r = Live /\ w_obj r = Some a /\ owns cf r = true
    /\ forall w' r', wrapper s w' r' -> w_obj r' = Some a -> owns cf r' = true -> w' = w.
Proof.
  intros SD R Q N G Z. pose proof (no_leak cf s a o SD R Q N G) as U.
  destruct (quiet_owner cf true s a (fun _ => SD) R Q ltac:(lia)) as (w & r & A & B & C1 & D).
  exists w, r. repeat split; auto. intros w' r' A' C' D'.
  eapply (count_one cf s a w r A); [|lia|exact A'|]; unfold owner_of; rewrite ?D, ?C1, ?D', ?C', Nat.eqb_refl; reflexivity.
Qed.

Lemma dies_with cf s w r a o s1 s2 :
  deletes cf -> reach cf true s -> quiet s -> wrapper s w r -> w_st r = Live -> w_refs r = 1 -> 1 <= w_ext r ->
  w_obj r = Some a -> owns cf r = true -> object s a o -> (is_rc cf = true -> o_cpp o = 0 /\ owners cf s a = 1) ->
  step_event cf (EvDrop w) s = Ok s1 -> ticks cf s1 s2 -> quiet s2 ->
  gone s2 w /\ free_address s2 a.
Proof.
  intros SD R Q G L RF EX O1 OW Go RC ST T Q2.
  assert (X : o_cpp o = 0 /\ owners cf s a = 1).
  { destruct (is_rc cf) eqn:I; auto. pose proof (no_leak cf s a o SD R Q I Go) as U.
    assert (1 <= owners cf s a); [|lia]. rewrite owners_hsum.
    pose proof (hsum_get _ (ch cf a) (s_wraps s) w) as H. red in G. rewrite G in H. cbn [oval] in H.
    unfold ch in H at 1. unfold owner_of in H. rewrite OW, O1, Nat.eqb_refl in H. cbn in H. lia. }
  destruct X as [X1 X2].
  destruct (dies cf s w r a o s1 s2 SD (reach_inv _ _ _ (fun _ => SD) R) Q G L RF EX O1 OW Go X1 X2 ST T Q2) as [(r2 & A & B) D].
  split; [exists r2; split; auto|exact D].
Qed.

(** ** C22 *)
Lemma rc_count cf s a o : deletes cf -> reach cf true s -> is_rc cf = true -> object s a o ->
  o_rc o = o_cpp o + owners cf s a.
Proof.
  intros SD R I G. pose proof (i_units _ _ _ _ _ _ _ (reach_inv cf true s (fun _ => SD) R) a) as U. red in G. rewrite G in U.
  unfold units in U. rewrite I in U. rewrite owners_hsum. tauto.
Qed.
Lemma rc_enough cf strict s a o : (strict = true -> deletes cf) -> reach cf strict s -> is_rc cf = true -> object s a o ->
  o_cpp o + owners cf s a <= o_rc o.
Proof.
  intros SD R I G. pose proof (i_units _ _ _ _ _ _ _ (reach_inv cf strict s SD R) a) as U. red in G. rewrite G in U.
  unfold units in U. rewrite I in U. rewrite owners_hsum. destruct strict; lia.
Qed.
Lemma rc_doomed cf strict s a o : (strict = true -> deletes cf) -> reach cf strict s -> is_rc cf = true -> object s a o ->
  (o_rc o = 0 <-> doomed s a).
Proof.
  intros SD R I G. pose proof (i_units _ _ _ _ _ _ _ (reach_inv cf strict s SD R) a) as U. red in G. rewrite G in U.
  unfold units in U. rewrite I in U. destruct U as [_ U]. unfold doomed. split.
  - intros Z. rewrite Z in U. apply cd_pos. cbn in U. lia.
  - intros D. destruct (o_rc o); auto. cbn in U. apply cd_doomed in U. contradiction.
Qed.
