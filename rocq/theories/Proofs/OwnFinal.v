(** * C21-C24: the lemmas in the form the theorems use *)
From Coq Require Import List Arith Bool Lia.
From Verif.Model Require Import Ownership.
From Verif.Spec Require Import OwnSpec.
From Verif.Proofs Require Import OwnHeap OwnInv OwnTick OwnEvents OwnStep OwnTop OwnRun OwnFacts OwnHist OwnProps OwnWard.
Import ListNotations.

Lemma ward_released cf strict s c rc w r s1 s2 :
  (strict = true -> deletes cf) -> reach cf strict s -> quiet s ->
  wrapper s c rc -> w_st rc = Live -> w_refs rc = 1 -> 1 <= w_ext rc ->
  wrapper s w r -> In w (w_wards rc) -> w_refs r = 1 ->
  step_event cf (EvDrop c) s = Ok s1 -> ticks cf s1 s2 -> quiet s2 -> gone s2 c /\ gone s2 w.
Proof.
  intros SD R Q Gc Lc RF EX Gw IW RW ST T Q2. pose proof (reach_inv _ _ _ SD R) as P. split.
  - destruct (drop_last cf strict s c rc s1 s2 SD P Q Gc Lc RF EX ST T Q2) as (_ & (r2 & A & B) & _). exists r2; split; auto.
  - destruct (ward_dies cf strict s c rc w r s1 s2 SD P Q Gc Lc RF EX Gw IW RW ST T Q2) as (r2 & A & B). exists r2; split; auto.
Qed.

(** What a settled state looks like: every object belongs to C++ or to exactly
    one live wrapper. *)
Lemma settled cf s a o : deletes cf -> reach cf true s -> quiet s -> is_rc cf = false -> object s a o ->
  (o_cpp o = 1 /\ forall w r, wrapper s w r -> w_obj r = Some a -> owns cf r = false)
  \/ (o_cpp o = 0 /\ exists w r, wrapper s w r /\ w_st r = Live /\ w_obj r = Some a /\ owns cf r = true
        /\ forall w' r', wrapper s w' r' -> w_obj r' = Some a -> owns cf r' = true -> w' = w).
Proof.
  intros SD R Q N G. pose proof (no_leak cf s a o SD R Q N G) as U.
  destruct (o_cpp o) as [|n] eqn:C1.
  - right. split; auto. eapply lives_on; eauto.
  - left. assert (n = 0) by lia. subst n. split; auto. intros w r W O1. destruct (owns cf r) eqn:OW; auto.
    assert (1 <= owners cf s a); [|lia]. rewrite owners_hsum.
    pose proof (hsum_get _ (ch cf a) (s_wraps s) w) as H. red in W. rewrite W in H. cbn [oval] in H.
    unfold ch in H at 1. unfold owner_of in H. rewrite OW, O1, Nat.eqb_refl in H. cbn in H. lia.
Qed.

(** Reference counting: when nothing is pending, every object has a reference
    held by C++ or by a live wrapper. *)
Lemma rc_settled cf s a o : deletes cf -> reach cf true s -> quiet s -> is_rc cf = true -> object s a o ->
  1 <= o_rc o /\ o_rc o = o_cpp o + owners cf s a.
Proof.
  intros SD R Q I G. pose proof (rc_count cf s a o SD R I G) as U. split; auto.
  pose proof (rc_doomed cf true s a o (fun _ => SD) R I G) as [D _].
  destruct (o_rc o); [|lia]. specialize (D eq_refl). red in Q. unfold doomed in D. rewrite Q in D. destruct D.
Qed.

(** Under reference counting the owners are all wrappers pointing to the object
    that were not lent it. *)
Lemma rc_owners cf s a : is_rc cf = true ->
  owners cf s a = count_wraps (fun r => negb (w_tmp r) && match w_obj r with Some b => b =? a | None => false end) s.
Proof.
  intros I. unfold owners, count_wraps. f_equal. apply filter_ext. intros [r|]; auto.
  unfold owner_of, owns. unfold is_rc in I. destruct (c_policy cf); try discriminate.
  rewrite andb_true_r. reflexivity.
Qed.


Lemma rc_live cf s a o : deletes cf -> reach cf true s -> quiet s -> is_rc cf = true -> object s a o ->
  1 <= o_rc o /\ o_rc o = o_cpp o + count_wraps (live_holder a) s.
Proof.
  intros SD R Q I G. destruct (rc_settled cf s a o SD R Q I G) as [A B]. split; auto. rewrite B, rc_owners by auto. f_equal.
  pose proof (reach_inv _ _ _ (fun _ => SD) R) as P. unfold count_wraps. f_equal. apply filter_ext_in.
  intros [r|] IN; auto. apply In_nth_error in IN. destruct IN as (w & N).
  assert (W : get (s_wraps s) w = Some r) by (unfold get; rewrite N; reflexivity).
  unfold live_holder. destruct (w_st r) eqn:L; auto; (destruct (w_obj r) as [b|] eqn:O1; [exfalso|apply andb_false_r]).
  - assert (D : w_st r = Dead) by (eapply quiet_dead; eauto; congruence). congruence.
  - destruct (i_dead _ _ _ _ _ _ _ P w r W L). congruence.
Qed.
