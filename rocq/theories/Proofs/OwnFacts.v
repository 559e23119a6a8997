(** * Consequences for the properties C21-C24 *)
From Coq Require Import List Arith Bool Lia.
From Verif.Model Require Import Ownership.
From Verif.Spec Require Import OwnSpec.
From Verif.Proofs Require Import OwnHeap OwnInv OwnTick OwnEvents OwnStep OwnTop OwnRun.
Import ListNotations.

Definition lessT (s s' : state) : Prop :=
  s_calls s' = s_calls s
  /\ (forall a o', get (s_objs s') a = Some o' -> exists o, get (s_objs s) a = Some o /\ obj_less o o')
  /\ (forall w r', get (s_wraps s') w = Some r' -> exists r, get (s_wraps s) w = Some r /\ wrap_less r r')
  /\ (forall w r, get (s_wraps s) w = Some r -> exists r', get (s_wraps s') w = Some r' /\ wrap_less r r')
  /\ (forall a w, get (s_reg s') a = Some w -> get (s_reg s) a = Some w).

Lemma wrap_less_trans r1 r2 r3 : wrap_less r1 r2 -> wrap_less r2 r3 -> wrap_less r1 r3.
Proof.
  unfold wrap_less. intros (A1 & A2 & A3 & A4 & A5 & A6 & A7) (B1 & B2 & B3 & B4 & B5 & B6 & B7).
  rewrite B1, B2, B3, B4. repeat (split; [assumption|]). split; [|split].
  - destruct B5 as [[-> ->]|B5]; [exact A5|auto].
  - destruct B6 as [->|B6]; auto.
  - auto.
Qed.
Lemma obj_less_trans r1 r2 r3 : obj_less r1 r2 -> obj_less r2 r3 -> obj_less r1 r3.
Proof. unfold obj_less. intros (A1 & A2 & A3 & A4) (B1 & B2 & B3 & B4). repeat split; try congruence; lia. Qed.

Lemma tick_lessT cf s s' : tick cf s = Ok s' -> lessT s s'.
Proof.
  intros E. destruct (tick_less _ _ _ E) as (A & B & C1 & D). split; [exact A|]. split; [|split; [|split]].
  - intros a o' G. specialize (B a). rewrite G in B. destruct (get (s_objs s) a); [eauto|tauto].
  - intros w r' G. specialize (C1 w). rewrite G in C1. destruct (get (s_wraps s) w); [eauto|tauto].
  - intros w r G. specialize (C1 w). rewrite G in C1. destruct (get (s_wraps s') w); [eauto|tauto].
  - intros a w G. destruct (D a) as [<-|[D' _]]; congruence.
Qed.

Lemma ticks_lessT cf s s' : ticks cf s s' -> lessT s s'.
Proof.
  induction 1 as [s|s s1 s2 E T IH].
  - unfold lessT. repeat split; eauto using obj_less_refl, wrap_less_refl.
  - apply tick_lessT in E. destruct E as (A1 & A2 & A3 & A4 & A5). destruct IH as (B1 & B2 & B3 & B4 & B5).
    split; [congruence|]. split; [|split; [|split]].
    + intros a o' G. destruct (B2 a o' G) as (o1 & G1 & L1). destruct (A2 a o1 G1) as (o & G0 & L0).
      exists o; split; auto. eapply obj_less_trans; eauto.
    + intros a o' G. destruct (B3 a o' G) as (o1 & G1 & L1). destruct (A3 a o1 G1) as (o & G0 & L0).
      exists o; split; auto. eapply wrap_less_trans; eauto.
    + intros a o' G. destruct (A4 a o' G) as (o1 & G1 & L1). destruct (B4 a o1 G1) as (o & G0 & L0).
      exists o; split; auto. eapply wrap_less_trans; eauto.
    + auto.
Qed.

Lemma ticks_inv cf strict s s' : (strict = true -> deletes cf) -> Inv cf strict s -> ticks cf s s' -> Inv cf strict s'.
Proof.
  intros SD P T. induction T as [s|s s1 s2 E T IH]; auto. apply IH.
  destruct (tick_inv cf strict s SD P) as (s3 & E3 & P3); [|congruence].
  unfold tick in E. destruct (s_todo s); discriminate.
Qed.

(** A wrapper that is not alive when everything is done is freed. *)
Lemma quiet_dead cf strict s w r : Inv cf strict s -> quiet s -> get (s_wraps s) w = Some r -> w_st r <> Live -> w_st r = Dead.
Proof.
  intros P Q G N. pose proof (i_dying _ _ _ _ _ _ _ P w) as D. rewrite Q, G in D. cbn in D.
  destruct (w_st r); auto; [tauto|discriminate].
Qed.

(** Dropping the last reference. *)
Lemma drop_last cf strict s w r s1 s2 :
  (strict = true -> deletes cf) -> Inv cf strict s -> quiet s ->
  get (s_wraps s) w = Some r -> w_st r = Live -> w_refs r = 1 -> 1 <= w_ext r ->
  step_event cf (EvDrop w) s = Ok s1 -> ticks cf s1 s2 -> quiet s2 ->
  Inv cf strict s2
  /\ (exists r2, get (s_wraps s2) w = Some r2 /\ w_st r2 = Dead)
  /\ s_calls s2 = s_calls s
  /\ (forall a o', get (s_objs s2) a = Some o' -> exists o, get (s_objs s) a = Some o /\ obj_less o o')
  /\ (forall x y', get (s_wraps s2) x = Some y' -> exists y, get (s_wraps s) x = Some y /\
        w_owned y' = w_owned y /\ (w_obj y' = w_obj y /\ w_tmp y' = w_tmp y \/ w_obj y' = None)
        /\ (w_wards y' = w_wards y \/ w_wards y' = []) /\ (x <> w -> w_ext y' = w_ext y)
        /\ (w_st y <> Live -> w_st y' <> Live)).
Proof.
  intros SD P Q G L R E1 ST T Q2.
  assert (A : allowed cf strict s (EvDrop w)) by (exists r; auto).
  assert (M : may_run s) by (left; exact Q).
  destruct (event_inv _ _ _ _ P M A) as (s1' & ST' & P1). assert (s1' = s1) by congruence. subst s1'. clear ST'.
  pose proof (ticks_inv _ _ _ _ SD P1 T) as P2. split; auto.
  pose proof (ticks_lessT _ _ _ T) as (L1 & L2 & L3 & L4 & L5).
  destruct s as [objs wraps reg todo calls]. cbn [step_event live_wrap s_wraps] in ST. unfold live_wrap in ST.
  cbn [s_wraps s_objs s_calls s_reg s_todo] in *. red in Q. cbn in Q. subst todo.
  rewrite G, L in ST. cbn in ST. injection ST as <-. cbn [s_wraps s_objs s_calls s_reg s_todo] in *.
  split; [|split; [exact L1|split; [exact L2|]]].
  - destruct (L4 w (w_set_ext r (pred (w_ext r)))) as (r2 & G2 & W2); [apply get_put_eq|].
    exists r2. split; auto. eapply quiet_dead; eauto.
    (* the first tick starts the deallocation *)
    inversion T as [s0|s0 s3 s4 E3 T3]; subst; [discriminate Q2|].
    pose proof (ticks_lessT _ _ _ T3) as (_ & _ & M3 & _ & _).
    unfold tick, push, setw, set_todo, set_wraps, live_wrap in E3. cbn [s_todo s_wraps app] in E3. rewrite get_put_eq in E3.
    cbn [w_set_ext w_st] in E3. rewrite L in E3. cbn [bind w_refs w_set_ext] in E3. rewrite R in E3.
    injection E3 as <-. destruct (M3 w r2 G2) as (r3 & G3 & W3). cbn [s_wraps] in G3.
    unfold push, setw, set_todo, set_wraps in G3. cbn [s_wraps] in G3. rewrite put_put, get_put_eq in G3. injection G3 as <-.
    destruct W3 as (_ & _ & _ & _ & _ & _ & W3). apply W3. discriminate.
  - intros x y' Gx. destruct (L3 x y' Gx) as (y & Gy & (W1 & W2 & W3 & W4 & W5 & W6 & W7)).
    unfold push, setw, set_todo, set_wraps in Gy. cbn [s_wraps] in Gy.
    rewrite get_put in Gy. destruct (Nat.eqb_spec x w) as [->|N].
    + injection Gy as <-. exists r. cbn in *. repeat (split; auto). tauto.
    + exists y. repeat (split; auto).
Qed.

Lemma count_one cf s a w r : get (s_wraps s) w = Some r -> owner_of cf r a = true ->
  owners cf s a = 1 -> forall x y, get (s_wraps s) x = Some y -> owner_of cf y a = true -> x = w.
Proof.
  intros G O1 C1 x y Gx O2. destruct (Nat.eq_dec x w) as [|N]; auto. exfalso.
  rewrite owners_hsum in C1. pose proof (hsum_two _ (ch cf a) _ _ _ _ _ N Gx G) as Q.
  unfold ch in Q at 1 2. rewrite O1, O2 in Q. cbn in Q. lia.
Qed.

(** The object of the last owner goes with it. *)
Lemma dies cf s w r a o s1 s2 :
  deletes cf -> Inv cf true s -> quiet s ->
  get (s_wraps s) w = Some r -> w_st r = Live -> w_refs r = 1 -> 1 <= w_ext r ->
  w_obj r = Some a -> owns cf r = true -> get (s_objs s) a = Some o -> o_cpp o = 0 -> owners cf s a = 1 ->
  step_event cf (EvDrop w) s = Ok s1 -> ticks cf s1 s2 -> quiet s2 ->
  (exists r2, get (s_wraps s2) w = Some r2 /\ w_st r2 = Dead) /\ get (s_objs s2) a = None.
Proof.
  intros SD P Q G L R E1 O1 OW Go C1 C2 ST T Q2.
  destruct (drop_last cf true s w r s1 s2 (fun _ => SD) P Q G L R E1 ST T Q2) as (P2 & D & _ & OB & WR).
  split; auto. destruct (get (s_objs s2) a) as [o2|] eqn:G2; auto. exfalso.
  destruct (OB a o2 G2) as (o' & Go' & (X1 & X2 & X3 & X4)). assert (o' = o) by congruence. subst o'.
  pose proof (i_units _ _ _ _ _ _ _ P2 a) as U. rewrite G2 in U. unfold units in U. rewrite Q2 in U. cbn [lsum] in U.
  assert (HP : 1 <= hsum (ch cf a) (s_wraps s2)).
  { destruct (is_rc cf).
    - destruct U as [U1 U2]. destruct (o_rc o2); [cbn in U2; discriminate|]. lia.
    - lia. }
  destruct (hsum_pos _ _ _ HP) as (x & y' & Gx & OX). unfold ch in OX.
  destruct (owner_of cf y' a) eqn:OY; [|cbn in OX; lia]. clear OX.
  destruct (WR x y' Gx) as (y & Gy & W1 & W2 & _).
  unfold owner_of, owns in OY. destruct (w_obj y') as [b|] eqn:OB'; [|rewrite andb_false_r in OY; discriminate].
  destruct W2 as [[W2 W3]|W2]; [|discriminate].
  assert (OY0 : owner_of cf y a = true) by (unfold owner_of, owns; rewrite <- W1, <- W2, <- W3; exact OY).
  assert (OR : owner_of cf r a = true) by (unfold owner_of; rewrite OW, O1, Nat.eqb_refl; reflexivity).
  assert (x = w) by (eapply count_one; eauto). subst x.
  destruct D as (r2 & Gr2 & D). destruct (i_dead _ _ _ _ _ _ _ P2 w r2 Gr2 D) as [D1 _]. congruence.
Qed.

(** A ward whose only reference is its custodian goes with it. *)
Lemma ward_dies cf strict s c rc w r s1 s2 :
  (strict = true -> deletes cf) -> Inv cf strict s -> quiet s ->
  get (s_wraps s) c = Some rc -> w_st rc = Live -> w_refs rc = 1 -> 1 <= w_ext rc ->
  get (s_wraps s) w = Some r -> In w (w_wards rc) -> w_refs r = 1 ->
  step_event cf (EvDrop c) s = Ok s1 -> ticks cf s1 s2 -> quiet s2 ->
  exists r2, get (s_wraps s2) w = Some r2 /\ w_st r2 = Dead.
Proof.
  intros SD P Q G L R E1 Gw IW R1 ST T Q2.
  destruct (drop_last cf strict s c rc s1 s2 SD P Q G L R E1 ST T Q2) as (P2 & D & CA & OB & WR).
  assert (NE : w <> c).
  { intros ->. assert (r = rc) by congruence. subst r. pose proof (i_refs _ _ _ _ _ _ _ P c) as X. rewrite G in X.
    pose proof (hsum_get _ (cw c) (s_wraps s) c) as Y. rewrite G in Y. cbn in Y. unfold cw in Y at 1.
    assert (1 <= count_occ Nat.eq_dec (w_wards rc) c) by (apply (count_occ_In Nat.eq_dec); auto). lia. }
  assert (HC : 1 <= cw w rc) by (unfold cw; apply (count_occ_In Nat.eq_dec); auto).
  destruct (get (s_wraps s2) w) as [r2|] eqn:G2.
  2:{ exfalso. assert (exists y, get (s_wraps s2) w = Some y) as (y & Gy); [|congruence].
      destruct s as [objs wraps reg todo calls]. cbn [step_event] in ST. unfold live_wrap in ST. cbn [s_wraps] in *.
      rewrite G, L in ST. cbn in ST. injection ST as <-.
      pose proof (ticks_lessT _ _ _ T) as (_ & _ & _ & L4 & _). unfold push, setw, set_todo, set_wraps in L4. cbn [s_wraps] in L4.
      destruct (L4 w r) as (y & Gy & _); [rewrite get_put_ne; auto|eauto]. }
  exists r2. split; auto. apply (quiet_dead cf strict s2 w r2 P2 Q2 G2). intros L2.
  pose proof (i_live _ _ _ _ _ _ _ P2 w r2 G2) as LV. rewrite L2 in LV.
  pose proof (i_refs _ _ _ _ _ _ _ P2 w) as RF. rewrite G2, Q2, CA in RF. cbn [lsum] in RF.
  pose proof (i_refs _ _ _ _ _ _ _ P w) as RF0. rewrite Gw, Q in RF0. cbn [lsum] in RF0.
  pose proof (hsum_get _ (cw w) (s_wraps s) c) as Y. rewrite G in Y. cbn [oval] in Y.
  destruct (WR w r2 G2) as (y & Gy & _ & _ & _ & EX & _). assert (y = r) by congruence. subst y. specialize (EX NE).
  assert (Z1 : hsum (cs w) (s_objs s2) = 0).
  { apply hsum_zero_intro. intros b ob Gb. destruct (OB b ob Gb) as (o & Go & (_ & X2 & _)).
    pose proof (hsum_zero _ (cs w) (s_objs s)) as Z. unfold cs in *. rewrite X2. apply (Z ltac:(lia) b o Go). }
  assert (Z2 : hsum (cw w) (s_wraps s2) = 0).
  { apply hsum_zero_intro. intros x y' Gx. destruct (WR x y' Gx) as (y & Gy' & _ & _ & WW & _).
    destruct (Nat.eq_dec x c) as [->|NX].
    - destruct D as (r3 & G3 & D). assert (r3 = y') by congruence. subst r3.
      destruct (i_dead _ _ _ _ _ _ _ P2 c y' Gx D) as [_ D2]. unfold cw. rewrite D2. reflexivity.
    - pose proof (hsum_two _ (cw w) _ _ _ _ _ NX Gy' G) as Q3.
      assert (cw w y = 0) by lia. unfold cw in *. destruct WW as [->| ->]; auto. }
  lia.
Qed.

(** ** C++'s share of an object only changes when C++ says so *)
Lemma exec_stmt_cpp st e s e' s' : exec_stmt st e s = Ok (e', s') ->
  e_val e' = e_val e /\
  forall a o, get (s_objs s) a = Some o -> exists o', get (s_objs s') a = Some o' /\ o_cpp o <= o_cpp o'.
Proof.
  assert (ID : forall a o, get (s_objs s) a = Some o -> exists o', get (s_objs s) a = Some o' /\ o_cpp o <= o_cpp o') by eauto.
  assert (PUT : forall b ob ob', get (s_objs s) b = Some ob -> o_cpp ob <= o_cpp ob' ->
     forall a o, get (s_objs s) a = Some o -> exists o', get (put (s_objs s) b (Some ob')) a = Some o' /\ o_cpp o <= o_cpp o').
  { intros b ob ob' Gb LE a o Ga. rewrite get_put. destruct (Nat.eqb_spec a b) as [->|]; eauto.
    exists ob'. split; auto. congruence. }
  assert (NEW : forall b ob', get (s_objs s) b = None ->
     forall a o, get (s_objs s) a = Some o -> exists o', get (put (s_objs s) b (Some ob')) a = Some o' /\ o_cpp o <= o_cpp o').
  { intros b ob' Gb a o Ga. rewrite get_put_ne; eauto. congruence. }
  assert (PW : forall A (k : wid * wrap -> res A) x, bind (py_wrap e s) k = Ok x -> exists w r, k (w, r) = Ok x).
  { intros A k x. destruct (py_wrap e s) as [[w r]|]; [eauto|discriminate]. }
  destruct st; cbn [exec_stmt]; intros E;
    try (injection E as <- <-; split; auto; fail);
    try (apply PW in E; destruct E as (w & r & E); injection E as <- <-; split; auto; fail).
  - destruct (source_ok src e s); [|discriminate]. cbn [bind] in E. unfold new_obj in E.
    destruct (get (s_objs s) (Ownership.e_new e)) eqn:G; [discriminate|]. cbn [bind] in E.
    destruct (py_wrap e _) as [[w r]|]; [|discriminate]. injection E as <- <-. cbn. split; auto.
  - destruct (source_ok FromSelf e s); [|discriminate]. cbn [bind] in E. unfold new_obj in E.
    destruct (get (s_objs s) (Ownership.e_new e)) eqn:G; [discriminate|]. injection E as <- <-. cbn. split; auto.
  - destruct (get (s_reg s) (e_val e)) as [w|]; [|injection E as <- <-; split; auto].
    destruct (live_wrap s w); [|discriminate]. injection E as <- <-. split; auto.
  - apply PW in E. destruct E as (w & r & E). destruct (w_obj r); [|discriminate]. injection E as <- <-. split; auto.
  - apply PW in E. destruct E as (w & r & E). destruct (w_obj r); injection E as <- <-; split; auto.
  - unfold live_obj in E. destruct (get (s_objs s) (e_val e)); [|discriminate]. injection E as <- <-. split; auto.
  - apply PW in E. destruct E as (w & r & E). destruct (w_obj r) as [a|]; [|discriminate].
    unfold live_obj in E. destruct (get (s_objs s) a) as [o|] eqn:G; [|discriminate]. cbn [bind] in E.
    injection E as <- <-. split; auto. destruct (o_self o); cbn; eapply PUT; eauto.
  - unfold ref, live_obj in E. destruct (get (s_objs s) (e_val e)) as [o|] eqn:G; [|discriminate]. cbn [bind] in E.
    injection E as <- <-. split; auto. cbn. eapply PUT; eauto.
  - unfold unref, live_obj in E. destruct (get (s_objs s) (e_val e)) as [o|] eqn:G; [|discriminate]. cbn [bind] in E.
    destruct (o_rc o) as [|[|n]]; [discriminate| |]; injection E as <- <-; (split; [auto|]); cbn; eapply PUT; eauto.
  - apply PW in E. destruct E as (w & r & E). destruct (w_obj r) as [a|]; [|discriminate].
    unfold ref, live_obj in E. destruct (get (s_objs s) a) as [o|] eqn:G; [|discriminate]. cbn [bind] in E.
    injection E as <- <-. split; auto. cbn. eapply PUT; eauto.
  - unfold live_obj in E. destruct (get (s_objs s) (e_val e)); [|discriminate]. injection E as <- <-. split; auto.
  - destruct (e_py e); try (injection E as <- <-; split; auto).
    destruct (live_wrap s w) as [r|]; [|discriminate]. cbn [bind] in E. destruct (w_obj r) as [a|]; [|injection E as <- <-; split; auto].
    unfold live_obj in E. destruct (get (s_objs s) a) as [o|] eqn:G; [|discriminate]. cbn [bind] in E.
    injection E as <- <-. split; auto. cbn. eapply PUT; eauto. cbn. lia.
Qed.

Lemma exec_cpp c : forall e s e' s', exec c e s = Ok (e', s') ->
  forall a o, get (s_objs s) a = Some o -> exists o', get (s_objs s') a = Some o' /\ o_cpp o <= o_cpp o'.
Proof.
  induction c as [|st k IH|b x IHx y IHy k IHk]; cbn [exec]; intros e s e' s' E a o G.
  - injection E as <- <-. eauto.
  - destruct (exec_stmt st e s) as [[e1 s1]|] eqn:E1; [|discriminate]. cbn [bind] in E.
    destruct (exec_stmt_cpp _ _ _ _ _ E1) as [_ A]. destruct (A a o G) as (o1 & G1 & L1).
    destruct (IH _ _ _ _ E a o1 G1) as (o2 & G2 & L2). exists o2; split; auto. lia.
  - destruct (eval_cond b e s) as [t|]; [|discriminate]. cbn [bind] in E.
    destruct (exec (if t then x else y) e s) as [[e1 s1]|] eqn:E1; [|discriminate]. cbn [bind] in E.
    assert (A : exists o1, get (s_objs s1) a = Some o1 /\ o_cpp o <= o_cpp o1) by (destruct t; eauto).
    destruct A as (o1 & G1 & L1).
    destruct (IHk _ _ _ _ E a o1 G1) as (o2 & G2 & L2). exists o2; split; auto. lia.
Qed.

Lemma event_cpp cf ev s s' : step_event cf ev s = Ok s' ->
  forall a o, get (s_objs s) a = Some o ->
  exists o', get (s_objs s') a = Some o' /\ (~ gives_up ev a -> o_cpp o <= o_cpp o').
Proof.
  assert (RC : forall c e s1 s1', run_code c e s1 = Ok s1' -> forall a o, get (s_objs s1) a = Some o ->
     exists o', get (s_objs s1') a = Some o' /\ o_cpp o <= o_cpp o').
  { intros c e s1 s1' E. unfold run_code in E. destruct c as [c|]; [|discriminate].
    destruct (exec c e s1) as [[e2 s2]|] eqn:E2; [|discriminate]. injection E as <-. intros; eapply exec_cpp; eauto. }
  assert (DR : forall b s1 s1', drop_cpp b s1 = Ok s1' -> forall a o, get (s_objs s1) a = Some o ->
     exists o', get (s_objs s1') a = Some o' /\ (a <> b -> o_cpp o <= o_cpp o')).
  { intros b s1 s1' E a o G. unfold drop_cpp, live_obj in E. destruct (get (s_objs s1) b) as [ob|] eqn:Gb; [|discriminate].
    injection E as <-. cbn. rewrite get_put. destruct (Nat.eqb_spec a b) as [->|]; eauto.
    eexists; split; [reflexivity|tauto]. }
  assert (RC' : forall c e s1 s1' (Q : Prop), run_code c e s1 = Ok s1' -> forall a o o0, get (s_objs s1) a = Some o0 ->
     (Q -> o_cpp o <= o_cpp o0) -> exists o', get (s_objs s1') a = Some o' /\ (Q -> o_cpp o <= o_cpp o')).
  { intros c e s1 s1' Q E a o o0 G L. destruct (RC _ _ _ _ E a o0 G) as (o' & G' & L'). exists o'. split; auto.
    intros q. specialize (L q). lia. }
  assert (RC2 : forall c e s1 s1' (Q : Prop), run_code c e s1 = Ok s1' -> forall a o, get (s_objs s1) a = Some o ->
     exists o', get (s_objs s1') a = Some o' /\ (Q -> o_cpp o <= o_cpp o')).
  { intros c e s1 s1' Q E a o G. eapply RC'; eauto. }
  intros E a o G.
  destruct ev as [b|b|b|sub|w b|w b|k v b|k v b|w t| |w b|w|w|c w|w|b|b|b]; cbn [step_event gives_up] in *.
  - unfold new_obj in E. destruct (get (s_objs s) b) eqn:Gb; [discriminate|]. injection E as <-. cbn.
    rewrite get_put_ne; eauto. congruence.
  - destruct (drop_cpp b s) as [s1|] eqn:E1; [|discriminate]. cbn [bind] in E.
    destruct (DR _ _ _ E1 a o G) as (o1 & G1 & L1). destruct (is_rc cf).
    + unfold unref, live_obj in E. destruct (get (s_objs s1) b) as [ob|] eqn:Gb; [|discriminate]. cbn [bind] in E.
      destruct (o_rc ob) as [|[|n]]; [discriminate| |]; injection E as <-; cbn; rewrite get_put;
        (destruct (Nat.eqb_spec a b) as [->|]; [eexists; split; [reflexivity|tauto]|exists o1; split; auto; intros; apply L1; congruence]).
    + injection E as <-. exists o1; split; auto.
  - unfold ref, live_obj in E. destruct (get (s_objs s) b) as [ob|] eqn:Gb; [|discriminate]. cbn in E.
    rewrite get_put_eq in E. cbn in E. injection E as <-. cbn. rewrite put_put, get_put.
    destruct (Nat.eqb_spec a b) as [->|]; eauto. eexists; split; [reflexivity|]. cbn. assert (ob = o) by congruence. subst. lia.
  - injection E as <-. eauto.
  - destruct (run_code _ _ s) as [s1|] eqn:E1; [|discriminate]. cbn [bind] in E.
    destruct (RC _ _ _ _ E1 a o G) as (o1 & G1 & L1). destruct (live_wrap s1 w); [|discriminate]. injection E as <-. cbn; eauto.
  - eauto.
  - destruct v as [v|]; [|destruct k; try discriminate; injection E as <-; eauto].
    destruct (gives k) eqn:GK.
    + destruct (drop_cpp v s) as [s1|] eqn:E1; [|discriminate]. cbn [bind] in E.
      destruct (DR _ _ _ E1 a o G) as (o1 & G1 & L1). eapply RC'; eauto.
      intros NG. apply L1. intros ->. apply NG. destruct k as [|p|p]; cbn [gives] in GK; [discriminate|auto|].
      split; auto. apply orb_true_iff in GK. exact GK.
    + cbn [bind] in E. destruct (RC _ _ _ _ E a o G) as (o1 & G1 & L1). eauto.
  - destruct k as [|[|]]; cbn [bind] in E; eauto.
    destruct (drop_cpp v s) as [s1|] eqn:E1; [|discriminate]. cbn [bind] in E.
    destruct (DR _ _ _ E1 a o G) as (o1 & G1 & L1). eapply RC'; eauto.
  - eauto.
  - eauto.
  - eauto.
  - destruct (live_wrap s w); [|discriminate]. injection E as <-. eauto.
  - destruct (live_wrap s w); [|discriminate]. injection E as <-. eauto.
  - unfold add_ward in E. destruct (live_wrap s c) as [rc|]; [|discriminate]. cbn [bind] in E.
    destruct (live_wrap s w) as [rw|]; [|discriminate]. cbn [bind] in E.
    destruct (negb (c_subclassing cf)); [injection E as <-; eauto|].
    destruct (contains cf (w_wards rc) w); [injection E as <-; eauto|].
    destruct (live_wrap _ w) as [rw'|]; [|discriminate]. injection E as <-. eauto.
  - destruct (live_wrap s w); [|discriminate]. injection E as <-. eauto.
  - unfold live_obj in E. destruct (get (s_objs s) b) as [ob|]; [|discriminate]. cbn [bind] in E.
    destruct (o_self ob) as [w|]; [|discriminate]. destruct (live_wrap s w); [|discriminate]. injection E as <-. eauto.
  - destruct (run_code _ _ s) as [s1|] eqn:E1; [|discriminate]. cbn [bind] in E.
    destruct (RC _ _ _ _ E1 a o G) as (o1 & G1 & L1). destruct (live_wrap s1 _); [|discriminate]. injection E as <-. cbn; eauto.
  - destruct (s_calls s) as [|[w sv c|w c] rest]; [discriminate| |].
    + unfold live_obj in E. destruct (get (s_objs s) c) as [ob|]; [|discriminate]. cbn [bind] in E.
      destruct (o_self ob) as [w'|]; [|discriminate]. destruct (live_wrap s w'); [|discriminate]. injection E as <-. eauto.
    + destruct (live_wrap s w); [|discriminate]. cbn [bind] in E. eapply RC in E; eauto. destruct E as (o1 & G1 & L1). eauto.
Qed.
