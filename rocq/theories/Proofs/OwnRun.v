(** * What pending work can and cannot change; it always ends *)
From Coq Require Import List Arith Bool Lia.
From Verif.Model Require Import Ownership.
From Verif.Spec Require Import OwnSpec.
From Verif.Proofs Require Import OwnHeap OwnInv OwnTick OwnEvents OwnStep OwnTop.
Import ListNotations.

(** ** Termination *)
Definition wi (i : dinstr) : nat := match i with IDelete _ => 2 | _ => 1 end.
Definition wt (t : task) : nat := match t with KCode _ c => 1 + lsum wi c | _ => 1 end.
Definition wo (o : cobj) : nat := match o_self o with Some _ => 1 | None => 0 end.
Definition ww (r : wrap) : nat := length (w_wards r) + match w_st r with Live => 6 | _ => 0 end.
Definition weight (s : state) : nat := hsum ww (s_wraps s) + hsum wo (s_objs s) + lsum wt (s_todo s).

Lemma weight_dealloc cf : lsum wi (gen_dealloc cf) <= 5.
Proof. unfold gen_dealloc, gen_clear. destruct (c_registry cf), (c_subclassing cf); cbn; lia. Qed.

Lemma wt_decrefs l : lsum wt (map KDecref l) = length l.
Proof. induction l; cbn; auto. Qed.

Lemma unref_weight a s s' : unref a s = Ok s' ->
  weight s' <= weight s + 1 /\ s_calls s' = s_calls s.
Proof.
  unfold unref, live_obj. destruct (get (s_objs s) a) as [o|] eqn:G; [|discriminate]. cbn [bind].
  assert (H0 : forall n, hsum wo (put (s_objs s) a (Some (o_set_rc o n))) = hsum wo (s_objs s)).
  { intros n. apply (hsum_same _ wo _ a o); auto. }
  destruct (o_rc o) as [|[|n]]; [discriminate| |]; intros E; injection E as <-; unfold weight; cbn; rewrite H0; split; auto; lia.
Qed.

Lemma tick_weight cf s s' : tick cf s = Ok s' -> weight s' < weight s.
Proof.
  destruct s as [objs wraps reg todo calls]. unfold tick. cbn [s_todo].
  destruct todo as [|[w|w [|i c]|a] rest]; [discriminate| | | |].
  - unfold live_wrap, set_todo. cbn [s_wraps]. destruct (get wraps w) as [r|] eqn:G; [|discriminate].
    destruct (w_st r) eqn:L; try discriminate. cbn [bind].
    destruct (w_refs r) as [|[|n]]; [discriminate| |]; intros E; injection E as <-; unfold weight; cbn -[gen_dealloc].
    + pose proof (hsum_put _ ww wraps w (Some (Wrap Dying 0 (w_obj r) (w_owned r) (w_wards r) (w_ext r) (w_sub r) (w_virgin r) (w_tmp r)))) as Q.
      rewrite G in Q. cbn [oval] in Q. unfold ww in Q at 2 4. cbn [w_wards w_st] in Q. rewrite L in Q.
      pose proof (weight_dealloc cf). lia.
    + rewrite (hsum_same _ ww wraps w r) by auto. cbn. lia.
  - intros E; injection E as <-. unfold weight. cbn. lia.
  - unfold exec_dinstr, running, set_todo. cbn [s_wraps]. destruct (get wraps w) as [r|] eqn:G; [|discriminate].
    assert (D : forall A (f : fault) (k : wrap -> res A) x,
       bind (match w_st r with Dead => Fault f | _ => Ok r end) k = Ok x -> k r = Ok x).
    { intros. destruct (w_st r); auto; discriminate. }
    intros E. apply D in E. clear D. destruct i as [| |d|].
    + destruct (w_obj r); injection E as <-; unfold weight; cbn; lia.
    + injection E as <-. unfold weight. cbn. rewrite lsum_app, wt_decrefs. cbn.
      pose proof (hsum_put _ ww wraps w (Some (w_set_wards r []))) as Q. rewrite G in Q. cbn [oval] in Q.
      unfold ww in Q at 2 4. cbn [w_wards w_st w_set_wards length] in Q. lia.
    + unfold run_delete in E. destruct (w_obj r) as [a|]; [|injection E as <-; unfold weight; cbn; lia].
      set (s1 := if d_take d then _ else _) in E.
      assert (W1 : weight s1 + 2 = weight (State objs wraps reg (KCode w (IDelete d :: c) :: rest) calls)).
      { unfold s1. destruct (d_take d); unfold weight; cbn; [|lia].
        rewrite (hsum_same _ ww wraps w r) by auto. lia. }
      clearbody s1.
      destruct (d_if_owned d && negb (w_owned r)); [injection E as <-; lia|].
      destruct (d_op d).
      * injection E as <-. unfold weight in *. cbn in *. lia.
      * apply unref_weight in E. lia.
      * injection E as <-. unfold weight in *. cbn in *. lia.
      * injection E as <-. lia.
    + injection E as <-. unfold weight. cbn.
      pose proof (hsum_put _ ww wraps w (Some (Wrap Dead (w_refs r) None (w_owned r) [] (w_ext r) (w_sub r) (w_virgin r) false))) as Q.
      rewrite G in Q. cbn [oval] in Q. unfold ww in Q at 2 4. cbn [w_wards w_st length] in Q. lia.
  - unfold live_obj, set_todo. cbn [s_objs]. destruct (get objs a) as [o|] eqn:G; [|discriminate]. cbn [bind].
    pose proof (hsum_put _ wo objs a None) as Q. rewrite G in Q. cbn [oval] in Q. unfold wo in Q at 2.
    intros E; injection E as <-. unfold weight. destruct (o_self o); cbn; lia.
Qed.

Lemma ticks_trans cf s1 s2 s3 : ticks cf s1 s2 -> ticks cf s2 s3 -> ticks cf s1 s3.
Proof. induction 1; auto. intros. econstructor; eauto. Qed.

Lemma inv_finish cf strict s : (strict = true -> deletes cf) -> Inv cf strict s ->
  exists s', ticks cf s s' /\ quiet s' /\ Inv cf strict s'.
Proof.
  intros SD. remember (weight s) as n eqn:N. revert s N. induction n as [n IH] using lt_wf_ind. intros s -> P.
  destruct (s_todo s) as [|t l] eqn:T; [exists s; split; [constructor|]; auto|].
  destruct (tick_inv cf strict s SD P) as (s1 & E & P1); [congruence|].
  destruct (IH (weight s1) (tick_weight _ _ _ E) s1 eq_refl P1) as (s2 & A & B & C1).
  exists s2. split; [econstructor; eauto|]. auto.
Qed.

Lemma ticks_det cf s s1 : ticks cf s s1 -> quiet s1 -> forall s2, ticks cf s s2 -> quiet s2 -> s1 = s2.
Proof.
  assert (Q0 : forall s s', quiet s -> tick cf s = Ok s' -> False).
  { unfold quiet, tick. intros s0 s' -> E. discriminate. }
  induction 1 as [s|s s' s'' E T IH]; intros Q s2 T2 Q2.
  - destruct T2 as [|s s' s'' E T]; auto. destruct (Q0 _ _ Q E).
  - inversion T2 as [s0|s0 s3 s4 E3 T3]; subst.
    + destruct (Q0 _ _ Q2 E).
    + assert (s3 = s') by congruence. subst. auto.
Qed.

(** ** What a tick can change *)
Definition wrap_less (r r' : wrap) : Prop :=
  w_ext r' = w_ext r /\ w_owned r' = w_owned r /\ w_sub r' = w_sub r /\ w_virgin r' = w_virgin r
  /\ (w_obj r' = w_obj r /\ w_tmp r' = w_tmp r \/ w_obj r' = None)
  /\ (w_wards r' = w_wards r \/ w_wards r' = [])
  /\ (w_st r <> Live -> w_st r' <> Live).
Definition obj_less (o o' : cobj) : Prop :=
  o_cpp o' = o_cpp o /\ o_self o' = o_self o /\ o_helper o' = o_helper o /\ o_rc o' <= o_rc o.

Definition less (s s' : state) : Prop :=
  s_calls s' = s_calls s
  /\ (forall a, match get (s_objs s) a, get (s_objs s') a with
                | None, None => True
                | Some _, None => s_todo s <> [] /\ hd_error (s_todo s) = Some (KDelete a)
                | Some o, Some o' => obj_less o o'
                | None, Some _ => False end)
  /\ (forall w, match get (s_wraps s) w, get (s_wraps s') w with
                | None, None => True
                | Some r, Some r' => wrap_less r r'
                | _, _ => False end)
  /\ (forall a, get (s_reg s') a = get (s_reg s) a \/
        get (s_reg s') a = None /\ exists w r c rest, s_todo s = KCode w (IUnregister :: c) :: rest
          /\ get (s_wraps s) w = Some r /\ w_obj r = Some a).

Lemma wrap_less_refl r : wrap_less r r.
Proof. unfold wrap_less. auto 10. Qed.
Lemma obj_less_refl o : obj_less o o.
Proof. unfold obj_less. auto 10. Qed.

Ltac heaps :=
  let x := fresh "x" in intros x; rewrite ?get_put;
  try (destruct (Nat.eqb_spec x _) as [->|]);
  repeat match goal with G : get _ _ = Some _ |- _ => rewrite G end;
  try match goal with |- context [get ?l ?y] => destruct (get l y) end;
  auto using wrap_less_refl, obj_less_refl.

Lemma tick_less cf s s' : tick cf s = Ok s' -> less s s'.
Proof.
  destruct s as [objs wraps reg todo calls]. unfold tick. cbn [s_todo].
  assert (OO : forall a, match get objs a, get objs a with
                | None, None => True | Some _, None => False | Some o, Some o' => obj_less o o' | None, Some _ => False end).
  { intros a. destruct (get objs a); auto using obj_less_refl. }
  assert (OO' : forall a (Q : Prop), match get objs a, get objs a with
                | None, None => True | Some _, None => Q | Some o, Some o' => obj_less o o' | None, Some _ => False end).
  { intros a Q. destruct (get objs a); auto using obj_less_refl. }
  assert (WW : forall w, match get wraps w, get wraps w with
                | None, None => True | Some r, Some r' => wrap_less r r' | _, _ => False end).
  { intros w. destruct (get wraps w); auto using wrap_less_refl. }
  assert (WP : forall w r r', get wraps w = Some r -> wrap_less r r' -> forall x,
              match get wraps x, get (put wraps w (Some r')) x with
                | None, None => True | Some r, Some r' => wrap_less r r' | _, _ => False end).
  { intros w r r' G L x. rewrite get_put. destruct (Nat.eqb_spec x w) as [->|]; [rewrite G; auto|apply WW]. }
  destruct todo as [|[w|w [|i c]|a] rest]; [discriminate| | | |].
  - unfold live_wrap, set_todo. cbn [s_wraps]. destruct (get wraps w) as [r|] eqn:G; [|discriminate].
    destruct (w_st r) eqn:L; try discriminate. cbn [bind].
    destruct (w_refs r) as [|[|n]]; [discriminate| |]; intros E; injection E as <-;
      (split; [reflexivity|]; split; [intros; apply OO'|]; split; [|auto]);
      apply (WP w r); auto; unfold wrap_less; cbn; rewrite ?L; intuition congruence.
  - intros E; injection E as <-. split; [reflexivity|]; split; [intros; apply OO'|]; split; [apply WW|auto].
  - unfold exec_dinstr, running, set_todo. cbn [s_wraps]. destruct (get wraps w) as [r|] eqn:G; [|discriminate].
    assert (D : forall A (f : fault) (k : wrap -> res A) x,
       bind (match w_st r with Dead => Fault f | _ => Ok r end) k = Ok x -> k r = Ok x).
    { intros. destruct (w_st r); auto; discriminate. }
    intros E. apply D in E. clear D. destruct i as [| |d|].
    + destruct (w_obj r) as [a|] eqn:O1; injection E as <-;
        (split; [reflexivity|]; split; [intros; apply OO'|]; split; [apply WW|]); cbn; auto.
      intros b. rewrite get_put. destruct (Nat.eqb_spec b a) as [->|]; auto.
      right. split; auto. exists w, r, c, rest. auto.
    + injection E as <-. split; [reflexivity|]; split; [intros; apply OO'|]; split; [|cbn; auto].
      apply (WP w r); auto. unfold wrap_less. cbn. auto 10.
    + unfold run_delete in E. destruct (w_obj r) as [a|] eqn:O1;
        [|injection E as <-; split; [reflexivity|]; split; [intros; apply OO'|]; split; [apply WW|auto]].
      assert (F1 : forall x, match get wraps x, get (s_wraps (if d_take d then setw (State objs wraps reg (KCode w c :: rest) calls) w (w_set_obj r None) else State objs wraps reg (KCode w c :: rest) calls)) x with
                | None, None => True | Some r, Some r' => wrap_less r r' | _, _ => False end).
      { destruct (d_take d); cbn; [|apply WW]. apply (WP w r); auto. unfold wrap_less; cbn; auto 10. }
      set (s1 := if d_take d then _ else _) in *.
      assert (F2 : s_objs s1 = objs /\ s_reg s1 = reg /\ s_calls s1 = calls) by (unfold s1; destruct (d_take d); auto).
      clearbody s1. destruct F2 as (F2 & F3 & F4).
      destruct (d_if_owned d && negb (w_owned r)).
      { injection E as <-. unfold less. rewrite F2, F3, F4. repeat split; auto; intros; apply OO'. }
      destruct (d_op d).
      * injection E as <-. unfold less, push, set_todo. cbn. rewrite F2, F3, F4. repeat split; auto; intros; apply OO'.
      * unfold unref, live_obj in E. rewrite F2 in E. destruct (get objs a) as [o|] eqn:Go; [|discriminate]. cbn [bind] in E.
        assert (OP : forall n, n <= o_rc o -> forall x (Q : Prop), match get objs x, get (put objs a (Some (o_set_rc o n))) x with
                | None, None => True | Some _, None => Q | Some o, Some o' => obj_less o o' | None, Some _ => False end).
        { intros n LE x Q. rewrite get_put. destruct (Nat.eqb_spec x a) as [->|]; [rewrite Go|apply OO'].
          unfold obj_less; cbn; auto. }
        destruct (o_rc o) as [|[|n]] eqn:R; [discriminate| |]; injection E as <-; unfold less, push, seto, set_objs, set_todo; cbn;
          rewrite F3, F4, F2; repeat split; auto; intros; apply OP; lia.
      * injection E as <-. unfold less, push, set_todo. cbn. rewrite F2, F3, F4. repeat split; auto; intros; apply OO'.
      * injection E as <-. unfold less. rewrite F2, F3, F4. repeat split; auto; intros; apply OO'.
    + injection E as <-. split; [reflexivity|]; split; [intros; apply OO'|]; split; [|cbn; auto].
      apply (WP w r); auto. unfold wrap_less; cbn. repeat split; auto. discriminate.
  - unfold live_obj, set_todo. cbn [s_objs]. destruct (get objs a) as [o|] eqn:G; [|discriminate]. cbn [bind].
    intros E; injection E as <-.
    assert (F : forall t, less (State objs wraps reg (KDelete a :: rest) calls) (State (put objs a None) wraps reg t calls)).
    { intros t. split; [reflexivity|]. split; [|split; [apply WW|auto]]. cbn. intros x. rewrite get_put.
      destruct (Nat.eqb_spec x a) as [->|]; [rewrite G; split; [discriminate|reflexivity]|apply OO']. }
    destruct (o_self o); apply F.
Qed.
