(** * Registry entries and wards along histories (C23, C24) *)
From Coq Require Import List Arith Bool Lia ZArith.
From Verif.Model Require Import Ownership Custodians.
From Verif.Spec Require Import OwnSpec CustodianSpec.
From Verif.Proofs Require Import OwnHeap OwnInv OwnTick OwnEvents OwnStep OwnTop OwnRun OwnFacts OwnHist OwnProps.
Import ListNotations.

(** ** C23 *)
Lemma reg_alive cf strict s a w : (strict = true -> deletes cf) -> reach cf strict s -> may_run s ->
  registered s a w -> c_registry cf = true /\ exists r, wrapper s w r /\ w_st r = Live /\ w_obj r = Some a /\ w_tmp r = false.
Proof.
  intros SD R M G. pose proof (reach_inv _ _ _ SD R) as P.
  destruct (calm_reg _ _ _ _ (may_run_calm _ _ _ P M) (i_reg _ _ _ _ _ _ _ P) a w G) as (A & r & B & C1 & T & D).
  split; auto. exists r. repeat split; auto.
Qed.

Lemma reg_not_freed cf strict s a w : (strict = true -> deletes cf) -> reach cf strict s ->
  registered s a w -> c_registry cf = true /\ exists r, wrapper s w r /\ w_st r <> Dead /\ w_obj r = Some a.
Proof.
  intros SD R G. pose proof (reach_inv _ _ _ SD R) as P.
  destruct (i_reg _ _ _ _ _ _ _ P a w G) as (A & r & B & C1 & T & D). split; auto. exists r. repeat split; auto.
  intros E. destruct (i_dead _ _ _ _ _ _ _ P w r B E). congruence.
Qed.

Lemma history_tick_reg cf s s' a : tick cf s = Ok s' ->
  get (s_reg s') a = get (s_reg s) a \/
  get (s_reg s') a = None /\ exists w r c rest, s_todo s = KCode w (IUnregister :: c) :: rest /\ wrapper s w r /\ w_obj r = Some a.
Proof. intros E. destruct (tick_less _ _ _ E) as (_ & _ & _ & D). apply D. Qed.

Lemma suffix_unreg_clear cf c : ~ suffix (IUnregister :: c) (gen_clear cf).
Proof.
  intros (p & E). unfold gen_clear in E. destruct p as [|x [|y [|z p]]]; cbn in E; try discriminate.
Qed.
Lemma suffix_unreg_dealloc cf c : suffix (IUnregister :: c) (gen_dealloc cf) -> existsb is_ifree c = true.
Proof.
  intros (p & E). unfold gen_dealloc in E.
  assert (L : last (p ++ IUnregister :: c) IUnregister = IFree) by (rewrite <- E, app_assoc; apply last_last).
  assert (X : forall l : list dinstr, last (p ++ IUnregister :: l) IUnregister = last l IUnregister).
  { intros l. clear. induction p as [|q p IH]; cbn [app].
    - destruct l; reflexivity.
    - rewrite <- IH. destruct (p ++ IUnregister :: l) eqn:Z; [destruct p; discriminate|reflexivity]. }
  rewrite X in L. apply existsb_exists. exists IFree. split; [|reflexivity]. rewrite <- L. clear -L.
  induction c as [|q c IH]; [discriminate|]. destruct c as [|q2 c]; [left; reflexivity|]. right. apply IH. exact L.
Qed.

Lemma running_unregister cf strict s w c rest : (strict = true -> deletes cf) -> reach cf strict s ->
  s_todo s = KCode w (IUnregister :: c) :: rest -> ~ alive s w.
Proof.
  intros SD R T (r & G & L). pose proof (reach_inv _ _ _ SD R) as P.
  pose proof (i_code _ _ _ _ _ _ _ P) as K. rewrite T in K. cbn [code_ok] in K.
  destruct K as [[K|[K _]] _]; [|destruct (suffix_unreg_clear _ _ K)].
  pose proof (i_dying _ _ _ _ _ _ _ P w) as D. red in G. rewrite G, L, T in D. cbn [lsum] in D.
  unfold cz in D at 1. rewrite Nat.eqb_refl in D. cbn [andb existsb is_ifree orb] in D.
  rewrite (suffix_unreg_dealloc _ _ K) in D. cbn in D. lia.
Qed.

(** An entry stays while its wrapper lives, is the only one pointing at the
    object, and is not transferred to C++. *)
Lemma reg_persists cf strict s ls s' a w : (strict = true -> deletes cf) -> reach cf strict s ->
  registered s a w ->
  along cf strict (fun t => alive t w /\ forall w' r', wrapper t w' r' -> w_obj r' = Some a -> w' = w) s ls s' ->
  (is_rc cf = false -> ~ In (LEvent (EvPass w true)) ls) ->
  registered s' a w.
Proof.
  intros SD R G H NP. revert R G NP.
  induction H as [s PS|s ev s1 ls s2 PS M A E H IH|s s1 ls s2 PS E H IH]; intros R G NP; auto.
  - assert (R1 : reach cf strict s1) by (eapply reach_event; eauto). apply IH; auto; [|intros I; specialize (NP I); cbn in NP; tauto].
    assert (P1 : forall w' r', wrapper s1 w' r' -> w_obj r' = Some a -> w' = w) by (inversion H; subst; tauto).
    red in G |- *. destruct (event_reg _ _ _ _ E a) as [X|[(w1 & X & _)|(X & w1 & r1 & -> & I & G1 & O1)]]; [congruence| |].
    + destruct (reg_not_freed _ _ _ _ _ SD R1 X) as (_ & r1 & G1 & _ & O1). rewrite <- (P1 _ _ G1 O1). exact X.
    + exfalso. destruct PS as [_ PS]. rewrite (PS _ _ G1 O1) in NP. apply (NP I). left; reflexivity.
  - apply IH; [eapply reach_tick; eauto| |intros I; specialize (NP I); cbn in NP; tauto].
    red in G |- *. destruct (history_tick_reg cf s s1 a E) as [X|(X & w1 & r1 & c & rest & T & G1 & O1)]; [congruence|].
    exfalso. destruct PS as [AL PS]. rewrite (PS _ _ G1 O1) in T. eapply running_unregister; eauto.
Qed.

(** Returning a registered object. *)
Lemma return_registered cf strict s p v w b o s' : (strict = true -> deletes cf) -> reach cf strict s -> may_run s ->
  registered s v w -> object s v o -> o_helper o = false -> r_free p = false ->
  step_event cf (EvReturn (RPtr p) (Some v) b) s = Ok s' ->
  exists r, wrapper s w r /\ wrapper s' w (w_set_ext (w_set_refs r (S (w_refs r))) (S (w_ext r)))
    /\ (forall x, x <> w -> get (s_wraps s') x = get (s_wraps s) x) /\ s_reg s' = s_reg s.
Proof.
  intros SD R M G Go NH NF E. destruct (reg_alive _ _ _ _ _ SD R M G) as (CR & r & Gr & Lr & Or & Tr).
  exists r. split; auto.
  red in G, Go, Gr. cbn [step_event] in E.
  assert (X : exists s1 o1, run_code (gen_return cf (RPtr p)) (Env VNull v None b) s1 = Ok s' /\ s_wraps s1 = s_wraps s
    /\ s_reg s1 = s_reg s /\ get (s_objs s1) v = Some o1 /\ o_helper o1 = false).
  { destruct (gives (RPtr p)); cbn [bind] in E; [|exists s, o; auto].
    unfold drop_cpp, live_obj in E. rewrite Go in E. cbn [bind] in E.
    eexists _, _. split; [exact E|]. cbn. rewrite get_put_eq. auto. }
  clear E. destruct X as (s1 & o1 & E & W1 & R1 & G1 & H1).
  unfold gen_return, gen_shared_object_return, gen_lookup_or_create in E. rewrite CR in E.
  destruct (gen_create_new_wrapper cf p) as [create|]; [|discriminate]. rewrite NF in E.
  set (cr := create ++ gen_register cf) in E. clearbody cr.
  destruct s1 as [objs wraps reg todo calls]. cbn in W1, R1, G1. subst wraps reg. unfold run_code in E.
  assert (FIN : forall objs1 todo1,
    exists s2, exec (Do SGive Done) (Env (VObj w) v None b) (State objs1 (put (s_wraps s) w (Some (w_set_refs r (S (w_refs r))))) (s_reg s) todo1 calls) = Ok (Env (VObj w) v None b, s2)
     /\ s2 = State objs1 (put (s_wraps s) w (Some (w_set_ext (w_set_refs r (S (w_refs r))) (S (w_ext r))))) (s_reg s) todo1 calls).
  { intros. cbn [exec exec_stmt]. unfold py_wrap, live_wrap. cbn [e_py s_wraps]. rewrite get_put_eq. cbn [w_set_refs w_st]. rewrite Lr.
    cbn [bind]. eexists; split; [reflexivity|]. unfold setw, set_wraps. cbn [s_objs s_wraps s_reg s_todo s_calls]. rewrite put_put. reflexivity. }
  assert (LK : exec_stmt SLookup (Env VNull v None b) (State objs (s_wraps s) (s_reg s) todo calls)
     = Ok (Env (VObj w) v None b, State objs (put (s_wraps s) w (Some (w_set_refs r (S (w_refs r))))) (s_reg s) todo calls)).
  { cbn [exec_stmt e_val s_reg]. rewrite G. unfold live_wrap. cbn [s_wraps]. rewrite Gr, Lr. reflexivity. }
  assert (GOAL : forall objs1 todo1, s' = State objs1 (put (s_wraps s) w (Some (w_set_ext (w_set_refs r (S (w_refs r))) (S (w_ext r))))) (s_reg s) todo1 calls ->
     wrapper s' w (w_set_ext (w_set_refs r (S (w_refs r))) (S (w_ext r)))
    /\ (forall x, x <> w -> get (s_wraps s') x = get (s_wraps s) x) /\ s_reg s' = s_reg s).
  { intros objs1 todo1 ->. unfold wrapper. cbn. split; [apply get_put_eq|]. split; auto. intros; apply get_put_ne; auto. }
  destruct (c_helper cf).
  - cbn [seq exec eval_cond e_val] in E. unfold live_obj in E. cbn [s_objs] in E. rewrite G1 in E. cbn [bind] in E. rewrite H1 in E.
    cbn [exec] in E. rewrite LK in E. cbn [bind exec eval_cond e_py] in E.
    destruct (r_owns p && is_rc cf).
    + cbn [exec exec_stmt e_val] in E. unfold unref, live_obj in E. cbn [s_objs] in E. rewrite G1 in E. cbn [bind] in E.
      destruct (o_rc o1) as [|[|n]]; [discriminate| |]; cbn [bind] in E;
       unfold push, seto, set_objs, set_todo in E; cbn [s_objs s_wraps s_reg s_todo s_calls] in E;
       match type of E with context [State ?ob _ _ ?td _] => destruct (FIN ob td) as (s2 & F1 & F2) end;
       cbn [exec exec_stmt] in F1; rewrite F1 in E; cbn [bind] in E; injection E as <-; eapply GOAL; exact F2.
    + destruct (FIN objs todo) as (s2 & F1 & F2). cbn [exec bind] in E. cbn [exec] in F1. rewrite F1 in E. cbn [bind] in E.
      injection E as <-. eapply GOAL; exact F2.
  - cbn [seq exec] in E. rewrite LK in E. cbn [bind exec eval_cond e_py] in E.
    destruct (r_owns p && is_rc cf).
    + cbn [exec exec_stmt e_val] in E. unfold unref, live_obj in E. cbn [s_objs] in E. rewrite G1 in E. cbn [bind] in E.
      destruct (o_rc o1) as [|[|n]]; [discriminate| |]; cbn [bind] in E;
       unfold push, seto, set_objs, set_todo in E; cbn [s_objs s_wraps s_reg s_todo s_calls] in E;
       match type of E with context [State ?ob _ _ ?td _] => destruct (FIN ob td) as (s2 & F1 & F2) end;
       cbn [exec exec_stmt] in F1; rewrite F1 in E; cbn [bind] in E; injection E as <-; eapply GOAL; exact F2.
    + destruct (FIN objs todo) as (s2 & F1 & F2). cbn [exec bind] in E. cbn [exec] in F1. rewrite F1 in E. cbn [bind] in E.
      injection E as <-. eapply GOAL; exact F2.
Qed.

(** ** C24 *)
Lemma ward_alive cf strict s c rc w : (strict = true -> deletes cf) -> reach cf strict s ->
  wrapper s c rc -> In w (w_wards rc) -> alive s w.
Proof.
  intros SD R G I1. pose proof (reach_inv _ _ _ SD R) as P.
  destruct (wrap_exists _ _ _ _ _ _ _ P w) as (r & Gr & Lr & _); [|exists r; auto].
  pose proof (hsum_get _ (cw w) (s_wraps s) c) as H. red in G. rewrite G in H. cbn [oval] in H. unfold cw in H at 1.
  assert (1 <= count_occ Nat.eq_dec (w_wards rc) w) by (apply (count_occ_In Nat.eq_dec); auto). lia.
Qed.

Lemma dead_wards cf strict s c rc : (strict = true -> deletes cf) -> reach cf strict s ->
  wrapper s c rc -> w_st rc = Dead -> w_wards rc = [] /\ w_obj rc = None.
Proof. intros SD R G D. destruct (i_dead _ _ _ _ _ _ _ (reach_inv _ _ _ SD R) c rc G D). auto. Qed.

Lemma add_ward_shape cf c w s s' : add_ward cf c w s = Ok s' ->
  s' = s \/ exists rc, get (s_wraps s) c = Some rc /\ w_st rc = Live /\ contains cf (w_wards rc) w = false /\ c_subclassing cf = true /\
    exists r, get (put (s_wraps s) c (Some (w_set_wards rc (w_wards rc ++ [w])))) w = Some r /\ w_st r = Live /\
    s' = set_wraps s (put (put (s_wraps s) c (Some (w_set_wards rc (w_wards rc ++ [w])))) w (Some (w_set_refs r (S (w_refs r))))).
Proof.
  unfold add_ward. destruct (live_wrap s c) as [rc|] eqn:L; [|discriminate]. cbn [bind].
  destruct (live_wrap s w) as [rw|] eqn:L1; [|discriminate]. cbn [bind].
  destruct (c_subclassing cf); cbn [negb]; [|intros E; injection E as <-; auto].
  destruct (contains cf (w_wards rc) w) eqn:CT; [intros E; injection E as <-; auto|].
  destruct (live_wrap (setw s c (w_set_wards rc (w_wards rc ++ [w]))) w) as [r|] eqn:L2; [|discriminate]. cbn [bind]. intros E; injection E as <-.
  apply live_get in L, L2. right. exists rc. repeat (split; [tauto|]). exists r. cbn in L2. tauto.
Qed.

Definition wards_grow (s s' : state) (c : wid) : Prop :=
  forall rc, wrapper s c rc -> exists rc', wrapper s' c rc' /\ (w_st rc' = Live -> exists l, w_wards rc' = w_wards rc ++ l).

Lemma contains_in cf l w : In w l -> contains cf l w = true.
Proof. intros I1. apply existsb_exists. exists w. rewrite Nat.eqb_refl. auto. Qed.
Lemma contains_spec cf l w : contains cf l w = true -> In w l \/ exists x, In x l /\ c_same cf x w = true.
Proof.
  intros H. apply existsb_exists in H. destruct H as (x & I1 & E). apply orb_true_iff in E.
  destruct E as [E|E]; eauto. apply Nat.eqb_eq in E. subst; auto.
Qed.

(** Wards of every wrapper after a custodian call. *)
Lemma add_ward_wards cf c w s s' x r' : add_ward cf c w s = Ok s' -> get (s_wraps s') x = Some r' ->
  exists r, get (s_wraps s) x = Some r /\ w_st r' = w_st r
  /\ (w_wards r' = w_wards r \/ x = c /\ w_wards r' = w_wards r ++ [w] /\ contains cf (w_wards r) w = false).
Proof.
  intros E G. destruct (add_ward_shape _ _ _ _ _ E) as [->|(rc & Gc & Lc & CT & _ & r & Gr & Lr & ->)]; [eauto|].
  cbn in G. rewrite get_put in G. rewrite get_put in Gr.
  destruct (Nat.eqb_spec x w) as [->|N].
  - injection G as <-. destruct (Nat.eqb_spec w c) as [->|N2].
    + injection Gr as <-. exists rc. split; [auto|]. split; [reflexivity|]. right. auto.
    + exists r. split; [auto|]. split; [reflexivity|]. left. reflexivity.
  - rewrite get_put in G. destruct (Nat.eqb_spec x c) as [->|N2]; [|eauto].
    injection G as <-. exists rc. split; [auto|]. split; [reflexivity|]. right. auto.
Qed.
Lemma add_ward_keeps cf c w s s' x r : add_ward cf c w s = Ok s' -> get (s_wraps s) x = Some r ->
  exists r', get (s_wraps s') x = Some r' /\ w_st r' = w_st r /\ w_ext r' = w_ext r
  /\ (w_wards r' = w_wards r \/ x = c /\ w_wards r' = w_wards r ++ [w]).
Proof.
  intros E G. destruct (add_ward_shape _ _ _ _ _ E) as [->|(rc & Gc & Lc & CT & _ & rw & Gr & Lr & ->)]; [eauto 7|].
  cbn. rewrite get_put. rewrite get_put in Gr. destruct (Nat.eqb_spec x w) as [->|N].
  - eexists. split; [reflexivity|]. destruct (Nat.eqb_spec w c) as [->|N2].
    + injection Gr as <-. assert (r = rc) by congruence. subst. cbn. auto.
    + assert (r = rw) by congruence. subst. cbn. auto.
  - rewrite get_put. destruct (Nat.eqb_spec x c) as [->|N2]; [|eauto 7].
    assert (r = rc) by congruence. subst. eexists. split; [reflexivity|]. cbn. auto.
Qed.

Lemma wards_nodup cf strict s : (strict = true -> deletes cf) -> reach cf strict s ->
  forall w r, wrapper s w r -> NoDup (w_wards r).
Proof.
  intros SD R. induction R as [|s ev s' R IH M A E|s s' R IH E]; intros x r' G.
  - red in G. cbn in G. rewrite get_nil in G. discriminate.
  - destruct ev as [b|b|b|sub|w b|w b|k v b|k v b|w t| |w b|w|w|c w|w|b|b|b];
      try (match type of E with step_event _ ?ev _ = _ =>
        assert (K : keepw (s_wraps s) (s_wraps s')) by (apply (event_wraps cf ev); [exact E|discriminate]) end;
        specialize (K x); red in G; rewrite G in K; destruct (get (s_wraps s) x) as [r|] eqn:Gs;
        [destruct K as (K & _); rewrite K; eapply IH; exact Gs|rewrite K; constructor]).
    cbn [step_event] in E. destruct (add_ward_wards _ _ _ _ _ _ _ E G) as (r & Gr & _ & [->|(-> & -> & CT)]); [eapply IH; exact Gr|].
    assert (ND : NoDup (w_wards r)) by (eapply IH; exact Gr).
    assert (NI : ~ In w (w_wards r)) by (intros I1; rewrite (contains_in cf _ _ I1) in CT; discriminate).
    revert ND NI. clear. induction (w_wards r) as [|y l IHl]; cbn; intros ND NI; [constructor; [cbn; tauto|constructor]|].
    apply NoDup_cons_iff in ND. constructor; [|apply IHl; tauto].
    intros I1. apply in_app_or in I1. cbn in I1. destruct I1 as [I1|[->|[]]]; tauto.
  - destruct (tick_less _ _ _ E) as (_ & _ & K & _). specialize (K x). red in G. rewrite G in K.
    destruct (get (s_wraps s) x) as [r|] eqn:Gs; [|destruct K].
    destruct K as (_ & _ & _ & _ & _ & [->| ->] & _); [eapply IH; exact Gs|constructor].
Qed.

Lemma ward_once cf c rc w s : wrapper s c rc -> In w (w_wards rc) -> alive s c -> alive s w ->
  step_event cf (EvWard c w) s = Ok s.
Proof.
  intros G I1 (rc' & G' & L) (r & Gr & Lr). cbn. unfold add_ward, live_wrap. red in G, G', Gr.
  assert (rc' = rc) by congruence. subst. rewrite G, L, Gr, Lr. cbn [bind].
  rewrite (contains_in cf _ _ I1). destruct (negb (c_subclassing cf)); reflexivity.
Qed.

Lemma ward_added cf s c w s' : c_subclassing cf = true -> step_event cf (EvWard c w) s = Ok s' -> guards cf s' c w.
Proof.
  intros SC E. cbn [step_event] in E. unfold guards, wrapper.
  unfold add_ward in E. destruct (live_wrap s c) as [rc|] eqn:L; [|discriminate]. cbn [bind] in E.
  destruct (live_wrap s w) as [rw|] eqn:L1; [|discriminate]. cbn [bind] in E. rewrite SC in E. cbn [negb] in E.
  apply live_get in L. destruct (contains cf (w_wards rc) w) eqn:CT.
  - injection E as <-. exists rc. split; [tauto|]. apply contains_spec; auto.
  - destruct (live_wrap (setw s c (w_set_wards rc (w_wards rc ++ [w]))) w) as [r|] eqn:L2; [|discriminate]. cbn [bind] in E. injection E as <-. apply live_get in L2. cbn in L2.
    cbn. rewrite get_put in L2 |- *. rewrite get_put. rewrite (Nat.eqb_sym c w). destruct (Nat.eqb_spec w c) as [->|N].
    + destruct L2 as [L2 _]. injection L2 as <-. eexists. split; [reflexivity|]. left. cbn. apply in_or_app. cbn. auto.
    + rewrite Nat.eqb_refl. eexists. split; [reflexivity|]. left. cbn. apply in_or_app. cbn. auto.
Qed.

(** Does a slot function of [c] clear its dict? Only deallocation or the collector. *)
Lemma tick_wards cf strict s s' c rc : (strict = true -> deletes cf) -> reach cf strict s -> tick cf s = Ok s' ->
  wrapper s c rc -> (forall i d, ~ In (KCode c (i :: d)) (s_todo s)) ->
  exists rc', wrapper s' c rc' /\ w_wards rc' = w_wards rc.
Proof.
  intros SD R E G NK. red in G. unfold tick in E. destruct (s_todo s) as [|t rest] eqn:T; [discriminate|].
  destruct t as [w|w [|i d]|a].
  - destruct (live_wrap (set_todo s rest) w) as [r|] eqn:L; [|discriminate]. cbn [bind] in E. apply live_get in L. cbn in L.
    destruct (w_refs r) as [|[|n]]; [discriminate| |]; injection E as <-; unfold wrapper; cbn; rewrite get_put;
     (destruct (Nat.eqb_spec c w) as [->|]; [|eauto]); eexists; (split; [reflexivity|]); cbn; destruct L; congruence.
  - injection E as <-. exists rc; auto.
  - assert (NE : c <> w) by (intros ->; apply (NK i d); left; reflexivity).
    unfold exec_dinstr in E. destruct (running _ w) as [r|] eqn:RN; [|discriminate]. cbn [bind] in E.
    assert (PW : forall s0 r0, s_wraps s0 = s_wraps s -> wrapper (setw s0 w r0) c rc).
    { intros s0 r0 W. unfold wrapper. cbn. rewrite W, get_put_ne; auto. }
    destruct i as [| |dd|].
    + destruct (w_obj r); injection E as <-; exists rc; auto.
    + injection E as <-. exists rc. split; auto. apply (PW (set_todo s (KCode w d :: rest))). reflexivity.
    + unfold run_delete in E. destruct (w_obj r) as [a|]; [|injection E as <-; exists rc; auto].
      set (s1 := if d_take dd then _ else _) in E.
      assert (W1 : wrapper s1 c rc) by (unfold s1; destruct (d_take dd); [apply (PW (set_todo s (KCode w d :: rest))); reflexivity|exact G]).
      clearbody s1. destruct (d_if_owned dd && negb (w_owned r)); [injection E as <-; eauto|].
      destruct (d_op dd); try (injection E as <-; eauto; fail).
      unfold unref, live_obj in E. destruct (get (s_objs s1) a) as [o|]; [|discriminate]. cbn [bind] in E.
      destruct (o_rc o) as [|[|n]]; [discriminate| |]; injection E as <-; exists rc; split; auto.
    + injection E as <-. exists rc. split; auto.
  - unfold live_obj in E. cbn in E. destruct (get (s_objs s) a) as [o|]; [|discriminate]. cbn [bind] in E. injection E as <-.
    exists rc. split; auto. destruct (o_self o); exact G.
Qed.

Lemma may_run_idle s c : may_run s -> alive s c -> idle s c.
Proof.
  intros [Q|[_ Q]] A i d I1; [rewrite Q in I1; destruct I1|]. exact (Q c i d I1 A).
Qed.

Lemma tick_idle cf s s' c : tick cf s = Ok s' -> idle s c -> alive s' c -> idle s' c.
Proof.
  intros E NK AL. unfold idle in *. unfold tick in E. destruct (s_todo s) as [|t rest] eqn:T; [discriminate|].
  assert (NR : forall i d, ~ In (KCode c (i :: d)) rest) by (intros i d I1; apply (NK i d); right; exact I1).
  destruct t as [w|w [|i d]|a].
  - destruct (live_wrap (set_todo s rest) w) as [r|] eqn:L; [|discriminate]. cbn [bind] in E.
    destruct (w_refs r) as [|[|n]]; [discriminate| |]; injection E as <-; cbn; auto.
    intros i d [Q|Q]; [|exact (NR i d Q)]. injection Q as -> _. destruct AL as (r1 & G1 & L1). red in G1. cbn in G1.
    rewrite get_put_eq in G1. injection G1 as <-. discriminate.
  - injection E as <-. auto.
  - assert (NE : c <> w) by (intros ->; apply (NK i d); left; reflexivity).
    unfold exec_dinstr in E. destruct (running _ w) as [r|] eqn:RN; [|discriminate]. cbn [bind] in E.
    assert (NR2 : forall i0 d0, ~ In (KCode c (i0 :: d0)) (KCode w d :: rest)).
    { intros i0 d0 [Q|Q]; [congruence|exact (NR i0 d0 Q)]. }
    destruct i as [| |dd|].
    + destruct (w_obj r); injection E as <-; auto.
    + injection E as <-. cbn. intros i0 d0 Q. apply in_app_or in Q. destruct Q as [Q|Q]; [|exact (NR2 i0 d0 Q)].
      apply in_map_iff in Q. destruct Q as (x & Q & _). discriminate.
    + unfold run_delete in E. destruct (w_obj r) as [a|]; [|injection E as <-; auto].
      set (s1 := if d_take dd then _ else _) in E.
      assert (W1 : s_todo s1 = KCode w d :: rest) by (unfold s1; destruct (d_take dd); reflexivity).
      clearbody s1. destruct (d_if_owned dd && negb (w_owned r)); [injection E as <-; rewrite W1; auto|].
      assert (PD : forall i0 d0, ~ In (KCode c (i0 :: d0)) (KDelete a :: s_todo s1)).
      { rewrite W1. intros i0 d0 [Q|Q]; [discriminate|exact (NR2 i0 d0 Q)]. }
      destruct (d_op dd); try (injection E as <-; first [exact PD|rewrite W1; exact NR2]; fail).
      unfold unref, live_obj in E. destruct (get (s_objs s1) a) as [o|]; [|discriminate]. cbn [bind] in E.
      destruct (o_rc o) as [|[|n]]; [discriminate| |]; injection E as <-; [exact PD|cbn; rewrite W1; exact NR2].
    + injection E as <-. exact NR2.
  - unfold live_obj in E. cbn in E. destruct (get (s_objs s) a) as [o|]; [|discriminate]. cbn [bind] in E. injection E as <-.
    destruct (o_self o); cbn; auto. intros i d [Q|Q]; [discriminate|exact (NR i d Q)].
Qed.

Definition no_code (l : list task) : Prop := forall w d, ~ In (KCode w d) l.

Lemma exec_stmt_todo st e s e' s' : exec_stmt st e s = Ok (e', s') -> exists l, s_todo s' = l ++ s_todo s /\ no_code l.
Proof.
  assert (N0 : no_code []) by (intros ? ? []).
  assert (NN : exists l, s_todo s = l ++ s_todo s /\ no_code l) by (exists []; auto).
  assert (ND : forall a, no_code [KDelete a]) by (intros a w d [Q|[]]; discriminate).
  assert (NF : forall a, no_code [KDecref a]) by (intros a w d [Q|[]]; discriminate).
  assert (PW : forall A (k : wid * wrap -> res A) x, bind (py_wrap e s) k = Ok x -> exists w r, k (w, r) = Ok x).
  { intros A k x. destruct (py_wrap e s) as [[w r]|]; [eauto|discriminate]. }
  destruct st; cbn [exec_stmt]; intros E;
    try (apply PW in E; destruct E as (w & r & E));
    try (injection E as <- <-; auto; fail).
  - destruct (source_ok src e s); [|discriminate]. cbn [bind] in E. unfold new_obj in E.
    destruct (get (s_objs s) (Ownership.e_new e)) eqn:G; [discriminate|]. cbn [bind] in E.
    destruct (py_wrap e _) as [[w r]|] eqn:PY; [|discriminate]. injection E as <- <-. auto.
  - destruct (source_ok FromSelf e s); [|discriminate]. cbn [bind] in E. unfold new_obj in E.
    destruct (get (s_objs s) (Ownership.e_new e)) eqn:G; [discriminate|]. injection E as <- <-. auto.
  - destruct (get (s_reg s) (e_val e)) as [w|]; [|injection E as <- <-; auto].
    destruct (live_wrap s w) as [r|] eqn:L; [|discriminate]. injection E as <- <-. auto.
  - destruct (w_obj r); [|discriminate]. injection E as <- <-. auto.
  - destruct (w_obj r); injection E as <- <-; auto.
  - unfold live_obj in E. destruct (get (s_objs s) (e_val e)); [|discriminate]. injection E as <- <-. auto.
  - destruct (w_obj r) as [a|]; [|discriminate].
    unfold live_obj in E. destruct (get (s_objs s) a) as [o|] eqn:G; [|discriminate]. cbn [bind] in E.
    injection E as <- <-. destruct (o_self o) as [old|]; cbn; auto. exists [KDecref old]. auto.
  - injection E as <- <-. exists [KDecref w]. auto.
  - unfold ref, live_obj in E. destruct (get (s_objs s) (e_val e)) as [o|] eqn:G; [|discriminate]. cbn [bind] in E.
    injection E as <- <-. auto.
  - unfold unref, live_obj in E. destruct (get (s_objs s) (e_val e)) as [o|] eqn:G; [|discriminate]. cbn [bind] in E.
    destruct (o_rc o) as [|[|n]]; [discriminate| |]; injection E as <- <-; auto. exists [KDelete (e_val e)]. auto.
  - destruct (w_obj r) as [a|]; [|discriminate].
    unfold ref, live_obj in E. destruct (get (s_objs s) a) as [o|] eqn:G; [|discriminate]. cbn [bind] in E.
    injection E as <- <-. auto.
  - unfold live_obj in E. destruct (get (s_objs s) (e_val e)); [|discriminate]. injection E as <- <-.
    exists [KDelete (e_val e)]. auto.
  - destruct (e_py e) as [| |w]; try (injection E as <- <-; auto; fail).
    destruct (live_wrap s w) as [r|]; [|discriminate]. cbn [bind] in E.
    destruct (w_obj r) as [a|]; [|injection E as <- <-; auto].
    unfold live_obj in E. destruct (get (s_objs s) a) as [o|] eqn:G; [|discriminate]. cbn [bind] in E.
    injection E as <- <-. auto.
Qed.

Lemma no_code_app l m : no_code l -> no_code m -> no_code (l ++ m).
Proof. intros A B w d I1. apply in_app_or in I1. destruct I1; [eapply A|eapply B]; eauto. Qed.

Lemma exec_todo c : forall e s e' s', exec c e s = Ok (e', s') -> exists l, s_todo s' = l ++ s_todo s /\ no_code l.
Proof.
  induction c as [|st k IH|b x IHx y IHy k IHk]; cbn [exec]; intros e s e' s' E.
  - injection E as <- <-. exists []. split; auto. intros ? ? [].
  - destruct (exec_stmt st e s) as [[e1 s1]|] eqn:E1; [|discriminate]. cbn [bind] in E.
    apply exec_stmt_todo in E1. destruct E1 as (l1 & T1 & N1). apply IH in E. destruct E as (l2 & T2 & N2).
    exists (l2 ++ l1). rewrite T2, T1, app_assoc. split; auto using no_code_app.
  - destruct (eval_cond b e s) as [t|]; [|discriminate]. cbn [bind] in E.
    destruct (exec (if t then x else y) e s) as [[e1 s1]|] eqn:E1; [|discriminate]. cbn [bind] in E.
    assert (A : exists l, s_todo s1 = l ++ s_todo s /\ no_code l) by (destruct t; eauto).
    destruct A as (l1 & T1 & N1). apply IHk in E. destruct E as (l2 & T2 & N2).
    exists (l2 ++ l1). rewrite T2, T1, app_assoc. split; auto using no_code_app.
Qed.

Lemma event_todo cf ev s s' : step_event cf ev s = Ok s' -> (forall w, ev <> EvGcClear w) ->
  exists l, s_todo s' = l ++ s_todo s /\ no_code l.
Proof.
  assert (RC : forall c e s1 s2, run_code c e s1 = Ok s2 -> exists l, s_todo s2 = l ++ s_todo s1 /\ no_code l).
  { intros c e s1 s2 E. unfold run_code in E. destruct c as [c|]; [|discriminate].
    destruct (exec c e s1) as [[e1 s3]|] eqn:E1; [|discriminate]. injection E as <-. eapply exec_todo; eauto. }
  assert (N0 : no_code []) by (intros ? ? []).
  assert (NN : exists l, s_todo s = l ++ s_todo s /\ no_code l) by (exists []; auto).
  assert (ND : forall a, no_code [KDelete a]) by (intros a w d [Q|[]]; discriminate).
  assert (NF : forall a, no_code [KDecref a]) by (intros a w d [Q|[]]; discriminate).
  assert (DR : forall b s1 s1', drop_cpp b s1 = Ok s1' -> s_todo s1' = s_todo s1).
  { intros b s1 s1' E. unfold drop_cpp, live_obj in E. destruct (get (s_objs s1) b); [|discriminate].
    injection E as <-. reflexivity. }
  intros E NG.
  destruct ev as [b|b|b|sub|w b|w b|k v b|k v b|w t| |w b|w|w|c w|w|b|b|b]; cbn [step_event] in E; eauto.
  - unfold new_obj in E. destruct (get (s_objs s) b) eqn:Gb; [discriminate|]. injection E as <-. auto.
  - destruct (drop_cpp b s) as [s1|] eqn:E1; [|discriminate]. cbn [bind] in E. apply DR in E1. rewrite <- E1.
    destruct (is_rc cf).
    + unfold unref, live_obj in E. destruct (get (s_objs s1) b) as [ob|]; [|discriminate]. cbn [bind] in E.
      destruct (o_rc ob) as [|[|n]]; [discriminate| |]; injection E as <-; [exists [KDelete b]; auto|exists []; auto].
    + injection E as <-. exists [KDelete b]; auto.
  - unfold ref, live_obj in E. destruct (get (s_objs s) b) as [ob|] eqn:Gb; [|discriminate]. cbn in E.
    rewrite get_put_eq in E. cbn in E. injection E as <-. auto.
  - injection E as <-. auto.
  - destruct (run_code _ _ s) as [s1|] eqn:E1; [|discriminate]. cbn [bind] in E.
    destruct (live_wrap s1 w) as [r|] eqn:L; [|discriminate]. injection E as <-. cbn. eapply RC; exact E1.
  - destruct v as [v|]; [|destruct k; try discriminate; injection E as <-; auto].
    destruct (gives k) eqn:GK; cbn [bind] in E; eauto.
    destruct (drop_cpp v s) as [s1|] eqn:E1; [|discriminate]. cbn [bind] in E. rewrite <- (DR _ _ _ E1). eauto.
  - destruct k as [|[|]]; cbn [bind] in E; eauto.
    destruct (drop_cpp v s) as [s1|] eqn:E1; [|discriminate]. cbn [bind] in E. rewrite <- (DR _ _ _ E1). eauto.
  - destruct (live_wrap s w) as [r|] eqn:L; [|discriminate]. injection E as <-. auto.
  - destruct (live_wrap s w) as [r|] eqn:L; [|discriminate]. injection E as <-. exists [KDecref w]. auto.
  - destruct (add_ward_shape _ _ _ _ _ E) as [->|(rc & _ & _ & _ & _ & r & _ & _ & ->)]; auto.
  - destruct (NG w eq_refl).
  - unfold live_obj in E. destruct (get (s_objs s) b) as [ob|]; [|discriminate]. cbn [bind] in E.
    destruct (o_self ob) as [w|]; [|discriminate]. destruct (live_wrap s w) as [r|] eqn:L; [|discriminate]. injection E as <-. auto.
  - destruct (run_code _ _ s) as [s1|] eqn:E1; [|discriminate]. cbn [bind] in E.
    destruct (live_wrap s1 _) as [r|] eqn:L; [|discriminate]. injection E as <-. cbn. eapply RC; eauto.
  - destruct (s_calls s) as [|[w sv c|w c] rest]; [discriminate| |].
    + unfold live_obj in E. destruct (get (s_objs s) c) as [ob|]; [|discriminate]. cbn [bind] in E.
      destruct (o_self ob) as [w'|]; [|discriminate]. destruct (live_wrap s w') as [r|] eqn:L; [|discriminate]. injection E as <-.
      exists [KDecref w]. auto.
    + destruct (live_wrap s w) as [r|] eqn:L; [|discriminate]. cbn [bind] in E. apply RC in E. exact E.
Qed.

Lemma event_idle cf ev s s' c : step_event cf ev s = Ok s' -> ev <> EvGcClear c -> idle s c -> idle s' c.
Proof.
  intros E N ID i d I1.
  assert (X : (exists w, ev = EvGcClear w) \/ forall w, ev <> EvGcClear w).
  { destruct ev; try (right; discriminate). left. eauto. }
  destruct X as [(w & ->)|X].
  - cbn [step_event] in E. destruct (live_wrap s w) as [r|]; [|discriminate]. cbn [bind] in E. injection E as <-.
    cbn in I1. destruct I1 as [I1|[I1|I1]]; [|discriminate|exact (ID i d I1)]. congruence.
  - destruct (event_todo _ _ _ _ E X) as (l & T & NC). rewrite T in I1. apply in_app_or in I1.
    destruct I1 as [I1|I1]; [exact (NC _ _ I1)|exact (ID i d I1)].
Qed.

Lemma wards_persist cf strict s ls s' c rc : (strict = true -> deletes cf) -> reach cf strict s ->
  history cf strict s ls s' -> wrapper s c rc -> idle s c -> alive s' c -> ~ In (LEvent (EvGcClear c)) ls ->
  exists rc', wrapper s' c rc' /\ exists l, w_wards rc' = w_wards rc ++ l.
Proof.
  intros SD R H. revert rc R. induction H as [s|s ev s1 ls s2 M A E H IH|s s1 ls s2 E H IH]; intros rc R G ID AL NG.
  - exists rc. split; auto. exists []. rewrite app_nil_r. reflexivity.
  - assert (X : exists rc1, wrapper s1 c rc1 /\ exists l, w_wards rc1 = w_wards rc ++ l).
    { assert (Y : (exists c' w, ev = EvWard c' w) \/ forall c' w, ev <> EvWard c' w).
      { destruct ev; try (right; discriminate). left; eauto. }
      destruct Y as [(c' & w & ->)|Y].
      - cbn [step_event] in E. destruct (add_ward_keeps _ _ _ _ _ _ _ E G) as (rc1 & G1 & _ & _ & W).
        exists rc1. split; auto. destruct W as [->|(_ & ->)]; [exists []; rewrite app_nil_r|]; eauto.
      - pose proof (event_wraps _ _ _ _ E Y c) as K. red in G. rewrite G in K. unfold wrapper.
        destruct (get (s_wraps s1) c) as [rc1|]; [|destruct K]. exists rc1. split; auto. exists []. rewrite app_nil_r. tauto. }
    destruct X as (rc1 & G1 & l1 & W1).
    destruct (IH rc1) as (rc2 & G2 & l2 & W2); auto.
    + eapply reach_event; eauto.
    + eapply event_idle; eauto. intros ->. apply NG. left; reflexivity.
    + intros I1. apply NG. right; exact I1.
    + exists rc2. split; auto. exists (l1 ++ l2). rewrite W2, W1, app_assoc. reflexivity.
  - destruct (tick_wards cf strict s s1 c rc SD R E G ID) as (rc1 & G1 & W1).
    assert (AL1 : alive s1 c).
    { destruct (w_st rc1) eqn:L1; [exists rc1; auto| |]; exfalso;
        (assert (D : forall t ls t' r, history cf strict t ls t' -> wrapper t c r -> w_st r <> Live -> ~ alive t' c);
         [clear; intros t ls t' r H; revert r;
          induction H as [t|t ev t1 ls t2 M A E H IH|t t1 ls t2 E H IH]; intros r G N;
          [intros (r' & G' & L'); red in G, G'; congruence| |];
          [assert (X : exists r1, wrapper t1 c r1 /\ w_st r1 = w_st r);
           [assert (Y : (exists c' w, ev = EvWard c' w) \/ forall c' w, ev <> EvWard c' w) by (destruct ev; try (right; discriminate); left; eauto);
            destruct Y as [(c' & w & ->)|Y];
            [cbn [step_event] in E; destruct (add_ward_keeps _ _ _ _ _ _ _ E G) as (r1 & G1 & S1 & _); exists r1; auto
            |pose proof (event_wraps _ _ _ _ E Y c) as K; red in G; rewrite G in K; unfold wrapper;
             destruct (get (s_wraps t1) c) as [r1|]; [exists r1; tauto|destruct K]]
           |destruct X as (r1 & G1 & S1); eapply IH; [exact G1|congruence]]
          |destruct (tick_lessT _ _ _ E) as (_ & _ & _ & K & _); destruct (K c r G) as (r1 & G1 & (_ & _ & _ & _ & _ & _ & K1));
           eapply IH; [exact G1|auto]]
         |eapply (D s1 ls s2 rc1 H G1); [congruence|exact AL]]). }
    destruct (IH rc1) as (rc2 & G2 & l2 & W2); auto.
    + eapply reach_tick; eauto.
    + eapply tick_idle; eauto.
    + intros I1. apply NG. right; exact I1.
    + exists rc2. split; auto. exists l2. rewrite W2, W1. reflexivity.
Qed.
