(** * Reachable states satisfy the invariant; nothing allowed faults *)
From Coq Require Import List Arith Bool Lia.
From Verif.Model Require Import Ownership.
From Verif.Spec Require Import OwnSpec.
From Verif.Proofs Require Import OwnHeap OwnInv OwnTick OwnEvents OwnStep.
Import ListNotations.

Section Rest.
Variable cf : conf.
Variable strict : bool.
Variables (objs : heap cobj) (wraps : heap wrap) (reg : heap wid) (todo : list task) (calls : list frame).
Notation st := (State objs wraps reg todo calls).
Hypothesis P : Parts cf strict objs wraps reg todo calls.
Hypothesis K : calm todo.
Notation good r := (exists s', r = Ok s' /\ Inv cf strict s').

Ltac made Q := go; revert Q; unfold reg1, mk; go; intros Q; fin; exact Q.

Lemma e_arg_transfer v a o :
  get objs v = Some o -> 1 <= o_cpp o -> ~ In v (map frame_addr calls) ->
  (strict = true -> get reg v = None /\ (is_rc cf = true -> o_helper o = false)) ->
  good (step_event cf (EvArg (APtr true) v a) st).
Proof.
  intros Go C1 NI ST. pose proof (fresh_id wraps) as FI.
  cbn [step_event]. unfold gen_arg, gen_register.
  destruct (c_helper cf && o_helper o) eqn:HH.
  { apply andb_true_iff in HH. destruct HH as [CH HH].
    destruct (self_wrap _ _ _ _ _ _ _ P v o Go HH) as (w & r & Sf & Gw & L & OW & V & OB & RR).
    rewrite CH. destruct (is_rc cf) eqn:RC.
    - destruct (cpp_rc _ _ _ _ _ _ _ P v o RC Go C1) as (R1 & _ & _). destruct (RR eq_refl R1) as [O1 T].
      assert (SF : strict = false) by (destruct strict; auto; destruct (ST eq_refl) as [_ X]; specialize (X eq_refl); congruence).
      pose proof (p_lose _ _ _ _ _ _ _ P K v o (fun _ => R1) SF Go NI) as Q1.
      pose proof (p_incref _ _ _ _ _ _ _ Q1 K w r Gw L) as Q. made Q.
    - destruct (p_take_self _ _ _ _ _ _ _ P K v o w r RC Go C1 NI Sf Gw L OW V OB) as [O1 Q1].
      pose proof (p_incref _ _ _ _ _ _ _ Q1 K w _ (get_put_eq _ _ _ _) L) as Q. rewrite put_put in Q.
      made Q. }
  assert (HELP : c_helper cf = false \/ c_helper cf = true /\ o_helper o = false).
  { destruct (c_helper cf); auto. }
  destruct (c_registry cf) eqn:CR; [destruct (get reg v) as [w|] eqn:GR|].
  - destruct (found_wrap _ _ _ _ _ _ _ P K v w GR) as (r & Gw & L & O1 & T).
    assert (SF : strict = false) by (destruct strict; auto; destruct (ST eq_refl); congruence).
    assert (R1 : is_rc cf = true -> 1 <= o_rc o).
    { intros RC. destruct (cpp_rc _ _ _ _ _ _ _ P v o RC Go C1); auto. }
    pose proof (p_lose _ _ _ _ _ _ _ P K v o R1 SF Go NI) as Q1.
    pose proof (p_incref _ _ _ _ _ _ _ Q1 K w r Gw L) as Q.
    destruct HELP as [HE|[HE HO]]; rewrite HE; made Q.
  - pose proof (p_make _ _ _ _ _ _ _ P K _ v o FI Go C1 NI) as Q.
    destruct HELP as [HE|[HE HO]]; rewrite HE; made Q.
  - pose proof (p_make _ _ _ _ _ _ _ P K _ v o FI Go C1 NI) as Q.
    destruct HELP as [HE|[HE HO]]; rewrite HE; made Q.
Qed.

Lemma e_arg_keep v a o :
  get objs v = Some o ->
  (if is_rc cf then 1 <= o_rc o else self_points st v o /\ c_copyable cf = true /\ get objs a = None) ->
  good (step_event cf (EvArg (APtr false) v a) st).
Proof.
  unfold self_points, wrapper. cbn [s_wraps].
  intros Go H0. pose proof (fresh_id wraps) as FI.
  cbn [step_event]. unfold gen_arg, gen_register.
  assert (HELP : c_helper cf && o_helper o = true \/ c_helper cf = false \/ c_helper cf = true /\ o_helper o = false).
  { destruct (c_helper cf); auto. destruct (o_helper o); auto. }
  assert (FOUND : c_registry cf = true -> forall w, get reg v = Some w ->
     exists r, get wraps w = Some r /\ w_st r = Live /\ w_obj r = Some v /\ w_tmp r = false).
  { intros _ w GR. exact (found_wrap _ _ _ _ _ _ _ P K v w GR). }
  destruct (is_rc cf) eqn:RC.
  - destruct HELP as [HH|HELP].
    { apply andb_true_iff in HH. destruct HH as [CH HH].
      destruct (self_wrap _ _ _ _ _ _ _ P v o Go HH) as (w & r & Sf & Gw & L & OW & V & OB & RR).
      destruct (RR RC H0) as [O1 T].
      pose proof (p_incref _ _ _ _ _ _ _ P K w r Gw L) as Q. rewrite CH. made Q. }
    pose proof (p_make_rc _ _ _ _ _ _ _ P K _ v o RC H0 FI Go) as Q2.
    destruct (c_registry cf) eqn:CR; [destruct (get reg v) as [w|] eqn:GR|].
    + destruct (FOUND eq_refl w eq_refl) as (r & Gw & L & O1 & T).
      pose proof (p_incref _ _ _ _ _ _ _ P K w r Gw L) as Q.
      destruct HELP as [HE|[HE HO]]; rewrite HE; made Q.
    + destruct HELP as [HE|[HE HO]]; rewrite HE; made Q2.
    + destruct HELP as [HE|[HE HO]]; rewrite HE; made Q2.
  - destruct H0 as (SP & CC & Ga). rewrite CC. destruct HELP as [HH|HELP].
    { apply andb_true_iff in HH. destruct HH as [CH HH].
      destruct (self_wrap _ _ _ _ _ _ _ P v o Go HH) as (w & r & Sf & Gw & L & OW & V & OB & RR).
      destruct (SP w Sf) as (r' & Gr' & O1). assert (r' = r) by congruence. subst r'.
      pose proof (p_incref _ _ _ _ _ _ _ P K w r Gw L) as Q. rewrite CH. made Q. }
    pose proof (p_make_new _ _ _ _ _ _ _ P K _ a FI Ga) as Q2.
    destruct (c_registry cf) eqn:CR; [destruct (get reg v) as [w|] eqn:GR|].
    + destruct (FOUND eq_refl w eq_refl) as (r & Gw & L & O1 & T).
      pose proof (p_incref _ _ _ _ _ _ _ P K w r Gw L) as Q.
      destruct HELP as [HE|[HE HO]]; rewrite HE; made Q.
    + destruct HELP as [HE|[HE HO]]; rewrite HE; made Q2.
    + destruct HELP as [HE|[HE HO]]; rewrite HE; made Q2.
Qed.

Lemma e_pass w r :
  get wraps w = Some r -> w_st r = Live -> w_tmp r = false ->
  (if is_rc cf then w_obj r <> None
   else (w_obj r <> None -> owns cf r = true) /\ ~ In w (map frame_wrap calls)) ->
  good (step_event cf (EvPass w true) st).
Proof.
  intros G L T H0. cbn [step_event]. unfold gen_pass, gen_unregister.
  destruct (is_rc cf) eqn:RC.
  - destruct (w_obj r) as [a|] eqn:O1; [|tauto].
    assert (OW : owns cf r = true).
    { unfold owns. rewrite T. unfold is_rc in RC. destruct (c_policy cf); try discriminate. reflexivity. }
    destruct (owner_alive _ _ _ _ _ _ _ P w r a G OW O1) as (o & Go & HC).
    pose proof (i_units _ _ _ _ _ _ _ P a) as U. rewrite Go in U. apply units_rc in U; auto.
    assert (R1 : 1 <= o_rc o) by (destruct U, strict; lia).
    pose proof (p_cpp_ref _ _ _ _ _ _ _ P K a o RC Go R1) as Q. made Q.
  - destruct H0 as [H0 NI]. apply not_in_call' in NI.
    destruct (w_obj r) as [a|] eqn:O1.
    + assert (OW : owns cf r = true) by (apply H0; discriminate).
      destruct (owner_alive _ _ _ _ _ _ _ P w r a G OW O1) as (o & Go & HC).
      destruct (c_registry cf) eqn:CR.
      * pose proof (p_unregister _ _ _ _ _ _ _ P K a) as Q1.
        pose proof (p_detach _ _ _ _ _ _ _ Q1 K w r a o RC G L OW O1 NI) as Q. rewrite get_put_eq in Q.
        specialize (Q ltac:(discriminate) Go). made Q.
      * assert (NR : get reg a <> Some w).
        { intros GR. destruct (i_reg _ _ _ _ _ _ _ P a w GR). congruence. }
        pose proof (p_detach _ _ _ _ _ _ _ P K w r a o RC G L OW O1 NI NR Go) as Q. made Q.
    + assert (E : Wrap Live (w_refs r) None (w_owned r) (w_wards r) (w_ext r) (w_sub r) (w_virgin r) (w_tmp r) = r).
      { rewrite <- L, <- O1. destruct r; reflexivity. }
      destruct (c_registry cf) eqn:CR; go; fin; rewrite E, put_same; auto.
Qed.

Lemma e_give_back w a r b o :
  get wraps w = Some r -> w_st r = Live -> w_tmp r = false -> w_obj r = Some b -> get objs b = Some o ->
  (if is_rc cf then True
   else if c_copyable cf then get objs a = None
   else owns cf r = true /\ ~ In w (map frame_wrap calls) /\ get reg b <> Some w) ->
  good (step_event cf (EvGiveBack w a) st).
Proof.
  intros G L T O1 Go H0. cbn [step_event]. unfold gen_give_back. destruct (is_rc cf) eqn:RC.
  - assert (OW : owns cf r = true).
    { unfold owns. rewrite T. unfold is_rc in RC. destruct (c_policy cf); try discriminate. reflexivity. }
    destruct (owner_alive _ _ _ _ _ _ _ P w r b G OW O1) as (o' & Go' & HC).
    assert (o' = o) by congruence. subst o'. clear Go'.
    pose proof (i_units _ _ _ _ _ _ _ P b) as U. rewrite Go in U. apply units_rc in U; auto.
    assert (R1 : 1 <= o_rc o) by (destruct U, strict; lia).
    pose proof (p_cpp_ref _ _ _ _ _ _ _ P K b o RC Go R1) as Q. made Q.
  - destruct (c_copyable cf) eqn:CC.
    + pose proof (p_new_obj _ _ _ _ _ _ _ P K a H0) as Q. made Q.
    + destruct H0 as (OW & NI & NR). apply not_in_call' in NI.
      pose proof (p_detach _ _ _ _ _ _ _ P K w r b o RC G L OW O1 NI NR Go) as Q. made Q.
Qed.

Lemma e_ward (c w : wid) rc :
  c_subclassing cf = true -> get wraps c = Some rc -> w_st rc = Live ->
  (exists r, get wraps w = Some r /\ w_st r = Live) ->
  good (step_event cf (EvWard c w) st).
Proof.
  intros SC G L (r & Gw & Lw). cbn [step_event]. unfold add_ward, live_wrap.
  cbn [s_wraps]. rewrite G, L, Gw, Lw, SC. cbn [bind negb].
  destruct (contains cf (w_wards rc) w) eqn:CT.
  - fin. exact P.
  - destruct (p_ward _ _ _ _ _ _ _ P K c w rc G L SC) as (r' & Gr' & L' & Q); eauto.
    unfold setw, set_wraps. cbn [s_wraps s_objs s_reg s_todo s_calls bind]. rewrite Gr', L'. cbn [bind].
    fin. exact Q.
Qed.

Lemma e_gc w r :
  get wraps w = Some r -> w_st r = Live -> w_refs r = reported cf st w ->
  (visits_self cf st w = true ->
     (is_rc cf = true -> c_peekref cf = true)
     /\ exists b o, w_obj r = Some b /\ get objs b = Some o /\ o_self o = Some w) ->
  (forall a, get reg a <> Some w) ->
  good (step_event cf (EvGcClear w) st).
Proof.
  intros G L NR VS RG. cbn [step_event]. go. fin.
  rewrite reported_hsum in NR. cbn [s_wraps] in NR.
  pose proof (i_refs _ _ _ _ _ _ _ P w) as R. rewrite G in R.
  assert (CS : hsum (cs w) objs = b2n (visits_self cf st w) /\ lsum (cc w) calls = 0).
  { destruct (visits_self cf st w) eqn:E; cbn [b2n] in *.
    - destruct (VS eq_refl) as (_ & b & o & O1 & Go & Sf).
      pose proof (self_sum _ _ _ _ Go Sf). lia.
    - lia. }
  destruct CS as [CS NC].
  pose proof (p_gc _ _ _ _ _ _ _ P K w r G L NC RG) as Q.
  revert Q. unfold w_set_refs. rewrite L. intros Q. apply Q.
  intros RC a o Go Sf. pose proof (self_sum _ _ _ _ Go Sf) as S1.
  assert (E : visits_self cf st w = true) by (destruct (visits_self cf st w); auto; cbn in CS; lia).
  destruct (VS E) as (PK & b & o' & O1 & Go' & Sf'). specialize (PK RC).
  assert (a = b) by (eapply (uniq_self _ _ _ _ _ _ _ P); eauto). subst b. assert (o' = o) by congruence. subst o'.
  unfold visits_self in E. cbn [s_wraps s_objs] in E. rewrite G, O1, Go, RC, PK in E. cbn [andb] in E.
  apply andb_true_iff in E. destruct E as [_ E]. apply Nat.eqb_eq in E. lia.
Qed.

Lemma e_virt a o w r :
  get objs a = Some o -> o_self o = Some w -> get wraps w = Some r -> ~ In (KDelete a) todo ->
  1 <= o_cpp o \/ w_obj r = Some a ->
  good (step_event cf (EvVirtBegin a) st).
Proof.
  intros Go Sf G ND CP. destruct (self_exists _ _ _ _ _ _ _ P a o w Go Sf) as (r0 & G0 & L & N).
  assert (r0 = r) by congruence. subst r0.
  pose proof (p_virt_begin _ _ _ _ _ _ _ P K a o w r Go Sf G ND CP) as Q.
  cbn [step_event]. go. fin. revert Q. go. auto.
Qed.

Lemma e_tmp a o :
  get objs a = Some o -> 1 <= o_cpp o -> good (step_event cf (EvTmpBegin a) st).
Proof.
  intros Go C1. pose proof (fresh_id wraps) as FI.
  pose proof (p_tmp_begin _ _ _ _ _ _ _ P K a o _ FI Go C1) as Q.
  cbn [step_event]. unfold gen_tmp_before. made Q.
Qed.

Lemma e_end b :
  calls <> [] -> get objs b = None -> good (step_event cf (EvEnd b) st).
Proof.
  intros NE Gb. cbn [step_event s_calls]. destruct calls as [|f rest] eqn:EC; [tauto|].
  pose proof (i_calls _ _ _ _ _ _ _ P) as [F _].
  destruct f as [w saved a|w a]; cbn [frame_ok] in F.
  - destruct F as (o & r & Go & Sf & G & O1 & M).
    destruct (self_exists _ _ _ _ _ _ _ P a o w Go Sf) as (r0 & G0 & L & N).
    assert (r0 = r) by congruence. subst r0.
    destruct saved as [b'|].
    + destruct M as [-> M].
      pose proof (p_end _ _ _ _ _ _ _ _ w r a r P K eq_refl G) as Q.
      assert (E : Wrap Live (w_refs r) (Some a) (w_owned r) (w_wards r) (w_ext r) (w_sub r) (w_virgin r) (w_tmp r) = r).
      { rewrite <- L, <- O1. destruct r; reflexivity. }
      go. fin. rewrite E. apply Q. left. repeat (split; auto). eauto.
    + destruct M as (T & C1 & NI).
      pose proof (p_end _ _ _ _ _ _ _ _ w r a (w_set_tmp (w_set_obj r None) false) P K eq_refl G) as Q.
      go. fin. revert Q. go. intros Q. apply Q. right. repeat (split; auto).
      intros RC. exfalso.
      destruct (call_alive _ _ _ _ _ _ _ P a (or_introl eq_refl)) as (o' & Go' & _ & R1). assert (o' = o) by congruence. subst o'.
      destruct (i_self _ _ _ _ _ _ _ P a o w r Go Sf G) as (_ & _ & _ & A4).
      specialize (R1 RC). destruct (A4 RC) as [[_ ?]|?]; [congruence|lia].
  - destruct F as (o & r & Go & C1 & G & O1 & T & V & OW & Z & NI).
    destruct (frame_exists _ _ _ _ _ _ _ P _ (or_introl eq_refl)) as (r0 & G0 & L & N). cbn in G0.
    assert (r0 = r) by congruence. subst r0.
    assert (Q1 : Parts cf strict objs (put wraps w (Some (w_set_tmp (w_set_obj r None) false))) reg (KDecref w :: todo) rest).
    { apply (p_end _ _ _ _ _ _ _ _ w r a _ P K eq_refl G). right. repeat (split; auto). }
    assert (K1 : calm (KDecref w :: todo)) by (apply calm_push; auto; discriminate).
    unfold gen_tmp_after, gen_register. destruct (c_copyable cf) eqn:CC.
    + assert (NB : b <> a) by congruence.
      destruct (w_refs r =? 1) eqn:E1.
      { go. rewrite E1. revert Q1. go. intros Q1. fin. exact Q1. }
      pose proof (p_new_obj _ _ _ _ _ _ _ Q1 K1 b Gb) as Q2.
      assert (NC : lsum (cc w) rest = 0) by (apply not_in_call'; auto).
      pose proof (p_attach _ _ _ _ _ _ _ Q2 K1 w _ b (CObj 1 1 None false) (get_put_eq _ _ _ _)) as Q3.
      rewrite !put_put in Q3.
      assert (OWN : owns cf (w_set_tmp (w_set_obj r None) false) = true).
      { unfold owns. cbn. rewrite OW. destruct (c_policy cf); reflexivity. }
      specialize (Q3 L V OWN eq_refl NC (get_put_eq _ _ _ _) (le_n 1)).
      specialize (Q3 (fun I1 => free_not_called _ _ _ _ _ _ _ P b Gb (or_intror I1))).
      assert (SV : forall b' ob, get (put objs b (Some (CObj 1 1 None false))) b' = Some ob -> o_self ob = Some w -> b' = b).
      { intros b' ob Q Sf. look Q; auto. pose proof (self_sum _ _ _ _ Q Sf). lia. }
      specialize (Q3 SV).
      destruct (c_registry cf) eqn:CR.
      * pose proof (p_register _ _ _ _ _ _ _ Q3 K1 w _ b (get_put_eq _ _ _ _) L eq_refl eq_refl CR) as Q4.
        go. rewrite E1. go. revert Q4. go. intros Q4. fin. exact Q4.
      * go. rewrite E1. go. revert Q3. go. intros Q4. fin. exact Q4.
    + revert Q1. go. intros Q1. fin. exact Q1.
Qed.
End Rest.

Lemma may_run_calm cf strict s : Inv cf strict s -> may_run s -> calm (s_todo s).
Proof.
  intros P [E|[(a & rest & E) N]]; rewrite ?E.
  - split; [discriminate|intros ? ? []].
  - rewrite <- E. split; [rewrite E; discriminate|].
    intros w c I1 F. destruct c as [|i c]; auto.
    destruct (code_cases _ _ _ _ _ _ _ w i c P I1) as [(_ & F2 & _)|(_ & _ & r & G & L)]; [congruence|].
    exfalso. apply (N w i c I1). exists r. auto.
Qed.

Lemma event_inv cf strict s ev :
  Inv cf strict s -> may_run s -> allowed cf strict s ev ->
  exists s', step_event cf ev s = Ok s' /\ Inv cf strict s'.
Proof.
  intros P M A. pose proof (may_run_calm _ _ _ P M) as K. clear M.
  destruct s as [objs wraps reg todo calls]. unfold Inv in P. cbn [s_objs s_wraps s_reg s_todo s_calls] in *.
  destruct ev as [a|a|a|sub|w a|w a|k v a|k v a|w t| |w a|w|w|c w|w|a|a|b]; cbn [allowed] in A;
    unfold exists_at, alive, held in A; unfold object, free_address, wrapper, registered, doomed, in_call, wrapper_in_call in A;
    cbn [s_objs s_wraps s_reg s_todo s_calls] in A.
  - apply e_cpp_new; auto.
  - destruct A as (o & G & C1 & NI). eapply e_release; eauto.
  - destruct A as (RC & o & G & R1). eapply e_cpp_ref; eauto.
  - apply e_new; auto.
  - destruct A as (Ga & r & G & L & _ & V). eapply e_init; eauto.
  - destruct A as (CC & Ga & r & b & o & G & L & O1 & Gb). eapply e_copy; eauto.
  - destruct v as [v|]; [|destruct k; try tauto; cbn [step_event]; eexists; split; [reflexivity|exact P]].
    destruct k as [|p|p].
    + destruct A. apply e_value; auto.
    + destruct (r_ref p || r_owns p || negb (r_manages p)) eqn:E.
      * rewrite ref_as_ptr by auto. apply e_return_ptr; auto.
      * destruct A as (CC & Ga & o & Go). apply e_value; auto. right. exists p, o. auto.
    + apply e_return_ptr; auto.
  - destruct k as [|[|]].
    + destruct A as (CC & Ga & o & Go). eapply e_arg_value; eauto.
    + destruct A as (o & Go & C1 & NI & ST). eapply e_arg_transfer; eauto.
    + destruct A as (o & Go & A). eapply e_arg_keep; eauto.
  - destruct t.
    + destruct A as (r & G & L & T & A). eapply e_pass; eauto.
    + cbn. eexists; split; [reflexivity|exact P].
  - tauto.
  - destruct A as (r & b & o & G & L & T & O1 & Go & A). eapply e_give_back; eauto.
  - destruct A as (r & G & L). pose proof (p_incref _ _ _ _ _ _ _ P K w r G L) as Q.
    cbn [step_event]. go. revert Q. go. intros Q. fin. exact Q.
  - destruct A as (r & G & L & E). pose proof (p_drop _ _ _ _ _ _ _ P K w r G L E) as Q.
    cbn [step_event]. go. revert Q. go. intros Q. fin. exact Q.
  - destruct A as (SC & (rc & G & L & _) & (r & Gw & Lw & _)). eapply e_ward; eauto.
  - destruct A as (SC & (r & G & L & NR & VS) & RG). eapply e_gc; eauto.
  - destruct A as (o & w & r & Go & Sf & G & ND & CP). eapply e_virt; eauto.
  - destruct A as (o & Go & C1). eapply e_tmp; eauto.
  - destruct A as (NE & Gb). apply e_end; auto.
Qed.

Theorem reach_inv cf strict s : (strict = true -> deletes cf) -> reach cf strict s -> Inv cf strict s.
Proof.
  intros SD R. induction R as [|s ev s' R IH M A E|s s' R IH E].
  - apply inv_start.
  - destruct (event_inv _ _ _ _ IH M A) as (s2 & E2 & I2). congruence.
  - destruct (tick_inv _ _ _ SD IH) as (s2 & E2 & I2); [|congruence].
    unfold tick in E. destruct (s_todo s); discriminate.
Qed.
