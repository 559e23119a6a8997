(** * Every allowed event succeeds and keeps the invariant *)
From Coq Require Import List Arith Bool Lia.
From Verif.Model Require Import Ownership.
From Verif.Spec Require Import OwnSpec.
From Verif.Proofs Require Import OwnHeap OwnInv OwnTick OwnEvents.
Import ListNotations.

Definition mk (owned : bool) (a : addr) : wrap := Wrap Live 1 (Some a) owned [] 1 false false false.
Definition reg1 (cf : conf) (reg : heap wid) (a : addr) (w : wid) : heap wid :=
  if c_registry cf then put reg a (Some w) else reg.

Section Make.
Variable cf : conf.
Variable strict : bool.
Variables (objs : heap cobj) (wraps : heap wrap) (reg : heap wid) (todo : list task) (calls : list frame).
Hypothesis P : Parts cf strict objs wraps reg todo calls.
Hypothesis K : calm todo.

Lemma fresh_facts w : get wraps w = None -> hsum (cs w) objs = 0 /\ lsum (cc w) calls = 0.
Proof. intros G. pose proof (i_refs _ _ _ _ _ _ _ P w) as R. rewrite G in R. lia. Qed.

Lemma free_not_called a : get objs a = None -> ~ In a (map frame_addr calls).
Proof.
  intros G I1. destruct (call_alive _ _ _ _ _ _ _ P a I1) as (o & Go & _). congruence.
Qed.

Lemma p_make w a o :
  get wraps w = None -> get objs a = Some o -> 1 <= o_cpp o -> ~ In a (map frame_addr calls) ->
  Parts cf strict (put objs a (Some (o_set_cpp o (pred (o_cpp o)))))
    (put wraps w (Some (mk true a))) (reg1 cf reg a w) todo calls.
Proof.
  intros G Go C1 NI. destruct (fresh_facts w G) as [Z1 Z2].
  pose proof (p_new_wrap _ _ _ _ _ _ _ P K false false w G) as P1.
  eapply (p_attach _ _ _ _ _ _ _ P1 K w) in Go; try exact NI; try exact C1; try exact Z2;
    try apply get_put_eq; try reflexivity.
  2:{ unfold owns. cbn. destruct (c_policy cf); reflexivity. }
  2:{ intros b ob Gb Sf. exfalso. pose proof (self_sum _ _ _ _ Gb Sf). lia. }
  rewrite put_put in Go. change (w_set_obj _ _) with (mk true a) in Go.
  unfold reg1. destruct (c_registry cf) eqn:CR; auto.
  eapply (p_register _ _ _ _ _ _ _ Go K w); auto; try apply get_put_eq; try reflexivity.
Qed.


Lemma p_make_ref w a o :
  get wraps w = None -> get objs a = Some o -> c_policy cf = PNone ->
  Parts cf strict objs (put wraps w (Some (mk false a))) (reg1 cf reg a w) todo calls.
Proof.
  intros G Go PO. destruct (fresh_facts w G) as [Z1 Z2].
  pose proof (p_new_wrap _ _ _ _ _ _ _ P K false false w G) as P1.
  pose proof (p_flags _ _ _ _ _ _ _ P1 K w _ false (get_put_eq _ _ _ _) eq_refl eq_refl Z1 Z2) as P2.
  rewrite put_put in P2.
  eapply (p_refer _ _ _ _ _ _ _ P2 K w) in Go; try exact Z1; try exact Z2;
    try apply get_put_eq; try reflexivity.
  2:{ unfold owns. cbn. rewrite PO; reflexivity. }
  rewrite put_put in Go. change (w_set_obj _ _) with (mk false a) in Go.
  unfold reg1. destruct (c_registry cf) eqn:CR; auto.
  eapply (p_register _ _ _ _ _ _ _ Go K w); auto; try apply get_put_eq; try reflexivity.
Qed.
End Make.

Section Make2.
Variable cf : conf.
Variable strict : bool.
Variables (objs : heap cobj) (wraps : heap wrap) (reg : heap wid) (todo : list task) (calls : list frame).
Hypothesis P : Parts cf strict objs wraps reg todo calls.
Hypothesis K : calm todo.

Lemma p_make_new w a :
  get wraps w = None -> get objs a = None ->
  Parts cf strict (put objs a (Some (CObj 1 0 None false)))
    (put wraps w (Some (mk true a))) (reg1 cf reg a w) todo calls.
Proof.
  intros G Go. pose proof (free_not_called _ _ _ _ _ _ _ P a Go) as NI.
  pose proof (p_new_obj _ _ _ _ _ _ _ P K a Go) as P1.
  pose proof (p_make _ _ _ _ _ _ _ P1 K w a _ G (get_put_eq _ _ _ _)) as P2. cbn in P2.
  rewrite put_put in P2. apply P2; auto.
Qed.

(** The wrapper takes a new reference to a reference counted object. *)
Lemma p_make_rc w a o :
  is_rc cf = true -> 1 <= o_rc o ->
  get wraps w = None -> get objs a = Some o ->
  Parts cf strict (put objs a (Some (o_set_rc o (S (o_rc o)))))
    (put wraps w (Some (mk true a))) (reg1 cf reg a w) todo calls.
Proof.
  intros RC R1 G Go. destruct (fresh_facts _ _ _ _ _ _ _ P w G) as [Z1 Z2].
  pose proof (p_new_wrap _ _ _ _ _ _ _ P K false false w G) as P1.
  assert (P2 : Parts cf strict (put objs a (Some (o_set_rc o (S (o_rc o))))) (put wraps w (Some (mk true a))) reg todo calls).
  { rewrite <- (put_put _ wraps w (Some (Wrap Live 1 None true [] 1 false false false)) (Some (mk true a))).
    change (mk true a) with (w_set_obj (Wrap Live 1 None true [] 1 false false false) (Some a)).
    eapply (p_point _ _ _ _ _ _ _ P1 K w _ (Some a) a o); eauto; try apply get_put_eq; try reflexivity.
    - intros b Q. destruct (calm_reg _ _ _ _ K (i_reg _ _ _ _ _ _ _ P) b w Q) as (_ & r & Gr & _). congruence.
    - intros b ob Gb Sf. exfalso. pose proof (self_sum _ _ _ _ Gb Sf). lia.
    - intros x. pose proof (i_units _ _ _ _ _ _ _ P x) as U. rewrite put_put, hsum_new by auto.
      unfold ch at 2 4. unfold owner_of, owns. cbn [w_obj w_tmp w_owned w_set_obj negb andb].
      unfold is_rc in RC. destruct (c_policy cf) eqn:PO; try discriminate. cbn [andb].
      rewrite get_put. destruct (Nat.eqb_spec x a) as [->|N]; ne.
      + rewrite Nat.eqb_refl. rewrite Go in U. unfold units in *. unfold is_rc in *. rewrite PO in *. cbn.
        destruct U as [U1 U2]. destruct (o_rc o); [lia|]. cbn in U2. destruct strict; split; auto; lia.
      + cbn [b2n]. rewrite Nat.add_0_r. exact U. }
  unfold reg1. destruct (c_registry cf) eqn:CR; auto.
  eapply (p_register _ _ _ _ _ _ _ P2 K w); auto; try apply get_put_eq; try reflexivity.
Qed.
End Make2.

Ltac go :=
  repeat first
  [ progress cbv beta iota zeta delta [exec exec_stmt eval_cond bind block seq app run_code py_wrap source_ok new_obj ref unref
        live_wrap live_obj drop_cpp push setw seto set_wraps set_objs set_reg set_todo set_calls gives orb andb negb
        fresh_wrap w_set_refs w_set_obj w_set_owned w_set_wards w_set_ext w_set_virgin w_set_tmp
        o_set_rc o_set_cpp o_set_self]
  | progress cbn [s_objs s_wraps s_reg s_todo s_calls e_py e_val e_self e_new
        w_st w_refs w_obj w_owned w_wards w_ext w_sub w_virgin w_tmp
        o_rc o_cpp o_self o_helper r_owns r_ref r_manages r_free]
  | rewrite get_put_eq | rewrite put_put
  | match goal with
    | N : ?x <> ?y |- context [get (put ?l ?y ?z) ?x] => rewrite (get_put_ne _ l y z x N)
    | N : ?y <> ?x |- context [get (put ?l ?y ?z) ?x] => rewrite (get_put_ne _ l y z x (not_eq_sym N))
    | G : get ?l ?i = _ |- context [get ?l ?i] => rewrite G
    | G : w_st ?r = Live |- context [w_st ?r] => rewrite G
    | G : w_obj ?r = _ |- context [w_obj ?r] => rewrite G
    | G : o_self ?r = _ |- context [o_self ?r] => rewrite G
    | G : o_helper ?r = _ |- context [o_helper ?r] => rewrite G
    | G : c_registry ?r = _ |- context [c_registry ?r] => rewrite G
    end ].

Ltac fin := eexists; split; [reflexivity|]; unfold Inv; cbn [s_objs s_wraps s_reg s_todo s_calls].

Section Step.
Variable cf : conf.
Variable strict : bool.
Variables (objs : heap cobj) (wraps : heap wrap) (reg : heap wid) (todo : list task) (calls : list frame).
Notation st := (State objs wraps reg todo calls).
Hypothesis P : Parts cf strict objs wraps reg todo calls.
Hypothesis K : calm todo.

Notation good r := (exists s', r = Ok s' /\ Inv cf strict s').

Lemma e_cpp_new a : get objs a = None -> good (step_event cf (EvCppNew a) st).
Proof. intros G. cbn [step_event]. go. fin. apply p_new_obj; auto. Qed.

Lemma units_rc o h d : is_rc cf = true -> units cf strict o h d ->
  (if strict then o_rc o = o_cpp o + h else o_cpp o + h <= o_rc o) /\ d = (if o_rc o =? 0 then 1 else 0).
Proof. unfold units. intros ->. auto. Qed.
Lemma units_no o h d : is_rc cf = false -> units cf strict o h d ->
  if strict then o_cpp o + h + d = 1 else o_cpp o + h + d <= 1.
Proof. unfold units. intros ->. auto. Qed.

Lemma cpp_rc a o : is_rc cf = true -> get objs a = Some o -> 1 <= o_cpp o ->
  1 <= o_rc o /\ lsum (cd a) todo = 0
  /\ (if strict then o_rc o = o_cpp o + hsum (ch cf a) wraps else o_cpp o + hsum (ch cf a) wraps <= o_rc o).
Proof.
  intros RC G C1. pose proof (i_units _ _ _ _ _ _ _ P a) as U. rewrite G in U.
  apply units_rc in U; auto. destruct U as [U1 U2].
  assert (1 <= o_rc o) by (destruct strict; lia). destruct (o_rc o); [lia|]. cbn in U2. auto.
Qed.

(** C++ drops one of its references. *)
Lemma p_release_rc a o :
  is_rc cf = true -> get objs a = Some o -> 1 <= o_cpp o -> ~ In a (map frame_addr calls) ->
  Parts cf strict (put objs a (Some (CObj (pred (o_rc o)) (pred (o_cpp o)) (o_self o) (o_helper o)))) wraps reg
    ((match o_rc o with 1 => [KDelete a] | _ => [] end) ++ todo) calls.
Proof.
  intros RC G C1 NI. destruct (cpp_rc a o RC G C1) as (R1 & D0 & U).
  apply (p_obj _ _ _ _ _ _ _ P K a o); auto; try tauto.
  - destruct (o_rc o) as [|[|n]]; auto.
  - unfold units. rewrite RC. cbn [o_rc o_cpp]. destruct (o_rc o) as [|[|n]]; [lia| |]; cbn; destruct strict; split; lia.
Qed.

Lemma p_release a o :
  is_rc cf = false -> get objs a = Some o -> 1 <= o_cpp o -> ~ In a (map frame_addr calls) ->
  Parts cf strict (put objs a (Some (o_set_cpp o (pred (o_cpp o))))) wraps reg (KDelete a :: todo) calls.
Proof.
  intros RC G C1 NI. pose proof (i_units _ _ _ _ _ _ _ P a) as U. rewrite G in U. apply units_no in U; auto.
  change (KDelete a :: todo) with ([KDelete a] ++ todo).
  apply (p_obj _ _ _ _ _ _ _ P K a o); auto; try tauto; try congruence.
  unfold units. rewrite RC. cbn. destruct strict; lia.
Qed.

Lemma p_lose a o :
  (is_rc cf = true -> 1 <= o_rc o) ->
  strict = false -> get objs a = Some o -> ~ In a (map frame_addr calls) ->
  Parts cf strict (put objs a (Some (o_set_cpp o (pred (o_cpp o))))) wraps reg todo calls.
Proof.
  intros RC ST G NI. pose proof (i_units _ _ _ _ _ _ _ P a) as U. rewrite G in U.
  change todo with ([] ++ todo).
  apply (p_obj _ _ _ _ _ _ _ P K a o); auto; try tauto.
  unfold units in *. rewrite ST in *. cbn [o_rc o_cpp o_set_cpp length]. rewrite Nat.add_0_r.
  destruct (is_rc cf); [split; [lia|tauto]|lia].
Qed.

Lemma p_cpp_ref a o :
  is_rc cf = true -> get objs a = Some o -> 1 <= o_rc o ->
  Parts cf strict (put objs a (Some (CObj (S (o_rc o)) (S (o_cpp o)) (o_self o) (o_helper o)))) wraps reg todo calls.
Proof.
  intros RC G R1. pose proof (i_units _ _ _ _ _ _ _ P a) as U. rewrite G in U. apply units_rc in U; auto.
  change todo with ([] ++ todo).
  apply (p_obj _ _ _ _ _ _ _ P K a o); auto; try (cbn; lia).
  unfold units. rewrite RC. cbn [o_rc o_cpp length Nat.eqb]. destruct (o_rc o) as [|n]; [lia|]. cbn in U.
  destruct strict; split; lia.
Qed.

Lemma e_release a o :
  get objs a = Some o -> 1 <= o_cpp o -> ~ In a (map frame_addr calls) ->
  good (step_event cf (EvCppRelease a) st).
Proof.
  intros G C1 NI. cbn [step_event]. go. destruct (is_rc cf) eqn:RC.
  - destruct (cpp_rc a o RC G C1) as (R1 & D0 & U). pose proof (p_release_rc a o RC G C1 NI) as Q. go.
    destruct (o_rc o) as [|[|n]]; [lia| |]; go; fin; exact Q.
  - fin. apply p_release; auto.
Qed.

Lemma e_cpp_ref a o :
  is_rc cf = true -> get objs a = Some o -> 1 <= o_rc o -> good (step_event cf (EvCppRef a) st).
Proof. intros RC G R1. cbn [step_event]. go. fin. apply p_cpp_ref; auto. Qed.

Lemma e_new sub : good (step_event cf (EvNew sub) st).
Proof. cbn [step_event]. go. fin. apply p_new_wrap; auto. apply get_length. Qed.

Lemma e_init w a r :
  get objs a = None -> get wraps w = Some r -> w_st r = Live -> w_virgin r = true ->
  good (step_event cf (EvInit w a) st).
Proof.
  intros Ga G L V. destruct (i_virgin _ _ _ _ _ _ _ P w r G V) as [O1 T].
  pose proof (free_not_called _ _ _ _ _ _ _ P a Ga) as NI.
  assert (NC : lsum (cc w) calls = 0).
  { apply not_in_call'. intros I1. destruct (call_obj _ _ _ _ _ _ _ P w I1) as (r1 & a1 & G1 & O2 & _). congruence. }
  assert (Z : hsum (cs w) objs = 0).
  { destruct (Nat.eq_dec (hsum (cs w) objs) 0); auto. exfalso.
    destruct (hsum_pos _ (cs w) objs) as (b & ob & Gb & N); [lia|]. unfold cs in N.
    destruct (o_self ob) as [x|] eqn:Sf; [|cbn in N; lia]. destruct (Nat.eqb_spec x w) as [->|]; [|cbn in N; lia].
    destruct (i_self _ _ _ _ _ _ _ P b ob w r Gb Sf G) as (_ & Q & _). congruence. }
  pose proof (p_flags _ _ _ _ _ _ _ P K w r true G L O1 Z NC) as P1.
  pose proof (p_new_obj _ _ _ _ _ _ _ P1 K a Ga) as P2.
  assert (P3 : Parts cf strict (put objs a (Some (CObj 1 0 None false)))
    (put wraps w (Some (w_set_obj (w_set_virgin (w_set_owned r true) false) (Some a)))) reg todo calls).
  { pose proof (p_attach _ _ _ _ _ _ _ P2 K w _ a (CObj 1 1 None false) (get_put_eq _ _ _ _)) as Q. rewrite !put_put in Q. apply Q; auto.
    - unfold owns. cbn. rewrite T. destruct (c_policy cf); reflexivity.
    - apply get_put_eq.
    - intros b ob Gb Sf. look Gb; [discriminate|]. pose proof (self_sum _ _ _ _ Gb Sf). lia. }
  cbn [step_event]. unfold gen_init. destruct (c_helper cf) eqn:CH; [destruct (w_sub r) eqn:SB|].
  - go. rewrite SB. go. fin.
    pose proof (p_set_self _ _ _ _ _ _ _ P3 K w _ a (CObj 1 0 None false) (get_put_eq _ _ _ _)) as Q. rewrite !put_put in Q.
    assert (HZ : hsum (cs w) (put objs a (Some (CObj 1 0 None false))) = 0).
    { rewrite hsum_new by auto. rewrite Z. reflexivity. }
    cbn [o_rc o_cpp] in Q.
    assert (Q' := Q L eq_refl eq_refl T eq_refl HZ NC (get_put_eq _ _ _ _) eq_refl CH NI).
    revert Q'. unfold w_set_refs, w_set_obj, w_set_virgin, w_set_owned. cbn. rewrite L. intros Q'. exact Q'.
  - go. rewrite SB. go. fin. revert P3. unfold w_set_obj, w_set_virgin, w_set_owned. cbn. rewrite L. intros Q'. exact Q'.
  - go. fin. revert P3. unfold w_set_obj, w_set_virgin, w_set_owned. cbn. rewrite L. intros Q'. exact Q'.
Qed.

Lemma fresh_id : get wraps (length wraps) = None.
Proof. apply get_length. Qed.

Ltac made Q := go; revert Q; unfold reg1, mk; go; intros Q; fin; exact Q.

Lemma e_copy w a r b o :
  c_copyable cf = true -> get objs a = None ->
  get wraps w = Some r -> w_st r = Live -> w_obj r = Some b -> get objs b = Some o ->
  good (step_event cf (EvCopy w a) st).
Proof.
  intros CC Ga G L O1 Gb. cbn [step_event]. unfold gen_copy, gen_register. rewrite CC.
  pose proof (p_make_new _ _ _ _ _ _ _ P K _ a fresh_id Ga) as Q.
  pose proof fresh_id as FI. assert (NW : w <> length wraps) by congruence.
  destruct (c_registry cf) eqn:CR; made Q.
Qed.

Lemma e_value k v a :
  c_copyable cf = true -> get objs a = None ->
  (k = RValue \/ exists p o, k = RRef p /\ r_ref p || r_owns p || negb (r_manages p) = false /\ get objs v = Some o) ->
  good (step_event cf (EvReturn k (Some v) a) st).
Proof.
  intros CC Ga CASES. cbn [step_event].
  pose proof (p_make_new _ _ _ _ _ _ _ P K _ a fresh_id Ga) as Q.
  destruct CASES as [->|(p & o & -> & E & Gv)]; unfold gen_return.
  - unfold gen_copy_out, gen_register. rewrite CC. destruct (c_registry cf) eqn:CR; made Q.
  - rewrite E. unfold gen_copy_out, gen_register. rewrite CC. cbn [gives].
    assert (r_owns p = false) as -> by (destruct (r_ref p), (r_owns p); auto; discriminate).
    destruct (c_registry cf) eqn:CR; made Q.
Qed.

Lemma e_arg_value v a o :
  c_copyable cf = true -> get objs a = None -> get objs v = Some o ->
  good (step_event cf (EvArg AValue v a) st).
Proof.
  intros CC Ga Gv. cbn [step_event]. unfold gen_arg, gen_copy_out, gen_register. rewrite CC.
  pose proof (p_make_new _ _ _ _ _ _ _ P K _ a fresh_id Ga) as Q.
  destruct (c_registry cf) eqn:CR; made Q.
Qed.

(** A wrapper found in the registry. *)
Lemma found_wrap v w : get reg v = Some w ->
  exists r, get wraps w = Some r /\ w_st r = Live /\ w_obj r = Some v /\ w_tmp r = false.
Proof.
  intros Q. destruct (calm_reg _ _ _ _ K (i_reg _ _ _ _ _ _ _ P) v w Q) as (_ & r & G & A & B & C1). eauto 10.
Qed.

(** The wrapper of a Python-derived instance. *)
Lemma self_wrap v o : get objs v = Some o -> o_helper o = true ->
  exists w r, o_self o = Some w /\ get wraps w = Some r /\ w_st r = Live /\ w_owned r = true /\ w_virgin r = false
  /\ (w_obj r = None \/ w_obj r = Some v)
  /\ (is_rc cf = true -> 1 <= o_rc o -> w_obj r = Some v /\ w_tmp r = false).
Proof.
  intros G H1. destruct (i_helper _ _ _ _ _ _ _ P v o G) as [A _]. destruct (A H1) as (_ & w & Sf).
  destruct (self_exists _ _ _ _ _ _ _ P v o w G Sf) as (r & Gw & L & _).
  destruct (i_self _ _ _ _ _ _ _ P v o w r G Sf Gw) as (A1 & A2 & A3 & A4).
  exists w, r. repeat (split; [assumption|]). intros RC R1. destruct (A4 RC) as [?|?]; auto. lia.
Qed.

(** C++ hands its unit to the wrapper of a Python-derived instance. *)
Lemma p_take_self v o w r :
  is_rc cf = false -> get objs v = Some o -> 1 <= o_cpp o -> ~ In v (map frame_addr calls) ->
  o_self o = Some w -> get wraps w = Some r -> w_st r = Live -> w_owned r = true -> w_virgin r = false ->
  w_obj r = None \/ w_obj r = Some v ->
  w_obj r = None /\
  Parts cf strict (put objs v (Some (o_set_cpp o (pred (o_cpp o)))))
    (put wraps w (Some (w_set_obj r (Some v)))) reg todo calls.
Proof.
  intros RC G C1 NI Sf Gw L OW V OB.
  assert (NC : lsum (cc w) calls = 0).
  { apply not_in_call'. intros I1. destruct (call_obj _ _ _ _ _ _ _ P w I1) as (r1 & a1 & G1 & O2 & I2).
    assert (a1 = v) by (destruct OB; congruence). subst a1. tauto. }
  pose proof (tmp_in_call _ _ _ _ _ _ _ P w r Gw NC) as T.
  assert (OWN : owns cf r = true) by (unfold owns; rewrite T, OW; destruct (c_policy cf); reflexivity).
  assert (ON : w_obj r = None).
  { destruct OB as [OB|OB]; auto. exfalso.
    destruct (owner_alive _ _ _ _ _ _ _ P w r v Gw OWN OB) as (o1 & _ & HC).
    pose proof (i_units _ _ _ _ _ _ _ P v) as U. rewrite G in U. apply units_no in U; auto.
    destruct strict; lia. }
  split; auto. apply p_attach; auto.
  intros b ob Gb Sb. eapply (uniq_self _ _ _ _ _ _ _ P); eauto.
Qed.

Lemma setext_live r : w_st r = Live ->
  Wrap Live (w_refs r) (w_obj r) (w_owned r) (w_wards r) (w_ext r) (w_sub r) (w_virgin r) (w_tmp r) = r.
Proof. destruct r; cbn; intros ->; reflexivity. Qed.
End Step.

Lemma put_comm A (l : heap A) i j x y : i <> j -> put (put l i x) j y = put (put l j y) i x.
Proof.
  revert l j; induction i as [|i IH]; intros [|h t] [|j] N; cbn; try tauto; auto.
  - f_equal. apply IH. lia.
  - f_equal. apply IH. lia.
Qed.

Lemma seq_done c d : seq (seq c Done) d = seq c d.
Proof. revert d; induction c as [| |b x _ y _ k IHk]; intros; cbn; f_equal; auto. Qed.

Lemma ref_as_ptr cf p v a s :
  r_ref p || r_owns p || negb (r_manages p) = true ->
  step_event cf (EvReturn (RRef p) (Some v) a) s =
  step_event cf (EvReturn (RPtr (ROpts (r_owns p) (r_ref p) (r_manages p) false)) (Some v) a) s.
Proof.
  intros E. cbn [step_event gives]. cbn [r_owns r_free]. rewrite orb_false_r. unfold gen_return. rewrite E.
  change (gen_shared_object_return cf (ROpts (r_owns p) (r_ref p) (r_manages p) false))
    with (gen_shared_object_return cf p). cbn [r_free].
  destruct (gen_shared_object_return cf p) as [c|]; auto. rewrite seq_done. reflexivity.
Qed.


Section Ret.
Variable cf : conf.
Variable strict : bool.
Variables (objs : heap cobj) (wraps : heap wrap) (reg : heap wid) (todo : list task) (calls : list frame).
Notation st := (State objs wraps reg todo calls).
Hypothesis P : Parts cf strict objs wraps reg todo calls.
Hypothesis K : calm todo.
Notation good r := (exists s', r = Ok s' /\ Inv cf strict s').

Ltac made Q := go; revert Q; unfold reg1, mk; go; intros Q; fin; exact Q.

Lemma e_return_ptr p v a :
  return_ok cf strict st p v a -> good (step_event cf (EvReturn (RPtr p) (Some v) a) st).
Proof.
  destruct p as [ow rf mg fr]. unfold return_ok, in_call, object, free_address, self_points, wrapper.
  cbn [s_objs s_wraps s_reg s_calls r_owns r_ref r_manages r_free].
  intros (o & Go & H0).
  pose proof (fresh_id wraps) as FI.
  cbn [step_event]. unfold gen_return, gen_shared_object_return, gen_lookup_or_create, gen_create_new_wrapper, gen_register.
  cbn [r_owns r_ref r_manages r_free gives].
  destruct (is_rc cf) eqn:RC.
  - (* reference counting *)
    destruct H0 as (R1 & -> & H0). rewrite orb_false_r.
    destruct ow; cbn [andb].
    + destruct H0 as [C1 NI].
      destruct (c_helper cf && o_helper o) eqn:HH.
      { apply andb_true_iff in HH. destruct HH as [CH HH].
        destruct (self_wrap _ _ _ _ _ _ _ P v o Go HH) as (w & r & Sf & Gw & L & OW & V & OB & RR).
        destruct (RR RC R1) as [O1 T].
        pose proof (p_incref _ _ _ _ _ _ _ P K w r Gw L) as Q1.
        pose proof (p_release_rc _ _ _ _ _ _ _ Q1 K v o RC Go C1 NI) as Q.
        rewrite CH. go. destruct (o_rc o) as [|[|n]]; [lia| |]; made Q. }
      assert (HELP : c_helper cf = false \/ c_helper cf = true /\ o_helper o = false).
      { destruct (c_helper cf); auto. }
      destruct (c_registry cf) eqn:CR; [destruct (get reg v) as [w|] eqn:GR|].
      * destruct (found_wrap _ _ _ _ _ _ _ P K v w GR) as (r & Gw & L & O1 & T).
        pose proof (p_incref _ _ _ _ _ _ _ P K w r Gw L) as Q1.
        pose proof (p_release_rc _ _ _ _ _ _ _ Q1 K v o RC Go C1 NI) as Q.
        destruct HELP as [HE|[HE HO]]; rewrite HE; go; destruct (o_rc o) as [|[|n]]; try lia; made Q.
      * pose proof (p_make _ _ _ _ _ _ _ P K _ v o FI Go C1 NI) as Q.
        destruct HELP as [HE|[HE HO]]; rewrite HE; made Q.
      * pose proof (p_make _ _ _ _ _ _ _ P K _ v o FI Go C1 NI) as Q.
        destruct HELP as [HE|[HE HO]]; rewrite HE; made Q.
    + subst mg.
      destruct (c_helper cf && o_helper o) eqn:HH.
      { apply andb_true_iff in HH. destruct HH as [CH HH].
        destruct (self_wrap _ _ _ _ _ _ _ P v o Go HH) as (w & r & Sf & Gw & L & OW & V & OB & RR).
        destruct (RR RC R1) as [O1 T].
        pose proof (p_incref _ _ _ _ _ _ _ P K w r Gw L) as Q.
        rewrite CH. made Q. }
      assert (HELP : c_helper cf = false \/ c_helper cf = true /\ o_helper o = false).
      { destruct (c_helper cf); auto. }
      destruct (c_registry cf) eqn:CR; [destruct (get reg v) as [w|] eqn:GR|].
      * destruct (found_wrap _ _ _ _ _ _ _ P K v w GR) as (r & Gw & L & O1 & T).
        pose proof (p_incref _ _ _ _ _ _ _ P K w r Gw L) as Q.
        destruct HELP as [HE|[HE HO]]; rewrite HE; made Q.
      * pose proof (p_make_rc _ _ _ _ _ _ _ P K _ v o RC R1 FI Go) as Q.
        destruct HELP as [HE|[HE HO]]; rewrite HE; made Q.
      * pose proof (p_make_rc _ _ _ _ _ _ _ P K _ v o RC R1 FI Go) as Q.
        destruct HELP as [HE|[HE HO]]; rewrite HE; made Q.
  - destruct ow; cbn [andb orb].
    + destruct H0 as (C1 & NI & -> & ST).
      destruct (c_helper cf && o_helper o) eqn:HH.
      { apply andb_true_iff in HH. destruct HH as [CH HH].
        destruct (self_wrap _ _ _ _ _ _ _ P v o Go HH) as (w & r & Sf & Gw & L & OW & V & OB & RR).
        destruct (p_take_self _ _ _ _ _ _ _ P K v o w r RC Go C1 NI Sf Gw L OW V OB) as [O1 Q1].
        pose proof (p_incref _ _ _ _ _ _ _ Q1 K w _ (get_put_eq _ _ _ _) L) as Q. rewrite put_put in Q.
        rewrite CH. made Q. }
      assert (HELP : c_helper cf = false \/ c_helper cf = true /\ o_helper o = false).
      { destruct (c_helper cf); auto. }
      destruct (c_registry cf) eqn:CR; [destruct (get reg v) as [w|] eqn:GR|].
      * destruct (found_wrap _ _ _ _ _ _ _ P K v w GR) as (r & Gw & L & O1 & T).
        assert (SF : strict = false) by (destruct strict; auto; specialize (ST eq_refl); congruence).
        pose proof (p_lose _ _ _ _ _ _ _ P K v o) as Q1. rewrite RC in Q1. specialize (Q1 ltac:(discriminate) SF Go NI).
        pose proof (p_incref _ _ _ _ _ _ _ Q1 K w r Gw L) as Q.
        destruct HELP as [HE|[HE HO]]; rewrite HE; made Q.
      * pose proof (p_make _ _ _ _ _ _ _ P K _ v o FI Go C1 NI) as Q.
        destruct HELP as [HE|[HE HO]]; rewrite HE; made Q.
      * pose proof (p_make _ _ _ _ _ _ _ P K _ v o FI Go C1 NI) as Q.
        destruct HELP as [HE|[HE HO]]; rewrite HE; made Q.
    + destruct H0 as (SP & H0 & HF).
      destruct (c_helper cf && o_helper o) eqn:HH.
      { apply andb_true_iff in HH. destruct HH as [CH HH].
        destruct (self_wrap _ _ _ _ _ _ _ P v o Go HH) as (w & r & Sf & Gw & L & OW & V & OB & RR).
        destruct (SP w Sf) as (r' & Gr' & O1). assert (r' = r) by congruence. subst r'.
        assert (fr = false) by (destruct fr; auto; destruct (HF eq_refl) as (_ & _ & X); congruence). subst fr.
        pose proof (p_incref _ _ _ _ _ _ _ P K w r Gw L) as Q.
        rewrite CH.
        assert (COPY : rf || negb mg = false -> c_copyable cf = true) by (destruct (rf || negb mg); [discriminate|tauto]).
        destruct rf; [|destruct mg; [rewrite COPY by reflexivity|]]; made Q. }
      assert (HELP : c_helper cf = false \/ c_helper cf = true /\ o_helper o = false).
      { destruct (c_helper cf); auto. }
      destruct (rf || negb mg) eqn:RM.
      * destruct H0 as [PO ->].
        assert (EQ : (if rf then Some [SObjVal; SFlags false] else
            if mg then if c_copyable cf then Some [SNew false FromVal; SFlags true] else None else Some [SObjVal; SFlags false])
            = Some [SObjVal; SFlags false]).
        { destruct rf; auto. destruct mg; auto. discriminate. }
        rewrite EQ.
        pose proof (p_make_ref _ _ _ _ _ _ _ P K _ v o FI Go PO) as Q2.
        destruct (c_registry cf) eqn:CR; [destruct (get reg v) as [w|] eqn:GR|].
        -- destruct (found_wrap _ _ _ _ _ _ _ P K v w GR) as (r & Gw & L & O1 & T).
           pose proof (p_incref _ _ _ _ _ _ _ P K w r Gw L) as Q.
           destruct HELP as [HE|[HE HO]]; rewrite HE; made Q.
        -- destruct HELP as [HE|[HE HO]]; rewrite HE; made Q2.
        -- destruct HELP as [HE|[HE HO]]; rewrite HE; made Q2.
      * destruct H0 as [CC Ga]. rewrite CC.
        apply orb_false_iff in RM. destruct RM as [-> RM]. assert (mg = true) by (destruct mg; auto; discriminate). subst mg.
        assert (AV : a <> v) by congruence.
        destruct fr.
        -- destruct (HF eq_refl) as (C1 & NI & HO).
           destruct (c_registry cf) eqn:CR; [destruct (get reg v) as [w|] eqn:GR|].
           ++ destruct (found_wrap _ _ _ _ _ _ _ P K v w GR) as (r & Gw & L & O1 & T).
              pose proof (p_incref _ _ _ _ _ _ _ P K w r Gw L) as Q1.
              pose proof (p_release _ _ _ _ _ _ _ Q1 K v o RC Go C1 NI) as Q.
              destruct (c_helper cf); made Q.
           ++ pose proof (p_make_new _ _ _ _ _ _ _ P K _ a FI Ga) as Q1.
              pose proof (p_release _ _ _ _ _ _ _ Q1 K v o RC) as Q. rewrite get_put_ne in Q by auto.
              specialize (Q Go C1 NI). rewrite put_comm in Q by auto.
              assert (Ga' : get (put objs v (Some (CObj (o_rc o) (pred (o_cpp o)) (o_self o) (o_helper o)))) a = None)
                by (rewrite get_put_ne; auto).
              destruct (c_helper cf); made Q.
           ++ pose proof (p_make_new _ _ _ _ _ _ _ P K _ a FI Ga) as Q1.
              pose proof (p_release _ _ _ _ _ _ _ Q1 K v o RC) as Q. rewrite get_put_ne in Q by auto.
              specialize (Q Go C1 NI). rewrite put_comm in Q by auto.
              assert (Ga' : get (put objs v (Some (CObj (o_rc o) (pred (o_cpp o)) (o_self o) (o_helper o)))) a = None)
                by (rewrite get_put_ne; auto).
              destruct (c_helper cf); made Q.
        -- pose proof (p_make_new _ _ _ _ _ _ _ P K _ a FI Ga) as Q2.
           destruct (c_registry cf) eqn:CR; [destruct (get reg v) as [w|] eqn:GR|].
           ++ destruct (found_wrap _ _ _ _ _ _ _ P K v w GR) as (r & Gw & L & O1 & T).
              pose proof (p_incref _ _ _ _ _ _ _ P K w r Gw L) as Q.
              destruct HELP as [HE|[HE HO]]; rewrite HE; made Q.
           ++ destruct HELP as [HE|[HE HO]]; rewrite HE; made Q2.
           ++ destruct HELP as [HE|[HE HO]]; rewrite HE; made Q2.
Qed.
End Ret.
