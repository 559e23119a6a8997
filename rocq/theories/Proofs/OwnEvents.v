(** * Elementary changes between pending work that keep the invariant *)
From Coq Require Import List Arith Bool Lia.
From Verif.Model Require Import Ownership.
From Verif.Spec Require Import OwnSpec.
From Verif.Proofs Require Import OwnHeap OwnInv OwnTick.
Import ListNotations.

(** No slot function is about to touch the registry, and no tp_clear is pending. *)
Definition calm (todo : list task) : Prop :=
  (forall w c rest, todo <> KCode w (IUnregister :: c) :: rest)
  /\ (forall w c, In (KCode w c) todo -> existsb is_ifree c = false -> existsb is_idelete c = false).

Lemma calm_push t todo : calm todo -> (forall w c, t <> KCode w c) -> calm (t :: todo).
Proof.
  intros [A B] N. split.
  - intros w c rest E. injection E as E _. exact (N _ _ E).
  - intros w c [E|I1]; [destruct (N _ _ E)|eauto].
Qed.

Lemma calm_gc cf objs reg todo calls : calm todo -> P_gc cf objs reg todo calls.
Proof. intros [_ B] w c I1 F D. rewrite (B w c I1 F) in D. discriminate. Qed.

Lemma hsum_new A (f : A -> nat) l i x : get l i = None -> hsum f (put l i (Some x)) = hsum f l + f x.
Proof. intros G. pose proof (hsum_put _ f l i (Some x)) as Q. rewrite G in Q. cbn in Q. lia. Qed.

Lemma calm_reg cf wraps reg todo : calm todo -> P_reg cf wraps reg todo ->
  forall a w, get reg a = Some w ->
  c_registry cf = true /\ exists r, get wraps w = Some r /\ w_obj r = Some a /\ w_tmp r = false /\ w_st r = Live.
Proof.
  intros [A _] P a w Q. destruct (P a w Q) as (C1 & r & G & O1 & T & [D|(c & rest & D)]).
  - split; auto. exists r; auto.
  - destruct (A _ _ _ D).
Qed.

Lemma reg_intro cf wraps reg todo :
  (forall a w, get reg a = Some w ->
   c_registry cf = true /\ exists r, get wraps w = Some r /\ w_obj r = Some a /\ w_tmp r = false /\ w_st r = Live) ->
  P_reg cf wraps reg todo.
Proof.
  intros A a w Q. destruct (A a w Q) as (C1 & r & G & O1 & T & D). split; auto. exists r; auto 10.
Qed.

Ltac kd := match goal with K : calm _, D : _ = KCode _ (IUnregister :: _) :: _ |- _ =>
  exfalso; exact (proj1 K _ _ _ D) end.

Section Prims.
Variable cf : conf.
Variable strict : bool.
Variables (objs : heap cobj) (wraps : heap wrap) (reg : heap wid) (todo : list task) (calls : list frame).
Hypothesis P : Parts cf strict objs wraps reg todo calls.
Hypothesis K : calm todo.

Lemma p_new_wrap sub virgin w :
  get wraps w = None ->
  Parts cf strict objs (put wraps w (Some (Wrap Live 1 None true [] 1 sub virgin false))) reg todo calls.
Proof.
  intros G. pose proof (i_refs _ _ _ _ _ _ _ P w) as R0. rewrite G in R0.
  constructor; boil1 P.
  - intros x. pose proof (i_refs _ _ _ _ _ _ _ P x) as R. rewrite hsum_new by auto.
    unfold cw at 2 4. cbn [w_wards count_occ].
    rewrite get_put. eqcase x; [wcbn; lia|]. destruct (get wraps x); lia.
  - intros x y Q. look Q; [lia|]. exact (i_live _ _ _ _ _ _ _ P _ _ Q).
  - intros x y Q. look Q; [auto|]. exact (i_dead _ _ _ _ _ _ _ P _ _ Q).
  - intros x. pose proof (i_units _ _ _ _ _ _ _ P x) as R. rewrite hsum_new by auto.
    unfold ch at 2 4. unfold owner_of. cbn [w_obj]. rewrite andb_false_r. cbn [b2n]. rewrite Nat.add_0_r. exact R.
  - intros aa oo x y Ga Sf Q. look Q; [|exact (i_self _ _ _ _ _ _ _ P _ _ _ _ Ga Sf Q)].
    destruct (self_exists _ _ _ _ _ _ _ P aa oo w Ga Sf) as (r & Gr & _). congruence.
  - intros x y Q. look Q; [auto|]. exact (i_virgin _ _ _ _ _ _ _ P _ _ Q).
  - intros D x y Q. look Q; [auto|]. exact (i_nodict _ _ _ _ _ _ _ P D _ _ Q).
  - intros x. pose proof (i_dying _ _ _ _ _ _ _ P x) as R. rewrite get_put. eqcase x; [|exact R].
    rewrite G in R. exact R.
  - intros x c y I1 F Q. look Q; [|exact (i_tail _ _ _ _ _ _ _ P x c y I1 F Q)].
    destruct (dealloc_exists _ _ _ _ _ _ _ P w c I1 F) as (r & Gr & _). congruence.
  - apply reg_intro. intros a x Q. destruct (calm_reg _ _ _ _ K (i_reg _ _ _ _ _ _ _ P) a x Q) as (C1 & r & Gr & A).
    split; auto. exists r. rewrite get_put_ne; [auto|congruence].
  - apply (calls_mono _ _ _ _ _ (i_calls _ _ _ _ _ _ _ P)); eauto 10.
    intros x y _ Q. rewrite get_put_ne; [eauto 10|congruence].
  - intros x y Q T. look Q; [discriminate|]. exact (i_tmp _ _ _ _ _ _ _ P _ _ Q T).
Qed.

Lemma p_new_obj a :
  get objs a = None ->
  Parts cf strict (put objs a (Some (CObj 1 1 None false))) wraps reg todo calls.
Proof.
  intros G. pose proof (i_units _ _ _ _ _ _ _ P a) as R0. rewrite G in R0.
  assert (HS : forall x, hsum (cs x) (put objs a (Some (CObj 1 1 None false))) = hsum (cs x) objs).
  { intros x. rewrite hsum_new by auto. unfold cs at 2. cbn. lia. }
  constructor; boil1 P.
  - intros x. rewrite HS. exact (i_refs _ _ _ _ _ _ _ P x).
  - intros x. rewrite get_put. eqcase x; [|exact (i_units _ _ _ _ _ _ _ P x)].
    destruct R0 as [-> ->]. unfold units. cbn. destruct (is_rc cf), strict; lia.
  - intros x o Q. look Q; [|exact (i_helper _ _ _ _ _ _ _ P _ _ Q)]. split; [discriminate|intros ? ?; discriminate].
  - intros x o w r Q. look Q; [discriminate|]. exact (i_self _ _ _ _ _ _ _ P x o w r Q).
  - intros x. rewrite HS. exact (i_uniq _ _ _ _ _ _ _ P x).
  - apply (calls_mono _ _ _ _ _ (i_calls _ _ _ _ _ _ _ P)); eauto 10.
    + intros x o _ Q. rewrite get_put_ne; [eauto 10|congruence].
    + intros w r _ _ _ Z. rewrite HS; auto.
  - apply calm_gc; auto.
Qed.

(** The counts of an object change. *)
Lemma p_obj a o o' ts :
  get objs a = Some o ->
  o_self o' = o_self o -> o_helper o' = o_helper o ->
  (In a (map frame_addr calls) -> 1 <= o_cpp o -> 1 <= o_cpp o') ->
  (is_rc cf = true -> 1 <= o_rc o) ->
  ts = [] \/ ts = [KDelete a] ->
  units cf strict o' (hsum (ch cf a) wraps) (lsum (cd a) todo + length ts) ->
  Parts cf strict (put objs a (Some o')) wraps reg (ts ++ todo) calls.
Proof.
  intros G S1 S2 CL RC HT U.
  assert (HS : forall x, hsum (cs x) (put objs a (Some o')) = hsum (cs x) objs).
  { intros x. apply (hsum_same _ (cs x) objs a o); auto. unfold cs. rewrite S1; reflexivity. }
  assert (HK : forall x, lsum (ck x) ts = 0) by (intros x; destruct HT as [->| ->]; reflexivity).
  assert (HZ : forall x, lsum (cz x) ts = 0) by (intros x; destruct HT as [->| ->]; reflexivity).
  assert (HI : forall x d', In (KCode x d') (ts ++ todo) -> In (KCode x d') todo).
  { intros x d' I1. destruct HT as [->| ->]; auto. destruct I1 as [I1|I1]; [discriminate|auto]. }
  constructor; boil1 P.
  - intros x. rewrite HS, lsum_app, HK. exact (i_refs _ _ _ _ _ _ _ P x).
  - intros x. rewrite get_put, lsum_app. eqcase x.
    + destruct HT as [->| ->]; cbn [lsum length] in *; tasks; cbn [b2n]; rewrite Nat.add_comm; exact U.
    + pose proof (i_units _ _ _ _ _ _ _ P x) as R.
      destruct HT as [->| ->]; tasks; ne; exact R.
  - intros x y Q. look Q; [|exact (i_helper _ _ _ _ _ _ _ P _ _ Q)].
    rewrite S1, S2. exact (i_helper _ _ _ _ _ _ _ P _ _ G).
  - intros x y w r Q Sf Gw. look Q; [|exact (i_self _ _ _ _ _ _ _ P _ _ _ _ Q Sf Gw)].
    rewrite S1 in Sf. destruct (i_self _ _ _ _ _ _ _ P _ _ _ _ G Sf Gw) as (A & B & C1 & D).
    repeat (split; [assumption|]). intros E. destruct (D E) as [?|Z]; auto. specialize (RC E). lia.
  - intros x. rewrite HS. exact (i_uniq _ _ _ _ _ _ _ P x).
  - pose proof (i_code _ _ _ _ _ _ _ P) as C1. destruct HT as [->| ->]; exact C1.
  - intros x. rewrite lsum_app, HZ. exact (i_dying _ _ _ _ _ _ _ P x).
  - intros x c y I1. apply HI in I1. exact (i_tail _ _ _ _ _ _ _ P x c y I1).
  - apply reg_intro. exact (calm_reg _ _ _ _ K (i_reg _ _ _ _ _ _ _ P)).
  - apply (calls_mono _ _ _ _ _ (i_calls _ _ _ _ _ _ _ P)); eauto 10.
    + intros x y I1 Q. rewrite get_put. eqcase x; [|eauto 10].
      rewrite G in Q; injection Q as <-. exists o'; auto.
    + intros w r _ _ _ Z. rewrite HS; auto.
  - apply calm_gc. destruct HT as [->| ->]; auto. apply calm_push; auto. discriminate.
Qed.

(** A reference appears: [ext] counts it. *)
Lemma p_incref w r :
  get wraps w = Some r -> w_st r = Live ->
  Parts cf strict objs (put wraps w (Some (w_set_ext (w_set_refs r (S (w_refs r))) (S (w_ext r))))) reg todo calls.
Proof.
  intros G L. constructor; boil P G; try kd.
  - pose_refs P x R. eqcase x; [rewrite G in R; wcbn; lia|exact R].
  - rewrite L; lia.
Qed.

Lemma p_drop w r :
  get wraps w = Some r -> w_st r = Live -> 1 <= w_ext r ->
  Parts cf strict objs (put wraps w (Some (w_set_ext r (pred (w_ext r))))) reg (KDecref w :: todo) calls.
Proof.
  intros G L N. constructor; boil P G; try kd.
  - pose_refs P x R. eqcase x; ne; [rewrite G in R; tasks; wcbn; lia|exact R].
  - intros x c y [I1|I1] F Q; [discriminate|]. look Q.
    + exact (i_tail _ _ _ _ _ _ _ P _ _ _ I1 F G).
    + exact (i_tail _ _ _ _ _ _ _ P _ _ _ I1 F Q).
  - apply calm_gc, calm_push; auto. discriminate.
Qed.

(** Flags of a wrapper without an object. *)
Lemma p_flags w r b :
  get wraps w = Some r -> w_st r = Live -> w_obj r = None -> hsum (cs w) objs = 0 ->
  lsum (cc w) calls = 0 ->
  Parts cf strict objs (put wraps w (Some (w_set_virgin (w_set_owned r b) false))) reg todo calls.
Proof.
  intros G L O1 Z NC.
  assert (HU : forall x, hsum (ch cf x) (put wraps w (Some (w_set_virgin (w_set_owned r b) false))) = hsum (ch cf x) wraps).
  { intros x. apply (hsum_same _ (ch cf x) wraps w r); auto. unfold ch, owner_of. cbn [w_obj w_set_virgin w_set_owned].
    rewrite O1, !andb_false_r. reflexivity. }
  constructor; boil P G; try kd.
  - pose_refs P x R. eqcase x; [rewrite G in R; exact R|exact R].
  - intros x. rewrite HU. exact (i_units _ _ _ _ _ _ _ P x).
  - exfalso. pose proof (hsum_get _ (cs w) objs aa) as Q. rewrite Ga in Q; cbn [oval] in Q.
    unfold cs in Q at 1. rewrite Sf, Nat.eqb_refl in Q; cbn in Q. lia.
  - discriminate.
  - apply (calls_mono _ _ _ _ _ (i_calls _ _ _ _ _ _ _ P)); eauto 10.
    intros x y I1 Q. rewrite get_put. eqcase x; [|eauto 10]. exfalso. apply (not_in_call calls w NC I1).
Qed.

Lemma self_sum a o w : get objs a = Some o -> o_self o = Some w -> 1 <= hsum (cs w) objs.
Proof.
  intros Ga Sf. pose proof (hsum_get _ (cs w) objs a) as Q. rewrite Ga in Q; cbn [oval] in Q.
  unfold cs in Q at 1. rewrite Sf, Nat.eqb_refl in Q; cbn in Q. lia.
Qed.

Lemma tmp_in_call w r : get wraps w = Some r -> lsum (cc w) calls = 0 -> w_tmp r = false.
Proof.
  intros G NC. destruct (w_tmp r) eqn:T; auto. exfalso.
  destruct (i_tmp _ _ _ _ _ _ _ P w r G T) as (a & _ & [Q|Q]);
    apply (not_in_call calls w NC); apply in_map_iff; eexists; split; eauto; reflexivity.
Qed.

(** The object pointer of a wrapper changes together with the counts of the
    object at [a]. *)
Lemma p_point w r (v : option addr) a o o' :
  get wraps w = Some r -> w_st r = Live -> w_virgin r = false ->
  lsum (cc w) calls = 0 ->
  (forall b, get reg b <> Some w) ->
  get objs a = Some o -> o_self o' = o_self o -> o_helper o' = o_helper o -> (o_rc o' = o_rc o \/ 1 <= o_rc o) ->
  (In a (map frame_addr calls) -> 1 <= o_cpp o -> 1 <= o_cpp o') ->
  (forall b ob, get objs b = Some ob -> o_self ob = Some w ->
     (v = None /\ is_rc cf = false) \/ v = Some b) ->
  P_units cf strict (put objs a (Some o')) (put wraps w (Some (w_set_obj r v))) todo ->
  Parts cf strict (put objs a (Some o')) (put wraps w (Some (w_set_obj r v))) reg todo calls.
Proof.
  intros G L V NC NR Go S1 S2 S3 CL SV HU.
  assert (HS : forall x, hsum (cs x) (put objs a (Some o')) = hsum (cs x) objs).
  { intros x. apply (hsum_same _ (cs x) objs a o); auto. unfold cs. rewrite S1; reflexivity. }
  pose proof (tmp_in_call w r G NC) as NT.
  assert (SELF : forall b ob, get (put objs a (Some o')) b = Some ob ->
     exists ob', get objs b = Some ob' /\ o_self ob' = o_self ob /\ o_helper ob' = o_helper ob /\ (o_rc ob' = o_rc ob \/ 1 <= o_rc ob')).
  { intros b ob Q. look Q; [exists o; repeat (split; [solve [auto]|]); destruct S3 as [-> | ?]; auto|eauto 10]. }
  constructor; boil P G; try kd.
  - intros x. rewrite HS. same. rewrite get_put. pose proof (i_refs _ _ _ _ _ _ _ P x) as R.
    eqcase x; [rewrite G in R; exact R|exact R].
  - congruence.
  - exact HU.
  - intros x y Q. destruct (SELF x y Q) as (y' & Q' & E1 & E2 & E3).
    rewrite <- E1, <- E2. exact (i_helper _ _ _ _ _ _ _ P _ _ Q').
  - destruct (SELF aa oo Ga) as (y' & Q' & E1 & E2 & E3). rewrite <- E1 in Sf.
    destruct (i_self _ _ _ _ _ _ _ P _ _ _ _ Q' Sf G) as (A1 & A2 & A3 & A4).
    repeat (split; [assumption|]).
    destruct (SV aa y' Q' Sf) as [[-> RC]| ->]; [split; auto; congruence|split; auto].
  - destruct (SELF aa oo Ga) as (y' & Q' & E1 & E2 & E3). rewrite <- E1 in Sf.
    destruct (i_self _ _ _ _ _ _ _ P _ _ _ _ Q' Sf Q) as (A1 & A2 & A3 & A4).
    repeat (split; [assumption|]). intros RC. destruct (A4 RC) as [?|?]; auto. right. lia.
  - intros x. rewrite HS. exact (i_uniq _ _ _ _ _ _ _ P x).
  - congruence.
  - intros x c y I1 F Q. look Q; [|exact (i_tail _ _ _ _ _ _ _ P x c y I1 F Q)].
    destruct (dealloc_exists _ _ _ _ _ _ _ P w c I1 F) as (r' & Gr & D & _). congruence.
  - exfalso. exact (NR _ Q).
  - apply (calls_mono _ _ _ _ _ (i_calls _ _ _ _ _ _ _ P)).
    + intros x y I1 Q. rewrite get_put. eqcase x; [|eauto 10].
      rewrite Go in Q; injection Q as <-. exists o'; auto.
    + intros x y I1 Q. rewrite get_put. eqcase x; [|eauto 10]. exfalso. apply (not_in_call calls w NC I1).
    + intros x y _ _ _ Z. rewrite HS; auto.
  - congruence.
  - apply calm_gc; auto.
Qed.

Lemma put_same A (l : heap A) i x : get l i = Some x -> put l i (Some x) = l.
Proof.
  revert l; induction i as [|i IH]; intros [|h t]; unfold get; cbn; try discriminate.
  - congruence.
  - intros Q. f_equal. apply IH. exact Q.
Qed.

Lemma uniq_self a b o o' w :
  get objs a = Some o -> get objs b = Some o' -> o_self o = Some w -> o_self o' = Some w -> a = b.
Proof.
  intros G1 G2 S1 S2. destruct (Nat.eq_dec a b) as [|N]; auto. exfalso.
  pose proof (hsum_two _ (cs w) objs a b o o' N G1 G2) as Q. pose proof (i_uniq _ _ _ _ _ _ _ P w) as U.
  unfold cs in Q at 1 2. rewrite S1, S2, Nat.eqb_refl in Q. cbn in Q. lia.
Qed.

Lemma ch_set_obj w r (v : option addr) x :
  get wraps w = Some r ->
  hsum (ch cf x) (put wraps w (Some (w_set_obj r v))) + b2n (owner_of cf r x)
  = hsum (ch cf x) wraps + b2n (owner_of cf (w_set_obj r v) x).
Proof.
  intros G. pose proof (hsum_put _ (ch cf x) wraps w (Some (w_set_obj r v))) as Q.
  rewrite G in Q. cbn [oval] in Q. unfold ch in Q at 2 4. exact Q.
Qed.

(** A wrapper takes over one of C++'s units of an object. *)
Lemma p_attach w r a o :
  get wraps w = Some r -> w_st r = Live -> w_virgin r = false -> owns cf r = true -> w_obj r = None ->
  lsum (cc w) calls = 0 ->
  get objs a = Some o -> 1 <= o_cpp o -> ~ In a (map frame_addr calls) ->
  (forall b ob, get objs b = Some ob -> o_self ob = Some w -> b = a) ->
  Parts cf strict (put objs a (Some (o_set_cpp o (pred (o_cpp o)))))
    (put wraps w (Some (w_set_obj r (Some a)))) reg todo calls.
Proof.
  intros G L V OW ON NC Go C1 CL SV.
  apply (p_point w r (Some a) a o); auto.
  - intros b Q. destruct (calm_reg _ _ _ _ K (i_reg _ _ _ _ _ _ _ P) b w Q) as (_ & r' & Gr & A & _). congruence.
  - tauto.
  - intros b ob Gb Sf. right. rewrite (SV b ob Gb Sf); reflexivity.
  - intros x. pose proof (i_units _ _ _ _ _ _ _ P x) as R. pose proof (ch_set_obj w r (Some a) x G) as Q.
    unfold owner_of in Q. rewrite ON, andb_false_r in Q. change (owns cf (w_set_obj r (Some a))) with (owns cf r) in Q.
    rewrite OW in Q. cbn [w_obj w_set_obj andb] in Q. rewrite get_put. destruct (Nat.eqb_spec x a) as [->|N]; ne.
    + rewrite Nat.eqb_refl in Q. rewrite Go in R. unfold units in *. cbn [b2n] in Q. wcbn.
      destruct (is_rc cf), strict; try (split; [lia|tauto]); lia.
    + cbn [b2n] in Q. replace (hsum (ch cf x) (put wraps w (Some (w_set_obj r (Some a))))) with (hsum (ch cf x) wraps) by lia.
      exact R.
Qed.

(** A wrapper gives the object it owns to C++. *)
Lemma p_detach w r a o :
  is_rc cf = false ->
  get wraps w = Some r -> w_st r = Live -> owns cf r = true -> w_obj r = Some a ->
  lsum (cc w) calls = 0 -> get reg a <> Some w ->
  get objs a = Some o ->
  Parts cf strict (put objs a (Some (o_set_cpp o (S (o_cpp o)))))
    (put wraps w (Some (w_set_obj r None))) reg todo calls.
Proof.
  intros RC G L OW ON NC NR Go.
  apply (p_point w r None a o); auto.
  - destruct (w_virgin r) eqn:V; auto. destruct (i_virgin _ _ _ _ _ _ _ P w r G V); congruence.
  - intros b Q. destruct (calm_reg _ _ _ _ K (i_reg _ _ _ _ _ _ _ P) b w Q) as (_ & r' & Gr & A & _).
    assert (b = a) by congruence. congruence.
  - intros _ _. cbn. lia.
  - intros x. pose proof (i_units _ _ _ _ _ _ _ P x) as R. pose proof (ch_set_obj w r None x G) as Q.
    unfold owner_of in Q. rewrite ON in Q. cbn [w_obj w_set_obj] in Q. rewrite andb_false_r in Q.
    rewrite OW in Q. cbn [andb] in Q. rewrite get_put. destruct (Nat.eqb_spec x a) as [->|N]; ne.
    + rewrite Nat.eqb_refl in Q. rewrite Go in R. unfold units in *. cbn [b2n] in Q. wcbn.
      rewrite RC in R |- *. destruct strict; lia.
    + cbn [b2n] in Q. replace (hsum (ch cf x) (put wraps w (Some (w_set_obj r None)))) with (hsum (ch cf x) wraps) by lia.
      exact R.
Qed.

(** A fresh wrapper refers to an object it does not own. *)
Lemma p_refer w r a o :
  get wraps w = Some r -> w_st r = Live -> w_virgin r = false -> owns cf r = false -> w_obj r = None ->
  lsum (cc w) calls = 0 -> hsum (cs w) objs = 0 -> get objs a = Some o ->
  Parts cf strict objs (put wraps w (Some (w_set_obj r (Some a)))) reg todo calls.
Proof.
  intros G L V OW ON NC Z Go. rewrite <- (put_same _ objs a o Go).
  apply (p_point w r (Some a) a o); auto.
  - intros b Q. destruct (calm_reg _ _ _ _ K (i_reg _ _ _ _ _ _ _ P) b w Q) as (_ & r' & Gr & A & _). congruence.
  - intros b ob Gb Sf. exfalso. pose proof (self_sum b ob w Gb Sf). lia.
  - rewrite (put_same _ objs a o Go).
    intros x. pose proof (i_units _ _ _ _ _ _ _ P x) as R. pose proof (ch_set_obj w r (Some a) x G) as Q.
    unfold owner_of in Q. change (owns cf (w_set_obj r (Some a))) with (owns cf r) in Q. rewrite OW in Q. cbn in Q.
    replace (hsum (ch cf x) (put wraps w (Some (w_set_obj r (Some a))))) with (hsum (ch cf x) wraps) by lia.
    exact R.
Qed.

Lemma p_register w r a :
  get wraps w = Some r -> w_st r = Live -> w_tmp r = false -> w_obj r = Some a -> c_registry cf = true ->
  Parts cf strict objs wraps (put reg a (Some w)) todo calls.
Proof.
  intros G L T O1 C1. constructor; boil1 P.
  - exact (i_refs _ _ _ _ _ _ _ P).
  - apply reg_intro. intros b x Q. rewrite get_put in Q. destruct (Nat.eqb_spec b a) as [->|N].
    + injection Q as <-. split; auto. exists r; auto.
    + exact (calm_reg _ _ _ _ K (i_reg _ _ _ _ _ _ _ P) b x Q).
  - apply calm_gc; auto.
Qed.

Lemma p_unregister a : Parts cf strict objs wraps (put reg a None) todo calls.
Proof.
  constructor; boil1 P.
  - exact (i_refs _ _ _ _ _ _ _ P).
  - apply reg_intro. intros b x Q. rewrite get_put in Q. destruct (Nat.eqb_spec b a) as [->|N]; [discriminate|].
    exact (calm_reg _ _ _ _ K (i_reg _ _ _ _ _ _ _ P) b x Q).
  - apply calm_gc; auto.
Qed.

(** The constructor of the helper class stores the wrapper. *)
Lemma p_set_self w r a o :
  get wraps w = Some r -> w_st r = Live -> w_virgin r = false -> w_owned r = true -> w_tmp r = false ->
  w_obj r = Some a -> hsum (cs w) objs = 0 -> lsum (cc w) calls = 0 ->
  get objs a = Some o -> o_self o = None -> c_helper cf = true -> ~ In a (map frame_addr calls) ->
  Parts cf strict (put objs a (Some (CObj (o_rc o) (o_cpp o) (Some w) true)))
    (put wraps w (Some (w_set_refs r (S (w_refs r))))) reg todo calls.
Proof.
  intros G L V OW T O1 Z NC Go S0 CH NA.
  assert (HS : forall x, hsum (cs x) (put objs a (Some (CObj (o_rc o) (o_cpp o) (Some w) true))) = hsum (cs x) objs + b2n (w =? x)).
  { intros x. pose proof (hsum_put _ (cs x) objs a (Some (CObj (o_rc o) (o_cpp o) (Some w) true))) as Q.
    rewrite Go in Q. cbn [oval] in Q. unfold cs in Q at 2 4. rewrite S0 in Q. cbn [o_self b2n] in Q. lia. }
  constructor; boil P G; try kd.
  - intros x. rewrite HS. same. rewrite get_put. pose proof (i_refs _ _ _ _ _ _ _ P x) as R.
    destruct (Nat.eqb_spec x w) as [->|N]; ne.
    + rewrite Nat.eqb_refl. rewrite G in R. wcbn. lia.
    + destruct (get wraps x); lia.
  - rewrite L; lia.
  - intros x. same. rewrite get_put. pose proof (i_units _ _ _ _ _ _ _ P x) as R. eqcase x; [|exact R].
    rewrite Go in R. exact R.
  - intros x y Q. look Q; [|exact (i_helper _ _ _ _ _ _ _ P _ _ Q)]. split; eauto.
  - look Ga; [auto 10|]. exfalso. pose proof (self_sum aa oo w Ga Sf). lia.
  - look Ga; [congruence|]. exact (i_self _ _ _ _ _ _ _ P _ _ _ _ Ga Sf Q).
  - intros x. rewrite HS. pose proof (i_uniq _ _ _ _ _ _ _ P x). destruct (Nat.eqb_spec w x) as [->|N]; cbn; lia.
  - apply (calls_mono _ _ _ _ _ (i_calls _ _ _ _ _ _ _ P)).
    + intros x y I1 Q. rewrite get_put. eqcase x; [|eauto 10]. exfalso.
      exact (NA I1).
    + intros x y I1 Q. rewrite get_put. eqcase x; [|eauto 10]. exfalso. apply (not_in_call calls w NC I1).
    + intros x y I1 _ _ Z'. rewrite HS. destruct (Nat.eqb_spec w x) as [->|N]; [|cbn; lia].
      exfalso. apply (not_in_call calls x NC I1).
  - apply calm_gc; auto.
Qed.

(** The collector calls tp_clear. *)
Lemma p_gc w r :
  get wraps w = Some r -> w_st r = Live ->
  lsum (cc w) calls = 0 -> (forall a, get reg a <> Some w) ->
  (is_rc cf = true -> forall a o, get objs a = Some o -> o_self o = Some w -> o_rc o <= 1) ->
  Parts cf strict objs (put wraps w (Some (w_set_refs r (S (w_refs r))))) reg
    (KCode w (gen_clear cf) :: KDecref w :: todo) calls.
Proof.
  intros G L NC NR RC. constructor; boil P G; try kd.
  - pose_refs P x R. destruct (Nat.eqb_spec x w) as [->|N]; ne.
    + rewrite Nat.eqb_refl. rewrite G in R. wcbn. lia.
    + exact R.
  - rewrite L; lia.
  - cbn. split; [right; split; eauto; exists []; reflexivity|]. exact (i_code _ _ _ _ _ _ _ P).
  - pose_dying P x R. rewrite andb_false_r. cbn [b2n]. eqcase x; [rewrite G in R; exact R|exact R].
  - intros x c y [I1|[I1|I1]] F Q; [injection I1 as <- <-; discriminate|discriminate|].
    look Q; [|exact (i_tail _ _ _ _ _ _ _ P x c y I1 F Q)]. exact (i_tail _ _ _ _ _ _ _ P w c r I1 F G).
  - intros x c [I1|[I1|I1]] F D; [injection I1 as <- <-; auto|discriminate|].
    exact (i_gc _ _ _ _ _ _ _ P x c I1 F D).
Qed.

(** A custodian keeps a ward. *)
Lemma p_ward (c w : wid) rc :
  get wraps c = Some rc -> w_st rc = Live -> c_subclassing cf = true ->
  (exists r, get wraps w = Some r /\ w_st r = Live) ->
  exists r', get (put wraps c (Some (w_set_wards rc (w_wards rc ++ [w])))) w = Some r' /\ w_st r' = Live /\
  Parts cf strict objs
    (put (put wraps c (Some (w_set_wards rc (w_wards rc ++ [w])))) w (Some (w_set_refs r' (S (w_refs r'))))) reg todo calls.
Proof.
  intros G L SC (r & Gw & Lw).
  set (rc' := w_set_wards rc (w_wards rc ++ [w])).
  assert (E : exists r', get (put wraps c (Some rc')) w = Some r' /\ w_st r' = Live
     /\ (r' = r /\ w <> c \/ r' = rc' /\ w = c)).
  { rewrite get_put. destruct (Nat.eqb_spec w c) as [->|N].
    - exists rc'. auto.
    - exists r. auto. }
  destruct E as (r' & G' & L' & C1). exists r'. split; auto. split; auto.
  assert (GET : forall x, get (put (put wraps c (Some rc')) w (Some (w_set_refs r' (S (w_refs r'))))) x =
      match get wraps x with
      | Some y => Some (Wrap (w_st y) (if x =? w then S (w_refs y) else w_refs y) (w_obj y) (w_owned y)
                    (if x =? c then w_wards y ++ [w] else w_wards y) (w_ext y) (w_sub y) (w_virgin y) (w_tmp y))
      | None => None end).
  { intros x. rewrite !get_put. destruct (Nat.eqb_spec x w) as [->|N].
    - rewrite Gw. destruct C1 as [[-> NE]|[-> ->]].
      + rewrite (eqb_ne _ _ NE). reflexivity.
      + rewrite Nat.eqb_refl. assert (rc = r) by congruence. subst r. reflexivity.
    - destruct (Nat.eqb_spec x c) as [->|N'].
      + rewrite G. reflexivity.
      + destruct (get wraps x) as [[? ? ? ? ? ? ? ? ?]|]; reflexivity. }
  assert (SUM : forall f, (forall y n l, f (Wrap (w_st y) n (w_obj y) (w_owned y) l (w_ext y) (w_sub y) (w_virgin y) (w_tmp y)) = f y) ->
     hsum f (put (put wraps c (Some rc')) w (Some (w_set_refs r' (S (w_refs r'))))) = hsum f wraps).
  { intros f Hf. rewrite (hsum_same _ f _ w r').
    - apply (hsum_same _ f _ c rc); auto. apply Hf.
    - auto.
    - apply (Hf r'). }
  assert (SW : forall x, hsum (cw x) (put (put wraps c (Some rc')) w (Some (w_set_refs r' (S (w_refs r'))))) = hsum (cw x) wraps + b2n (x =? w)).
  { intros x. rewrite (hsum_same _ (cw x) _ w r'); auto.
    pose proof (hsum_put _ (cw x) wraps c (Some rc')) as Q. rewrite G in Q. cbn [oval] in Q.
    change (cw x rc') with (count_occ Nat.eq_dec (w_wards rc ++ [w]) x) in Q. change (cw x rc) with (count_occ Nat.eq_dec (w_wards rc) x) in Q. rewrite count_occ_app in Q. cbn [count_occ] in Q.
    destruct (Nat.eq_dec w x) as [EE|N]; [replace (x =? w) with true by (symmetry; apply Nat.eqb_eq; auto)|rewrite eqb_ne by auto]; cbn [b2n]; unfold wid in *; lia. }
  assert (BACK : forall x y', get (put (put wraps c (Some rc')) w (Some (w_set_refs r' (S (w_refs r'))))) x = Some y' ->
     exists y, get wraps x = Some y /\ w_st y' = w_st y /\ w_obj y' = w_obj y /\ w_owned y' = w_owned y
       /\ w_virgin y' = w_virgin y /\ w_tmp y' = w_tmp y /\ (w_st y <> Live -> w_wards y' = w_wards y)).
  { intros x y' Q. rewrite GET in Q. destruct (get wraps x) as [y|] eqn:Gx; [|discriminate].
    injection Q as <-. exists y. cbn. repeat (split; [reflexivity|]).
    destruct (Nat.eqb_spec x c) as [->|N]; auto. intros NL. congruence. }
  constructor; boil1 P.
  - intros x. rewrite SW, GET. pose proof (i_refs _ _ _ _ _ _ _ P x) as R.
    destruct (get wraps x) as [y|] eqn:Gx.
    + cbn. destruct (x =? w); cbn [b2n]; lia.
    + destruct (Nat.eqb_spec x w) as [->|N]; [congruence|]. cbn. lia.
  - intros x y' Q. rewrite GET in Q. destruct (get wraps x) as [y|] eqn:Gx; [|discriminate]. injection Q as <-. cbn.
    pose proof (i_live _ _ _ _ _ _ _ P x y Gx) as R. destruct (Nat.eqb_spec x w) as [->|N]; [|exact R].
    assert (y = r) by congruence. subst y. rewrite Lw in *. lia.
  - intros x y' Q D. destruct (BACK x y' Q) as (y & Gx & E1 & E2 & E3 & E4 & E5 & E6).
    rewrite E1 in D. rewrite E2, E6 by congruence. exact (i_dead _ _ _ _ _ _ _ P x y Gx D).
  - intros b ob x y' Gb Sf Q. destruct (BACK x y' Q) as (y & Gx & E1 & E2 & E3 & E4 & E5 & E6).
    rewrite E2, E3, E4, E5. exact (i_self _ _ _ _ _ _ _ P b ob x y Gb Sf Gx).
  - intros x y' Q. destruct (BACK x y' Q) as (y & Gx & E1 & E2 & E3 & E4 & E5 & E6).
    rewrite E2, E4, E5. exact (i_virgin _ _ _ _ _ _ _ P x y Gx).
  - intros D. congruence.
  - intros x. rewrite GET. pose proof (i_dying _ _ _ _ _ _ _ P x) as R. destruct (get wraps x); exact R.
  - intros x d y' I1 F Q. destruct (BACK x y' Q) as (y & Gx & E1 & E2 & E3 & E4 & E5 & E6).
    destruct (dealloc_exists _ _ _ _ _ _ _ P x d I1 F) as (z & Gz & D & _).
    assert (z = y) by congruence. subst z. rewrite E2, E6 by congruence.
    exact (i_tail _ _ _ _ _ _ _ P x d y I1 F Gx).
  - apply reg_intro. intros b x Q. destruct (calm_reg _ _ _ _ K (i_reg _ _ _ _ _ _ _ P) b x Q) as (C2 & y & Gy & A1 & A2 & A3).
    split; auto. rewrite GET, Gy. eexists; split; [reflexivity|]. auto.
  - apply (calls_mono _ _ _ _ _ (i_calls _ _ _ _ _ _ _ P)); eauto 10.
    intros x y _ Q. rewrite GET, Q. eexists; split; [reflexivity|]. auto.
  - intros x y' Q T. destruct (BACK x y' Q) as (y & Gx & E1 & E2 & E3 & E4 & E5 & E6).
    rewrite E2. rewrite E5 in T. exact (i_tmp _ _ _ _ _ _ _ P x y Gx T).
Qed.

(** The address of an object in a running call. *)
Lemma call_obj w : In w (map frame_wrap calls) ->
  exists r a, get wraps w = Some r /\ w_obj r = Some a /\ In a (map frame_addr calls).
Proof.
  intros I1. apply in_map_iff in I1. destruct I1 as (f & <- & I1).
  destruct (calls_frame _ _ _ _ _ _ _ P f I1) as (rest & F & _).
  assert (In (frame_addr f) (map frame_addr calls)) by (apply in_map; auto).
  destruct f as [w sv a|w a]; cbn in *.
  - destruct F as (o & r & _ & _ & G & O1 & _). eauto.
  - destruct F as (o & r & _ & _ & G & O1 & _). eauto.
Qed.

Lemma p_virt_begin a o w r :
  get objs a = Some o -> o_self o = Some w -> get wraps w = Some r ->
  ~ In (KDelete a) todo -> 1 <= o_cpp o \/ w_obj r = Some a ->
  Parts cf strict objs
    (put wraps w (Some (w_set_tmp (w_set_obj (w_set_refs r (S (w_refs r))) (Some a))
                          (match w_obj r with None => true | Some _ => w_tmp r end))))
    reg todo (FVirt w (w_obj r) a :: calls).
Proof.
  intros Go Sa G ND CP.
  destruct (self_exists _ _ _ _ _ _ _ P a o w Go Sa) as (r0 & G0 & L & N).
  assert (r0 = r) by congruence. subst r0.
  destruct (i_self _ _ _ _ _ _ _ P a o w r Go Sa G) as (OW & V & OB & RC).
  set (r' := w_set_tmp (w_set_obj (w_set_refs r (S (w_refs r))) (Some a))
                          (match w_obj r with None => true | Some _ => w_tmp r end)).
  assert (EV : exists b, r' = Wrap (w_st r) (S (w_refs r)) (Some a) (w_owned r) (w_wards r) (w_ext r) (w_sub r) (w_virgin r) b
             /\ (w_obj r = Some a /\ b = w_tmp r \/ w_obj r = None /\ b = true)).
  { unfold r'. destruct OB as [OB|OB]; rewrite OB; eexists; split; try reflexivity; auto. }
  destruct EV as (b & EV & EB). clearbody r'. subst r'.
  assert (HU : forall x, hsum (ch cf x) (put wraps w (Some (Wrap (w_st r) (S (w_refs r)) (Some a) (w_owned r) (w_wards r) (w_ext r) (w_sub r) (w_virgin r) b))) = hsum (ch cf x) wraps).
  { intros x. apply (hsum_same _ _ _ w r); auto. unfold ch, owner_of, owns. cbn.
    destruct EB as [[-> ->]|[-> ->]]; auto. cbn. rewrite andb_false_r. reflexivity. }
  assert (RC0 : is_rc cf = true -> w_obj r = Some a /\ w_tmp r = false).
  { intros E. destruct (RC E) as [?|Z]; auto. exfalso.
    pose proof (i_units _ _ _ _ _ _ _ P a) as U. rewrite Go in U. unfold units in U. rewrite E, Z in U. cbn in U.
    destruct (lsum_pos _ (cd a) todo) as (t & I1 & I2); [lia|].
    destruct t as [?|? ?|x]; unfold cd in I2; cbn in I2; try lia.
    destruct (Nat.eqb_spec x a) as [->|]; [|cbn in I2; lia]. exact (ND I1). }
  constructor; boil P G; try kd.
  - pose_refs P x R. unfold cc at 1 3. cbn [frame_wrap]. destruct (Nat.eqb_spec x w) as [->|NE]; ne.
    + rewrite Nat.eqb_refl. rewrite G in R. wcbn. lia.
    + exact R.
  - rewrite L; lia.
  - congruence.
  - intros x. rewrite HU. exact (i_units _ _ _ _ _ _ _ P x).
  - assert (aa = a) by (eapply uniq_self; eauto). subst aa. assert (oo = o) by congruence. subst oo.
    repeat (split; [auto|]). intros E. left. split; auto.
    destruct (RC0 E) as [E1 E2]. destruct EB as [[_ ->]|[EB _]]; auto. congruence.
  - congruence.
  - intros x c y I1 F Q. look Q; [|exact (i_tail _ _ _ _ _ _ _ P x c y I1 F Q)].
    destruct (dealloc_exists _ _ _ _ _ _ _ P w c I1 F) as (z & Gz & D & _). congruence.
  - eexists; split; [reflexivity|]. cbn. destruct EB as [[E1 ->]|[E1 E2]]; [|congruence].
    split; [congruence|auto].
  - split.
    + cbn. exists o. rewrite get_put_eq. eexists. repeat (split; [eassumption || reflexivity|]). cbn.
      destruct EB as [[E1 ->]|[E1 ->]]; rewrite E1.
      * split; auto. intros T. destruct (i_tmp _ _ _ _ _ _ _ P w r G T) as (a' & E2 & [I1|I1]).
        -- congruence.
        -- destruct (calls_frame _ _ _ _ _ _ _ P _ I1) as (rest & (o1 & r1 & _ & _ & _ & _ & _ & _ & _ & Z & _) & _).
           pose proof (self_sum a o w Go Sa). lia.
      * split; auto. split; [destruct CP; [auto|congruence]|].
        intros I1. destruct (call_obj w I1) as (r1 & a1 & G1 & O1 & _). congruence.
    + apply (calls_mono _ _ _ _ _ (i_calls _ _ _ _ _ _ _ P)); eauto 10.
      intros x y I1 Q. rewrite get_put. eqcase x; [|eauto 10].
      destruct (call_obj w I1) as (r1 & a1 & G1 & O1 & _).
      assert (r1 = r) by congruence. assert (y = r) by congruence. subst r1 y.
      destruct EB as [[E1 ->]|[E1 ->]]; [|congruence]. eexists; split; [reflexivity|]. cbn. auto.
  - exists a. split; auto. destruct EB as [[E1 ->]|[E1 ->]].
    + destruct (i_tmp _ _ _ _ _ _ _ P w r G T) as (a' & E2 & I1). assert (a' = a) by congruence. subst a'. cbn; tauto.
    + rewrite E1. left; left; reflexivity.
  - destruct (i_tmp _ _ _ _ _ _ _ P x y Q T) as (a' & E2 & I1). exists a'. split; auto. cbn; tauto.
  - apply calm_gc; auto.
Qed.

Lemma p_tmp_begin a o w :
  get wraps w = None -> get objs a = Some o -> 1 <= o_cpp o ->
  Parts cf strict objs (put wraps w (Some (Wrap Live 2 (Some a) true [] 1 false false true)))
    reg todo (FTmp w a :: calls).
Proof.
  intros G Go CP. pose proof (i_refs _ _ _ _ _ _ _ P w) as R0. rewrite G in R0.
  constructor; boil1 P.
  - intros x. pose proof (i_refs _ _ _ _ _ _ _ P x) as R. rewrite hsum_new by auto.
    unfold cw at 2 4. cbn [w_wards count_occ lsum]. unfold cc at 1 3. cbn [frame_wrap].
    rewrite get_put. eqcase x; ne; [rewrite Nat.eqb_refl; wcbn; lia|]. destruct (get wraps x); lia.
  - intros x y Q. look Q; [lia|]. exact (i_live _ _ _ _ _ _ _ P _ _ Q).
  - intros x y Q. look Q; [discriminate|]. exact (i_dead _ _ _ _ _ _ _ P _ _ Q).
  - intros x. pose proof (i_units _ _ _ _ _ _ _ P x) as R. rewrite hsum_new by auto.
    unfold ch at 2 4. unfold owner_of, owns. cbn [w_tmp negb andb b2n]. rewrite Nat.add_0_r. exact R.
  - intros aa oo x y Ga Sf Q. look Q; [|exact (i_self _ _ _ _ _ _ _ P _ _ _ _ Ga Sf Q)].
    destruct (self_exists _ _ _ _ _ _ _ P aa oo w Ga Sf) as (r & Gr & _). congruence.
  - intros x y Q. look Q; [discriminate|]. exact (i_virgin _ _ _ _ _ _ _ P _ _ Q).
  - intros D x y Q. look Q; [auto|]. exact (i_nodict _ _ _ _ _ _ _ P D _ _ Q).
  - intros x. pose proof (i_dying _ _ _ _ _ _ _ P x) as R. rewrite get_put. eqcase x; [|exact R].
    rewrite G in R. exact R.
  - intros x c y I1 F Q. look Q; [|exact (i_tail _ _ _ _ _ _ _ P x c y I1 F Q)].
    destruct (dealloc_exists _ _ _ _ _ _ _ P w c I1 F) as (r & Gr & _). congruence.
  - apply reg_intro. intros b x Q. destruct (calm_reg _ _ _ _ K (i_reg _ _ _ _ _ _ _ P) b x Q) as (C1 & r & Gr & A).
    split; auto. exists r. rewrite get_put_ne; [auto|congruence].
  - split.
    + cbn. exists o. rewrite get_put_eq. eexists. repeat (split; [eassumption || reflexivity|]).
      split; [lia|]. apply not_in_call; lia.
    + apply (calls_mono _ _ _ _ _ (i_calls _ _ _ _ _ _ _ P)); eauto 10.
      intros x y _ Q. rewrite get_put_ne; [eauto 10|congruence].
  - intros x y Q T. look Q; [exists a; split; auto; right; left; reflexivity|].
    destruct (i_tmp _ _ _ _ _ _ _ P x y Q T) as (a' & E2 & I1). exists a'. split; auto. cbn; tauto.
  - apply calm_gc; auto.
Qed.
End Prims.

(** Returning from Python: the innermost call. *)
Section Ends.
Variable cf : conf.
Variable strict : bool.
Variables (objs : heap cobj) (wraps : heap wrap) (reg : heap wid) (todo : list task) (calls : list frame).

(** The wrapper loses a lent pointer, or keeps everything. *)
Lemma p_end f w r a r' :
  Parts cf strict objs wraps reg todo (f :: calls) -> calm todo ->
  frame_wrap f = w -> get wraps w = Some r ->
  (r' = r /\ (w_tmp r = true -> In (FVirt w None a) calls) /\ w_obj r = Some a
   /\ (exists sv, f = FVirt w (Some sv) a))
  \/ (r' = w_set_tmp (w_set_obj r None) false /\ w_tmp r = true /\ ~ In w (map frame_wrap calls)
      /\ (is_rc cf = true -> hsum (cs w) objs = 0)) ->
  Parts cf strict objs (put wraps w (Some r')) reg (KDecref w :: todo) calls.
Proof.
  intros P K FW G C1.
  destruct (frame_exists _ _ _ _ _ _ _ P f (or_introl eq_refl)) as (r0 & G0 & L & N).
  rewrite FW in G0. assert (r0 = r) by congruence. subst r0.
  assert (NV : w_virgin r = false).
  { destruct (w_virgin r) eqn:V; auto. destruct (i_virgin _ _ _ _ _ _ _ P w r G V) as [V1 V2].
    destruct C1 as [(_ & _ & E & _)|(_ & E & _)]; congruence. }
  assert (F1 : w_st r' = w_st r /\ w_refs r' = w_refs r /\ w_owned r' = w_owned r /\ w_wards r' = w_wards r
      /\ w_ext r' = w_ext r /\ w_virgin r' = w_virgin r
      /\ (w_obj r' = w_obj r /\ w_tmp r' = w_tmp r \/ w_obj r' = None /\ w_tmp r' = false)).
  { destruct C1 as [(-> & _)|(-> & _)]; cbn; auto 10. }
  destruct F1 as (E1 & E2 & E3 & E4 & E5 & E6 & E7).
  assert (HU : forall x, hsum (ch cf x) (put wraps w (Some r')) = hsum (ch cf x) wraps).
  { intros x. apply (hsum_same _ _ _ w r); auto. destruct C1 as [(-> & _)|(-> & T & _)]; auto.
    unfold ch, owner_of, owns. cbn. rewrite T. cbn. rewrite andb_false_r. reflexivity. }
  assert (HW : forall x, hsum (cw x) (put wraps w (Some r')) = hsum (cw x) wraps).
  { intros x. apply (hsum_same _ _ _ w r); auto. unfold cw. rewrite E4; reflexivity. }
  constructor; boil1 P.
  - intros x. pose proof (i_refs _ _ _ _ _ _ _ P x) as R. rewrite HW, get_put.
    cbn [lsum] in *. rewrite ck_dec. unfold cc in R at 1 3. rewrite FW in R.
    destruct (Nat.eqb_spec x w) as [->|NE]; ne.
    + rewrite Nat.eqb_refl in *. rewrite G in R. rewrite E2, E5. cbn [b2n] in *. lia.
    + cbn [b2n] in *. destruct (get wraps x); lia.
  - intros x y Q. look Q; [rewrite E1, E2|]; eapply (i_live _ _ _ _ _ _ _ P); eauto.
  - intros x y Q. look Q; [congruence|]; eapply (i_dead _ _ _ _ _ _ _ P); eauto.
  - intros x. rewrite HU. exact (i_units _ _ _ _ _ _ _ P x).
  - intros b ob x y Gb Sf Q. look Q; [|exact (i_self _ _ _ _ _ _ _ P b ob x y Gb Sf Q)].
    destruct (i_self _ _ _ _ _ _ _ P b ob w r Gb Sf G) as (A1 & A2 & A3 & A4).
    rewrite E3, E6. repeat (split; [assumption|]). destruct C1 as [(-> & _)|(-> & T & _ & RC)]; auto.
    cbn. split; auto. intros E. exfalso. specialize (RC E).
    pose proof (hsum_get _ (cs w) objs b) as Q. rewrite Gb in Q; cbn [oval] in Q.
    unfold cs in Q at 1. rewrite Sf, Nat.eqb_refl in Q; cbn in Q. lia.
  - intros x y Q. look Q; [congruence|]. exact (i_virgin _ _ _ _ _ _ _ P x y Q).
  - intros D x y Q. look Q; [rewrite E4|]; eapply (i_nodict _ _ _ _ _ _ _ P); eauto.
  - intros x. pose proof (i_dying _ _ _ _ _ _ _ P x) as R. cbn [lsum]. rewrite cz_dec, get_put.
    eqcase x; [rewrite G in R; rewrite E1; exact R|exact R].
  - intros x c y [I1|I1] F Q; [discriminate|]. look Q; [|exact (i_tail _ _ _ _ _ _ _ P x c y I1 F Q)].
    destruct (dealloc_exists _ _ _ _ _ _ _ P w c I1 F) as (z & Gz & D & _). congruence.
  - apply reg_intro. intros b x Q. destruct (calm_reg _ _ _ _ K (i_reg _ _ _ _ _ _ _ P) b x Q) as (C2 & y & Gy & A1 & A2 & A3).
    split; auto. rewrite get_put. eqcase x; [|eauto 10]. assert (y = r) by congruence. subst y.
    exists r'. split; auto. destruct C1 as [(-> & _)|(_ & T & _)]; auto. congruence.
  - pose proof (proj2 (i_calls _ _ _ _ _ _ _ P)) as CA. apply (calls_mono _ _ _ _ _ CA); eauto 10.
    intros x y I1 Q. rewrite get_put. eqcase x; [|eauto 10]. assert (y = r) by congruence. subst y.
    exists r'. split; auto. destruct C1 as [(-> & _)|(_ & _ & NI & _)]; tauto.
  - intros x y Q T. look Q.
    + destruct C1 as [(-> & A & B & _)|(-> & _)]; [|discriminate]. exists a. auto.
    + destruct (i_tmp _ _ _ _ _ _ _ P x y Q T) as (a' & A & [B|B]); exists a'; split; auto.
      * destruct B as [->|B]; auto. cbn in FW. congruence.
      * destruct B as [->|B]; auto. cbn in FW. congruence.
  - apply calm_gc. apply calm_push; auto. discriminate.
Qed.
End Ends.
