(** C46: classes managed by shared pointers. *)
From Verif.Model Require Import Py SharedPtr.
From Verif.Spec Require Import SharedPtrSpec.
From Verif.Proofs Require Import SharedPtrProofs SharedPtrInv SharedPtrSteps SharedPtrTop SharedPtrRefs.
From Coq Require Import Lia.
Open Scope list_scope.

Section Programs.
  Variable std_map : bool.

  (** No action that Python may do leads to undefined behaviour. *)
  Theorem C46_safe made s a : history std_map made s -> legal made s a -> exists s' r, step std_map a s = Some (s', r).
  Proof. intros H L. destruct (step_ok std_map made a s (history_good _ _ _ H) L) as (s' & r & E & _). eauto. Qed.

  (** An object exists exactly as long as a Python object or C++ code refers to it. *)
  Theorem C46_alive made s o : history std_map made s -> exists_now s o <-> (exists i, refers s o i) \/ (exists h, keeps s o h).
  Proof. intros H. exact (good_alive std_map made s o (history_good _ _ _ H)). Qed.

  (** Then it is deleted, once. *)
  Theorem C46_deleted made s : history std_map made s -> NoDup (s_log s) /\ forall o, In o (s_log s) <-> created s o /\ ~ exists_now s o.
  Proof. intros H. exact (good_deleted std_map made s (history_good _ _ _ H)). Qed.

  (** Every reference that Python receives, takes or drops is counted; a wrapper exists as long as there are any. *)
  Theorem C46_references made s a s' r j : history std_map made s -> legal made s a -> step std_map a s = Some (s', r) ->
    references s' j = balance a r j (references s j) /\ (live s j <-> 0 < references s j).
  Proof. intros H L E. split; [exact (step_refs std_map made s a s' r j H L E)|exact (live_refs std_map made s j H)]. Qed.

  (** A constructor makes a new object, to which self refers. *)
  Theorem C46_init made s i a : history std_map made s -> live s i -> In i made ->
    exists s', step std_map (Init i a) s = Some (s', PNone) /\ refers s' (length (s_objs s)) i /\ ~ created s (length (s_objs s)).
  Proof.
    intros H L M. destruct (init_ok std_map made i a s (history_good _ _ _ H) L M) as (s' & E & _ & _ & _ & _ & _ & (w & _ & Hw) & _). exists s'. split; [cbn [step]; now rewrite E|].
    split; [eexists; split; [exact Hw|auto]|]. unfold created. lia.
  Qed.

  (** A call is refused, without any effect, exactly if an argument is not accepted. *)
  Theorem C46_refused made s args body r s' a : history std_map made s -> legal made s (Call args body r) -> step std_map (Call args body r) s = Some (s', a) ->
    (a = PTypeError <-> ~ Forall takes args) /\ (a = PTypeError -> s_kept s' = s_kept s /\ s_wraps s' = s_wraps s /\ forall o, exists_now s' o <-> exists_now s o).
  Proof.
    intros H L E. pose proof (history_step std_map made s _ s' a H L E) as H'. destruct (call_history std_map made s args body r s' a H L E) as [(N & -> & K & W & _)|(T & N & _)]; split.
    - tauto.
    - intros _. split; [exact K|]. split; [exact W|]. intros o. rewrite (C46_alive _ _ o H'), (C46_alive _ _ o H). unfold refers, keeps. rewrite K, W. reflexivity.
    - tauto.
    - tauto.
  Qed.

  (** The C++ function receives, for each argument, the pointer of the wrapper, and an empty one for None or no argument. *)
  Theorem C46_argument made s args k s' a : history std_map made s -> legal made s (Call args [CKeep k] CVoid) -> step std_map (Call args [CKeep k] CVoid) s = Some (s', a) -> Forall takes args ->
    a = PNone /\
    (forall p i o, nth_error args k = Some (p, AWrap i) -> refers s o i -> s_kept s' = s_kept s ++ [Some o]) /\
    (forall p x, nth_error args k = Some (p, x) -> x = ANone \/ x = AMissing -> s_kept s' = s_kept s ++ [None]).
  Proof.
    intros H L E T. destruct (call_history std_map made s args _ _ s' a H L E) as [(N & _)|(_ & _ & ls & s2 & s3 & s4 & p & F & R & E3 & E4 & _ & _ & K' & K4 & ->)]; [tauto|]. split; [reflexivity|].
    assert (K : s_kept s' = s_kept s ++ [pointer ls k]).
    { rewrite K', K4. cbn [run_cacts run_cact] in E3. apply bind_some in E3. destruct E3 as (t & E3 & [= <-]). apply bind_some in E3. destruct E3 as (u & E3 & [= <-]). cbn [set_kept s_kept].
      destruct R as (_ & R & _). rewrite <- R. f_equal. clear - E3. destruct (pointer ls k) as [o|]; cbn in E3; [|now injection E3 as ->]. destruct (nth_error _ o) as [x|]; [|discriminate].
      destruct (o_alive x); [|discriminate]. now injection E3 as <-. }
    assert (X : forall x, nth_error args k = Some x -> holds s x (pointer ls k)).
    { clear - F. revert k. induction F as [|x y l l' Hx F IH]; intros [|k] z; cbn; try discriminate; [now intros [= <-]|apply IH]. }
    split.
    - intros q i o Hn (w & Hw & _ & Ow). rewrite K. apply X in Hn. destruct Hn as (w' & Hw' & Ow'). cbn in Hw', Ow'. congruence.
    - intros q x Hn Hx. rewrite K. apply X in Hn. unfold holds in Hn. cbn [snd] in Hn. destruct Hx as [-> | ->]; now rewrite Hn.
  Qed.

  (** Returning an object gives a wrapper that refers to it; returning an empty pointer gives None. *)
  Theorem C46_returned_kept made s args body h s' a : history std_map made s -> legal made s (Call args body (CKept h)) -> step std_map (Call args body (CKept h)) s = Some (s', a) -> Forall takes args ->
    (forall o, keeps s' o h -> exists i, a = PWrap i /\ refers s' o i) /\ ((forall o, ~ keeps s' o h) -> a = PNone).
  Proof.
    intros H L E T. destruct (call_history std_map made s args _ _ s' a H L E) as [(N & _)|(_ & _ & ls & s2 & s3 & s4 & p & F & R & E3 & E4 & _ & _ & K' & K4 & Z)]; [tauto|].
    cbn [returned] in E4. apply bind_some in E4. destruct E4 as (t & _ & [= _ Ep]). unfold keeps. rewrite K', K4. split.
    - intros o Ho. unfold pointer in Ep. rewrite Ho in Ep. subst p. destruct Z as (i & -> & Z & _). eauto.
    - intros N. destruct p as [o|]; [|exact Z]. elim (N o). unfold pointer in Ep. destruct (nth_error (s_kept s3) h); congruence.
  Qed.
  Theorem C46_returned_argument made s args body k s' a : history std_map made s -> legal made s (Call args body (CArg k)) -> step std_map (Call args body (CArg k)) s = Some (s', a) -> Forall takes args ->
    (forall p i o, nth_error args k = Some (p, AWrap i) -> refers s o i -> exists j, a = PWrap j /\ refers s' o j) /\
    (forall p x, nth_error args k = Some (p, x) -> x = ANone \/ x = AMissing -> a = PNone).
  Proof.
    intros H L E T. destruct (call_history std_map made s args _ _ s' a H L E) as [(N & _)|(_ & _ & ls & s2 & s3 & s4 & p & F & R & E3 & E4 & _ & _ & K' & K4 & Z)]; [tauto|].
    cbn [returned] in E4. apply bind_some in E4. destruct E4 as (t & _ & [= _ Ep]).
    assert (X : forall x, nth_error args k = Some x -> holds s x (pointer ls k)).
    { clear - F. revert k. induction F as [|x y l l' Hx F IH]; intros [|k] z; cbn; try discriminate; [now intros [= <-]|apply IH]. }
    split.
    - intros q i o Hn (w & Hw & _ & Ow). apply X in Hn. destruct Hn as (w' & Hw' & Ow'). cbn in Hw', Ow'. assert (p = Some o) as -> by congruence. destruct Z as (j & -> & Z & _). eauto.
    - intros q x Hn Hx. apply X in Hn. unfold holds in Hn. cbn [snd] in Hn. rewrite Ep in Hn. assert (p = None) as -> by (destruct Hx as [-> | ->]; exact Hn). exact Z.
  Qed.
  Theorem C46_returned_new made s args body b s' a : history std_map made s -> legal made s (Call args body (CMade b)) -> step std_map (Call args body (CMade b)) s = Some (s', a) -> Forall takes args ->
    exists i o, a = PWrap i /\ refers s' o i /\ ~ created s o.
  Proof.
    intros H L E T. destruct (call_history std_map made s args _ _ s' a H L E) as [(N & _)|(_ & _ & ls & s2 & s3 & s4 & p & F & R & E3 & E4 & C3 & _ & K' & K4 & Z)]; [tauto|].
    cbn [returned make] in E4. injection E4 as _ <-. destruct Z as (i & -> & Z & _). exists i, (length (s_objs s3)). split; [reflexivity|]. split; [exact Z|]. unfold created.
    pose proof (c_objs _ _ C3). lia.
  Qed.
End Programs.

(** With a wrapper registry, an object is returned as the same Python object every time, as long as no Python object that refers to
    it goes away. *)
Theorem C46_identity made s args body r s1 i o made2 s2 args' body' r' s3 j :
  history true made s -> legal made s (Call args body r) -> step true (Call args body r) s = Some (s1, PWrap i) -> refers s1 o i ->
  goes_on true o made s1 made2 s2 ->
  legal made2 s2 (Call args' body' r') -> step true (Call args' body' r') s2 = Some (s3, PWrap j) -> refers s3 o j -> j = i.
Proof.
  intros H L E R Go L' E' R'.
  pose proof (history_step true made s _ s1 _ H L E) as H1. cbn [now_made] in H1.
  assert (Fn : forall t p q k, refers t p k -> refers t q k -> p = q) by (intros t p q k (w & Hw & _ & Ow) (v & Hv & _ & Ov); congruence).
  assert (F1 : find_entry (s_registry s1) (get (Some o) s1) = Some i).
  { destruct (call_history true made s args body r s1 _ H L E) as [(_ & X & _)|(_ & _ & ls & t2 & t3 & t4 & p & _ & _ & _ & _ & _ & _ & _ & _ & Z)]; [discriminate|].
    destruct r; try discriminate; (destruct p as [q|]; [|discriminate]; destruct Z as (kk & [= <-] & Rk & Fk); assert (q = o) as -> by (eapply Fn; eassumption); auto). }
  assert (I2 : history true made2 s2 /\ find_entry (s_registry s2) (get (Some o) s2) = Some i /\ refers s2 o i).
  { clear L' E' R'. induction Go as [|made s1 made1 t1 a t2 q Go IH La Ea Kp]; [auto|]. destruct IH as (Hh & Fh & Rh); auto. split; [eapply history_step; eassumption|].
    pose proof (history_good _ _ _ Hh) as G. destruct (step_ok true made1 a t1 G La) as (t3 & q' & E3 & _ & _ & _ & St). rewrite Ea in E3. injection E3 as <- <-.
    apply (St o Kp); auto. exact (inv_refers made1 t1 o i (proj1 G) Rh). }
  destruct I2 as (H2 & F2 & R2). destruct (call_ok true made2 args' body' r' s2 (history_good _ _ _ H2) L') as (s3' & a & E3 & _ & C3 & X). cbn [step] in E'. rewrite E' in E3. injection E3 as <- <-.
  destruct (calm_stays o s2 s3 C3 i (inv_refers made2 s2 o i (proj1 (history_good _ _ _ H2)) R2) F2 R2) as [F3 _].
  destruct X as [(_ & X & _)|(ls & t2 & t3 & t4 & p & _ & _ & _ & _ & _ & _ & _ & _ & Z)]; [discriminate|].
  destruct r'; try discriminate; (destruct p as [q|]; [|discriminate]; destruct Z as (kk & [= <-] & Rk & Fk); assert (q = o) as -> by (eapply Fn; eassumption); specialize (Fk eq_refl); congruence).
Qed.

(** ** What does not hold *)
Fixpoint play (std_map : bool) (l : list action) (made : list nat) (s : state) : option (list nat * state * list answer) :=
  match l with
  | [] => Some (made, s, [])
  | a :: r => match step std_map a s with
              | Some (s', x) => match play std_map r (now_made a x made) s' with Some (m, t, xs) => Some (m, t, x :: xs) | None => None end
              | None => None
              end
  end.
(** An object constructed from Python is not registered: returned from C++, it gets a second wrapper. *)
Theorem C46_constructed_identity_refuted :
  ~ forall made s args body r s' o i j, history true made s -> legal made s (Call args body r) -> refers s o i -> step true (Call args body r) s = Some (s', PWrap j) -> refers s' o j -> j = i.
Proof.
  intros H. pose (p := mk_param false false).
  assert (H1 : history true [0] (mk_state [] [mk_wrap (Ptr None) 1 true] [] [] [])) by (refine (history_step true [] start New _ (PWrap 0) (history_start _) Logic.I _); reflexivity).
  assert (H2 : history true [0] (mk_state [mk_cobj 7 1 true] [mk_wrap (Ptr (Some 0)) 1 true] [] [] [])).
  { refine (history_step true [0] _ (Init 0 7) _ PNone H1 _ _); [|reflexivity]. split; [|now left]. eexists. split; reflexivity. }
  assert (X : 1 = 0).
  { eapply (H _ _ [(p, AWrap 0)] [] (CArg 0) (mk_state [mk_cobj 7 2 true] [mk_wrap (Ptr (Some 0)) 1 true; mk_wrap (Ptr (Some 0)) 1 true] [] [(7, 1)] []) 0 0 1 H2).
    - intros q i [[= <- <-]|[]]. eexists. split; reflexivity.
    - eexists. split; [reflexivity|]. split; reflexivity.
    - reflexivity.
    - eexists. split; [reflexivity|]. split; reflexivity. }
  discriminate.
Qed.
(** __init__ of an instance that Python did not make: the registry keeps the old address of the freed wrapper, so that returning the
    old object gives undefined behaviour. *)
Theorem C46_init_again_refuted :
  ~ forall l s xs, play true l [] start = Some ([], s, xs) -> forall a, (match a with Init i _ | Keep i | Drop i => live s i | Call _ _ _ => True | _ => False end) ->
    (forall args b r p i, a = Call args b r -> ~ In (p, AWrap i) args) -> step true a s <> None.
Proof.
  intros H. eapply (H [Cpp [CNew 3]; Call [] [] (CKept 0); Init 0 4; Drop 0] _ _ eq_refl (Call [] [] (CKept 0))).
  - exact Logic.I.
  - intros args b r p i [= <- <- <-] [].
  - reflexivity.
Qed.
(** A default value is not used: the C++ function receives an empty pointer. *)
Example default_ignored : exists s, step true (Call [(mk_param false true, AMissing)] [CKeep 0] CVoid) start = Some (s, PNone) /\ s_kept s = [None].
Proof. eexists. split; reflexivity. Qed.

(** ** Examples *)
Ltac live_now := eexists; split; reflexivity.
(** Python constructs an object, C++ keeps it, Python lets it go, C++ returns it twice, Python drops both, C++ forgets it. *)
Example story : play true [New; Init 0 5; Call [(mk_param true false, AWrap 0)] [CKeep 0] CVoid; Drop 0; Call [] [] (CKept 0); Call [] [] (CKept 0); Drop 1; Drop 1; Cpp [CForget 0]] [] start =
  Some ([0], mk_state [mk_cobj 5 0 false] [mk_wrap Raw 0 false; mk_wrap Raw 0 false] [None] [] [0], [PWrap 0; PNone; PNone; PNone; PWrap 1; PWrap 1; PNone; PNone; PNone]).
Proof. reflexivity. Qed.
Definition kept_one : state := mk_state [mk_cobj 5 1 true] [] [Some 0] [] [].
Example kept_one_history b : history b [] kept_one.
Proof. refine (history_step b [] start (Cpp [CNew 5]) _ PNone (history_start _) Logic.I _). reflexivity. Qed.
Definition returned_one : state := mk_state [mk_cobj 5 2 true] [mk_wrap (Ptr (Some 0)) 1 true] [Some 0] [(5, 0)] [].
Example returned_once : step true (Call [] [] (CKept 0)) kept_one = Some (returned_one, PWrap 0) /\ legal [] kept_one (Call [] [] (CKept 0)) /\ refers returned_one 0 0.
Proof. split; [reflexivity|]. split; [intros p i []|]. eexists. split; [reflexivity|]. split; reflexivity. Qed.
Example goes_on_example : exists s2, goes_on true 0 [] returned_one [] s2 /\ s_kept s2 = [None] /\ exists s3, step true (Call [(mk_param false false, AWrap 0)] [] (CArg 0)) s2 = Some (s3, PWrap 0).
Proof.
  exists (mk_state [mk_cobj 5 1 true] [mk_wrap (Ptr (Some 0)) 1 true] [None] [(5, 0)] []). split; [|split; [reflexivity|eexists; reflexivity]].
  refine (goes_on_step true 0 [] _ [] _ (Cpp [CForget 0]) _ PNone (goes_on_start _ _ _ _) Logic.I _ _); [reflexivity|]. intros [|j] (w & Hw & X); exists w; split; auto.
Qed.
Example refuse_example : exists s, step true (Call [(mk_param false false, ANone)] [CKeep 0] CVoid) kept_one = Some (s, PTypeError).
Proof. eexists. reflexivity. Qed.

Print Assumptions C46_safe.
Print Assumptions C46_alive.
Print Assumptions C46_deleted.
Print Assumptions C46_references.
Print Assumptions C46_init.
Print Assumptions C46_refused.
Print Assumptions C46_argument.
Print Assumptions C46_returned_kept.
Print Assumptions C46_returned_argument.
Print Assumptions C46_returned_new.
Print Assumptions C46_identity.
Print Assumptions C46_constructed_identity_refuted.
Print Assumptions C46_init_again_refuted.
