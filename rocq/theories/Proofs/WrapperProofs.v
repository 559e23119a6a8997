(** Proofs for C05 (release discipline of forward wrappers). *)
From Coq Require Import Lia.
From Verif.Model Require Import Py CodeSink Decls CodeBlock Params MiniC ForwardWrapper.
From Verif.Spec Require Import WrapperSpec HandlerSpec.
From Verif.Proofs Require Import BlockProofs.
Open Scope list_scope.

(** ** Traces *)
Lemma lifo_app s t s' u s'' : lifo s t s' -> lifo s' u s'' -> lifo s (t ++ u) s''.
Proof. induction 1; cbn; intros; auto; constructor; auto. Qed.

Lemma lifo_plain l s : Forall plain l -> lifo s l s.
Proof.
  induction 1 as [|a r Ha _ IH]; [constructor|].
  apply lifo_other; auto; intros x ->; destruct Ha.
Qed.

Lemma plain_noret l : Forall plain l -> forall x, ~ In (AReturn x) l.
Proof. intros H x Hin. rewrite Forall_forall in H. now specialize (H _ Hin). Qed.

Definition noret (l : list act) : Prop := forall x, ~ In (AReturn x) l.

Lemma noret_app a b : noret a -> noret b -> noret (a ++ b).
Proof. intros Ha Hb x H. apply in_app_iff in H as [H|H]; [now apply (Ha x)|now apply (Hb x)]. Qed.

Lemma run_acts_noret l : noret l -> run_acts l = (l, false).
Proof.
  induction l as [|a r IH]; intros H; [reflexivity|]. cbn.
  destruct (is_return a) eqn:E.
  - destruct a; try discriminate. exfalso. apply (H what). now left.
  - rewrite IH; [reflexivity|]. intros x Hx. apply (H x). now right.
Qed.

Lemma run_acts_ret l w r : noret l -> run_acts (l ++ AReturn w :: r) = (l ++ [AReturn w], true).
Proof.
  induction l as [|a t IH]; intros H; [reflexivity|]. cbn.
  destruct (is_return a) eqn:E.
  - destruct a; try discriminate. exfalso. apply (H what). now left.
  - rewrite IH; [reflexivity|]. intros x Hx. apply (H x). now right.
Qed.

(** ** Items *)
(** A branch that ends the run properly when [s] is held. *)
Definition ok_branch (s : list nat) (l : list act) : Prop :=
  exists l0 w l1, l = l0 ++ AReturn w :: l1 /\ noret l0 /\ lifo s l0 [].

Definition falls (s : list nat) (l : list act) (s' : list nat) : Prop := noret l /\ lifo s l s'.

Definition item_ok (s : list nat) (i : item frag) (s' : list nat) : Prop :=
  match i with
  | ICode f => falls s (f_acts f) s' \/ (ok_branch s (f_acts f))
  | IIndent _ | IUnindent => s = s'
  | ICheck c body => falls s (f_acts c ++ f_pass c) s' /\ ok_branch s (f_acts c ++ frags_acts body)
  | IIf c body => falls s (f_acts c ++ f_pass c) s' /\ falls s (f_acts c ++ frags_acts body) s'
  | ITry body catches =>
      falls s (frags_acts body) s' /\
      Forall (fun cb => ok_branch s (until_throw (frags_acts body) ++ frags_acts (snd cb))) catches
  end.

Inductive seq_ok : list nat -> list (item frag) -> list nat -> Prop :=
| so_nil : forall s, seq_ok s [] s
| so_cons : forall s i s' l s'', item_ok s i s' -> seq_ok s' l s'' -> seq_ok s (i :: l) s''.

Lemma seq_ok_app s l s' m s'' : seq_ok s l s' -> seq_ok s' m s'' -> seq_ok s (l ++ m) s''.
Proof. induction 1; cbn; intros; auto. econstructor; eauto. Qed.
Lemma seq_ok_snoc s l s' i s'' : seq_ok s l s' -> item_ok s' i s'' -> seq_ok s (l ++ [i]) s''.
Proof. intros H1 H2. eapply seq_ok_app; [exact H1|]. econstructor; [exact H2|constructor]. Qed.

Definition good_run (s : list nat) (r : list act * outcome) (s' : list nat) : Prop :=
  match snd r with
  | Fell => falls s (fst r) s'
  | Returned => exists t0 w, fst r = t0 ++ [AReturn w] /\ noret t0 /\ lifo s t0 []
  | Escaped => True
  end.

Lemma good_prefix s t s' r s'' : falls s t s' -> good_run s' r s'' -> good_run s (t ++ fst r, snd r) s''.
Proof.
  intros [H1 H2] G. unfold good_run in *. cbn [fst snd]. destruct (snd r).
  - destruct G as [G1 G2]. split; [now apply noret_app|eapply lifo_app; eauto].
  - destruct G as [t0 [w [E [G1 G2]]]]. exists (t ++ t0), w. rewrite E, app_assoc. split; [reflexivity|].
    split; [now apply noret_app|eapply lifo_app; eauto].
  - exact I.
Qed.

Theorem exec_ok : forall l s s', seq_ok s l s' -> forall ch n, good_run s (exec ch n l) s'.
Proof.
  induction 1 as [s|s i s' l s'' Hi Hl IH]; intros ch n.
  - cbn. split; [intros x []|constructor].
  - specialize (IH ch (S n)).
    assert (K : forall t, falls s t s' ->
       good_run s (let (t', b) := run_acts t in
                   if b then (t', Returned) else (t' ++ fst (exec ch (S n) l), snd (exec ch (S n) l))) s'').
    { intros t Ht. rewrite (run_acts_noret t (proj1 Ht)). now apply good_prefix with (s' := s'). }
    assert (R : forall t, ok_branch s t ->
       good_run s (let (t', b) := run_acts t in
                   if b then (t', Returned) else (t' ++ fst (exec ch (S n) l), snd (exec ch (S n) l))) s'').
    { intros t [l0 [w [l1 [-> [H1 H2]]]]]. rewrite (run_acts_ret _ _ _ H1). exists l0, w. auto. }
    destruct i; cbn [exec item_ok] in *.
    + destruct Hi as [Hi|Hi]; auto.
    + now subst s'.
    + now subst s'.
    + destruct Hi as [H1 H2]. destruct (Nat.eqb (ch n) 0); auto.
    + destruct Hi as [H1 H2]. destruct (Nat.eqb (ch n) 0); auto.
    + destruct Hi as [H1 H2]. destruct (ch n) as [|j]; [auto|].
      destruct (nth_error catches j) as [[h cb]|] eqn:E; [|exact I].
      apply nth_error_In in E. rewrite Forall_forall in H2. specialize (H2 _ E). auto.
Qed.

(** ** Generation *)
Definition block_of (s : wstate) (b : nat) : option (block frag) := nth_error (w_blocks s) b.

(** Resources released by the registered cleanups, oldest first. *)
Inductive covers : list (nat * frag) -> list nat -> Prop :=
| cov_nil : covers [] []
| cov_cons : forall p f r l rs, releases r f -> covers l rs -> covers ((p, f) :: l) (r :: rs).

Lemma covers_snoc l rs p f r : covers l rs -> releases r f -> covers (l ++ [(p, f)]) (rs ++ [r]).
Proof. induction 1; cbn; intros; constructor; auto. constructor. Qed.

Lemma covers_release l rs : covers l rs ->
  (forall base, lifo (rev rs ++ base) (frags_acts (rev (map snd l))) base) /\ noret (frags_acts (rev (map snd l))).
Proof.
  induction 1 as [|p f r l rs [x [E Hx]] _ [IH1 IH2]]; cbn.
  - split; [constructor|intros y []].
  - unfold frags_acts in *. rewrite flat_map_app. cbn. rewrite app_nil_r, E. split.
    + intros base. rewrite <- app_assoc. eapply lifo_app; [apply IH1|]. cbn. constructor. now apply lifo_plain.
    + apply noret_app; auto. intros y [Hy|Hy]; [discriminate|]. eapply plain_noret; eauto.
Qed.

(** Positions are kept in increasing order, so sorting is the identity. *)
Inductive increasing : nat -> list (nat * frag) -> Prop :=
| inc_nil : forall n, increasing n []
| inc_snoc : forall n l p f, increasing n l -> n < p -> increasing p (l ++ [(p, f)]).

Lemma increasing_bound n l : increasing n l -> forall p f, In (p, f) l -> p <= n.
Proof.
  induction 1 as [|n l p f H IH Hp]; intros q g Hin; [destruct Hin|].
  apply in_app_iff in Hin as [Hin|[[= -> ->]|[]]]; [apply IH in Hin|]; lia.
Qed.
Lemma sort_snoc (l : list (nat * frag)) p f : (forall q g, In (q, g) l -> q < p) ->
  sort_actions (l ++ [(p, f)]) = sort_actions l ++ [(p, f)].
Proof.
  assert (I : forall (m : list (nat * frag)) x, fst x < p -> insert_action x (m ++ [(p, f)]) = insert_action x m ++ [(p, f)]).
  { induction m as [|y m IH]; intros x Hx; cbn.
    - destruct (Nat.leb_spec (fst x) p); [reflexivity|lia].
    - destruct (fst x <=? fst y)%nat; [reflexivity|]. now rewrite IH. }
  induction l as [|[q g] l IH]; intros H; cbn; [reflexivity|].
  rewrite IH by (intros; eapply H; right; eauto). apply I. cbn. apply (H q g). now left.
Qed.
Lemma increasing_sorted n l : increasing n l -> sort_actions l = l.
Proof.
  induction 1 as [|n l p f H IH Hp]; [reflexivity|].
  rewrite sort_snoc, IH; [reflexivity|]. intros q g Hin. apply (increasing_bound _ _ H) in Hin. lia.
Qed.

(** The shape of the three blocks. *)
Record shape (c : config) (s : wstate) (k0 k1 k2 : block frag) (rb ra : list nat) : Prop := {
  sh_blocks : w_blocks s = [k0; k1; k2];
  sh_p0 : pred k0 = None; sh_p1 : pred k1 = Some before_parse; sh_p2 : pred k2 = Some before_call;
  sh_e0 : err_ret k0 = c_parse_error c; sh_e1 : err_ret k1 = c_parse_error c; sh_e2 : err_ret k2 = c_error c;
  sh_a0 : actions k0 = [];
  sh_c1 : covers (actions k1) rb; sh_c2 : covers (actions k2) ra;
  sh_i1 : increasing (last_pos k1) (actions k1); sh_i2 : increasing (last_pos k2) (actions k2) }.

Lemma shape_cleanup c s k0 k1 k2 rb ra : shape c s k0 k1 k2 rb ra ->
  cleanup_code (w_blocks s) before_parse = [] /\
  cleanup_code (w_blocks s) before_call = rev (map snd (actions k1)) /\
  cleanup_code (w_blocks s) after_call = rev (map snd (actions k2)) ++ rev (map snd (actions k1)).
Proof.
  intros [B P0 P1 P2 E0 E1 E2 A0 C1 C2 I1 I2]. unfold cleanup_code. rewrite B. cbn [length].
  cbn [get_cleanup_code nth_error before_parse before_call after_call]. rewrite P0, P1, P2.
  cbn [get_cleanup_code nth_error before_parse before_call after_call]. rewrite P0, P1.
  cbn [get_cleanup_code nth_error before_parse before_call after_call]. rewrite ?P0, A0.
  rewrite (increasing_sorted _ _ I1), (increasing_sorted _ _ I2). cbn. rewrite !app_nil_r. auto.
Qed.

(** Invariant: each block's code so far is right when entered with what the earlier blocks finally hold;
    [base] is what the before-call block finally holds. *)
Record inv (c : config) (base : list nat) (s : wstate) (k0 k1 k2 : block frag) (rb ra : list nat) : Prop := {
  iv_shape : shape c s k0 k1 k2 rb ra;
  iv_0 : seq_ok [] (out k0) [];
  iv_1 : seq_ok [] (out k1) (rev rb);
  iv_2 : seq_ok base (out k2) (rev ra ++ base) }.

Definition addout (k : block frag) (l : list (item frag)) : block frag :=
  {| pred := pred k; actions := actions k; last_pos := last_pos k; err_ret := err_ret k; out := out k ++ l |}.
Definition addact (k : block frag) (f : frag) : block frag :=
  {| pred := pred k; actions := actions k ++ [(S (last_pos k), f)]; last_pos := S (last_pos k);
     err_ret := err_ret k; out := out k |}.

Lemma emit_before st k0 k1 k2 l : st = [k0; k1; k2] -> emit st before_call l = Ok [k0; addout k1 l; k2].
Proof. intros ->. reflexivity. Qed.
Lemma emit_after st k0 k1 k2 l : st = [k0; k1; k2] -> emit st after_call l = Ok [k0; k1; addout k2 l].
Proof. intros ->. reflexivity. Qed.
Lemma emit_parse st k0 k1 k2 l : st = [k0; k1; k2] -> emit st before_parse l = Ok [addout k0 l; k1; k2].
Proof. intros ->. reflexivity. Qed.

(** State changes that keep the blocks keep the invariant. *)
Lemma inv_same c base s s' k0 k1 k2 rb ra : w_blocks s' = w_blocks s ->
  inv c base s k0 k1 k2 rb ra -> inv c base s' k0 k1 k2 rb ra.
Proof. intros E [[B P0 P1 P2 E0 E1 E2 A0 C1 C2 I1 I2] H0 H1 H2]. repeat split; auto. congruence. Qed.

(** Writing items. *)
Lemma inv_emit_before c base s k0 k1 k2 rb ra l : inv c base s k0 k1 k2 rb ra -> seq_ok (rev rb) l (rev rb) ->
  inv c base (set_blocks s [k0; addout k1 l; k2]) k0 (addout k1 l) k2 rb ra.
Proof.
  intros [[B P0 P1 P2 E0 E1 E2 A0 C1 C2 I1 I2] H0 H1 H2] Hl. repeat split; auto.
  cbn. eapply seq_ok_app; eauto.
Qed.
Lemma inv_emit_after c base s k0 k1 k2 rb ra l : inv c base s k0 k1 k2 rb ra ->
  seq_ok (rev ra ++ base) l (rev ra ++ base) ->
  inv c base (set_blocks s [k0; k1; addout k2 l]) k0 k1 (addout k2 l) rb ra.
Proof.
  intros [[B P0 P1 P2 E0 E1 E2 A0 C1 C2 I1 I2] H0 H1 H2] Hl. repeat split; auto.
  cbn. eapply seq_ok_app; eauto.
Qed.
Lemma inv_emit_parse c base s k0 k1 k2 rb ra l : inv c base s k0 k1 k2 rb ra -> seq_ok [] l [] ->
  inv c base (set_blocks s [addout k0 l; k1; k2]) (addout k0 l) k1 k2 rb ra.
Proof.
  intros [[B P0 P1 P2 E0 E1 E2 A0 C1 C2 I1 I2] H0 H1 H2] Hl. repeat split; auto.
  cbn. eapply seq_ok_app; eauto.
Qed.
(** Acquiring: items going from holding to holding one more, and the cleanup. *)
Lemma inv_acquire_before c base s s' k0 k1 k2 rb ra l r f : inv c base s k0 k1 k2 rb ra ->
  seq_ok (rev rb) l (r :: rev rb) -> releases r f ->
  w_blocks s' = [k0; addact (addout k1 l) f; k2] ->
  inv c base s' k0 (addact (addout k1 l) f) k2 (rb ++ [r]) ra.
Proof.
  intros [[B P0 P1 P2 E0 E1 E2 A0 C1 C2 I1 I2] H0 H1 H2] Hl Hf Es. repeat split; auto.
  - cbn. now apply covers_snoc.
  - cbn. econstructor; eauto.
  - cbn [addact addout out]. rewrite rev_app_distr. eapply seq_ok_app; eauto.
Qed.
Lemma inv_acquire_after c base s s' k0 k1 k2 rb ra l r f : inv c base s k0 k1 k2 rb ra ->
  seq_ok (rev ra ++ base) l (r :: rev ra ++ base) -> releases r f ->
  w_blocks s' = [k0; k1; addact (addout k2 l) f] ->
  inv c base s' k0 k1 (addact (addout k2 l) f) rb (ra ++ [r]).
Proof.
  intros [[B P0 P1 P2 E0 E1 E2 A0 C1 C2 I1 I2] H0 H1 H2] Hl Hf Es. repeat split; auto.
  - cbn. now apply covers_snoc.
  - cbn. econstructor; eauto.
  - cbn [addact addout out]. rewrite rev_app_distr. eapply seq_ok_app; eauto.
Qed.

Lemma seq_one s i s' : item_ok s i s' -> seq_ok s [i] s'.
Proof. intros. econstructor; [eauto|constructor]. Qed.

Lemma falls_plain s l : Forall plain l -> falls s l s.
Proof. intros H. split; [intros x; now apply plain_noret|now apply lifo_plain]. Qed.
Lemma frags_plain l : Forall plain_frag l -> Forall plain (frags_acts l).
Proof.
  unfold frags_acts. induction 1 as [|f r [Hf _] _ IH]; cbn; [constructor|]. now apply Forall_app.
Qed.
Lemma opt_plain o : plain_opt o -> Forall plain (frags_acts (opt_list o)).
Proof. destruct o as [f|]; cbn; [|constructor]. intros [H _]. unfold frags_acts. cbn. now rewrite app_nil_r. Qed.

(** The error branch of a check. *)
Lemma branch_ok held pre cl er : Forall plain pre -> lifo held cl [] -> noret cl -> returns er ->
  ok_branch held (pre ++ cl ++ f_acts er).
Proof.
  intros Hp Hc Hn [l [w [E Hl]]]. exists (pre ++ cl ++ l), w, []. rewrite E, <- !app_assoc. split; [reflexivity|].
  split.
  - apply noret_app; [intros x; now apply plain_noret|]. apply noret_app; [auto|intros x; now apply plain_noret].
  - eapply lifo_app; [now apply lifo_plain|]. eapply lifo_app; [eauto|now apply lifo_plain].
Qed.

Lemma frags_app a b : frags_acts (a ++ b) = frags_acts a ++ frags_acts b.
Proof. unfold frags_acts. apply flat_map_app. Qed.

Section Gen.
Variable c : config.
Hypothesis Hpe : returns (c_parse_error c).
Hypothesis Her : returns (c_error c).

Lemma branch_before base s k0 k1 k2 rb ra (cnd : frag) (fail : option frag) :
  inv c base s k0 k1 k2 rb ra -> Forall plain (f_acts cnd) -> plain_opt fail ->
  ok_branch (rev rb) (f_acts cnd ++ frags_acts (opt_list fail ++ cleanup_code (w_blocks s) before_call ++ [err_ret k1])).
Proof.
  intros I Hc Hf. destruct I as [Sh _ _ _]. destruct (shape_cleanup _ _ _ _ _ _ _ Sh) as [_ [-> _]].
  rewrite !frags_app. rewrite app_assoc.
  destruct (covers_release _ _ (sh_c1 _ _ _ _ _ _ _ Sh)) as [H1 H2].
  replace (frags_acts [err_ret k1]) with (f_acts (c_parse_error c)).
  2:{ unfold frags_acts; cbn. now rewrite app_nil_r, (sh_e1 _ _ _ _ _ _ _ Sh). }
  apply branch_ok; auto.
  - apply Forall_app; split; [auto|now apply opt_plain].
  - specialize (H1 []). now rewrite app_nil_r in H1.
Qed.
Lemma branch_after base s k0 k1 k2 rb ra (cnd : frag) (fail : option frag) :
  inv c base s k0 k1 k2 rb ra -> base = rev rb -> Forall plain (f_acts cnd) -> plain_opt fail ->
  ok_branch (rev ra ++ base) (f_acts cnd ++ frags_acts (opt_list fail ++ cleanup_code (w_blocks s) after_call ++ [err_ret k2])).
Proof.
  intros I -> Hc Hf. destruct I as [Sh _ _ _]. destruct (shape_cleanup _ _ _ _ _ _ _ Sh) as [_ [_ ->]].
  rewrite !frags_app. rewrite (app_assoc (f_acts cnd)).
  destruct (covers_release _ _ (sh_c1 _ _ _ _ _ _ _ Sh)) as [H1 H2].
  destruct (covers_release _ _ (sh_c2 _ _ _ _ _ _ _ Sh)) as [H3 H4].
  replace (frags_acts [err_ret k2]) with (f_acts (c_error c)).
  2:{ unfold frags_acts; cbn. now rewrite app_nil_r, (sh_e2 _ _ _ _ _ _ _ Sh). }
  apply branch_ok; auto.
  - apply Forall_app; split; [auto|now apply opt_plain].
  - specialize (H1 []). rewrite app_nil_r in H1. eapply lifo_app; eauto.
  - now apply noret_app.
Qed.

(** Checks and their items. *)
Lemma check_before base s k0 k1 k2 rb ra cnd fail : inv c base s k0 k1 k2 rb ra ->
  Forall plain (f_acts cnd) -> plain_opt fail -> forall s1 : list nat,
  falls (rev rb) (f_acts cnd ++ f_pass cnd) s1 ->
  exists l, write_error_check (w_blocks s) before_call cnd fail = Ok [k0; addout k1 l; k2] /\ seq_ok (rev rb) l s1.
Proof.
  intros I Hc Hf s1 Hp. eexists. split.
  - unfold write_error_check. rewrite (sh_blocks _ _ _ _ _ _ _ (iv_shape _ _ _ _ _ _ _ _ I)) at 1. cbn [nth_error before_call].
    apply emit_before. apply (sh_blocks _ _ _ _ _ _ _ (iv_shape _ _ _ _ _ _ _ _ I)).
  - apply seq_one. split; [exact Hp|]. eapply branch_before; eauto.
Qed.
Lemma check_after base s k0 k1 k2 rb ra cnd fail : inv c base s k0 k1 k2 rb ra -> base = rev rb ->
  Forall plain (f_acts cnd) -> plain_opt fail -> forall s1 : list nat,
  falls (rev ra ++ base) (f_acts cnd ++ f_pass cnd) s1 ->
  exists l, write_error_check (w_blocks s) after_call cnd fail = Ok [k0; k1; addout k2 l] /\ seq_ok (rev ra ++ base) l s1.
Proof.
  intros I Hb Hc Hf s1 Hp. eexists. split.
  - unfold write_error_check. rewrite (sh_blocks _ _ _ _ _ _ _ (iv_shape _ _ _ _ _ _ _ _ I)) at 1. cbn [nth_error after_call].
    apply emit_after. apply (sh_blocks _ _ _ _ _ _ _ (iv_shape _ _ _ _ _ _ _ _ I)).
  - apply seq_one. split; [exact Hp|]. eapply branch_after; eauto.
Qed.

Definition has_check_after (l : list hact) : Prop := exists c f, In (XCheck After c f) l.

(** Before-call cleanups registered by a list of calls. *)
Definition no_before_cleanup (l : list hact) : Prop := forall g, ~ In (XCleanup Before g) l.

Definition Inv base s (rb ra : list nat) : Prop := exists k0 k1 k2, inv c base s k0 k1 k2 rb ra.


Definition Shape s (rb ra : list nat) : Prop := exists k0 k1 k2, shape c s k0 k1 k2 rb ra.

Lemma covers_fun l r1 r2 : covers l r1 -> covers l r2 -> r1 = r2.
Proof.
  intros H; revert r2; induction H as [|p f r l rs [x [E _]] _ IH]; intros r2 H2; inversion H2; subst; [reflexivity|].
  match goal with H : releases _ f |- _ => destruct H as [y [E' _]] end.
  rewrite E in E'. injection E' as <- _. f_equal. auto.
Qed.
Lemma Shape_fun s rb ra rb' ra' : Shape s rb ra -> Shape s rb' ra' -> rb = rb' /\ ra = ra'.
Proof.
  intros [k0 [k1 [k2 S1]]] [k0' [k1' [k2' S2]]].
  pose proof (sh_blocks _ _ _ _ _ _ _ S1) as B1. rewrite (sh_blocks _ _ _ _ _ _ _ S2) in B1.
  injection B1 as -> -> ->. split; eapply covers_fun.
  - apply (sh_c1 _ _ _ _ _ _ _ S1).
  - apply (sh_c1 _ _ _ _ _ _ _ S2).
  - apply (sh_c2 _ _ _ _ _ _ _ S1).
  - apply (sh_c2 _ _ _ _ _ _ _ S2).
Qed.

Lemma shape_out s s' k0 k1 k2 rb ra l0 l1 l2 : shape c s k0 k1 k2 rb ra ->
  w_blocks s' = [addout k0 l0; addout k1 l1; addout k2 l2] ->
  shape c s' (addout k0 l0) (addout k1 l1) (addout k2 l2) rb ra.
Proof. intros [B P0 P1 P2 E0 E1 E2 A0 C1 C2 I1 I2] E. split; auto. Qed.
Lemma shape_act1 s s' k0 k1 k2 rb ra r f : shape c s k0 k1 k2 rb ra -> releases r f ->
  w_blocks s' = [k0; addact k1 f; k2] -> shape c s' k0 (addact k1 f) k2 (rb ++ [r]) ra.
Proof.
  intros [B P0 P1 P2 E0 E1 E2 A0 C1 C2 I1 I2] Hf E. split; auto; cbn.
  - now apply covers_snoc.
  - econstructor; eauto.
Qed.
Lemma shape_act2 s s' k0 k1 k2 rb ra r f : shape c s k0 k1 k2 rb ra -> releases r f ->
  w_blocks s' = [k0; k1; addact k2 f] -> shape c s' k0 k1 (addact k2 f) rb (ra ++ [r]).
Proof.
  intros [B P0 P1 P2 E0 E1 E2 A0 C1 C2 I1 I2] Hf E. split; auto; cbn.
  - now apply covers_snoc.
  - econstructor; eauto.
Qed.
Lemma addout_nil k : addout k [] = k.
Proof. destruct k; unfold addout; cbn. now rewrite app_nil_r. Qed.

(** Any write keeps the shape. *)
Lemma Shape_emit s b l st' rb ra : Shape s rb ra -> emit (w_blocks s) b l = Ok st' -> Shape (set_blocks s st') rb ra.
Proof.
  intros [k0 [k1 [k2 S]]] E. pose proof (sh_blocks _ _ _ _ _ _ _ S) as B. rewrite B in E.
  destruct b as [|[|[|b]]].
  - injection E as <-. exists (addout k0 l), (addout k1 []), (addout k2 []). eapply shape_out; [exact S|]. now rewrite !addout_nil.
  - injection E as <-. exists (addout k0 []), (addout k1 l), (addout k2 []). eapply shape_out; [exact S|]. now rewrite !addout_nil.
  - injection E as <-. exists (addout k0 []), (addout k1 []), (addout k2 l). eapply shape_out; [exact S|]. now rewrite !addout_nil.
  - destruct b; discriminate.
Qed.
Lemma Shape_check s b cnd fail st' rb ra : Shape s rb ra -> write_error_check (w_blocks s) b cnd fail = Ok st' ->
  Shape (set_blocks s st') rb ra.
Proof.
  intros S E. unfold write_error_check in E. destruct (nth_error (w_blocks s) b); [|discriminate].
  eapply Shape_emit; eauto.
Qed.
Lemma Shape_same s s' rb ra : w_blocks s' = w_blocks s -> Shape s rb ra -> Shape s' rb ra.
Proof. intros E [k0 [k1 [k2 [B P0 P1 P2 E0 E1 E2 A0 C1 C2 I1 I2]]]]. exists k0, k1, k2. split; auto. congruence. Qed.
Lemma Shape_cleanup s w f s' rb ra r : Shape s rb ra -> releases r f -> hstep s (XCleanup w f) = Ok s' ->
  Shape s' (match w with Before => rb ++ [r] | After => rb end) (match w with Before => ra | After => ra ++ [r] end).
Proof.
  intros [k0 [k1 [k2 S]]] Hf E. pose proof (sh_blocks _ _ _ _ _ _ _ S) as B. cbn in E. rewrite B in E.
  destruct w; injection E as <-.
  - exists k0, (addact k1 f), k2. eapply shape_act1; eauto.
  - exists k0, k1, (addact k2 f). eapply shape_act2; eauto.
Qed.

Lemma Shape_harmless a s s' rb ra : harmless a -> hstep s a = Ok s' -> Shape s rb ra -> Shape s' rb ra.
Proof.
  intros Ha E S. destruct a; cbn [hstep harmless] in *; try (now destruct Ha); unfold on_blocks in E.
  - destruct (declare_variable (w_decls s) 0 type_ name initializer array) as [d [v|e]]; [|discriminate].
    injection E as <-. eapply Shape_same; [|exact S]. reflexivity.
  - injection E as <-. eapply Shape_same; [|exact S]. reflexivity.
  - destruct (emit _ _ _) eqn:E1; [|discriminate]. injection E as <-. eapply Shape_emit; eauto.
  - destruct (emit _ _ _) eqn:E1; [|discriminate]. injection E as <-. eapply Shape_emit; eauto.
  - destruct (emit _ _ _) eqn:E1; [|discriminate]. injection E as <-. eapply Shape_emit; eauto.
  - destruct (emit _ _ _) eqn:E1; [|discriminate]. injection E as <-. eapply Shape_emit; eauto.
  - destruct (write_error_check _ _ _ _) eqn:E1; [|discriminate]. injection E as <-. eapply Shape_check; eauto.
  - injection E as <-. eapply Shape_same; [|exact S]. reflexivity.
  - injection E as <-. eapply Shape_same; [|exact S]. reflexivity.
  - injection E as <-. eapply Shape_same; [|exact S]. reflexivity.
Qed.

Lemma hrun_shape l : disciplined l -> forall s s' rb ra, hrun s l = Ok s' -> Shape s rb ra ->
  exists rb' ra', Shape s' rb' ra' /\ (no_before_cleanup l -> rb' = rb).
Proof.
  induction 1 as [|a l Ha Hl IH|w f r cl l Hacq Hrel Hl IH|w cnd fail r cl l Hacq Hf Hrel Hl IH];
    intros s s' rb ra Hr S.
  - injection Hr as <-. eauto.
  - cbn [hrun] in Hr. destruct (hstep s a) as [s1|] eqn:E; [|discriminate]. cbn [bind] in Hr.
    destruct (IH _ _ _ _ Hr (Shape_harmless _ _ _ _ _ Ha E S)) as [rb' [ra' [H1 H2]]].
    exists rb', ra'. split; auto. intros H. apply H2. intros g Hg. apply (H g). now right.
  - cbn [hrun] in Hr. destruct (hstep s (XCode w f)) as [s1|] eqn:E; [|discriminate]. cbn [bind] in Hr.
    cbn [hstep] in E. unfold on_blocks in E. destruct (emit _ _ _) eqn:E1; [|discriminate]. injection E as <-.
    pose proof (Shape_emit _ _ _ _ _ _ S E1) as S1.
    destruct (hstep _ (XCleanup w cl)) as [s2|] eqn:E2; [|discriminate]. cbn [bind] in Hr.
    pose proof (Shape_cleanup _ _ _ _ _ _ _ S1 Hrel E2) as S2.
    destruct (IH _ _ _ _ Hr S2) as [rb' [ra' [H1 H2]]]. exists rb', ra'. split; auto.
    intros H. destruct w.
    + exfalso. apply (H cl). right; now left.
    + apply H2. intros g Hg. apply (H g). right; now right.
  - cbn [hrun] in Hr. destruct (hstep s (XCheck w cnd fail)) as [s1|] eqn:E; [|discriminate]. cbn [bind] in Hr.
    cbn [hstep] in E. unfold on_blocks in E. destruct (write_error_check _ _ _ _) eqn:E1; [|discriminate]. injection E as <-.
    pose proof (Shape_check _ _ _ _ _ _ _ S E1) as S1.
    destruct (hstep _ (XCleanup w cl)) as [s2|] eqn:E2; [|discriminate]. cbn [bind] in Hr.
    pose proof (Shape_cleanup _ _ _ _ _ _ _ S1 Hrel E2) as S2.
    destruct (IH _ _ _ _ Hr S2) as [rb' [ra' [H1 H2]]]. exists rb', ra'. split; auto.
    intros H. destruct w.
    + exfalso. apply (H cl). right; now left.
    + apply H2. intros g Hg. apply (H g). right; now right.
Qed.

Lemma Inv_Shape base s rb ra : Inv base s rb ra -> Shape s rb ra.
Proof. intros [k0 [k1 [k2 I]]]. exists k0, k1, k2. apply (iv_shape _ _ _ _ _ _ _ _ I). Qed.

Lemma no_before_stable l s s' rb ra rb' ra' : disciplined l -> hrun s l = Ok s' -> Shape s rb ra -> Shape s' rb' ra' ->
  no_before_cleanup l -> rb' = rb.
Proof.
  intros D Hr S S' N. destruct (hrun_shape l D _ _ _ _ Hr S) as [rb2 [ra2 [H1 H2]]].
  destruct (Shape_fun _ _ _ _ _ S' H1) as [-> _]. auto.
Qed.

(** A disciplined run keeps the invariant, provided [base] is what the before-call block finally holds in case
    an after-call check is written. *)
Lemma hrun_ok l : disciplined l -> forall base s s' rb ra rb' ra', hrun s l = Ok s' ->
  Inv base s rb ra -> Shape s' rb' ra' -> no_late_cleanup l -> (has_check_after l -> base = rev rb') ->
  Inv base s' rb' ra'.
Proof.
  induction 1 as [|a l Ha Hl IH|w f r cl l Hacq Hrel Hl IH|w cnd fail r cl l Hacq Hf Hrel Hl IH];
    intros base s s' rb ra rb' ra' Hr I0 S' Hlate Hb.
  - injection Hr as <-. destruct (Shape_fun _ _ _ _ _ S' (Inv_Shape _ _ _ _ I0)) as [-> ->]. exact I0.
  - (* harmless *)
    cbn [hrun] in Hr. destruct (hstep s a) as [s1|] eqn:E; [|discriminate]. cbn [bind] in Hr.
    assert (Hlate' : no_late_cleanup l) by (intros l1 c' f' l2 ->; apply (Hlate (a :: l1) c' f' l2 eq_refl)).
    assert (Hb' : has_check_after l -> base = rev rb')
      by (intros [c' [f' Hin]]; apply Hb; exists c', f'; now right).
    pose proof (Shape_harmless _ _ _ _ _ Ha E (Inv_Shape _ _ _ _ I0)) as S1.
    destruct I0 as [k0 [k1 [k2 I]]].
    pose proof (iv_shape _ _ _ _ _ _ _ _ I) as Sh. pose proof (sh_blocks _ _ _ _ _ _ _ Sh) as B.
    apply (IH base s1 s' rb ra rb' ra' Hr); auto.
    destruct a; cbn [hstep harmless] in *; try (now destruct Ha).
    + destruct (declare_variable (w_decls s) 0 type_ name initializer array) as [d [v|e]]; [|discriminate].
      injection E as <-. exists k0, k1, k2. eapply inv_same; [|exact I]. reflexivity.
    + injection E as <-. exists k0, k1, k2. eapply inv_same; [|exact I]. reflexivity.
    + destruct w; cbn [blk] in E; [rewrite (emit_before _ _ _ _ _ B) in E|rewrite (emit_after _ _ _ _ _ B) in E];
        injection E as <-.
      * exists k0, (addout k1 [ICode f]), k2. apply inv_emit_before; [exact I|]. apply seq_one. left. now apply falls_plain, Ha.
      * exists k0, k1, (addout k2 [ICode f]). apply inv_emit_after; [exact I|]. apply seq_one. left. now apply falls_plain, Ha.
    + destruct w; cbn [blk] in E; [rewrite (emit_before _ _ _ _ _ B) in E|rewrite (emit_after _ _ _ _ _ B) in E];
        injection E as <-.
      * exists k0, (addout k1 [IIndent n]), k2. apply inv_emit_before; [exact I|]. apply seq_one. reflexivity.
      * exists k0, k1, (addout k2 [IIndent n]). apply inv_emit_after; [exact I|]. apply seq_one. reflexivity.
    + destruct w; cbn [blk] in E; [rewrite (emit_before _ _ _ _ _ B) in E|rewrite (emit_after _ _ _ _ _ B) in E];
        injection E as <-.
      * exists k0, (addout k1 [IUnindent]), k2. apply inv_emit_before; [exact I|]. apply seq_one. reflexivity.
      * exists k0, k1, (addout k2 [IUnindent]). apply inv_emit_after; [exact I|]. apply seq_one. reflexivity.
    + (* XIf *)
      destruct Ha as [[Hc1 Hc2] Hbd].
      assert (Q : forall x, item_ok x (IIf c0 body) x).
      { intros x. split; apply falls_plain; apply Forall_app; split; auto. now apply frags_plain. }
      destruct w; cbn [blk] in E; [rewrite (emit_before _ _ _ _ _ B) in E|rewrite (emit_after _ _ _ _ _ B) in E];
        injection E as <-.
      * exists k0, (addout k1 [IIf c0 body]), k2. apply inv_emit_before; [exact I|]. now apply seq_one.
      * exists k0, k1, (addout k2 [IIf c0 body]). apply inv_emit_after; [exact I|]. now apply seq_one.
    + (* XCheck *)
      destruct Ha as [[Hc1 Hc2] Hf].
      destruct w; cbn [blk] in E.
      * destruct (check_before _ _ _ _ _ _ _ c0 fail I Hc1 Hf (rev rb)) as [it [E1 E2]].
        { apply falls_plain, Forall_app; auto. }
        rewrite E1 in E. injection E as <-.
        exists k0, (addout k1 it), k2. now apply inv_emit_before.
      * (* after-call check: from here on no before-call cleanup is registered *)
        assert (NB : no_before_cleanup l) by (intros g Hg; apply (Hlate [] c0 fail l eq_refl g Hg)).
        assert (Eb : base = rev rb).
        { rewrite <- (no_before_stable l s1 s' rb ra rb' ra' Hl Hr S1 S' NB). apply Hb. exists c0, fail. now left. }
        destruct (check_after _ _ _ _ _ _ _ c0 fail I Eb Hc1 Hf (rev ra ++ base)) as [it [E1 E2]].
        { apply falls_plain, Forall_app; auto. }
        rewrite E1 in E. injection E as <-.
        exists k0, k1, (addout k2 it). now apply inv_emit_after.
    + injection E as <-. exists k0, k1, k2. eapply inv_same; [|exact I]. reflexivity.
    + injection E as <-. exists k0, k1, k2. eapply inv_same; [|exact I]. reflexivity.
    + injection E as <-. exists k0, k1, k2. eapply inv_same; [|exact I]. reflexivity.
  - (* acquire *)
    assert (Hlate' : no_late_cleanup l)
      by (intros l1 c' f' l2 ->; apply (Hlate (XCode w f :: XCleanup w cl :: l1) c' f' l2 eq_refl)).
    assert (Hb' : has_check_after l -> base = rev rb')
      by (intros [c' [f' Hin]]; apply Hb; exists c', f'; right; now right).
    destruct I0 as [k0 [k1 [k2 I]]].
    pose proof (iv_shape _ _ _ _ _ _ _ _ I) as Sh. pose proof (sh_blocks _ _ _ _ _ _ _ Sh) as B.
    destruct Hacq as [pre [Ef Hpre]].
    assert (Q : forall x, item_ok x (ICode f) (r :: x)).
    { intros x. left. rewrite Ef. split.
      - apply noret_app; [intros y; now apply plain_noret|]. intros y [|[]]; discriminate.
      - eapply lifo_app; [now apply lifo_plain|]. constructor. constructor. }
    destruct w; cbn [hrun hstep blk on_blocks] in Hr.
    + rewrite (emit_before _ _ _ _ _ B) in Hr. cbn in Hr.
      refine (IH base _ s' (rb ++ [r]) ra rb' ra' Hr _ S' Hlate' Hb').
      exists k0, (addact (addout k1 [ICode f]) cl), k2.
      eapply inv_acquire_before; [exact I|apply seq_one, Q|exact Hrel|reflexivity].
    + rewrite (emit_after _ _ _ _ _ B) in Hr. cbn in Hr.
      refine (IH base _ s' rb (ra ++ [r]) rb' ra' Hr _ S' Hlate' Hb').
      exists k0, k1, (addact (addout k2 [ICode f]) cl).
      eapply inv_acquire_after; [exact I|apply seq_one, Q|exact Hrel|reflexivity].
  - (* check + acquire *)
    assert (Hlate' : no_late_cleanup l)
      by (intros l1 c' f' l2 ->; apply (Hlate (XCheck w cnd fail :: XCleanup w cl :: l1) c' f' l2 eq_refl)).
    assert (Hb' : has_check_after l -> base = rev rb')
      by (intros [c' [f' Hin]]; apply Hb; exists c', f'; right; now right).
    destruct I0 as [k0 [k1 [k2 I]]].
    pose proof (iv_shape _ _ _ _ _ _ _ _ I) as Sh. pose proof (sh_blocks _ _ _ _ _ _ _ Sh) as B.
    destruct Hacq as [Hc1 Ep].
    assert (Q : forall x, falls x (f_acts cnd ++ f_pass cnd) (r :: x)).
    { intros x. rewrite Ep. split.
      - apply noret_app; [intros y; now apply plain_noret|]. intros y [|[]]; discriminate.
      - eapply lifo_app; [now apply lifo_plain|]. constructor. constructor. }
    destruct w; cbn [hrun hstep blk] in Hr.
    + destruct (check_before _ _ _ _ _ _ _ cnd fail I Hc1 Hf (r :: rev rb) (Q _)) as [it [E1 E2]].
      unfold on_blocks at 1 in Hr. rewrite E1 in Hr. cbn in Hr.
      refine (IH base _ s' (rb ++ [r]) ra rb' ra' Hr _ S' Hlate' Hb').
      exists k0, (addact (addout k1 it) cl), k2.
      eapply inv_acquire_before; [exact I|exact E2|exact Hrel|reflexivity].
    + assert (NB : no_before_cleanup l) by (intros g Hg; apply (Hlate [] cnd fail _ eq_refl g); now right).
      (* the state after the check and the registration *)
      destruct (write_error_check (w_blocks s) after_call cnd fail) as [st1|] eqn:E1; [|discriminate].
      assert (S1 : Shape (set_blocks s st1) rb ra).
      { eapply Shape_check; [|exact E1]. exists k0, k1, k2. exact Sh. }
      cbn [on_blocks bind] in Hr.
      destruct (hstep (set_blocks s st1) (XCleanup After cl)) as [s2|] eqn:E2; cbn [hstep blk] in E2.
      2:{ unfold on_blocks in Hr. cbn [bind] in Hr. cbn in Hr. cbn in E2.
          destruct (add_cleanup_code st1 after_call cl); discriminate. }
      assert (Hr2 : hrun s2 l = Ok s').
      { unfold on_blocks in Hr. cbn [bind] in Hr. cbn in Hr, E2.
        destruct (add_cleanup_code st1 after_call cl); [|discriminate]. cbn in *. injection E2 as <-. exact Hr. }
      pose proof (Shape_cleanup (set_blocks s st1) After cl s2 rb ra r S1 Hrel E2) as S2. cbn in S2.
      assert (Eb : base = rev rb).
      { rewrite <- (no_before_stable l s2 s' rb _ rb' ra' Hl Hr2 S2 S' NB). apply Hb. exists cnd, fail. now left. }
      destruct (check_after _ _ _ _ _ _ _ cnd fail I Eb Hc1 Hf (r :: rev ra ++ base) (Q _)) as [it [E3 E4]].
      rewrite E3 in E1. injection E1 as <-. cbn in E2. injection E2 as <-.
      refine (IH base _ s' rb (ra ++ [r]) rb' ra' Hr2 _ S' Hlate' Hb').
      exists k0, k1, (addact (addout k2 it) cl).
      eapply inv_acquire_after; [exact I|exact E4|exact Hrel|reflexivity].
Qed.
End Gen.
