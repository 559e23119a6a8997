(** Properties of the states module generation goes through. *)
From Verif.Model Require Import Py PyState Mangle Errors Overloading Module.
From Verif.Proofs Require Import Steps.
Open Scope list_scope.
Open Scope st_scope.

Section GenSteps.
  Context (R : gstate -> gstate -> Prop) (Rrefl : forall s, R s s) (Rtrans : forall a b c, R a b -> R b c -> R a c).
  Context (p : policy) (multi : bool).
  Context (Rnote : forall k e g, R g (gnote k e g)).
  Context (Rsink : forall s g, R g (fst (sink_for multi s g))).
  Definition puts (k : sink) (x : piece) : Prop := forall g, R g (emit k x g).
  Notation steps := (steps R).

  Lemma steps_put k x : puts k x -> steps (put k x).
  Proof. intros H. apply steps_modify. exact H. Qed.
  Lemma steps_handled {A} k (m : st gstate A) : steps m -> steps (handled p k m).
  Proof.
    intros M. unfold handled. apply steps_try; [exact Rtrans|apply steps_bind; [exact Rtrans|now apply steps_call|intros; now apply steps_ret]|].
    intros e. destruct (exc_eq_dec e SkipWrapper); [now apply steps_ret|now apply steps_raise].
  Qed.
  Lemma sink_for_result s g : exists g', sink_for multi s g = (g', Ok (if multi then match s with Some s => SSection s | None => SMain end else SMain)).
  Proof. unfold sink_for. destruct multi; [|eauto]. destruct s as [s|]; [|eauto]. destruct (mem s (g_started g)); eauto. Qed.
  Definition the_sink (s : option string) : sink := if multi then match s with Some s => SSection s | None => SMain end else SMain.
  Lemma steps_sink {B} s (f : sink -> st gstate B) : steps (f (the_sink s)) -> steps (sbind (sink_for multi s) f).
  Proof.
    intros F g. destruct (sink_for_result s g) as (g' & E). pose proof (Rsink s g) as H. unfold sbind. rewrite E in *. cbn [fst] in H.
    exact (Rtrans _ _ _ H (F g')).
  Qed.

  Lemma steps_function f : (forall k, puts k PBlank) -> (forall c, puts (the_sink (set_section_of f)) (PChunk c)) -> (forall n, puts SMain (PDeclare n)) ->
    steps (gen_function p multi f).
  Proof.
    intros Bl Ch De. unfold gen_function. apply steps_sink. apply steps_bind; [exact Rtrans|apply steps_put, Bl|]. intros _.
    apply steps_bind; [exact Rtrans|apply steps_handled, steps_overload; auto; intros c s; apply Ch|].
    intros [[ws b]|]; [|now apply steps_ret]. apply steps_bind; [exact Rtrans|apply steps_handled|].
    - apply steps_bind; [exact Rtrans|apply steps_overload; auto|]. intros x. apply steps_bind; [exact Rtrans|apply steps_put, De|]. intros _. now apply steps_ret.
    - intros [[ws' b']|]; [|now apply steps_ret]. apply steps_bind; [exact Rtrans|apply steps_put, Bl|]. intros _.
      apply steps_bind; [exact Rtrans|now apply steps_row|]. intros r. now apply steps_ret.
  Qed.
  Lemma steps_functions l : (forall k, puts k PBlank) -> (forall f c, In f l -> puts (the_sink (set_section_of f)) (PChunk c)) -> (forall n, puts SMain (PDeclare n)) ->
    steps (gen_functions p multi l).
  Proof.
    intros Bl Ch De. induction l as [|f l IH]; cbn [gen_functions]; [now apply steps_ret|].
    apply steps_bind; [exact Rtrans|apply steps_function; auto; intros c; apply Ch; now left|]. intros a.
    apply steps_bind; [exact Rtrans|apply IH; intros f' c I; apply Ch; now right|]. intros rows. now apply steps_ret.
  Qed.
  Lemma steps_action text k a : (forall t, a = AText t -> puts k (text t)) ->
    (forall n pr g, a = AOnce n pr -> mem n (w_once (g_world g)) = false -> R g (once n pr k g)) -> steps (run_action text k a).
  Proof.
    intros T O. destruct a as [t|n pr|e]; cbn [run_action]; [apply steps_put; auto| |now apply steps_raise].
    intros g. destruct (mem n (w_once (g_world g))) eqn:M; cbn [fst]; [apply Rrefl|eauto].
  Qed.
  Definition claim_state (n : string) (g : gstate) : gstate := mk_gstate (add_once n (g_world g)) (g_out g) (g_started g) (g_header g).
  Lemma steps_forward_type t : (forall x, In (AText x) (ti_forward t) -> puts SHeader (PForward x (ti_id t))) ->
    (forall n pr g, In (AOnce n pr) (ti_forward t) -> mem n (w_once (g_world g)) = false -> R g (once n pr SHeader g)) ->
    (forall n g, ti_claim t = Some n -> mem n (w_once (g_world g)) = false -> R g (emit SHeader (PProto n) (claim_state n g))) ->
    steps (forward_type t).
  Proof.
    intros T O C. unfold forward_type. apply steps_bind; [exact Rtrans| |].
    - apply steps_for; auto. intros a I. apply steps_action.
      + intros x ->. now apply T.
      + intros n pr g ->. now apply O.
    - intros _. destruct (ti_claim t) as [n|]; [|now apply steps_ret]. intros g.
      destruct (mem n (w_once (g_world g))) eqn:M; cbn [fst]; [apply Rrefl|]. now apply C.
  Qed.
  Lemma steps_gen_type t : let k := the_sink (Some (ti_section t)) in
    (forall k, puts k PBlank) ->
    (forall x, In (AText x) (ti_body t) -> puts k (PText x (ti_id t))) ->
    (forall n pr g, In (AOnce n pr) (ti_body t) -> mem n (w_once (g_world g)) = false -> R g (once n pr k g)) ->
    (forall n, ti_claim t = Some n -> puts k (PDefine n)) ->
    steps (gen_type multi t).
  Proof.
    cbv zeta. intros Bl T O C. unfold gen_type. apply steps_sink. apply steps_bind; [exact Rtrans|apply steps_put, Bl|]. intros _.
    apply steps_bind; [exact Rtrans| |].
    - apply steps_for; auto. intros a I. apply steps_action.
      + intros x ->. now apply T.
      + intros n pr g ->. now apply O.
    - intros _. apply steps_bind; [exact Rtrans| |intros _; apply steps_put, Bl].
      destruct (ti_claim t) as [n|]; [apply steps_put; now apply C|now apply steps_ret].
  Qed.
  Lemma steps_gmod i : steps (get_gmod i).
  Proof. intros g. apply Rrefl. Qed.
End GenSteps.

(** ** Modules do not change during generation; the record of the handler's calls grows *)
Definition same_mods (a b : gstate) : Prop := w_mods (g_world b) = w_mods (g_world a).
Definition grows_log (a b : gstate) : Prop := exists l, w_log (g_world b) = w_log (g_world a) ++ l.
Definition calm (a b : gstate) : Prop := same_mods a b /\ grows_log a b.
Lemma calm_refl a : calm a a.
Proof. split; [reflexivity|exists []; now rewrite app_nil_r]. Qed.
Lemma calm_trans a b c : calm a b -> calm b c -> calm a c.
Proof.
  intros (A & l & E) (B & l' & E'). split; [unfold same_mods in *; congruence|]. exists (l ++ l'). now rewrite E', E, app_assoc.
Qed.
Lemma calm_note k e g : calm g (gnote k e g).
Proof. split; [reflexivity|now exists [(k, e)]]. Qed.
Lemma calm_emit k x g : calm g (emit k x g).
Proof. split; [reflexivity|exists []; now rewrite app_nil_r]. Qed.
Lemma calm_sink multi s g : calm g (fst (sink_for multi s g)).
Proof.
  unfold sink_for. destruct multi; [|apply calm_refl]. destruct s as [s|]; [|apply calm_refl]. destruct (mem s (g_started g)); [apply calm_refl|].
  split; [reflexivity|exists []; now rewrite app_nil_r].
Qed.
Lemma calm_once n pr k g : calm g (once n pr k g).
Proof. split; [reflexivity|exists []; now rewrite app_nil_r]. Qed.
Lemma calm_with_out o g : calm g (with_out o g).
Proof. split; [reflexivity|exists []; now rewrite app_nil_r]. Qed.
Section Calm.
  Context (p : policy) (multi : bool).
  Lemma calm_function f : steps calm (gen_function p multi f).
  Proof.
    apply steps_function; try exact calm_refl; try exact calm_trans; try exact calm_note; try exact (calm_sink multi);
      intros; intros g; apply calm_emit.
  Qed.
  Lemma calm_functions l : steps calm (gen_functions p multi l).
  Proof.
    apply steps_functions; try exact calm_refl; try exact calm_trans; try exact calm_note; try exact (calm_sink multi);
      intros; intros g; apply calm_emit.
  Qed.
  Lemma calm_forward_type t : steps calm (forward_type t).
  Proof.
    apply steps_forward_type; try exact calm_refl; try exact calm_trans; intros; try (intros g; apply calm_emit); [apply calm_once|].
    split; [reflexivity|exists []; now rewrite app_nil_r].
  Qed.
  Lemma calm_gen_type t : steps calm (gen_type multi t).
  Proof.
    apply steps_gen_type; try exact calm_refl; try exact calm_trans; try exact (calm_sink multi); intros; try (intros g; apply calm_emit); apply calm_once.
  Qed.
  Lemma calm_forward fuel : forall i, steps calm (forward_module fuel i).
  Proof.
    induction fuel as [|fuel IH]; intros i; cbn [forward_module]; [apply steps_raise; exact calm_refl|].
    apply steps_bind; [exact calm_trans|apply steps_gmod; exact calm_refl|]. intros m.
    apply steps_bind; [exact calm_trans|apply steps_for; [exact calm_refl|exact calm_trans|intros; apply calm_forward_type]|]. intros _.
    apply steps_for; [exact calm_refl|exact calm_trans|auto].
  Qed.
  Lemma calm_put k x : steps calm (put k x).
  Proof. intros g. apply calm_emit. Qed.
  Lemma calm_flush : steps calm flush_header.
  Proof. intros g. split; [reflexivity|exists []; now rewrite app_nil_r]. Qed.
  Lemma calm_module fuel : forall i, steps calm (gen_module p multi fuel i).
  Proof.
    induction fuel as [|fuel IH]; intros i; cbn [gen_module]; [apply steps_raise; exact calm_refl|].
    apply steps_bind; [exact calm_trans|apply steps_gmod; exact calm_refl|]. intros m.
    apply steps_bind; [exact calm_trans|apply steps_for; [exact calm_refl|exact calm_trans|auto]|]. intros _.
    apply steps_bind; [exact calm_trans|apply calm_functions|]. intros rows.
    apply steps_bind; [exact calm_trans|apply calm_put|]. intros _.
    apply steps_bind; [exact calm_trans|apply steps_for; [exact calm_refl|exact calm_trans|intros; apply calm_gen_type]|]. intros _.
    apply steps_bind; [exact calm_trans|apply steps_for; [exact calm_refl|exact calm_trans|intros; apply calm_gen_type]|]. intros _.
    apply steps_bind; [exact calm_trans|apply calm_flush|]. intros _.
    apply steps_bind; [exact calm_trans|apply steps_gets; exact calm_refl|]. intros subs. apply calm_put.
  Qed.
  Lemma calm_captured m : steps calm m -> steps calm (captured m).
  Proof.
    intros M g. unfold captured. specialize (M (with_out [] g)). destruct (m (with_out [] g)) as [g1 [a|e]]; cbn [fst] in *;
      (eapply calm_trans; [apply (calm_with_out [] g)|]; eapply calm_trans; [exact M|apply calm_with_out]).
  Qed.
End Calm.
