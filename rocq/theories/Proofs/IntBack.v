From Verif.Model Require Import Py CodeBlock Params MiniC ForwardWrapper IntHandlers.
From Verif.Spec Require Import HandlerSpec IntSpec.
From Verif.Proofs Require Import IntProofs IntTop.
From Coq Require Import ZArith Lia.
Open Scope string_scope.
Open Scope list_scope.
Local Open Scope Z_scope.

(** Building: the value is kept by the promotion, by the cast and by the unit. *)
Lemma built_direct p ct z u v bt : in_range ct z -> built_type p u = Some bt -> bits bt = bits (promoted ct) -> 0 < bits (promoted ct) ->
  in_range (promoted ct) z -> in_range bt z -> build_one p ct z u (Var v) = Passed z.
Proof.
  intros R B S' P R1 R2. unfold build_one. rewrite B. apply Z.eqb_eq in S'. rewrite S'. rewrite (wrap_id (promoted ct) z) by assumption.
  apply Z.eqb_eq in S'. rewrite wrap_id; [reflexivity|lia|exact R2].
Qed.
Lemma built_deref p ct z u v w : build_one p ct z u (Deref v) = build_one p ct z u (Var w).
Proof. reflexivity. Qed.
Lemma built_cast p ct z u c v t bt : c_type p c = Some t -> in_range t z -> 0 < bits t -> promoted t = t -> built_type p u = Some bt -> bits bt = bits t ->
  in_range bt z -> build_one p ct z u (Cast c v) = Passed z.
Proof.
  intros C R P Q B S' R2. unfold build_one. rewrite C, B, Q. assert (S2 := S'). apply Z.eqb_eq in S'. rewrite S'.
  rewrite (wrap_id t z) by assumption. rewrite (wrap_id t z) by assumption. rewrite wrap_id; [reflexivity|lia|exact R2].
Qed.
Lemma built_unsigned p ct z v : 0 < bits (ulong p) -> in_range (ulong p) z -> build_one p ct z "N" (FromUnsignedLong v) = Passed z.
Proof. intros P R. unfold build_one. cbn [String.eqb Ascii.eqb Bool.eqb]. rewrite wrap_id by assumption. reflexivity. Qed.

Ltac ranges R := unfold in_range, lowest, highest in *; cbn in R |- *; lia.
Ltac solve_build R := first
  [ eapply built_direct; [exact R|reflexivity|reflexivity|cbn; lia|ranges R|ranges R]
  | eapply built_cast; [reflexivity|ranges R|cbn; lia|reflexivity|reflexivity|reflexivity|ranges R]
  | apply built_unsigned; [cbn; lia|ranges R] ].
Lemma valid_cases p : valid_platform p -> p = mk_platform 32 32 \/ p = mk_platform 32 64 \/ p = mk_platform 64 32 \/ p = mk_platform 64 64.
Proof. destruct p as [l s]. intros [[V|V] [W|W]]; cbn in V, W; subst; auto. Qed.

Lemma function_returns_ok p h c z : valid_platform p -> In c (return_ctypes h) -> in_range (return_type p h) z -> function_returns p h c z = Passed z.
Proof.
  intros V I' R. unfold function_returns, built. rewrite (return_type_ok p h c I').
  destruct (valid_cases p V) as [ -> |[ -> |[ -> | -> ]]]; destruct h; cbn [return_to_python return_type] in *; solve_build R.
Qed.
Lemma override_receives_ok p h c z : valid_platform p -> In c (param_ctypes h) -> in_range (param_type p h) z -> override_receives p h c z = Passed z.
Proof.
  intros V I' R. unfold override_receives, built.
  assert (T := value_type_ok p (mk_param h c "" None) I'). cbn [pa_handler pa_ctype] in T. rewrite T.
  destruct (valid_cases p V) as [ -> |[ -> |[ -> | -> ]]]; destruct h; cbn [param_to_python param_type param_passing app] in *; try rewrite (built_deref _ _ _ _ "value" "value"); solve_build R.
Qed.
Lemma output_parameter_ok p h c z : valid_platform p -> In c (param_ctypes h) -> bidirectional h = true -> in_range (param_type p h) z -> output_parameter p h c z = Passed z.
Proof.
  intros V I' B R. unfold output_parameter, built.
  assert (T := value_type_ok p (mk_param h c "" None) I'). cbn [pa_handler pa_ctype] in T. rewrite T.
  destruct (valid_cases p V) as [ -> |[ -> |[ -> | -> ]]]; destruct h; try discriminate B; cbn [param_to_c in_out filter param_type app] in *; solve_build R.
Qed.

(** ** Output parameters of overrides *)
Lemma output_parsed_ok p h c z : valid_platform p -> In c (param_ctypes h) -> param_passing h = ByAddress ->
  converts (param_accepts p h) (param_type p h) (param_error h) (fun y => y) (output_parsed p h c (PyInt z)) z.
Proof.
  intros V I' A. unfold output_parsed.
  assert (T := value_type_ok p (mk_param h c "" None) I'). cbn [pa_handler pa_ctype] in T. rewrite T. rewrite A.
  destruct (sizes p h V) as [S1 S2].
  destruct h; try discriminate A; cbn [param_to_python param_passing app]; rewrite (unit_ok p _ z V); unfold unit_result; cbn [String.eqb Ascii.eqb Bool.eqb andb].
  all: cbn [param_type] in *.
  all: try match goal with |- context [if ?b then Stored _ _ else Failed _] => destruct b eqn:K; [rewrite interval in K|apply not_true_iff_false in K; rewrite interval in K] end.
  - left. split; [exact I|]. exists (wrap uint z). split; [apply wrap_wrapped; reflexivity|]. cbn [bits uint Z.eqb Pos.eqb]. rewrite wrap_wrap by (cbn; lia). reflexivity.
  - left. split; [unfold param_accepts, in_range, lowest, highest; cbn; lia|]. exists (wrap sint z). split; [apply wrap_wrapped; reflexivity|reflexivity].
  - right. split; [unfold param_accepts, in_range, lowest, highest; cbn; lia|reflexivity].
  - left. split; [unfold param_accepts; lia|]. exists (wrap schar z). split; [apply wrap_wrapped; reflexivity|reflexivity].
  - right. split; [unfold param_accepts; lia|reflexivity].
  - left. split; [exact I|]. exists (wrap uchar z). split; [apply wrap_wrapped; reflexivity|]. cbn [bits uchar Z.eqb Pos.eqb]. rewrite wrap_wrap by (cbn; lia). reflexivity.
  - left. split; [exact I|]. exists (wrap ushort z). split; [apply wrap_wrapped; reflexivity|]. cbn [bits ushort Z.eqb Pos.eqb]. rewrite wrap_wrap by (cbn; lia). reflexivity.
Qed.
Lemma output_other p h c : In c (param_ctypes h) -> param_passing h = ByAddress -> output_parsed p h c PyOther = Rejected TypeE.
Proof.
  intros I' A. unfold output_parsed.
  assert (T := value_type_ok p (mk_param h c "" None) I'). cbn [pa_handler pa_ctype] in T. rewrite T. rewrite A.
  destruct h; try discriminate A; reflexivity.
Qed.
Lemma output_reference p h c v : In c (param_ctypes h) -> param_passing h = ByReference -> bidirectional h = true -> output_parsed p h c v = Undefined.
Proof.
  intros I' A B. unfold output_parsed.
  assert (T := value_type_ok p (mk_param h c "" None) I'). cbn [pa_handler pa_ctype] in T. rewrite T. rewrite A.
  destruct h; try discriminate A; try discriminate B; reflexivity.
Qed.

(** ** Classification *)
Lemma exact_accepts p h z : exact_param h -> (param_accepts p h z <-> in_range (param_type p h) z).
Proof. intros H. destruct H as [<-|[<-|[<-|[<-|[<-|[<-|[<-|[<-|[]]]]]]]]]; reflexivity. Qed.
Lemma exact_return_accepts p h z : exact_return h -> (return_accepts p h z <-> in_range (return_type p h) z).
Proof. intros H. destruct H as [<-|[<-|[<-|[<-|[]]]]]; reflexivity. Qed.
Lemma faithful_accepts p h z : faithful_param h -> in_range (param_type p h) z -> param_accepts p h z.
Proof.
  intros [H1 H2] R. destruct h; try exact I; try exact R; try congruence; unfold param_accepts, in_range, lowest, highest, int_min in *; cbn in *; lia.
Qed.
Lemma faithful_return_accepts p h z : faithful_return h -> in_range (return_type p h) z -> return_accepts p h z.
Proof.
  intros H R. destruct h; try exact I; try exact R; try (exfalso; apply H; reflexivity); unfold return_accepts, in_range, lowest, highest, int_min in *; cbn in *; lia.
Qed.
Lemma type_bits p h : valid_platform p -> 0 < bits (param_type p h).
Proof. intros [[V|V] [W|W]]; destruct h; cbn [param_type bits]; rewrite ?V, ?W; lia. Qed.
Lemma converts_accepted {A} (acc : Z -> Prop) t err (f : Z -> A) o z : 0 < bits t -> converts acc t err f o z -> acc z -> in_range t z -> o = Passed (f z).
Proof.
  intros B [(H & x & W & O)|(H & O)] A' R; [|contradiction]. rewrite O. do 2 f_equal. apply (wrapped_unique t z); [exact B|exact W|].
  split; [exact R|]. exists 0. lia.
Qed.
Lemma converts_refused {A} (acc : Z -> Prop) t err (f : Z -> A) o z : converts acc t err f o z -> ~ acc z -> o = Rejected (err z).
Proof. intros [(H & _)|(H & O)] A'; [contradiction|exact O]. Qed.
Lemma unchanged p eval x z : valid_platform p -> declared x -> faithful_param (pa_handler x) -> in_range (param_type p (pa_handler x)) z ->
  call_function p eval [x] [Some (PyInt z)] = Passed [z].
Proof.
  intros V D F R. apply (converts_accepted _ _ _ (fun y => [y]) _ z (type_bits p _ V) (param_ok p eval x z V D)); [apply faithful_accepts; assumption|exact R].
Qed.
Lemma return_unchanged p h c z : valid_platform p -> In c (return_ctypes h) -> faithful_return h -> in_range (return_type p h) z ->
  override_returns p (fun _ => 0) h c (PyInt z) = Passed z.
Proof.
  intros V D F R. assert (B := return_bits p h V).
  apply (converts_accepted _ _ _ (fun y => y) _ z (proj1 B) (return_ok p h c z V D)); [apply faithful_return_accepts; assumption|exact R].
Qed.
Lemma exact_faithful h : exact_param h -> faithful_param h.
Proof. intros H. destruct H as [<-|[<-|[<-|[<-|[<-|[<-|[<-|[<-|[]]]]]]]]]; split; discriminate. Qed.
Lemma exact_return_faithful h : exact_return h -> faithful_return h.
Proof. intros H. destruct H as [<-|[<-|[<-|[<-|[]]]]]; discriminate. Qed.
Lemma exact_ok p eval x z : valid_platform p -> declared x -> exact_param (pa_handler x) ->
  (in_range (param_type p (pa_handler x)) z -> call_function p eval [x] [Some (PyInt z)] = Passed [z]) /\
  (~ in_range (param_type p (pa_handler x)) z -> call_function p eval [x] [Some (PyInt z)] = Rejected OverflowE).
Proof.
  intros V D X. split; intros R.
  - apply unchanged; try assumption. apply exact_faithful. exact X.
  - rewrite (converts_refused _ _ _ (fun y => [y]) _ z (param_ok p eval x z V D)); [|rewrite exact_accepts by exact X; exact R].
    destruct X as [<-|[<-|[<-|[<-|[<-|[<-|[<-|[<-|[]]]]]]]]]; reflexivity.
Qed.
Lemma exact_return_ok p h c z : valid_platform p -> In c (return_ctypes h) -> exact_return h ->
  (in_range (return_type p h) z -> override_returns p (fun _ => 0) h c (PyInt z) = Passed z) /\
  (~ in_range (return_type p h) z -> exists e, override_returns p (fun _ => 0) h c (PyInt z) = Rejected e).
Proof.
  intros V D X. split; intros R.
  - apply return_unchanged; try assumption. apply exact_return_faithful. exact X.
  - exists (return_error h z). apply (converts_refused _ _ _ (fun y => y) _ z (return_ok p h c z V D)). rewrite exact_return_accepts by exact X. exact R.
Qed.
(** The others let a value outside their type through, or refuse one inside. *)
Lemma witness_param p h : valid_platform p -> ~ exact_param h -> exists z, param_accepts p h z /\ ~ in_range (param_type p h) z.
Proof.
  intros V N. destruct h; try (exfalso; apply N; cbn [exact_param In]; unfold exact_param; cbn; tauto);
    [exists (-1)|exists (-1)|exists (-1)|exists (-1)|exists (-1)|exists (-32769)|exists (-1)|exists (-1)|exists (-129)|exists 128|exists (-1)|exists (-1)|exists (-1)|exists (-1)|exists (-1)|exists 128|exists (-1)|exists (-1)].
  all: split; [first [exact I|unfold param_accepts, int_min; change (2 ^ 31) with 2147483648; lia]|unfold in_range, lowest, highest; cbn [param_type is_signed bits]].
  all: try (intros [X _]; lia). all: cbn; lia.
Qed.
Lemma witness_return p h : valid_platform p -> ~ exact_return h -> exists z, return_accepts p h z /\ ~ in_range (return_type p h) z.
Proof.
  intros V N. destruct h; try (exfalso; apply N; unfold exact_return; cbn; tauto); [exists (-1)|exists (-1)|exists (-1)|exists 128|exists (-1)|exists (-1)|exists (-1)].
  all: split; [first [exact I|unfold return_accepts, int_min; change (2 ^ 31) with 2147483648; lia]|unfold in_range, lowest, highest; cbn [return_type is_signed bits]].
  all: try (intros [X _]; lia). all: cbn; lia.
Qed.

(** ** The code fits the wrappers *)
Lemma plain_quiet t : plain_frag (quiet_frag t).
Proof. split; [repeat constructor|constructor]. Qed.
Lemma render_harmless k s : harmless (render k s).
Proof. destruct s; cbn [render harmless]; try exact I; [split|]; try apply plain_quiet. split; [repeat constructor|constructor]. Qed.
Lemma int_disciplined k l : disciplined (h_acts (int_handler k l)).
Proof. cbn [int_handler h_acts]. induction l as [|s l IH]; cbn [map]; constructor; [apply render_harmless|exact IH]. Qed.
Lemma int_no_cleanup k l w g : ~ In (XCleanup w g) (h_acts (int_handler k l)).
Proof. cbn [int_handler h_acts]. intros H. apply in_map_iff in H as (s & E' & _). destruct s; discriminate. Qed.
Lemma int_well_behaved c : (forall h, In h (c_params c) -> exists k l, h = int_handler k l) ->
  (forall h, c_return c = Some h -> exists k l, h = int_handler k l) -> c_precall c = [] -> c_postcall c = [] ->
  returns (c_parse_error c) -> returns (c_error c) -> Forall plain (c_call_acts c) -> Forall (fun e => plain_frag (snd e)) (c_throw c) ->
  well_behaved c.
Proof.
  intros P R P1 P2 E1 E2 C T. constructor; auto.
  - apply Forall_forall. intros h H. destruct (P h H) as (k & l & ->). apply int_disciplined.
  - rewrite P1. constructor.
  - intros h H. destruct (R h H) as (k & l & ->). apply int_disciplined.
  - rewrite P2. constructor.
  - intros l1 c0 f l2 H g I'. assert (J : In (XCleanup Before g) (handler_calls c)). { rewrite H. apply in_or_app. right. right. exact I'. }
    unfold handler_calls in J. rewrite P1, P2 in J. cbn [app] in J. rewrite app_nil_r in J. apply in_app_or in J as [J|J].
    + apply in_flat_map in J as (h & H1 & H2). destruct (P h H1) as (k & l & ->). exact (int_no_cleanup k l _ _ H2).
    + destruct (c_return c) as [h|] eqn:Q; [|destruct J]. destruct (R h eq_refl) as (k & l & ->). exact (int_no_cleanup k l _ _ J).
Qed.
