(** C30: integers cross the boundary with their exact value, or are reduced to the type, or are refused: exactly which. *)
From Verif.Model Require Import Py CodeBlock Params MiniC ForwardWrapper Demo IntHandlers.
From Verif.Spec Require Import WrapperSpec HandlerSpec IntSpec.
From Verif.Proofs Require IntProofs IntTop IntBack WrapperBody.
From Coq Require Import ZArith Lia.
Open Scope string_scope.
Open Scope list_scope.
Local Open Scope Z_scope.

(** ** Arguments of C++ functions *)
(** For every parameter declared with a registered integer type and every Python integer: if the handler accepts the
    integer, C++ receives it reduced to the type of the parameter; if not, the call is refused with the handler's error. *)
Theorem C30_argument : forall p eval x z, valid_platform p -> declared x ->
  converts (param_accepts p (pa_handler x)) (param_type p (pa_handler x)) (param_error (pa_handler x)) (fun y => [y])
    (call_function p eval [x] [Some (PyInt z)]) z.
Proof. exact IntTop.param_ok. Qed.
Print Assumptions C30_argument.

(** The int, long and long long handlers (and int16_t&) accept exactly the values of their type, and pass them unchanged. *)
Theorem C30_exact : forall p eval x z, valid_platform p -> declared x -> exact_param (pa_handler x) ->
  (in_range (param_type p (pa_handler x)) z -> call_function p eval [x] [Some (PyInt z)] = Passed [z]) /\
  (~ in_range (param_type p (pa_handler x)) z -> call_function p eval [x] [Some (PyInt z)] = Rejected OverflowE).
Proof. exact IntBack.exact_ok. Qed.
Print Assumptions C30_exact.

(** All handlers but int8_t& and int8_t* pass every value of their type unchanged. *)
Theorem C30_unchanged : forall p eval x z, valid_platform p -> declared x -> faithful_param (pa_handler x) ->
  in_range (param_type p (pa_handler x)) z -> call_function p eval [x] [Some (PyInt z)] = Passed [z].
Proof. exact IntBack.unchanged. Qed.
Print Assumptions C30_unchanged.

(** Every other handler takes some integer its type cannot hold: the C++ function gets another value than was given. *)
Theorem C30_wraps : forall p eval x, valid_platform p -> declared x -> ~ exact_param (pa_handler x) ->
  exists z y, call_function p eval [x] [Some (PyInt z)] = Passed [y] /\ y <> z.
Proof.
  intros p eval x V D N. destruct (IntBack.witness_param p (pa_handler x) V N) as (z & A & R).
  destruct (IntTop.param_ok p eval x z V D) as [(_ & y & [W _] & O)|(N' & _)]; [|contradiction].
  exists z, y. split; [exact O|]. intros E. subst y. contradiction.
Qed.
Print Assumptions C30_wraps.

(** An object that is not an integer is refused; so is a missing argument without default value. *)
Theorem C30_other : forall p eval x, declared x -> call_function p eval [x] [Some PyOther] = Rejected TypeE.
Proof. exact IntTop.param_other. Qed.
Print Assumptions C30_other.
Theorem C30_missing : forall p eval x, declared x -> pa_default x = None -> call_function p eval [x] [None] = Rejected TypeE.
Proof. exact IntTop.param_missing. Qed.
Print Assumptions C30_missing.
(** A missing argument with a default value of the type: C++ gets the default value. *)
Theorem C30_default : forall p eval x z, valid_platform p -> declared x -> allows_default (pa_handler x) -> given_default eval x z ->
  in_range (param_type p (pa_handler x)) z -> call_function p eval [x] [None] = Passed [z].
Proof. exact IntTop.default_ok. Qed.
Print Assumptions C30_default.

(** Several parameters: each argument reaches its own parameter, as it would alone; parsing errors come first, in order. *)
Theorem C30_several : forall p eval ps args, valid_platform p -> Forall declared ps -> NoDup (map pa_name ps) -> length ps = length args ->
  call_function p eval ps args = combined (alone p eval ps args).
Proof. exact IntTop.combined_ok. Qed.
Print Assumptions C30_several.

(** ** Results of Python overrides *)
Theorem C30_result : forall p h c z, valid_platform p -> In c (return_ctypes h) ->
  converts (return_accepts p h) (return_type p h) (return_error h) (fun y => y) (override_returns p (fun _ => 0) h c (PyInt z)) z.
Proof. exact IntTop.return_ok. Qed.
Print Assumptions C30_result.
Theorem C30_result_exact : forall p h c z, valid_platform p -> In c (return_ctypes h) -> exact_return h ->
  (in_range (return_type p h) z -> override_returns p (fun _ => 0) h c (PyInt z) = Passed z) /\
  (~ in_range (return_type p h) z -> exists e, override_returns p (fun _ => 0) h c (PyInt z) = Rejected e).
Proof. exact IntBack.exact_return_ok. Qed.
Print Assumptions C30_result_exact.
Theorem C30_result_unchanged : forall p h c z, valid_platform p -> In c (return_ctypes h) -> faithful_return h ->
  in_range (return_type p h) z -> override_returns p (fun _ => 0) h c (PyInt z) = Passed z.
Proof. exact IntBack.return_unchanged. Qed.
Print Assumptions C30_result_unchanged.
Theorem C30_result_wraps : forall p h c, valid_platform p -> In c (return_ctypes h) -> ~ exact_return h ->
  exists z y, override_returns p (fun _ => 0) h c (PyInt z) = Passed y /\ y <> z.
Proof.
  intros p h c V D N. destruct (IntBack.witness_return p h V N) as (z & A & R).
  destruct (IntTop.return_ok p h c z V D) as [(_ & y & [W _] & O)|(N' & _)]; [|contradiction].
  exists z, y. split; [exact O|]. intros E. subst y. contradiction.
Qed.
Print Assumptions C30_result_wraps.
Theorem C30_result_other : forall p h c, In c (return_ctypes h) -> override_returns p (fun _ => 0) h c PyOther = Rejected TypeE.
Proof. exact IntTop.return_other. Qed.
Print Assumptions C30_result_other.

(** ** From C++ to Python: always exact *)
Theorem C30_function_result : forall p h c z, valid_platform p -> In c (return_ctypes h) -> in_range (return_type p h) z ->
  function_returns p h c z = Passed z.
Proof. exact IntBack.function_returns_ok. Qed.
Print Assumptions C30_function_result.
Theorem C30_override_argument : forall p h c z, valid_platform p -> In c (param_ctypes h) -> in_range (param_type p h) z ->
  override_receives p h c z = Passed z.
Proof. exact IntBack.override_receives_ok. Qed.
Print Assumptions C30_override_argument.
Theorem C30_output_parameter : forall p h c z, valid_platform p -> In c (param_ctypes h) -> bidirectional h = true -> in_range (param_type p h) z ->
  output_parameter p h c z = Passed z.
Proof. exact IntBack.output_parameter_ok. Qed.
Print Assumptions C30_output_parameter.

(** What a function returned can be passed back to any parameter of the same type: it arrives unchanged. *)
Theorem C30_round_trip : forall p eval h c x z, valid_platform p -> In c (return_ctypes h) -> declared x -> faithful_param (pa_handler x) ->
  param_type p (pa_handler x) = return_type p h -> in_range (return_type p h) z ->
  exists v, function_returns p h c z = Passed v /\ call_function p eval [x] [Some (PyInt v)] = Passed [z].
Proof.
  intros p eval h c x z V C D F T R. exists z. split; [apply IntBack.function_returns_ok; assumption|].
  apply IntBack.unchanged; try assumption. rewrite T. exact R.
Qed.
Print Assumptions C30_round_trip.

(** ** Output parameters set by Python overrides *)
Theorem C30_override_output : forall p h c z, valid_platform p -> In c (param_ctypes h) -> param_passing h = ByAddress ->
  converts (param_accepts p h) (param_type p h) (param_error h) (fun y => y) (output_parsed p h c (PyInt z)) z.
Proof. exact IntBack.output_parsed_ok. Qed.
Print Assumptions C30_override_output.
(** Not for references: their handlers hand the parser the value of the variable for its address. *)
Theorem C30_override_output_refuted : forall p h c v, In c (param_ctypes h) -> param_passing h = ByReference -> bidirectional h = true ->
  output_parsed p h c v = Undefined.
Proof. exact IntBack.output_reference. Qed.
Print Assumptions C30_override_output_refuted.

(** ** The int8_t handlers *)
(** int8_t& and int8_t* refuse the negative values of their type and take 128..255 for negative ones. *)
Theorem C30_int8_refuted : forall p eval x, valid_platform p -> declared x -> (pa_handler x = Int8RefParam \/ pa_handler x = Int8PtrParam) ->
  in_range (param_type p (pa_handler x)) (-1) /\ call_function p eval [x] [Some (PyInt (-1))] = Rejected OverflowE /\
  call_function p eval [x] [Some (PyInt 255)] = Passed [-1].
Proof.
  intros p eval x V D H. split; [destruct H as [-> | ->]; unfold in_range, lowest, highest; cbn; lia|].
  assert (A := IntTop.param_ok p eval x (-1) V D). assert (B := IntTop.param_ok p eval x 255 V D). split.
  - rewrite (IntBack.converts_refused _ _ _ (fun y => [y]) _ _ A); [destruct H as [-> | ->]; reflexivity|].
    destruct H as [-> | ->]; cbn; lia.
  - destruct B as [(_ & y & W & O)|(N & _)]; [|exfalso; apply N; destruct H as [-> | ->]; cbn; lia]. rewrite O. do 2 f_equal.
    apply (IntProofs.wrapped_unique (param_type p (pa_handler x)) 255); [apply IntBack.type_bits; exact V|exact W|].
    split; [destruct H as [-> | ->]; unfold in_range, lowest, highest; cbn; lia|]. exists 1. destruct H as [-> | ->]; reflexivity.
Qed.
Print Assumptions C30_int8_refuted.
(** A Python override of a method returning int8_t cannot return -128, and may return 128. *)
Theorem C30_int8_return_refuted : forall p c, valid_platform p -> In c (return_ctypes Int8Return) ->
  override_returns p (fun _ => 0) Int8Return c (PyInt (-128)) = Rejected ValueE /\ override_returns p (fun _ => 0) Int8Return c (PyInt 128) = Passed (-128).
Proof.
  intros p c V D. assert (A := IntTop.return_ok p Int8Return c (-128) V D). assert (B := IntTop.return_ok p Int8Return c 128 V D). split.
  - rewrite (IntBack.converts_refused _ _ _ (fun y => y) _ _ A); [reflexivity|]. unfold return_accepts. lia.
  - destruct B as [(_ & y & W & O)|(N & _)]; [|exfalso; apply N; unfold return_accepts; lia]. rewrite O. f_equal.
    apply (IntProofs.wrapped_unique schar 128); [reflexivity|exact W|]. split; [unfold in_range, lowest, highest; cbn; lia|]. exists 1. reflexivity.
Qed.
Print Assumptions C30_int8_return_refuted.

(** ** In the wrappers *)
(** The code of integer handlers satisfies the hypotheses of the theorems about wrapper bodies, so a wrapper whose
    parameters and return value are integers releases what it acquires (C05). *)
Theorem C30_wrapper : forall c, (forall h, In h (c_params c) -> exists k l, h = int_handler k l) ->
  (forall h, c_return c = Some h -> exists k l, h = int_handler k l) -> c_precall c = [] -> c_postcall c = [] ->
  returns (c_parse_error c) -> returns (c_error c) -> Forall plain (c_call_acts c) -> Forall (fun e => plain_frag (snd e)) (c_throw c) ->
  well_behaved c.
Proof. exact IntBack.int_well_behaved. Qed.
Print Assumptions C30_wrapper.

(** ** Examples *)
Definition linux64 : platform := mk_platform 64 64.
Definition three : list param :=
  [mk_param IntParam "int" "a" None; mk_param UInt8Param "uint8_t" "b" (Some "7"); mk_param LongLongRefParam "int64_t&" "c" None].
Example C30_demo : valid_platform linux64 /\ Forall declared three /\ NoDup (map pa_name three) /\
  call_function linux64 (fun _ => 7) three [Some (PyInt (-5)); Some (PyInt 200); Some (PyInt (2 ^ 40))] = Passed [-5; 200; 2 ^ 40] /\
  call_function linux64 (fun _ => 7) three [Some (PyInt (2 ^ 31)); Some (PyInt 256); Some PyOther] = Rejected OverflowE /\
  call_function linux64 (fun _ => 7) three [Some (PyInt 0); Some (PyInt 256); Some PyOther] = Rejected TypeE /\
  call_function linux64 (fun _ => 7) three [Some (PyInt 0); Some (PyInt 256); Some (PyInt 0)] = Rejected ValueE /\
  call_function linux64 (fun _ => 7) three [Some (PyInt 0); None; Some (PyInt 9)] = Passed [0; 7; 9] /\
  call_function linux64 (fun _ => 7) three [Some (PyInt 0); Some (PyInt (-1)); Some (PyInt 9)] = Passed [0; 255; 9].
Proof.
  split; [split; right; reflexivity|]. split; [repeat (apply Forall_cons; [unfold declared; cbn; auto 10|]); apply Forall_nil|].
  split; [repeat constructor; cbn; intuition discriminate|]. repeat split.
Qed.
Example C30_exact_demo : exact_param LongParam /\ exact_return LongReturn /\ ~ exact_param UInt16Param /\ faithful_param UInt16Param /\
  param_type linux64 LongParam = return_type linux64 LongReturn /\ in_range (return_type linux64 LongReturn) (- 2 ^ 63) /\
  ~ in_range (param_type linux64 LongParam) (2 ^ 63) /\ allows_default LongParam /\
  given_default (fun _ => 7) (mk_param LongParam "long" "n" (Some "SEVEN")) 7 /\ bidirectional IntRefParam = true /\
  param_passing IntRefParam = ByReference /\ param_passing IntPtrParam = ByAddress.
Proof.
  split; [unfold exact_param; cbn; auto 10|]. split; [unfold exact_return; cbn; auto 10|].
  split; [unfold exact_param; cbn; intuition discriminate|]. split; [split; discriminate|]. split; [reflexivity|].
  split; [unfold in_range, lowest, highest; cbn; lia|]. split; [unfold in_range, lowest, highest; cbn; lia|].
  split; [left; reflexivity|]. split; [exists "SEVEN"; repeat split; discriminate|]. repeat split.
Qed.
Definition int_wrapper : config :=
  demo [int_handler (Some "a") (param_to_c UInt16Param "uint16_t" "a" None true false);
        int_handler (Some "b") (param_to_c IntPtrParam "int*" "b" None true true)]
       (Some (int_handler None (return_to_python Int16Return "retval"))) false [].
Example C30_wrapper_demo : well_behaved int_wrapper /\ exists s, generate_body int_wrapper (init_state int_wrapper) = Ok s.
Proof.
  split; [|destruct (generate_body int_wrapper (init_state int_wrapper)) as [s|] eqn:E; [exists s; reflexivity|vm_compute in E; discriminate E]].
  apply C30_wrapper.
  - intros h [<-|[<-|[]]]; eexists; eexists; reflexivity.
  - intros h [= <-]. eexists; eexists; reflexivity.
  - reflexivity.
  - reflexivity.
  - eexists [], _. split; [reflexivity|constructor].
  - eexists [], _. split; [reflexivity|constructor].
  - repeat constructor.
  - constructor.
Qed.
