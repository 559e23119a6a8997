(** C54: a declaration in the script has the arguments that it has in memory. *)
From Verif.Model Require Import Py PygenArgs.
From Verif.Spec Require Import PygenArgsSpec.
From Verif.Proofs Require Import PygenArgsProofs.
Require Import Permutation.
Open Scope string_scope.
Open Scope list_scope.

(** What repr shows is read as the same value, whatever characters are in the strings. *)
Theorem C54_value : forall v, plain v -> expression (length (repr v)) (repr v) = Some (v, []).
Proof. intros v P. destruct (plain_ok v P) as [_ H]. destruct (H (length (repr v)) [] (le_n _) I) as [E _]. now rewrite app_nil_r in E. Qed.
(** The calls of add_function, add_method, add_constructor, add_class and add_..._attribute in the script are read as calls with the
    name, return value, parameters and keyword arguments that are used in memory. *)
Theorem C54_function : forall name retval params kwargs,
  good retval -> (exists ctype, fst retval = [VStr ctype]) -> Forall good params -> Forall writable kwargs -> NoDup (map fst kwargs) ->
  exists r ps kw, calls (add_function_line name retval params kwargs) "module.add_function" [VStr name; r; VList ps] kw /\
    stands_for "retval" r retval /\ Forall2 (stands_for "param") ps params /\ Permutation kw kwargs.
Proof. intros name retval params kwargs G S P K N. assert (I : identifier "module.add_function") by (repeat split).
  destruct (function_line name retval params kwargs "module.add_function" 20 I G S P K N) as (r & ps & kw & C & D). exists r, ps, kw. split; [|exact D].
  unfold add_function_line. change (lit "module.add_function(") with (lit "module.add_function" ++ ["("%char]). change (lit ")") with [")"%char]. rewrite <- app_assoc.
  match goal with |- ?goal => let have := type of C in constr_eq goal have end. exact C.
Qed.
Theorem C54_method : forall name retval params kwargs,
  good retval -> (exists ctype, fst retval = [VStr ctype]) -> Forall good params -> Forall writable kwargs -> NoDup (map fst kwargs) ->
  exists r ps kw, calls (add_method_line name retval params kwargs) "cls.add_method" [VStr name; r; VList ps] kw /\
    stands_for "retval" r retval /\ Forall2 (stands_for "param") ps params /\ Permutation kw kwargs.
Proof. intros name retval params kwargs G S P K N. assert (I : identifier "cls.add_method") by (repeat split).
  destruct (function_line name retval params kwargs "cls.add_method" 15 I G S P K N) as (r & ps & kw & C & D). exists r, ps, kw. split; [|exact D].
  unfold add_method_line. change (lit "cls.add_method(") with (lit "cls.add_method" ++ ["("%char]). change (lit ")") with [")"%char]. rewrite <- app_assoc.
  match goal with |- ?goal => let have := type of C in constr_eq goal have end. exact C.
Qed.
Theorem C54_constructor : forall params kwargs,
  Forall good params -> Forall writable kwargs -> NoDup (map fst kwargs) ->
  exists ps kw, calls (add_constructor_line params kwargs) "cls.add_constructor" [VList ps] kw /\
    Forall2 (stands_for "param") ps params /\ Permutation kw kwargs.
Proof. exact constructor_line. Qed.
Theorem C54_class : forall name kwargs,
  Forall writable kwargs -> NoDup (map fst kwargs) ->
  exists kw, calls (add_class_line name kwargs) "module.add_class" [VStr name] kw /\ Permutation kw kwargs.
Proof. exact class_line. Qed.
Theorem C54_attribute : forall static name retval is_const,
  good retval -> (exists ctype, fst retval = [VStr ctype]) ->
  exists r, calls (add_attribute_line static name retval is_const) (if static then "cls.add_static_attribute" else "cls.add_instance_attribute")
    [VStr name; r] [("is_const", VBool is_const)] /\ stands_for "retval" r retval.
Proof. exact attribute_line. Qed.
Print Assumptions C54_value.
Print Assumptions C54_function.
Print Assumptions C54_method.
Print Assumptions C54_constructor.
Print Assumptions C54_class.
Print Assumptions C54_attribute.

(** A function with a parameter with a default value with quotes in it, that throws an exception, meets the hypotheses. *)
Definition a_retval : list value * keywords := ([VStr "ns::A *"], [("caller_owns_return", VBool true)]).
Definition a_param : list value * keywords := ([VStr "char const *"; VStr "text"], [("default_value", VStr ("'it" ++ String (ascii_of_nat 34) "\")%string); ("custodian", VInt (-1))]).
Definition a_kwargs : keywords := [("throw", VList [VClass "ns::Error"]); ("custom_name", VStr "make"); ("deprecated", VBool true)].
Example C54_sample : good a_retval /\ Forall good [a_param] /\ Forall writable a_kwargs /\ NoDup (map fst a_kwargs).
Proof.
  split; [|split; [|split]].
  - split; [|split]. + repeat constructor. + constructor; [|constructor]. split; [repeat split|]. left. split; [exact I|]. intros _ l. discriminate.
    + repeat constructor. intros [].
  - constructor; [|constructor]. split; [|split]. + repeat constructor.
    + constructor; [|constructor; [|constructor]]. * split; [repeat split|]. left. split; [exact I|]. intros _ l. discriminate. * split; [repeat split|]. left. split; [exact I|]. intros _ l. discriminate.
    + repeat constructor; cbn; intuition discriminate.
  - constructor; [|constructor; [|constructor; [|constructor]]].
    + split; [repeat split|]. right. right. split; [now left|]. eexists. split; [reflexivity|]. constructor; [now eexists|constructor].
    + split; [repeat split|]. left. split; [exact I|]. intros _ l. discriminate.
    + split; [repeat split|]. left. split; [exact I|]. intros _ l. discriminate.
  - repeat constructor; cbn; intuition discriminate.
Qed.
Example C54_sample_read : calls (add_function_line "f" a_retval [a_param] a_kwargs) "module.add_function"
  [VStr "f"; VCall "retval" (fst a_retval) (snd a_retval); VList [VCall "param" (fst a_param) (sorted (snd a_param))]] (sorted a_kwargs).
Proof. vm_compute. reflexivity. Qed.
(** The hypothesis about classes matters: a list of classes for another keyword is shown with repr, which Python cannot read. *)
Theorem C54_list_refuted : forall f args kw, ~ calls (add_class_line "B" [("conversions", VList [VClass "A"])]) f args kw.
Proof. intros f args kw H. vm_compute in H. discriminate H. Qed.
Print Assumptions C54_list_refuted.
