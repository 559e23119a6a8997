(** C33: numeric operators of wrapped classes. *)
From Verif.Model Require Import Py NumberOps.
From Verif.Spec Require Import NumberSpec.
From Verif.Proofs Require NumberProofs.
Open Scope string_scope.
Open Scope list_scope.

Section C33.
  (** The Python objects that are not instances of wrapped classes, and the C++ values; the classes of each class's line of inheritance;
      the conversions; the C++ operators; the calls of the script. *)
  Variables atom value : Type.
  Variable line : cls -> list cls.
  Variable param_in : nat -> list (cls * value) -> obj atom -> value + nat.
  Variable instance_as : cls -> cls -> value -> value.
  Variable cpp : string -> list (otype * value) -> value.
  Variable h : list call.
  Local Notation run_body := (run_body atom value line param_in instance_as cpp).
  Local Notation chosen := (chosen atom value line param_in instance_as).
  Local Notation none_fits := (none_fits atom value line param_in instance_as).

  (** The function of a class for an operator exists if some call names the operator.  It uses the first of the signatures asked for
      that fits the operands; if there is none it returns NotImplemented, no error is pending and nothing has changed. *)
  Theorem C33_function : forall c m s x y, is_binary m -> pending s = None ->
    (names_binary h c (symbol m) = false -> number_member (declared h c) m = None) /\
    (names_binary h c (symbol m) = true -> exists f, number_member (declared h c) m = Some f /\
      ((exists g u v, chosen (asked_binary h c (symbol m)) s x y g u v /\
          run_body [x; y] f s = (with_result value s (g_result g) (cpp (symbol m) [(OClass (g_left g), u); (g_right g, v)]), Object (Inst (length (heap s))))) \/
       (none_fits (asked_binary h c (symbol m)) s x y /\ run_body [x; y] f s = (s, NotImpl)))).
  Proof.
    intros c m s x y B P. rewrite (NumberProofs.binary_member h c m B). split; intros ->; [reflexivity|].
    eexists. split; [reflexivity|]. rewrite NumberProofs.run_code by exact P.
    rewrite (NumberProofs.ff_dedup _ _ NumberProofs.same_sig_eq).
    destruct (NumberProofs.ff (NumberProofs.fit atom value line param_in instance_as s x y) (asked_binary h c (symbol m))) as [[[g u] v]|] eqn:G; cbn [NumberProofs.result_of].
    - left. exists g, u, v. split; [exact (NumberProofs.ff_chosen _ _ _ _ _ _ _ _ _ _ _ _ G) | reflexivity].
    - right. split; [exact (NumberProofs.ff_none_fits _ _ _ _ _ _ _ _ _ G) | reflexivity].
  Qed.

  (** x + y, x - y, x * y, x / y in Python 3. *)
  Theorem C33_binary : forall m s x y, is_binary m -> pending s = None ->
    evaluates atom value line param_in instance_as cpp h (symbol m) s x y
      (binary_expression atom value line param_in instance_as cpp (declared h) m s x y).
  Proof. intros m s x y B P. exact (NumberProofs.binary_evaluates atom value line param_in instance_as cpp h m s x y B P). Qed.

  (** x += y and so on: what is assigned to x. *)
  Theorem C33_inplace : forall m s x y, is_binary m -> pending s = None ->
    evaluates_inplace atom value line param_in instance_as cpp h (symbol (inplace_of m)) (symbol m) s x y
      (inplace_expression atom value line param_in instance_as cpp (declared h) (inplace_of m) m s x y).
  Proof. intros m s x y B P. exact (NumberProofs.inplace_evaluates atom value line param_in instance_as cpp h m s x y B P). Qed.

  (** -x. *)
  Theorem C33_negative : forall s x, pending s = None ->
    evaluates_negative atom value line param_in instance_as cpp h s x
      (negative_expression atom value line param_in instance_as cpp (declared h) s x).
  Proof. intros s x P. exact (NumberProofs.negative_evaluates atom value line param_in instance_as cpp h s x P). Qed.
End C33.

(** A call with an operator that is not supported raises ValueError and has no effect. *)
Theorem C33_unsupported : forall h c op r l a,
  (~ In op ["+"; "-"; "*"; "/"] -> run_call (declared h) (AddBinary c op r l a) = (declared h, Some ValueError)) /\
  (~ In op ["+="; "-="; "*="; "/="] -> run_call (declared h) (AddInplace c op a) = (declared h, Some ValueError)) /\
  (op <> "-" -> run_call (declared h) (AddUnary c op r l) = (declared h, Some ValueError)).
Proof.
  intros h c op r l a. cbn [run_call]. unfold add_binary, add_inplace, add_unary. repeat split; intros N.
  - destruct (existsb _ _) eqn:E; [|reflexivity]. apply NumberProofs.valid_in in E. destruct (N E).
  - destruct (existsb _ _) eqn:E; [|reflexivity]. apply NumberProofs.valid_in in E. destruct (N E).
  - cbn. apply String.eqb_neq in N. rewrite N. reflexivity.
Qed.

(** With a supported operator a call raises exactly what evaluating the operand type raises, except that SkipWrapper (an error
    handler absorbed the error) is caught; for in-place operators see also [C33_inplace_class_refuted]. *)
Theorem C33_raises : forall h c op r l a, (forall d, a <> RightClass d) ->
  let e := match a with RightRaises SkipWrapper => None | RightRaises e => Some e | _ => None end in
  (In op ["+"; "-"; "*"; "/"] -> snd (run_call (declared h) (AddBinary c op r l a)) = e /\
     forall d, snd (run_call (declared h) (AddBinary c op r l (RightClass d))) = None) /\
  (In op ["+="; "-="; "*="; "/="] -> snd (run_call (declared h) (AddInplace c op a)) = e) /\
  (op = "-" -> snd (run_call (declared h) (AddUnary c op r l)) = None).
Proof.
  intros h c op r l a N e. cbn [run_call]. unfold add_binary, add_inplace. split; [|split].
  - intros I. apply NumberProofs.valid_in in I. rewrite I. split; [|reflexivity]. destruct a as [|d|i|[]]; reflexivity.
  - intros I. apply NumberProofs.valid_in in I. rewrite I. destruct a as [|d|i|[]]; try reflexivity. destruct (N d eq_refl).
  - intros ->. reflexivity.
Qed.

(** Asking for a signature of a binary or unary operator again changes nothing. *)
Theorem C33_again : forall h x, In x h -> match x with AddInplace _ _ _ => False | _ => True end ->
  forall c, declared (h ++ [x]) c = declared h c.
Proof.
  intros h [d op r l a | d op a | d op r l] I K; [|destruct K|].
  - exact (NumberProofs.binary_again h d op r l a I).
  - exact (NumberProofs.unary_again h d op r l I).
Qed.

Print Assumptions C33_function.
Print Assumptions C33_binary.
Print Assumptions C33_inplace.
Print Assumptions C33_negative.
Print Assumptions C33_unsupported.
Print Assumptions C33_raises.
Print Assumptions C33_again.

(** ** Examples: classes 0, 1 (derived from 0) and 2; C++ values are numbers; parameter type 7 accepts the number objects. *)
Definition ex_line (c : cls) : list cls := match c with 1 => [1; 0] | c => [c] end.
Definition ex_param (i : nat) (_ : list (cls * nat)) (o : obj nat) : nat + nat :=
  match o with Other n => if Nat.eqb i 7 then inl n else inr 3 | Inst _ => inr 4 end.
Definition ex_as (d c : cls) (v : nat) : nat := v.
Definition ex_cpp (op : string) (l : list (otype * nat)) : nat :=
  match l with
  | [(_, u); (_, v)] => if String.eqb op "+" then u + v else if String.eqb op "*" then u * v else if String.eqb op "+=" then 100 + u + v else 0
  | [(_, u)] => 1000 + u
  | _ => 0
  end.
Definition ex_calls : list call :=
  [AddBinary 0 "+" None None RightNone; AddBinary 0 "*" (Some 2) None (RightParam 7); AddBinary 0 "+" None None RightNone;
   AddBinary 0 "*" None None RightNone; AddInplace 0 "+=" (RightParam 7); AddUnary 0 "-" (Some 2) None; AddBinary 0 "%" None None RightNone].
(** Objects: 0 of class 0, 1 of class 1, 2 of class 2. *)
Definition ex_state : state nat := mk_state [(0, 5); (1, 6); (2, 7)] None.
Local Notation ex_binary := (binary_expression nat nat ex_line ex_param ex_as ex_cpp).
Local Notation ex_inplace := (inplace_expression nat nat ex_line ex_param ex_as ex_cpp).
Local Notation ex_negative := (negative_expression nat nat ex_line ex_param ex_as ex_cpp).
(** Inherited: instance of the derived class on the left. *)
Example ex_add : ex_binary (declared ex_calls) MAdd ex_state (Inst 1) (Inst 0) = (mk_state [(0, 5); (1, 6); (2, 7); (0, 11)] None, Result (Inst 3)).
Proof. reflexivity. Qed.
(** The first signature for * needs a number on the right: the second one is used. *)
Example ex_multiply : ex_binary (declared ex_calls) MMultiply ex_state (Inst 0) (Inst 1) = (mk_state [(0, 5); (1, 6); (2, 7); (0, 30)] None, Result (Inst 3)).
Proof. reflexivity. Qed.
Example ex_multiply_number : ex_binary (declared ex_calls) MMultiply ex_state (Inst 0) (Other 3) = (mk_state [(0, 5); (1, 6); (2, 7); (2, 15)] None, Result (Inst 3)).
Proof. reflexivity. Qed.
Example ex_type_error : ex_binary (declared ex_calls) MAdd ex_state (Inst 0) (Inst 2) = (mk_state [(0, 5); (1, 6); (2, 7)] (Some OperandTypeError), Raises).
Proof. reflexivity. Qed.
Example ex_inplace_add : ex_inplace (declared ex_calls) MInplaceAdd MAdd ex_state (Inst 0) (Other 2) = (mk_state [(0, 5); (1, 6); (2, 7); (0, 107)] None, Result (Inst 3)).
Proof. reflexivity. Qed.
(** The in-place signature does not fit: x + y. *)
Example ex_inplace_falls_back : ex_inplace (declared ex_calls) MInplaceAdd MAdd ex_state (Inst 0) (Inst 0) = (mk_state [(0, 5); (1, 6); (2, 7); (0, 10)] None, Result (Inst 3)).
Proof. reflexivity. Qed.
Example ex_minus : ex_negative (declared ex_calls) ex_state (Inst 1) = (mk_state [(0, 5); (1, 6); (2, 7); (2, 1006)] None, Negated (Inst 3)).
Proof. reflexivity. Qed.
Example ex_chosen : chosen nat nat ex_line ex_param ex_as (asked_binary ex_calls 0 "*") ex_state (Inst 0) (Inst 1) (mk_sig 0 0 (OClass 0)) 5 6.
Proof.
  exists [mk_sig 2 0 (OParam 7)], []. split; [reflexivity|]. split.
  - split; [exact (fits_instance nat nat ex_line ex_param ex_as ex_state 0 0 0 5 eq_refl (or_introl eq_refl))|].
    exact (fits_instance nat nat ex_line ex_param ex_as ex_state 0 1 1 6 eq_refl (or_intror (or_introl eq_refl))).
  - intros g u v [<-|[]] [_ F]. cbn in F. inversion F as [|i o w E]. discriminate E.
Qed.

(** ** What does not hold *)
(** A class with only the unary operator does not get it: -x raises TypeError. *)
Theorem C33_unary_refuted : exists h s x g u,
  asked_unary h 0 "-" = [g] /\ first_unary nat nat ex_line ex_param ex_as (asked_unary h 0 "-") s x g u /\ class_of s x = Some 0 /\ pending s = None /\
  snd (ex_negative (declared h) s x) = NegationRaises.
Proof.
  exists [AddUnary 0 "-" None None], ex_state, (Inst 0), (0, 0), 5.
  split; [reflexivity|]. split; [|split; [reflexivity|]; split; reflexivity].
  exists [], []. split; [reflexivity|]. split; [exact (fits_instance nat nat ex_line ex_param ex_as ex_state 0 0 0 5 eq_refl (or_introl eq_refl))|].
  intros g' u' [].
Qed.
(** -x can be the object NotImplemented instead of a TypeError (the left class is not that of the operand). *)
Theorem C33_not_implemented_refuted : exists h s x, pending s = None /\ snd (ex_negative (declared h) s x) = NotImplementedObject.
Proof.
  exists [AddBinary 0 "+" None None RightNone; AddUnary 0 "-" None (Some 2)], ex_state, (Inst 0). split; reflexivity.
Qed.
(** x += y does not change the C++ object of x: a second reference to it keeps the old value. *)
Theorem C33_inplace_object_refuted : exists h s x y s1,
  asked_inplace h 0 "+=" <> [] /\ ex_inplace (declared h) MInplaceAdd MAdd s x y = (s1, Result (Inst 3)) /\ x = Inst 0 /\ nth_error (heap s1) 0 = nth_error (heap s) 0.
Proof.
  exists [AddInplace 0 "+=" RightNone], ex_state, (Inst 0), (Inst 1).
  exists (mk_state [(0, 5); (1, 6); (2, 7); (0, 111)] None). repeat split. discriminate.
Qed.
(** A signature that is skipped or fails hides the operator of the base class: x + x works for the base class and in the derived
    class before the call, not after it. *)
Theorem C33_failed_refuted : exists h x, operand 1 match x with AddBinary _ _ _ _ a => a | _ => RightNone end = [] /\
  snd (run_call (declared h) x) = None /\
  snd (ex_binary (declared h) MAdd ex_state (Inst 1) (Inst 1)) = Result (Inst 3) /\
  snd (ex_binary (declared (h ++ [x])) MAdd ex_state (Inst 1) (Inst 1)) = Raises.
Proof.
  exists [AddBinary 0 "+" None None RightNone], (AddBinary 1 "+" None None (RightRaises SkipWrapper)). repeat split.
Qed.
(** The in-place operators do not accept a class as the right operand, though documented: TypeError. *)
Theorem C33_inplace_class_refuted : forall h c op d, In op ["+="; "-="; "*="; "/="] ->
  snd (run_call (declared h) (AddInplace c op (RightClass d))) = Some TypeError.
Proof.
  intros h c op d I. cbn [run_call]. unfold add_inplace. apply NumberProofs.valid_in in I. rewrite I. reflexivity.
Qed.
(** Asking again for an in-place signature generates its code again. *)
Theorem C33_inplace_again_refuted : exists h x, In x h /\ declared (h ++ [x]) 0 <> declared h 0.
Proof.
  exists [AddInplace 0 "+=" RightNone], (AddInplace 0 "+=" RightNone). split; [left; reflexivity|]. discriminate.
Qed.
