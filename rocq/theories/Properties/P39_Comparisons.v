(** C39: comparison operators of wrapped classes. *)
From Verif.Model Require Import Py Compare.
From Verif.Spec Require Import CompareSpec.
From Verif.Proofs Require CompareProofs.
Open Scope string_scope.
Open Scope list_scope.

Section C39.
  (** The other Python objects and the C++ values; the lines of inheritance; what other objects claim to be; conversion to base
      classes; the C++ operators; the calls of the script; the instances; Python's identity. *)
  Variables atom value : Type.
  Variable line : cls -> list cls.
  Variable claims : atom -> option cls.
  Variable as_class : cls -> cls -> value -> value.
  Variable cpp : string -> cls -> value -> value -> bool.
  Variable calls : list (cls * string).
  Variable h : heap value.
  Variable same_object : obj atom -> obj atom -> bool.

  (** x < y and so on, in Python 3: the C++ operator of the class that decides for the first operand whose class answers. *)
  Theorem C39_compare : forall o x y, alive atom value h x -> honest atom claims x -> alive atom value h y -> honest atom claims y ->
    compares atom value line as_class cpp calls h same_object o x y
      (compare atom value line claims as_class cpp (declared calls) h same_object o x y).
  Proof. exact (CompareProofs.compare_ok atom value line claims as_class cpp calls h same_object). Qed.

  (** The specification determines the answer. *)
  Theorem C39_determined : forall o x y a a', compares atom value line as_class cpp calls h same_object o x y a ->
    compares atom value line as_class cpp calls h same_object o x y a' -> a = a'.
  Proof.
    intros o x y a a' [M N] [M' N'].
    assert (U : forall x y o b b', answers atom value line as_class cpp calls h x y o b -> answers atom value line as_class cpp calls h x y o b' -> b = b')
      by exact (CompareProofs.answers_one atom value line claims as_class cpp calls h).
    assert (T : forall f g : bool -> Prop, (forall b b', f b -> f b' -> b = b') -> (forall b b', g b -> g b' -> b = b') ->
      in_turn atom same_object f g x y o a -> in_turn atom same_object f g x y o a' -> a = a').
    { intros f g F G [(b & X & ->)|[(b & X & Y & ->)|(X & Y & ->)]] [(b' & X' & ->)|[(b' & X' & Y' & ->)|(X' & Y' & ->)]];
        try reflexivity; try (destruct (X' b X)); try (destruct (X b' X')).
      - f_equal. exact (F b b' X X').
      - f_equal. exact (G b b' Y Y').
      - destruct (Y' b Y).
      - destruct (Y b' Y'). }
    destruct (derived atom value line h x y) eqn:D.
    - apply CompareProofs.derived_more in D. exact (T _ _ (U y x (converse o)) (U x y o) (M D) (M' D)).
    - assert (D' : ~ more_derived atom value line h y x) by (intros X; apply CompareProofs.derived_more in X; congruence).
      exact (T _ _ (U x y o) (U y x (converse o)) (N D') (N' D')).
  Qed.

  (** Instances of a class with comparison operators, its own or inherited, are not hashable; the others are. *)
  Theorem C39_hash : forall c, hashable line (declared calls) c = true <-> forall d, In d (line c) -> ~ comparable calls d.
  Proof. exact (CompareProofs.hashable_ok line calls). Qed.
End C39.

(** A call with an operator that is not a comparison raises ValueError and has no effect; the others succeed. *)
Theorem C39_unsupported : forall calls c op,
  ((forall o, op <> cpp_symbol o) -> add_comparison (declared calls) c op = (declared calls, Some ValueError)) /\
  (forall o, snd (add_comparison (declared calls) c (cpp_symbol o)) = None).
Proof.
  intros calls c op. split.
  - intros N. unfold add_comparison. destruct (existsb _ _) eqn:E; [|reflexivity].
    apply (CompareProofs.existsb_in op CompareProofs.valid_ops) in E. destruct (CompareProofs.valid_symbol op E) as (o & X). destruct (N o X).
  - intros o. destruct o; reflexivity.
Qed.

Print Assumptions C39_compare.
Print Assumptions C39_determined.
Print Assumptions C39_hash.
Print Assumptions C39_unsupported.

(** ** Examples: class 1 derives from 0, class 2 is unrelated. *)
Definition ex_line (c : cls) : list cls := match c with 1 => [1; 0] | c => [c] end.
Definition ex_claims (a : nat) : option cls := match a with 9 => Some 0 | _ => None end.
Definition ex_as (d c : cls) (v : nat) : nat := v.
Definition ex_cpp (op : string) (c : cls) (u v : nat) : bool :=
  if String.eqb op "==" then Nat.eqb u v else if String.eqb op "<" then Nat.ltb u v else if String.eqb op ">" then Nat.ltb v u else true.
Definition ex_calls : list (cls * string) := [(0, "=="); (0, "<"); (2, "==")].
Definition ex_heap : heap nat := [(0, Some 5); (0, Some 5); (1, Some 7); (2, Some 5); (0, None)].
Definition ex_same (x y : obj nat) : bool := match x, y with Inst n, Inst m => Nat.eqb n m | Other a, Other b => Nat.eqb a b | _, _ => false end.
Local Notation ex_compare calls := (compare nat nat ex_line ex_claims ex_as ex_cpp (declared calls) ex_heap ex_same).
Example ex_equal : ex_compare ex_calls EQ (Inst 0) (Inst 1) = Bool true.
Proof. reflexivity. Qed.
Example ex_less_derived : ex_compare ex_calls LT (Inst 0) (Inst 2) = Bool true.
Proof. reflexivity. Qed.
(** Only < is registered: x > y asks y < x. *)
Example ex_reflected : ex_compare ex_calls GT (Inst 2) (Inst 0) = Bool true.
Proof. reflexivity. Qed.
Example ex_unrelated : ex_compare ex_calls EQ (Inst 0) (Inst 3) = Bool false.
Proof. reflexivity. Qed.
Example ex_not_ordered : ex_compare ex_calls LT (Inst 3) (Inst 3) = RaisesTypeError.
Proof. reflexivity. Qed.
Example ex_alive : alive nat nat ex_heap (Inst 2) /\ honest nat ex_claims (Inst 2).
Proof. split; [intros n c E N; injection E as <-; discriminate N | intros a E; discriminate E]. Qed.
Example ex_answers : answers nat nat ex_line ex_as ex_cpp ex_calls ex_heap (Inst 2) (Inst 0) LT false.
Proof.
  exists 2, 1, 0, 7, 5, (Some 7). split; [reflexivity|]. split; [reflexivity|]. split.
  - exists [1], []. split; [reflexivity|]. split; [exists EQ; left; reflexivity|]. intros e [<-|[]] (o & [X|[X|[X|[]]]]); discriminate X.
  - split; [right; left; reflexivity|]. split; [exists 2, 1, 7; repeat split; right; left; reflexivity|].
    split; [exists 0, 0, 5; repeat split; left; reflexivity | reflexivity].
Qed.
Example ex_hash : hashable ex_line (declared ex_calls) 1 = false /\ hashable ex_line (declared ex_calls) 5 = true.
Proof. split; reflexivity. Qed.

(** ** What does not hold *)
(** != is not derived from ==: equal objects are also different. *)
Theorem C39_not_equal_refuted : exists calls x y, alive nat nat ex_heap x /\ alive nat nat ex_heap y /\
  ex_compare calls EQ x y = Bool true /\ ex_compare calls NE x y = Bool true.
Proof.
  exists ex_calls, (Inst 0), (Inst 1). split; [intros n c E N; injection E as <-; discriminate N|].
  split; [intros n c E N; injection E as <-; discriminate N|]. split; reflexivity.
Qed.
(** A comparison operator of a derived class hides all those of its base class. *)
Theorem C39_inherit_refuted : exists calls x, ex_compare calls LT x x = Bool false /\ ex_compare (calls ++ [(1, "==")]) LT x x = RaisesTypeError.
Proof. exists [(0, "<")], (Inst 2). split; reflexivity. Qed.
(** An object whose __class__ attribute is the class passes the check, and then its memory is used as an instance's. *)
Theorem C39_honest_refuted : exists x y, alive nat nat ex_heap x /\ ex_compare ex_calls EQ x y = Crash.
Proof. exists (Inst 0), (Other 9). split; [intros n c E N; injection E as <-; discriminate N | reflexivity]. Qed.
(** An instance without a C++ object (before __init__) crashes. *)
Theorem C39_alive_refuted : exists x y, honest nat ex_claims x /\ honest nat ex_claims y /\ ex_compare ex_calls EQ x y = Crash.
Proof. exists (Inst 0), (Inst 4). split; [intros a E; discriminate E|]. split; [intros a E; discriminate E | reflexivity]. Qed.
