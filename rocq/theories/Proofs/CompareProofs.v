(** Proofs about comparison operators. *)
From Verif.Model Require Import Py Compare.
From Verif.Spec Require Import CompareSpec.
Open Scope string_scope.
Open Scope list_scope.

Definition valid_ops : list string := ["=="; "!="; "<"; "<="; ">"; ">="].
Lemma existsb_in op l : existsb (String.eqb op) l = true <-> In op l.
Proof.
  rewrite existsb_exists. split.
  - intros (x & I & E). apply String.eqb_eq in E. subst. exact I.
  - intros I. exists op. split; [exact I | apply String.eqb_refl].
Qed.
Lemma existsb_in_nat (c : cls) l : existsb (Nat.eqb c) l = true <-> In c l.
Proof.
  rewrite existsb_exists. split.
  - intros (x & I & E). apply Nat.eqb_eq in E. subst. exact I.
  - intros I. exists c. split; [exact I | apply Nat.eqb_refl].
Qed.
Lemma run_calls_in l : forall w c op, In op (run_calls w l c) <-> In op (w c) \/ (In (c, op) l /\ In op valid_ops).
Proof.
  induction l as [|[d o] r IH]; intros w c op; cbn [run_calls].
  - split; [intros H; left; exact H | intros [H|[[] _]]; exact H].
  - rewrite IH. clear IH. unfold add_comparison. destruct (existsb (String.eqb o) ["=="; "!="; "<"; "<="; ">"; ">="]) eqn:V; cbn [fst].
    + apply (existsb_in o valid_ops) in V. destruct (Nat.eqb c d) eqn:E.
      * apply Nat.eqb_eq in E. subst d. destruct (existsb (String.eqb o) (w c)) eqn:X.
        -- apply existsb_in in X. cbn [In]. split; [intuition|]. intros [H|[[H|H] K]]; [left; exact H| |right; split; assumption].
           injection H as <-. left. exact X.
        -- rewrite in_app_iff. cbn [In]. split.
           ++ intros [[H|[<-|[]]]|H]; [left; exact H | right; split; [left; reflexivity | exact V] | right; intuition].
           ++ intros [H|[[H|H] K]]; [left; left; exact H | injection H as <-; left; right; left; reflexivity | right; split; assumption].
      * apply Nat.eqb_neq in E. cbn [In]. split; [intuition|]. intros [H|[[H|H] K]]; [left; exact H | congruence | right; split; assumption].
    + cbn [In]. split; [intuition|]. intros [H|[[H|H] K]]; [left; exact H| |right; split; assumption].
      injection H as -> ->. apply (existsb_in op valid_ops) in K. unfold valid_ops in K. congruence.
Qed.
Lemma declared_in l c op : In op (declared l c) <-> In (c, op) l /\ In op valid_ops.
Proof. unfold declared. rewrite run_calls_in. split; [intros [[]|H]; exact H | intros H; right; exact H]. Qed.
Lemma symbol_valid o : In (cpp_symbol o) valid_ops.
Proof. destruct o; cbn; tauto. Qed.
Lemma valid_symbol op : In op valid_ops -> exists o, op = cpp_symbol o.
Proof.
  cbn. intros [<-|[<-|[<-|[<-|[<-|[<-|[]]]]]]];
    [exists EQ | exists NE | exists LT | exists LE | exists GT | exists GE]; reflexivity.
Qed.
Lemma has_in l c o : existsb (String.eqb (cpp_symbol o)) (declared l c) = true <-> has l c o.
Proof. rewrite existsb_in, declared_in. unfold has. split; [intros [H _]; exact H | intros H; split; [exact H | apply symbol_valid]]. Qed.
Lemma comparable_not_nil l c : comparable l c <-> declared l c <> [].
Proof.
  split.
  - intros (o & H) E. apply has_in in H. rewrite E in H. discriminate H.
  - intros N. destruct (declared l c) as [|op r] eqn:E; [destruct (N eq_refl)|].
    assert (I : In op (declared l c)) by (rewrite E; left; reflexivity). apply declared_in in I. destruct I as [I V].
    destruct (valid_symbol op V) as (o & ->). exists o. exact I.
Qed.

Section Exec.
  Variables atom value : Type.
  Variable line : cls -> list cls.
  Variable claims : atom -> option cls.
  Variable as_class : cls -> cls -> value -> value.
  Variable cpp : string -> cls -> value -> value -> bool.
  Variable calls : list (cls * string).
  Variable h : heap value.
  Variable same_object : obj atom -> obj atom -> bool.
  Local Notation obj := (obj atom).
  Local Notation ask := (ask atom value line claims as_class cpp (declared calls) h).
  Local Notation run_body := (run_body atom value line claims as_class cpp h).
  Local Notation answers := (answers atom value line as_class cpp calls h).
  Local Notation object_as := (object_as atom value line as_class h).
  Local Notation decides := (decides line calls).
  Local Notation alive := (alive atom value h).
  Local Notation honest := (honest atom claims).
  Local Notation cpp_object := (cpp_object atom value as_class h).
  Local Notation is_instance := (is_instance atom value line claims h).

  Definition truth (b : bool) : outcome := if b then IsTrue else IsFalse.
  Lemma inherited_decides c :
    match inherited line (declared calls) c with
    | Some (d, f) => decides c d /\ richcompare (declared calls) d = Some f
    | None => forall d, In d (line c) -> ~ comparable calls d
    end.
  Proof.
    unfold inherited, CompareSpec.decides. induction (line c) as [|e r IH]; [intros d []|].
    cbn [fold_right]. destruct (richcompare (declared calls) e) as [f|] eqn:R.
    - split; [|exact R]. exists [], r. split; [reflexivity|]. split; [|intros e' []].
      apply comparable_not_nil. unfold richcompare in R. intros E. rewrite E in R. discriminate R.
    - assert (N : ~ comparable calls e).
      { intros C. apply comparable_not_nil in C. unfold richcompare in R. destruct (declared calls e); [exact (C eq_refl) | discriminate R]. }
      destruct (fold_right _ None r) as [[d f]|].
      + destruct IH as [(p & q & E & C & B) F]. split; [|exact F]. exists (e :: p), q. split; [cbn; congruence|]. split; [exact C|].
        intros e' [<-|I]; [exact N | exact (B e' I)].
      + intros d [<-|I]; [exact N | exact (IH d I)].
  Qed.
  Lemma decides_one c d d' : decides c d -> decides c d' -> d = d'.
  Proof.
    intros (p & q & E & C & B) (p' & q' & E' & C' & B'). rewrite E in E'. revert p' E' B'. clear E. induction p as [|x p IH]; intros [|x' p'] E' B'; cbn in E'.
    - congruence.
    - injection E' as <- _. destruct (B' d (or_introl eq_refl) C).
    - injection E' as -> _. destruct (B d' (or_introl eq_refl) C').
    - injection E' as _ E'. apply (IH (fun e I => B e (or_intror I)) p' E'). intros e I. exact (B' e (or_intror I)).
  Qed.
  Lemma decides_in c d : decides c d -> In d (line c).
  Proof. intros (p & q & E & _). rewrite E. apply in_or_app. right. left. reflexivity. Qed.

  Lemma body_run d x y o f : richcompare (declared calls) d = Some f ->
    run_body d x y o f =
      if is_instance y d then
        if existsb (String.eqb (cpp_symbol o)) (declared calls d) then
          match cpp_object x d, cpp_object y d with
          | Some u, Some v => truth (cpp (cpp_symbol o) d u v)
          | _, _ => Undefined
          end
        else NotImpl
      else NotImpl.
  Proof.
    unfold richcompare. destruct (declared calls d) as [|op ops] eqn:E; [discriminate|]. intros X. injection X as <-.
    cbn -[Compare.is_instance Compare.cpp_object existsb String.eqb].
    destruct (is_instance y d); [|reflexivity]. unfold truth.
    destruct o; cbn -[Compare.is_instance Compare.cpp_object existsb String.eqb];
      match goal with |- context [existsb (String.eqb ?n) (op :: ops)] => destruct (existsb (String.eqb n) (op :: ops)) end;
      cbn -[Compare.is_instance Compare.cpp_object existsb String.eqb]; try reflexivity;
      (destruct (cpp_object x d) as [u|]; [|reflexivity]);
      (destruct (cpp_object y d) as [v|]; [|reflexivity]);
      match goal with |- context [cpp ?a ?b ?c ?e] => destruct (cpp a b c e) end; reflexivity.
  Qed.
  Lemma object_ok x d : alive x -> honest x ->
    match cpp_object x d with
    | Some v => is_instance x d = true -> object_as x d v
    | None => is_instance x d = false
    end.
  Proof.
    intros A H. destruct x as [n|a]; cbn.
    - destruct (nth_error h n) as [[c [u|]]|] eqn:N; cbn.
      + unfold Compare.is_instance. cbn. rewrite N. cbn. intros I. exists n, c, u. split; [reflexivity|]. split; [exact N|]. split; [apply existsb_in_nat; exact I | reflexivity].
      + destruct (A n c eq_refl N).
      + unfold Compare.is_instance. cbn. rewrite N. reflexivity.
    - unfold Compare.is_instance. rewrite (H a eq_refl). reflexivity.
  Qed.
  Lemma object_as_instance x d v : object_as x d v -> is_instance x d = true /\ cpp_object x d = Some v.
  Proof.
    intros (n & c & u & -> & N & I & ->). unfold Compare.is_instance. cbn. rewrite N. cbn. split; [apply existsb_in_nat; exact I | reflexivity].
  Qed.
  Lemma answers_one x y o b b' : answers x y o b -> answers x y o b' -> b = b'.
  Proof.
    intros (n & c & d & u & v & u0 & -> & N & D & _ & X & Y & ->) (n' & c' & d' & u' & v' & u0' & E & N' & D' & _ & X' & Y' & ->).
    injection E as <-. rewrite N in N'. injection N' as <- _. pose proof (decides_one _ _ _ D D'). subst d'.
    pose proof (proj2 (object_as_instance _ _ _ X)) as X1. pose proof (proj2 (object_as_instance _ _ _ X')) as X2.
    pose proof (proj2 (object_as_instance _ _ _ Y)) as Y1. pose proof (proj2 (object_as_instance _ _ _ Y')) as Y2.
    congruence.
  Qed.
  Lemma ask_ok x y o : alive x -> honest x -> alive y -> honest y ->
    (exists b, answers x y o b /\ ask x y o = truth b) \/ ((forall b, ~ answers x y o b) /\ ask x y o = NotImpl).
  Proof.
    intros AX HX AY HY. unfold Compare.ask. destruct x as [n|a]; cbn [class_of].
    2: { right. split; [|reflexivity]. intros b (n & c & d & u & v & u0 & E & _). discriminate E. }
    destruct (nth_error h n) as [[c u0]|] eqn:N; cbn [option_map fst].
    2: { right. split; [|reflexivity]. intros b (n' & c & d & u & v & u0 & E & N' & _). injection E as <-. congruence. }
    pose proof (inherited_decides c) as I. destruct (inherited line (declared calls) c) as [[d f]|].
    2: { right. split; [|reflexivity]. intros b (n' & c' & d & u & v & u1 & E & N' & D & _). injection E as <-.
         rewrite N in N'. injection N' as <- <-. apply (I d); [exact (decides_in _ _ D)|]. destruct D as (p & q & _ & C & _). exact C. }
    destruct I as [D F]. rewrite (body_run d (Inst n) y o f F).
    assert (IX : is_instance (Inst n) d = true) by (unfold Compare.is_instance; cbn; rewrite N; cbn; apply existsb_in_nat; exact (decides_in _ _ D)).
    destruct (is_instance y d) eqn:IY.
    2: { right. split; [|reflexivity]. intros b (n' & c' & d' & u & v & u1 & E & N' & D' & _ & _ & Y & _). injection E as <-.
         rewrite N in N'. injection N' as <- <-. pose proof (decides_one _ _ _ D D'). subst d'. apply object_as_instance in Y. destruct Y. congruence. }
    destruct (existsb (String.eqb (cpp_symbol o)) (declared calls d)) eqn:O.
    2: { right. split; [|reflexivity]. intros b (n' & c' & d' & u & v & u1 & E & N' & D' & Z & _). injection E as <-.
         rewrite N in N'. injection N' as <- <-. pose proof (decides_one _ _ _ D D'). subst d'. apply has_in in Z. congruence. }
    pose proof (object_ok (Inst n) d AX HX) as OX. pose proof (object_ok y d AY HY) as OY.
    destruct (cpp_object (Inst n) d) as [u|]; [|congruence]. destruct (cpp_object y d) as [v|]; [|congruence].
    left. exists (cpp (cpp_symbol o) d u v). split; [|reflexivity].
    exists n, c, d, u, v, u0. split; [reflexivity|]. split; [exact N|]. split; [exact D|]. split; [apply has_in; exact O|].
    split; [exact (OX IX)|]. split; [exact (OY IY) | reflexivity].
  Qed.
  Lemma swapped_converse o : swapped o = converse o.
  Proof. destruct o; reflexivity. Qed.
  Lemma derived_more x y : derived atom value line h x y = true <-> more_derived atom value line h y x.
  Proof.
    unfold derived, more_derived. split.
    - destruct x as [n|a]; [|discriminate]. destruct y as [m|a]; [|cbn; destruct (option_map _ _); discriminate]. cbn.
      destruct (nth_error h n) as [[c u]|] eqn:N; [|discriminate]. destruct (nth_error h m) as [[d v]|] eqn:M; [|discriminate]. cbn.
      intros X. apply andb_prop in X. destruct X as [X Y]. apply existsb_in_nat in Y.
      exists n, m, c, d, u, v. repeat split; try assumption. intros ->. rewrite Nat.eqb_refl in X. discriminate X.
    - intros (n & m & c & d & u & v & -> & -> & N & M & X & I). cbn. rewrite N, M. cbn. apply andb_true_intro. split.
      + apply Nat.eqb_neq in X. rewrite X. reflexivity.
      + apply existsb_in_nat. exact I.
  Qed.
  Lemma finish_in_turn x y o (f g : bool -> Prop) r1 r2 :
    (exists b, f b /\ r1 = truth b) \/ ((forall b, ~ f b) /\ r1 = NotImpl) ->
    (exists b, g b /\ r2 = truth b) \/ ((forall b, ~ g b) /\ r2 = NotImpl) ->
    in_turn atom same_object f g x y o (finish atom same_object x y o (or_else r1 r2)).
  Proof.
    intros [(b & F & ->)|[F ->]] G.
    - left. exists b. split; [exact F | destruct b; reflexivity].
    - right. destruct G as [(b & G & ->)|[G ->]]; [left; exists b | right].
      + split; [exact F|]. split; [exact G | destruct b; reflexivity].
      + split; [exact F|]. split; [exact G | reflexivity].
  Qed.
  Lemma compare_ok o x y : alive x -> honest x -> alive y -> honest y ->
    compares atom value line as_class cpp calls h same_object o x y
      (compare atom value line claims as_class cpp (declared calls) h same_object o x y).
  Proof.
    intros AX HX AY HY. unfold compares, compare. rewrite <- swapped_converse.
    pose proof (ask_ok x y o AX HX AY HY) as X. pose proof (ask_ok y x (swapped o) AY HY AX HX) as Y.
    destruct (derived atom value line h x y) eqn:D; split; intros M.
    - exact (finish_in_turn x y o _ _ _ _ Y X).
    - apply derived_more in D. destruct (M D).
    - apply derived_more in M. congruence.
    - exact (finish_in_turn x y o _ _ _ _ X Y).
  Qed.
  Lemma hashable_ok c : hashable line (declared calls) c = true <-> forall d, In d (line c) -> ~ comparable calls d.
  Proof.
    unfold hashable. pose proof (inherited_decides c) as I. destruct (inherited line (declared calls) c) as [[d f]|].
    - split; [discriminate|]. intros H. destruct I as [D _]. destruct (H d (decides_in _ _ D)). destruct D as (p & q & _ & C & _). exact C.
    - split; [intros _; exact I | reflexivity].
  Qed.
End Exec.
