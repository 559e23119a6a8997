(** Operators of classes *)
From Coq Require Import Lia.
From Verif.Model Require Import Py Annotations OperatorScan.
From Verif.Spec Require Import OperatorScanSpec.
Open Scope list_scope.
Open Scope string_scope.

Lemma one_of_in s l : one_of s l = true <-> In s l.
Proof.
  unfold one_of. rewrite existsb_exists. split; [intros (x & H & E); apply String.eqb_eq in E; now subst|]. intros H. exists s. split; [exact H|apply String.eqb_refl].
Qed.
Section Scan.
  Context {T P : Type} (cls_type : T) (is_ostream convertible : T -> bool) (class_of : T -> option string)
          (spec : T -> notes -> res P) (known : P -> bool).
  Notation handle := (handle is_ostream convertible class_of spec known).
  Notation means := (means is_ostream convertible class_of spec known).
  Notation prints := (prints is_ostream convertible).
  Notation compares := (compares convertible).
  Definition print_test (op : @operator T) (args : list T) : bool :=
    String.eqb (o_symbol op) "<<" && is_ostream (o_return op) && Nat.eqb (length (o_args op)) 2 &&
       match args with a :: b :: _ => is_ostream a && convertible b | _ => false end.
  Definition compare_test (op : @operator T) (args : list T) : bool :=
    one_of (o_symbol op) ["=="; "!="; "<"; "<="; ">"; ">="] && match args with [a; b] => convertible a && convertible b | _ => false end.
  Lemma prints_iff op args : print_test op args = true <-> prints op args.
  Proof.
    unfold print_test, OperatorScanSpec.prints. rewrite !Bool.andb_true_iff, String.eqb_eq, Nat.eqb_eq. split.
    - intros (((A & B) & C) & D). repeat (split; [assumption|]). destruct args as [|a [|b r]]; try discriminate. apply Bool.andb_true_iff in D. exists a, b, r. tauto.
    - intros (A & B & C & a & b & r & -> & D & E). rewrite D, E. auto.
  Qed.
  Lemma compares_iff op args : compare_test op args = true <-> compares op args.
  Proof.
    unfold compare_test, OperatorScanSpec.compares. rewrite Bool.andb_true_iff, one_of_in. split.
    - intros (A & D). split; [exact A|]. destruct args as [|a [|b [|c r]]]; try discriminate. apply Bool.andb_true_iff in D. exists a, b. tauto.
    - intros (A & a & b & -> & D & E). rewrite D, E. auto.
  Qed.
  Lemma false_not (b : bool) (Q : Prop) : (b = true <-> Q) -> b = false -> ~ Q.
  Proof. intros H E q. apply H in q. congruence. Qed.
  Lemma not_false (b : bool) (Q : Prop) : (b = true <-> Q) -> ~ Q -> b = false.
  Proof. intros H N. destruct b; [elim N; now apply H|reflexivity]. Qed.
  Lemma arithmetic_iff s : one_of s ["+"; "-"; "/"; "*"] = true <-> arithmetic s.
  Proof. rewrite one_of_in. unfold arithmetic. cbn. tauto. Qed.
  Lemma in_place_iff s : one_of s ["+="; "-="; "/="; "*="] = true <-> in_place s.
  Proof. rewrite one_of_in. unfold in_place. cbn. tauto. Qed.
  Lemma not_both s : arithmetic s -> in_place s -> False.
  Proof. unfold arithmetic, in_place. cbn. intros [<-|[<-|[<-|[<-|[]]]]]; intros H; repeat (destruct H as [H|H]; [discriminate|]); exact H. Qed.
  Definition plus (o : @output P) s m w : output := mk_output (o_script o ++ s)%list (o_memory o ++ m)%list (o_warned o ++ w)%list.
  Lemma plus_nil o : plus o [] [] [] = o.
  Proof. unfold plus. rewrite !app_nil_r. now destruct o. Qed.
  Lemma handle_sound op args o o' : handle op args o = Ok o' -> exists s m w, means op args s m w /\ o' = plus o s m w.
  Proof.
    unfold OperatorScan.handle. fold (print_test op args). fold (compare_test op args).
    destruct (print_test op args) eqn:Ep; [intros [= <-]; do 3 eexists; split; [apply MPrints; now apply prints_iff|]; unfold plus; cbn; now rewrite app_nil_r|].
    destruct (compare_test op args) eqn:Ec; [intros [= <-]; do 3 eexists; split; [apply MCompares; now apply compares_iff|]; unfold plus; cbn; now rewrite app_nil_r|].
    apply (false_not _ _ (prints_iff op args)) in Ep. apply (false_not _ _ (compares_iff op args)) in Ec.
    destruct args as [|a rest]; [discriminate|]. destruct (convertible a) eqn:Ca; cbn [negb].
    2:{ intros [= <-]. do 3 eexists. split; [eapply MForeign; eauto|]. now rewrite plus_nil. }
    assert (K : computes is_ostream convertible op (a :: rest) a rest) by (repeat split; assumption).
    destruct (class_of (o_return op)) as [ret|] eqn:Er.
    2:{ intros [= <-]. do 3 eexists. split; [eapply MNoResult; eauto|]. unfold plus. cbn. rewrite !app_nil_r. reflexivity. }
    destruct (class_of a) as [l|] eqn:El.
    2:{ intros [= <-]. do 3 eexists. split; [eapply MNoLeft; eauto|]. unfold plus. cbn. rewrite !app_nil_r. reflexivity. }
    assert (B : between is_ostream convertible class_of op (a :: rest) ret l rest) by (exists a; auto).
    destruct rest as [|b [|c r]].
    - unfold one_of. cbn [existsb]. rewrite Bool.orb_false_r. destruct (String.eqb_spec (o_symbol op) "-") as [E|N]; intros [= <-].
      + rewrite E. do 3 eexists. split; [eapply MNegates; eauto|]. unfold plus. cbn. now rewrite app_nil_r.
      + do 3 eexists. split; [eapply MUnary; eauto|]. now rewrite plus_nil.
    - destruct (spec b (o_right op)) as [p|e] eqn:Es; [|discriminate]. destruct (one_of (o_symbol op) ["+"; "-"; "/"; "*"]) eqn:Ea, (one_of (o_symbol op) ["+="; "-="; "/="; "*="]) eqn:Ei; cbv zeta.
      + apply arithmetic_iff in Ea. apply in_place_iff in Ei. elim (not_both _ Ea Ei).
      + apply arithmetic_iff in Ea. destruct (known p) eqn:Ek; intros [= <-]; do 3 eexists.
        * split; [eapply MNumeric; eauto|]. unfold plus. cbn. now rewrite app_nil_r.
        * split; [eapply MNumericUnknown; eauto|]. unfold plus. cbn. now rewrite app_nil_r.
      + apply in_place_iff in Ei. destruct (known p) eqn:Ek; intros [= <-]; do 3 eexists.
        * split; [eapply MInplace; eauto|]. unfold plus. cbn. now rewrite app_nil_r.
        * split; [eapply MInplaceUnknown; eauto|]. unfold plus. cbn. now rewrite app_nil_r.
      + apply (false_not _ _ (arithmetic_iff _)) in Ea. apply (false_not _ _ (in_place_iff _)) in Ei. intros [= <-]. do 3 eexists. split; [eapply MBinary; eauto|].
        destruct (known p); [now rewrite plus_nil|]. unfold plus. cbn. now rewrite !app_nil_r.
    - intros [= <-]. do 3 eexists. split; [eapply MCount; eauto|]. unfold plus. cbn. now rewrite !app_nil_r.
  Qed.
  Lemma compute_tests op args a rest : computes is_ostream convertible op args a rest -> print_test op args = false /\ compare_test op args = false /\ args = a :: rest /\ convertible a = true.
  Proof. intros (A & B & C & D). repeat split; try assumption; [apply (not_false _ _ (prints_iff op args) A)|apply (not_false _ _ (compares_iff op args) B)]. Qed.
  Lemma handle_complete op args s m w o : means op args s m w -> handle op args o = Ok (plus o s m w).
  Proof.
    intros M. unfold OperatorScan.handle. fold (print_test op args). fold (compare_test op args).
    Local Ltac start H := apply compute_tests in H; let A := fresh in let B := fresh in let C := fresh in let D := fresh in destruct H as (A & B & C & D); rewrite A, B; subst; rewrite D; cbn [negb].
    assert (X1 : forall x, arithmetic x -> one_of x ["+="; "-="; "/="; "*="] = false) by (intros x A; apply (not_false _ _ (in_place_iff x)); intros B; exact (not_both _ A B)).
    assert (X2 : forall x, in_place x -> one_of x ["+"; "-"; "/"; "*"] = false) by (intros x A; apply (not_false _ _ (arithmetic_iff x)); intros B; exact (not_both _ B A)).
    destruct M as [H|H|a r A B E C|a r H R|a r ret H R L|ret l (a & H & R & L) S|ret l (a & H & R & L) S|ret l b p (a & H & R & L) S A K|ret l b p (a & H & R & L) S A K|ret l b p (a & H & R & L) S A K|ret l b p (a & H & R & L) S A K|ret l b p (a & H & R & L) S A B|ret l b c r (a & H & R & L)].
    - apply prints_iff in H. rewrite H. unfold plus. cbn. now rewrite app_nil_r.
    - assert (N : print_test op args = false). { apply (not_false _ _ (prints_iff op args)). intros (Q & _). destruct H as (H & _). rewrite Q in H. cbn in H. repeat (destruct H as [H|H]; [discriminate|]). exact H. }
      apply compares_iff in H. rewrite N, H. unfold plus. cbn. now rewrite app_nil_r.
    - rewrite (not_false _ _ (prints_iff op args) A), (not_false _ _ (compares_iff op args) B). subst. rewrite C. cbn [negb]. now rewrite plus_nil.
    - start H. rewrite R. unfold plus. cbn. now rewrite !app_nil_r.
    - start H. rewrite R, L. unfold plus. cbn. now rewrite !app_nil_r.
    - start H. rewrite R, L, S. unfold plus. cbn. now rewrite app_nil_r.
    - start H. rewrite R, L. unfold one_of. cbn [existsb]. rewrite (proj2 (String.eqb_neq _ _) S). cbn. now rewrite plus_nil.
    - start H. rewrite R, L, S, (X1 _ A), (proj2 (arithmetic_iff _) A). cbv zeta. rewrite K. unfold plus. cbn. now rewrite app_nil_r.
    - start H. rewrite R, L, S, (X1 _ A), (proj2 (arithmetic_iff _) A). cbv zeta. rewrite K. unfold plus. cbn. now rewrite app_nil_r.
    - start H. rewrite R, L, S, (X2 _ A), (proj2 (in_place_iff _) A). cbv zeta. rewrite K. unfold plus. cbn. now rewrite app_nil_r.
    - start H. rewrite R, L, S, (X2 _ A), (proj2 (in_place_iff _) A). cbv zeta. rewrite K. unfold plus. cbn. now rewrite app_nil_r.
    - start H. rewrite R, L, S, (not_false _ _ (arithmetic_iff _) A), (not_false _ _ (in_place_iff _) B). cbv zeta. destruct (known p); [now rewrite plus_nil|]. unfold plus. cbn. now rewrite !app_nil_r.
    - start H. rewrite R, L. unfold plus. cbn. now rewrite !app_nil_r.
  Qed.
  Notation mean_all := (mean_all is_ostream convertible class_of spec known).
  Lemma plus_plus o s m w s' m' w' : plus (plus o s m w) s' m' w' = plus o (s ++ s')%list (m ++ m')%list (w ++ w')%list.
  Proof. unfold plus. cbn. now rewrite <- !app_assoc. Qed.
  Fixpoint handle_all (l : list (@operator T * list T)) (o : @output P) : res output :=
    match l with [] => Ok o | (op, args) :: r => match handle op args o with Ok o' => handle_all r o' | Err e => Err e end end.
  Lemma all_app l l' o : handle_all (l ++ l')%list o = match handle_all l o with Ok o' => handle_all l' o' | Err e => Err e end.
  Proof. revert o. induction l as [|(op, args) l IH]; intros o; cbn [app handle_all]; [reflexivity|]. destruct (handle op args o); [apply IH|reflexivity]. Qed.
  Lemma scan_all free members : scan_operators cls_type is_ostream convertible class_of spec known free members = handle_all (looked_at cls_type free members) (mk_output [] [] []).
  Proof.
    unfold scan_operators, looked_at. rewrite all_app. generalize (@mk_output P [] [] []). intros o.
    assert (F : forall o, handle_free is_ostream convertible class_of spec known free o = handle_all (map (fun op => (op, o_args op)) free) o).
    { induction free as [|op l IH]; intros o0; cbn [handle_free map handle_all]; [reflexivity|]. destruct (handle op (o_args op) o0); [apply IH|reflexivity]. }
    rewrite F. destruct (handle_all (map (fun op => (op, o_args op)) free) o) as [o1|]; [|reflexivity]. clear F. revert o1.
    induction members as [|op l IH]; intros o1; cbn [handle_members filter map handle_all]; [reflexivity|]. destruct (o_public op); cbn [negb map handle_all]; [|apply IH].
    destruct (handle op (cls_type :: o_args op) o1); [apply IH|reflexivity].
  Qed.
  Lemma all_iff l : forall o o', handle_all l o = Ok o' <-> exists s m w, mean_all l s m w /\ o' = plus o s m w.
  Proof.
    induction l as [|(op, args) l IH]; intros o o'; cbn [handle_all].
    - split; [intros [= <-]; do 3 eexists; split; [constructor|now rewrite plus_nil]|]. intros (s & m & w & M & ->). inversion M; subst. now rewrite plus_nil.
    - split.
      + destruct (handle op args o) as [o1|] eqn:E; [|discriminate]. intros H. apply handle_sound in E. destruct E as (s & m & w & M & ->). apply IH in H. destruct H as (s' & m' & w' & M' & ->). do 3 eexists. split; [econstructor; eassumption|].
        apply plus_plus.
      + intros (s & m & w & M & ->). inversion M as [|? ? ? s1 s2 m1 m2 w1 w2 A B]; subst. rewrite (handle_complete _ _ _ _ _ o A). apply IH. do 3 eexists. split; [exact B|]. symmetry. apply plus_plus.
  Qed.
  Lemma operators_iff free members o : scan_operators cls_type is_ostream convertible class_of spec known free members = Ok o <->
    mean_all (looked_at cls_type free members) (o_script o) (o_memory o) (o_warned o).
  Proof.
    rewrite scan_all, all_iff. split.
    - intros (s & m & w & M & ->). exact M.
    - intros M. do 3 eexists. split; [exact M|]. now destruct o.
  Qed.
End Scan.
