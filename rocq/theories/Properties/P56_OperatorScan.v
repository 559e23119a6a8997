(** C56: the operators of classes in header files. *)
From Verif.Model Require Import Py Annotations OperatorScan.
From Verif.Spec Require Import OperatorScanSpec.
From Verif.Proofs Require Import OperatorScanProofs.
Open Scope list_scope.
Open Scope string_scope.

Section Claims.
  (** Whatever the types, the classes and the registry are. *)
  Context {T P : Type} (cls_type : T) (is_ostream convertible : T -> bool) (class_of : T -> option string)
          (spec : T -> notes -> res P) (known : P -> bool).
  (** The script, the class in memory and the complaints are what the free operators and then the public members mean, in order. *)
  Theorem C56_scan (free members : list (@operator T)) (o : @output P) :
    scan_operators cls_type is_ostream convertible class_of spec known free members = Ok o <->
    mean_all is_ostream convertible class_of spec known (looked_at cls_type free members) (o_script o) (o_memory o) (o_warned o).
  Proof. exact (operators_iff cls_type is_ostream convertible class_of spec known free members o). Qed.
  (** They mean one thing. *)
  Theorem C56_meaning (free members : list (@operator T)) (s m s' m' : list (@call P)) (w w' : list complaint) :
    mean_all is_ostream convertible class_of spec known (looked_at cls_type free members) s m w ->
    mean_all is_ostream convertible class_of spec known (looked_at cls_type free members) s' m' w' -> s = s' /\ m = m' /\ w = w'.
  Proof.
    intros A B. apply (C56_scan free members (mk_output s m w)) in A. apply (C56_scan free members (mk_output s' m' w')) in B. rewrite A in B. injection B as -> -> ->. auto.
  Qed.
  (** The scan fails only for an operator without arguments, or for annotations that are wrong. *)
  Theorem C56_scans (free members : list (@operator T)) :
    (forall op, In op free -> o_args op <> []) -> (forall t n, exists p, spec t n = Ok p) ->
    exists o, scan_operators cls_type is_ostream convertible class_of spec known free members = Ok o.
  Proof.
    intros N S. rewrite (scan_all cls_type is_ostream convertible class_of spec known). generalize (@mk_output P [] [] []).
    assert (A : forall x, In x (looked_at cls_type free members) -> snd x <> []).
    { unfold looked_at. intros x H. apply in_app_or in H. destruct H as [H|H]; apply in_map_iff in H; destruct H as (op & <- & H); [exact (N op H)|discriminate]. }
    induction (looked_at cls_type free members) as [|(op, args) l IH]; intros o; cbn [handle_all]; [eauto|].
    assert (H : exists o', handle is_ostream convertible class_of spec known op args o = Ok o').
    { pose proof (A (op, args) (or_introl eq_refl)) as Q. cbn in Q. unfold handle. destruct args as [|a [|b [|c r]]]; [congruence| | |];
      repeat match goal with
             | |- context [if ?b then _ else _] => destruct b; [eauto|]
             | |- context [match class_of ?t with _ => _ end] => destruct (class_of t); [|eauto]
             | |- context [match spec ?t ?n with _ => _ end] => destruct (S t n) as (p & ->)
             end; eauto. }
    destruct H as (o' & ->). apply IH. intros x X. apply A. now right.
  Qed.
  (** What is declared is in the script; what is in the script is declared, but for operators whose right operand has an unknown type. *)
  Definition unknown_right (c : @call P) : Prop := match c with Numeric _ _ _ p | Inplace _ p => known p = false | _ => False end.
  Theorem C56_same (free members : list (@operator T)) (o : @output P) :
    scan_operators cls_type is_ostream convertible class_of spec known free members = Ok o ->
    (forall c, In c (o_memory o) -> In c (o_script o)) /\ (forall c, In c (o_script o) -> In c (o_memory o) \/ unknown_right c).
  Proof.
    intros H. apply C56_scan in H. induction H as [|op args l s s' m m' w w' M _ (IH1 & IH2)]; [split; intros c []|].
    assert (X : (forall c, In c m -> In c s) /\ (forall c, In c s -> In c m \/ unknown_right c)) by (destruct M; cbn; intuition (subst; auto)).
    destruct X as (X1 & X2). split; intros c H; apply in_app_or in H; rewrite in_app_iff.
    - destruct H as [H|H]; [left; auto|right; auto].
    - destruct H as [H|H]; [destruct (X2 c H); auto|destruct (IH2 c H); auto].
  Qed.
End Claims.
Print Assumptions C56_scan.
Print Assumptions C56_meaning.
Print Assumptions C56_scans.
Print Assumptions C56_same.

(** ** Cases: the types are texts; the class is ns::V *)
Definition type_known (p : string) : bool := negb (String.eqb p "Unknown").
Definition class_named (t : string) : option string := if String.eqb t "V" then Some "ns::V" else None.
Definition run : list (@operator string) -> list (@operator string) -> res (@output string) :=
  scan_operators "V" (String.eqb "ostream&") (String.eqb "V") class_named (fun t _ => Ok t) type_known.
Example operators_scanned :
  run [mk_operator "<<" "ostream&" ["ostream&"; "V"] [] false; mk_operator "+" "V" ["V"; "V"] [] false; mk_operator "<" "bool" ["V"; "W"] [] false]
      [mk_operator "==" "bool" ["V"] [] true; mk_operator "-" "V" [] [] true; mk_operator "*=" "V" ["Unknown"] [] true; mk_operator "!=" "bool" ["V"] [] false] =
  Ok (mk_output [OutputStream; Numeric "+" "ns::V" "ns::V" "V"; Comparison "=="; Unary "-"; Inplace "*=" "Unknown"]
                [OutputStream; Numeric "+" "ns::V" "ns::V" "V"; Comparison "=="; Unary "-"] [NoResult; NoRight]).
Proof. vm_compute. reflexivity. Qed.

(** ** What does not hold *)
(** In-place operators that return nothing, and products that are numbers, are operators of the class in C++, but not in Python: only
    results that are wrapped classes are supported. *)
Theorem C56_inplace_refuted : exists op right, in_place (o_symbol op) /\ o_public op = true /\ o_args op = [right] /\ type_known right = true /\
  run [] [op] = Ok (mk_output [] [] [NoResult]).
Proof. exists (mk_operator "+=" "void" ["V"] [] true), "V". split; [now left|]. repeat split. Qed.
Theorem C56_product_refuted : exists op, arithmetic (o_symbol op) /\ o_args op = ["V"; "V"] /\ run [op] [] = Ok (mk_output [] [] [NoResult]).
Proof. exists (mk_operator "*" "double" ["V"; "V"] [] false). split; [right; right; now left|]. repeat split. Qed.
