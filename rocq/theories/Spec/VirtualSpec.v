(** Which implementation a call of a virtual method is supposed to reach. *)
From Verif.Model Require Import Py Hierarchy Dispatch.
From Verif.Spec Require Import HierarchySpec.
Open Scope list_scope.

(** Python class number [k] is the first one from [from] on that defines [n]. *)
Definition first_definer (n : string) (classes : list (list string)) (from k : nat) : Prop :=
  from <= k /\ (exists names, nth_error classes k = Some names /\ In n names) /\
  forall j names, from <= j < k -> nth_error classes j = Some names -> ~ In n names.
Definition no_definer (n : string) (classes : list (list string)) (from : nat) : Prop :=
  forall j names, from <= j -> nth_error classes j = Some names -> ~ In n names.

Section Spec.
  Variable answers : list (hcall * res hanswer).

  (** Class [c] declares the method [s]: name, parameter types, constness. *)
  Definition has_method (c : nat) (s : string * list string * bool) (m : method) : Prop :=
    declares_wrapped answers c m /\ signature m = s.

  (** [c] is the first class of the line [l] that declares [s], and it implements it. *)
  Definition implementor (l : list nat) (s : string * list string * bool) (c : nat) : Prop :=
    exists before after, l = before ++ c :: after /\
      (exists m, has_method c s m /\ mt_pure m = false) /\
      forall b m, In b before -> ~ has_method b s m.

  (** On the line [l] the name of [s] stands for one virtual method of visibility [v], which can be wrapped in each class
      ([ok], [proxy]: there is code for its wrapper, and for calling it from C++), and of which no class has both pure and other
      declarations. *)
  Definition one_virtual (ok proxy : method -> bool) (l : list nat) (s : string * list string * bool) (v : visibility) : Prop :=
    (forall c d a, In c l -> In (HMethod c d, Ok a) answers -> md_name d = fst (fst s) ->
       signature (method_of d) = s /\ mt_virtual (method_of d) = true /\ md_vis d = v /\ md_wrappable d = true /\
       ok (method_of d) = true /\ proxy (method_of d) = true) /\
    forall c, In c l -> forall m m', has_method c s m -> has_method c s m' -> mt_pure m = mt_pure m'.
End Spec.
