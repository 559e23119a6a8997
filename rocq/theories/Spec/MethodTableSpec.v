(** Which methods a wrapped class is supposed to offer, in terms of what a script declares. *)
From Verif.Model Require Import Py Hierarchy.
From Verif.Spec Require Import HierarchySpec.
Open Scope list_scope.

(** The public methods of class [i] that are called [n] in Python, in the order of their declarations. *)
Fixpoint public_methods (answers : list (hcall * res hanswer)) (i : nat) (n : string) : list method :=
  match answers with
  | [] => []
  | (HMethod j d, Ok _) :: r =>
      if Nat.eqb j i && String.eqb (md_name d) n && md_wrappable d && is_public (md_vis d)
      then method_of d :: public_methods r i n else public_methods r i n
  | _ :: r => public_methods r i n
  end.

(** The methods that Python calls through slots of the type, not through its table. *)
Definition slot_names : list string :=
  ["__call__"; "__len__"; "__add__"; "__mul__"; "__getitem__"; "__setitem__"; "__contains__"; "__iadd__"; "__imul__"]%string.

(** The classes from [i] upwards, depth first, parents from left to right. *)
Inductive preorder (parents : nat -> list nat) : nat -> list nat -> Prop :=
| preorder_at i ls : Forall2 (preorder parents) (parents i) ls -> preorder parents i (i :: concat ls).

Section Spec.
  Variable answers : list (hcall * res hanswer).

  (** Class [i] declares public methods called [n]. *)
  Definition offers (i : nat) (n : string) : Prop := public_methods answers i n <> [].

  (** [a] is a class that [i] derives from, directly or not. *)
  Definition above (i a : nat) : Prop := exists b, In b (declared_parents answers i) /\ ancestor (declared_parents answers) b a.

  (** Class [i] declares a method of the signature of [m] that is not public (private, or protected and virtual). *)
  Definition hides (i : nat) (m : method) : Prop :=
    exists p, declares_wrapped answers i p /\ mt_vis p <> Public /\ signature p = signature m.

  (** The class with several parents. *)
  Definition several (i : nat) : Prop := 1 < length (declared_parents answers i).

  (** [a] is [i], or its first parent, or the first parent of that, and so on: with single or multiple inheritance, the C++
      object of class [a] inside one of class [i] is at its beginning, so that both have the same address. *)
  Inductive first_line : nat -> nat -> Prop :=
  | first_self i : first_line i i
  | first_up i b r a : declared_parents answers i = b :: r -> first_line b a -> first_line i a.

  (** No confusion about [n] in class [i] with several parents ([ok]: there is code for the wrapper of a method): the class
      declares it itself, or only one class above declares it and [i] does not hide all of it. *)
  Definition tidy (ok : method -> bool) (i : nat) (n : string) : Prop :=
    (exists m, In m (public_methods answers i n) /\ ok m = true) \/
    ~ offers i n /\
    (forall a b, above i a -> above i b -> offers a n -> offers b n -> a = b) /\
    (forall a m, above i a -> In m (public_methods answers a n) -> ok m = true ->
      exists m', In m' (public_methods answers a n) /\ ok m' = true /\ ~ hides i m').
End Spec.
