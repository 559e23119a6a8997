(** What comparisons of wrapped objects should do, in terms of the registration calls. *)
From Verif.Model Require Import Py Compare.
Open Scope string_scope.
Open Scope list_scope.

Definition cpp_symbol (o : opid) : string := match o with LT => "<" | LE => "<=" | EQ => "==" | NE => "!=" | GT => ">" | GE => ">=" end.
(** x o y is y (converse o) x. *)
Definition converse (o : opid) : opid := match o with LT => GT | GT => LT | LE => GE | GE => LE | EQ => EQ | NE => NE end.

Section Spec.
  Variables atom value : Type.
  Variable line : cls -> list cls.
  Variable as_class : cls -> cls -> value -> value.
  Variable cpp : string -> cls -> value -> value -> bool.
  Variable calls : list (cls * string).
  Variable h : heap value.
  Variable same_object : obj atom -> obj atom -> bool.

  (** The operators of a class: those of the calls that are comparison operators. *)
  Definition has (c : cls) (o : opid) : Prop := In (c, cpp_symbol o) calls.
  Definition comparable (c : cls) : Prop := exists o, has c o.
  (** The class whose operators are used for an instance of a class: the nearest that has any. *)
  Definition decides (c d : cls) : Prop :=
    exists nearer further, line c = nearer ++ d :: further /\ comparable d /\ forall e, In e nearer -> ~ comparable e.
  (** The instance n is an instance of class d (its own class is c) with C++ object v, seen as one of d. *)
  Definition object_as (x : obj atom) (d : cls) (v : value) : Prop :=
    exists n c u, x = Inst n /\ nth_error h n = Some (c, Some u) /\ In d (line c) /\ v = as_class c d u.
  (** x's class answers x o y with b: its deciding class has the operator and both are instances of it. *)
  Definition answers (x y : obj atom) (o : opid) (b : bool) : Prop :=
    exists n c d u v u0, x = Inst n /\ nth_error h n = Some (c, u0) /\ decides c d /\ has d o /\ object_as x d u /\ object_as y d v /\ b = cpp (cpp_symbol o) d u v.
  Definition declines (x y : obj atom) (o : opid) : Prop := forall b, ~ answers x y o b.
  (** y's class derives from x's. *)
  Definition more_derived (y x : obj atom) : Prop :=
    exists n m c d u v, x = Inst n /\ y = Inst m /\ nth_error h n = Some (c, u) /\ nth_error h m = Some (d, v) /\ c <> d /\ In c (line d).
  (** First, then second; if both decline: identity for == and !=, otherwise TypeError. *)
  Definition in_turn (first second : bool -> Prop) (x y : obj atom) (o : opid) (a : answer) : Prop :=
    (exists b, first b /\ a = Bool b) \/
    (exists b, (forall b', ~ first b') /\ second b /\ a = Bool b) \/
    ((forall b, ~ first b) /\ (forall b, ~ second b) /\
     a = match o with EQ => Bool (same_object x y) | NE => Bool (negb (same_object x y)) | _ => RaisesTypeError end).
  Definition compares (o : opid) (x y : obj atom) (a : answer) : Prop :=
    (more_derived y x -> in_turn (answers y x (converse o)) (answers x y o) x y o a) /\
    (~ more_derived y x -> in_turn (answers x y o) (answers y x (converse o)) x y o a).

  (** Operands that the function may read: alive, and what they claim to be. *)
  Definition alive (x : obj atom) : Prop := forall n c, x = Inst n -> nth_error h n = Some (c, None) -> False.
  Definition honest (claims : atom -> option cls) (x : obj atom) : Prop := forall a, x = Other a -> claims a = None.
End Spec.
