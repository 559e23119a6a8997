(** Python computations with side effects: a state kept also when an exception is raised. *)
From Verif.Model Require Import Py.

Definition st (S A : Type) : Type := S -> S * res A.

Section St.
  Context {S : Type}.
  Definition ret {A} (a : A) : st S A := fun s => (s, Ok a).
  Definition raise {A} (e : pyexc) : st S A := fun s => (s, Err e).
  Definition lift {A} (r : res A) : st S A := fun s => (s, r).
  Definition sbind {A B} (m : st S A) (f : A -> st S B) : st S B :=
    fun s => match m s with
             | (s', Ok a) => f a s'
             | (s', Err e) => (s', Err e)
             end.
  Definition gets {A} (f : S -> A) : st S A := fun s => (s, Ok (f s)).
  Definition modify (f : S -> S) : st S unit := fun s => (f s, Ok tt).
  (** [try: m  except e: h(e)] for every exception class. *)
  Definition try_except {A} (m : st S A) (h : pyexc -> st S A) : st S A :=
    fun s => match m s with
             | (s', Err e) => h e s'
             | r => r
             end.
  (** [for x in l: f(x)] *)
  Fixpoint for_each {A} (f : A -> st S unit) (l : list A) : st S unit :=
    match l with
    | [] => ret tt
    | x :: r => sbind (f x) (fun _ => for_each f r)
    end.
End St.

Declare Scope st_scope.
Notation "x <~ e ;; k" := (sbind e (fun x => k)) (at level 61, e at next level, right associativity) : st_scope.
Notation "e ;~ k" := (sbind e (fun _ => k)) (at level 61, right associativity) : st_scope.

(** Exception classes are compared by name: the classes listed in 'except' clauses and isinstance checks of the
    modelled code have no subclasses in the repository. *)
Definition exc_eq_dec (a b : pyexc) : {a = b} + {a <> b}.
Proof. decide equality. Defined.
Definition is_instance (e : pyexc) (classes : list pyexc) : bool :=
  existsb (fun c => if exc_eq_dec e c then true else false) classes.
