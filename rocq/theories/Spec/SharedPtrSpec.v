(** What is expected of classes managed by shared pointers. *)
From Verif.Model Require Import Py SharedPtr.
Open Scope list_scope.

(** Who refers to object [o]: the existing Python objects whose pointer points to it, and the pointers that C++ code keeps. *)
Definition refers (s : state) (o i : nat) : Prop := exists w, nth_error (s_wraps s) i = Some w /\ w_alive w = true /\ w_obj w = Ptr (Some o).
Definition keeps (s : state) (o h : nat) : Prop := nth_error (s_kept s) h = Some (Some o).
Definition exists_now (s : state) (o : nat) : Prop := exists x, nth_error (s_objs s) o = Some x /\ o_alive x = true.
Definition created (s : state) (o : nat) : Prop := o < length (s_objs s).

(** Python uses only objects that exist, and calls __init__ only for instances it has made itself ([made]). *)
Definition live (s : state) (i : nat) : Prop := exists w, nth_error (s_wraps s) i = Some w /\ w_alive w = true.
Definition legal (made : list nat) (s : state) (a : action) : Prop :=
  match a with
  | New | Cpp _ => True
  | Init i _ => live s i /\ In i made
  | Keep i | Drop i => live s i
  | Call args _ _ => forall p i, In (p, AWrap i) args -> live s i
  end.
(** The instances made after a step. *)
Definition now_made (a : action) (r : answer) (made : list nat) : list nat :=
  match a, r with New, PWrap i => i :: made | _, _ => made end.

Section Histories.
  Variable std_map : bool.
  Inductive history : list nat -> state -> Prop :=
  | history_start : history [] start
  | history_step made s a s' r : history made s -> legal made s a -> step std_map a s = Some (s', r) -> history (now_made a r made) s'.
End Histories.

(** ** Calls *)
(** The arguments a parameter accepts. *)
Definition takes (x : param * arg) : Prop :=
  match snd x with AWrap _ => True | ANone => p_null_ok (fst x) = true | AMissing => p_default (fst x) = true | AOther => False end.
(** The references that Python has to wrapper [j], given those before a step. *)
Definition references (s : state) (j : nat) : nat :=
  match nth_error (s_wraps s) j with Some w => if w_alive w then w_refs w else 0 | None => 0 end.
Definition balance (a : action) (r : answer) (j n : nat) : nat :=
  let got := match r with PWrap i => if Nat.eqb i j then 1 else 0 | _ => 0 end in
  match a with
  | Keep i => n + (if Nat.eqb i j then 1 else 0)
  | Drop i => n - (if Nat.eqb i j then 1 else 0)
  | _ => n + got
  end.
(** A program goes on from [s], and none of the Python objects that refer to [o] stops doing so. *)
Section Later.
  Variable std_map : bool.
  Variable o : nat.
  Inductive goes_on : list nat -> state -> list nat -> state -> Prop :=
  | goes_on_start made s : goes_on made s made s
  | goes_on_step made s made1 s1 a s2 r : goes_on made s made1 s1 -> legal made1 s1 a -> step std_map a s1 = Some (s2, r) ->
      (forall j, refers s1 o j -> refers s2 o j) -> goes_on made s (now_made a r made1) s2.
End Later.
