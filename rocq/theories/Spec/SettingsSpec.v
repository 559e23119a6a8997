(** What classes inherit from their parents: in terms of the calls of a script and their answers. *)
From Verif.Model Require Import Py Hierarchy.
Open Scope list_scope.

(** The first number in a list of options. *)
Fixpoint first_of (l : list (option nat)) : option nat :=
  match l with [] => None | Some p :: _ => Some p | None :: r => first_of r end.

(** The latest successful call selected by [f]. *)
Definition latest (f : hcall -> option nat) (answers : list (hcall * res hanswer)) : option nat :=
  fold_left (fun acc a => match f (fst a), snd a with Some n, Ok _ => Some n | _, _ => acc end) answers None.
Definition set_creation (i : nat) (c : hcall) : option nat := match c with HCreation j n => if Nat.eqb j i then Some n else None | _ => None end.
Definition set_post (i : nat) (c : hcall) : option nat := match c with HPost j n => if Nat.eqb j i then Some n else None | _ => None end.

Definition parents_in (d : cdecl) : list nat := match cd_parents d with Some l => l | None => [] end.
(** The first parent, or nothing. *)
Definition head_parent (d : cdecl) : option nat := match parents_in d with b :: _ => Some b | [] => None end.

(** [chain parents i r]: going from parent to first parent, [r] is reached from [i]. *)
Inductive chain (parents : nat -> list nat) : nat -> nat -> Prop :=
| chain_self i : chain parents i i
| chain_up i b l r : parents i = b :: l -> chain parents b r -> chain parents i r.
