(** Specification for variable naming and declarators. *)
From Coq Require Import String Ascii List NArith.
From Verif.Model Require Import Py Decls.
Import ListNotations.
Open Scope string_scope.

(** Base names requested by a history, in order. *)
Definition requests (h : list dop) : list string :=
  flat_map (fun o => match o with
                     | DDeclare _ _ n _ _ => [n]
                     | DReserve n => [n]
                     | DChild => [] end) h.

(** The names a client got back (the calls that did not raise). *)
Definition names (rs : list (option (res string))) : list string :=
  flat_map (fun r => match r with Some (Ok n) => [n] | _ => [] end) rs.

Definition digit (c : ascii) : Prop := (48 <= N_of_ascii c <= 57)%N.

Definition ends_in_digit (s : string) : Prop :=
  exists p c, s = p ++ String c "" /\ digit c.

(** Value of a string of decimal digits, most significant first. *)
Fixpoint value_from (acc : N) (s : string) : N :=
  match s with
  | "" => acc
  | String c r => value_from (10 * acc + (N_of_ascii c - 48)) r
  end.
Definition numeral (s : string) (n : N) : Prop :=
  s <> "" /\ (forall c, In c (list_ascii_of_string s) -> digit c) /\ value_from 0 s = n
  /\ (forall r, s = String "0" r -> r = "").

(** The name owed to the k-th request (k >= 1) of base [b]. *)
Definition kth_name (b : string) (k : nat) (n : string) : Prop :=
  match k with
  | 0 => False
  | 1 => n = b
  | _ => exists d, numeral d (N.of_nat k) /\ n = b ++ d
  end.
