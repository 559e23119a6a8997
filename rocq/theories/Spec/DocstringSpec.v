(** What __doc__ is expected to be. *)
From Verif.Model Require Import Py Docstring.
From Coq Require Import Permutation Sorted.
Open Scope list_scope.
Open Scope string_scope.

Definition newline : ascii := ascii_of_nat 10.
(** No quote, backslash, newline or NUL. *)
Definition plain (s : string) : Prop := forall c, In c (list_ascii_of_string s) -> c <> """"%char /\ c <> "\"%char /\ c <> newline /\ c <> ascii_of_nat 0.
Definition no_nul (s : string) : Prop := ~ In (ascii_of_nat 0) (list_ascii_of_string s).
(** A text as it has to be passed: with a backslash before quotes and backslashes, and \n for newlines. *)
Fixpoint escaped (s : string) : string :=
  match s with
  | EmptyString => ""
  | String c r =>
      (if Ascii.eqb c """" then "\""" else if Ascii.eqb c "\" then "\\" else if Ascii.eqb c newline then "\n" else String c "") ++ escaped r
  end.
Fixpoint separated (sep : string) (l : list string) : string :=
  match l with [] => "" | x :: r => match r with [] => x | _ => x ++ sep ++ separated sep r end end.
(** __doc__ of a text: None if it is empty. *)
Definition text (s : string) : option string := if String.eqb s "" then None else Some s.
(** The text begins with a signature for inspect.signature: "name(...)", newline, "--", an empty line. *)
Definition has_signature (name s : string) : Prop := exists a b, s = (name ++ "(" ++ a ++ ")" ++ nl ++ "--" ++ nl ++ nl ++ b)%string.
(** name(a, b), an empty line, and the types of the parameters, one in a line. *)
Definition described (name : string) (ps : list (string * string)) : string :=
  name ++ "(" ++ separated ", " (map fst ps) ++ ")" ++ nl ++ nl ++ separated nl (map (fun p => "type: " ++ fst p ++ ": " ++ snd p) ps).
(** The call of a constructor. *)
Definition call_text (name : string) (ps : list string) : string := name ++ "(" ++ separated ", " ps ++ ")".
(** [l'] is [l] with the longest first, otherwise in the same order. *)
Definition by_length (l l' : list string) : Prop :=
  Permutation l l' /\ StronglySorted (fun a b => String.length b <= String.length a) l' /\
  forall n, filter (fun x => Nat.eqb (String.length x) n) l' = filter (fun x => Nat.eqb (String.length x) n) l.
