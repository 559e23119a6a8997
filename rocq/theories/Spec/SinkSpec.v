(** What it means for a sink to deliver what was written.  Independent of the model's helpers. *)
From Coq Require Import String Ascii List ZArith.
From Verif.Model Require Import CodeSink.
Import ListNotations.
Open Scope string_scope.

Definition newline : ascii := ascii_of_nat 10.

(** [ls] are the lines of [text]: none contains a newline and joining them with newlines
    gives the text back. *)
Definition no_newline (s : string) : Prop := ~ In newline (list_ascii_of_string s).

Definition lines_of (text : string) (ls : list string) : Prop :=
  ls <> [] /\ Forall no_newline ls /\ String.concat (String newline "") ls = text.

(** The indent calls of a history not yet undone by an unindent, innermost first;
    [None] when an unindent had nothing to undo. *)
Definition opened (st : option (list Z)) (o : op) : option (list Z) :=
  match st with
  | None => None
  | Some st =>
      match o with
      | OWrite _ => Some st
      | OIndent l => Some (l :: st)
      | OUnindent => match st with [] => None | _ :: st' => Some st' end
      end
  end.

Definition open_indents (h : list op) : option (list Z) := fold_left opened h (Some []).

(** Indentation in force after history [h]: the sum of the open indents. *)
Definition sumZ (l : list Z) : Z := fold_right Z.add 0%Z l.

Definition level_after (h : list op) : option Z :=
  match open_indents h with
  | Some st => Some (sumZ st)
  | None => None
  end.

Fixpoint blanks (n : nat) : string :=
  match n with O => "" | S m => String " " (blanks m) end.
Definition pad (level : Z) : string := blanks (Z.to_nat level).
Definition indented (p : Z * string) : string := pad (fst p) ++ snd p.

(** [written pre h out]: after history [pre], the further history [h] writes the lines [out], each with
    the indentation in force at that moment. *)
Inductive written : list op -> list op -> list (Z * string) -> Prop :=
| w_nil : forall pre, written pre [] []
| w_write : forall pre text h lvl ls out,
    level_after pre = Some lvl -> lines_of text ls ->
    written (pre ++ [OWrite text]) h out ->
    written pre (OWrite text :: h) (map (fun l => (lvl, l)) ls ++ out)
| w_indent : forall pre l h out,
    written (pre ++ [OIndent l]) h out -> written pre (OIndent l :: h) out
| w_unindent : forall pre h out,
    written (pre ++ [OUnindent]) h out -> written pre (OUnindent :: h) out.

(** Trailing blanks removed: [t] is [s] without its longest suffix of blank characters. *)
Definition blank (c : ascii) : Prop :=
  let n := nat_of_ascii c in
  (9 <= n <= 13 \/ 28 <= n <= 32 \/ n = 133 \/ n = 160)%nat.

Definition trimmed (s t : string) : Prop :=
  exists tail, s = t ++ tail
    /\ (forall c, In c (list_ascii_of_string tail) -> blank c)
    /\ (forall t' c, t = t' ++ String c "" -> ~ blank c).
