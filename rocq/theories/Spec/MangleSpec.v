(** What mangling a name should achieve. *)
From Verif.Model Require Import Py.
Open Scope string_scope.
Open Scope list_scope.

(** C identifiers. *)
Definition identifier (s : string) : Prop :=
  exists c r, s = String c r /\ (is_alpha c = true \/ c = "_"%char) /\ forall_char is_ident_char r = true.

(** The characters of type names: identifier characters, blanks and punctuation. *)
Definition type_char (c : ascii) : bool := is_ident_char c || mem_char c "<>,&*:() ".

(** What each character becomes. *)
Definition code (c : ascii) : string :=
  if Ascii.eqb c "<" then "__lt__" else if Ascii.eqb c ">" then "__gt__"
  else if Ascii.eqb c "&" then "__amp__" else if Ascii.eqb c "*" then "__star__"
  else if Ascii.eqb c "(" then "_lp_" else if Ascii.eqb c ")" then "_rp_"
  else if mem_char c ",: " then "_" else String c "".
Fixpoint encode (s : string) : string :=
  match s with EmptyString => "" | String c r => (code c ++ encode r)%string end.

(** Names written without underscores, commas, colons and parentheses, and without two blanks in a row. *)
Definition plain_char (c : ascii) : bool := is_alpha c || is_digit c || mem_char c "<>&* ".
Fixpoint no_double_blank (s : string) : Prop :=
  match s with
  | String a (String b _ as r) => ~ (a = " "%char /\ b = " "%char) /\ no_double_blank r
  | _ => True
  end.
