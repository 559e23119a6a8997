(** What the annotations in a header file say. *)
From Verif.Model Require Import Py Annotations.
Open Scope list_scope.
Open Scope string_scope.

Definition has (c : ascii) (s : string) : Prop := In c (list_ascii_of_string s).
Definition blank (s : string) : Prop := forall c, has c s -> is_space c = true.

(** ** Comments *)
(** [line] is an annotation comment with the text [t]:   // -#- t -#-   (indented or not)   or   /* -#- t -#- */   (at the beginning
    of the line); anything may follow. *)
Definition comment (t line : string) : Prop :=
  ~ has nl_char t /\
  ((exists indent gap rest, blank indent /\ blank gap /\ gap <> "" /\ line = indent ++ "//" ++ gap ++ "-#-" ++ t ++ "-#-" ++ rest) \/
   (exists gap gap' rest, blank gap /\ gap <> "" /\ blank gap' /\ line = "/*" ++ gap ++ "-#-" ++ t ++ "-#-" ++ gap' ++ "*/" ++ rest)).
Definition annotation_line (line : string) : Prop := exists t, comment t line.
(** The text of the line: as much as possible. *)
Definition text_of (line t : string) : Prop := comment t line /\ forall t', comment t' line -> String.length t' <= String.length t.

(** ** Their meaning *)
(** name, name=value (None: no value); @parameter(name=value, ...) *)
Inductive item : Type := Note (name : string) (value : option string) | About (parameter : string) (l : list (string * option string)).
Definition word (s : string) : Prop := s <> "" /\ forall c, has c s -> is_ident_char c = true.
Definition value (s : string) : Prop := s <> "" /\ forall c, has c s -> is_space c = false /\ c <> ";"%char.
Definition pair_text (x : string) (kv : string * option string) : Prop :=
  word (fst kv) /\ match snd kv with None => x = fst kv | Some v => value v /\ x = fst kv ++ "=" ++ v end.
Definition padded (x s : string) : Prop := exists a b, blank a /\ blank b /\ s = a ++ x ++ b.
Fixpoint separated (sep : string) (l : list string) : string :=
  match l with [] => "" | x :: r => match r with [] => x | _ => x ++ sep ++ separated sep r end end.
Definition item_text (x : string) (i : item) : Prop :=
  match i with
  | Note k v => pair_text x (k, v)
  | About p l => word p /\ l <> [] /\ exists es, x = "@" ++ p ++ "(" ++ separated "," es ++ ")" /\
      Forall2 (fun e kv => ~ has "," e /\ exists y, padded y e /\ pair_text y kv) es l
  end.
(** Items are separated by semicolons; blanks around them do not matter. *)
Definition says (t : string) (items : list item) : Prop :=
  items <> [] /\ exists pieces, t = separated ";" pieces /\ Forall2 (fun p i => exists x, padded x p /\ item_text x i) pieces items.

(** What is said last counts. *)
Fixpoint value_in (l : list (string * option string)) (k : string) : option (option string) :=
  match l with
  | [] => None
  | (k', v) :: r => match value_in r k with Some x => Some x | None => if String.eqb k k' then Some v else None end
  end.
Fixpoint note_in (l : list item) (k : string) : option (option string) :=
  match l with
  | [] => None
  | Note k' v :: r => match note_in r k with Some x => Some x | None => if String.eqb k k' then Some v else None end
  | About _ _ :: r => note_in r k
  end.
Fixpoint about_in (l : list item) (p : string) : option (list (string * option string)) :=
  match l with
  | [] => None
  | Note _ _ :: r => about_in r p
  | About p' n :: r => match about_in r p with Some x => Some x | None => if String.eqb p p' then Some n else None end
  end.

(** ** Which lines belong to a declaration *)
(** Lines are numbered from 1. *)
Definition line_at (lines : list string) (n : Z) (l : string) : Prop := (1 <= n)%Z /\ nth_error lines (Z.to_nat (n - 1)) = Some l.
Definition annotated (lines : list string) (n : Z) : Prop := exists l, line_at lines n l /\ annotation_line l.
(** Line [n] is in the run of annotation comments directly above line [decl]. *)
Definition belongs (lines : list string) (n decl : Z) : Prop := (n < decl)%Z /\ forall m, (n <= m < decl)%Z -> annotated lines m.
(** The scanner at the start. *)
Definition new_scanner : scanner := mk_scanner [] [].

(** ** Options of parameters and return values *)
Definition small (c : ascii) : ascii := let n := nat_of_ascii c in if Nat.leb 65 n && Nat.leb n 90 then ascii_of_nat (n + 32) else c.
(** [s] is [w] but for upper and lower case. *)
Definition spells (s w : string) : Prop := map small (list_ascii_of_string s) = list_ascii_of_string w.
Definition boolean (s : string) (b : bool) : Prop := if b then spells s "true" \/ spells s "on" else spells s "false" \/ spells s "off".
Definition integer (s : string) (z : Z) : Prop := exists n, s = decimal n /\ z = Z.of_N n \/ s = "-" ++ decimal n /\ z = (- Z.of_N n)%Z.
Inductive parameter_option : string -> string -> kwarg -> Prop :=
| PTransfer s b : boolean s b -> parameter_option "transfer_ownership" s (KBool b)
| PNull s b : boolean s b -> parameter_option "null_ok" s (KBool b)
| PIn s : spells s "in" -> parameter_option "direction" s (KDirection 1)
| POut s : spells s "out" -> parameter_option "direction" s (KDirection 2)
| PInOut s : spells s "inout" -> parameter_option "direction" s (KDirection 3)
| PCustodian s z : integer s z -> parameter_option "custodian" s (KInt z)
| PLength s z : integer s z -> parameter_option "array_length" s (KInt z)
| PDefault s : parameter_option "default_value" s (KString s).
Definition parameter_names := ["transfer_ownership"; "null_ok"; "direction"; "custodian"; "array_length"; "default_value"].
Inductive return_option : string -> string -> kwarg -> Prop :=
| ROwns s b : boolean s b -> return_option "caller_owns_return" s (KBool b)
| RFree s b : boolean s b -> return_option "free_after_copy" s (KBool b)
| RExisting s b : boolean s b -> return_option "reference_existing_object" s (KBool b)
| RInternal s b : boolean s b -> return_option "return_internal_reference" s (KBool b)
| RCustodian s z : integer s z -> return_option "custodian" s (KInt z).
Definition return_names := ["caller_owns_return"; "free_after_copy"; "reference_existing_object"; "return_internal_reference"; "custodian"].
(** Every note is either a proper option or of an unknown name. *)
Definition proper (option_of : string -> string -> kwarg -> Prop) (names : list string) (l : list (string * option string)) : Prop :=
  forall n v, In (n, v) l -> (exists s k, v = Some s /\ option_of n s k) \/ ~ In n names.
