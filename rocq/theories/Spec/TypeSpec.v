(** What a C type expression says, independently of how PyBindGen manipulates it. *)
From Verif.Model Require Import Py Tokenizer CType.
Open Scope string_scope.
Open Scope list_scope.

(** ** Spelling *)

(** Texts made of the same words with other blanks between them. *)
Definition blanks (w : string) : Prop := forall_char is_space w = true.
Definition blank_first (s : string) : Prop := exists c r, s = String c r /\ is_space c = true.

Inductive respaced : list string -> string -> Prop :=
| rs_end w : blanks w -> respaced [] w
| rs_word w n ns s : blanks w -> respaced ns s -> (ns <> [] -> blank_first s) ->
    respaced (n :: ns) (w ++ n ++ s).

(** Every double colon of the text is followed by an identifier, as in [std::string] or [::Foo]. *)
Definition identifier_start (c : ascii) : Prop := is_valid_ident c = true /\ is_digit c = false.
Definition scopes_named (s : string) : Prop :=
  forall a b, s = (a ++ "::" ++ b)%string -> exists c r, b = String c r /\ identifier_start c.

(** The weaker requirement that matters: it holds of the double colons that start a token. *)
Definition scopes_clean (s : string) : Prop :=
  forall ts t r, get_tokens (s ++ nl) = Ok ts -> In t ts -> t_name t = ("::" ++ r)%string ->
    exists c r', r = String c r' /\ identifier_start c.

(** ** Structure *)

(** The words of a nested type expression from left to right. *)
Fixpoint flat_item (i : item) : list token :=
  match i with
  | Tok t => [t]
  | Sub l => (fix go (l : list item) := match l with [] => [] | x :: r => flat_item x ++ go r end) l
  end.
Definition flatten (l : list item) : list token := flat_item (Sub l).

(** The words PyBindGen reads: leading double colons dropped, [>>] read as two closing brackets. *)
Definition read_word (t : token) : list token :=
  if is_syntax t && String.eqb (t_name t) ">>" then [mk_tok SYNTAX ">"; mk_tok SYNTAX ">"]
  else if String.prefix "::" (t_name t) then [mk_tok (t_type t) (substring 2 (String.length (t_name t) - 2) (t_name t))]
  else [t].

(** ** Meaning *)

(** One level of a type: what introduced it (nothing for the base type, a star or an ampersand), its words that
    are not qualifiers, and how often it is qualified const and volatile. *)
Record level := mk_level { lv_mark : option ascii; lv_words : list item; lv_const : nat; lv_volatile : nat }.
Definition bare (m : option ascii) : level := mk_level m [] 0 0.

Definition is_word (i : item) (n : string) : bool :=
  match i with Tok t => String.eqb (t_name t) n | Sub _ => false end.

(** In C each star or ampersand opens a new level, also when two are written together. *)
Definition marks (i : item) : list ascii :=
  match i with
  | Tok t => if String.eqb (t_name t) "*" then ["*"%char]
             else if String.eqb (t_name t) "&" then ["&"%char]
             else if String.eqb (t_name t) "**" then ["*"; "*"]%char
             else if String.eqb (t_name t) "&&" then ["&"; "&"]%char
             else []
  | Sub _ => []
  end.

Definition put (i : item) (v : level) : level :=
  if is_word i "const" then mk_level (lv_mark v) (lv_words v) (S (lv_const v)) (lv_volatile v)
  else if is_word i "volatile" then mk_level (lv_mark v) (lv_words v) (lv_const v) (S (lv_volatile v))
  else mk_level (lv_mark v) (lv_words v ++ [i]) (lv_const v) (lv_volatile v).

(** The levels of a type, innermost first. *)
Fixpoint read_from (v : level) (l : list item) : list level :=
  match l with
  | [] => [v]
  | i :: r =>
      match marks i with
      | [] => read_from (put i v) r
      | [m] => v :: read_from (bare (Some m)) r
      | m :: m' :: _ => v :: bare (Some m) :: read_from (bare (Some m')) r
      end
  end.
Definition read (l : list item) : list level := read_from (bare None) l.

(** No two stars or ampersands are written together. *)
Definition separate (l : list item) : Prop := Forall (fun i => length (marks i) <= 1) l.

(** Qualifiers, and their canonical place: as far right as they can be. *)
Definition qualifier (i : item) : bool := is_word i "const" || is_word i "volatile".

(** Placement: a qualifier is followed only by qualifiers, a star or the end; const before volatile. *)
Definition placed (l : list item) : Prop := forall a x y b, l = a ++ x :: y :: b -> qualifier x = true ->
  (qualifier y = true \/ is_word y "*" = true \/ is_word y "&" = true) /\
  (is_word x "volatile" = true -> is_word y "const" = false).

(** Qualifiers, stars and ampersands are the tokens the tokenizer makes of them. *)
Definition mark_item (m : ascii) : item := Tok (mk_tok SYNTAX (String m "")).
Definition usual (l : list item) : Prop := Forall (fun i => 
  (qualifier i = true -> exists n, i = Tok (mk_tok NAME n)) /\ (forall m, marks i = [m] -> i = mark_item m)) l.

(** Two nested type expressions with the same meaning at every depth. *)
Inductive same_type : list item -> list item -> Prop :=
| st_type a a' b : same_items a a' -> read a' = read b -> same_type a b
with same_items : list item -> list item -> Prop :=
| si_nil : same_items [] []
| si_tok t l l' : same_items l l' -> same_items (Tok t :: l) (Tok t :: l')
| si_sub a b l l' : same_type a b -> same_items l l' -> same_items (Sub a :: l) (Sub b :: l').

(** Brackets of the raw expression match: an opening bracket is followed by arguments separated by commas. *)
Inductive bracketed : list item -> Prop :=
| br_nil : bracketed []
| br_word t l : ~ In (t_name t) ["<"; "("; ">"; ")"; ","] -> bracketed l -> bracketed (Tok t :: l)
| br_group o a l : In (t_name o) ["<"; "("] -> arguments a -> bracketed l -> bracketed (Tok o :: a ++ l)
with arguments : list item -> Prop :=
| ag_last l c : bracketed l -> In (t_name c) [">"; ")"] -> arguments [Sub l; Tok c]
| ag_more l c a : bracketed l -> t_name c = "," -> arguments a -> arguments (Sub l :: Tok c :: a).

(** ** Traits of the outermost level *)
Definition no_qualifiers (v : level) : level := mk_level (lv_mark v) (lv_words v) 0 0.
Definition outer (l : list level) : level := last l (bare None).
Definition without_outer (l : list level) : list level := removelast l.
Definition outer_const (n : nat) (l : list level) : list level :=
  without_outer l ++ [mk_level (lv_mark (outer l)) (lv_words (outer l)) n (lv_volatile (outer l))].
