(** Model of the C++ tokenizer used to read type names
    (/repo/pybindgen/typehandlers/ctypeparser/tokenizer.py).

    Simplifications: strings are ASCII; string and character literals, preprocessor lines, backslashes and
    [/* */] comments (all meaningless in a type name) are outside the model and give [Err Unmodelled]. The
    [start]/[end] offsets of tokens, which the type parser never reads, are dropped. *)
From Verif.Model Require Import Py.
Open Scope string_scope.
Open Scope list_scope.
Open Scope py_scope.

(** tokenizer.py:50-54 *)
Inductive ttype := SYNTAX | CONSTANT | NAME.

(** tokenizer.py:61-76 *)
Record token := mk_tok { t_type : ttype; t_name : string }.

(** tokenizer.py:39-42 *)
Definition is_valid_ident (c : ascii) : bool := is_ident_char c || Ascii.eqb c "$".
Definition is_hex_digit (c : ascii) : bool := mem_char c "0123456789abcdefABCDEF".
Definition is_int_or_float (c : ascii) : bool := mem_char c "01234567890eE-+".
Definition is_int_or_float2 (c : ascii) : bool := is_int_or_float c || Ascii.eqb c ".".

(** The loops [while source[i] in some_set: i += 1]: what is skipped, and the rest. *)
Fixpoint span (p : ascii -> bool) (s : string) : string * string :=
  match s with
  | EmptyString => (EmptyString, EmptyString)
  | String c r => if p c then let (a, b) := span p r in (String c a, b) else (EmptyString, s)
  end.

(** tokenizer.py:152-163: identifier characters and pairs of colons. *)
Fixpoint scan_name (s : string) : string * string :=
  match s with
  | EmptyString => (EmptyString, EmptyString)
  | String c r =>
      match r with
      | String d r' =>
          if Ascii.eqb c ":" && Ascii.eqb d ":"
          then let (a, b) := scan_name r' in (String c (String d a), b)
          else if is_valid_ident c then let (a, b) := scan_name r in (String c a, b)
          else (EmptyString, s)
      | EmptyString => if is_valid_ident c then (String c EmptyString, EmptyString) else (EmptyString, s)
      end
  end.

Definition lower_char (c : ascii) : ascii :=
  let n := N_of_ascii c in if ((65 <=? n) && (n <=? 90))%N then ascii_of_N (n + 32) else c.

(** [suffix == source[i:i+size].lower()]: the remaining text when it holds, with the text skipped. *)
Fixpoint lower_prefix (suffix s : string) : option (string * string) :=
  match suffix, s with
  | EmptyString, _ => Some (EmptyString, s)
  | String a u, String c r =>
      if Ascii.eqb a (lower_char c)
      then match lower_prefix u r with Some (x, y) => Some (String c x, y) | None => None end
      else None
  | String _ _, EmptyString => None
  end.

(** tokenizer.py:201-204, 216-220 *)
Fixpoint take_suffix (l : list string) (s : string) : string * string :=
  match l with
  | [] => (EmptyString, s)
  | x :: l' => match lower_prefix x s with Some y => y | None => take_suffix l' s end
  end.

(** [source.find('\n', i)], the end if there is none (tokenizer.py:175-177). *)
Fixpoint skip_line (s : string) : string :=
  match s with
  | EmptyString => EmptyString
  | String c r => if Ascii.eqb c nl_char then s else skip_line r
  end.

Definition head_is (c : ascii) (s : string) : bool :=
  match s with String d _ => Ascii.eqb c d | EmptyString => false end.

Definition ch (c : ascii) : string := String c EmptyString.

(** One turn of the main loop at a non-blank character [c] followed by [r] (tokenizer.py:142-280): the token
    ([None] for a comment) and the remaining source.  Reading past the end of the source is [IndexError]. *)
Definition lex1 (c : ascii) (r : string) : res (option token * string) :=
  if (is_valid_ident c && negb (is_digit c)) || (Ascii.eqb c ":" && head_is ":" r) then
    let (n, rest) := scan_name (String c r) in
    match rest with
    | EmptyString => Err IndexError
    | String q _ => if Ascii.eqb q "'" then Err Unmodelled else Ok (Some (mk_tok NAME n), rest)
    end
  else if Ascii.eqb c "/" && match r with EmptyString => true | _ => false end then Err IndexError
  else if Ascii.eqb c "/" && head_is "/" r then Ok (None, skip_line r)
  else if Ascii.eqb c "/" && head_is "*" r then Err Unmodelled
  else if mem_char c ":+-<>&|*=" then
    match r with
    | EmptyString => Err IndexError
    | String d r' =>
        if Ascii.eqb d c || (Ascii.eqb c "-" && Ascii.eqb d ">") || Ascii.eqb d "="
        then Ok (Some (mk_tok SYNTAX (String c (ch d))), r')
        else Ok (Some (mk_tok SYNTAX (ch c)), r)
    end
  else if mem_char c "()[]{}~!?^%;/.," then
    if Ascii.eqb c "." then
      match r with
      | EmptyString => Err IndexError
      | String d r' =>
          if is_digit d then
            let (ds, rest) := span is_int_or_float r' in
            match rest with
            | EmptyString => Err IndexError
            | _ => let (su, rest') := take_suffix ["l"; "f"]%string rest in
                   Ok (Some (mk_tok CONSTANT (String c (String d (ds ++ su)))), rest')
            end
          else Ok (Some (mk_tok SYNTAX (ch c)), r)
      end
    else Ok (Some (mk_tok SYNTAX (ch c)), r)
  else if is_digit c then
    if Ascii.eqb c "0" && match r with EmptyString => true | _ => false end then Err IndexError
    else
      let (ds, rest) :=
        match r with
        | String d r' =>
            if Ascii.eqb c "0" && (Ascii.eqb d "x" || Ascii.eqb d "X")
            then let (a, b) := span is_hex_digit r' in (String c (String d a), b)
            else span is_int_or_float2 (String c r)
        | EmptyString => span is_int_or_float2 (String c r)
        end in
      match rest with
      | EmptyString => Err IndexError
      | _ => let (su, rest') := take_suffix ["ull"; "ll"; "ul"; "l"; "f"; "u"]%string rest in
             Ok (Some (mk_tok CONSTANT (ds ++ su)), rest')
      end
  else if mem_char c """'#\" then Err Unmodelled
  else Err RuntimeError.

(** tokenizer.py:116-141: the main loop, skipping blanks between tokens. *)
Fixpoint get_tokens_fuel (fuel : nat) (s : string) : res (list token) :=
  match fuel with
  | O => Err OutOfFuel
  | S f =>
      match s with
      | EmptyString => Ok []
      | String c r =>
          if is_space c then get_tokens_fuel f r
          else
            x <- lex1 c r ;;
            l <- get_tokens_fuel f (snd x) ;;
            Ok (match fst x with Some t => t :: l | None => l end)
      end
  end.

(** Each turn consumes a character, so the length of the source is enough (see Proofs/LexProofs.v). *)
Definition get_tokens (s : string) : res (list token) := get_tokens_fuel (S (String.length s)) s.
