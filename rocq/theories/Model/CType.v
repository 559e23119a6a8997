(** Model of C type expressions (/repo/pybindgen/typehandlers/ctypeparser/__init__.py). *)
From Verif.Model Require Import Py Tokenizer.
Open Scope string_scope.
Open Scope list_scope.
Open Scope py_scope.

(** ctypeparser/__init__.py:12-23: a CType is a list of tokens and nested CTypes. *)
Inductive item := Tok (t : token) | Sub (l : list item).
Definition ctype := list item.

Definition named (i : item) (n : string) : bool :=
  match i with Tok t => String.eqb (t_name t) n | Sub _ => false end.

(** [other_token.name in ['*', '&']] for a token that is not a CType (:52-54). *)
Definition is_star (i : item) : bool := named i "*" || named i "&".

(** :36-65 [_reorder_modifier].  The list [tokens_moved] compares tokens by identity; here it is a flag on each
    entry of the list. *)
Fixpoint insert_before_star (t : item * bool) (l : list (item * bool)) : list (item * bool) :=
  match l with
  | [] => [t]
  | x :: r => if is_star (fst x) then t :: x :: r else x :: insert_before_star t r
  end.

(** One pass of the [for] loop (:40-63): the first unmoved modifier is taken out and put back further right. *)
Fixpoint move_first (m : string) (l : list (item * bool)) : option (list (item * bool)) :=
  match l with
  | [] => None
  | (i, moved) :: r =>
      if named i m && negb moved then Some (insert_before_star (i, true) r)
      else match move_first m r with Some r' => Some ((i, moved) :: r') | None => None end
  end.

(** The [while 1] loop (:38-65); each turn moves one more token, so [length] turns are enough. *)
Fixpoint move_all (m : string) (fuel : nat) (l : list (item * bool)) : list (item * bool) :=
  match fuel with
  | O => l
  | S f => match move_first m l with Some l' => move_all m f l' | None => l end
  end.

Definition reorder_modifier (m : string) (l : ctype) : ctype :=
  map fst (move_all m (length l) (map (fun i => (i, false)) l)).

(** :28-34, with MODIFIERS = ['const', 'volatile'] (:4). *)
Definition reorder_modifiers (l : ctype) : ctype := reorder_modifier "volatile" (reorder_modifier "const" l).

(** :77-90 [_remove_modifier]: every token of that name at the top level is deleted. *)
Definition remove_modifier (m : string) (l : ctype) : ctype := filter (fun i => negb (named i m)) l.

(** :67-75 *)
Definition remove_modifiers (l : ctype) : ctype := remove_modifier "volatile" (remove_modifier "const" l).

(** :92-105: deletes the rightmost token of that name; [None] if there is none (returns False). *)
Fixpoint delete_first (m : string) (l : ctype) : option ctype :=
  match l with
  | [] => None
  | i :: r => if named i m then Some r
              else match delete_first m r with Some r' => Some (i :: r') | None => None end
  end.

Definition remove_outer_modifier (m : string) (l : ctype) : option ctype :=
  match delete_first m (rev l) with Some r => Some (rev r) | None => None end.

(** [token.name in "<,"] is a substring test (:112). *)
Definition tight (n : string) : bool :=
  String.eqb n "" || String.eqb n "<" || String.eqb n "," || String.eqb n "<,".

(** :107-126 [__str__] *)
Fixpoint str_item (i : item) : string :=
  match i with
  | Tok t => t_name t
  | Sub l =>
      (fix go (first : bool) (l : list item) : string :=
         match l with
         | [] => ""
         | x :: r =>
             (match x with
              | Tok t => if tight (t_name t) then t_name t else if first then t_name t else " " ++ t_name t
              | Sub _ => if first then str_item x else " " ++ str_item x
              end ++ go false r)%string
         end) true l
  end.
Definition str_ctype (l : ctype) : string := str_item (Sub l).

(** :133-134 *)
Definition strip_scope (t : token) : token :=
  match t_name t with
  | String a (String b r) => if Ascii.eqb a ":" && Ascii.eqb b ":" then mk_tok (t_type t) r else t
  | _ => t
  end.

Definition is_syntax (t : token) : bool := match t_type t with SYNTAX => true | _ => false end.
Definition gt_token : token := mk_tok SYNTAX ">".

(** :129-161 [_parse_type_recursive]; [acc] is [ctype.tokens] so far, [parse_args] the inner [while 1]
    (:145-155).  The result is the reordered type, the token that ended it (None at the end of the input) and the
    remaining tokens.  Reading [.name] of a missing last token is AttributeError. *)
Fixpoint parse_rec (fuel : nat) (acc : ctype) (toks : list token) : res (ctype * option token * list token) :=
  match fuel with
  | O => Err OutOfFuel
  | S f =>
      match toks with
      | [] => Ok (reorder_modifiers acc, None, [])
      | t0 :: r =>
          let t := strip_scope t0 in
          if is_syntax t then
            if String.eqb (t_name t) ">>" then parse_rec f acc (gt_token :: gt_token :: r)
            else if String.eqb (t_name t) "," || String.eqb (t_name t) ">" || String.eqb (t_name t) ")"
            then Ok (reorder_modifiers acc, Some t, r)
            else if String.eqb (t_name t) "<" || String.eqb (t_name t) "("
            then x <- parse_args f (acc ++ [Tok t]) r ;; parse_rec f (fst x) (snd x)
            else parse_rec f (acc ++ [Tok t]) r
          else parse_rec f (acc ++ [Tok t]) r
      end
  end
with parse_args (fuel : nat) (acc : ctype) (toks : list token) : res (ctype * list token) :=
  match fuel with
  | O => Err OutOfFuel
  | S f =>
      x <- parse_rec f [] toks ;;
      match x with
      | (_, None, _) => Err AttributeError
      | (l, Some t, r) =>
          let acc' := acc ++ [Sub l; Tok t] in
          if String.eqb (t_name t) "," then parse_args f acc' r
          else if String.eqb (t_name t) ">" || String.eqb (t_name t) ")" then Ok (acc', r)
          else Err AssertionError
      end
  end.

(** Fuel that always suffices (Proofs/ParseProofs.v). *)
Definition weight (toks : list token) : nat := 3 * length toks.
Definition parse_tokens (toks : list token) : res ctype :=
  x <- parse_rec (2 * weight toks + 2) [] toks ;;
  match x with
  | (l, None, _) => Ok l
  | (_, Some _, _) => Err AssertionError
  end.

(** :164-174 *)
Definition parse_type (s : string) : res ctype :=
  toks <- get_tokens (s ++ nl)%string ;; parse_tokens toks.

(** :176-200 *)
Definition normalize_type_string (s : string) : res string :=
  l <- parse_type s ;; Ok (str_ctype l).

(** :203-352 TypeTraits. *)
Record traits := mk_traits {
  tt_ctype : ctype;
  tt_no_modifiers : ctype;
  tt_no_const : ctype;
  tt_no_const_no_ref : ctype;
  tt_is_const : bool;
  tt_is_reference : bool;
  tt_is_pointer : bool;
  tt_target_is_const : bool;
  tt_target : option ctype }.

(** State of the [for pos, token in enumerate(tokens)] loop (:319-345). *)
Record scan := mk_scan {
  sc_level : nat; sc_const : bool; sc_ref : bool; sc_ptr : bool; sc_tconst : bool;
  sc_pos : option nat; sc_no_const : ctype }.

Definition scan_step (s : scan) (pos : nat) (i : item) : res scan :=
  if named i "const" then
    match sc_level s with
    | O => match remove_outer_modifier "const" (sc_no_const s) with
           | Some l => Ok (mk_scan O true (sc_ref s) (sc_ptr s) (sc_tconst s) (sc_pos s) l)
           | None => Err AssertionError
           end
    | S O => Ok (mk_scan 1 (sc_const s) (sc_ref s) (sc_ptr s) true (sc_pos s) (sc_no_const s))
    | _ => Ok s
    end
  else if named i "*" then
    match sc_level s with
    | O => Ok (mk_scan 1 (sc_const s) (sc_ref s) true (sc_tconst s) (Some (pos + 1)) (sc_no_const s))
    | S n => Ok (mk_scan (S (S n)) (sc_const s) (sc_ref s) (sc_ptr s) (sc_tconst s) (sc_pos s) (sc_no_const s))
    end
  else if named i "&" then
    match sc_level s with
    | O => Ok (mk_scan 1 (sc_const s) true (sc_ptr s) (sc_tconst s) (Some (pos + 1)) (sc_no_const s))
    | S n => Ok (mk_scan (S (S n)) (sc_const s) (sc_ref s) (sc_ptr s) (sc_tconst s) (sc_pos s) (sc_no_const s))
    end
  else Ok s.

Fixpoint scan_loop (s : scan) (pos : nat) (l : list item) : res scan :=
  match l with
  | [] => Ok s
  | i :: r => s' <- scan_step s pos i ;; scan_loop s' (S pos) r
  end.

(** :312-352, from the parsed type. *)
Definition traits_of (l : ctype) : res traits :=
  let tokens := rev l in
  s <- scan_loop (mk_scan 0 false false false false None l) 0 tokens ;;
  let target :=
    match sc_pos s with
    | Some p => Some (remove_modifiers (rev (skipn p tokens)))
    | None => None
    end in
  Ok (mk_traits l (remove_modifiers l) (sc_no_const s)
        (match remove_outer_modifier "&" (sc_no_const s) with Some x => x | None => sc_no_const s end)
        (sc_const s) (sc_ref s) (sc_ptr s) (sc_tconst s) target).

Definition type_traits (s : string) : res traits := l <- parse_type s ;; traits_of l.

Definition const_token : item := Tok (mk_tok NAME "const").

(** :354-361 *)
Definition make_const (t : traits) : traits :=
  if tt_is_const t then t
  else mk_traits (tt_ctype t ++ [const_token]) (tt_no_modifiers t) (tt_no_const t) (tt_no_const_no_ref t)
         true (tt_is_reference t) (tt_is_pointer t) (tt_target_is_const t) (tt_target t).

(** :371-378: insert before the last star (nothing if there is none). *)
Fixpoint insert_after_first_star (l : ctype) : ctype :=
  match l with
  | [] => []
  | i :: r => if is_star i then i :: const_token :: r else i :: insert_after_first_star r
  end.
Definition insert_target_const (l : ctype) : ctype := rev (insert_after_first_star (rev l)).

(** :363-378 *)
Definition make_target_const (t : traits) : res traits :=
  if negb (tt_is_pointer t || tt_is_reference t) then Err AssertionError
  else if tt_target_is_const t then Ok t
  else Ok (mk_traits (insert_target_const (tt_ctype t)) (tt_no_modifiers t) (insert_target_const (tt_no_const t))
             (tt_no_const_no_ref t) (tt_is_const t) (tt_is_reference t) (tt_is_pointer t) true (tt_target t)).
