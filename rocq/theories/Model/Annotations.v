(** Annotations in header files: /repo/pybindgen/castxmlparser.py:329-395, 399-503, 2299-2330 *)
From Verif.Model Require Import Py Tokenizer.
Open Scope list_scope.
Open Scope string_scope.

(** ** Regular expressions (the part of Python's re that is used: greedy repetition of one character class, ordered alternatives,
    numbered groups, backtracking) *)
Inductive rx : Type :=
| RChar (p : ascii -> bool)
| RStar (p : ascii -> bool)
| RSeq (a b : rx)
| RAlt (a b : rx)
| ROpt (a : rx)
| RGroup (n : nat) (a : rx)
| REmpty.
Definition groups := list (nat * string).
(** The text between two positions, given as the rests of the string. *)
Definition consumed (s s' : string) : string := substring 0 (String.length s - String.length s') s.
(** Greedy repetition with backtracking: [k] is the rest of the match. *)
Fixpoint star {A} (p : ascii -> bool) (s : string) (k : string -> option A) : option A :=
  match s with
  | EmptyString => k s
  | String c t => if p c then match star p t k with Some x => Some x | None => k s end else k s
  end.
Fixpoint rx_match {A} (r : rx) (s : string) (g : groups) (k : string -> groups -> option A) : option A :=
  match r with
  | REmpty => k s g
  | RChar p => match s with String c t => if p c then k t g else None | EmptyString => None end
  | RStar p => star p s (fun t => k t g)
  | RSeq a b => rx_match a s g (fun s' g' => rx_match b s' g' k)
  | RAlt a b => match rx_match a s g k with Some x => Some x | None => rx_match b s g k end
  | ROpt a => match rx_match a s g k with Some x => Some x | None => k s g end
  | RGroup n a => rx_match a s g (fun s' g' => k s' ((n, consumed s s') :: g'))
  end.
(** re.match: at the beginning of the string, not necessarily to its end. *)
Definition re_match (r : rx) (s : string) : option groups := rx_match r s [] (fun _ g => Some g).
Definition group (g : groups) (n : nat) : option string := option_map snd (List.find (fun x => Nat.eqb (fst x) n) g).
Definition one (c : ascii) : rx := RChar (Ascii.eqb c).
Fixpoint text_rx (s : string) : rx := match s with EmptyString => REmpty | String c r => RSeq (one c) (text_rx r) end.
Definition plus (p : ascii -> bool) : rx := RSeq (RChar p) (RStar p).
Definition seq (l : list rx) : rx := fold_right RSeq REmpty l.
(** \w, in Latin-1 *)
Definition is_word_char (c : ascii) : bool :=
  let n := N_of_ascii c in
  is_ident_char c || ((n =? 170) || (n =? 178) || (n =? 179) || (n =? 181) || (n =? 185) || (n =? 186) || (188 <=? n) && (n <=? 190) ||
  (192 <=? n) && (n <=? 214) || (216 <=? n) && (n <=? 246) || (248 <=? n))%N.
Definition not_newline (c : ascii) : bool := negb (Ascii.eqb c nl_char).
(** castxmlparser.py:403-404: ^\s*(?://\s+-#-(?P<annotation1>.{0,})-#-\s* )|(?:/\*\s+-#-(?P<annotation2>.{0,})-#-\s*\*/) with the star for {0,}.
    The alternatives are: all before the bar (with the leading blanks), all after it. *)
Definition comment_rx : rx :=
  RAlt (seq [RStar is_space; text_rx "//"; plus is_space; text_rx "-#-"; RGroup 1 (RStar not_newline); text_rx "-#-"; RStar is_space])
       (seq [text_rx "/*"; plus is_space; text_rx "-#-"; RGroup 2 (RStar not_newline); text_rx "-#-"; RStar is_space; text_rx "*/"]).
(** castxmlparser.py:405: (\w+)(?:=([^\s;]+))? *)
Definition global_rx : rx :=
  seq [RGroup 1 (plus is_word_char); ROpt (seq [one "="; RGroup 2 (plus (fun c => negb (is_space c) && negb (Ascii.eqb c ";")))])].
(** castxmlparser.py:406: @(\w+)\(([^;]+)\) *)
Definition param_rx : rx :=
  seq [one "@"; RGroup 1 (plus is_word_char); one "("; RGroup 2 (plus (fun c => negb (Ascii.eqb c ";"))); one ")"].

(** ** The scanner *)
Fixpoint lstrip (s : string) : string :=
  match s with EmptyString => "" | String c r => if is_space c then lstrip r else s end.
Definition strip (s : string) : string := rstrip (lstrip s).
(** Name and value of an annotation; no value: None. *)
Definition notes := dict (option string).
Inductive warning : Type :=
| WElement (text file : string) (line : Z)  (* castxmlparser.py:467-469 *)
| WUnparsed (text file : string) (line : Z) (* castxmlparser.py:471-472 *)
| WUnused (file : string) (line : Z)        (* castxmlparser.py:498-499 *)
| WName (name : string)                     (* castxmlparser.py:344, 374 *)
| WDirection (value : string).              (* castxmlparser.py:366 *)
(** castxmlparser.py:401-402 *)
Record scanner := mk_scanner { sc_files : dict (list string); sc_used : dict (list Z) }.
(** What is known of a declaration: calldef.is_artificial, location. *)
Record declaration := mk_declaration { d_artificial : bool; d_file : string; d_line : Z }.
(** lines[i]: a negative index counts from the end. *)
Definition py_nth (l : list string) (i : Z) : option string :=
  if (i >=? 0)%Z then nth_error l (Z.to_nat i)
  else if (Z.of_nat (length l) + i >=? 0)%Z then nth_error l (Z.to_nat (Z.of_nat (length l) + i)) else None.
(** castxmlparser.py:408-414 *)
Definition declare_used (u : dict (list Z)) (file : string) (line : Z) : dict (list Z) :=
  dict_set u file (match dict_get u file with Some l => l | None => [] end ++ [line])%list.
Definition found := (notes * dict notes * list warning)%type.
(** castxmlparser.py:461-469: the elements between the parentheses *)
Fixpoint elements (file : string) (line : Z) (l : list string) (acc : notes * list warning) : notes * list warning :=
  match l with
  | [] => acc
  | x :: r =>
      elements file line r
        (match re_match global_rx (strip x) with
         | Some g => (match group g 1 with Some k => dict_set (fst acc) k (group g 2) | None => fst acc end, snd acc)
         | None => (fst acc, snd acc ++ [WElement (strip x) file line])
         end)
  end%list.
(** castxmlparser.py:451-472: one annotation *)
Definition annotation (file : string) (line : Z) (f : found) (text : string) : found :=
  let s := strip text in
  let '(gl, ps, ws) := f in
  match re_match global_rx s with
  | Some g => (match group g 1 with Some k => dict_set gl k (group g 2) | None => gl end, ps, ws)
  | None =>
      match re_match param_rx s with
      | Some g =>
          match group g 1, group g 2 with
          | Some p, Some t => let e := elements file line (split_char "," t) ([], ws) in (gl, dict_set ps p (fst e), snd e)
          | _, _ => f
          end
      | None => (gl, ps, ws ++ [WUnparsed s file line])
      end
  end%list.
(** castxmlparser.py:438-472: the lines above the declaration, upwards from the index [i].  (The fuel is the number of times that
    lines[i] can succeed, so running out of it is the IndexError.) *)
Fixpoint upwards (fuel : nat) (file : string) (lines : list string) (i : Z) (u : dict (list Z)) (f : found) : res (dict (list Z) * found) :=
  match fuel with
  | O => Err IndexError
  | S n =>
      match py_nth lines i with
      | None => Err IndexError
      | Some line =>
          match re_match comment_rx line with
          | None => Ok (u, f)
          | Some g =>
              let s := match group g 1 with Some s => Some s | None => group g 2 end in
              match s with
              | None => Err AttributeError
              | Some s =>
                  upwards n file lines (i - 1) (declare_used u file (i - 1 + 2))
                    (fold_left (annotation file (i - 1)) (split_char ";" (strip s)) f)
              end
          end
      end
  end.
(** castxmlparser.py:416-473.  [fs]: the lines of the files that can be read.  (Simplification: a file that cannot be read is
    Unmodelled.)  Warnings are part of the result. *)
Definition get_annotations (fs : string -> option (list string)) (sc : scanner) (d : declaration) : res (scanner * found) :=
  if d_artificial d then Ok (sc, ([], [], []))
  else if String.eqb (d_file d) "" then Ok (sc, ([], [], []))
  else
    match (match dict_get (sc_files sc) (d_file d) with
           | Some l => Some (l, sc_files sc)
           | None => option_map (fun l => (l, dict_set (sc_files sc) (d_file d) l)) (fs (d_file d))
           end) with
    | None => Err Unmodelled
    | Some (lines, files) =>
        match upwards (Z.to_nat (d_line d - 2 + Z.of_nat (length lines) + 1)) (d_file d) lines (d_line d - 2) (sc_used sc) ([], [], []) with
        | Ok (u, f) => Ok (mk_scanner files u, f)
        | Err e => Err e
        end
    end.
(** Several declarations, one after the other. *)
Fixpoint get_all (fs : string -> option (list string)) (sc : scanner) (ds : list declaration) : res scanner :=
  match ds with
  | [] => Ok sc
  | d :: r => match get_annotations fs sc d with Ok (sc', _) => get_all fs sc' r | Err e => Err e end
  end.
(** castxmlparser.py:485-499 *)
Fixpoint unused_lines (file : string) (used : list Z) (n : Z) (lines : list string) : list warning :=
  match lines with
  | [] => []
  | l :: r =>
      (match re_match comment_rx l with
       | None => []
       | Some _ => if existsb (Z.eqb (n + 1)) used then [] else [WUnused file (n + 1)]
       end ++ unused_lines file used (n + 1) r)%list
  end.
Definition warn_unused (sc : scanner) : list warning :=
  flat_map (fun fl => unused_lines (fst fl) (match dict_get (sc_used sc) (fst fl) with Some u => u | None => [] end) 0 (snd fl)) (sc_files sc).

(** ** Annotations of parameters and return values *)
Inductive kwarg : Type := KBool (b : bool) | KInt (z : Z) | KString (s : string) | KDirection (n : nat) | KNone.
Fixpoint lower (s : string) : string := match s with EmptyString => "" | String c r => String (lower_char c) (lower r) end.
(** castxmlparser.py:475-483 (None.lower() is an AttributeError) *)
Definition parse_boolean (v : option string) : res bool :=
  match v with
  | None => Err AttributeError
  | Some s => if existsb (String.eqb (lower s)) ["false"; "off"] then Ok false
              else if existsb (String.eqb (lower s)) ["true"; "on"] then Ok true else Err ValueError
  end.
(** int(s): a sign, and decimal digits with single underscores between.  (The values have no blanks around them.) *)
Fixpoint digits (s : string) (acc : Z) (after_digit : bool) : option Z :=
  match s with
  | EmptyString => if after_digit then Some acc else None
  | String c r =>
      if is_digit c then digits r (acc * 10 + (Z.of_nat (nat_of_ascii c) - 48))%Z true
      else if Ascii.eqb c "_" && after_digit then digits r acc false else None
  end.
Definition parse_int (v : option string) : res Z :=
  match v with
  | None => Err TypeError
  | Some s =>
      match (match s with
             | String "-" r => option_map Z.opp (digits r 0 false)
             | String "+" r => digits r 0 false
             | _ => digits s 0 false
             end) with Some z => Ok z | None => Err ValueError end
  end.
Definition spec := (dict kwarg * list warning)%type.
Open Scope py_scope.
(** castxmlparser.py:329-347 *)
Definition return_note (s : spec) (n : string) (v : option string) : res spec :=
  s1 <- (if String.eqb n "caller_owns_return" then b <- parse_boolean v ;; Ok (dict_set (fst s) n (KBool b), snd s) else Ok s) ;;
  if String.eqb n "free_after_copy" then b <- parse_boolean v ;; Ok (dict_set (fst s1) n (KBool b), snd s1)
  else if String.eqb n "reference_existing_object" then b <- parse_boolean v ;; Ok (dict_set (fst s1) n (KBool b), snd s1)
  else if String.eqb n "return_internal_reference" then b <- parse_boolean v ;; Ok (dict_set (fst s1) n (KBool b), snd s1)
  else if String.eqb n "custodian" then z <- parse_int v ;; Ok (dict_set (fst s1) n (KInt z), snd s1)
  else Ok (fst s1, snd s1 ++ [WName n])%list.
Fixpoint lookup_return (l : notes) (s : spec) : res spec :=
  match l with [] => Ok s | (n, v) :: r => s' <- return_note s n v ;; lookup_return r s' end.
(** castxmlparser.py:350-374 *)
Definition parameter_note (s : spec) (n : string) (v : option string) : res spec :=
  if String.eqb n "transfer_ownership" then b <- parse_boolean v ;; Ok (dict_set (fst s) n (KBool b), snd s)
  else if String.eqb n "direction" then
    match v with
    | None => Err AttributeError
    | Some d =>
        if String.eqb (lower d) "in" then Ok (dict_set (fst s) n (KDirection 1), snd s)
        else if String.eqb (lower d) "out" then Ok (dict_set (fst s) n (KDirection 2), snd s)
        else if String.eqb (lower d) "inout" then Ok (dict_set (fst s) n (KDirection 3), snd s)
        else Ok (fst s, snd s ++ [WDirection d])%list
    end
  else if String.eqb n "custodian" then z <- parse_int v ;; Ok (dict_set (fst s) n (KInt z), snd s)
  else if String.eqb n "array_length" then z <- parse_int v ;; Ok (dict_set (fst s) n (KInt z), snd s)
  else if String.eqb n "default_value" then
    match v with Some d => Ok (dict_set (fst s) n (KString d), snd s) | None => Ok (dict_set (fst s) n (KNone), snd s) end
  else if String.eqb n "null_ok" then b <- parse_boolean v ;; Ok (dict_set (fst s) n (KBool b), snd s)
  else Ok (fst s, snd s ++ [WName n])%list.
Fixpoint parameter_notes (l : notes) (s : spec) : res spec :=
  match l with [] => Ok s | (n, v) :: r => s' <- parameter_note s n v ;; parameter_notes r s' end.
(** castxmlparser.py:376-381: a default value in C++ comes last. *)
Definition lookup_parameter (l : notes) (default : option string) : res spec :=
  s <- parameter_notes l ([], []) ;;
  match default with
  | Some d => if String.eqb d "" then Ok s else Ok (dict_set (fst s) "default_value" (KString d), snd s)
  | None => Ok s
  end.
(** castxmlparser.py:2299-2330: the keywords for the return value and the parameters (name, C++ default value) of a function.
    (Simplification: not as_method or is_constructor_of.) *)
Definition notes_of (ps : dict notes) (n : string) : notes := match dict_get ps n with Some l => l | None => [] end.
Fixpoint argument_specs (ps : dict notes) (args : list (string * option string)) : res (list (dict kwarg)) :=
  match args with
  | [] => Ok []
  | a :: r => s <- lookup_parameter (notes_of ps (fst a)) (snd a) ;; l <- argument_specs ps r ;; Ok (fst s :: l)
  end.
Definition function_specs (ps : dict notes) (args : list (string * option string)) : res (dict kwarg * list (dict kwarg)) :=
  r <- lookup_return (notes_of ps "return") ([], []) ;; l <- argument_specs ps args ;; Ok (fst r, l).
