(** Docstrings: the text PyBindGen writes, what the C++ compiler makes of it, and what Python shows as __doc__.
    /repo/pybindgen/function.py:286-311, /repo/pybindgen/cppmethod.py:414-432, 759-760, /repo/pybindgen/cppclass.py:2216-2220,
    2242-2245, /repo/pybindgen/overloading.py:252-293, /repo/pybindgen/module.py:714-718, 826-836 *)
From Verif.Model Require Import Py.
Open Scope list_scope.
Open Scope string_scope.

(** ** What is written *)
(** A wrapper of a function or method: the names and C types of its parameters, its docstring, NEEDS_OVERLOADING_INTERFACE. *)
Record fn := mk_fn { f_params : list (string * string); f_doc : option string; f_custom : bool }.
Definition with_doc (f : fn) (d : string) : fn := mk_fn (f_params f) (Some d) (f_custom f).
Fixpoint joined (sep : string) (l : list string) : string :=
  match l with [] => "" | [x] => x | x :: r => x ++ sep ++ joined sep r end.
(** The two characters backslash and n (a Python "\\n"). *)
Definition backslash_n : string := "\n".
(** function.py:305-311, cppmethod.py:426-432 *)
Definition generate_docstring (name : string) (f : fn) : string :=
  (name ++ "(" ++ joined ", " (map fst (f_params f)) ++ ")") ++ (backslash_n ++ backslash_n) ++
  joined backslash_n (map (fun p => "type: " ++ fst p ++ ": " ++ snd p) (f_params f)).
Definition in_quotes (s : string) : string := String """" (s ++ String """" "").
(** The set of the docstrings that are given (overloading.py:277-280; the order does not matter: one is taken only if it is alone). *)
Fixpoint given (l : list fn) : list string :=
  match l with
  | [] => []
  | f :: r => match f_doc f with
              | Some d => if existsb (String.eqb d) (given r) then given r else d :: given r
              | None => given r
              end
  end.
(** overloading.py:252-293 for the wrappers of one name, with function.py:298-303: the text of the docstring in the method table,
    and the wrappers afterwards (a generated docstring is kept).  (Simplification: the agreement of the flags is not modelled.) *)
Definition method_field (name : string) (ws : list fn) : res (string * list fn) :=
  let several := match given ws with
                 | [] => Ok ("NULL", ws)
                 | [d] => Ok (in_quotes d, ws)
                 | _ => Err CodeGenerationError
                 end in
  match ws with
  | [] => Err SkipWrapper
  | [f] => if f_custom f then several
           else let d := match f_doc f with Some d => d | None => generate_docstring name f end in
                Ok (in_quotes d, [with_doc f d])
  | _ => several
  end.

(** cppmethod.py:759-760 *)
Definition constructor_docstring (name : string) (ps : list string) : string := name ++ "(" ++ joined ", " ps ++ ")".
(** sorted(..., key=len, reverse=True): longest first, in order of appearance for equal lengths *)
Fixpoint insert (x : string) (l : list string) : list string :=
  match l with
  | [] => [x]
  | y :: r => if Nat.leb (String.length y) (String.length x) then x :: l else y :: insert x r
  end.
Fixpoint longest_first (l : list string) : list string := match l with [] => [] | x :: r => insert x (longest_first r) end.
(** cppclass.py:2216-2220, 2242-2245: [constructors] are the parameter names of the constructors. *)
Definition class_field (doc : option string) (name : string) (constructors : list (list string)) : string :=
  in_quotes (match doc with
             | Some d => d
             | None => joined backslash_n (longest_first (map (constructor_docstring name) constructors))
             end).
(** module.py:718, 834 *)
Definition module_field (doc : option string) : string :=
  match doc with Some d => if String.eqb d "" then "NULL" else in_quotes d | None => "NULL" end.

(** ** The C++ compiler *)
Definition digit (base : nat) (c : ascii) : option nat :=
  let n := nat_of_ascii c in
  let v := if Nat.leb 48 n && Nat.leb n 57 then n - 48 else if Nat.leb 97 n && Nat.leb n 102 then n - 87 else if Nat.leb 65 n && Nat.leb n 70 then n - 55 else 99 in
  if Nat.ltb v base then Some v else None.
Definition simple_escape (c : ascii) : option ascii :=
  match c with
  | "n" => Some (ascii_of_nat 10) | "t" => Some (ascii_of_nat 9) | "r" => Some (ascii_of_nat 13) | "a" => Some (ascii_of_nat 7)
  | "b" => Some (ascii_of_nat 8) | "f" => Some (ascii_of_nat 12) | "v" => Some (ascii_of_nat 11)
  | "\" => Some "\" | """" => Some """" | "'" => Some "'" | "?" => Some "?"
  | _ => None
  end%char.
(** Where the lexer is inside a literal: after an ordinary character; after a backslash; inside an octal escape (its value, digits
    left); after \x; inside a hexadecimal escape. *)
Inductive lex : Type := LNormal | LEscape | LOctal (v left : nat) | LHex0 | LHex (v : nat).
Definition put (c : ascii) (r : option (string * string)) : option (string * string) := option_map (fun x => (String c (fst x), snd x)) r.
(** The value of the literal of which the opening quote was read, and the text after the closing quote.  None: no such literal (a
    line ends inside, an escape that is not defined).  (Simplification: no trigraphs, no universal character names.) *)
Fixpoint literal (m : lex) (s : string) : option (string * string) :=
  match s with
  | EmptyString => None
  | String c r =>
      let normal :=
        if Ascii.eqb c """" then Some ("", r)
        else if Ascii.eqb c nl_char then None
        else if Ascii.eqb c "\" then literal LEscape r
        else put c (literal LNormal r) in
      match m with
      | LNormal => normal
      | LEscape =>
          if Ascii.eqb c nl_char then literal LNormal r (* a spliced line *)
          else if Ascii.eqb c "x" then literal LHex0 r
          else match digit 8 c with
               | Some v => literal (LOctal v 2) r
               | None => match simple_escape c with Some x => put x (literal LNormal r) | None => None end
               end
      | LOctal v (S n) =>
          match digit 8 c with Some w => literal (LOctal (8 * v + w) n) r | None => option_map (fun x => (String (ascii_of_nat v) (fst x), snd x)) normal end
      | LOctal v O => option_map (fun x => (String (ascii_of_nat v) (fst x), snd x)) normal
      | LHex0 => match digit 16 c with Some w => literal (LHex w) r | None => None end
      | LHex v => match digit 16 c with Some w => literal (LHex (16 * v + w)) r | None => option_map (fun x => (String (ascii_of_nat v) (fst x), snd x)) normal end
      end
  end.
(** Adjacent literals are one. *)
Fixpoint literals (fuel : nat) (s : string) : option string :=
  match fuel with
  | O => None
  | S f =>
      match s with
      | String """" r =>
          match literal LNormal r with
          | Some (v, rest) => if forallb is_space (list_ascii_of_string rest) then Some v else option_map (fun w => v ++ w) (literals f rest)
          | None => None
          end
      | String c r => if is_space c then literals f r else None
      | EmptyString => None
      end
  end.
(** The C string of a literal ends at the first NUL. *)
Fixpoint c_string (s : string) : string :=
  match s with String c r => if Ascii.eqb c (ascii_of_nat 0) then "" else String c (c_string r) | EmptyString => "" end.
(** A docstring field: None: it does not compile; Some None: the null pointer. *)
Definition compiled (field : string) : option (option string) :=
  if String.eqb field "NULL" then Some None else option_map (fun v => Some (c_string v)) (literals (S (String.length field)) field).

(** ** Python *)
(** CPython, find_signature (of a name without dots, or the last part of one) and skip_signature. *)
Definition end_marker : string := ")" ++ nl ++ "--" ++ nl ++ nl.
Fixpoint after_prefix (p s : string) : option string :=
  match p, s with
  | EmptyString, _ => Some s
  | String a p', String b s' => if Ascii.eqb a b then after_prefix p' s' else None
  | _, _ => None
  end.
Fixpoint skip_signature (s : string) : option string :=
  match s with
  | EmptyString => None
  | String c r =>
      match after_prefix end_marker s with
      | Some rest => Some rest
      | None => match r with
                | String d _ => if Ascii.eqb c nl_char && Ascii.eqb d nl_char then None else skip_signature r
                | EmptyString => None
                end
      end
  end.
Definition without_signature (name doc : string) : string :=
  match after_prefix (name ++ "(") doc with
  | Some rest => match skip_signature ("(" ++ rest) with Some d => d | None => doc end
  | None => doc
  end.
(** __doc__ of a function, method or type (_PyType_GetDocFromInternalDoc), and of a module. *)
Definition doc_of (name : string) (p : option string) : option string :=
  match p with
  | None => None
  | Some d => if String.eqb (without_signature name d) "" then None else Some (without_signature name d)
  end.

(** ** All together: Ok None: the code does not compile; Ok (Some d): __doc__ is d *)
Definition function_doc (name : string) (ws : list fn) : res (option (option string)) :=
  match method_field name ws with Ok x => Ok (option_map (doc_of name) (compiled (fst x))) | Err e => Err e end.
(** tp_name ends in [tp_name] (the C++ name), the Python name is [name]. *)
Definition class_doc (doc : option string) (tp_name name : string) (constructors : list (list string)) : option (option string) :=
  option_map (doc_of tp_name) (compiled (class_field doc name constructors)).
Definition module_doc (doc : option string) : option (option string) := compiled (module_field doc).
