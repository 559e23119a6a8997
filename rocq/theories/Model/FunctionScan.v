(** The free functions of header files: /repo/pybindgen/castxmlparser.py:64-98, 2248-2425 *)
From Verif.Model Require Import Py Annotations.
Open Scope list_scope.
Open Scope string_scope.

(** ** Template instances *)
Fixpoint strip_prefix (p s : string) : option string :=
  match p, s with
  | EmptyString, _ => Some s
  | String a p', String b s' => if Ascii.eqb a b then strip_prefix p' s' else None
  | _, _ => None
  end.
(** castxmlparser.py:65-66, 77-78: demangled_name[demangled_name.find(function_name) + len(function_name):].  (Simplification: when the
    name does not occur, None, and the functions below are Unmodelled.) *)
Fixpoint after (name s : string) : option string :=
  match strip_prefix name s with
  | Some r => Some r
  | None => match s with EmptyString => None | String _ t => after name t end
  end.
(** castxmlparser.py:67-74 *)
Fixpoint check_template (s : string) : bool :=
  match s with
  | EmptyString => false
  | String c r => if Ascii.eqb c " " then check_template r else Ascii.eqb c "<"
  end.
(** castxmlparser.py:82-98, after the first "<"; [opened] is what is open inside of it, that is, opened - 1 there *)
Fixpoint argument_text (opened : nat) (s : string) : option string :=
  match s with
  | EmptyString => None
  | String c r =>
      if Ascii.eqb c "<" then option_map (String c) (argument_text (S opened) r)
      else if Ascii.eqb c ">" then match opened with O => Some "" | S n => option_map (String c) (argument_text n r) end
      else option_map (String c) (argument_text opened r)
  end.
(** castxmlparser.py:76-98 (only used when check_template holds, so what comes after the blanks is a "<") *)
Fixpoint get_template_arg (s : string) : option (list string) :=
  match s with
  | EmptyString => None
  | String c r => if Ascii.eqb c " " then get_template_arg r else option_map (split_char ",") (argument_text 0 r)
  end.
(** mapping.split('=>') *)
Fixpoint split_arrow (s : string) : list string :=
  match s with
  | EmptyString => [""]
  | String c r =>
      let rest := match split_arrow r with [] => [String c ""] | x :: l => String c x :: l end in
      match r with
      | String d t => if Ascii.eqb c "=" && Ascii.eqb d ">" then "" :: split_arrow t else rest
      | EmptyString => rest
      end
  end.
Fixpoint same_list (a b : list string) : bool :=
  match a, b with [], [] => true | x :: a', y :: b' => String.eqb x y && same_list a' b' | _, _ => false end.
Definition same_types (targs : option (list string)) (types : list string) : bool :=
  match targs with Some l => same_list types l | None => false end.
(** castxmlparser.py:2391-2396: the custom name *)
Fixpoint instance_name (targs : option (list string)) (mappings : list string) : res (option string) :=
  match mappings with
  | [] => Ok None
  | m :: r =>
      match split_arrow m with
      | [types; name] => if same_types targs (split_char "," types) then Ok (Some name) else instance_name targs r
      | _ => Err ValueError
      end
  end.

(** ** Functions *)
(** What is known of an argument and of a function, and what get_annotations found (castxmlparser.py:2264).  [f_demangled] is
    demangle(fun.get_mangled_name()); [f_throws] the result of _get_calldef_exceptions.  (Simplifications: no hooks are registered; the
    names of the arguments are distinct, so that the dicts of their annotations are.) *)
Record argument := mk_argument { a_type : string; a_pointer : bool; a_name : string; a_default : option string }.
Record function := mk_function {
  f_name : string; f_decl : string; f_demangled : string; f_return : string; f_args : list argument;
  f_notes : notes; f_param_notes : dict notes; f_throws : list string; f_deprecated : bool }.
(** The keywords of module.add_function. *)
Record keywords := mk_keywords {
  k_unblock : option bool; k_throw : option (list string); k_templates : option (option (list string)); k_name : option string;
  k_deprecated : bool }.
(** castxmlparser.py:2271-2275, 2276-2293: the local variables, and the names warned about *)
Record directives := mk_directives {
  v_method : option string; v_class : option string; v_name : option string; v_ignore : bool; v_unblock : option bool;
  v_throw : option (list string); v_warned : list string }.
Definition none : directives := mk_directives None None None false None None [].

(** setdefault *)
Definition setdefault (k v : string) (d : notes) : notes := match dict_get d k with Some _ => d | None => dict_set d k (Some v) end.
Definition defaulted (d : notes) : notes := setdefault "free_after_copy" "false" (setdefault "transfer_ownership" "false" d).
Definition get {V} (d : dict (option V)) (k : string) : option V := match dict_get d k with Some v => v | None => None end.
Definition notes_of (f : function) (k : string) : notes := match dict_get (f_param_notes f) k with Some d => d | None => [] end.

(** key=lambda c: (c.name, c.decl_string) *)
Definition key_le (a b : function) : bool :=
  match String.compare (f_name a) (f_name b) with Lt => true | Gt => false | Eq => String.leb (f_decl a) (f_decl b) end.
Fixpoint insert (x : function) (l : list function) : list function :=
  match l with [] => [x] | y :: r => if key_le x y then x :: l else y :: insert x r end.
(** castxmlparser.py:2251-2258.  (list.sort is stable.) *)
Definition scanned (fs : list function) : list function :=
  fold_right insert [] (filter (fun f => match strip_prefix "__" (f_name f) with Some _ => false | None => true end) fs).

Section Scan.
  (** The types' specifications, and whether ReturnValue.new and Parameter.new know them; the classes.  (Simplification: the TypeErrors
      of ReturnValue.new and Parameter.new, which are raised again, are not modelled.) *)
  Context {R P : Type} (lookup_return : string -> notes -> res R) (lookup_parameter : string -> string -> notes -> option string -> res P)
          (known_return : R -> bool) (known_parameter : P -> bool) (find_class : string -> res string)
          (exceptions_of : option string -> res (list string)).
  (** A call, in the script and on the module. *)
  Inductive call : Type :=
  | AddFunction (name : string) (r : R) (ps : list P) (k : keywords)
  | AddFunctionAsMethod (c name : string) (r : R) (ps : list P) (custom_name : string)
  | AddFunctionAsConstructor (c name : string) (r : R) (ps : list P).
  (** What is written (each call with the comment above it), what is declared, and what is warned about. *)
  Record output := mk_output { o_script : list (option string * call); o_memory : list call; o_warned : list (string * string) }.

  Open Scope py_scope.
  (** castxmlparser.py:2276-2293 *)
  Definition directive (n : string) (v : option string) (d : directives) : res directives :=
    if String.eqb n "as_method" then Ok (mk_directives v (v_class d) (v_name d) (v_ignore d) (v_unblock d) (v_throw d) (v_warned d))
    else if String.eqb n "of_class" then Ok (mk_directives (v_method d) v (v_name d) (v_ignore d) (v_unblock d) (v_throw d) (v_warned d))
    else if String.eqb n "name" then Ok (mk_directives (v_method d) (v_class d) v (v_ignore d) (v_unblock d) (v_throw d) (v_warned d))
    else if String.eqb n "ignore" then Ok (mk_directives (v_method d) (v_class d) (v_name d) true (v_unblock d) (v_throw d) (v_warned d))
    else if String.eqb n "is_constructor_of" then Ok d
    else if String.eqb n "pygen_comment" then Ok d
    else if String.eqb n "template_instance_names" then Ok d
    else if String.eqb n "unblock_threads" then
      b <- parse_boolean v ;; Ok (mk_directives (v_method d) (v_class d) (v_name d) (v_ignore d) (Some b) (v_throw d) (v_warned d))
    else if String.eqb n "throw" then
      l <- exceptions_of v ;; Ok (mk_directives (v_method d) (v_class d) (v_name d) (v_ignore d) (v_unblock d) (Some l) (v_warned d))
    else Ok (mk_directives (v_method d) (v_class d) (v_name d) (v_ignore d) (v_unblock d) (v_throw d) (v_warned d ++ [n])%list).
  Fixpoint read (l : notes) (d : directives) : res directives :=
    match l with [] => Ok d | (n, v) :: r => d' <- directive n v d ;; read r d' end.
  Definition true_text (v : option string) : bool := match v with Some s => negb (String.eqb s "") | None => false end.
  (** castxmlparser.py:2298-2304 *)
  Definition returned (f : function) : res R :=
    lookup_return (f_return f)
      (if true_text (get (f_notes f) "is_constructor_of") then dict_set (notes_of f "return") "caller_owns_return" (Some "true")
       else notes_of f "return").
  (** castxmlparser.py:2319-2331 *)
  Fixpoint arguments (f : function) (first as_method : bool) (l : list argument) : res (list P) :=
    match l with
    | [] => Ok []
    | a :: r =>
        p <- lookup_parameter (a_type a) (a_name a)
               (if first && as_method && a_pointer a then defaulted (notes_of f (a_name a)) else notes_of f (a_name a)) (a_default a) ;;
        ps <- arguments f false as_method r ;;
        Ok (p :: ps)
    end.
  (** '## ' + global_annotations['pygen_comment'] *)
  Definition comment_of (f : function) : res (option string) :=
    match dict_get (f_notes f) "pygen_comment" with
    | None => Ok None
    | Some None => Err TypeError
    | Some (Some t) => Ok (Some t)
    end.
  (** castxmlparser.py:2386-2404 *)
  Definition keywords_of (f : function) (d : directives) : res keywords :=
    let throw := match f_throws f with [] => v_throw d | l => Some l end in
    match after (f_name f) (f_demangled f) with
    | None => Err Unmodelled
    | Some rest =>
        t <- (if check_template rest then
                let targs := get_template_arg rest in
                n <- (let names := get (f_notes f) "template_instance_names" in
                      if true_text names then match names with Some s => instance_name targs (split_char "|" s) | None => Ok None end
                      else Ok None) ;;
                Ok (Some targs, n)
              else Ok (None, None)) ;;
        Ok (mk_keywords (v_unblock d) throw (fst t) (if true_text (v_name d) then v_name d else snd t) (f_deprecated f))
    end.
  (** castxmlparser.py:2263-2423: one function; the names warned about, and the call, if there is one, with its comment.  (Simplification:
      there is always a script; without one a comment without text is no error.) *)
  Definition scan_function (f : function) : res (list string * option (option string * call)) :=
    d <- read (f_notes f) none ;;
    if v_ignore d then Ok (v_warned d, None)
    else
      r <- returned f ;;
      ps <- arguments f true (match v_method d with Some _ => true | None => false end) (f_args f) ;;
      match v_method d with
      | Some m =>
          match v_class d with
          | None => Err AssertionError
          | Some c => c' <- find_class c ;; co <- comment_of f ;; Ok (v_warned d, Some (co, AddFunctionAsMethod c' (f_name f) r ps m))
          end
      | None =>
          match get (f_notes f) "is_constructor_of" with
          | Some c => c' <- find_class c ;; co <- comment_of f ;; Ok (v_warned d, Some (co, AddFunctionAsConstructor c' (f_name f) r ps))
          | None => k <- keywords_of f d ;; co <- comment_of f ;; Ok (v_warned d, Some (co, AddFunction (f_name f) r ps k))
          end
      end.
  (** params_ok *)
  Definition call_known (c : call) : bool :=
    match c with
    | AddFunction _ r ps _ | AddFunctionAsMethod _ _ r ps _ | AddFunctionAsConstructor _ _ r ps => known_return r && forallb known_parameter ps
    end.
  Fixpoint scan_functions (l : list function) (o : output) : res output :=
    match l with
    | [] => Ok o
    | f :: r =>
        x <- scan_function f ;;
        let warned := (o_warned o ++ map (fun n => (f_name f, n)) (fst x))%list in
        scan_functions r
          (match snd x with
           | None => mk_output (o_script o) (o_memory o) warned
           | Some (co, c) => mk_output (o_script o ++ [(co, c)])%list (if call_known c then o_memory o ++ [c] else o_memory o)%list warned
           end)
    end.
  Definition scan (fs : list function) : res output := scan_functions (scanned fs) (mk_output [] [] []).
End Scan.
