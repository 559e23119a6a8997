(** The annotations of classes in header files: /repo/pybindgen/castxmlparser.py:974-1032 *)
From Verif.Model Require Import Py Annotations.
Open Scope list_scope.
Open Scope string_scope.
Open Scope py_scope.

(** cppclass.py:169-232: the memory policies (None: an annotation without a value) *)
Inductive policy : Type :=
| Methods (incref decref peekref : option string)
| Functions (incref decref : option string)
| Free (f : option string).
(** The keyword arguments of add_class that come from here. *)
Inductive kvalue : Type := KBool (b : bool) | KPolicy (p : policy) | KText (t : option string).
Definition kwargs := dict kvalue.
(** What is known of the class: whether it is defined (not only declared), has virtual methods, has bases; the access of its destructor. *)
Record class_facts := mk_facts { c_defined : bool; c_virtual : bool; c_bases : bool; c_destructor : option string }.
(** castxmlparser.py:1004-1005, 1012-1013 *)
Inductive complaint : Type := Deprecated | Ignored (name : string).
Record result := mk_result { r_kwargs : kwargs; r_warned : list complaint; r_exception : bool }.

Definition setdefault (k : string) (v : kvalue) (d : kwargs) : kwargs := match dict_get d k with Some _ => d | None => dict_set d k v end.
(** annotations.get(n, None) *)
Definition get (l : notes) (n : string) : option string := match dict_get l n with Some v => v | None => None end.
Definition put (k : string) (v : kvalue) (r : result) : result := mk_result (setdefault k v (r_kwargs r)) (r_warned r) (r_exception r).
(** castxmlparser.py:978-1013: one annotation; [l] are all *)
Definition class_note (l : notes) (n : string) (v : option string) (r : result) : res result :=
  if String.eqb n "allow_subclassing" then b <- parse_boolean v ;; Ok (put "allow_subclassing" (KBool b) r)
  else if String.eqb n "is_singleton" then b <- parse_boolean v ;; Ok (put "is_singleton" (KBool b) r)
  else if String.eqb n "incref_method" then Ok (put "memory_policy" (KPolicy (Methods v (get l "decref_method") (get l "peekref_method"))) r)
  else if String.eqb n "decref_method" then Ok r
  else if String.eqb n "peekref_method" then Ok r
  else if String.eqb n "automatic_type_narrowing" then b <- parse_boolean v ;; Ok (put "automatic_type_narrowing" (KBool b) r)
  else if String.eqb n "free_function" then Ok (put "memory_policy" (KPolicy (Free v)) r)
  else if String.eqb n "incref_function" then Ok (put "memory_policy" (KPolicy (Functions v (get l "decref_function"))) r)
  else if String.eqb n "decref_function" then Ok r
  else if String.eqb n "python_name" then
    let r' := put "custom_name" (KText v) r in Ok (mk_result (r_kwargs r') (r_warned r' ++ [Deprecated])%list (r_exception r'))
  else if String.eqb n "custom_name" then Ok (put "custom_name" (KText v) r)
  else if String.eqb n "pygen_comment" then Ok r
  else if String.eqb n "exception" then Ok (mk_result (r_kwargs r) (r_warned r) true)
  else if String.eqb n "import_from_module" then Ok (put "import_from_module" (KText v) r)
  else Ok (mk_result (r_kwargs r) (r_warned r ++ [Ignored n])%list (r_exception r)).
Fixpoint class_notes (l rest : notes) (r : result) : res result :=
  match rest with [] => Ok r | (n, v) :: t => r' <- class_note l n v r ;; class_notes l t r' end.
(** castxmlparser.py:974-1027.  [kw] is what the keyword arguments are before. *)
Definition apply_class_annotations (f : class_facts) (l : notes) (kw : kwargs) : res result :=
  r <- class_notes l l (mk_result kw [] false) ;;
  if c_defined f then
    let r1 := if c_virtual f && negb (c_bases f) then put "allow_subclassing" (KBool true) r else r in
    Ok (match c_destructor f with Some "public" => r1 | des => put "destructor_visibility" (KText des) r1 end)
  else Ok r.
