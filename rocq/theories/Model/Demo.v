(** Concrete wrapper configurations used by the non-vacuity examples.  They follow the shape of code the
    type handlers of /repo write: e.g. a converter check acquiring a temporary (stringtype/container
    handlers), a class return value (cppclass.py:3259-3274) and a C++ call. *)
From Verif.Model Require Import Py CodeBlock Params MiniC ForwardWrapper.
Open Scope string_scope.


Definition local (t : string) : frag := {| f_text := t; f_acts := [ALocal t]; f_pass := [] |}.
Definition ret_null : frag := {| f_text := "return NULL;"; f_acts := [AReturn "NULL"]; f_pass := [] |}.
Definition release (r : nat) (t : string) : frag := {| f_text := t; f_acts := [ARelease r]; f_pass := [] |}.
Definition acquire (r : nat) (t : string) : frag := {| f_text := t; f_acts := [ALocal t; AAcquire r]; f_pass := [] |}.
Definition check_acquire (r : nat) (t : string) : frag := {| f_text := t; f_acts := [APy t]; f_pass := [AAcquire r] |}.

Definition named (t n : string) (opt : bool) : pitem :=
  {| p_template := t; p_values := ["&" ++ n]; p_name := Some n; p_optional := opt |}.
Definition built (t v : string) : bitem := {| b_template := t; b_values := [v]; b_cleanup := None |}.

(** An int parameter (inttype.py:22-32), an object parameter with a temporary, an out parameter. *)
Definition int_param (n : string) (opt : bool) : handler :=
  {| h_acts := [XDeclare "int" n None None; XParse (named "i" n opt) false; XCallParam n]; h_raise := None |}.
Definition temp_param (r : nat) (n : string) : handler :=
  {| h_acts := [XDeclare "PyObject *" n None None; XParse (named "O" n false) false;
                XCode Before (acquire r ("tmp_" ++ n ++ " = malloc(1);"));
                XCleanup Before (release r ("free(tmp_" ++ n ++ ");"));
                XCheck Before (py_frag ("!convert(" ++ n ++ ")")) None; XCallParam ("tmp_" ++ n)];
     h_raise := None |}.
Definition out_param (n : string) : handler :=
  {| h_acts := [XDeclare "int" n None None; XCallParam ("&" ++ n); XBuild (built "i" n) false]; h_raise := None |}.
Definition object_return (r : nat) : handler :=
  {| h_acts := [XDeclare "PyFoo *" "py_Foo" None None;
                XCheck After (check_acquire r "!(py_Foo = PyObject_New())") None;
                XCleanup After (release r "Py_DECREF(py_Foo);");
                XBuild (built "O" "py_Foo") true]; h_raise := None |}.

Definition demo (params : list handler) (ret : option handler) (unblock : bool) (throws : list (frag * frag)) : config :=
  {| c_parse_error := ret_null; c_error := ret_null; c_params := params; c_return := ret; c_have_return := true;
     c_retval_type := None; c_force_parse := None; c_unblock := unblock; c_deprecated := Some "old";
     c_precall := []; c_postcall := []; c_call_text := fun a => "foo(" ++ join ", " a ++ ");";
     c_call_acts := [ACpp "foo"]; c_throw := throws; c_catch_value := "NULL" |}.

Definition exc_a : frag * frag := (local "A", py_frag "PyErr_SetNone((PyObject *) PyA_Type);").
Definition exc_b : frag * frag := (local "B", py_frag "PyErr_SetNone((PyObject *) PyB_Type);").
Definition demo1 : config :=
  demo [int_param "x" false; temp_param 1 "y"; temp_param 2 "z"; out_param "w"] (Some (object_return 3)) true [exc_a; exc_b].

(** cppclass.py:3769-3773: a NULL pointer is returned as None by an early return written as plain code. *)
Definition null_early_return : handler :=
  {| h_acts := [XIf After (local "!(retval)") [py_frag "Py_INCREF(Py_None);";
                  {| f_text := "return Py_None;"; f_acts := [AReturn "Py_None"]; f_pass := [] |}];
                XBuild (built "N" "py_Foo") true]; h_raise := None |}.
Definition demo_null : config := demo [temp_param 1 "y"; out_param "w"] (Some null_early_return) false [].

(** stringtype.py:171-178: StdStringPtrParam with ownership transfer allocates in the declaration
    ([new std::string] as initialiser: modelled as an acquisition at the start of the before-call code, which
    is the latest it can happen) and registers no cleanup; a later check leaks it. *)
Definition string_ptr_transfer (r : nat) (n : string) : handler :=
  {| h_acts := [XCode Before (acquire r (n ++ "_std = new std::string;")); XParse (named "s#" n false) false;
                XCallParam (n ++ "_std")]; h_raise := None |}.
Definition demo_string_ptr : config := demo [string_ptr_transfer 1 "s"; temp_param 2 "y"] (Some (object_return 3)) false [].

(** A return handler that registers a before-call cleanup after an after-call check was written. *)
Definition late_cleanup_return : handler :=
  {| h_acts := [XCheck After (py_frag "check()") None; XCode Before (acquire 7 "late = malloc(1);");
                XCleanup Before (release 7 "free(late);"); XBuild (built "i" "retval") true]; h_raise := None |}.
Definition demo_late : config := demo [] (Some late_cleanup_return) false [].

Definition body_of (c : config) : list (item frag) :=
  match generate_body c (init_state c) with Ok s => body s | Err _ => [] end.
(** The oracle that answers [k] at item [n] and 0 elsewhere. *)
Definition choose (n k : nat) : nat -> nat := fun i => if Nat.eqb i n then k else 0.
