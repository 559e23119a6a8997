(** Concrete reverse wrappers used by the non-vacuity examples. *)
From Verif.Model Require Import Py CodeBlock Params MiniC ForwardWrapper ReverseWrapper Demo.
Open Scope string_scope.

(** inttype.py:36-38 (an int passed to Python), an object made for the call (cppclass.py reverse parameters),
    inttype.py:125-136 (an int returned from Python, with a range check) and a void return value. *)
Definition rint_param (n : string) : handler := {| h_acts := [XBuild (built "i" n) false]; h_raise := None |}.
Definition robj_param (r : nat) (n : string) : handler :=
  {| h_acts := [XDeclare "PyFoo *" ("py_" ++ n) None None;
                XCheck Before (check_acquire r ("!(py_" ++ n ++ " = PyObject_New())")) None;
                XCleanup Before (release r ("Py_DECREF(py_" ++ n ++ ");"));
                XBuild (built "O" ("py_" ++ n)) false]; h_raise := None |}.
Definition rint_return : handler :=
  {| h_acts := [XParse (named "i" "retval" false) true;
                XCheck After (local "retval > 0x7fff") (Some (py_frag "PyErr_SetString(PyExc_ValueError, ""Out of range"");"))];
     h_raise := None |}.
Definition rvoid_return : handler :=
  {| h_acts := [XParse {| p_template := ""; p_values := []; p_name := None; p_optional := false |} true]; h_raise := None |}.

Definition ret_stmt (t : string) : frag := {| f_text := "return " ++ t ++ ";"; f_acts := [AReturn t]; f_pass := [] |}.
Definition demo_proxy (void concrete trivial : bool) : proxy :=
  {| x_class := "Foo"; x_method := "bar"; x_struct := "PyFoo"; x_void := void; x_call_params := "a, b";
     x_concrete := concrete; x_trivial := trivial; x_c_error_return := ret_stmt "";
     x_this := "(Foo*) this"; x_params := [rint_param "a"; robj_param 5 "b"];
     x_return := if void then rvoid_return else rint_return;
     x_retval_type := if void then None else Some "int16_t" |}.
Definition proxy_body (x : proxy) : list (item frag) := match virtual_proxy x with Ok s => rbody s | Err _ => [] end.

Definition demo_setter : setter :=
  {| t_return := {| h_acts := [XDeclare "int" "tmp" None None; XParse (named "i" "tmp" false) true;
                               XCheck After (local "tmp > 0x7fff") (Some (py_frag "PyErr_SetString(...)"))]; h_raise := None |};
     t_predeclare := [XDeclare "int16_t" "tmp_value" None None];
     t_after := [{| f_text := "self->obj->set(tmp_value);"; f_acts := [ACpp "set"]; f_pass := [] |}];
     t_error := ret_stmt "-1"; t_success := ret_stmt "0" |}.
Definition setter_body (t : setter) : list (item frag) := match setter_code t with Ok s => rbody s | Err _ => [] end.
