(** Model of ReverseWrapperBase (/repo/pybindgen/typehandlers/base.py:514-685), CppVirtualMethodProxy
    (/repo/pybindgen/cppmethod.py:999-1130), the attribute setters (/repo/pybindgen/cppattribute.py:122-240) and
    PythonToCConverter (/repo/pybindgen/converter_functions.py:10-88).

    Simplification: reverse wrappers have two blocks, before_call and after_call; here they keep the indices they
    have in forward wrappers (1 and 2), and block 0 stays empty: nothing is ever written to it or registered
    on it.  The lock taken by PyGILState_Ensure is resource [gil] (0). *)
From Verif.Model Require Import Py CodeSink Decls CodeBlock Params MiniC ForwardWrapper.
Open Scope string_scope.
Open Scope py_scope.

Definition gil_resource : nat := 0.
Definition ensure_frag : frag :=
  {| f_text := "__py_gil_state = (PyEval_ThreadsInitialized() ? PyGILState_Ensure() : (PyGILState_STATE) 0);";
     f_acts := [AAcquire gil_resource]; f_pass := [] |}.
Definition gil_release_frag : frag :=
  {| f_text := "if (PyEval_ThreadsInitialized())" ++ nl ++ "    PyGILState_Release(__py_gil_state);";
     f_acts := [ARelease gil_resource]; f_pass := [] |}.

Definition rblocks (err : frag) : store frag :=
  [new_block None err; new_block (Some before_parse) err; new_block (Some before_call) err].

(** base.py:544-569 __init__, without the lock code. *)
Definition rinit (err : frag) : wstate :=
  {| w_decls := scopes_init; w_blocks := rblocks err; w_parse := []; w_build := []; w_call := []; w_flags := [] |}.

(** base.py:583-591 _generate_gil_code.  The variable is the first one declared, so it gets its own name. *)
Definition gil_code (no_gil_locking : bool) : list hact :=
  if no_gil_locking then []
  else [XDeclare "PyGILState_STATE" "__py_gil_state" None None; XCode Before ensure_frag; XCleanup Before gil_release_frag].

(** base.py:571-574 set_error_return (and that of the block 0 of the model, which has no counterpart) *)
Definition rset_error_return (s : wstate) (e : frag) : res wstate :=
  b <- set_error_return (w_blocks s) before_parse e ;;
  b <- set_error_return b before_call e ;;
  b <- set_error_return b after_call e ;;
  Ok (set_blocks s b).

Record rconfig : Type := {
  r_params : list handler;            (* convert_c_to_python of the parameters *)
  r_return : handler;                 (* convert_python_to_c of the return value *)
  r_retval_type : option string;      (* type of 'retval' when it is declared *)
  r_return_stmt : frag;               (* 'return;' or 'return retval;' *)
  r_call : list string -> list hact } (* generate_python_call, given build_params.get_parameters() *).

(** base.py:619-621: the assertion that the variable got the name py_retval. *)
Definition declare_exact (s : wstate) (t n : string) : res wstate :=
  let (d, r) := declare_variable (w_decls s) 0 t n None None in
  v <- r ;;
  if String.eqb v n then Ok (set_decls s d) else Err AssertionError.

(** Handlers run without the NotImplementedError translation of forward wrappers. *)
Definition run_handler (s : wstate) (h : handler) : res wstate :=
  s <- hrun s (h_acts h) ;;
  match h_raise h with None => Ok s | Some e => Err e end.
Fixpoint run_handlers (s : wstate) (l : list handler) : res wstate :=
  match l with
  | [] => Ok s
  | h :: r => s' <- run_handler s h ;; run_handlers s' r
  end.

(** base.py:642-658: the check of the Python result. *)
Definition result_check (s : wstate) : res (list hact) :=
  e <- parse_is_empty (w_parse s) ;;
  if e then
    Ok [XCheck Before (py_frag "py_retval != Py_None")
          (Some (py_frag ("PyErr_SetString(PyExc_TypeError, " ++ quoted "function/method should return None" ++ ");")))]
  else
    p <- parse_get_parameters (w_parse s) ;;
    Ok [XCode Before (py_frag ("py_retval = Py_BuildValue((char*) " ++ quoted "(N)" ++ ", py_retval);"));
        XCheck Before (parse_cond "PyArg_ParseTuple" ("py_retval" :: prefix_head p)) (Some (py_frag "PyErr_Print();"))].

(** base.py:601-664 generate, up to writing out the text. *)
Definition rgenerate (r : rconfig) (s : wstate) : res wstate :=
  s <- declare_exact s "PyObject*" "py_retval" ;;
  s <- (match r_retval_type r with
        | Some t => hstep s (XDeclare t "retval" None None)
        | None => Ok s end) ;;
  s <- run_handlers s (r_params r) ;;
  s <- hrun s (r_call r (build_get_parameters (w_build s) false)) ;;
  s <- run_handler s (r_return r) ;;
  chk <- result_check s ;;
  s <- hrun s chk ;;
  s <- on_blocks s (write_cleanup (w_blocks s) after_call) ;;
  on_blocks s (emit (w_blocks s) after_call [ICode (r_return_stmt r)]).

(** The body of the function (base.py:677-681). *)
Definition rbody (s : wstate) : list (item frag) :=
  (block_out s before_call ++ block_out s after_call)%list.

(** A reverse wrapper: construction followed by generation. *)
Definition reverse_wrapper (err : frag) (r : rconfig) : res wstate :=
  s <- hrun (rinit err) (gil_code false) ;;
  rgenerate r s.

(** cppmethod.py:999-1130 CppVirtualMethodProxy.  Resources: the py_method reference, the object pointer of the
    Python instance (acquired when it is redirected to [this], released when it is restored) and py_retval. *)
Record proxy : Type := {
  x_class : string; x_method : string; x_struct : string;
  x_void : bool;
  x_call_params : string;             (* names of the parameters, comma separated *)
  x_concrete : bool;                  (* not (is_pure_virtual or visibility == 'private') *)
  x_trivial : bool;                   (* the return value is a class with a trivial constructor *)
  x_c_error_return : frag;            (* return_value.get_c_error_return() *)
  x_this : string;
  x_params : list handler;
  x_return : handler;
  x_retval_type : option string }.

Definition r_method : nat := 1.
Definition r_object : nat := 2.
Definition r_result : nat := 3.

Definition parent_call (x : proxy) : string := x_class x ++ "::" ++ x_method x ++ "(" ++ x_call_params x ++ ")".
Definition parent_stmt (x : proxy) : frag :=
  {| f_text := parent_call x ++ ";"; f_acts := [ACpp (parent_call x)]; f_pass := [] |}.
Definition parent_return (x : proxy) : frag :=
  {| f_text := "return " ++ parent_call x ++ ";"; f_acts := [ACpp (parent_call x); AReturn (parent_call x)]; f_pass := [] |}.
(** cppmethod.py:1091-1094; Py_FatalError does not return. *)
Definition fatal_return : frag :=
  {| f_text := nl ++ "PyErr_Print();" ++ nl ++ "Py_FatalError(...);";
     f_acts := [APy "PyErr_Print();"; AReturn "Py_FatalError"]; f_pass := [] |}.

(** cppmethod.py:1065-1097: the error return in force while the proxy is generated. *)
Definition proxy_error_return (x : proxy) : frag :=
  if x_void x then x_c_error_return x
  else if x_concrete x then parent_return x
  else if x_trivial x then x_c_error_return x
  else fatal_return.

(** cppmethod.py:1062-1077 *)
Definition lookup_code (x : proxy) : list hact :=
  [XDeclare "PyObject*" "py_method" None None;
   XCode Before {| f_text := "py_method = PyObject_GetAttrString(m_pyself, (char *) " ++ quoted (x_method x) ++ "); PyErr_Clear();";
                   f_acts := [APy "PyObject_GetAttrString"; AAcquire r_method]; f_pass := [] |};
   XCleanup Before {| f_text := "Py_XDECREF(py_method);"; f_acts := [ARelease r_method]; f_pass := [] |}].

(** cppmethod.py:1078-1105: when the subclass does not override the method.  The statements written are the
    condition, for a void method the parent call, the pending cleanups and the error return: the same text as
    write_error_check gives.  (For a void method the error return is 'return;'.) *)
Definition no_override (x : proxy) : hact :=
  XCheck Before (py_frag "py_method == NULL || Py_TYPE(py_method) == &PyCFunction_Type")
    (if x_void x && x_concrete x then Some (parent_stmt x) else None).

(** cppmethod.py:1107-1121 *)
Definition object_code (x : proxy) : list hact :=
  [XDeclare (x_class x ++ "*") "self_obj_before" None None;
   XCode Before {| f_text := "self_obj_before = reinterpret_cast< " ++ x_struct x ++ "* >(m_pyself)->obj;";
                   f_acts := [ALocal "save obj"]; f_pass := [] |};
   XCode Before {| f_text := "reinterpret_cast< " ++ x_struct x ++ "* >(m_pyself)->obj = " ++ x_this x ++ ";";
                   f_acts := [AAcquire r_object]; f_pass := [] |};
   XCleanup Before {| f_text := "reinterpret_cast< " ++ x_struct x ++ "* >(m_pyself)->obj = self_obj_before;";
                      f_acts := [ARelease r_object]; f_pass := [] |}].

(** cppmethod.py:1025-1039 generate_python_call *)
Definition override_call (x : proxy) (build : list string) : list hact :=
  let args := "m_pyself" :: ("(char *) " ++ quoted (x_method x)) :: prefix_head build in
  [XCode Before {| f_text := "py_retval = PyObject_CallMethod(" ++ join ", " args ++ ");";
                   f_acts := [APy "PyObject_CallMethod"]; f_pass := [] |};
   XCheck Before {| f_text := "py_retval == NULL"; f_acts := []; f_pass := [AAcquire r_result] |}
     (Some (py_frag "PyErr_Print();"));
   XCleanup Before {| f_text := "Py_DECREF(py_retval);"; f_acts := [ARelease r_result]; f_pass := [] |}].

Definition proxy_config (x : proxy) : rconfig :=
  {| r_params := x_params x; r_return := x_return x; r_retval_type := x_retval_type x;
     r_return_stmt := if x_void x then {| f_text := "return;"; f_acts := [AReturn ""]; f_pass := [] |}
                      else {| f_text := "return retval;"; f_acts := [AReturn "retval"]; f_pass := [] |};
     r_call := override_call x |}.

(** cppmethod.py:1052-1127 generate *)
Definition virtual_proxy (x : proxy) : res wstate :=
  s <- hrun (rinit (x_c_error_return x)) (gil_code false) ;;
  s <- hrun s (lookup_code x) ;;
  s <- (if x_void x then Ok s else rset_error_return s (proxy_error_return x)) ;;
  s <- hstep s (no_override x) ;;
  s <- hrun s (object_code x) ;;
  rgenerate (proxy_config x) s.

(** cppattribute.py:145-190 and 219-240 (setters, which return 0 or -1) and converter_functions.py:35-66
    (converters, which return 1 or 0): no lock code; the value is packed in a tuple and parsed. *)
Record setter : Type := {
  t_return : handler;                 (* convert_python_to_c of the value *)
  t_predeclare : list hact;           (* the temporary variable of a setter method *)
  t_after : list frag;                (* the call of the setter method *)
  t_error : frag;                     (* 'return -1;' or 'return 0;' *)
  t_success : frag }.
Definition pack_code : list hact :=
  [XDeclare "PyObject*" "py_retval" None None;
   XCode Before {| f_text := "py_retval = Py_BuildValue((char *) " ++ quoted "(O)" ++ ", value);";
                   f_acts := [APy "Py_BuildValue"; AAcquire r_result]; f_pass := [] |};
   XCleanup Before {| f_text := "Py_DECREF(py_retval);"; f_acts := [ARelease r_result]; f_pass := [] |}].
Definition setter_code (t : setter) : res wstate :=
  s <- hrun (rinit (t_error t)) (gil_code true) ;;
  s <- hrun s (pack_code ++ t_predeclare t)%list ;;
  s <- run_handler s (t_return t) ;;
  p <- parse_get_parameters (w_parse s) ;;
  s <- hstep s (XCheck Before (parse_cond "PyArg_ParseTuple" ("py_retval" :: prefix_head p)) None) ;;
  s <- hrun s (map (XCode After) (t_after t)) ;;
  s <- on_blocks s (write_cleanup (w_blocks s) after_call) ;;
  on_blocks s (emit (w_blocks s) after_call [ICode (t_success t)]).
