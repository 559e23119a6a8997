(** Model of ForwardWrapperBase (/repo/pybindgen/typehandlers/base.py:689-990) and of
    Function.generate_call (/repo/pybindgen/function.py:178-222).

    Type handlers are arbitrary: a handler is the sequence of calls it makes on the wrapper, and then
    possibly an exception.  Everything proved about wrappers is quantified over these sequences. *)
From Verif.Model Require Import Py CodeSink Decls CodeBlock Params MiniC.
Open Scope string_scope.
Open Scope py_scope.

(** The code blocks handlers write to (base.py:767-771). *)
Inductive which : Type := Before | After.
Definition before_parse := 0.
Definition before_call := 1.
Definition after_call := 2.
Definition blk (w : which) : nat := match w with Before => before_call | After => after_call end.

(** Calls a handler makes on the wrapper it is given. *)
Inductive hact : Type :=
| XDeclare (type_ name : string) (initializer array : option string) (* wrapper.declarations *)
| XReserve (name : string)
| XCode (w : which) (f : frag)                       (* write_code *)
| XIndent (w : which) (n : Z) | XUnindent (w : which)
| XIf (w : which) (c : frag) (body : list frag)      (* an if statement written with write_code *)
| XCheck (w : which) (c : frag) (fail : option frag) (* write_error_check *)
| XErrorReturn (w : which)                           (* write_error_return *)
| XCleanup (w : which) (f : frag)                    (* add_cleanup_code *)
| XCancel (w : which) (pos : nat)
| XParse (i : pitem) (prepend : bool)                (* parse_params.add_parameter *)
| XBuild (i : bitem) (prepend : bool)                (* build_params.add_parameter *)
| XCallParam (s : string).                           (* call_params.append *)

Record handler : Type := { h_acts : list hact; h_raise : option pyexc }.

(** Attributes of a wrapper that change during generation (base.py:766-776). *)
Record wstate : Type := {
  w_decls : scopes;
  w_blocks : store frag;
  w_parse : list pitem;
  w_build : list bitem;
  w_call : list string;
  w_flags : list string }.

(** Fixed configuration of a wrapper. *)
Record config : Type := {
  c_parse_error : frag;               (* parse_error_return *)
  c_error : frag;                     (* error_return *)
  c_params : list handler;            (* parameters, in order *)
  c_return : option handler;          (* return_value *)
  c_have_return : bool;               (* HAVE_RETURN_VALUE *)
  c_retval_type : option string;      (* type of the 'retval' variable when it is declared *)
  c_force_parse : option nat;         (* force_parse: 1 or 2 *)
  c_unblock : bool;                   (* unblock_threads *)
  c_deprecated : option string;       (* deprecated: the message *)
  c_precall : list hact;              (* _before_call_hook *)
  c_postcall : list hact;             (* _before_return_hook *)
  c_call_text : list string -> string;(* the C call, given the call parameters *)
  c_call_acts : list act;
  c_throw : list (frag * frag);       (* declared exceptions: type name, conversion code *)
  c_catch_value : string }.           (* returned by catch clauses: NULL, or -1 in constructors *)

Definition parse_tuple := 1.
Definition parse_tuple_and_keywords := 2.

Definition py_frag (t : string) : frag := {| f_text := t; f_acts := [APy t]; f_pass := [] |}.

(** base.py:787-798 _init_code_generation_state *)
Definition init_decls (c : config) : scopes :=
  let s := scopes_init in
  let ret := match c_return c with Some _ => true | None => c_have_return c end in
  let s := if ret then fst (declare_variable s 0 "PyObject*" "py_retval" None None) else s in
  let s := match c_retval_type c with
           | Some t => fst (declare_variable s 0 t "retval" None None)
           | None => s end in
  fst (reserve_variable (fst (reserve_variable s "args")) "kwargs").

(** base.py:738-785 __init__ *)
Definition init_state (c : config) : wstate :=
  {| w_decls := init_decls c;
     w_blocks := [new_block None (c_parse_error c); new_block (Some before_parse) (c_parse_error c);
                  new_block (Some before_call) (c_error c)];
     w_parse := []; w_build := []; w_call := []; w_flags := [] |}.

Definition set_blocks (s : wstate) (b : store frag) : wstate :=
  {| w_decls := w_decls s; w_blocks := b; w_parse := w_parse s; w_build := w_build s;
     w_call := w_call s; w_flags := w_flags s |}.
Definition set_decls (s : wstate) (d : scopes) : wstate :=
  {| w_decls := d; w_blocks := w_blocks s; w_parse := w_parse s; w_build := w_build s;
     w_call := w_call s; w_flags := w_flags s |}.
Definition add_flag (s : wstate) (f : string) : wstate :=
  {| w_decls := w_decls s; w_blocks := w_blocks s; w_parse := w_parse s; w_build := w_build s;
     w_call := w_call s; w_flags := (w_flags s ++ [f])%list |}.

Definition on_blocks (s : wstate) (r : res (store frag)) : res wstate :=
  b <- r ;; Ok (set_blocks s b).

(** base.py:800-809 reset_code_generation_state.  CodeBlock.clear keeps predecessor and error return. *)
Definition reset_state (c : config) (s : wstate) : wstate :=
  {| w_decls := init_decls c;
     w_blocks := map (fun k => new_block (pred k) (err_ret k)) (w_blocks s);
     w_parse := []; w_build := []; w_call := []; w_flags := [] |}.

(** One call of a handler. *)
Definition hstep (s : wstate) (a : hact) : res wstate :=
  match a with
  | XDeclare t n i arr =>
      let (d, r) := declare_variable (w_decls s) 0 t n i arr in
      _ <- r ;; Ok (set_decls s d)
  | XReserve n => Ok (set_decls s (fst (reserve_variable (w_decls s) n)))
  | XCode w f => on_blocks s (emit (w_blocks s) (blk w) [ICode f])
  | XIndent w n => on_blocks s (emit (w_blocks s) (blk w) [IIndent n])
  | XUnindent w => on_blocks s (emit (w_blocks s) (blk w) [IUnindent])
  | XIf w c b => on_blocks s (emit (w_blocks s) (blk w) [IIf c b])
  | XCheck w c f => on_blocks s (write_error_check (w_blocks s) (blk w) c f)
  | XErrorReturn w => on_blocks s (write_error_return (w_blocks s) (blk w))
  | XCleanup w f => x <- add_cleanup_code (w_blocks s) (blk w) f ;; Ok (set_blocks s (fst x))
  | XCancel w p => on_blocks s (remove_cleanup_code (w_blocks s) (blk w) p)
  | XParse i pre =>
      Ok {| w_decls := w_decls s; w_blocks := w_blocks s; w_parse := fst (parse_add (w_parse s) i pre);
            w_build := w_build s; w_call := w_call s; w_flags := w_flags s |}
  | XBuild i pre =>
      Ok {| w_decls := w_decls s; w_blocks := w_blocks s; w_parse := w_parse s;
            w_build := build_add (w_build s) i pre; w_call := w_call s; w_flags := w_flags s |}
  | XCallParam t =>
      Ok {| w_decls := w_decls s; w_blocks := w_blocks s; w_parse := w_parse s;
            w_build := w_build s; w_call := (w_call s ++ [t])%list; w_flags := w_flags s |}
  end.

Fixpoint hrun (s : wstate) (l : list hact) : res wstate :=
  match l with
  | [] => Ok s
  | a :: r => s' <- hstep s a ;; hrun s' r
  end.

(** base.py:872-878 and 934-940: NotImplementedError is reported as CodeGenerationError. *)
Definition convert (s : wstate) (h : handler) : res wstate :=
  match hrun s (h_acts h), h_raise h with
  | Ok s', None => Ok s'
  | Ok _, Some NotImplementedError => Err CodeGenerationError
  | Ok _, Some e => Err e
  | Err NotImplementedError, _ => Err CodeGenerationError
  | Err e, _ => Err e
  end.
Fixpoint convert_all (s : wstate) (l : list handler) : res wstate :=
  match l with
  | [] => Ok s
  | h :: r => s' <- convert s h ;; convert_all s' r
  end.

(** function.py:178-222 generate_call: the call, wrapped in try/catch when exceptions are declared;
    cppmethod.py:239-306 and 644-700 (methods, constructors) have the same shape.  Simplification: the code of
    the call itself (several statements for constructors of classes with a helper class) is one fragment. *)
Definition generate_call (c : config) (s : wstate) : res wstate :=
  let call := {| f_text := c_call_text c (w_call s); f_acts := c_call_acts c; f_pass := [] |} in
  match c_throw c with
  | [] => on_blocks s (emit (w_blocks s) before_call [ICode call])
  | throws =>
      let ret := {| f_text := "return " ++ c_catch_value c ++ ";"; f_acts := [AReturn (c_catch_value c)]; f_pass := [] |} in
      on_blocks s (emit (w_blocks s) before_call
        [ITry [call] (map (fun e => (fst e, (cleanup_code (w_blocks s) before_call ++ [snd e; ret])%list)) throws)])
  end.

(** [params == ['""']] *)
Definition params_are_empty (params : list string) : bool :=
  match params with [x] => String.eqb x (dquote ++ dquote) | _ => false end.

(** The condition of the parse check (base.py:907-909, 917-919). *)
Definition parse_cond (callee : string) (args : list string) : frag :=
  py_frag ("!" ++ callee ++ "(" ++ join ", " args ++ ")").
Definition prefix_head (p : list string) : list string :=
  match p with [] => [] | x :: r => ("(char *) " ++ x) :: r end.
Definition quoted (s : string) : string := dquote ++ s ++ dquote.

(** base.py:897-922: the argument parsing code and the method flags. *)
Definition generate_parse (c : config) (s : wstate) : res wstate :=
  params <- parse_get_parameters (w_parse s) ;;
  let params_empty := params_are_empty params in
  let params := prefix_head params in
  keywords <- get_keywords (w_parse s) ;;
  if negb params_empty || match c_force_parse c with Some _ => true | None => false end then
    let s := add_flag s "METH_VARARGS" in
    if match keywords with None => true | Some _ => false end
       && negb (match c_force_parse c with Some f => Nat.eqb f parse_tuple_and_keywords | None => false end)
    then
      on_blocks s (write_error_check (w_blocks s) before_parse
                     (parse_cond "PyArg_ParseTuple" ("args" :: params)) None)
    else
      let kws := match keywords with None => [] | Some k => k end in
      let (d, r) := declare_variable (w_decls s) 0 "const char *" "keywords"
                      (Some ("{" ++ join ", " (map quoted kws ++ ["NULL"])%list ++ "}")) (Some "[]") in
      kwvar <- r ;;
      let s := set_decls s d in
      let plist := match params with
                   | [] => ["args"; "kwargs"]
                   | x :: r => "args" :: "kwargs" :: x :: ("(char **) " ++ kwvar) :: r end in
      s <- on_blocks s (write_error_check (w_blocks s) before_parse
                          (parse_cond "PyArg_ParseTupleAndKeywords" plist) None) ;;
      Ok (add_flag s "METH_KEYWORDS")
  else Ok (add_flag s "METH_NOARGS").

(** base.py:944-957: the value built and returned.  get_parameters never returns an empty list. *)
Definition build_result (s : wstate) : res wstate :=
  let params := build_get_parameters (w_build s) false in
  let empty := params_are_empty params in
  let code := if empty then [ICode (py_frag "Py_INCREF(Py_None);"); ICode (py_frag "py_retval = Py_None;")]
              else [ICode (py_frag ("py_retval = Py_BuildValue(" ++ join ", " (prefix_head params) ++ ");"))] in
  s <- on_blocks s (emit (w_blocks s) after_call code) ;;
  s <- on_blocks s (write_cleanup (w_blocks s) after_call) ;;
  on_blocks s (emit (w_blocks s) after_call
    [ICode {| f_text := "return py_retval;"; f_acts := [AReturn "py_retval"]; f_pass := [] |}]).

Definition thread_var (s : wstate) : res (wstate * string) :=
  let (d, r) := declare_variable (w_decls s) 0 "PyThreadState*" "py_thread_state" (Some "NULL") None in
  v <- r ;; Ok (set_decls s d, v).

(** base.py:860-964 generate_body, up to flushing the blocks. *)
Definition generate_body (c : config) (s : wstate) : res wstate :=
  (* 865-869 *)
  sv <- (if c_unblock c then
           sv <- thread_var s ;;
           let (s, v) := sv in
           s <- on_blocks s (emit (w_blocks s) after_call
                  [ICode {| f_text := nl ++ "if (" ++ v ++ ")" ++ nl ++ "     PyEval_RestoreThread(" ++ v ++ ");" ++ nl;
                            f_acts := [ARestoreThread]; f_pass := [] |}]) ;;
           Ok (s, v)
         else Ok (s, "")) ;;
  let (s, v) := (sv : wstate * string) in
  (* 871-879 *)
  s <- convert_all s (c_params c) ;;
  (* 880-885 *)
  s <- (match c_deprecated c with
        | Some msg => on_blocks s (write_error_check (w_blocks s) before_call
             (py_frag ("PyErr_Warn(PyExc_DeprecationWarning, (char *) " ++ quoted msg ++ ")")) None)
        | None => Ok s end) ;;
  (* 887 *)
  s <- hrun s (c_precall c) ;;
  (* 889-893 *)
  s <- (if c_unblock c then
          on_blocks s (emit (w_blocks s) before_call
            [ICode {| f_text := nl ++ "if (PyEval_ThreadsInitialized ())" ++ nl ++ "     " ++ v
                                ++ " = PyEval_SaveThread();" ++ nl;
                      f_acts := [ASaveThread]; f_pass := [] |}])
        else Ok s) ;;
  (* 895 *)
  s <- generate_call c s ;;
  (* 897-922 *)
  s <- generate_parse c s ;;
  (* 924-957 *)
  match c_return c, c_have_return c with
  | None, false =>
      if params_are_empty (build_get_parameters (w_build s) false) then
        s <- hrun s (c_postcall c) ;;
        on_blocks s (write_cleanup (w_blocks s) after_call)
      else Err AssertionError
  | ret, _ =>
      s <- (match ret with Some h => convert s h | None => Ok s end) ;;
      s <- hrun s (c_postcall c) ;;
      build_result s
  end.

(** base.py:959-964: the text order of the blocks in the wrapper function. *)
Definition block_out (s : wstate) (b : nat) : list (item frag) :=
  match nth_error (w_blocks s) b with Some k => out k | None => [] end.
Definition body (s : wstate) : list (item frag) :=
  (block_out s before_parse ++ block_out s before_call ++ block_out s after_call)%list.
