(** Model of the code of overload aggregators (/repo/pybindgen/overloading.py:150-235): the delegates' parse error
    return, and the function that tries the delegates in turn. *)
From Verif.Model Require Import Py CodeBlock MiniC Overloading ForwardWrapper.
Open Scope string_scope.
Open Scope list_scope.

(** overloading.py:168-176: set_parse_error_return of a delegate.  The exception value is handed to the caller
    through the extra parameter and no error is left pending. *)
Definition fetch : act := APy "PyErr_Fetch".
Definition error_return_code (value : string) : string := "return " ++ value ++ ";".
Definition fetch_return (value : string) : frag :=
  {| f_text := "{" ++ nl ++ "    PyObject *exc_type, *traceback;" ++ nl ++
               "    PyErr_Fetch(&exc_type, return_exception, &traceback);" ++ nl ++
               "    Py_XDECREF(exc_type);" ++ nl ++ "    Py_XDECREF(traceback);" ++ nl ++ "}" ++ nl ++ error_return_code value;
     f_acts := [fetch; APy "Py_XDECREF(exc_type)"; APy "Py_XDECREF(traceback)"; AReturn value];
     f_pass := [] |}.

(** Statements of the aggregator function. *)
Inductive stmt : Type :=
| SCall (i : nat) (name : string)      (* retval = name(self, args, kwargs, &exceptions[i]); *)
| SIfNull (i : nat) (body : list stmt) (* if (!exceptions[i]) { body } *)
| SDecref (i : nat)                    (* Py_DECREF(exceptions[i]); *)
| SReturnRetval                        (* return retval; *)
| SNewList (n : nat)                   (* error_list = PyList_New(n); *)
| SSetItem (j i : nat)                 (* PyList_SET_ITEM(error_list, j, PyObject_Str(exceptions[i])); *)
| SRaiseList                           (* PyErr_SetObject(PyExc_TypeError, error_list); *)
| SDropList                            (* Py_DECREF(error_list); *)
| SErrorReturn.                        (* ERROR_RETURN *)

(** overloading.py:207-225: the attempts; [number] is the index of the next delegate. *)
Fixpoint attempts (number : nat) (names : list string) : list stmt :=
  match names with
  | [] => []
  | d :: r => SCall number d :: SIfNull number (map SDecref (seq 0 number) ++ [SReturnRetval]) :: attempts (S number) r
  end.
(** overloading.py:227-239: reached when every attempt failed. *)
Definition raise_all (n : nat) : list stmt :=
  SNewList n :: flat_map (fun i => [SSetItem i i; SDecref i]) (seq 0 n) ++ [SRaiseList; SDropList; SErrorReturn].
Definition aggregator (names : list string) : list stmt := attempts 0 names ++ raise_all (length names).

(** The text of these statements: overloading.py:198-239. *)
Definition num (n : nat) : string := decimal (N.of_nat n).
Fixpoint render_stmt (args : list string) (error_return : string) (s : stmt) : list string :=
  match s with
  | SCall i name => ["retval = " ++ name ++ "(" ++ join ", " (args ++ [("&exceptions[" ++ num i ++ "]")%string])%list ++ ");"]
  | SIfNull i body =>
      ("if (!exceptions[" ++ num i ++ "]) {") ::
      (map (fun l => "    " ++ l)%string (flat_map (render_stmt args error_return) body) ++ ["}"])%list
  | SDecref i => ["Py_DECREF(exceptions[" ++ num i ++ "]);"]
  | SReturnRetval => ["return retval;"]
  | SNewList n => ["error_list = PyList_New(" ++ num n ++ ");"]
  | SSetItem j i => ["PyList_SET_ITEM(error_list, " ++ num j ++ ", PyObject_Str(exceptions[" ++ num i ++ "]));"]
  | SRaiseList => ["PyErr_SetObject(PyExc_TypeError, error_list);"]
  | SDropList => ["Py_DECREF(error_list);"]
  | SErrorReturn => [error_return]
  end%string.
Definition aggregator_text (return_type pystruct name error_return : string) (varargs keywords : bool) (names : list string) : list string :=
  let extra := (if varargs then ["args"] else []) ++ (if keywords then ["kwargs"] else []) in
  let proto := join ", " ((pystruct ++ " *self") :: map (fun a => "PyObject *" ++ a) extra)%string in
  (return_type ++ " " ++ name ++ "(" ++ proto ++ ")")%string :: "{" ::
   map (fun l => "    " ++ l)%string
     ((return_type ++ " retval;")%string :: "PyObject *error_list;" ::
      ("PyObject *exceptions[" ++ num (length names) ++ "] = {0,};")%string ::
      flat_map (render_stmt ("self" :: extra) error_return) (aggregator names)) ++ ["}"].

(** ** Meaning *)
(** What a delegate does when called: its argument conversion fails and it hands over the exception value it
    fetched (which CPython allows to be NULL), or it completes, returning [value] (None for NULL) with
    [pending] the Python error it leaves set. *)
Inductive attempt (V : Type) : Type :=
| Rejected (exc : option V)
| Completed (value : option V) (pending : option V).
Arguments Rejected {V} exc.
Arguments Completed {V} value pending.

Section Run.
  Context {V : Type}.
  (** The Python error left by the aggregator: none, one left by a delegate, or TypeError with a list of the texts of
      exceptions. *)
  Inductive error : Type := NoError | ByDelegate (e : V) | TypeErrorList (l : list (option V)).
  (** What is done to exception objects and the error list. *)
  Inductive event : Type :=
  | ECalled (name : string)
  | ESaved (e : V)       (* reference received from a delegate *)
  | EDropped (e : V)
  | ENewList | EDropList.
  Record cstate : Type := mk_cstate {
    cs_exceptions : list (option V);   (* exceptions[] *)
    cs_gone : list nat;                (* indices of the elements whose reference has been given up *)
    cs_retval : option (option V);     (* retval: None while uninitialised *)
    cs_list : option (list (option V));(* error_list: the exceptions whose texts it holds *)
    cs_error : error;
    cs_events : list event }.
  Inductive coutcome : Type :=
  | Running (s : cstate)
  | Finished (value : option V) (s : cstate)
  | Crashed.                           (* undefined behaviour: NULL dereference, index out of range *)

  Definition get_exception (s : cstate) (i : nat) : option (option V) := nth_error (cs_exceptions s) i.
  Fixpoint set_nth {A} (l : list A) (i : nat) (v : A) : list A :=
    match l, i with
    | [], _ => []
    | _ :: r, O => v :: r
    | x :: r, Datatypes.S j => x :: set_nth r j v
    end.
  Definition gone (s : cstate) (i : nat) : bool := existsb (Nat.eqb i) (cs_gone s).
  (** [d name] is what the delegate of that name does.  Simplifications: PyList_New and PyObject_Str succeed (their
      failure, out of memory, is not checked by the generated code). *)
  Variable d : string -> attempt V.
  Fixpoint exec_stmt (s : cstate) (x : stmt) : coutcome :=
    let fix exec_body (s : cstate) (l : list stmt) : coutcome :=
      match l with
      | [] => Running s
      | y :: r => match exec_stmt s y with Running s' => exec_body s' r | o => o end
      end in
    match x with
    | SCall i name =>
        match get_exception s i with
        | None => Crashed
        | Some _ =>
            match d name with
            | Rejected e =>
                Running (mk_cstate (set_nth (cs_exceptions s) i e) (cs_gone s) (Some None) (cs_list s) NoError
                           (cs_events s ++ ECalled name :: match e with Some v => [ESaved v] | None => [] end))
            | Completed v p =>
                Running (mk_cstate (cs_exceptions s) (cs_gone s) (Some v) (cs_list s) (match p with Some e => ByDelegate e | None => NoError end)
                           (cs_events s ++ [ECalled name]))
            end
        end
    | SIfNull i body =>
        match get_exception s i with
        | None => Crashed
        | Some None => exec_body s body
        | Some (Some _) => Running s
        end
    | SDecref i =>
        match get_exception s i with
        | Some (Some e) =>
            if gone s i then Crashed
            else Running (mk_cstate (cs_exceptions s) (i :: cs_gone s) (cs_retval s) (cs_list s) (cs_error s) (cs_events s ++ [EDropped e]))
        | _ => Crashed
        end
    | SReturnRetval => match cs_retval s with Some v => Finished v s | None => Crashed end
    | SNewList n => Running (mk_cstate (cs_exceptions s) (cs_gone s) (cs_retval s) (Some (repeat None n)) (cs_error s) (cs_events s ++ [ENewList]))
    | SSetItem j i =>
        match cs_list s, get_exception s i with
        | Some l, Some e =>
            if Nat.ltb j (length l) && negb (gone s i) then
              Running (mk_cstate (cs_exceptions s) (cs_gone s) (cs_retval s) (Some (set_nth l j e)) (cs_error s) (cs_events s))
            else Crashed
        | _, _ => Crashed
        end
    | SRaiseList =>
        match cs_list s with
        | Some l => Running (mk_cstate (cs_exceptions s) (cs_gone s) (cs_retval s) (cs_list s) (TypeErrorList l) (cs_events s))
        | None => Crashed
        end
    | SDropList => match cs_list s with
                   | Some _ => Running (mk_cstate (cs_exceptions s) (cs_gone s) (cs_retval s) None (cs_error s) (cs_events s ++ [EDropList]))
                   | None => Crashed
                   end
    | SErrorReturn => Finished None s
    end.
  Fixpoint exec_stmts (s : cstate) (l : list stmt) : coutcome :=
    match l with
    | [] => Running s
    | y :: r => match exec_stmt s y with Running s' => exec_stmts s' r | o => o end
    end.

  (** A call of the aggregator: 'PyObject *exceptions[n] = {0,};' *)
  Definition call_aggregator (names : list string) : coutcome :=
    exec_stmts (mk_cstate (repeat None (length names)) [] None None NoError []) (aggregator names).
End Run.
Arguments event : clear implicits.
Arguments cstate : clear implicits.
Arguments coutcome : clear implicits.
Arguments error : clear implicits.
