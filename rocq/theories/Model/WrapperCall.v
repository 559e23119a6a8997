(** How a call from Python reaches the parsing code of a generated wrapper: the interpreter's calling
    convention (PyArgs.call_by_flags) and the C function named in the emitted condition
    (base.py:897-922, as modelled by ForwardWrapper.generate_parse). *)
From Verif.Model Require Import Py CodeBlock Params PyArgs MiniC ForwardWrapper.
Open Scope list_scope.

Section Call.
  Context {V W : Type} (conv : string -> V -> option W).

  (** The arguments of the emitted call are the format and keyword list of [items]
      (the text is given by C09); the function is the one named in the text. *)
  Definition parse_code (s : wstate) (items : list pitem) (args : list V) (kwargs : dict V) : option (list (option W)) :=
    match block_out s before_parse with
    | [ICheck cnd _] =>
        match parse_template items false, get_keywords items with
        | Ok fmt, Ok kw =>
            if String.prefix "!PyArg_ParseTupleAndKeywords(" (f_text cnd)
            then PyArgs.parse_tuple_and_keywords conv fmt (match kw with Some l => l | None => [] end) args kwargs
            else parse_tuple_only conv fmt args
        | _, _ => None
        end
    | _ => Some (map (fun _ => None) items)
    end.

  Definition python_call (s : wstate) (items : list pitem) (args : list V) (kwargs : dict V) : option (list (option W)) :=
    call_by_flags (w_flags s) args kwargs (parse_code s items).
End Call.

(** Python/modsupport.c Py_BuildValue for a format of n units (trusted): None, the value, or a tuple. *)
Definition py_build_value {V : Type} (none : V) (tuple : list V -> V) (values : list V) : V :=
  match values with [] => none | [v] => v | l => tuple l end.
