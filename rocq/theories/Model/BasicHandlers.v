(** Model of the handlers of the basic types (/repo/pybindgen/typehandlers: inttype.py through IntHandlers.v, booltype.py,
    doubletype.py, floattype.py, stringtype.py, pyobjecttype.py, voidtype.py), of the code they write for wrappers of C++
    functions, and of what that code does with Python values.
    Not modelled: arrays (array_length) of FloatPtrParam and UnsignedIntPtrParam, Glib::ustring, CStringReturn with
    free_after_copy, Python objects that are numbers through __index__ or __float__ only. *)
From Verif.Model Require Import Py Decls CodeBlock Params MiniC ForwardWrapper WrapperCall IntHandlers Utf8.
From Coq Require Import ZArith.
Open Scope string_scope.
Open Scope list_scope.
Local Open Scope Z_scope.

(** ** Values *)
(** C's double and float: (float) d, (double) f, conversion of an integer (None: OverflowError), and d != 0. *)
Record numerics : Type := mk_numerics {
  double : Type; single : Type;
  narrow : double -> single; widen : single -> double;
  of_int : Z -> option double; nonzero : double -> bool }.

Section Basic.
  Variable N : numerics.

  (** Python values; an object of a class not listed has an identity and a truth value (None: its __bool__ raises). *)
  Inductive pyv : Type :=
  | PInt (z : Z) | PBool (b : bool) | PFloat (d : double N) | PStr (l : list Z) | PBytes (l : list Z) | PNone
  | PTuple (l : list pyv) | PObj (id : nat) (truth : option bool).
  Definition truth (v : pyv) : option bool :=
    match v with
    | PInt z => Some (negb (z =? 0))
    | PBool b => Some b
    | PFloat d => Some (nonzero N d)
    | PStr l | PBytes l => Some (match l with [] => false | _ => true end)
    | PNone => Some false
    | PTuple l => Some (match l with [] => false | _ => true end)
    | PObj _ t => t
    end.
  Definition b2z (b : bool) : Z := if b then 1 else 0.
  (** A bool is an int. *)
  Definition as_int (v : pyv) : pyvalue := match v with PInt z => PyInt z | PBool b => PyInt (b2z b) | _ => PyOther end.

  (** C variables and their values; VJunk is the value of a variable that was not initialised.  A char pointer is NULL or
      points to bytes followed by a NUL; a std::string pointer to a string of its own is its contents. *)
  Inductive ctyp : Type := TInt (t : cint) | TBool | TDouble | TSingle | TChar | TCStr | TLen | TString | TNewString | TObject.
  Inductive cval : Type :=
  | VInt (z : Z) | VBool (b : bool) | VDouble (d : double N) | VSingle (f : single N) | VChar (c : Z)
  | VCStr (o : option (list Z)) | VLen (n : Z) | VString (l : list Z) | VObject (o : option pyv) | VJunk.

  (** The meaning of the type names. *)
  Definition other_types : list (string * ctyp) :=
    [("bool", TBool); ("double", TDouble); ("float", TSingle); ("char", TChar); ("const char *", TCStr); ("char*", TCStr); ("char *", TCStr);
     ("Py_ssize_t", TLen); ("std::string", TString); ("std::string*", TNewString); ("PyObject *", TObject); ("PyObject*", TObject)].
  Fixpoint find_other (n : string) (l : list (string * ctyp)) : option ctyp :=
    match l with
    | [] => None
    | (k, t) :: r => if String.eqb k n then Some t else find_other n r
    end.
  Definition resolve (p : platform) (n : string) : option ctyp :=
    match c_type p n with Some t => Some (TInt t) | None => find_other n other_types end.

  (** Assigning a value to a variable of a type; None: the types do not go together. *)
  Definition coerce (t : ctyp) (v : cval) : option cval :=
    match t, v with
    | TInt t, VInt z => Some (VInt (wrap t z))
    | TBool, VBool _ | TDouble, VDouble _ | TSingle, VSingle _ | TChar, VChar _ | TCStr, VCStr _ | TLen, VLen _ | TObject, VObject _
    | TString, VString _ | TNewString, VString _ => Some v
    | _, _ => None
    end.

  (** ** The code the handlers write *)
  Inductive cexp : Type :=
  | EVar (v : string)                  (* v *)
  | EString (p n : string)             (* std::string(p, n) *)
  | EIsTrue (v : string)               (* PyObject_IsTrue(v), converted to bool *)
  | EDefault (t : string)              (* the text of a default value *)
  | EIf (v : string) (a b : cexp).     (* v ? a : b *)
  Inductive cstm : Type :=
  | SSet (v : string) (e : cexp)                                     (* v = e; *)
  | SCheck (cs : list (string * comparison * string))                (* write_error_check('v > c || ...', ValueError) *)
  | SIncref (v : string).                                            (* Py_INCREF of v *)
  Inductive carg : Type := AValue (e : cexp) | ARef (v : string) | AAddr (v : string).
  Record pent : Type := { pe_unit : string; pe_vars : list string; pe_keyword : option string; pe_optional : bool }.
  (** What is given to Py_BuildValue. *)
  Inductive bexp : Type :=
  | BInt (e : bexpr)                   (* an expression of inttype.py *)
  | BVar (v : string)                  (* v *)
  | BBytes (v : string)                (* (v).c_str(), (v).size() *)
  | BTruth (v : string)                (* PyBool_FromLong(v) *)
  | BChar (v : string).                (* (int) v *)
  Record bent : Type := { be_unit : string; be_exp : bexp }.
  Inductive bstm : Type :=
  | BParse (e : pent)                          (* parse_params.add_parameter *)
  | BCode (s : cstm)                           (* before_call *)
  | BCall (a : carg)                           (* call_params.append *)
  | BBuild (e : bent) (prepend : bool).        (* build_params.add_parameter *)

  (** ** The handlers *)
  Inductive bhandler : Type :=
  | HInt (h : param_handler)
  | HBool | HBoolPtr | HBoolRef | HDouble | HDoublePtr | HDoubleRef | HFloat | HFloatPtr | HFloatRef
  | HCString | HChar | HStdString | HStdStringRef | HStdStringPtr (transfer : bool) | HPyObject (transfer : bool).
  Record bparam : Type := mk_bparam {
    bp_handler : bhandler; bp_ctype : string; bp_name : string; bp_default : option string; bp_in : bool; bp_out : bool }.

  (** The calls of declare_variable each convert_python_to_c makes: type, name, initial value. *)
  Definition want : Type := (string * string * option string)%type.
  Definition given {A} (d : option A) : bool := match d with Some _ => true | None => false end.
  Definition null_if (b : bool) : option string := if b then Some "NULL" else None.
  Definition int_wants (x : bparam) (h : param_handler) : list want :=
    flat_map (fun s => match s with IDeclare t n i => [(t, n, i)] | _ => [] end)
      (param_to_c h (bp_ctype x) (bp_name x) (bp_default x) (bp_in x) (bp_out x)).
  Definition wants (x : bparam) : list want :=
    let n := bp_name x in
    let input (l : list want) := if bp_in x then l else [] in
    match bp_handler x with
    | HInt h => int_wants x h
    | HBool => [(bp_ctype x, n, None); ("PyObject *", "py_" ++ n, null_if (given (bp_default x)))]          (* booltype.py:19-23 *)
    | HBoolPtr => ("bool", n, None) :: input [("PyObject*", "py_" ++ n, None)]                             (* booltype.py:69-73 *)
    | HBoolRef => ("bool", n, None) :: input [("PyObject*", "py_" ++ n, None)]                             (* booltype.py:101-104 *)
    | HDouble => [(bp_ctype x, n, bp_default x)]                                                           (* doubletype.py:18 *)
    | HDoublePtr => [("double", n ++ "xxxxx", None)]                                                       (* doubletype.py:51-52 *)
    | HDoubleRef => [("double", n, None)]                                                                  (* doubletype.py:75 *)
    | HFloat => [(bp_ctype x, n, None)]                                                                    (* floattype.py:20 *)
    | HFloatPtr => [("float", n, None)]                                                                    (* floattype.py:58-60 *)
    | HFloatRef => [(strip_right (but_last (bp_ctype x)), n, None)]                                                      (* floattype.py:120 *)
    | HCString => [(bp_ctype x, n, bp_default x)]                                                          (* stringtype.py:22-27 *)
    | HChar => [(bp_ctype x, n, bp_default x)]                                                             (* stringtype.py:43-45 *)
    | HStdString => [("const char *", n, null_if (given (bp_default x))); ("Py_ssize_t", n ++ "_len", None)] (* stringtype.py:68-75 *)
    | HStdStringRef => [("const char *", n, Some "NULL"); ("Py_ssize_t", n ++ "_len", None); ("std::string", n ++ "_std", None)] (* 113-116 *)
    | HStdStringPtr t => [("const char *", n, None); ("Py_ssize_t", n ++ "_len", None);
                          if t then ("std::string*", n ++ "_std", Some "new std::string") else ("std::string", n ++ "_std", None)] (* 174-181 *)
    | HPyObject _ => [(bp_ctype x, n, None)]                                                               (* pyobjecttype.py:34 *)
    end%string.

  (** Translation of the statements of inttype.py, for a forward wrapper. *)
  Definition pents (x : bparam) (u : string) (vs : list string) (opt : bool) : pent :=
    {| pe_unit := u; pe_vars := vs; pe_keyword := Some (bp_name x); pe_optional := opt |}.
  Definition of_istmt (x : bparam) (s : istmt) : list bstm :=
    match s with
    | IDeclare _ _ _ => []
    | IParse u n opt _ => [BParse (pents x u [n] opt)]
    | IParseInto _ _ => []
    | IntHandlers.ICheck _ cs => [BCode (SCheck cs)]
    | IStore d s => [BCode (SSet d (EVar s))]
    | ICall ByValue n => [BCall (AValue (EVar n))]
    | ICall ByReference n => [BCall (ARef n)]
    | ICall ByAddress n => [BCall (AAddr n)]
    | IBuild u e pre => [BBuild {| be_unit := u; be_exp := BInt e |} pre]
    end.

  (** What each convert_python_to_c does with the names declare_variable returned. *)
  Definition code (x : bparam) (names : list string) : list bstm :=
    let d := bp_default x in
    let parse u vs opt := BParse (pents x u vs opt) in
    let on (b : bool) (l : list bstm) := if b then l else [] in
    let build u e := [BBuild {| be_unit := u; be_exp := e |} false] in
    match bp_handler x, names with
    | HInt h, [n] => flat_map (of_istmt x) (param_to_c h (bp_ctype x) n d (bp_in x) (bp_out x))
    | HBool, [n; py] =>                                                                                    (* booltype.py:24-29 *)
        [parse "O" [py] (given d);
         BCode (SSet n (match d with Some t => if nonempty_default d then EIf py (EIsTrue py) (EDefault t) else EIsTrue py | None => EIsTrue py end));
         BCall (AValue (EVar n))]
    | HBoolPtr, n :: py =>                                                                                 (* booltype.py:71-79 *)
        BCall (AAddr n) :: on (bp_in x) (match py with [py] => [parse "O" [py] false; BCode (SSet n (EIsTrue py))] | _ => [] end)
        ++ on (bp_out x) (build "N" (BTruth n))
    | HBoolRef, n :: py =>                                                                                 (* booltype.py:102-110 *)
        BCall (ARef n) :: on (bp_in x) (match py with [py] => [parse "O" [py] false; BCode (SSet n (EIsTrue py))] | _ => [] end)
        ++ on (bp_out x) (build "N" (BTruth n))
    | HDouble, [n] => [parse "d" [n] (nonempty_default d); BCall (AValue (EVar n))]                        (* doubletype.py:20-21 *)
    | HDoublePtr, [n] => BCall (AAddr n) :: on (bp_in x) [parse "d" [n] false] ++ on (bp_out x) (build "d" (BVar n)) (* doubletype.py:53-57 *)
    | HDoubleRef, [n] => BCall (ARef n) :: on (bp_in x) [parse "d" [n] false] ++ on (bp_out x) (build "d" (BVar n)) (* doubletype.py:76-80 *)
    | HFloat, [n] => [parse "f" [n] false; BCall (AValue (EVar n))]                                        (* floattype.py:21-22 *)
    | HFloatPtr, [n] => BCall (AAddr n) :: on (bp_in x) [parse "f" [n] false] ++ on (bp_out x) (build "f" (BVar n)) (* floattype.py:61-65 *)
    | HFloatRef, [n] => BCall (ARef n) :: on (bp_in x) [parse "f" [n] false] ++ on (bp_out x) (build "f" (BVar n)) (* floattype.py:121-125 *)
    | HCString, [n] => [parse "s" [n] (given d); BCall (AValue (EVar n))]                                  (* stringtype.py:24-29 *)
    | HChar, [n] => [parse "c" [n] (given d); BCall (AValue (EVar n))]                                     (* stringtype.py:46-48 *)
    | HStdString, [n; len] =>                                                                              (* stringtype.py:71-78 *)
        [parse "s#" [n; len] (given d); BCall (AValue (match d with None => EString n len | Some t => EIf n (EString n len) (EDefault t) end))]
    | HStdStringRef, [n; len; std] =>                                                                      (* stringtype.py:117-138 *)
        BCall (ARef std) ::
        on (bp_in x) [parse "s#" [n; len] (given d); BCode (SSet std (match d with None => EString n len | Some t => EIf n (EString n len) (EDefault t) end))]
        ++ on (bp_out x) (build "s#" (BBytes std))
    | HStdStringPtr _, [n; len; std] =>                                                                    (* stringtype.py:178-191 *)
        BCall (AAddr std) :: on (bp_in x) [parse "s#" [n; len] false; BCode (SSet std (EString n len))] ++ on (bp_out x) (build "s#" (BBytes std))
    | HPyObject t, [n] => [parse "O" [n] false; BCall (AValue (EVar n))] ++ on t [BCode (SIncref n)]       (* pyobjecttype.py:35-38 *)
    | _, _ => []
    end.

  (** Return values: the type of the variable retval, and convert_c_to_python. *)
  Inductive breturn : Type :=
  | RVoid | RInt (h : return_handler) (ctype : string) | RBool | RDouble | RFloat | RChar | RCString | RStdString | RStdStringRef | RPyObject (owned : bool).
  Definition retval_type (r : breturn) : option string :=
    match r with
    | RVoid => None
    | RInt _ c => Some c
    | RBool => Some "bool" | RDouble => Some "double" | RFloat => Some "float" | RChar => Some "char" | RCString => Some "char *"
    | RStdString => Some "std::string" | RStdStringRef => Some "std::string" | RPyObject _ => Some "PyObject *"
    end.
  Definition return_code (r : breturn) : list bstm :=
    let build u e := [BBuild {| be_unit := u; be_exp := e |} true] in
    match r with
    | RVoid => []                                                                                          (* voidtype.py:17-18 *)
    | RInt h _ => flat_map (fun s => match s with IBuild u e pre => [BBuild {| be_unit := u; be_exp := BInt e |} pre] | _ => [] end)
                    (return_to_python h "retval")
    | RBool => build "N" (BTruth "retval")                                                                 (* booltype.py:45-47 *)
    | RDouble => build "d" (BVar "retval")                                                                 (* doubletype.py:34-35 *)
    | RFloat => build "f" (BVar "retval")                                                                  (* floattype.py:35-36 *)
    | RChar => [BBuild {| be_unit := "c"; be_exp := BChar "retval" |} false]                               (* stringtype.py:204-205 *)
    | RCString => [BBuild {| be_unit := "s"; be_exp := BVar "retval" |} false]                             (* stringtype.py:222-223 *)
    | RStdString => build "s#" (BBytes "retval")                                                           (* stringtype.py:243-246 *)
    | RStdStringRef => build "s#" (BBytes "retval")                                                        (* stringtype.py:259-262 *)
    | RPyObject owned => build (if owned then "N" else "O") (BVar "retval")                                (* pyobjecttype.py:62-65 *)
    end.

  (** ** The wrapper of a function (base.py:787-798 and generate_body, 860-964) *)
  Record wrapper : Type := {
    wr_decls : list (string * string * option string);   (* type, name, initial value *)
    wr_parse : list pent; wr_before : list cstm; wr_call : list carg; wr_build : list bent }.

  (** The variables every function wrapper has (base.py:787-798). *)
  Definition first_ops (r : breturn) : list dop :=
    DDeclare 0 "PyObject*" "py_retval" None None ::
    (match retval_type r with Some t => [DDeclare 0 t "retval" None None] | None => [] end) ++ [DReserve "args"; DReserve "kwargs"].
  Definition want_op (w : want) : dop := DDeclare 0 (fst (fst w)) (snd (fst w)) (snd w) None.
  (** The names returned; an exception of any of the calls. *)
  Fixpoint returned (l : list (option (res string))) : res (list string) :=
    match l with
    | [] => Ok []
    | Some (Ok n) :: r => match returned r with Ok ns => Ok (n :: ns) | Err e => Err e end
    | Some (Err e) :: _ => Err e
    | None :: r => returned r
    end.
  Fixpoint convert_params (s : scopes) (ps : list bparam) : res (list (bparam * list string)) :=
    match ps with
    | [] => Ok []
    | x :: r =>
        let (s', rs) := drun s (map want_op (wants x)) in
        match returned rs with
        | Err e => Err e
        | Ok ns => match convert_params s' r with Ok l => Ok ((x, ns) :: l) | Err e => Err e end
        end
    end.
  Definition declared_as (x : bparam) (ns : list string) : list (string * string * option string) :=
    map (fun wn => (fst (fst (fst wn)), snd wn, snd (fst wn))) (combine (wants x) ns).
  Definition parses (l : list bstm) : list pent := flat_map (fun s => match s with BParse e => [e] | _ => [] end) l.
  Definition befores (l : list bstm) : list cstm := flat_map (fun s => match s with BCode s => [s] | _ => [] end) l.
  Definition calls (l : list bstm) : list carg := flat_map (fun s => match s with BCall a => [a] | _ => [] end) l.
  (** BuildValueParameters.add_parameter (base.py:320-331) *)
  Definition add_build (l : list bent) (s : bstm) : list bent :=
    match s with BBuild e true => e :: l | BBuild e false => l ++ [e] | _ => l end.
  Definition wrapper_of (r : breturn) (l : list (bparam * list string)) : wrapper :=
    let all := flat_map (fun xn => code (fst xn) (snd xn)) l in
    {| wr_decls := (match retval_type r with Some t => [(t, "retval", None)] | None => [] end) ++ flat_map (fun xn => declared_as (fst xn) (snd xn)) l;
       wr_parse := parses all; wr_before := befores all; wr_call := calls all;
       wr_build := fold_left add_build (all ++ return_code r) [] |}.
  Definition generate (r : breturn) (ps : list bparam) : res wrapper :=
    match convert_params (fst (drun scopes_init (first_ops r))) ps with
    | Ok l => Ok (wrapper_of r l)
    | Err e => Err e
    end.

  (** ** What the wrapper does *)
  Inductive perr : Type := OverflowErr | TypeErr | ValueErr | SystemErr.
  Definition of_argerr (e : argerr) : perr := match e with OverflowE => OverflowErr | TypeE => TypeErr | ValueE => ValueErr end.
  Inductive event : Type :=
  | EvIncref (v : pyv)       (* a new reference to an object *)
  | EvNew.                   (* new std::string *)
  Definition cenv : Type := list (string * (ctyp * cval)).
  Fixpoint lookup (e : cenv) (n : string) : option (ctyp * cval) :=
    match e with
    | [] => None
    | (k, v) :: r => if String.eqb k n then Some v else lookup r n
    end.
  Fixpoint assign (e : cenv) (n : string) (v : cval) : cenv :=
    match e with
    | [] => []
    | (k, (t, u)) :: r => if String.eqb k n then (k, (t, v)) :: r else (k, (t, u)) :: assign r n v
    end.
  Record st : Type := mk_st { s_env : cenv; s_pending : bool; s_log : list event }.
  Inductive phase : Type := Go (s : st) | Stop (s : st) (e : perr) | Crash.
  Definition then_ (p : phase) (f : st -> phase) : phase := match p with Go s => f s | _ => p end.
  Definition set_env (s : st) (e : cenv) : st := mk_st e (s_pending s) (s_log s).

  Variable p : platform.
  (** The values of the default value expressions, as values of a type. *)
  Variable eval : ctyp -> string -> cval.

  (** Declarations: a std::string starts empty. *)
  Definition initial (t : ctyp) (i : option string) : option cval :=
    match i, t with
    | None, TString => Some (VString [])
    | None, _ => Some VJunk
    | Some i, TCStr => if String.eqb i "NULL" then Some (VCStr None) else coerce t (eval t i)
    | Some i, TObject => if String.eqb i "NULL" then Some (VObject None) else coerce t (eval t i)
    | Some i, TNewString => if String.eqb i "new std::string" then Some (VString []) else None
    | Some i, _ => coerce t (eval t i)
    end.
  Fixpoint run_decls (l : list (string * string * option string)) (s : st) : phase :=
    match l with
    | [] => Go s
    | (t, n, i) :: r =>
        match resolve p t with
        | None => Crash
        | Some ct =>
            match initial ct i with
            | None => Crash
            | Some v => run_decls r (mk_st (s_env s ++ [(n, (ct, v))]) (s_pending s) (s_log s ++ match ct with TNewString => [EvNew] | _ => [] end))
            end
        end
    end.

  (** Writing a parsed value through the address of a variable: the types must agree (for integers, their sizes). *)
  Definition fits_in (t : ctyp) (v : cval) (b : Z) : bool :=
    match t, v with
    | TInt t, VInt _ => bits t =? b
    | TDouble, VDouble _ | TSingle, VSingle _ | TChar, VChar _ | TCStr, VCStr _ | TLen, VLen _ | TObject, VObject _ => true
    | _, _ => false
    end.
  Definition store_at (s : st) (n : string) (b : Z) (v : cval) : phase :=
    match lookup (s_env s) n with
    | Some (t, _) => if fits_in t v b
                     then match coerce t v with Some w => Go (set_env s (assign (s_env s) n w)) | None => Crash end else Crash
    | None => Crash
    end.
  (** The float a number stands for (PyFloat_AsDouble). *)
  Definition as_double (v : pyv) : (double N + perr)%type :=
    match v with
    | PFloat d => inl d
    | PInt z => match of_int N z with Some d => inl d | None => inr OverflowErr end
    | PBool b => match of_int N (b2z b) with Some d => inl d | None => inr OverflowErr end
    | _ => inr TypeErr
    end.
  Definition int_units : list string := ["b"; "B"; "h"; "H"; "i"; "I"; "l"; "k"; "L"; "K"].
  (** One unit of PyArg_ParseTuple (CPython's Python/getargs.c). *)
  Definition parse_value (u : string) (vars : list string) (v : pyv) (s : st) : phase :=
    match vars with
    | [n] =>
        if existsb (String.eqb u) int_units then
          match parse_unit p u (as_int v) with
          | Stored t z => store_at s n (bits t) (VInt z)
          | Failed e => Stop s (of_argerr e)
          | BadUnit => Crash
          end
        else if String.eqb u "d" then
          match as_double v with inl d => store_at s n 0 (VDouble d) | inr e => Stop s e end
        else if String.eqb u "f" then
          match as_double v with inl d => store_at s n 0 (VSingle (narrow N d)) | inr e => Stop s e end
        else if String.eqb u "c" then
          match v with PBytes [c] => store_at s n 0 (VChar c) | _ => Stop s TypeErr end
        else if String.eqb u "s" then
          match v with
          | PStr l => match encode l with
                      | Some b => if has_nul b then Stop s ValueErr else store_at s n 0 (VCStr (Some b))
                      | None => Stop s ValueErr
                      end
          | _ => Stop s TypeErr
          end
        else if String.eqb u "O" then store_at s n 0 (VObject (Some v))
        else Crash
    | [n; m] =>
        if String.eqb u "s#" then
          let put b := then_ (store_at s n 0 (VCStr (Some b))) (fun s => store_at s m 0 (VLen (Z.of_nat (length b)))) in
          match v with
          | PStr l => match encode l with Some b => put b | None => Stop s ValueErr end
          | PBytes b => put b
          | _ => Stop s TypeErr
          end
        else Crash
    | _ => Crash
    end.
  Definition parse_entry (e : pent) (a : option pyv) (s : st) : phase :=
    match a with
    | None => if pe_optional e then Go s else Stop s TypeErr
    | Some v => parse_value (pe_unit e) (pe_vars e) v s
    end.
  (** The arguments are bound to the units already (C07); None: not given. *)
  Fixpoint run_parse (l : list pent) (args : list (option pyv)) (s : st) : phase :=
    match l, args with
    | [], _ => Go s
    | e :: r, a :: args' => then_ (parse_entry e a s) (run_parse r args')
    | _ :: _, [] => Stop s TypeErr
    end.

  Definition is_null (v : cval) : option bool :=
    match v with
    | VCStr o => Some (match o with None => true | Some _ => false end)
    | VObject o => Some (match o with None => true | Some _ => false end)
    | _ => None
    end.
  (** The value of an expression of a type; and whether it left a Python exception set. *)
  Fixpoint run_exp (t : ctyp) (x : cexp) (e : cenv) : option (cval * bool) :=
    match x with
    | EVar v => match lookup e v with Some (_, VJunk) => None | Some (_, v) => Some (v, false) | None => None end
    | EString q n =>
        match lookup e q, lookup e n with
        | Some (_, VCStr (Some b)), Some (_, VLen k) => if (0 <=? k) && (k <=? Z.of_nat (length b)) then Some (VString (firstn (Z.to_nat k) b), false) else None
        | _, _ => None
        end
    | EIsTrue v =>
        match lookup e v with
        | Some (_, VObject (Some o)) => match truth o with Some b => Some (VBool b, false) | None => Some (VBool true, true) end
        | _ => None
        end
    | EDefault d => Some (eval t d, false)
    | EIf v a b =>
        match lookup e v with
        | Some (_, c) => match is_null c with Some true => run_exp t b e | Some false => run_exp t a e | None => None end
        | None => None
        end
    end.
  Definition check_value (e : cenv) (c : string * comparison * string) : option bool :=
    match lookup e (fst (fst c)), constant (snd c) with
    | Some (TInt _, VInt x), Some y => Some (compare (snd (fst c)) x y)
    | _, _ => None
    end.
  Fixpoint check_values (e : cenv) (cs : list (string * comparison * string)) : option bool :=
    match cs with
    | [] => Some false
    | c :: r => match check_value e c with Some true => Some true | Some false => check_values e r | None => None end
    end.
  Definition run_stm (x : cstm) (s : st) : phase :=
    match x with
    | SSet v e =>
        match lookup (s_env s) v with
        | Some (t, _) =>
            match run_exp t e (s_env s) with
            | Some (c, pend) => match coerce t c with
                                | Some c => Go (mk_st (assign (s_env s) v c) (s_pending s || pend) (s_log s))
                                | None => Crash
                                end
            | None => Crash
            end
        | None => Crash
        end
    | SCheck cs => match check_values (s_env s) cs with Some true => Stop s ValueErr | Some false => Go s | None => Crash end
    | SIncref v => match lookup (s_env s) v with
                   | Some (_, VObject (Some o)) => Go (mk_st (s_env s) (s_pending s) (s_log s ++ [EvIncref o]))
                   | _ => Crash
                   end
    end.
  Fixpoint run_stms (l : list cstm) (s : st) : phase :=
    match l with
    | [] => Go s
    | x :: r => then_ (run_stm x s) (run_stms r)
    end.

  (** The types of the values the C++ function takes. *)
  Definition value_type_of (x : bparam) : string :=
    match bp_handler x with
    | HInt h => value_type h (bp_ctype x)
    | HBool | HDouble | HFloat | HCString | HChar | HStdString | HPyObject _ => bp_ctype x
    | HBoolPtr | HBoolRef => "bool"
    | HDoublePtr | HDoubleRef => "double"
    | HFloatPtr | HFloatRef => "float"
    | HStdStringRef | HStdStringPtr _ => "std::string"
    end.
  (** A variable passed by reference or by address must have the type of the parameter. *)
  Definition same_layout (t u : ctyp) : bool :=
    match t, u with
    | TInt a, TInt b => bits a =? bits b
    | TBool, TBool | TDouble, TDouble | TSingle, TSingle | TString, TString | TString, TNewString => true
    | _, _ => false
    end.
  Definition pass_arg (t : ctyp) (a : carg) (e : cenv) : option cval :=
    match a with
    | AValue x => match run_exp t x e with Some (v, false) => coerce t v | _ => None end
    | ARef n | AAddr n =>
        match lookup e n with
        | Some (u, v) => if same_layout t u then match v with VJunk => Some VJunk | _ => coerce t v end else None
        | None => None
        end
    end.
  Fixpoint pass_args (l : list carg) (types : list ctyp) (e : cenv) : option (list cval) :=
    match l, types with
    | [], _ => Some []
    | a :: r, t :: types' => match pass_arg t a e, pass_args r types' e with Some v, Some vs => Some (v :: vs) | _, _ => None end
    | _ :: _, [] => None
    end.
  (** The call leaves in the variables passed by reference or by address what C++ wrote there. *)
  Fixpoint leave_args (l : list carg) (outs : list cval) (e : cenv) : option cenv :=
    match l, outs with
    | [], _ => Some e
    | AValue _ :: r, _ :: outs' => leave_args r outs' e
    | (ARef n | AAddr n) :: r, v :: outs' =>
        match lookup e n with
        | Some (t, _) => match coerce t v with Some w => leave_args r outs' (assign e n w) | None => None end
        | None => None
        end
    | _ :: _, [] => None
    end.

  (** Py_BuildValue, one unit (CPython's Python/modsupport.c): a value, or an exception. *)
  Definition bexpr_var (e : bexpr) : string := match e with Var v | Deref v | Cast _ v | FromUnsignedLong v => v end.
  Definition build_unit (b : bent) (e : cenv) : option ((pyv + perr) * list event)%type :=
    let u := be_unit b in
    match be_exp b with
    | BInt x =>
        match lookup e (bexpr_var x) with
        | Some (TInt t, VInt z) => match build_one p t z u x with Passed y => Some (inl (PInt y), []) | _ => None end
        | _ => None
        end
    | BVar n =>
        match lookup e n with
        | Some (_, VDouble d) => if String.eqb u "d" || String.eqb u "f" then Some (inl (PFloat d), []) else None
        | Some (_, VSingle f) => if String.eqb u "d" || String.eqb u "f" then Some (inl (PFloat (widen N f)), []) else None
        | Some (_, VCStr o) =>
            if String.eqb u "s" then
              match o with
              | None => Some (inl PNone, [])
              | Some l => match decode (c_string l) with Some s => Some (inl (PStr s), []) | None => Some (inr ValueErr, []) end
              end
            else None
        | Some (_, VObject o) =>
            match o with
            | Some v => if String.eqb u "O" then Some (inl v, [EvIncref v]) else if String.eqb u "N" then Some (inl v, []) else None
            | None => if String.eqb u "O" || String.eqb u "N" then Some (inr SystemErr, []) else None
            end
        | _ => None
        end
    | BBytes n =>
        match lookup e n with
        | Some (_, VString l) => if String.eqb u "s#" then match decode l with Some s => Some (inl (PStr s), []) | None => Some (inr ValueErr, []) end else None
        | _ => None
        end
    | BTruth n => match lookup e n with Some (_, VBool b) => if String.eqb u "N" then Some (inl (PBool b), []) else None | _ => None end
    | BChar n => match lookup e n with Some (_, VChar c) => if String.eqb u "c" then Some (inl (PBytes [c mod 256]), []) else None | _ => None end
    end.
  (** The values in order; the first exception is raised. *)
  Fixpoint build_units (l : list bent) (e : cenv) : option ((list pyv + perr) * list event)%type :=
    match l with
    | [] => Some (inl [], [])
    | b :: r =>
        match build_unit b e with
        | None => None
        | Some (inr x, ev) => Some (inr x, ev)
        | Some (inl v, ev) => match build_units r e with
                              | None => None
                              | Some (inl vs, ev') => Some (inl (v :: vs), ev ++ ev')
                              | Some (inr x, ev') => Some (inr x, ev ++ ev')
                              end
        end
    end.

  (** ** A call *)
  (** A C++ function: given its arguments, the value returned and what it leaves in each argument. *)
  Definition cppfun : Type := list cval -> option cval * list cval.
  Inductive answer : Type := Returns (v : pyv) | Raises (e : perr) | Undef.
  (** The arguments C++ was called with, if it was; the outcome; the references and objects created. *)
  Record result : Type := mk_result { re_called : option (list cval); re_answer : answer; re_log : list event }.

  (** py_retval, with an exception still set: the interpreter raises SystemError. *)
  Definition conclude (pending : bool) (r : (pyv + perr)%type) : answer :=
    match r with inr e => Raises e | inl v => if pending then Raises SystemErr else Returns v end.
  Fixpoint all_types (l : list (option ctyp)) : option (list ctyp) :=
    match l with
    | [] => Some []
    | Some t :: r => match all_types r with Some ts => Some (t :: ts) | None => None end
    | None :: _ => None
    end.
  Definition after_call (w : wrapper) (vs : list cval) (f : cppfun) (s : st) : result :=
    let (ret, outs) := f vs in
    let crash := mk_result (Some vs) Undef (s_log s) in
    match leave_args (wr_call w) outs (s_env s) with
    | None => crash
    | Some e =>
        (* retval = f(...); *)
        let e' := match ret with
                  | None => Some e
                  | Some v => match lookup e "retval" with
                              | Some (t, _) => match coerce t v with Some v => Some (assign e "retval" v) | None => None end
                              | None => None
                              end
                  end in
        match e' with
        | None => crash
        | Some e' =>
            match build_units (wr_build w) e' with
            | None => crash
            | Some (inr x, ev) => mk_result (Some vs) (Raises x) (s_log s ++ ev)
            | Some (inl l, ev) => mk_result (Some vs) (conclude (s_pending s) (inl (py_build_value PNone PTuple l))) (s_log s ++ ev)
            end
        end
    end.
  Definition run_wrapper (w : wrapper) (ps : list bparam) (f : cppfun) (args : list (option pyv)) : result :=
    match then_ (run_decls (wr_decls w) (mk_st [] false [])) (fun s => then_ (run_parse (wr_parse w) args s) (run_stms (wr_before w))) with
    | Crash => mk_result None Undef []
    | Stop s e => mk_result None (Raises e) (s_log s)
    | Go s =>
        match all_types (map (fun x => resolve p (value_type_of x)) ps) with
        | None => mk_result None Undef (s_log s)
        | Some ts =>
            match pass_args (wr_call w) ts (s_env s) with
            | None => mk_result None Undef (s_log s)
            | Some vs => after_call w vs f s
            end
        end
    end.
  Definition call_wrapped (r : breturn) (ps : list bparam) (f : cppfun) (args : list (option pyv)) : res result :=
    match generate r ps with Ok w => Ok (run_wrapper w ps f args) | Err e => Err e end.
End Basic.
