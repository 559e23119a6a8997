(** Meaning of the argument parsing calls emitted by generate_body (base.py:897-922): the CPython
    functions PyArg_ParseTuple and PyArg_ParseTupleAndKeywords (CPython's Python/getargs.c, not part of
    /repo; trusted).  A format is the list of pieces PyBindGen joins (Params.parse_template): the piece
    "|" is the optional marker, every other piece is one unit consuming one Python argument.
    [conv u v] converts argument [v] for unit [u]; [None] is a conversion error.
    The result is, per parameter, [Some w] if its C variable was written, [None] if it was left alone;
    [None] overall is a Python exception. *)
From Verif.Model Require Import Py Params.
Open Scope list_scope.

Section Args.
  Context {V W : Type} (conv : string -> V -> option W).

  Definition is_bar (u : string) : bool := String.eqb u "|".

  (** getargs.c vgetargskeywords, main loop: [i] is the parameter index, [min] the number of required
      parameters once the bar was seen, [nkw] the keyword arguments not consumed yet. *)
  Fixpoint kw_loop (fmt kwlist : list string) (i : nat) (min : option nat) (args : list V)
      (kwargs : dict V) (nkw : nat) : option (list (option W) * nat) :=
    match kwlist with
    | [] => match fmt with [] => Some ([], nkw) | _ => None end
    | k :: ks =>
        let '(min, fmt) := match fmt with
                           | u :: f => if is_bar u then (Some i, f) else (min, fmt)
                           | [] => (min, fmt) end in
        match fmt with
        | [] => None
        | u :: f =>
            let '(cur, nkw) :=
              match nth_error args i with
              | Some v => (Some v, nkw)
              | None => match nkw with
                        | O => (None, nkw)
                        | S m => match dict_get kwargs k with
                                 | Some v => (Some v, m)
                                 | None => (None, nkw) end
                        end
              end in
            match cur with
            | Some v =>
                match conv u v with
                | None => None
                | Some w =>
                    match kw_loop f ks (S i) min args kwargs nkw with
                    | Some (r, n) => Some (Some w :: r, n)
                    | None => None
                    end
                end
            | None =>
                if match min with Some m => Nat.ltb i m | None => true end then None
                else match nkw with
                     | O => Some (map (fun _ => None) kwlist, O)
                     | _ => match kw_loop f ks (S i) min args kwargs nkw with
                            | Some (r, n) => Some (None :: r, n)
                            | None => None
                            end
                     end
            end
        end
    end.

  (** Too many arguments, the loop, and leftover keyword arguments (unknown or given twice). *)
  Definition parse_tuple_and_keywords (fmt kwlist : list string) (args : list V) (kwargs : dict V)
    : option (list (option W)) :=
    if Nat.ltb (length kwlist) (length args + length kwargs) then None
    else match kw_loop fmt kwlist 0 None args kwargs (length kwargs) with
         | Some (r, O) => Some r
         | _ => None
         end.

  (** getargs.c vgetargs1: counts the units (all, and before the bar), then converts in order. *)
  Definition units (fmt : list string) : list string := filter (fun u => negb (is_bar u)) fmt.
  Fixpoint required_units (fmt : list string) : nat :=
    match fmt with
    | [] => 0
    | u :: f => if is_bar u then 0 else S (required_units f)
    end.
  Fixpoint tuple_loop (us : list string) (args : list V) : option (list (option W)) :=
    match us, args with
    | [], _ => Some []
    | u :: f, v :: a =>
        match conv u v, tuple_loop f a with
        | Some w, Some r => Some (Some w :: r)
        | _, _ => None
        end
    | us, [] => Some (map (fun _ => None) us)
    end.
  Definition parse_tuple_only (fmt : list string) (args : list V) : option (list (option W)) :=
    if Nat.ltb (length args) (required_units fmt) || Nat.ltb (length (units fmt)) (length args) then None
    else tuple_loop (units fmt) args.

  (** How the interpreter calls a function by its METH_* flags (trusted): without METH_KEYWORDS keyword
      arguments are a TypeError, with METH_NOARGS any argument is.  [code] is what the wrapper body does. *)
  Definition call_by_flags (flags : list string) (args : list V) (kwargs : dict V)
      (code : list V -> dict V -> option (list (option W))) : option (list (option W)) :=
    if existsb (String.eqb "METH_NOARGS") flags then
      match args, kwargs with [], [] => code [] [] | _, _ => None end
    else if existsb (String.eqb "METH_KEYWORDS") flags then code args kwargs
    else match kwargs with [] => code args [] | _ => None end.
End Args.
