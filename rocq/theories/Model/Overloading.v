(** Model of OverloadedWrapper (/repo/pybindgen/overloading.py:49-340) and of the parts of Function it uses
    (/repo/pybindgen/function.py:222-303). *)
From Verif.Model Require Import Py PyState Errors.
Open Scope string_scope.
Open Scope list_scope.
Open Scope st_scope.

(** A wrapper of an overload set, reduced to what overload resolution uses.  [fw_body forced] is the outcome of
    generate_body (base.py:860-964) with force_parse unset or set to PARSE_TUPLE_AND_KEYWORDS: the method flags, or
    the exception raised.  Simplification: this outcome does not change between calls (reset_code_generation_state
    puts the wrapper back into its initial state), and get_py_method_def_flags' cache is not modelled. *)
Record fwrapper : Type := mk_fwrapper {
  fw_id : nat;
  fw_section : string;
  fw_base : string;                       (* wrapper_base_name *)
  fw_forced : bool;                       (* force_parse == PARSE_TUPLE_AND_KEYWORDS *)
  fw_needs_interface : bool;              (* NEEDS_OVERLOADING_INTERFACE *)
  fw_own : option string;                 (* CustomFunctionWrapper: the name of the C function it brings along *)
  fw_doc : option string;
  fw_autodoc : string;                    (* what generate_docstring returns *)
  fw_body : bool -> res (list string) }.

Definition force (w : fwrapper) : fwrapper :=
  mk_fwrapper (fw_id w) (fw_section w) (fw_base w) true (fw_needs_interface w) (fw_own w) (fw_doc w) (fw_autodoc w) (fw_body w).

(** base.py:966-985 *)
Definition get_flags (w : fwrapper) : res (list string) := fw_body w (fw_forced w).

(** set(a) == set(b) *)
Definition subset (a b : list string) : bool := forallb (fun x => existsb (String.eqb x) b) a.
Definition set_eq (a b : list string) : bool := subset a b && subset b a.

(** The functions of the generated C code, by name. *)
Inductive chunk : Type :=
| CBlank                                                (* sink.writeln() *)
| CFunction (wrapper : nat) (name : string) (extra : bool)  (* one wrapper; [extra]: has a return_exception parameter *)
| CAggregator (name : string) (delegates : list string) (keywords : bool).

Section Gen.
  Context {S : Type} (note : nat -> pyexc -> S -> S) (write : chunk -> S -> S) (p : policy).

  (** settings.error_handler.handle_error(...), the answer being ignored: AttributeError without a handler. *)
  Definition report (w : nat) (e : pyexc) : st S unit :=
    match p with
    | None => raise AttributeError
    | Some h => _ <~ handle_error note h w e ;; ret tt
    end.

  (** overloading.py:100-127, one pass of the while loop over the wrappers not yet looked at; [seen] are those
      found in order (kept in reverse).  Returns the wrappers left, and whether one was removed.
      'self.wrappers.remove(wrapper)' removes the first occurrence of the object: the one being looked at, since an
      earlier occurrence of the same object would have been removed instead. *)
  Fixpoint normalize_pass (existing : option (list string)) (seen rest : list fwrapper) : st S (list fwrapper * bool) :=
    match rest with
    | [] => ret (rev seen, false)
    | w :: r =>
        flags <~ try_except
          (f <~ call_with_error_handling note p generation_errors (fw_id w) (lift (get_flags w)) ;; ret (Some f))
          (fun e => if exc_eq_dec e SkipWrapper then report (fw_id w) SkipWrapper ;~ ret None else raise e) ;;
        match flags with
        | None => ret (rev seen ++ r, true)
        | Some f =>
            match existing with
            | None => normalize_pass (Some f) (w :: seen) r
            | Some ex =>
                if set_eq f ex then normalize_pass existing (w :: seen) r
                else report (fw_id w) SkipWrapper ;~ ret (rev seen ++ r, true)
            end
        end
    end.

  (** overloading.py:99-127: the loop.  Each pass that goes on has removed one wrapper. *)
  Fixpoint normalize_loop (fuel : nat) (l : list fwrapper) : st S (list fwrapper) :=
    match fuel with
    | O => raise OutOfFuel
    | Datatypes.S f =>
        x <~ normalize_pass None [] l ;;
        if snd x : bool then normalize_loop f (fst x) else ret (fst x)
    end.

  (** overloading.py:85-127 *)
  Definition normalize_flags (l : list fwrapper) : st S (list fwrapper) :=
    match l with
    | [_] => ret l
    | _ => normalize_loop (Datatypes.S (length l)) (map force l)
    end.

  (** function.py:222-262 generate: nothing is written before generate_body has succeeded. *)
  Definition generate_wrapper (w : fwrapper) (name : string) (extra : bool) : st S unit :=
    _ <~ lift (get_flags w) ;;
    modify (write (CFunction (fw_id w) name extra)).

  Definition delegate_name (base : string) (n : nat) : string := (base ++ "__" ++ decimal (N.of_nat n))%string.

  (** The name a wrapper is generated under: function.py:235-238; custom wrappers ignore it (function.py:340-346). *)
  Definition actual_name (w : fwrapper) (name : string) : string :=
    match fw_own w with Some own => own | None => name end.

  (** overloading.py:163-196 *)
  Fixpoint generate_delegates (base : string) (n : nat) (l : list fwrapper) : st S (list string) :=
    match l with
    | [] => ret []
    | w :: r =>
        modify (write CBlank) ;~
        ok <~ try_except
          (call_with_error_handling note p generation_errors (fw_id w) (generate_wrapper (force w) (actual_name w (delegate_name base n)) true) ;~ ret true)
          (fun e => if exc_eq_dec e SkipWrapper then ret false else raise e) ;;
        names <~ generate_delegates base (n + 1) r ;;
        ret (if ok : bool then actual_name w (delegate_name base n) :: names else names)
    end.

  Definition mem (x : string) (l : list string) : bool := existsb (String.eqb x) l.

  (** overloading.py:139-254 generate.  Returns the wrappers left (self.wrappers and self.all_wrappers) and
      self.wrapper_actual_name. *)
  Definition generate_overload (l : list fwrapper) : st S (list fwrapper * string) :=
    l <~ normalize_flags l ;;
    match l with
    | [] => raise SkipWrapper
    | w :: r =>
        if match r with [] => negb (fw_needs_interface w) | _ => false end then
          call_with_error_handling note p generation_errors (fw_id w) (generate_wrapper w (fw_base w) false) ;~
          ret (l, fw_base w)
        else
          flags <~ lift (get_flags w) ;;
          names <~ generate_delegates (fw_base w) 0 l ;;
          match names with
          | [] => raise SkipWrapper
          | _ => modify (write CBlank) ;~
                 modify (write (CAggregator (fw_base w) names (mem "METH_KEYWORDS" flags))) ;~
                 ret (map force l, fw_base w)
          end
    end.
End Gen.

(** A row of a method table. *)
Record row : Type := mk_row { row_name : string; row_function : string; row_flags : list string; row_doc : option string }.

(** sorted(l) for strings. *)
Definition str_leb (a b : string) : bool := match String.compare a b with Gt => false | _ => true end.
Fixpoint insert_sorted (x : string) (l : list string) : list string :=
  match l with
  | [] => [x]
  | y :: r => if str_leb x y then x :: l else y :: insert_sorted x r
  end.
Fixpoint sorted (l : list string) : list string :=
  match l with [] => [] | x :: r => insert_sorted x (sorted r) end.

(** Distinct strings of a list, as a Python set. *)
Fixpoint distinct (l : list string) : list string :=
  match l with
  | [] => []
  | x :: r => if existsb (String.eqb x) r then distinct r else x :: distinct r
  end.

Section Row.
  Context {S : Type} (note : nat -> pyexc -> S -> S) (p : policy).

  (** overloading.py:270-280: the consistency assertion; configuration errors are ignored here. *)
  Fixpoint check_flags (flags : list string) (l : list fwrapper) : res unit :=
    match l with
    | [] => Ok tt
    | w :: r => match get_flags w with
                | Ok f => if set_eq f flags then check_flags flags r else Err AssertionError
                | Err e => if is_instance e generation_errors then check_flags flags r else Err e
                end
    end.

  (** overloading.py:256-301 and function.py:277-303 get_py_method_def; [actual] is wrapper_actual_name. *)
  Definition get_row (l : list fwrapper) (actual name : string) : st S row :=
    match l with
    | [] => raise IndexError
    | w :: r =>
        if match r with [] => negb (fw_needs_interface w) | _ => false end then
          flags <~ lift (get_flags w) ;;
          ret (mk_row name actual (sorted flags) (match fw_doc w with Some d => Some d | None => Some (fw_autodoc w) end))
        else
          _ <~ normalize_flags note p l ;;
          flags <~ lift (get_flags w) ;;
          _ <~ lift (check_flags flags l) ;;
          match distinct (flat_map (fun w => match fw_doc w with Some d => [d] | None => [] end) l) with
          | [] => ret (mk_row name actual (sorted flags) None)
          | [d] => ret (mk_row name actual (sorted flags) (Some d))
          | _ => raise CodeGenerationError
          end
    end.
End Row.
