(** Model of numeric operators of wrapped classes: registration (/repo/pybindgen/cppclass.py:838-944), the generated number
    methods (cppclass.py:2029-2030 and 2040-2159, pytypeobject.py:109-255) and their use by Python 3 expressions.
    Not modelled: the texts (names of the functions and variables); C++ operators that throw; the sequence slots that Python
    tries after the number slots for + and *; Python classes that override the operator methods. *)
From Verif.Model Require Import Py.
Open Scope string_scope.
Open Scope list_scope.

Definition cls : Type := nat.

Section NumberOps.
  (** Python objects that are not instances of wrapped classes, C++ values. *)
  Variable atom : Type.
  Variable value : Type.

  (** ** Registration *)
  (** The type of a right operand: a class, or a Parameter object, by number: these are compared by identity. *)
  Inductive otype : Type := OClass (c : cls) | OParam (parameter : nat).
  Record signature : Type := mk_sig { g_result : cls; g_left : cls; g_right : otype }.
  (** cppclass.py:651-653. *)
  Record klass : Type := mk_klass {
    k_binary : dict (list signature);
    k_inplace : dict (list signature);
    k_unary : dict (list (cls * cls)) }.
  Definition no_operators : klass := mk_klass [] [] [].

  (** The argument [right]: None, a class, a parameter spec or Parameter (the resulting Parameter object), or one that raises
      (utils.eval_param: SkipWrapper if an error handler absorbed the failure). *)
  Inductive right_arg : Type := RightNone | RightClass (c : cls) | RightParam (parameter : nat) | RightRaises (e : pyexc).

  Definition same_otype (x y : otype) : bool :=
    match x, y with
    | OClass c, OClass d => Nat.eqb c d
    | OParam i, OParam j => Nat.eqb i j
    | _, _ => false
    end.
  Definition same_sig (x y : signature) : bool :=
    Nat.eqb (g_result x) (g_result y) && Nat.eqb (g_left x) (g_left y) && same_otype (g_right x) (g_right y).

  Definition entry {A} (d : dict (list A)) (k : string) : list A := match dict_get d k with Some l => l | None => [] end.
  Definition default (c : cls) (x : option cls) : cls := match x with Some d => d | None => c end.

  Inductive call : Type :=
  | AddBinary (c : cls) (operator : string) (result lft : option cls) (arg : right_arg)
  | AddInplace (c : cls) (operator : string) (arg : right_arg)
  | AddUnary (c : cls) (operator : string) (result lft : option cls).

  Definition world : Type := cls -> klass.
  Definition set_class (w : world) (c : cls) (k : klass) : world := fun d => if Nat.eqb d c then k else w d.

  (** cppclass.py:838-882: the list of the operator is created before the operand type is evaluated. *)
  Definition add_binary (w : world) (c : cls) (op : string) (result lft : option cls) (arg : right_arg) : world * option pyexc :=
    if existsb (String.eqb op) ["+"; "-"; "*"; "/"] then
      let k := w c in
      let l := entry (k_binary k) op in
      let put l' := set_class w c (mk_klass (dict_set (k_binary k) op l') (k_inplace k) (k_unary k)) in
      let add r := let g := mk_sig (default c result) (default c lft) r in (put (if existsb (same_sig g) l then l else l ++ [g]), None) in
      match arg with
      | RightNone => add (OClass c)
      | RightClass d => add (OClass d)
      | RightParam i => add (OParam i)
      | RightRaises SkipWrapper => (put l, None)
      | RightRaises e => (put l, Some e)
      end
    else (w, Some ValueError).
  (** cppclass.py:885-915: [right] is compared with the tuples of the list, so never found; a class is not a parameter spec. *)
  Definition add_inplace (w : world) (c : cls) (op : string) (arg : right_arg) : world * option pyexc :=
    if existsb (String.eqb op) ["+="; "-="; "*="; "/="] then
      let k := w c in
      let l := entry (k_inplace k) op in
      let put l' := set_class w c (mk_klass (k_binary k) (dict_set (k_inplace k) op l') (k_unary k)) in
      match arg with
      | RightNone => (put (l ++ [mk_sig c c (OClass c)]), None)
      | RightClass d => (put l, Some TypeError)
      | RightParam i => (put (l ++ [mk_sig c c (OParam i)]), None)
      | RightRaises SkipWrapper => (put l, None)
      | RightRaises e => (put l, Some e)
      end
    else (w, Some ValueError).
  (** cppclass.py:918-944. *)
  Definition add_unary (w : world) (c : cls) (op : string) (result lft : option cls) : world * option pyexc :=
    if existsb (String.eqb op) ["-"] then
      let k := w c in
      let l := entry (k_unary k) op in
      let g := (default c result, default c lft) in
      let l' := if existsb (fun x => Nat.eqb (fst g) (fst x) && Nat.eqb (snd g) (snd x)) l then l else l ++ [g] in
      (set_class w c (mk_klass (k_binary k) (k_inplace k) (dict_set (k_unary k) op l')), None)
    else (w, Some ValueError).
  Definition run_call (w : world) (x : call) : world * option pyexc :=
    match x with
    | AddBinary c op r l x => add_binary w c op r l x
    | AddInplace c op x => add_inplace w c op x
    | AddUnary c op r l => add_unary w c op r l
    end.
  (** A script catches the exceptions of the calls. *)
  Fixpoint run_calls (w : world) (l : list call) : world :=
    match l with [] => w | x :: r => run_calls (fst (run_call w x)) r end.
  Definition declared (l : list call) : world := run_calls (fun _ => no_operators) l.

  (** ** Generated functions *)
  Inductive stmt : Type :=
  | Block (body : list stmt)
  | IfConverts (conversions : list (otype * nat)) (body : list stmt)   (* converter and number of the Python operand *)
  | ReturnOperator (op : string) (result : cls)
  | ErrClear
  | ReturnNotImplemented.

  (** cppclass.py:2068-2107. *)
  Definition binary_block (op : string) (g : signature) : stmt :=
    Block [IfConverts [(OClass (g_left g), 0); (g_right g, 1)] [ReturnOperator op (g_result g)]; ErrClear].
  (** cppclass.py:2109-2144. *)
  Definition unary_block (op : string) (g : cls * cls) : stmt :=
    Block [IfConverts [(OClass (snd g), 0)] [ReturnOperator op (fst g)]; ErrClear].
  Definition wrap_operator (k : klass) (op : string) : option (list stmt) :=
    match dict_get (k_binary k) op with
    | Some l => Some (map (binary_block op) l ++ [ReturnNotImplemented])
    | None => match dict_get (k_inplace k) op with
              | Some l => Some (map (binary_block op) l ++ [ReturnNotImplemented])
              | None => None
              end
    end.
  Definition wrap_unary (k : klass) (op : string) : option (list stmt) :=
    match dict_get (k_unary k) op with
    | Some l => Some (map (unary_block op) l ++ [ReturnNotImplemented])
    | None => None
    end.

  (** cppclass.py:2146-2156: the slots dictionary. *)
  Definition binary_slots : list (string * string) :=
    [("+", "nb_add"); ("-", "nb_subtract"); ("*", "nb_multiply"); ("/", "nb_divide");
     ("+=", "nb_inplace_add"); ("-=", "nb_inplace_subtract"); ("*=", "nb_inplace_multiply"); ("/=", "nb_inplace_divide")].
  Definition slots_dict (k : klass) : dict (list stmt) :=
    fold_left (fun d x => match wrap_operator k (fst x) with Some f => dict_set d (snd x) f | None => d end) binary_slots []
    ++ match wrap_unary k "-" with Some f => [("nb_negative", f)] | None => [] end.

  (** The members of the C structure that Python 3 uses for its operators: pytypeobject.py:164-200. *)
  Inductive member : Type := MAdd | MSubtract | MMultiply | MTrueDivide | MInplaceAdd | MInplaceSubtract | MInplaceMultiply | MInplaceTrueDivide | MNegative.
  Definition slot_name (m : member) : string :=
    match m with
    | MAdd => "nb_add" | MSubtract => "nb_subtract" | MMultiply => "nb_multiply" | MTrueDivide => "nb_divide"
    | MInplaceAdd => "nb_inplace_add" | MInplaceSubtract => "nb_inplace_subtract" | MInplaceMultiply => "nb_inplace_multiply"
    | MInplaceTrueDivide => "nb_inplace_divide"
    | MNegative => "nb_negative"
    end.
  (** cppclass.py:2029-2030: no structure at all if there are only unary operators. *)
  Definition number_member (k : klass) (m : member) : option (list stmt) :=
    match k_binary k, k_inplace k with
    | [], [] => None
    | _, _ => dict_get (slots_dict k) (slot_name m)
    end.

  (** ** Execution *)
  (** Python objects: instances of wrapped classes or of Python classes derived from them (these are classes without operators
      here), by number; others. *)
  Inductive obj : Type := Inst (n : nat) | Other (a : atom).
  Inductive error : Type := ConversionError (e : nat) | OperandTypeError.
  (** The C++ objects of the instances, and the pending Python error. *)
  Record state : Type := mk_state { heap : list (cls * value); pending : option error }.

  (** The class and its ancestors along tp_base, nearest first. *)
  Variable line : cls -> list cls.
  (** Converters: of the types of the parameters; of an object to one of the classes of its line (a copy: cppclass.py CppClassReturnValue).
      The C++ operators, on the values of the local variables. *)
  Variable param_in : nat -> list (cls * value) -> obj -> value + nat.
  Variable instance_as : cls -> cls -> value -> value.
  Variable cpp : string -> list (otype * value) -> value.

  Definition class_of (s : state) (o : obj) : option cls := match o with Inst n => option_map fst (nth_error (heap s) n) | Other _ => None end.
  (** A converter function: 1 and the value, or 0 and an error.  "O!" for classes. *)
  Definition convert (s : state) (t : otype) (o : obj) : value + nat :=
    match t, o with
    | OClass c, Inst n =>
        match nth_error (heap s) n with
        | Some (d, v) => if existsb (Nat.eqb c) (line d) then inl (instance_as d c v) else inr 0
        | None => inr 0
        end
    | OParam i, _ => param_in i (heap s) o
    | _, _ => inr 0
    end.
  Inductive flow : Type := Continue | Object (o : obj) | NotImpl.

  Section Run.
    Variable operands : list obj.
    (** The conversions of the condition, in order, up to the first that fails. *)
    Fixpoint conversions (s : state) (l : list (otype * nat)) (locals : list (otype * value)) : state * option (list (otype * value)) :=
      match l with
      | [] => (s, Some locals)
      | (t, i) :: r =>
          match nth_error operands i with
          | None => (s, None)
          | Some o => match convert s t o with
                      | inl v => conversions s r (locals ++ [(t, v)])
                      | inr e => (mk_state (heap s) (Some (ConversionError e)), None)
                      end
          end
      end.
    Fixpoint run_stmt (x : stmt) (locals : list (otype * value)) (s : state) {struct x} : state * flow :=
      let fix run_all (l : list stmt) (locals : list (otype * value)) (s : state) {struct l} : state * flow :=
        match l with
        | [] => (s, Continue)
        | y :: r => match run_stmt y locals s with
                    | (s1, Continue) => run_all r locals s1
                    | done => done
                    end
        end in
      match x with
      | Block body => run_all body [] s
      | IfConverts l body => match conversions s l locals with
                             | (s1, Some locals') => run_all body locals' s1
                             | (s1, None) => (s1, Continue)
                             end
      | ReturnOperator op c => (mk_state (heap s ++ [(c, cpp op locals)]) (pending s), Object (Inst (length (heap s))))
      | ErrClear => (mk_state (heap s) None, Continue)
      | ReturnNotImplemented => (s, NotImpl)
      end.
    Fixpoint run_body (l : list stmt) (s : state) : state * flow :=
      match l with
      | [] => (s, Continue)
      | y :: r => match run_stmt y [] s with
                  | (s1, Continue) => run_body r s1
                  | done => done
                  end
      end.
  End Run.

  (** ** Python expressions (CPython 3: Objects/abstract.c binary_op1, binary_iop1, PyNumber_Negative; typeobject.c
      inherit_slots) *)
  Variable w : world.
  (** The function in a member of the type's structure, with the class it comes from. *)
  Definition inherited (m : member) (c : cls) : option (cls * list stmt) :=
    fold_right (fun d r => match number_member (w d) m with Some f => Some (d, f) | None => r end) None (line c).
  Definition slot (m : member) (s : state) (o : obj) : option (cls * list stmt) :=
    match class_of s o with Some c => inherited m c | None => None end.
  Inductive outcome : Type := Result (o : obj) | Raises.

  Definition type_error (s : state) : state * outcome := (mk_state (heap s) (Some OperandTypeError), Raises).
  (** Operands that are not instances decline (their types know nothing of these classes). *)
  Fixpoint try_all (l : list (list stmt)) (args : list obj) (s : state) : state * flow :=
    match l with
    | [] => (s, NotImpl)
    | f :: r => match run_body args f s with
                | (s1, NotImpl) => try_all r args s1
                | done => done
                end
    end.
  Definition is_subtype (d c : cls) : bool := existsb (Nat.eqb c) (line d).
  (** binary_op1: the functions called, in order. *)
  Definition functions (m : member) (s : state) (x y : obj) : list (list stmt) :=
    let f := slot m s x in
    let g := match slot m s y with
             | Some (d, code) => match f with
                                 | Some (c, _) => if Nat.eqb c d then None else Some (d, code)
                                 | None => Some (d, code)
                                 end
             | None => None
             end in
    match f, g with
    | Some (_, a), Some (_, b) =>
        match class_of s x, class_of s y with
        | Some c, Some d => if is_subtype d c then [b; a] else [a; b]
        | _, _ => [a; b]
        end
    | Some (_, a), None => [a]
    | None, Some (_, b) => [b]
    | None, None => []
    end.
  Definition finish (r : state * flow) : state * outcome :=
    match r with
    | (s, Object o) => (s, Result o)
    | (s, _) => type_error s
    end.
  Definition binary_expression (m : member) (s : state) (x y : obj) : state * outcome := finish (try_all (functions m s x y) [x; y] s).
  (** binary_iop1. *)
  Definition inplace_functions (im m : member) (s : state) (x y : obj) : list (list stmt) :=
    match slot im s x with Some (_, f) => [f] | None => [] end ++ functions m s x y.
  Definition inplace_expression (im m : member) (s : state) (x y : obj) : state * outcome := finish (try_all (inplace_functions im m s x y) [x; y] s).
  (** PyNumber_Negative returns what the function returns: here NotImplemented is an object, as any. *)
  Inductive negated : Type := Negated (o : obj) | NotImplementedObject | NegationRaises.
  Definition negative_expression (s : state) (x : obj) : state * negated :=
    match slot MNegative s x with
    | Some (_, f) => match run_body [x] f s with
                     | (s1, Object o) => (s1, Negated o)
                     | (s1, _) => (s1, NotImplementedObject)
                     end
    | None => (mk_state (heap s) (Some OperandTypeError), NegationRaises)
    end.
End NumberOps.

Arguments Inst {atom} n. Arguments Other {atom} a. Arguments Result {atom} o. Arguments Raises {atom}.
Arguments mk_state {value} heap pending. Arguments heap {value} s. Arguments pending {value} s.
Arguments Negated {atom} o. Arguments NotImplementedObject {atom}. Arguments NegationRaises {atom}.
Arguments Continue {atom}. Arguments Object {atom} o. Arguments NotImpl {atom}.
Arguments class_of {atom value} s o.
