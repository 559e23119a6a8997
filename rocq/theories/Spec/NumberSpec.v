(** What numeric operators should do, in terms of the registration calls. *)
From Verif.Model Require Import Py NumberOps.
Open Scope string_scope.
Open Scope list_scope.

(** The C++ operator of a Python operator. *)
Definition symbol (m : member) : string :=
  match m with
  | MAdd => "+" | MSubtract => "-" | MMultiply => "*" | MTrueDivide => "/"
  | MInplaceAdd => "+=" | MInplaceSubtract => "-=" | MInplaceMultiply => "*=" | MInplaceTrueDivide => "/="
  | MNegative => "-"
  end.
(** Python's x + y, x - y, x * y, x / y, and what x += y uses before x + y. *)
Definition is_binary (m : member) : Prop := In m [MAdd; MSubtract; MMultiply; MTrueDivide].
Definition inplace_of (m : member) : member :=
  match m with MAdd => MInplaceAdd | MSubtract => MInplaceSubtract | MMultiply => MInplaceMultiply | _ => MInplaceTrueDivide end.

(** ** The signatures a script asks for, in the order of the calls *)
Definition operand (c : cls) (a : right_arg) : list otype :=
  match a with
  | RightNone => [OClass c]
  | RightClass d => [OClass d]
  | RightParam i => [OParam i]
  | RightRaises _ => []
  end.
Definition or_self (c : cls) (x : option cls) : cls := match x with Some d => d | None => c end.
Definition asked_binary (h : list call) (c : cls) (op : string) : list signature :=
  flat_map (fun x => match x with
    | AddBinary d o r l a => if Nat.eqb d c && String.eqb o op then map (mk_sig (or_self c r) (or_self c l)) (operand c a) else []
    | _ => [] end) h.
(** A class cannot be given for the right operand of an in-place operator (only None: the class itself). *)
Definition asked_inplace (h : list call) (c : cls) (op : string) : list signature :=
  flat_map (fun x => match x with
    | AddInplace d o a => if Nat.eqb d c && String.eqb o op then match a with RightClass _ => [] | _ => map (mk_sig c c) (operand c a) end else []
    | _ => [] end) h.
Definition asked_unary (h : list call) (c : cls) (op : string) : list (cls * cls) :=
  flat_map (fun x => match x with
    | AddUnary d o r l => if Nat.eqb d c && String.eqb o op then [(or_self c r, or_self c l)] else []
    | _ => [] end) h.
(** The class has the operator: some call names it, even one that failed. *)
Definition names_binary (h : list call) (c : cls) (op : string) : bool :=
  existsb (fun x => match x with AddBinary d o _ _ _ => Nat.eqb d c && String.eqb o op | _ => false end) h.
Definition names_inplace (h : list call) (c : cls) (op : string) : bool :=
  existsb (fun x => match x with AddInplace d o _ => Nat.eqb d c && String.eqb o op | _ => false end) h.
Definition names_unary (h : list call) (c : cls) (op : string) : bool :=
  existsb (fun x => match x with AddUnary d o _ _ => Nat.eqb d c && String.eqb o op | _ => false end) h.

Section Spec.
  Variables atom value : Type.
  Variable line : cls -> list cls.
  Variable param_in : nat -> list (cls * value) -> obj atom -> value + nat.
  Variable instance_as : cls -> cls -> value -> value.
  Variable cpp : string -> list (otype * value) -> value.
  Variable h : list call.
  Local Notation obj := (obj atom).
  Local Notation state := (state value).

  (** The nearest class in the line that has the operator decides. *)
  Fixpoint nearest (has : cls -> bool) (l : list cls) : option cls :=
    match l with [] => None | c :: r => if has c then Some c else nearest has r end.
  Definition signatures_of (has : cls -> bool) (asked : cls -> list signature) (s : state) (o : obj) : list signature :=
    match class_of s o with
    | Some c => match nearest has (line c) with Some d => asked d | None => [] end
    | None => []
    end.
  (** The signatures for x op y: of the class of x, then of the class of y; first y's if y's class derives from x's. *)
  Definition candidates (op : string) (s : state) (x y : obj) : list signature :=
    let of o := signatures_of (fun c => names_binary h c op) (fun c => asked_binary h c op) s o in
    match class_of s x, class_of s y with
    | Some c, Some d => if existsb (Nat.eqb c) (line d) then of y ++ of x else of x ++ of y
    | _, _ => of x ++ of y
    end.
  Definition inplace_candidates (iop : string) (s : state) (x : obj) : list signature :=
    signatures_of (fun c => names_inplace h c iop) (fun c => asked_inplace h c iop) s x.

  (** An object can be used as an operand: as one of a class if it is an instance of the class or of one derived from it, as one
      of a parameter type if that type accepts it. *)
  Inductive fits (s : state) : otype -> obj -> value -> Prop :=
  | fits_instance c n d v : nth_error (heap s) n = Some (d, v) -> In c (line d) -> fits s (OClass c) (Inst n) (instance_as d c v)
  | fits_parameter i o v : param_in i (heap s) o = inl v -> fits s (OParam i) o v.
  Definition converts (s : state) (g : signature) (x y : obj) (u v : value) : Prop :=
    fits s (OClass (g_left g)) x u /\ fits s (g_right g) y v.
  (** The first signature whose operands convert. *)
  Definition chosen (l : list signature) (s : state) (x y : obj) (g : signature) (u v : value) : Prop :=
    exists before after, l = before ++ g :: after /\ converts s g x y u v /\
      forall g' u' v', In g' before -> ~ converts s g' x y u' v'.
  (** A result is a new object with the result of the C++ operator on copies of the operands; all other objects keep their values. *)
  Definition with_result (s : state) (c : cls) (r : value) : state := mk_state (heap s ++ [(c, r)]) None.
  Definition none_fits (l : list signature) (s : state) (x y : obj) : Prop := forall g u v, In g l -> ~ converts s g x y u v.
  Definition by_signature (op : string) (l : list signature) (s : state) (x y : obj) (e : state * outcome atom) : Prop :=
    exists g u v, chosen l s x y g u v /\
      e = (with_result s (g_result g) (cpp op [(OClass (g_left g), u); (g_right g, v)]), Result (Inst (length (heap s)))).
  (** [x op y] is given by the first of the signatures that fits; if none fits, TypeError. *)
  Definition evaluates (op : string) (s : state) (x y : obj) (e : state * outcome atom) : Prop :=
    by_signature op (candidates op s x y) s x y e \/
    none_fits (candidates op s x y) s x y /\ e = (mk_state (heap s) (Some OperandTypeError), Raises).
  (** [x op= y]: by the in-place signatures of x's class, otherwise as [x op y]. *)
  Definition evaluates_inplace (iop op : string) (s : state) (x y : obj) (e : state * outcome atom) : Prop :=
    by_signature iop (inplace_candidates iop s x) s x y e \/
    none_fits (inplace_candidates iop s x) s x y /\ evaluates op s x y e.
  (** [-x]: the nearest class that has the unary operator, among those that have some binary or in-place operator. *)
  Definition names_numeric (c : cls) : bool :=
    existsb (fun op => names_binary h c op) ["+"; "-"; "*"; "/"] || existsb (fun op => names_inplace h c op) ["+="; "-="; "*="; "/="].
  Definition negatable (s : state) (x : obj) : option cls :=
    match class_of s x with
    | Some c => nearest (fun d => names_unary h d "-" && names_numeric d) (line c)
    | None => None
    end.
  Definition first_unary (l : list (cls * cls)) (s : state) (x : obj) (g : cls * cls) (u : value) : Prop :=
    exists before after, l = before ++ g :: after /\ fits s (OClass (snd g)) x u /\
      forall g' u', In g' before -> ~ fits s (OClass (snd g')) x u'.
  Definition evaluates_negative (s : state) (x : obj) (e : state * negated atom) : Prop :=
    match negatable s x with
    | Some d =>
        (exists g u, first_unary (asked_unary h d "-") s x g u /\
           e = (with_result s (fst g) (cpp "-" [(OClass (snd g), u)]), Negated (Inst (length (heap s))))) \/
        ((forall g u, In g (asked_unary h d "-") -> ~ fits s (OClass (snd g)) x u) /\
         e = (s, NotImplementedObject))
    | None => e = (mk_state (heap s) (Some OperandTypeError), NegationRaises)
    end.
End Spec.
