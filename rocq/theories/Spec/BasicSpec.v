(** What Python values become in C++ and what C++ values become in Python, for the basic types: independently of any code. *)
From Verif.Model Require Import Py IntHandlers Utf8 BasicHandlers.
From Verif.Spec Require Import IntSpec.
From Coq Require Import ZArith.
Open Scope list_scope.
Local Open Scope Z_scope.

Section BasicSpec.
  Context {N : numerics}.
  Notation pyv := (pyv N).
  Notation cval := (cval N).

  (** ** From Python to C++ *)
  (** The kinds of values. *)
  Inductive kind : Type := KInt (h : param_handler) | KBool | KDouble | KFloat | KCString | KChar | KString | KObject.
  Definition kind_of (x : bparam) : kind :=
    match bp_handler x with
    | HInt h => KInt h
    | HBool | HBoolPtr | HBoolRef => KBool
    | HDouble | HDoublePtr | HDoubleRef => KDouble
    | HFloat | HFloatPtr | HFloatRef => KFloat
    | HCString => KCString
    | HChar => KChar
    | HStdString | HStdStringRef | HStdStringPtr _ => KString
    | HPyObject _ => KObject
    end.

  Definition integer (v : pyv) (z : Z) : Prop := v = PInt _ z \/ (exists b : bool, v = PBool _ b /\ z = if b then 1 else 0).
  Definition number (v : pyv) (d : double N) : Prop := v = PFloat _ d \/ exists z, integer v z /\ of_int N z = Some d.
  Definition not_a_number (v : pyv) : Prop := (forall d, v <> PFloat _ d) /\ forall z, ~ integer v z.

  (** [v] is converted to [c]. *)
  Definition arrives (p : platform) (k : kind) (v : pyv) (c : cval) : Prop :=
    match k with
    | KInt h => exists z y, integer v z /\ param_accepts p h z /\ wrapped (param_type p h) z y /\ c = VInt _ y
    | KBool => exists b, truth _ v = Some b /\ c = VBool _ b
    | KDouble => exists d, number v d /\ c = VDouble _ d
    | KFloat => exists d, number v d /\ c = VSingle _ (narrow N d)
    | KCString => exists s b, v = PStr _ s /\ encode s = Some b /\ ~ In 0 s /\ c = VCStr _ (Some b)
    | KChar => exists a, v = PBytes _ [a] /\ c = VChar _ a
    | KString => (exists s b, v = PStr _ s /\ encode s = Some b /\ c = VString _ b) \/ (exists b, v = PBytes _ b /\ c = VString _ b)
    | KObject => c = VObject _ (Some v)
    end.
  (** [v] is refused when the arguments are parsed. *)
  Definition refused (p : platform) (k : kind) (v : pyv) (e : perr) : Prop :=
    match k with
    | KInt h => ((forall z, ~ integer v z) /\ e = TypeErr) \/
                exists z, integer v z /\ ~ param_accepts p h z /\ param_error h z = OverflowE /\ e = OverflowErr
    | KBool | KObject => False
    | KDouble | KFloat => (not_a_number v /\ e = TypeErr) \/ (exists z, integer v z /\ of_int N z = None /\ e = OverflowErr)
    | KCString => ((forall s, v <> PStr _ s) /\ e = TypeErr) \/ (exists s, v = PStr _ s /\ (encode s = None \/ In 0 s) /\ e = ValueErr)
    | KChar => (forall a, v <> PBytes _ [a]) /\ e = TypeErr
    | KString => ((forall s, v <> PStr _ s /\ v <> PBytes _ s) /\ e = TypeErr) \/ (exists s, v = PStr _ s /\ encode s = None /\ e = ValueErr)
    end.
  (** [v] is refused by a check made once all the arguments are parsed. *)
  Definition out_of_range (p : platform) (k : kind) (v : pyv) : Prop :=
    match k with
    | KInt h => exists z, integer v z /\ ~ param_accepts p h z /\ param_error h z = ValueE
    | _ => False
    end.

  (** ** Parameters *)
  (** The C++ types each handler is registered for (CTYPES), and the directions it supports. *)
  Definition basic_ctypes (h : bhandler) : list string :=
    match h with
    | HInt h => param_ctypes h
    | HBool => ["bool"] | HBoolPtr => ["bool*"] | HBoolRef => ["bool&"]
    | HDouble => ["double"] | HDoublePtr => ["double*"] | HDoubleRef => ["double&"]
    | HFloat => ["float"] | HFloatPtr => ["float*"] | HFloatRef => ["float&"; "float &"]
    | HCString => ["char*"; "char *"] | HChar => ["char"]
    | HStdString => ["std::string"] | HStdStringRef => ["std::string&"] | HStdStringPtr _ => ["std::string*"]
    | HPyObject _ => ["PyObject*"; "PyObject *"]
    end%string.
  Definition two_way (h : bhandler) : Prop :=
    match h with
    | HInt h => bidirectional h = true
    | HBoolPtr | HBoolRef | HDoublePtr | HDoubleRef | HFloatPtr | HFloatRef | HStdStringRef => True
    | HStdStringPtr t => t = false
    | _ => False
    end.
  (** The handlers for which a default value makes the argument optional. *)
  Definition honours_default (h : bhandler) : Prop :=
    match h with
    | HInt h => allows_default h
    | HBool | HDouble | HCString | HChar | HStdString | HStdStringRef => True
    | _ => False
    end.
  Definition sound_param (x : bparam) : Prop :=
    In (bp_ctype x) (basic_ctypes (bp_handler x)) /\
    (bp_in x = true \/ bp_out x = true) /\ (bp_out x = true \/ bp_in x = false -> two_way (bp_handler x)) /\
    (forall d, bp_default x = Some d -> honours_default (bp_handler x) /\ d <> ""%string).

  (** The value of a default value expression; NULL for a char pointer. *)
  Definition default_is (p : platform) (eval : ctyp -> string -> cval) (k : kind) (d : string) (c : cval) : Prop :=
    match k with
    | KInt h => exists z, (forall t, eval (TInt t) d = VInt _ z) /\ in_range (param_type p h) z /\ c = VInt _ z
    | KBool => exists b, eval TBool d = VBool _ b /\ c = VBool _ b
    | KDouble => exists x, eval TDouble d = VDouble _ x /\ c = VDouble _ x
    | KFloat => exists x, eval TSingle d = VSingle _ x /\ c = VSingle _ x
    | KCString => (d = "NULL"%string /\ c = VCStr _ None) \/ (d <> "NULL"%string /\ exists o, eval TCStr d = VCStr _ o /\ c = VCStr _ o)
    | KChar => exists x, eval TChar d = VChar _ x /\ c = VChar _ x
    | KString => exists l, eval TString d = VString _ l /\ c = VString _ l
    | KObject => False
    end.

  (** An argument: None when not given. *)
  Definition arg_arrives (p : platform) (eval : ctyp -> string -> cval) (x : bparam) (a : option pyv) (c : cval) : Prop :=
    match a with
    | Some v => arrives p (kind_of x) v c
    | None => exists d, bp_default x = Some d /\ default_is p eval (kind_of x) d c
    end.
  Definition arg_refused (p : platform) (x : bparam) (a : option pyv) (e : perr) : Prop :=
    match a with
    | Some v => refused p (kind_of x) v e
    | None => bp_default x = None /\ e = TypeErr
    end.
  Definition arg_out_of_range (p : platform) (x : bparam) (a : option pyv) : Prop :=
    match a with Some v => out_of_range p (kind_of x) v | None => False end.

  (** The arguments belong to the input parameters, in order. *)
  Fixpoint deal (ps : list bparam) (args : list (option pyv)) : list (bparam * option (option pyv)) :=
    match ps with
    | [] => []
    | x :: r => if bp_in x then match args with
                                | a :: args' => (x, Some a) :: deal r args'
                                | [] => (x, Some None) :: deal r []
                                end
                else (x, None) :: deal r args
    end.
  Definition inputs (ps : list bparam) : nat := length (filter bp_in ps).
  (** What C++ finds in a variable for output only: an empty string, or nothing it may read. *)
  Definition blank (k : kind) : cval := match k with KString => VString _ [] | _ => VJunk _ end.
  Definition gets (p : platform) (eval : ctyp -> string -> cval) (xa : bparam * option (option pyv)) (c : cval) : Prop :=
    match snd xa with
    | Some a => arg_arrives p eval (fst xa) a c
    | None => c = blank (kind_of (fst xa))
    end.
  (** An object whose truth cannot be told (its __bool__ raises) given for a bool. *)
  Definition untold (xa : bparam * option (option pyv)) : Prop := kind_of (fst xa) = KBool /\ exists v, snd xa = Some (Some v) /\ truth _ v = None.
  (** What C++ receives for a parameter, and whether an exception is left behind. *)
  Definition reaches (p : platform) (eval : ctyp -> string -> cval) (xa : bparam * option (option pyv)) (c : cval) (pending : bool) : Prop :=
    (gets p eval xa c /\ pending = false) \/ (untold xa /\ c = VBool _ true /\ pending = true).
  (** Default values have a value of the type. *)
  Definition sane_default (p : platform) (eval : ctyp -> string -> cval) (x : bparam) : Prop :=
    forall d, bp_default x = Some d -> exists c, default_is p eval (kind_of x) d c.

  (** ** References and objects *)
  (** The references taken for C++, and the strings created for C++. *)
  Definition taken (xa : bparam * option (option pyv)) : list (event N) :=
    match bp_handler (fst xa), snd xa with
    | HPyObject true, Some (Some v) => [EvIncref _ v]
    | _, _ => []
    end.
  Definition created (x : bparam) : list (event N) := match bp_handler x with HStdStringPtr true => [EvNew _] | _ => [] end.
  (** The references taken when a PyObject pointer is returned that belongs to somebody else. *)
  Definition borrowed (r : breturn) (o : option cval) : list (event N) :=
    match r, o with
    | RPyObject false, Some (VObject _ (Some v)) => [EvIncref _ v]
    | _, _ => []
    end.

  (** ** From C++ to Python *)
  (** The values of a C++ type. *)
  Definition typed (p : platform) (k : kind) (c : cval) : Prop :=
    match k with
    | KInt h => exists z, c = VInt _ z /\ in_range (param_type p h) z
    | KBool => exists b, c = VBool _ b
    | KDouble => exists d, c = VDouble _ d
    | KFloat => exists f, c = VSingle _ f
    | KCString => exists o, c = VCStr _ o
    | KChar => exists a, c = VChar _ a
    | KString => exists l, c = VString _ l
    | KObject => exists o, c = VObject _ o
    end.
  (** The Python value for a C++ value, or the exception raised instead. *)
  Definition text (l : list Z) : pyv + perr := match decode l with Some s => inl (PStr _ s) | None => inr ValueErr end.
  (** What a C string holds: the bytes before the first NUL. *)
  Fixpoint before_nul (l : list Z) : list Z :=
    match l with
    | 0 :: _ => []
    | b :: r => b :: before_nul r
    | [] => []
    end.
  Definition shown (c : cval) : pyv + perr :=
    match c with
    | VInt _ z => inl (PInt _ z)
    | VBool _ b => inl (PBool _ b)
    | VDouble _ d => inl (PFloat _ d)
    | VSingle _ f => inl (PFloat _ (widen N f))
    | VChar _ a => inl (PBytes _ [a mod 256])
    | VCStr _ None => inl (PNone _)
    | VCStr _ (Some l) => text (before_nul l)
    | VString _ l => text l
    | VObject _ (Some v) => inl v
    | VObject _ None => inr SystemErr
    | _ => inr TypeErr
    end.

  (** Return values: their type, and whether they come before the output parameters. *)
  Definition typed_return (p : platform) (r : breturn) (c : option cval) : Prop :=
    match r, c with
    | RVoid, None => True
    | RInt h t, Some (VInt _ z) => In t (return_ctypes h) /\ in_range (return_type p h) z
    | RBool, Some (VBool _ _) | RDouble, Some (VDouble _ _) | RFloat, Some (VSingle _ _) | RCString, Some (VCStr _ _)
    | RChar, Some (VChar _ _) | RStdString, Some (VString _ _) | RStdStringRef, Some (VString _ _) | RPyObject _, Some (VObject _ _) => True
    | _, _ => False
    end.
  Definition comes_last (r : breturn) : bool := match r with RChar | RCString => true | _ => false end.
  (** The parameters C++ can write to. *)
  Definition by_reference (h : bhandler) : bool :=
    match h with
    | HInt h => match param_passing h with ByValue => false | _ => true end
    | HBoolPtr | HBoolRef | HDoublePtr | HDoubleRef | HFloatPtr | HFloatRef | HStdStringRef | HStdStringPtr _ => true
    | _ => false
    end.
  (** A C++ function: given one value of its type for each parameter it returns a value of its return type, and leaves values of their
      types in the parameters passed by reference. *)
  Definition typed_outs (p : platform) (ps : list bparam) (outs : list cval) : Prop :=
    Forall2 (fun x c => by_reference (bp_handler x) = true -> typed p (kind_of x) c) ps outs.
  Definition receivable (p : platform) (x : bparam) (c : cval) : Prop := typed p (kind_of x) c \/ (bp_in x = false /\ c = blank (kind_of x)).
  Definition typed_function (p : platform) (r : breturn) (ps : list bparam) (f : cppfun N) : Prop :=
    forall cs, Forall2 (receivable p) ps cs -> typed_return p r (fst (f cs)) /\ typed_outs p ps (snd (f cs)).

  (** The values returned to Python, in order. *)
  Definition out_values (ps : list bparam) (outs : list cval) : list (pyv + perr) :=
    flat_map (fun xc => if bp_out (fst xc) then [shown (snd xc)] else []) (combine ps outs).
  Definition returned_values (r : breturn) (ps : list bparam) (o : option cval * list cval) : list (pyv + perr) :=
    let rv := match fst o with Some c => [shown c] | None => [] end in
    if comes_last r then out_values ps (snd o) ++ rv else rv ++ out_values ps (snd o).
  (** None, the value, or a tuple; or the first exception. *)
  Fixpoint collect (l : list (pyv + perr)) : list pyv + perr :=
    match l with
    | [] => inl []
    | inr e :: _ => inr e
    | inl v :: r => match collect r with inl vs => inl (v :: vs) | inr e => inr e end
    end.
  Definition final (l : list (pyv + perr)) : answer N :=
    match collect l with
    | inr e => Raises _ e
    | inl [] => Returns _ (PNone _)
    | inl [v] => Returns _ v
    | inl vs => Returns _ (PTuple _ vs)
    end.

  (** An exception left behind turns a result into SystemError. *)
  Definition concluded (pending : bool) (a : answer N) : answer N :=
    match a with Returns _ _ => if pending then Raises _ SystemErr else a | _ => a end.

  (** ** Names *)
  (** The variables the wrapper needs for each parameter: their names as requested. *)
  Definition requested (r : breturn) (ps : list bparam) : list string :=
    ["py_retval"%string] ++ match r with RVoid => [] | _ => ["retval"%string] end ++ ["args"%string; "kwargs"%string] ++
    flat_map (fun x => map (fun w => snd (fst w)) (wants x)) ps.
  Definition ends_in_a_digit (s : string) : Prop := exists q c, s = String.append q (String c "") /\ (48 <= nat_of_ascii c <= 57)%nat.
  (** Enough for the names handed out to be distinct: those requested are, or none ends in a digit. *)
  Definition known_return (r : breturn) : Prop := match r with RInt h c => In c (return_ctypes h) | _ => True end.
  Definition clear_names (r : breturn) (ps : list bparam) : Prop :=
    NoDup (requested r ps) \/ Forall (fun n => ~ ends_in_a_digit n) (requested r ps).

  (** ** Functions that can be wrapped *)
  Definition wrappable (p : platform) (eval : ctyp -> string -> cval) (r : breturn) (ps : list bparam) : Prop :=
    valid_platform p /\ Forall sound_param ps /\ Forall (sane_default p eval) ps /\ known_return r /\ clear_names r ps.
  (** No argument up to there is refused. *)
  Definition parsed (p : platform) (d : list (bparam * option (option pyv))) : Prop :=
    forall x a e, In (x, Some a) d -> ~ arg_refused p x a e.
  Definition inside (p : platform) (d : list (bparam * option (option pyv))) : Prop :=
    forall x a, In (x, Some a) d -> ~ arg_out_of_range p x a.
End BasicSpec.
