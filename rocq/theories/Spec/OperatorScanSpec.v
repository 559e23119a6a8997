(** What the scan of header files does with the operators of a class. *)
From Verif.Model Require Import Py Annotations OperatorScan.
Open Scope list_scope.
Open Scope string_scope.

Section Scan.
  Context {T P : Type} (cls_type : T) (is_ostream convertible : T -> bool) (class_of : T -> option string)
          (spec : T -> notes -> res P) (known : P -> bool).
  (** An operator on [args]: for a member, the class comes first.  It prints: std::ostream& operator<<(std::ostream&, the class or what it
      converts to). *)
  Definition prints (op : @operator T) (args : list T) : Prop :=
    o_symbol op = "<<" /\ is_ostream (o_return op) = true /\ length (o_args op) = 2 /\
    exists a b r, args = a :: b :: r /\ is_ostream a = true /\ convertible b = true.
  (** It compares two of the class. *)
  Definition compares (op : @operator T) (args : list T) : Prop :=
    In (o_symbol op) ["=="; "!="; "<"; "<="; ">"; ">="] /\ exists a b, args = [a; b] /\ convertible a = true /\ convertible b = true.
  Definition arithmetic (s : string) : Prop := In s ["+"; "-"; "*"; "/"].
  Definition in_place (s : string) : Prop := In s ["+="; "-="; "*="; "/="].
  (** It computes: the first argument is one of the class. *)
  Definition computes (op : @operator T) (args : list T) (a : T) (rest : list T) : Prop :=
    ~ prints op args /\ ~ compares op args /\ args = a :: rest /\ convertible a = true.
  (** The same, with classes for the result and the first argument. *)
  Definition between (op : @operator T) (args : list T) (ret arg0 : string) (rest : list T) : Prop :=
    exists a, computes op args a rest /\ class_of (o_return op) = Some ret /\ class_of a = Some arg0.
  (** What is written in the script, declared in memory, and complained about, for one operator. *)
  Inductive means (op : @operator T) (args : list T) : list (@call P) -> list (@call P) -> list complaint -> Prop :=
  | MPrints : prints op args -> means op args [OutputStream] [OutputStream] []
  | MCompares : compares op args -> means op args [Comparison (o_symbol op)] [Comparison (o_symbol op)] []
  | MForeign a r : ~ prints op args -> ~ compares op args -> args = a :: r -> convertible a = false -> means op args [] [] []
  | MNoResult a r : computes op args a r -> class_of (o_return op) = None -> means op args [] [] [NoResult]
  | MNoLeft a r ret : computes op args a r -> class_of (o_return op) = Some ret -> class_of a = None -> means op args [] [] [NoLeft]
  | MNegates ret arg0 : between op args ret arg0 [] -> o_symbol op = "-" -> means op args [Unary "-"] [Unary "-"] []
  | MUnary ret arg0 : between op args ret arg0 [] -> o_symbol op <> "-" -> means op args [] [] []
  | MNumeric ret arg0 b p : between op args ret arg0 [b] -> spec b (o_right op) = Ok p -> arithmetic (o_symbol op) -> known p = true ->
      means op args [Numeric (o_symbol op) ret arg0 p] [Numeric (o_symbol op) ret arg0 p] []
  | MNumericUnknown ret arg0 b p : between op args ret arg0 [b] -> spec b (o_right op) = Ok p -> arithmetic (o_symbol op) -> known p = false ->
      means op args [Numeric (o_symbol op) ret arg0 p] [] [NoRight]
  | MInplace ret arg0 b p : between op args ret arg0 [b] -> spec b (o_right op) = Ok p -> in_place (o_symbol op) -> known p = true ->
      means op args [Inplace (o_symbol op) p] [Inplace (o_symbol op) p] []
  | MInplaceUnknown ret arg0 b p : between op args ret arg0 [b] -> spec b (o_right op) = Ok p -> in_place (o_symbol op) -> known p = false ->
      means op args [Inplace (o_symbol op) p] [] [NoRight]
  | MBinary ret arg0 b p : between op args ret arg0 [b] -> spec b (o_right op) = Ok p -> ~ arithmetic (o_symbol op) -> ~ in_place (o_symbol op) ->
      means op args [] [] (if known p then [] else [NoRight])
  | MCount ret arg0 b c r : between op args ret arg0 (b :: c :: r) -> means op args [] [] [WrongCount].
  (** The operators that are looked at: all free ones, then the public members, the class being their first argument. *)
  Definition looked_at (free members : list (@operator T)) : list (@operator T * list T) :=
    (map (fun op => (op, o_args op)) free ++ map (fun op => (op, cls_type :: o_args op)) (filter o_public members))%list.
  (** What all of them mean, in order. *)
  Inductive mean_all : list (@operator T * list T) -> list (@call P) -> list (@call P) -> list complaint -> Prop :=
  | AllNone : mean_all [] [] [] []
  | AllMore op args l s s' m m' w w' : means op args s m w -> mean_all l s' m' w' -> mean_all ((op, args) :: l) (s ++ s')%list (m ++ m')%list (w ++ w')%list.
End Scan.
