(** What is expected of an imported module. *)
From Verif.Model Require Import Py Import.
Open Scope string_scope.
Open Scope list_scope.

Section Spec.
  Variable decls : list decl.
  Variable const : string -> option Z.
  Variable external : string -> option (string -> bool).
  Definition declared (k : nat) (d : decl) : Prop := nth_error decls k = Some d.

  (** ** The tree of modules *)
  Definition parent (b p : nat) : Prop := exists n x, declared b (DModule (Some p) n x).
  Inductive under (a : nat) : nat -> Prop :=
  | under_self : under a a
  | under_sub b p : parent b p -> under a p -> under a b.
  Definition encloses (a b : nat) : Prop := a <> b /\ under a b.
  (** [a] and [b] are in submodules of the same module, [a] in the one declared first. *)
  Definition earlier_branch (a b : nat) : Prop := exists p c c', parent c p /\ parent c' p /\ c < c' /\ under c a /\ under c' b.
  (** The module of a declaration that is not a module. *)
  Definition home (k m : nat) : Prop := exists d, declared k d /\
    match d with
    | DModule _ _ _ => False
    | DFunction m' _ | DClass m' _ | DContainer m' _ _ | DException m' _ _ _ _ | DTypedef m' _ _ | DEnum m' _ _ _ _ _ => m' = m
    end.

  (** ** Programs that can be written: declarations refer to earlier ones *)
  Definition a_module (m : nat) : Prop := exists p n x, declared m (DModule p n x).
  Definition a_class (k : nat) : Prop := exists m c, declared k (DClass m c).
  Definition an_exception (k : nat) : Prop := exists m n o p s, declared k (DException m n o p s).
  Definition earlier_class (k : nat) (o : option nat) : Prop := forall i, o = Some i -> i < k /\ a_class i.
  Definition well_formed : Prop :=
    (exists n x, declared 0 (DModule None n x)) /\
    forall k d, declared k d ->
      match d with
      | DModule None _ _ => k = 0
      | DModule (Some p) _ _ => p < k /\ a_module p
      | DFunction m _ => a_module m /\ m < k
      | DClass m c => a_module m /\ m < k /\ earlier_class k (c_outer c) /\ forall b, In b (c_bases c) -> b < k /\ a_class b
      | DContainer m _ o => a_module m /\ m < k /\ earlier_class k o
      | DException m _ o p _ => a_module m /\ m < k /\ earlier_class k o /\ forall i, p = Some i -> i < k /\ an_exception i
      | DTypedef m c _ => a_module m /\ m < k /\ c < k /\ a_class c
      | DEnum m _ _ _ o _ => a_module m /\ m < k /\ earlier_class k o
      end.

  (** ** The order between modules *)
  Definition imports (k : nat) (s : string) : Prop := exists m c, declared k (DClass m c) /\ c_import c = Some s.
  (** What is written into a class must be in its module, or in a branch declared later. *)
  Definition nested_in (k o : nat) : Prop :=
    (exists m c, declared k (DClass m c) /\ c_import c = None /\ c_outer c = Some o) \/
    (exists m n, declared k (DContainer m n (Some o))) \/
    (exists m n p, declared k (DException m n (Some o) p false)).
  (** What refers to another declaration must be in its module, in one enclosed by it, or in a branch declared later. *)
  Definition refers_to (k o : nat) : Prop :=
    (exists m c, declared k (DClass m c) /\ c_import c = None /\ In o (c_bases c)) \/
    (exists m n u, declared k (DException m n u (Some o) false)) \/
    (exists m vs p ns, declared k (DEnum m vs p ns (Some o) false)).
  Definition in_order : Prop :=
    (forall k o a b, nested_in k o -> home o a -> home k b -> a = b \/ earlier_branch a b) /\
    (forall k o a b, refers_to k o -> home o a -> home k b -> a = b \/ encloses a b \/ earlier_branch a b) /\
    (** Classes from elsewhere have no nested types; only classes at the top have container traits. *)
    (forall k o s, nested_in k o -> ~ imports o s) /\
    (forall k m c, declared k (DClass m c) -> c_iter c = true -> c_import c = None -> c_outer c = None).
  (** import_from_module is the name of a module, or "module named name". *)
  Inductive names_module : string -> string -> Prop :=
  | names_plain s : (forall a b, s <> (a ++ " named " ++ b)%string) -> names_module s s
  | names_named a b : (forall x y, (a ++ " named " ++ b = x ++ " named " ++ y)%string -> x = a) -> names_module (a ++ " named " ++ b)%string a.
  (** The name of a class in Python. *)
  Definition python_name (c : classd) : string := match c_custom c with Some n => n | None => c_name c end.
  Definition found_elsewhere : Prop :=
    forall k m c s, declared k (DClass m c) -> c_import c = Some s -> exists mn has, names_module s mn /\ external mn = Some has /\ has (python_name c) = true.

  (** ** What a declaration offers to Python, and where *)
  Inductive place : Type := InModule (m : nat) | InClass (o : nat).
  Definition place_of (m : nat) (outer : option nat) : place := match outer with None => InModule m | Some o => InClass o end.
  Definition scoped (s n : string) : string := if String.eqb s "" then n else (s ++ "::" ++ n)%string.
  Definition namespace (m : nat) : string := match nth_error decls m with Some (DModule _ _ x) => x | _ => "" end.
  Definition cpp_name (k : nat) : string := match nth_error decls k with Some (DClass _ c) => c_full c | _ => "" end.
  Definition shown (v : evalue) : string := match v with EName n => n | EPair n _ => n end.
  (** The C++ constant that a value of an enumeration stands for. *)
  Definition meant (m : nat) (values_prefix : string) (ns : option string) (outer : option nat) (v : evalue) : string :=
    match v, outer with
    | EPair _ e, _ => e
    | EName n, None => scoped (namespace m) (scoped (match ns with Some s => s | None => "" end) (values_prefix ++ n)%string)
    | EName n, Some o => (cpp_name o ++ "::" ++ n)%string
    end.
  Inductive offers (k : nat) : place -> string -> thing -> Prop :=
  | offers_function m n : declared k (DFunction m n) -> offers k (InModule m) n (XFunction k)
  | offers_class m c : declared k (DClass m c) -> c_import c = None -> offers k (place_of m (c_outer c)) (python_name c) (XType (Cls k))
  | offers_capsule m c n : declared k (DClass m c) -> c_import c = None -> In n (c_capsules c) -> offers k (InModule m) n (XCapsule n)
  | offers_class_iter m c : declared k (DClass m c) -> c_import c = None -> c_iter c = true -> offers k (InModule m) (python_name c ++ "Iter") (XType (Iter k))
  | offers_container m n o : declared k (DContainer m n o) -> offers k (place_of m o) n (XType (Cls k))
  | offers_container_iter m n o : declared k (DContainer m n o) -> offers k (place_of m o) (n ++ "Iter") (XType (Iter k))
  | offers_exception m n o p : declared k (DException m n o p false) -> offers k (place_of m o) n (XException k)
  | offers_typedef m c n : declared k (DTypedef m c n) -> offers k (InModule m) n (XType (Cls c))
  | offers_value m vs p ns o v z : declared k (DEnum m vs p ns o false) -> In v vs -> const (meant m p ns o v) = Some z -> offers k (place_of m o) (shown v) (XInt z)
  | offers_submodule m n x : declared k (DModule (Some m) n x) -> offers k (InModule m) n (XModule k).

  (** The attribute [n] of a module or class. *)
  Definition attribute (r : rt) (p : place) (n : string) : option thing :=
    match p with
    | InModule m => dict_get (r_mod r m) n
    | InClass o => match r_type r (Cls o) with Some y => dict_get (t_dict y) n | None => None end
    end.

  (** ** Names of types *)
  Inductive dotted : nat -> string -> Prop :=
  | dotted_root m n x : declared m (DModule None n x) -> dotted m n
  | dotted_sub m p n x s : declared m (DModule (Some p) n x) -> dotted p s -> dotted m (s ++ "." ++ n).
  Inductive called : nat -> string -> Prop :=
  | called_class k m c s : declared k (DClass m c) -> c_outer c = None -> dotted m s -> called k (s ++ "." ++ c_name c)
  | called_nested_class k m c o s : declared k (DClass m c) -> c_outer c = Some o -> called o s -> called k (s ++ "." ++ c_name c)
  | called_container k m n s : declared k (DContainer m n None) -> dotted m s -> called k (s ++ "." ++ n)
  | called_nested_container k m n o s : declared k (DContainer m n (Some o)) -> called o s -> called k (s ++ "." ++ n)
  | called_exception k m n p x s : declared k (DException m n None p x) -> dotted m s -> called k (s ++ "." ++ n)
  | called_nested_exception k m n o p x s : declared k (DException m n (Some o) p x) -> called o s -> called k (s ++ "." ++ n).
  (** The declarations that define a type. *)
  Definition defines_type (k : nat) : Prop :=
    (exists m c, declared k (DClass m c) /\ c_import c = None) \/ (exists m n o, declared k (DContainer m n o)) \/ (exists m n o p, declared k (DException m n o p false)).
End Spec.
