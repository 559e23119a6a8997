(** What attributes of wrapped classes are expected to be. *)
From Verif.Model Require Import Py Attributes.
Open Scope string_scope.
Open Scope list_scope.

(** ** What a declaration says *)
Definition class_of (d : adecl) : nat := match d with AInstance k _ _ _ _ _ _ => k | ACustom k _ _ _ _ _ _ _ _ => k | AStatic k _ _ _ => k end.
Definition cpp_name_of (d : adecl) : string := match d with AInstance _ n _ _ _ _ _ => n | ACustom _ n _ _ _ _ _ _ _ => n | AStatic _ n _ _ => n end.
Definition type_of (d : adecl) : nat := match d with AInstance _ _ v _ _ _ _ => v | ACustom _ _ v _ _ _ _ _ _ => v | AStatic _ _ v _ => v end.
Definition is_static (d : adecl) : Prop := match d with AStatic _ _ _ _ => True | _ => False end.
Definition read_only (d : adecl) : Prop := match d with AInstance _ _ _ c _ _ _ => c = true | ACustom _ _ _ c _ _ _ _ _ => c = true | AStatic _ _ _ c => c = true end.
Definition has_setter (d : adecl) : Prop := match d with AInstance _ _ _ _ _ s _ => s <> None | ACustom _ _ _ _ _ s _ _ _ => s <> None | AStatic _ _ _ _ => False end.
(** A constant attribute with a setter is a contradiction. *)
Definition acceptable (d : adecl) : Prop := ~ (read_only d /\ has_setter d).
(** The name in Python: custom_name if given (and not empty), or the name. *)
Definition python_name (d : adecl) : string :=
  match d with
  | AInstance _ n _ _ _ _ (Some "") | ACustom _ n _ _ _ _ (Some "") _ _ => n
  | AInstance _ _ _ _ _ _ (Some x) | ACustom _ _ _ _ _ _ (Some x) _ _ => x
  | AInstance _ n _ _ _ _ None | ACustom _ n _ _ _ _ None _ _ | AStatic _ n _ _ => n
  end.

(** ** What reading and writing it means in C++ *)
Section Meaning.
  Context {St Val Py Obj : Type}.
  Variable P : program St Val Py Obj.
  Definition value (d : adecl) (o : Obj) (s : St) : Val * St :=
    match d with
    | AInstance k n _ _ None _ _ => (member_get P o k n s, s)
    | AInstance k _ _ _ (Some g) _ _ => method_get P o k g s
    | ACustom k _ _ _ g _ _ ts _ => function_get P o k g ts s
    | AStatic k n _ _ => (static_get P k n s, s)
    end.
  Definition stored (d : adecl) (o : Obj) (v : Val) (s : St) : St :=
    match d with
    | AInstance k n _ _ _ None _ | ACustom k n _ _ _ None _ _ _ => member_set P o k n v s
    | AInstance k _ _ _ _ (Some m) _ => method_set P o k m v s
    | ACustom k _ _ _ _ (Some f) _ _ ts => function_set P o k f ts v s
    | AStatic k n _ _ => static_set P k n v s
    end.
  (** The Python value that is read, with the state afterwards. *)
  Definition reads (d : adecl) (o : Obj) (s : St) (out : outcome St Py) : Prop :=
    out = Done (to_py P (type_of d) (fst (value d o s))) (snd (value d o s)).
  (** What happens when [x] is assigned. *)
  Definition writes (d : adecl) (o : Obj) (x : Py) (s : St) (out : outcome St Py) : Prop :=
    match of_py P (type_of d) x with
    | Some v => out = Stored (stored d o v s)
    | None => out = Raised TypeError
    end.
End Meaning.

(** ** Where Python finds it *)
Section Lookup.
  Variable decls : list adecl.
  Variable parents : nat -> list nat.
  Variable methods : nat -> list string.
  (** Class [k] has an instance attribute called [n] in Python / it has this or a method called so. *)
  Definition an_attribute (k : nat) (n : string) : Prop := exists d, In d decls /\ acceptable d /\ ~ is_static d /\ class_of d = k /\ python_name d = n.
  Definition a_static (k : nat) (n : string) : Prop := exists d, In d decls /\ acceptable d /\ is_static d /\ class_of d = k /\ python_name d = n.
  Definition offers (k : nat) (n : string) : Prop := In n (methods k) \/ an_attribute k n.
  (** [d] is the attribute of its class called [n] in Python (the first, if there are several), and no method has the name. *)
  Definition the_attribute (d : adecl) (n : string) : Prop :=
    ~ is_static d /\ acceptable d /\ python_name d = n /\ ~ In n (methods (class_of d)) /\
    exists before after, decls = before ++ d :: after /\
      forall e, In e before -> acceptable e -> ~ is_static e -> class_of e = class_of d -> python_name e <> n.
  Definition the_static (d : adecl) (n : string) : Prop :=
    is_static d /\ acceptable d /\ python_name d = n /\ In d decls.
  (** [l] is the way from [i] to [k] by first parents. *)
  Inductive first_parents : nat -> list nat -> nat -> Prop :=
  | first_here i : first_parents i [] i
  | first_next i b r l k : parents i = b :: r -> first_parents b l k -> first_parents i (i :: l) k.
  Definition first_line (i k : nat) : Prop := exists l, first_parents i l k.
  (** All the classes that [i] derives from, with [i] itself. *)
  Inductive ancestor : nat -> nat -> Prop :=
  | ancestor_self i : ancestor i i
  | ancestor_up i b k : In b (parents i) -> ancestor b k -> ancestor i k.
  (** Classes are declared after their parents. *)
  Definition ordered : Prop := forall i b, In b (parents i) -> b < i.
  (** The nearest class for the name [n] of an instance of class [i] is [k]: of single inheritance, the first on the way up
      that offers it; otherwise the only one that does. *)
  Definition nearest (i : nat) (n : string) (k : nat) : Prop :=
    (exists l, first_parents i l k /\ forall j, In j l -> length (parents j) = 1 /\ ~ offers j n) \/
    (ancestor i k /\ forall j, ancestor i j -> offers j n -> j = k).
  Definition nearest_static (i : nat) (n : string) (k : nat) : Prop :=
    exists l, first_parents i l k /\ forall j, In j l -> ~ a_static j n.
End Lookup.

(** ** Scripts *)
(** Each declaration has its own ReturnValue. *)
Definition unshared (decls : list adecl) : Prop := NoDup (map type_of decls).
(** No two attributes of a class have the same C++ name. *)
Definition distinct_names (decls : list adecl) : Prop :=
  forall l1 d l2 e l3, decls = l1 ++ d :: l2 ++ e :: l3 -> acceptable d -> acceptable e -> class_of d = class_of e -> cpp_name_of d <> cpp_name_of e.
(** The names of the wrapper structures of different classes do not make names of functions ambiguous. *)
Definition unambiguous (pystruct : nat -> string) (order : list nat) : Prop :=
  forall i j, In i order -> In j order -> i <> j -> pystruct i <> pystruct j /\ forall x, pystruct j <> (pystruct i ++ "__" ++ x)%string.
