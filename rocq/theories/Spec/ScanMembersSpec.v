(** What the members of a class in a header file become. *)
From Verif.Model Require Import Py ScanMembers.
Open Scope string_scope.
Open Scope list_scope.

(** ** Members *)
(** Not annotated "ignore" and not one of the reference counting methods. *)
Definition named (e : env) (n : string) (ignored : bool) : Prop := ~ In n (e_counting e) /\ ignored = false.
Definition wanted (e : env) (m : member) : Prop :=
  match m with
  | Method f | Operator _ f => named e (f_name f) (f_ignore f)
  | Constructor n k => named e n (k_ignore k)
  | Attribute v => named e (v_name v) (v_ignore v)
  | Destructor => named e "" false
  end.
(** A method as Python sees it: a member function, or the call operator under the name __call__. *)
Inductive as_method : member -> func -> option string -> Prop :=
| as_function f : as_method (Method f) f (f_custom f)
| as_call f : as_method (Operator "()" f) f (Some "__call__").
(** A method that can be called from Python or overridden there. *)
Definition relevant (f : func) : Prop := f_access f <> APrivate \/ f_virtuality f <> VNot.
Definition params_known (e : env) (l : list (string * string)) : Prop := forall t n, In (t, n) l -> e_param e t = true.
Definition types_known (e : env) (f : func) : Prop := e_return e (f_return f) = true /\ params_known e (f_params f).
(** The declaration says what the header says. *)
Record describes (f : func) (custom : option string) (d : method_decl) : Prop := {
  dsc_name : d_name d = f_name f; dsc_return : d_return d = f_return f; dsc_params : d_params d = f_params f; dsc_custom : d_custom d = custom;
  dsc_threads : d_threads d = f_threads f; dsc_const : d_const d = f_const f; dsc_static : d_static d = f_static f;
  dsc_virtual : d_virtual d = true <-> f_virtuality f <> VNot; dsc_pure : d_pure d = true <-> f_virtuality f = VPure;
  dsc_access : d_access d = f_access f; dsc_deprecated : d_deprecated d = f_deprecated f;
  dsc_throw : f_exceptions f <> [] /\ d_throw d = f_exceptions f \/ f_exceptions f = [] /\ d_throw d = f_annotated f }.
Definition visible_attribute (v : var) : Prop := v_name v <> "" /\ v_access v = APublic /\ v_untyped v = false.
Definition attribute_call (v : var) (c : call) : Prop :=
  v_static v = true /\ c = AddStaticAttribute (v_name v) (v_type v) (v_const v) \/ v_static v = false /\ c = AddInstanceAttribute (v_name v) (v_type v) (v_const v).
(** What is added to the class in memory for one member. *)
Definition adds (e : env) (m : member) (c : call) : Prop :=
  wanted e m /\
  match m with
  | Constructor _ k => k_access k <> APrivate /\ params_known e (k_params k) /\ c = AddConstructor (k_params k) (k_access k) (k_exceptions k) (k_deprecated k)
  | Attribute v => visible_attribute v /\ e_return e (v_type v) = true /\ attribute_call v c
  | Destructor => False
  | _ => exists f custom d, as_method m f custom /\ relevant f /\ types_known e f /\ describes f custom d /\ e_accepts e d = true /\ c = AddMethod d
  end.
(** The calls that add something. *)
Definition addition (c : call) : bool := match c with SetCannotBeConstructed | DisableHelper => false | _ => true end.
(** One call at most for each member, in the order of the members. *)
Inductive added (e : env) : list member -> list call -> Prop :=
| added_end : added e [] []
| added_one m ms c cs : adds e m c -> added e ms cs -> added e (m :: ms) (c :: cs)
| added_none m ms cs : (forall c, ~ adds e m c) -> added e ms cs -> added e (m :: ms) cs.

(** ** The script *)
(** A call that succeeds when the script is run where the same types are known. *)
Definition succeeds (e : env) (c : call) : bool :=
  match c with
  | AddMethod d => e_return e (d_return d) && forallb (fun p => e_param e (fst p)) (d_params d) && e_accepts e d
  | AddConstructor ps _ _ _ => forallb (fun p => e_param e (fst p)) ps
  | AddStaticAttribute _ t _ | AddInstanceAttribute _ t _ => e_return e t
  | _ => true
  end.

(** ** Constructors *)
Definition default_constructor (m : member) : Prop := exists n k, m = Constructor n k /\ k_params k = [].
Definition copy_constructor (m : member) : Prop := exists n k p, m = Constructor n k /\ k_params k = [p] /\ k_copy k = true.
Definition not_public (m : member) : Prop := exists n k, m = Constructor n k /\ k_access k <> APublic.
Definition not_private (m : member) : Prop := exists n k, m = Constructor n k /\ k_access k <> APrivate.
