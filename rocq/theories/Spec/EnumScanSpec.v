(** What the enumerations of a header file become. *)
From Verif.Model Require Import Py Annotations PygenArgs EnumScan.
From Verif.Spec Require Import ClassNotesSpec PygenArgsSpec.
Open Scope string_scope.
Open Scope list_scope.

Definition wanted (outer : option string) (e : enumeration) : Prop :=
  ~ annotated (e_notes e) "ignore" /\ (forall c, outer = Some c -> e_public e = true /\ ~ exists rest, e_name e = ("__" ++ rest)%string).
(** The keyword arguments in the script. *)
Definition enum_keywords (outer : option string) (l : notes) (kw : keywords) : Prop :=
  NoDup (map fst kw) /\
  forall k v, In (k, v) kw <->
    k = "outer_class" /\ (exists c, outer = Some c /\ v = VClass c) \/
    k = "import_from_module" /\ (exists m, first_of l ["import_from_module"] "import_from_module" m /\ v = match m with Some s => VStr s | None => VNone end).
Definition arguments (e : enumeration) : list value := [VStr (e_name e); VList (map VStr (e_values e))].
(** [t] is a statement that adds the enumeration. *)
Definition adds (outer : option string) (e : enumeration) (t : list ascii) : Prop :=
  exists kw, calls t "module.add_enum" (arguments e) kw /\ enum_keywords outer (e_notes e) kw.
(** The lines for an enumeration. *)
Inductive lines (outer : option string) (e : enumeration) : list (list ascii) -> Prop :=
| LPlain t : ~ annotated (e_notes e) "pygen_comment" -> adds outer e t -> lines outer e [t]
| LComment c t : first_of (e_notes e) ["pygen_comment"] "pygen_comment" (Some c) -> adds outer e t -> lines outer e [lit ("## " ++ c); t].
(** [scanned outer l s m]: from the enumerations [l] the script [s] and the calls [m] are made. *)
Inductive scanned (outer : option string) : list enumeration -> list (nat * list ascii) -> list (list value * keywords) -> Prop :=
| ScNone : scanned outer [] [] []
| ScSkip e l s m : ~ wanted outer e -> scanned outer l s m -> scanned outer (e :: l) s m
| ScSilent e l s m x : wanted outer e -> e_part e = None -> (outer = None -> x = VNone) -> (forall c, outer = Some c -> x = VClass c) -> scanned outer l s m ->
    scanned outer (e :: l) s ((arguments e, [("outer_class", x)]) :: m)
| ScWrite e l s m x k ts : wanted outer e -> e_part e = Some k -> lines outer e ts -> (outer = None -> x = VNone) -> (forall c, outer = Some c -> x = VClass c) ->
    scanned outer l s m -> scanned outer (e :: l) (map (pair k) ts ++ s) ((arguments e, [("outer_class", x)]) :: m).
