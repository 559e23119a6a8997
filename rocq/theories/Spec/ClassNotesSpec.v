(** What the annotations of a class say. *)
From Verif.Model Require Import Py Annotations ClassNotes.
From Verif.Spec Require Import AnnotationSpec.
Open Scope list_scope.
Open Scope string_scope.

(** [n]=[v] is the first of the annotations [l] with a name among [names]. *)
Definition first_of (l : notes) (names : list string) (n : string) (v : option string) : Prop :=
  exists a b, l = (a ++ (n, v) :: b)%list /\ In n names /\ forall m u, In (m, u) a -> ~ In m names.
Definition annotated (l : notes) (n : string) : Prop := exists v, In (n, v) l.
(** The text of the annotation [n], if there is one. *)
Definition text (l : notes) (n : string) (t : option string) : Prop := first_of l [n] n t \/ ~ annotated l n /\ t = None.
Definition says_boolean (l : notes) (n : string) (b : bool) : Prop := exists s, first_of l [n] n (Some s) /\ boolean s b.
Definition policies : list string := ["incref_method"; "incref_function"; "free_function"].
(** The keyword argument [k] has the value [v], because of the annotations or what the class is. *)
Inductive says (f : class_facts) (l : notes) : string -> kvalue -> Prop :=
| SSubclassing b : says_boolean l "allow_subclassing" b -> says f l "allow_subclassing" (KBool b)
| SVirtual : ~ annotated l "allow_subclassing" -> c_defined f = true -> c_virtual f = true -> c_bases f = false -> says f l "allow_subclassing" (KBool true)
| SSingleton b : says_boolean l "is_singleton" b -> says f l "is_singleton" (KBool b)
| SNarrowing b : says_boolean l "automatic_type_narrowing" b -> says f l "automatic_type_narrowing" (KBool b)
| SMethods i d p : first_of l policies "incref_method" i -> text l "decref_method" d -> text l "peekref_method" p -> says f l "memory_policy" (KPolicy (Methods i d p))
| SFunctions i d : first_of l policies "incref_function" i -> text l "decref_function" d -> says f l "memory_policy" (KPolicy (Functions i d))
| SFree x : first_of l policies "free_function" x -> says f l "memory_policy" (KPolicy (Free x))
| SName n v : first_of l ["custom_name"; "python_name"] n v -> says f l "custom_name" (KText v)
| SImport v : first_of l ["import_from_module"] "import_from_module" v -> says f l "import_from_module" (KText v)
| SDestructor : c_defined f = true -> c_destructor f <> Some "public" -> says f l "destructor_visibility" (KText (c_destructor f)).
(** The annotations that are yes or no have such values. *)
Definition yes_or_no : list string := ["allow_subclassing"; "is_singleton"; "automatic_type_narrowing"].
Definition readable (l : notes) : Prop := forall n v, In (n, v) l -> In n yes_or_no -> exists s b, v = Some s /\ boolean s b.
Definition understood : list string :=
  ["allow_subclassing"; "is_singleton"; "incref_method"; "decref_method"; "peekref_method"; "automatic_type_narrowing"; "free_function";
   "incref_function"; "decref_function"; "custom_name"; "pygen_comment"; "exception"; "import_from_module"].
(** The complaints, in order. *)
Inductive complains : notes -> list complaint -> Prop :=
| CNone : complains [] []
| COld v l c : complains l c -> complains (("python_name", v) :: l) (Deprecated :: c)
| CFine n v l c : In n understood -> complains l c -> complains ((n, v) :: l) c
| CStrange n v l c : ~ In n understood -> n <> "python_name" -> complains l c -> complains ((n, v) :: l) (Ignored n :: c).
