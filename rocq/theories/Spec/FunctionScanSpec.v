(** What the scan of header files does with free functions. *)
From Coq Require Import Permutation Sorted.
From Verif.Model Require Import Py Annotations FunctionScan.
From Verif.Spec Require Import AnnotationSpec.
Open Scope list_scope.
Open Scope string_scope.

(** ** Texts *)
(** [l] are the pieces of [s] between the commas (bars). *)
Definition pieces (c : ascii) (s : string) (l : list string) : Prop :=
  l <> [] /\ (forall x, In x l -> ~ has c x) /\ s = String.concat (String c "") l.
(** [p] is somewhere in [s]. *)
Definition inside (p s : string) : Prop := exists a b, s = a ++ p ++ b.
(** [rest] comes after the first [name] in [s]. *)
Definition comes_after (name s rest : string) : Prop :=
  exists before, s = before ++ name ++ rest /\
    forall a b, s = a ++ name ++ b -> (String.length before <= String.length a)%nat.
Definition all_blank (s : string) : Prop := forall c, has c s -> c = " "%char.
(** Angle brackets that belong together. *)
Inductive balanced : string -> Prop :=
| BNone : balanced ""
| BChar c s : c <> "<"%char -> c <> ">"%char -> balanced s -> balanced (String c s)
| BPair a b : balanced a -> balanced b -> balanced ("<" ++ a ++ ">" ++ b).
(** What comes after the name are blanks and "<": it is an instance of a template. *)
Definition an_instance (rest : string) : Prop := exists blanks r, rest = blanks ++ "<" ++ r /\ all_blank blanks.
(** Its arguments: the text up to the ">" that belongs to the "<". *)
Definition instance_text (rest text : string) : Prop :=
  exists blanks r, rest = blanks ++ "<" ++ text ++ ">" ++ r /\ all_blank blanks /\ balanced text.
Definition instance_arguments (rest : string) (targs : option (list string)) : Prop :=
  match targs with
  | Some l => exists text, instance_text rest text /\ pieces "," text l
  | None => forall text, ~ instance_text rest text
  end.
(** The first mapping types=>name with the types of the instance. *)
Inductive mapped (targs : option (list string)) : list string -> option string -> Prop :=
| MNone : mapped targs [] None
| MThis types name l r :
    ~ inside "=>" types -> ~ inside "=>" name -> pieces "," types l -> targs = Some l ->
    mapped targs ((types ++ "=>" ++ name) :: r) (Some name)
| MLater types name l r n :
    ~ inside "=>" types -> ~ inside "=>" name -> pieces "," types l -> targs <> Some l -> mapped targs r n ->
    mapped targs ((types ++ "=>" ++ name) :: r) n.

(** ** Order *)
Definition key (f : function) : string * string := (f_name f, f_decl f).
(** In the order of the names, and of the declarations when the names are equal. *)
Definition in_order (f g : function) : Prop :=
  String.compare (f_name f) (f_name g) = Lt \/ f_name f = f_name g /\ String.compare (f_decl f) (f_decl g) <> Gt.
Definition hidden (f : function) : Prop := exists r, f_name f = "__" ++ r.
(** [l] are the functions of [fs] with names that do not begin with two underscores, in order, and as in [fs] when that says nothing. *)
Definition ordered (fs l : list function) : Prop :=
  (forall f, In f l -> ~ hidden f) /\
  (forall f, In f fs -> ~ hidden f -> In f l) /\
  Sorted in_order l /\
  forall k, ~ (exists r, fst k = "__" ++ r) ->
    filter (fun f => String.eqb (fst k) (f_name f) && String.eqb (snd k) (f_decl f)) l =
    filter (fun f => String.eqb (fst k) (f_name f) && String.eqb (snd k) (f_decl f)) fs.

(** ** Functions *)
(** The annotations are a dict: no name comes twice. *)
Definition dict_like {V} (d : dict V) : Prop := NoDup (map fst d).
(** The function has the annotation [n], with this value (None: without). *)
Definition noted (f : function) (n : string) (v : option string) : Prop := In (n, v) (f_notes f).
Definition unnoted (f : function) (n : string) : Prop := forall v, ~ noted f n (Some v).
Definition understood : list string :=
  ["as_method"; "of_class"; "name"; "ignore"; "is_constructor_of"; "pygen_comment"; "template_instance_names"; "unblock_threads"; "throw"].
(** The annotations with the names [n] of a parameter (or of "return"). *)
Definition has_note (f : function) (p n : string) (v : option string) : Prop :=
  exists d, dict_get (f_param_notes f) p = Some d /\ dict_get d n = Some v.
(** [d] is [d0] with [n]=[v] (in place of what [n] was before, or at the end). *)
Inductive updated (n : string) (v : option string) : notes -> notes -> Prop :=
| UEnd : updated n v [] [(n, v)]
| UHere v0 r : updated n v ((n, v0) :: r) ((n, v) :: r)
| ULater n0 v0 r r' : n0 <> n -> updated n v r r' -> updated n v ((n0, v0) :: r) ((n0, v0) :: r').
(** The same, if [n] is not there yet. *)
Definition preset (n v : string) (d0 d : notes) : Prop :=
  (exists x, In (n, x) d0) /\ d = d0 \/ ~ (exists x, In (n, x) d0) /\ d = (d0 ++ [(n, Some v)])%list.
Definition parameter_notes (f : function) (p : string) (d : notes) : Prop :=
  dict_get (f_param_notes f) p = Some d \/ dict_get (f_param_notes f) p = None /\ d = [].

Section Scan.
  Context {R P : Type} (lookup_return : string -> notes -> res R) (lookup_parameter : string -> string -> notes -> option string -> res P)
          (known_return : R -> bool) (known_parameter : P -> bool) (find_class : string -> res string)
          (exceptions_of : option string -> res (list string)).
  (** The return value: the caller owns what a constructor returns. *)
  Definition return_of (f : function) (r : R) : Prop :=
    exists d, parameter_notes f "return" d /\
      ((exists c, c <> "" /\ noted f "is_constructor_of" (Some c) /\ exists d', updated "caller_owns_return" (Some "true") d d' /\ lookup_return (f_return f) d' = Ok r)
       \/ (forall c, c <> "" -> ~ noted f "is_constructor_of" (Some c)) /\ lookup_return (f_return f) d = Ok r).
  Definition parameter_of (f : function) (a : argument) (p : P) : Prop :=
    exists d, parameter_notes f (a_name a) d /\ lookup_parameter (a_type a) (a_name a) d (a_default a) = Ok p.
  (** The object of a method: when it is passed as a pointer, it stays the caller's. *)
  Definition object_of (f : function) (a : argument) (p : P) : Prop :=
    exists d d1 d2, parameter_notes f (a_name a) d /\ preset "transfer_ownership" "false" d d1 /\ preset "free_after_copy" "false" d1 d2 /\
      lookup_parameter (a_type a) (a_name a) d2 (a_default a) = Ok p.
  Definition parameters_of (f : function) (method : Prop) (ps : list P) : Prop :=
    match f_args f, ps with
    | [], [] => True
    | a :: r, p :: ps =>
        (method /\ a_pointer a = true /\ object_of f a p \/ ~ (method /\ a_pointer a = true) /\ parameter_of f a p) /\
        Forall2 (parameter_of f) r ps
    | _, _ => False
    end.
  (** The keywords of a function. *)
  Record keywords_right (f : function) (k : keywords) : Prop := {
    kr_unblock : match k_unblock k with
                 | Some b => exists s, noted f "unblock_threads" (Some s) /\ boolean s b
                 | None => forall v, ~ noted f "unblock_threads" v
                 end;
    (** What the declaration throws, or else what the annotation says. *)
    kr_throw : (f_throws f <> [] /\ k_throw k = Some (f_throws f)) \/
               (f_throws f = [] /\ match k_throw k with
                                   | Some l => exists v, noted f "throw" v /\ exceptions_of v = Ok l
                                   | None => forall v, ~ noted f "throw" v
                                   end);
    kr_deprecated : k_deprecated k = f_deprecated f;
    (** Template parameters, and the name: the name= annotation, or else the one for this instance. *)
    kr_template : exists rest, comes_after (f_name f) (f_demangled f) rest /\
      exists own,
      match k_templates k with
      | Some targs =>
          an_instance rest /\ instance_arguments rest targs /\
          ((exists names mappings, names <> "" /\ noted f "template_instance_names" (Some names) /\ pieces "|" names mappings /\ mapped targs mappings own)
           \/ (forall names, names <> "" -> ~ noted f "template_instance_names" (Some names)) /\ own = None)
      | None => ~ an_instance rest /\ own = None
      end /\
      ((exists n, n <> "" /\ noted f "name" (Some n) /\ k_name k = Some n)
       \/ (forall n, n <> "" -> ~ noted f "name" (Some n)) /\ k_name k = own) }.
  Definition comment_is (f : function) (co : option string) : Prop :=
    match co with Some t => noted f "pygen_comment" (Some t) | None => forall v, ~ noted f "pygen_comment" v end.
  (** The values of the annotations are right (also when the function is ignored). *)
  Definition readable (f : function) : Prop :=
    (forall v, noted f "unblock_threads" v -> exists s b, v = Some s /\ boolean s b) /\
    (forall v, noted f "throw" v -> exists l, exceptions_of v = Ok l).
  (** What becomes of a function: the call in the script, with the comment above it, or nothing. *)
  Inductive described (f : function) : option (option string * @call R P) -> Prop :=
  | DIgnored v : readable f -> noted f "ignore" v -> described f None
  | DMethod m c full r ps co :
      readable f -> (forall v, ~ noted f "ignore" v) -> noted f "as_method" (Some m) -> noted f "of_class" (Some c) -> find_class c = Ok full ->
      return_of f r -> parameters_of f True ps -> comment_is f co -> described f (Some (co, AddFunctionAsMethod full (f_name f) r ps m))
  | DConstructor c full r ps co :
      readable f -> (forall v, ~ noted f "ignore" v) -> unnoted f "as_method" -> noted f "is_constructor_of" (Some c) -> find_class c = Ok full ->
      return_of f r -> parameters_of f False ps -> comment_is f co -> described f (Some (co, AddFunctionAsConstructor full (f_name f) r ps))
  | DFunction r ps k co :
      readable f -> (forall v, ~ noted f "ignore" v) -> unnoted f "as_method" -> unnoted f "is_constructor_of" ->
      return_of f r -> parameters_of f False ps -> keywords_right f k -> comment_is f co -> described f (Some (co, AddFunction (f_name f) r ps k)).
  (** Its types are known. *)
  Definition types_known (c : @call R P) : Prop :=
    match c with
    | AddFunction _ r ps _ | AddFunctionAsMethod _ _ r ps _ | AddFunctionAsConstructor _ _ r ps =>
        known_return r = true /\ forall p, In p ps -> known_parameter p = true
    end.
  (** The calls among [l] with known types, in order. *)
  Inductive known_calls : list (option string * @call R P) -> list (@call R P) -> Prop :=
  | KNone : known_calls [] []
  | KKnown co c l m : types_known c -> known_calls l m -> known_calls ((co, c) :: l) (c :: m)
  | KUnknown co c l m : ~ types_known c -> known_calls l m -> known_calls ((co, c) :: l) m.
  Fixpoint present {A} (l : list (option A)) : list A := match l with [] => [] | Some x :: r => x :: present r | None :: r => present r end.
  (** The annotations of a function that are not understood, in order. *)
  Definition strange (f : function) : list (string * string) :=
    map (fun x => (f_name f, fst x)) (filter (fun x => negb (existsb (String.eqb (fst x)) understood)) (f_notes f)).
End Scan.
