(** C55: the free functions of header files. *)
From Coq Require Import Permutation Sorted.
From Verif.Model Require Import Py Annotations FunctionScan.
From Verif.Spec Require Import AnnotationSpec FunctionScanSpec.
From Verif.Proofs Require Import FunctionTextProofs FunctionScanProofs FunctionScanTop.
Open Scope list_scope.
Open Scope string_scope.

Section Claims.
  (** The types' specifications, whether they are known, the classes and the exceptions: whatever they are. *)
  Context {R P : Type} (lookup_return : string -> notes -> res R) (lookup_parameter : string -> string -> notes -> option string -> res P)
          (known_return : R -> bool) (known_parameter : P -> bool) (find_class : string -> res string)
          (exceptions_of : option string -> res (list string)).

  (** When the scan succeeds, the functions with names that do not begin with "__" were taken in the order of their names; the script has
      the calls that describe them, the module was given those with known types, and annotations that mean nothing were warned about. *)
  Theorem C55_scan (fs : list function) (o : @output R P) :
    (forall f, In f fs -> dict_like (f_notes f)) ->
    scan lookup_return lookup_parameter known_return known_parameter find_class exceptions_of fs = Ok o ->
    exists l xs, ordered fs l /\ Forall2 (described lookup_return lookup_parameter find_class exceptions_of) l xs /\
      o_script o = present xs /\ known_calls known_return known_parameter (o_script o) (o_memory o) /\ o_warned o = flat_map strange l.
  Proof. exact (scan_sound _ _ _ _ _ _ fs o). Qed.

  (** And it succeeds when each of them has a description. *)
  Theorem C55_scans (fs : list function) :
    (forall f, In f fs -> dict_like (f_notes f)) ->
    (forall f, In f fs -> ~ hidden f -> exists x, described lookup_return lookup_parameter find_class exceptions_of f x) ->
    exists o : @output R P, scan lookup_return lookup_parameter known_return known_parameter find_class exceptions_of fs = Ok o.
  Proof. exact (scan_total _ _ _ _ _ _ fs). Qed.

  (** There is only one description. *)
  Theorem C55_meaning (f : function) (x y : option (option string * @call R P)) :
    dict_like (f_notes f) ->
    described lookup_return lookup_parameter find_class exceptions_of f x -> described lookup_return lookup_parameter find_class exceptions_of f y -> x = y.
  Proof. exact (described_fun lookup_return lookup_parameter known_return known_parameter find_class exceptions_of f x y). Qed.

  (** When all types are known, the script and the module have the same functions. *)
  Theorem C55_same (fs : list function) (o : @output R P) :
    (forall f, In f fs -> dict_like (f_notes f)) -> (forall r, known_return r = true) -> (forall p, known_parameter p = true) ->
    scan lookup_return lookup_parameter known_return known_parameter find_class exceptions_of fs = Ok o ->
    o_memory o = map snd (o_script o).
  Proof.
    intros N A B H. apply C55_scan in H; [|exact N]. destruct H as (_ & _ & _ & _ & _ & K & _).
    assert (T : forall c, types_known known_return known_parameter c) by (intros []; cbn; auto).
    induction K as [|co c l m _ K IH|co c l m X]; cbn [map snd]; [reflexivity|now f_equal|elim (X (T c))].
  Qed.
End Claims.
Print Assumptions C55_scan.
Print Assumptions C55_scans.
Print Assumptions C55_meaning.
Print Assumptions C55_same.

(** ** Cases *)
Definition types_return (t : string) (n : notes) : res (string * notes) := Ok (t, n).
Definition types_parameter (t p : string) (n : notes) (d : option string) : res (string * string * notes) := Ok (t, p, n).
Definition classes (c : string) : res string := if String.eqb c "Foo" then Ok "ns::Foo" else Err KeyError.
Definition exceptions (v : option string) : res (list string) := match v with Some "E" => Ok ["E"] | Some _ => Err ValueError | None => Err AttributeError end.
Definition fun_of (name demangled : string) (args : list argument) (n : notes) : function :=
  mk_function name ("void ( ::ns::" ++ name ++ " * )( )") demangled "void" args n [] [] false.
Definition run := scan types_return types_parameter (fun r => true) (fun p => negb (String.eqb (fst (fst p)) "Unknown")) classes exceptions.
Definition plain : keywords := mk_keywords None None None None false.
Definition functions : list function :=
  [fun_of "work" "ns::work(Unknown)" [mk_argument "Unknown" false "x" None] [("unblock_threads", Some "On"); ("nonsense", None)];
   fun_of "__hidden" "__hidden()" [] [];
   fun_of "grow" "ns::grow(ns::Foo*)" [mk_argument "ns::Foo *" true "self" None] [("as_method", Some "Grow"); ("of_class", Some "Foo")];
   fun_of "gone" "ns::gone()" [] [("ignore", None)];
   fun_of "make" "ns::make()" [] [("is_constructor_of", Some "Foo"); ("pygen_comment", Some "hello")];
   fun_of "conv" "int ns::conv<int>(int)" [] [("template_instance_names", Some "bool=>conv_b|int=>conv_i")]].
Example functions_dicts f : In f functions -> dict_like (f_notes f).
Proof.
  intros H. repeat (destruct H as [<-|H]; [unfold dict_like; cbn; repeat constructor; cbn; intuition discriminate|]). destruct H.
Qed.
Example functions_scanned : run functions = Ok (mk_output
  [(None, AddFunction "conv" ("void", []) [] (mk_keywords None None (Some (Some ["int"])) (Some "conv_i") false));
   (None, AddFunctionAsMethod "ns::Foo" "grow" ("void", []) [("ns::Foo *", "self", [("transfer_ownership", Some "false"); ("free_after_copy", Some "false")])] "Grow");
   (Some "hello", AddFunctionAsConstructor "ns::Foo" "make" ("void", [("caller_owns_return", Some "true")]) []);
   (None, AddFunction "work" ("void", []) [("Unknown", "x", [])] (mk_keywords (Some true) None None None false))]
  [AddFunction "conv" ("void", []) [] (mk_keywords None None (Some (Some ["int"])) (Some "conv_i") false);
   AddFunctionAsMethod "ns::Foo" "grow" ("void", []) [("ns::Foo *", "self", [("transfer_ownership", Some "false"); ("free_after_copy", Some "false")])] "Grow";
   AddFunctionAsConstructor "ns::Foo" "make" ("void", [("caller_owns_return", Some "true")]) []]
  [("work", "nonsense")]).
Proof. vm_compute. reflexivity. Qed.
(** as_method without of_class is an assertion that fails. *)
Example no_class : run [fun_of "grow" "ns::grow()" [] [("as_method", Some "Grow")]] = Err AssertionError.
Proof. reflexivity. Qed.

(** ** What does not hold *)
(** An instance of a template is not always recognized: the name is looked for in all of the demangled text. *)
Theorem C55_instance_refuted : exists before name arguments rest,
  balanced arguments /\
  run [fun_of name (before ++ "::" ++ name ++ "<" ++ arguments ++ ">" ++ rest) [] []] =
  Ok (mk_output [(None, AddFunction name ("void", []) [] plain)] [AddFunction name ("void", []) [] plain] []).
Proof. exists "void bar", "a", "int", "(int)". split; [repeat constructor; discriminate|vm_compute; reflexivity]. Qed.
(** Its arguments are not the ones that were written: commas inside of angle brackets separate, too, and blanks stay. *)
Theorem C55_arguments_refuted : exists targs got,
  got <> targs /\ Forall balanced targs /\
  run [fun_of "f" ("void ns::f<" ++ String.concat ", " targs ++ ">()") [] []] =
  Ok (mk_output [(None, AddFunction "f" ("void", []) [] (mk_keywords None None (Some (Some got)) None false))]
                [AddFunction "f" ("void", []) [] (mk_keywords None None (Some (Some got)) None false)] []).
Proof.
  exists ["std::map<int, bool>"], ["std::map<int"; " bool>"]. split; [discriminate|]. split; [|vm_compute; reflexivity]. constructor; [|constructor].
  repeat (apply BChar; [discriminate|discriminate|]). apply (BPair "int, bool" ""); repeat constructor; discriminate.
Qed.
(** So a name for an instance with two arguments is not used. *)
Theorem C55_instance_name_refuted : exists a b name,
  run [fun_of "f" ("void ns::f<" ++ a ++ ", " ++ b ++ ">()") [] [("template_instance_names", Some (a ++ "," ++ b ++ "=>" ++ name))]] =
  Ok (mk_output [(None, AddFunction "f" ("void", []) [] (mk_keywords None None (Some (Some [a; " " ++ b])) None false))]
                [AddFunction "f" ("void", []) [] (mk_keywords None None (Some (Some [a; " " ++ b])) None false)] []).
Proof. exists "int", "bool", "f_ib". vm_compute. reflexivity. Qed.
