(** C49: docstrings. *)
From Verif.Model Require Import Py Docstring.
From Verif.Spec Require Import DocstringSpec.
From Verif.Proofs Require Import DocstringProofs.
Open Scope list_scope.
Open Scope string_scope.

(** The docstring of a function or method is its __doc__, whatever characters the text has, if it is passed with C escapes; a
    signature for inspect is taken off by Python. *)
Theorem C49_docstring name ps custom t : no_nul t -> ~ has_signature name t -> function_doc name [mk_fn ps (Some (escaped t)) custom] = Ok (Some (text t)).
Proof.
  intros N S. unfold function_doc, method_field. cbn [f_custom f_doc given existsb]. destruct custom; cbn [fst]; rewrite (compiled_escaped t N); cbn [option_map]; now rewrite doc_of_text.
Qed.
(** Text without quotes, backslashes and newlines needs no escapes. *)
Theorem C49_plain_docstring name ps custom d : plain d -> function_doc name [mk_fn ps (Some d) custom] = Ok (Some (text d)).
Proof. intros P. rewrite <- (escaped_plain d P) at 1. apply C49_docstring; [now apply plain_no_nul|now apply plain_no_signature]. Qed.
(** A function without a docstring is described: its call, and the types of its parameters. *)
Theorem C49_generated name ps : plain name -> (forall p, In p ps -> plain (fst p) /\ plain (snd p)) ->
  function_doc name [mk_fn ps None false] = Ok (Some (Some (described name ps))).
Proof.
  intros Pn Pp. unfold function_doc, method_field. cbn [f_custom f_doc fst]. rewrite (generated_escaped name (mk_fn ps None false) Pn Pp). cbn [f_params]. rewrite (compiled_escaped _ (described_no_nul name ps Pn Pp)). cbn [option_map].
  rewrite (doc_of_text name _ (described_no_signature name name ps Pn Pp)). unfold text. destruct (String.eqb_spec (described name ps) "") as [E|_]; [|reflexivity]. exfalso. unfold described in E. destruct name; discriminate.
Qed.
(** Overloads share the docstring that some of them have; different docstrings are an error. *)
Theorem C49_overloads name f g r : let ws := f :: g :: r in
  ((forall x, In x ws -> f_doc x = None) -> function_doc name ws = Ok (Some None)) /\
  (forall t, no_nul t -> ~ has_signature name t -> (exists x, In x ws /\ f_doc x = Some (escaped t)) -> (forall x d, In x ws -> f_doc x = Some d -> d = escaped t) -> function_doc name ws = Ok (Some (text t))) /\
  (forall d e, d <> e -> (exists x, In x ws /\ f_doc x = Some d) -> (exists x, In x ws /\ f_doc x = Some e) -> function_doc name ws = Err CodeGenerationError).
Proof.
  intros ws. unfold function_doc, method_field. subst ws. cbv beta iota. split; [|split].
  - intros H. rewrite (given_none _ H). reflexivity.
  - intros t N S H1 H2. rewrite (given_one _ _ H1 H2). cbn [fst]. rewrite (compiled_escaped t N). cbn [option_map]. now rewrite doc_of_text.
  - intros d e Ne H1 H2. destruct (given_two _ d e H1 H2 Ne) as (x & y & z & ->). reflexivity.
Qed.
(** The docstring of a class; without one, the calls of its constructors, the longest first. *)
Theorem C49_class tp_name name constructors t : no_nul t -> ~ has_signature tp_name t -> class_doc (Some (escaped t)) tp_name name constructors = Some (text t).
Proof. intros N S. unfold class_doc, class_field. rewrite (compiled_escaped t N). cbn [option_map]. now rewrite doc_of_text. Qed.
Theorem C49_class_generated tp_name name constructors : plain name -> (forall ps p, In ps constructors -> In p ps -> plain p) ->
  exists lines, by_length (map (call_text name) constructors) lines /\ class_doc None tp_name name constructors = Some (text (separated nl lines)).
Proof.
  intros Pn Pp. exists (longest_first (map (constructor_docstring name) constructors)).
  assert (E : map (constructor_docstring name) constructors = map (call_text name) constructors) by (apply map_ext; intros ps; unfold constructor_docstring, call_text; now rewrite joined_separated).
  rewrite E. destruct (longest_first_spec (map (call_text name) constructors)) as (P & S & F). split; [split; [|split]; assumption|].
  assert (A : forall x, In x (longest_first (map (call_text name) constructors)) -> plain x /\ exists a b, x = a ++ "(" ++ b ++ ")").
  { intros x H. apply (Permutation.Permutation_in _ (Permutation.Permutation_sym P)) in H. apply in_map_iff in H. destruct H as (ps & <- & H). split; [|unfold call_text; eauto]. unfold call_text. plains. apply separated_plain; [plains|]. intros p Hp. exact (Pp ps p H Hp). }
  unfold class_doc, class_field. rewrite E, joined_separated. rewrite <- separated_escaped by (intros x H; now apply A). rewrite compiled_escaped.
  - cbn [option_map]. rewrite doc_of_text; [reflexivity|]. intros H. apply signature_line in H. apply lines_separated in H; [|intros x X; now apply plain_no_newline, A].
    destruct H as [H|H]; [|discriminate]. destruct (A _ H) as (_ & a & b & Eq). symmetry in Eq. now apply not_dashes_paren in Eq.
  - apply separated_no_nul; [intros X; cbn in X; intuition discriminate|]. intros x H. now apply plain_no_nul, A.
Qed.
(** The docstring of a module; an empty one is none. *)
Theorem C49_module t : no_nul t -> module_doc None = Some None /\ module_doc (Some (escaped t)) = Some (text t).
Proof.
  intros N. split; [reflexivity|]. unfold module_doc, module_field, text. destruct t as [|c t]; [reflexivity|]. assert (E : String.eqb (escaped (String c t)) "" = false).
  { cbn [escaped]. destruct (Ascii.eqb c """"); [reflexivity|]. destruct (Ascii.eqb c "\"); [reflexivity|]. destruct (Ascii.eqb c newline); reflexivity. }
  rewrite E. now rewrite compiled_escaped.
Qed.
(** Writing the table again, under whatever name, gives the same text. *)
Theorem C49_again name other ws field ws' : method_field name ws = Ok (field, ws') -> method_field other ws' = Ok (field, ws').
Proof.
  unfold method_field. destruct ws as [|f [|g r]]; [discriminate| |].
  - destruct f as [ps d c]. cbn [f_custom f_doc]. destruct c.
    + destruct (given [mk_fn ps d true]) as [|x [|y z]] eqn:E; [| |discriminate]; intros [= <- <-]; cbn [f_custom]; now rewrite E.
    + intros [= <- <-]. reflexivity.
  - destruct (given (f :: g :: r)) as [|x [|y z]] eqn:E; [| |discriminate]; intros [= <- <-]; now rewrite E.
Qed.
Print Assumptions C49_docstring.
Print Assumptions C49_plain_docstring.
Print Assumptions C49_generated.
Print Assumptions C49_overloads.
Print Assumptions C49_class.
Print Assumptions C49_class_generated.
Print Assumptions C49_module.
Print Assumptions C49_again.

Definition lines (l : list string) : string := separated nl l.
Example add_doc : function_doc "add" [mk_fn [("x", "int"); ("y", "double const &")] None false] = Ok (Some (Some (lines ["add(x, y)"; ""; "type: x: int"; "type: y: double const &"]))).
Proof. reflexivity. Qed.
Example quoted : function_doc "f" [mk_fn [] (Some (escaped (lines ["Say ""hi"""; "C:\new"]))) false] = Ok (Some (Some (lines ["Say ""hi"""; "C:\new"]))).
Proof. reflexivity. Qed.
Example quoted_has_no_signature : no_nul (lines ["Say ""hi"""; "C:\new"]) /\ ~ has_signature "f" (lines ["Say ""hi"""; "C:\new"]).
Proof. split; [intros H; vm_compute in H; intuition discriminate|]. intros H. apply signature_line in H. vm_compute in H. intuition discriminate. Qed.
Example point_doc : class_doc None "Point" "Point" [[]; ["x"; "y"]; ["other"]] = Some (Some (lines ["Point(other)"; "Point(x, y)"; "Point()"])).
Proof. reflexivity. Qed.
Example int_and_text : plain "add" /\ plain "double const &".
Proof. split; intros ? X; cbn in X; intuition (subst; discriminate). Qed.
(** A signature goes to inspect, not to __doc__. *)
Example with_signature : function_doc "f" [mk_fn [] (Some "f(x, y)\n--\n\nAdds.") false] = Ok (Some (Some "Adds.")).
Proof. reflexivity. Qed.

(** ** What does not hold: the text is not escaped *)
Theorem C49_quote_refuted : exists d name, function_doc name [mk_fn [] (Some d) false] = Ok None /\ module_doc (Some d) = None /\ class_doc (Some d) name name [] = None.
Proof. exists "the ""best"" one", "f". repeat split. Qed.
Theorem C49_newline_refuted : exists d name, function_doc name [mk_fn [] (Some d) false] = Ok None /\ module_doc (Some d) = None.
Proof. exists ("one" ++ nl ++ "two"), "f". repeat split. Qed.
Theorem C49_backslash_refuted : exists d name, function_doc name [mk_fn [] (Some d) false] = Ok (Some (Some ("C:" ++ nl ++ "ew"))) /\ d <> "C:" ++ nl ++ "ew".
Proof. exists "C:\new", "f". split; [reflexivity|discriminate]. Qed.
(** The docstring of one overload is the docstring of all; without any, there is no description. *)
Theorem C49_overload_description_refuted : exists name f g, f_doc f = None /\ f_doc g = None /\ function_doc name [f] <> Ok (Some None) /\ function_doc name [f; g] = Ok (Some None).
Proof. exists "f", (mk_fn [("x", "int")] None false), (mk_fn [] None false). repeat split. discriminate. Qed.
