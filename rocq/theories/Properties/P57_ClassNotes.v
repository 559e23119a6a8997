(** C57: the annotations of classes in header files. *)
From Verif.Model Require Import Py Annotations ClassNotes.
From Verif.Spec Require Import AnnotationSpec ClassNotesSpec.
From Verif.Proofs Require Import ClassNotesTop.
Open Scope list_scope.
Open Scope string_scope.

(** The keyword arguments are those there were before and, for names without one, what the annotations and the class say; the complaints
    are about the old and the unknown names, in order; the class is an exception when it is annotated so. *)
Theorem C57_apply (f : class_facts) (l : notes) (kw : kwargs) (r : result) :
  apply_class_annotations f l kw = Ok r ->
  (forall K x, dict_get (r_kwargs r) K = Some x <-> dict_get kw K = Some x \/ dict_get kw K = None /\ says f l K x) /\
  complains l (r_warned r) /\ (r_exception r = true <-> annotated l "exception").
Proof. exact (apply_sound f l kw r). Qed.
(** It fails only for a yes-or-no annotation with a value that is neither. *)
Theorem C57_applies (f : class_facts) (l : notes) (kw : kwargs) : (exists r, apply_class_annotations f l kw = Ok r) <-> readable l.
Proof. exact (apply_iff f l kw). Qed.
(** A keyword argument has one meaning; and so have the complaints. *)
Theorem C57_meaning (f : class_facts) (l : notes) K x y : readable l -> says f l K x -> says f l K y -> x = y.
Proof. exact (says_fun f l K x y). Qed.
Theorem C57_complaints (l : notes) (c c' : list complaint) : complains l c -> complains l c' -> c = c'.
Proof. intros H. exact (complains_fun l c H c'). Qed.
(** Annotations that come later than one for the same keyword argument, and names that no rule is about, change no keyword argument. *)
Theorem C57_later (f : class_facts) (l : notes) (n : string) (v : option string) (kw : kwargs) (r r' : result) :
  ~ In n understood -> n <> "python_name" ->
  apply_class_annotations f l kw = Ok r -> apply_class_annotations f (l ++ [(n, v)])%list kw = Ok r' ->
  (forall K, dict_get (r_kwargs r') K = dict_get (r_kwargs r) K) /\ r_warned r' = (r_warned r ++ [Ignored n])%list /\ r_exception r' = r_exception r.
Proof. exact (apply_unknown f l n v kw r r'). Qed.
Print Assumptions C57_apply.
Print Assumptions C57_applies.
Print Assumptions C57_meaning.
Print Assumptions C57_complaints.
Print Assumptions C57_later.

(** ** Cases *)
Definition shape := mk_facts true true false (Some "protected").
Example class_annotated :
  apply_class_annotations shape [("unref", None); ("is_singleton", Some "true"); ("python_name", Some "S"); ("custom_name", Some "Shape");
                                 ("incref_method", Some "Ref"); ("decref_method", Some "Unref"); ("free_function", Some "shape_free"); ("exception", None)] [] =
  Ok (mk_result [("is_singleton", KBool true); ("custom_name", KText (Some "S")); ("memory_policy", KPolicy (Methods (Some "Ref") (Some "Unref") None));
                 ("allow_subclassing", KBool true); ("destructor_visibility", KText (Some "protected"))] [Ignored "unref"; Deprecated] true).
Proof. vm_compute. reflexivity. Qed.
Example declared_only : apply_class_annotations (mk_facts false false false None) [("allow_subclassing", Some "false")] [("is_singleton", KBool false)] =
  Ok (mk_result [("is_singleton", KBool false); ("allow_subclassing", KBool false)] [] false).
Proof. vm_compute. reflexivity. Qed.
Example not_readable : apply_class_annotations shape [("is_singleton", Some "maybe")] [] <> Ok (mk_result [] [] false) /\ ~ readable [("is_singleton", Some "maybe")].
Proof.
  split; [vm_compute; discriminate|]. intros R. apply (proj2 (C57_applies shape [("is_singleton", Some "maybe")] [])) in R. destruct R as (r & H). vm_compute in H. discriminate.
Qed.

(** ** What does not hold *)
(** template_instance_names is an annotation of classes (castxmlparser.py:1297-1305 read it), but it is complained about as ignored. *)
Theorem C57_template_names_refuted : exists r, apply_class_annotations shape [("template_instance_names", Some "int=>IntVector")] [] = Ok r /\
  r_warned r = [Ignored "template_instance_names"].
Proof. eexists. split; [vm_compute; reflexivity|reflexivity]. Qed.
(** A class whose destructor is not listed in the header's description has a public one, but gets None for the visibility, which CppClass
    (cppclass.py:616) does not accept. *)
Theorem C57_destructor_refuted : exists r, apply_class_annotations (mk_facts true false false None) [] [] = Ok r /\
  dict_get (r_kwargs r) "destructor_visibility" = Some (KText None).
Proof. eexists. split; vm_compute; reflexivity. Qed.
(** The old name wins over the new one when it comes first. *)
Theorem C57_old_name_refuted : exists r, apply_class_annotations shape [("python_name", Some "Old"); ("custom_name", Some "New")] [] = Ok r /\
  dict_get (r_kwargs r) "custom_name" = Some (KText (Some "Old")).
Proof. eexists. split; vm_compute; reflexivity. Qed.
