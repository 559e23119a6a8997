(** C17: names derived from types. *)
From Verif.Model Require Import Py Mangle.
From Verif.Spec Require Import MangleSpec.
From Verif.Proofs Require MangleProofs.
Open Scope string_scope.
Open Scope list_scope.

(** The mangled name is the given name with each punctuation character replaced by its code. *)
Theorem C17_code : forall s, mangle_name s = encode s.
Proof. exact MangleProofs.mangle_encode. Qed.
Print Assumptions C17_code.

(** It contains only identifier characters, and is a C identifier if the name does not start with a digit. *)
Theorem C17_characters : forall s, forall_char type_char s = true -> forall_char is_ident_char (mangle_name s) = true.
Proof. exact MangleProofs.mangle_valid. Qed.
Print Assumptions C17_characters.

Theorem C17_identifier : forall c r, forall_char type_char (String c r) = true -> is_digit c = false ->
  identifier (mangle_name (String c r)).
Proof. exact MangleProofs.mangle_identifier. Qed.
Print Assumptions C17_identifier.

Theorem C17_unchanged : forall s, forall_char is_ident_char s = true -> mangle_name s = s.
Proof. exact MangleProofs.mangle_keep. Qed.
Print Assumptions C17_unchanged.

(** A template instantiation is named like the name one would write in C++. *)
Theorem C17_template : forall base a r,
  get_mangled_name base (a :: r) = mangle_name (base ++ "<" ++ join "," (a :: r) ++ ">")%string.
Proof. exact MangleProofs.mangle_template. Qed.
Print Assumptions C17_template.

(** Names without underscores, commas, colons, parentheses and double blanks are told apart. *)
Theorem C17_distinct : forall s1 s2, forall_char plain_char s1 = true -> forall_char plain_char s2 = true ->
  no_double_blank s1 -> no_double_blank s2 -> mangle_name s1 = mangle_name s2 -> s1 = s2.
Proof. exact MangleProofs.mangle_inj. Qed.
Print Assumptions C17_distinct.

(** Other names are not. *)
Theorem C17_distinct_refuted : exists s1 s2, s1 <> s2 /\ mangle_name s1 = mangle_name s2 /\
  forall_char type_char s1 = true /\ forall_char type_char s2 = true.
Proof. exists "unsigned int", "unsigned_int". split; [discriminate|]. repeat split; reflexivity. Qed.
Print Assumptions C17_distinct_refuted.

(** Converter functions: for every sequence of requested types, the function named in an answer is generated
    exactly once, and it converts the first requested type whose function has that name. *)
Theorem C17_converters : forall prefix types c ns,
  generate_converters prefix (mk_converters [] []) types = (c, ns) ->
  NoDup (map fst (conv_code c)) /\
  forall i t n, nth_error types i = Some t -> nth_error ns i = Some n ->
  exists t' a b, In (n, t') (conv_code c) /\ types = a ++ t' :: b /\ converter_name prefix t' = n /\
    (forall u, In u a -> converter_name prefix u <> n).
Proof. exact MangleProofs.converters_ok. Qed.
Print Assumptions C17_converters.

(** So it is the right one for types whose names are told apart, ... *)
Theorem C17_converter_type : forall prefix types c ns,
  generate_converters prefix (mk_converters [] []) types = (c, ns) ->
  (forall t, In t types -> forall_char plain_char t = true /\ no_double_blank t) ->
  forall i t n, nth_error types i = Some t -> nth_error ns i = Some n ->
  In (n, t) (conv_code c) /\ forall t', In (n, t') (conv_code c) -> t' = t.
Proof. exact MangleProofs.converters_right. Qed.
Print Assumptions C17_converter_type.

(** ... and can be the wrong one otherwise: the converter of [ns::Foo] is used for [ns__Foo]. *)
Theorem C17_converter_type_refuted : exists types c ns n,
  generate_converters "_wrap_convert_py2c__" (mk_converters [] []) types = (c, ns) /\
  nth_error types 1 = Some "ns__Foo" /\ nth_error ns 1 = Some n /\ conv_code c = [(n, "ns::Foo")].
Proof. exists ["ns::Foo"; "ns__Foo"]. eexists _, _, _. split; [vm_compute; reflexivity|]. repeat split. Qed.
Print Assumptions C17_converter_type_refuted.

Example C17_demo :
  mangle_name "Like<This,and,That> *" = "Like__lt__This_and_That__gt_____star__" /\
  forall_char type_char "std::map< int, Foo > const &" = true /\
  get_mangled_name "f" ["int"; "A<B>"] = "f__lt__int_A__lt__B__gt____gt__" /\
  forall_char plain_char "Foo< int > *" = true /\ no_double_blank "Foo< int > *" /\
  snd (generate_converters "_wrap_convert_py2c__" (mk_converters [] []) ["Foo< int > *"; "int"; "Foo< int > *"]) =
    ["_wrap_convert_py2c__Foo__lt___int___gt_____star__"; "_wrap_convert_py2c__int"; "_wrap_convert_py2c__Foo__lt___int___gt_____star__"].
Proof.
  split; [vm_compute; reflexivity|]. split; [vm_compute; reflexivity|]. split; [vm_compute; reflexivity|].
  split; [vm_compute; reflexivity|]. split; [|vm_compute; reflexivity].
  cbn [no_double_blank]. repeat match goal with |- _ /\ _ => split end; try exact I; intros [A B]; discriminate.
Qed.
