(** C12, C13, C14: reading C type names. *)
From Verif.Model Require Import Py Tokenizer CType.
From Verif.Spec Require Import TypeSpec.
From Verif.Proofs Require TypeProofs MeaningProofs TraitsProofs ReorderProofs.
Open Scope string_scope.
Open Scope list_scope.

(** C12.  Printing a type and reading it again gives the same type; so the normal form is a fixed point. *)
Theorem C12_reparse : forall s l, scopes_clean s -> parse_type s = Ok l -> parse_type (str_ctype l) = Ok l.
Proof. exact TypeProofs.reparse_ok. Qed.
Print Assumptions C12_reparse.

Theorem C12_idempotent : forall s t, scopes_clean s -> normalize_type_string s = Ok t -> normalize_type_string t = Ok t.
Proof. exact TypeProofs.normalize_idempotent. Qed.
Print Assumptions C12_idempotent.

(** The hypothesis holds of every text whose double colons are followed by identifiers. *)
Theorem C12_named_scopes : forall s t, scopes_named s -> normalize_type_string s = Ok t -> normalize_type_string t = Ok t.
Proof. exact (fun s t H => TypeProofs.normalize_idempotent s t (TypeProofs.named_clean s H)). Qed.
Print Assumptions C12_named_scopes.

(** Spacing does not matter: the same words, separated by any blanks, have the same normal form. *)
Theorem C12_spacing : forall s s' ts, get_tokens (s ++ nl) = Ok ts -> respaced (map t_name ts) s' ->
  normalize_type_string s' = normalize_type_string s.
Proof. exact TypeProofs.respaced_same. Qed.
Print Assumptions C12_spacing.

(** Reading always terminates (the model's fuel is never used up). *)
Theorem C12_terminates : forall s, parse_type s <> Err OutOfFuel.
Proof. exact TypeProofs.parse_type_no_fuel. Qed.
Print Assumptions C12_terminates.

(** Without the hypothesis the normal form is not a fixed point. *)
Theorem C12_idempotent_refuted : exists s t, normalize_type_string s = Ok t /\ normalize_type_string t <> Ok t.
Proof. exists "::::Foo", "::Foo". split; [reflexivity|]. vm_compute. discriminate. Qed.
Print Assumptions C12_idempotent_refuted.

Example C12_demo : scopes_named "const ::std::map<std::string,  Foo<int>> &" /\
  normalize_type_string "const ::std::map<std::string,  Foo<int>> &" = Ok "std::map< std::string, Foo< int > > const &" /\
  respaced (map t_name [mk_tok NAME "unsigned"; mk_tok NAME "int"; mk_tok SYNTAX "*"]) "  unsigned   int * ".
Proof.
  split; [|split; [vm_compute; reflexivity|]].
  - intros a b E.
    repeat (destruct a as [|? a]; cbn in E; [try discriminate E; injection E as E; subst b; eexists _, _; (split; [reflexivity|]); split; reflexivity|
      injection E as _ E]).
    destruct a; discriminate.
  - apply (rs_word "  " "unsigned"); [reflexivity| |intros _; now exists " "%char, "  int * "].
    apply (rs_word "   " "int"); [reflexivity| |intros _; now exists " "%char, "* "].
    apply (rs_word " " "*" [] " "); [reflexivity|now constructor|congruence].
Qed.

(** C13.  For one level of nesting: the words other than qualifiers keep their order, no qualifier is lost or added,
    the qualifiers end up as far right as they can, const before volatile, and each still applies to the same
    pointer level. *)
Theorem C13_words : forall l,
  filter (fun i => negb (qualifier i)) (reorder_modifiers l) = filter (fun i => negb (qualifier i)) l.
Proof. exact MeaningProofs.reorder_words. Qed.
Print Assumptions C13_words.

Theorem C13_count : forall n l, n = "const" \/ n = "volatile" ->
  length (filter (fun i => is_word i n) (reorder_modifiers l)) = length (filter (fun i => is_word i n) l).
Proof. exact MeaningProofs.reorder_count. Qed.
Print Assumptions C13_count.

Theorem C13_placed : forall l, placed (reorder_modifiers l).
Proof. exact MeaningProofs.reorder_placed. Qed.
Print Assumptions C13_placed.

Theorem C13_meaning : forall l, separate l -> read (reorder_modifiers l) = read l.
Proof. exact MeaningProofs.reorder_meaning. Qed.
Print Assumptions C13_meaning.

(** The result depends on the meaning only: wherever the qualifiers of a level were written. *)
Theorem C13_canonical : forall l1 l2, separate l1 -> separate l2 -> usual l1 -> usual l2 ->
  read l1 = read l2 -> reorder_modifiers l1 = reorder_modifiers l2.
Proof. exact MeaningProofs.reorder_canonical. Qed.
Print Assumptions C13_canonical.

(** For a whole type name: the parsed type means what its words, bracketed as written, mean at every depth. *)
Theorem C13_parse : forall s l ts, get_tokens (s ++ nl) = Ok ts -> parse_type s = Ok l ->
  separate (map Tok (flat_map read_word ts)) ->
  exists raw, bracketed raw /\ flatten raw = flat_map read_word ts /\ same_type raw l.
Proof. exact MeaningProofs.parse_meaning. Qed.
Print Assumptions C13_parse.

(** Two stars written together are moved across as one: [const char **] becomes [char ** const]. *)
Theorem C13_meaning_refuted : exists s l ts, get_tokens (s ++ nl) = Ok ts /\ parse_type s = Ok l /\
  read l <> read (map Tok ts).
Proof.
  exists "const char **". eexists _, _. split; [vm_compute; reflexivity|]. split; [vm_compute; reflexivity|].
  vm_compute. discriminate.
Qed.
Print Assumptions C13_meaning_refuted.

Example C13_demo :
  exists ts l, get_tokens ("const volatile Foo<const int> * const &" ++ nl) = Ok ts /\
  parse_type "const volatile Foo<const int> * const &" = Ok l /\
  separate (map Tok (flat_map read_word ts)) /\ usual (map Tok ts) /\
  str_ctype l = "Foo< int const > const volatile * const &" /\
  length (read l) = 3 /\ lv_const (nth 1 (read l) (bare None)) = 1.
Proof.
  eexists _, _. split; [vm_compute; reflexivity|]. split; [vm_compute; reflexivity|].
  split; [unfold separate; cbn; repeat (constructor; [cbn; auto|]); constructor|].
  split; [|split; [reflexivity|split; reflexivity]].
  unfold usual. cbn [map].
  repeat (apply Forall_cons; [split; [intros H; try discriminate H; eexists; reflexivity|intros m H; cbn in H; try discriminate H; injection H as <-; reflexivity]|]).
  apply Forall_nil.
Qed.

(** C14.  The traits always exist and describe the outermost level of the type. *)
Theorem C14_total : forall l, exists t, traits_of l = Ok t.
Proof. exact TraitsProofs.traits_total. Qed.
Print Assumptions C14_total.

Theorem C14_flags : forall l t, separate l -> traits_of l = Ok t ->
  (tt_is_const t = true <-> 0 < lv_const (outer (read l))) /\
  (tt_is_pointer t = true <-> lv_mark (outer (read l)) = Some "*"%char) /\
  (tt_is_reference t = true <-> lv_mark (outer (read l)) = Some "&"%char) /\
  (tt_target_is_const t = true <-> lv_mark (outer (read l)) <> None /\ 0 < lv_const (outer (without_outer (read l)))).
Proof. exact (fun l t S H => proj1 (proj2 (TraitsProofs.traits_ok l t S H))). Qed.
Print Assumptions C14_flags.

(** The target is the type without its outermost level and without qualifiers; there is none for a plain type. *)
Theorem C14_target : forall l t, separate l -> traits_of l = Ok t ->
  match tt_target t with
  | None => lv_mark (outer (read l)) = None
  | Some g => lv_mark (outer (read l)) <> None /\ read g = map no_qualifiers (without_outer (read l))
  end.
Proof. exact (fun l t S H => proj1 (proj2 (proj2 (TraitsProofs.traits_ok l t S H)))). Qed.
Print Assumptions C14_target.

(** The stripped variants. *)
Theorem C14_stripped : forall l t, separate l -> traits_of l = Ok t ->
  read (tt_no_modifiers t) = map no_qualifiers (read l) /\
  read (tt_no_const t) = outer_const 0 (read l) /\
  (lv_mark (outer (read l)) = Some "&"%char -> lv_words (outer (read l)) = [] -> lv_volatile (outer (read l)) = 0 ->
   read (tt_no_const_no_ref t) = without_outer (read l)) /\
  (Forall (fun v => lv_mark v <> Some "&"%char) (read l) -> tt_no_const_no_ref t = tt_no_const t).
Proof. exact (fun l t S H => proj2 (proj2 (proj2 (TraitsProofs.traits_ok l t S H)))). Qed.
Print Assumptions C14_stripped.

(** Adding const to the type or to its target changes exactly that. *)
Theorem C14_make_const : forall l t, separate l -> traits_of l = Ok t ->
  tt_is_const (make_const t) = true /\
  read (tt_ctype (make_const t)) = outer_const (Nat.max 1 (lv_const (outer (read l)))) (read l).
Proof. exact TraitsProofs.make_const_ok. Qed.
Print Assumptions C14_make_const.

Theorem C14_make_target_const : forall l t, separate l -> traits_of l = Ok t -> lv_mark (outer (read l)) <> None ->
  exists t', make_target_const t = Ok t' /\ tt_target_is_const t' = true /\
    read (tt_ctype t') =
      outer_const (Nat.max 1 (lv_const (outer (without_outer (read l))))) (without_outer (read l)) ++ [outer (read l)].
Proof. exact TraitsProofs.make_target_const_ok. Qed.
Print Assumptions C14_make_target_const.

(** A type written with two stars together is not recognised as a pointer. *)
Theorem C14_flags_refuted : exists s l t, parse_type s = Ok l /\ traits_of l = Ok t /\ tt_is_pointer t = false /\
  lv_mark (outer (read l)) = Some "*"%char.
Proof. exists "char**". eexists _, _. split; [vm_compute; reflexivity|]. split; vm_compute; [reflexivity|auto]. Qed.
Print Assumptions C14_flags_refuted.

Example C14_demo : exists l t, parse_type "const Foo &" = Ok l /\ separate l /\ traits_of l = Ok t /\
  tt_is_reference t = true /\ tt_target_is_const t = true /\ tt_is_const t = false /\
  str_ctype (tt_no_const_no_ref t) = "Foo const" /\ option_map str_ctype (tt_target t) = Some "Foo".
Proof.
  eexists _, _. split; [vm_compute; reflexivity|]. split; [unfold separate; cbn; repeat (constructor; [cbn; auto|]); constructor|].
  split; [vm_compute; reflexivity|]. repeat split.
Qed.
