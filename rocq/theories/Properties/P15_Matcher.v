(** C15, C16: finding the handler of a type name. *)
From Verif.Model Require Import Py Tokenizer CType TypeMatcher.
From Verif.Spec Require Import TypeSpec MatcherSpec.
From Verif.Proofs Require MatcherProofs.
Open Scope string_scope.
Open Scope list_scope.

(** C15.  After a successful registration of a name without outer qualifiers, every name with the same words --
    whatever its spelling and outer qualifiers -- is answered with that handler and no transformation, whatever is
    done with the matcher before and later. *)
Theorem C15_found : forall (H T : Type) (u : T -> string -> res (option string)) h1 h2 name l (x : H) s l' m1,
  parse_type name = Ok l -> plain l = l -> register (mrun matcher_init h1) name x = Ok m1 ->
  parse_type s = Ok l' -> plain l' = l ->
  exists t, type_traits s = Ok t /\ lookup u (mrun m1 h2) s = Found x None t.
Proof. exact (@MatcherProofs.found_later). Qed.
Print Assumptions C15_found.

(** In particular every spelling with other blanks. *)
Theorem C15_spelling : forall (H T : Type) (u : T -> string -> res (option string)) h1 h2 name l (x : H) ts s m1,
  parse_type name = Ok l -> plain l = l -> register (mrun matcher_init h1) name x = Ok m1 ->
  get_tokens (name ++ nl) = Ok ts -> respaced (map t_name ts) s ->
  exists t, type_traits s = Ok t /\ lookup u (mrun m1 h2) s = Found x None t.
Proof. exact (@MatcherProofs.respelled). Qed.
Print Assumptions C15_spelling.

(** A registration is refused, with ValueError, exactly when a handler was registered under an equivalent spelling. *)
Theorem C15_refused : forall (H T : Type) (h : list (mop H T)) name n x, normalize_type_string name = Ok n ->
  (register (mrun matcher_init h) name x = Err ValueError <->
     exists name' x', In (MRegister name' x') h /\ normalize_type_string name' = Ok n) /\
  ((exists m, register (mrun matcher_init h) name x = Ok m) <->
     ~ exists name' x', In (MRegister name' x') h /\ normalize_type_string name' = Ok n).
Proof. exact (@MatcherProofs.refused). Qed.
Print Assumptions C15_refused.

(** An unknown type: the transformations are tried in the order of registration, and the first one that leads to a
    known type is the answer; otherwise TypeLookupError carries the names tried. *)
Theorem C15_transformed : forall (H T : Type) (u : T -> string -> res (option string)) h s (x : H) t tr,
  lookup u (mrun matcher_init h) s = Found x (Some t) tr <->
  exists k pre post v, key s k /\ resolves h k None /\ transformations_of h = pre ++ t :: post /\
    Forall (fun t' => exists k', attempt u h s t' k' None) pre /\
    u t s = Ok (Some v) /\ type_traits v = Ok tr /\ resolves h (str_ctype (tt_no_modifiers tr)) (Some x).
Proof. exact (@MatcherProofs.lookup_transformed). Qed.
Print Assumptions C15_transformed.

Theorem C15_not_found : forall (H T : Type) (u : T -> string -> res (option string)) (h : list (mop H T)) s tried,
  lookup u (mrun matcher_init h) s = NotFound tried <->
  exists k ks, key s k /\ resolves h k None /\
    Forall2 (fun t k' => attempt u h s t k' None) (transformations_of h) ks /\
    tried = k :: flat_map (fun o => match o with Some k' => [k'] | None => [] end) ks.
Proof. exact (@MatcherProofs.lookup_not_found). Qed.
Print Assumptions C15_not_found.

(** Any other exception comes from reading a type name or from a transformation. *)
Theorem C15_raised : forall (H T : Type) (u : T -> string -> res (option string)) (h : list (mop H T)) s e,
  lookup u (mrun matcher_init h) s = Raised e ->
  parse_type s = Err e \/
  exists t, In t (transformations_of h) /\ (u t s = Err e \/ exists v, u t s = Ok (Some v) /\ parse_type v = Err e).
Proof. exact (@MatcherProofs.lookup_raised). Qed.
Print Assumptions C15_raised.

(** Building the value handler of a parameter or return value: the registered handler is given the traits of the type; the
    handler reached by a transformation is made by that transformation, from the name as given; otherwise TypeLookupError. *)
Theorem C15_build : forall (H T : Type) (u : T -> string -> res (option string)) h1 h2 name l (x : H) s l' m1,
  parse_type name = Ok l -> plain l = l -> register (mrun matcher_init h1) name x = Ok m1 ->
  parse_type s = Ok l' -> plain l' = l ->
  exists t, type_traits s = Ok t /\ new_handler u (mrun m1 h2) s = ByHandler x t.
Proof. exact (@MatcherProofs.built_later). Qed.
Print Assumptions C15_build.

Theorem C15_build_transformed : forall (H T : Type) (u : T -> string -> res (option string)) h s (x : H) t k pre post v tr,
  key s k -> resolves h k None -> transformations_of h = pre ++ t :: post -> Forall (fun t' => exists k', attempt u h s t' k' None) pre ->
  u t s = Ok (Some v) -> type_traits v = Ok tr -> resolves h (str_ctype (tt_no_modifiers tr)) (Some x) ->
  new_handler u (mrun matcher_init h) s = ByTransformation t x s.
Proof. exact (@MatcherProofs.built_transformed). Qed.
Print Assumptions C15_build_transformed.

Theorem C15_build_unknown : forall (H T : Type) (u : T -> string -> res (option string)) (h : list (mop H T)) s k ks,
  key s k -> resolves h k None -> Forall2 (fun t k' => attempt u h s t k' None) (transformations_of h) ks ->
  new_handler u (mrun matcher_init h) s = NotBuilt TypeLookupError.
Proof. exact (@MatcherProofs.built_unknown). Qed.
Print Assumptions C15_build_unknown.

(** Without the hypothesis on outer qualifiers a registered handler is not found under its own name. *)
Theorem C15_found_refuted : exists name m,
  register (mrun (@matcher_init nat nat) []) name 1 = Ok m /\
  forall u, exists tried, lookup u m name = NotFound tried.
Proof. exists "const char*". eexists. split; [vm_compute; reflexivity|]. intros u. exists ["char *"]. vm_compute. reflexivity. Qed.
Print Assumptions C15_found_refuted.

(** A smart pointer transformation: [Ptr<Foo>] is handled as [Foo *]. *)
Definition smart (t : nat) (s : string) : res (option string) :=
  if String.prefix "Ptr<" s then Ok (Some (substring 4 (String.length s - 5) s ++ "*")%string) else Ok None.
Definition demo : list (mop nat nat) :=
  [MRegister "Foo*" 7; MTransformation 0; MRegister "Foo  *" 8; MRegister "unsigned int" 9; MAlias "Foo*" "FooPtr"; MAlias "FooPtr" "Bar"].
Example C15_demo :
  (exists l m1, parse_type "Foo*" = Ok l /\ plain l = l /\ register (mrun (@matcher_init nat nat) []) "Foo*" 7 = Ok m1 /\
     exists l', parse_type "const Foo * const" = Ok l' /\ plain l' = l) /\
  (exists tr, lookup smart (mrun matcher_init demo) "Ptr<Foo>" = Found 7 (Some 0) tr) /\
  lookup smart (mrun matcher_init demo) "Ptr<Baz>" = NotFound ["Ptr< Baz >"; "Baz *"] /\
  (exists tr, lookup smart (mrun matcher_init demo) "const Bar" = Found 7 None tr) /\
  register (mrun matcher_init demo) " Foo *" 3 = Err ValueError.
Proof.
  split; [eexists _, _; repeat (split; [vm_compute; reflexivity|]); eexists; split; vm_compute; reflexivity|].
  split; [eexists; vm_compute; reflexivity|]. split; [vm_compute; reflexivity|].
  split; [eexists; vm_compute; reflexivity|]. vm_compute. reflexivity.
Qed.

(** C16.  The names tried for a type: each alias link is followed at most once, so the search ends, whatever cycles
    the declared aliases form. *)
Theorem C16_links : forall (H T : Type) (h : list (mop H T)) n, exists p, tries h [] n p /\ NoDup (combine p (tl p)).
Proof. exact (fun H T => @MatcherProofs.tries_exist H T (fun _ _ => Ok None)). Qed.
Print Assumptions C16_links.

Theorem C16_terminates : forall (H T : Type) (u : T -> string -> res (option string)) (h : list (mop H T)) s,
  (forall t, u t s <> Err OutOfFuel) -> lookup u (mrun matcher_init h) s <> Raised OutOfFuel.
Proof. exact (@MatcherProofs.lookup_terminates). Qed.
Print Assumptions C16_terminates.

(** The answer is the handler of the last name tried. *)
Theorem C16_resolution : forall (H T : Type) (u : T -> string -> res (option string)) h s k (x : H) t,
  key s k -> type_traits s = Ok t ->
  (lookup u (mrun matcher_init h) s = Found x None t <-> resolves h k (Some x)).
Proof. exact (@MatcherProofs.lookup_direct). Qed.
Print Assumptions C16_resolution.

(** A chain of typedefs leads to its first registered type, whatever else is declared. *)
Theorem C16_typedefs : forall (H T : Type) (u : T -> string -> res (option string)) h s k p t (x : H),
  key s k -> type_traits s = Ok t -> NoDup p -> hd_error p = Some k ->
  (forall i a b, nth_error p i = Some a -> nth_error p (S i) = Some b -> handler_of h a = None /\ original_of h a = Some b) ->
  handler_of h (last p k) = Some x -> lookup u (mrun matcher_init h) s = Found x None t.
Proof. exact (@MatcherProofs.typedef_chain). Qed.
Print Assumptions C16_typedefs.

(** Only the latest alias of a type is followed back: here B is registered and declared an alias of A, and yet A is
    unknown, since C was declared an alias of A later. *)
Theorem C16_all_aliases_refuted : exists h : list (mop nat nat),
  In (MAlias "A" "B") h /\ handler_of h "B" = Some 1 /\
  forall u, lookup u (mrun matcher_init h) "A" = NotFound ["A"].
Proof. exists [MRegister "B" 1; MAlias "A" "B"; MAlias "A" "C"]. split; [cbn; auto|]. split; [vm_compute; reflexivity|]. intros u. vm_compute. reflexivity. Qed.
Print Assumptions C16_all_aliases_refuted.

(** A cycle of aliases, and a chain. *)
Example C16_demo :
  lookup smart (mrun matcher_init [MAlias "A" "B"; MAlias "B" "C"; MAlias "C" "A"]) "A" = @NotFound nat nat ["A"] /\
  (exists tr, lookup smart (mrun matcher_init demo) "Bar" = Found 7 None tr) /\
  key "Bar" "Bar" /\ NoDup ["Bar"; "FooPtr"; "Foo *"] /\
  original_of demo "Bar" = Some "FooPtr" /\ original_of demo "FooPtr" = Some "Foo *" /\
  handler_of demo "Bar" = None /\ handler_of demo "FooPtr" = None /\ handler_of demo "Foo *" = Some 7.
Proof.
  split; [vm_compute; reflexivity|]. split; [eexists; vm_compute; reflexivity|].
  split; [eexists; split; [vm_compute; reflexivity|reflexivity]|].
  split; [repeat (constructor; [cbn; intuition discriminate|]); constructor|].
  repeat split; vm_compute; reflexivity.
Qed.
