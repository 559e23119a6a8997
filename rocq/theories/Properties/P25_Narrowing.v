(** C25: automatic type narrowing picks the most derived known wrapper type.  [map_after walks h] is the type map after the
    registrations and lookups [h]; [walks] tells whether the generated code walks up the C++ type information (GCC, and
    settings.gcc_rtti_abi_complete). *)
From Verif.Model Require Import Py Hierarchy TypeMap.
From Verif.Spec Require Import NarrowSpec.
From Verif.Proofs Require TypeMapProofs.
Open Scope string_scope.
Open Scope list_scope.

(** ** One type map *)
(** A lookup always returns, whatever the map and the type: after some number of steps it has returned and stays so. *)
Theorem C25_terminates : forall walks m t fallback,
  exists n w, forall k, snd (lookup_steps (n + k) walks t fallback m Entered) = Returned w.
Proof. exact TypeMapProofs.terminates. Qed.
Print Assumptions C25_terminates.
(** [lookup_wrapper] is that result. *)
Theorem C25_result : forall walks m t fallback n w,
  snd (lookup_steps n walks t fallback m Entered) = Returned w -> snd (lookup_wrapper walks m t fallback) = Ok w.
Proof. exact TypeMapProofs.completes. Qed.
Print Assumptions C25_result.

(** The wrapper type registered for the dynamic type itself, with any compiler. *)
Theorem C25_exact : forall walks h t fallback w, known h t = Some w ->
  snd (lookup_wrapper walks (map_after walks h) t fallback) = Ok (Some w).
Proof. exact TypeMapProofs.exact_ok. Qed.
Print Assumptions C25_exact.

(** Otherwise the one of the nearest registered class above it on the line of single inheritance, if that class itself has
    exactly one base. *)
Theorem C25_nearest : forall h t u w fallback, nearest h t u w -> u = t \/ (~ is_plain u /\ ~ is_multiple u) ->
  snd (lookup_wrapper true (map_after true h) t fallback) = Ok (Some w).
Proof. exact TypeMapProofs.nearest_ok. Qed.
Print Assumptions C25_nearest.

(** Otherwise the static type: nothing known, except perhaps for the class at the end of the line. *)
Theorem C25_fallback : forall h t fallback, known h t = None ->
  (forall l u, path t l u -> ~ is_plain u -> ~ is_multiple u -> known h u = None) ->
  snd (lookup_wrapper true (map_after true h) t fallback) = Ok fallback.
Proof. exact TypeMapProofs.fallback_ok. Qed.
Print Assumptions C25_fallback.
Theorem C25_nothing_known : forall h t fallback, nothing_known h t ->
  snd (lookup_wrapper true (map_after true h) t fallback) = Ok fallback.
Proof. exact TypeMapProofs.nothing_ok. Qed.
Print Assumptions C25_nothing_known.

(** Not in general: the class at the end of the line is not found by the walk, even if registered. *)
Theorem C25_root_refuted : ~ forall h t u w fallback, nearest h t u w ->
  snd (lookup_wrapper true (map_after true h) t fallback) = Ok (Some w).
Proof.
  intros A. assert (B := A [Register (Plain "B") 1] (Single "D" (Plain "B")) (Plain "B") 1 (Some 2)).
  assert (N : nearest [Register (Plain "B") 1] (Single "D" (Plain "B")) (Plain "B") 1).
  { exists [Single "D" (Plain "B")]. repeat split; [repeat constructor|]. intros x [<-|[]]. reflexivity. }
  specialize (B N). vm_compute in B. discriminate.
Qed.
Print Assumptions C25_root_refuted.

(** It is when the fallback is the wrapper of a registered class on the line (the static type of the object): then the
    nearest registered class is always chosen, whatever it is. *)
Theorem C25_static : forall h t l s ws, path t l s -> known h s = Some ws ->
  exists u w, nearest h t u w /\ snd (lookup_wrapper true (map_after true h) t (Some ws)) = Ok (Some w).
Proof. exact TypeMapProofs.static_ok. Qed.
Print Assumptions C25_static.

(** Without the walk: the exact type or the static type. *)
Theorem C25_elsewhere : forall h t fallback,
  snd (lookup_wrapper false (map_after false h) t fallback) = Ok (match known h t with Some w => Some w | None => fallback end).
Proof. exact TypeMapProofs.elsewhere_ok. Qed.
Print Assumptions C25_elsewhere.

(** Lookups do not influence later answers. *)
Theorem C25_lookups : forall walks h t fallback,
  snd (lookup_wrapper walks (map_after walks h) t fallback) =
  snd (lookup_wrapper walks (map_after walks (filter (fun e => match e with Register _ _ => true | Lookup _ _ => false end) h)) t fallback).
Proof. exact TypeMapProofs.harmless_ok. Qed.
Print Assumptions C25_lookups.

(** ** Programs: class hierarchies declared by any script, [cxx] gives the C++ types of the classes, [h] is any history of
    module initialisations and of objects wrapped *)
(** No narrowing unless the class narrows and its new wrapper owns or shares the object. *)
Theorem C25_unused : forall dn ds ok cs cxx walks h s owned counted t,
  let z := fst (hscript dn ds ok cs []) in narrowing_of z s && (owned || counted) = false ->
  snd (wrapper_type z walks (maps_after z cxx walks h) s owned counted t) = Ok (Some s).
Proof. exact TypeMapProofs.class_static. Qed.
Print Assumptions C25_unused.

(** An object whose dynamic type is a wrapped class with the same narrowing root gets the wrapper type of that class. *)
Theorem C25_class_exact : forall dn ds ok cs cxx walks h s owned counted i,
  let z := fst (hscript dn ds ok cs []) in
  (forall a b, ti_name (cxx a) = ti_name (cxx b) -> a = b) -> narrowing_of z s = true -> owned || counted = true ->
  initialised h i -> companion z s i ->
  snd (wrapper_type z walks (maps_after z cxx walks h) s owned counted (cxx i)) = Ok (Some i).
Proof. exact TypeMapProofs.class_exact. Qed.
Print Assumptions C25_class_exact.

(** The type chosen is always that of a class the object is an instance of: the static one, or one initialised and with the
    same narrowing root. *)
Theorem C25_class_sound : forall dn ds ok cs cxx walks h s owned counted t,
  let z := fst (hscript dn ds ok cs []) in
  names_identify cxx t -> derives t (cxx s) ->
  exists i, snd (wrapper_type z walks (maps_after z cxx walks h) s owned counted t) = Ok (Some i) /\ derives t (cxx i) /\
    (i = s \/ initialised h i /\ companion z s i).
Proof. exact TypeMapProofs.class_sound. Qed.
Print Assumptions C25_class_sound.

(** If the object is related to its static class by single inheritance, it is the nearest such class. *)
Theorem C25_class_nearest : forall dn ds ok cs cxx walks h s owned counted t l,
  let z := fst (hscript dn ds ok cs []) in
  walks = true -> names_identify cxx t -> narrowing_of z s = true -> owned || counted = true -> path t l (cxx s) -> initialised h s ->
  exists i k, snd (wrapper_type z walks (maps_after z cxx walks h) s owned counted t) = Ok (Some i) /\ path t k (cxx i) /\
    initialised h i /\ companion z s i /\ forall j, initialised h j -> companion z s j -> ~ In (cxx j) k.
Proof. exact TypeMapProofs.class_nearest. Qed.
Print Assumptions C25_class_nearest.

(** ** Examples *)
(** Z derives from Y, X and A; only X and A are registered, after two lookups and a registration overwritten. *)
Definition tA := Plain "A".
Definition tX := Single "X" tA.
Definition tY := Single "Y" tX.
Definition tZ := Single "Z" tY.
Definition history := [Lookup tZ (Some 0); Register tX 7; Register tA 0; Lookup tY (Some 0); Register tX 1].
Example C25_nearest_ex : nearest history tZ tX 1 /\ snd (lookup_wrapper true (map_after true history) tZ (Some 0)) = Ok (Some 1).
Proof. split; [|reflexivity]. exists [tZ; tY]. repeat split; [repeat constructor|]. intros x [<-|[<-|[]]]; reflexivity. Qed.
Example C25_elsewhere_ex : snd (lookup_wrapper false (map_after false history) tZ (Some 0)) = Ok (Some 0).
Proof. reflexivity. Qed.
Example C25_static_ex : path tY [tY; tX] tA /\ known history tA = Some 0.
Proof. split; [repeat constructor|reflexivity]. Qed.
Example C25_nothing_ex : nothing_known [Register tZ 3] tY.
Proof. intros l u P. repeat (inversion P as [|? ? ? ? Q]; subst; [reflexivity|]; clear P; rename Q into P). inversion P; subst; reflexivity. Qed.
Example C25_fallback_ex : known [Register tA 3] tY = None /\ forall l u, path tY l u -> ~ is_plain u -> ~ is_multiple u -> known [Register tA 3] u = None.
Proof.
  split; [reflexivity|]. intros l u P N _. repeat (inversion P as [|? ? ? ? Q]; subst; [first [reflexivity|exfalso; apply N; exact I]|]; clear P; rename Q into P).
  inversion P; subst. exfalso. apply N. exact I.
Qed.

(** Classes 0 (A), 1 (X, derived from A), 2 (M, derived from A); an object of the hidden class Y is returned as an A. *)
Definition narrow_class (l : list nat) : hcall := HClass (mk_cdecl (match l with [] => None | _ => Some l end) None (Some true) None false Public).
Definition family : list hcall := [narrow_class []; narrow_class [0]; narrow_class [0]].
Notation program := (fst (hscript false true (fun _ => true) family [])).
Definition types (i : nat) : rtti :=
  match i with 0 => tA | 1 => tX | 2 => Single "M" tA | _ => Plain (String.append "other" (string_of_list_ascii (repeat "x"%char i))) end.
Lemma types_distinct a b : ti_name (types a) = ti_name (types b) -> a = b.
Proof.
  destruct a as [|[|[|a]]]; destruct b as [|[|[|b]]]; cbn; try (intros; congruence). intros J. injection J as J.
  assert (L : forall n m, string_of_list_ascii (repeat "x"%char n) = string_of_list_ascii (repeat "x"%char m) -> n = m).
  { induction n as [|n IH]; intros [|m] Q; cbn in Q; try congruence. f_equal. apply IH. congruence. }
  rewrite (L a b J). reflexivity.
Qed.
Lemma types_identify : names_identify types tY.
Proof.
  split; [exact types_distinct|]. intros i u D. assert (C : u = tY \/ u = tX \/ u = tA).
  { repeat (inversion D as [|? ? ? Q|]; subst; [tauto|]; clear D; rename Q into D). inversion D; subst. tauto. }
  destruct i as [|[|[|i]]]; destruct C as [->|[->| ->]]; cbn; intros J; congruence.
Qed.
Example C25_class_ex : path tY [tY; tX] (types 0) /\ names_identify types tY /\
  companion program 0 1 /\ companion program 0 0 /\ initialised [Initialise 0; Initialise 2; Initialise 1] 1 /\
  snd (wrapper_type program true (maps_after program types true [Initialise 0; Initialise 2; Initialise 1]) 0 true false tY) = Ok (Some 1) /\
  snd (wrapper_type program true (maps_after program types true [Initialise 0; Initialise 2; Initialise 1]) 0 false false tY) = Ok (Some 0).
Proof.
  split; [repeat constructor|]. split; [exact types_identify|]. split; [split; [reflexivity|exists 0; split; reflexivity]|].
  split; [split; [reflexivity|exists 0; split; reflexivity]|]. split; [unfold initialised; cbn; tauto|]. split; reflexivity.
Qed.
