(** C18: errors are raised, or skip only the wrapper concerned. *)
From Verif.Model Require Import Py PyState Errors Overloading Module.
From Verif.Spec Require Import OverloadSpec ModuleSpec PolicySpec SectionSpec.
From Verif.Proofs Require PolicyProofs PruneTop EscapeProofs OfferProofs ScriptProofs EscapeTop PolicyTop.
Open Scope string_scope.
Open Scope list_scope.

(** ** Declarations *)

(** A function whose types are all known is declared and the handler is not asked.  Otherwise the first error is offered
    once to the handler, if there is one and it is an error of a type; the declaration answers None if the handler accepts,
    raises otherwise, and changes nothing. *)
Theorem C18_function : forall V make p i (d : fdecl V) w m, nth_error (w_mods w) i = Some m ->
    match function_problem make d with
    | None => exists w' n, run_call make p (CFunctionC i d) w = (w', Ok (RObject n)) /\ w_log w' = w_log w
    | Some (e, ask) =>
        let x := policy_of p (fd_id d) e (ask && declaration_error e) in
        exists w', run_call make p (CFunctionC i d) w = (w', if exc_eq_dec (snd x) SkipWrapper then Ok RNone else Err (snd x)) /\
          same_module w' w /\ w_log w' = w_log w ++ fst x
    end.
Proof. exact (@PolicyProofs.function_policy). Qed.
Print Assumptions C18_function.

(** The same for containers and other types; only containers can be skipped. *)
Theorem C18_type : forall V make p i (t : tdecl V) w m, nth_error (w_mods w) i = Some m ->
    match type_problem make t with
    | None => exists w' n, run_call make p (CType i t) w = (w', Ok (RObject n)) /\ w_log w' = w_log w
    | Some (e, ask) =>
        let x := policy_of p (td_id t) e (ask && declaration_error e) in
        exists w', run_call make p (CType i t) w =
                   (w', if exc_eq_dec (snd x) SkipWrapper then match td_kind t with KContainer => Ok RNone | _ => Err SkipWrapper end else Err (snd x)) /\
          same_module w' w /\ w_log w' = w_log w ++ fst x
    end.
Proof. exact (@PolicyProofs.type_policy). Qed.
Print Assumptions C18_type.

(** A call that fails or is skipped leaves the modules as they were. *)
Theorem C18_atomic : forall V make p (c : call V) w w' r, run_call make p c w = (w', r) -> no_effect (c, r) = true -> same_module w' w.
Proof. exact (@PolicyProofs.atomic). Qed.
Print Assumptions C18_atomic.

(** A script with such calls is as good as the script without them. *)
Theorem C18_script : forall V make p (cs : list (call V)) w0 w tr, run make p cs w0 = (w, tr) ->
    exists w', run make p (map fst (filter (fun e => negb (no_effect e)) tr)) w0 = (w', filter (fun e => negb (no_effect e)) tr) /\ same_module w' w.
Proof. exact (@PolicyProofs.script). Qed.
Print Assumptions C18_script.

(** ** Generation *)

(** A handler that accepts the errors: the code generated is that of the modules without the functions that cannot be
    generated, whatever the error handler is then. *)
Theorem C18_pruned : forall h p multi w w',
  (forall m f, In m (w_mods w) -> In f (m_functions m) -> accepted h f /\ one_section f) -> pruned w w' ->
    snd (generate (Some h) multi w) = snd (generate p multi w') /\
    essential (g_out (fst (generate (Some h) multi w))) = essential (g_out (fst (generate p multi w'))).
Proof. exact PruneTop.generation. Qed.
Print Assumptions C18_pruned.

(** An error that comes out of generation belongs to one of the declared functions or types; it is the error of a function
    unless the error handler raised another one. *)
Theorem C18_errors : forall V make p0 name ns (cs : list (call V)) w tr p multi g e,
  run make p0 cs (new_root name ns) = (w, tr) -> generate p multi w = (g, Err e) ->
  (exists f, in_tree m_functions w f /\ function_fails p f e) \/ (exists t, in_tree m_types w t /\ type_fails t e).
Proof. exact (@EscapeTop.script_fails). Qed.
Print Assumptions C18_errors.

(** Without an error handler, generation succeeds only if every function can be generated. *)
Theorem C18_no_handler : forall V make p0 name ns (cs : list (call V)) w tr multi g,
  run make p0 cs (new_root name ns) = (w, tr) -> generate None multi w = (g, Ok tt) ->
  forall f, in_tree m_functions w f -> no_skips f ->
  match fs_wrappers f with [u] => sole_problem (fs_id f) u = None | ws => survive None ws ws end.
Proof. exact (@PolicyTop.script_no_handler). Qed.
Print Assumptions C18_no_handler.

(** With one, every function whose generation failed was offered to it and accepted: either itself or the whole set of
    functions of its name. *)
Theorem C18_offered : forall V make p0 name ns (cs : list (call V)) w tr h multi g, honest h ->
  run make p0 cs (new_root name ns) = (w, tr) -> generate (Some h) multi w = (g, Ok tt) ->
  forall f, in_tree m_functions w f -> no_skips f ->
  (exists e0, comes_out (Some h) f e0 /\ agreed h (w_log (g_world g)) (fs_id f) e0) \/
  match fs_wrappers f with
  | [u] => forall id e, sole_problem (fs_id f) u = Some (id, e) -> agreed h (w_log (g_world g)) id e
  | ws => forall u e, In u ws -> fw_body u true = Err e -> agreed h (w_log (g_world g)) (fw_id u) e
  end.
Proof. exact (@PolicyTop.script_offered). Qed.
Print Assumptions C18_offered.

(** The functions of a generated module are those declared: one set for each Python name, with one wrapper for each
    declaration that succeeded. *)
Theorem C18_declared : forall V make p name ns (cs : list (call V)) w tr i m,
  run make p cs (new_root name ns) = (w, tr) -> nth_error (w_mods w) i = Some m ->
  map fs_name (m_functions m) = first_occurrences (names_of i tr) /\
  forall f, In f (m_functions m) -> Forall2 (wraps make) (functions_named i (fs_name f) tr) (fs_wrappers f) /\ fs_wrappers f <> [].
Proof. exact (@PolicyTop.script_functions). Qed.
Print Assumptions C18_declared.

(** ** Examples *)
Definition known : list string -> list (string * string) -> res string :=
  fun args _ => match args with t :: _ => if String.eqb t "Unknown" then Err TypeLookupError else Ok t | [] => Err TypeError end.
Definition fine (id : nat) (name : string) : fdecl string :=
  mk_fdecl id (id + 100) name None [] None None "" (SString "int") [STuple ["int"; "x"] None] (fun _ _ _ => Ok ["METH_VARARGS"; "METH_KEYWORDS"]).
Definition unknown (id : nat) (name : string) : fdecl string :=
  mk_fdecl id (id + 100) name None [] None None "" (SString "int") [STuple ["Unknown"; "x"] None] (fun _ _ _ => Ok ["METH_VARARGS"; "METH_KEYWORDS"]).
Definition failing (id : nat) (name : string) : fdecl string :=
  mk_fdecl id (id + 100) name None [] None None "" (SString "int") [] (fun _ _ _ => Err CodeGenerationError).
Definition yes : handler := fun _ _ => Ok true.
Definition no : handler := fun _ _ => Ok false.

Definition script : list (call string) :=
  [CFunctionC 0 (fine 1 "f"); CFunctionC 0 (unknown 2 "f"); CFunctionC 0 (failing 3 "f"); CNamespace 0 "n"; CFunctionC 1 (failing 4 "g"); CFunctionC 1 (fine 5 "h")].
Example C18_example_declared :
  snd (run known (Some yes) script (new_root "m" None)) =
  [(CFunctionC 0 (fine 1 "f"), Ok (RObject "f")); (CFunctionC 0 (unknown 2 "f"), Ok RNone); (CFunctionC 0 (failing 3 "f"), Ok (RObject "f"));
   (CNamespace 0 "n", Ok (RModule 1)); (CFunctionC 1 (failing 4 "g"), Ok (RObject "g")); (CFunctionC 1 (fine 5 "h"), Ok (RObject "h"))].
Proof. vm_compute. reflexivity. Qed.
Example C18_example_problems :
  function_problem known (fine 1 "f") = None /\ function_problem known (unknown 2 "f") = Some (TypeLookupError, true).
Proof. split; vm_compute; reflexivity. Qed.
Definition declared : world := fst (run known (Some yes) script (new_root "m" None)).
Example C18_example_hypotheses : forall m f, In m (w_mods declared) -> In f (m_functions m) -> accepted yes f /\ one_section f /\ no_skips f.
Proof.
  intros m f Im If. vm_compute in Im. destruct Im as [<-|[<-|[]]]; cbn [m_functions] in If.
  - destruct If as [<-|[]]. split; [|split].
    + intros u [<-|[<-|[]]]; split; try (eexists; reflexivity); intros e; cbn; [discriminate|]. intros [= <-]. split; [tauto|reflexivity].
    + intros a b [<-|[<-|[]]] [<-|[<-|[]]]; reflexivity.
    + intros u b [<-|[<-|[]]]; cbn; discriminate.
  - destruct If as [<-|[<-|[]]].
    + split; [|split].
      * intros id e. cbn. intros [= <- <-]. split; [tauto|reflexivity].
      * intros a b [<-|[]] [<-|[]]. reflexivity.
      * intros u b [<-|[]]. cbn. discriminate.
    + split; [|split].
      * intros id e. cbn. discriminate.
      * intros a b [<-|[]] [<-|[]]. reflexivity.
      * intros u b [<-|[]]. cbn. discriminate.
Qed.
(** The script without the failing functions. *)
Definition smaller : world :=
  fst (run known None [CFunctionC 0 (fine 1 "f"); CNamespace 0 "n"; CFunctionC 1 (fine 5 "h")] (new_root "m" None)).
Example C18_example_generate :
  snd (generate (Some yes) false declared) = Ok tt /\ snd (generate None false declared) = Err CodeGenerationError /\
  snd (generate (Some no) false declared) = Err CodeGenerationError /\
  snd (generate None false smaller) = Ok tt /\
  w_log (g_world (fst (generate (Some yes) false declared))) =
    [(2, TypeLookupError); (4, CodeGenerationError); (3, CodeGenerationError); (3, SkipWrapper)].
Proof. vm_compute. auto. Qed.

Example C18_example_pruned : exists w', pruned declared w' /\ map (fun m => map (fun f => map fw_id (fs_wrappers f)) (m_functions m)) (w_mods w') = [[[1]]; [[5]]].
Proof.
  eexists (mk_world [_; _] _ _ _ []). split; [split; [|repeat split]|].
  - unfold declared. vm_compute w_mods. constructor; [|constructor; [|constructor]].
    + eexists. split; [reflexivity|]. cbn [m_functions]. eapply (pr_keep _ [_]); [|discriminate|constructor].
      eapply (kp_many _ _ [_]); [cbn; discriminate|]. eapply sv_first; [reflexivity|]. eapply sv_fail; [reflexivity|]. constructor.
    + eexists. split; [reflexivity|]. cbn [m_functions]. eapply pr_drop; [eapply kp_one_not; reflexivity|].
      eapply (pr_keep _ [_]); [apply kp_one; reflexivity|discriminate|constructor].
  - reflexivity.
Qed.

(** ** Where the English claim fails *)

(** An error that the handler declines is offered to it twice: for the function and for the set of functions of its name. *)
Theorem C18_offered_once_refuted : exists (cs : list (call string)) w tr, run known (Some no) cs (new_root "m" None) = (w, tr) /\ w_log w = [] /\
  w_log (g_world (fst (generate (Some no) false w))) = [(4, CodeGenerationError); (104, CodeGenerationError)].
Proof. exists [CFunctionC 0 (failing 4 "g")]. eexists _, _. split; [reflexivity|]. split; vm_compute; reflexivity. Qed.
Print Assumptions C18_offered_once_refuted.

(** Overloads declared in two sections: dropping the first moves the other one to another file. *)
Theorem C18_pruned_refuted : exists (cs cs' : list (call string)) w w' tr tr' x,
  run known (Some yes) cs (new_root "m" None) = (w, tr) /\ run known (Some yes) cs' (new_root "m" None) = (w', tr') /\
  (forall m f, In m (w_mods w) -> In f (m_functions m) -> accepted yes f) /\
  cs = [CBegin 0 "a"; CFunctionC 0 (failing 1 "f"); CEnd 0 "a"; CBegin 0 "b"; CFunctionC 0 (fine 2 "f"); CEnd 0 "b"] /\
  cs' = [CBegin 0 "a"; CEnd 0 "a"; CBegin 0 "b"; CFunctionC 0 (fine 2 "f"); CEnd 0 "b"] /\
  In (SSection "a", x) (essential (g_out (fst (generate (Some yes) true w)))) /\
  forall y, ~ In (SSection "a", y) (essential (g_out (fst (generate (Some yes) true w')))).
Proof.
  exists [CBegin 0 "a"; CFunctionC 0 (failing 1 "f"); CEnd 0 "a"; CBegin 0 "b"; CFunctionC 0 (fine 2 "f"); CEnd 0 "b"].
  exists [CBegin 0 "a"; CEnd 0 "a"; CBegin 0 "b"; CFunctionC 0 (fine 2 "f"); CEnd 0 "b"].
  eexists _, _, _, _, (PChunk (CFunction 2 "_wrap_m_f" false)).
  split; [reflexivity|]. split; [reflexivity|]. split; [|split; [reflexivity|split; [reflexivity|split]]].
  - intros m f [<-|[]] [<-|[]]. intros u [<-|[<-|[]]]; split; try (eexists; reflexivity); intros e; cbn; [|discriminate]. intros [= <-]. split; [tauto|reflexivity].
  - vm_compute. auto.
  - intros y. vm_compute. intros H. repeat (destruct H as [H|H]; [discriminate H|]). exact H.
Qed.
Print Assumptions C18_pruned_refuted.
