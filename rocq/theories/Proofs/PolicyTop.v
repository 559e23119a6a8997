From Verif.Model Require Import Py PyState Mangle Errors Overloading Module.
From Verif.Spec Require Import OverloadSpec ModuleSpec PolicySpec SectionSpec.
From Verif.Proofs Require Import OfferProofs ScriptProofs.
Open Scope list_scope.

Section Top.
  Context {V : Type} (make : list string -> list (string * string) -> res V).
  Theorem script_no_handler p0 name ns cs w tr multi g : run make p0 cs (new_root name ns) = (w, tr) -> generate None multi w = (g, Ok tt) ->
    forall f, in_tree m_functions w f -> no_skips f ->
    match fs_wrappers f with [u] => sole_problem (fs_id f) u = None | ws => survive None ws ws end.
  Proof.
    intros H G f (i & m & E & I) N. destruct (script_sets make p0 name ns cs w tr i m H E) as (_ & F & _ & B).
    destruct (F f I) as (_ & NE). eapply tree_no_handler; eauto.
  Qed.
  Theorem script_offered p0 name ns cs w tr h multi g : honest h -> run make p0 cs (new_root name ns) = (w, tr) -> generate (Some h) multi w = (g, Ok tt) ->
    forall f, in_tree m_functions w f -> no_skips f ->
    (exists e0, comes_out (Some h) f e0 /\ agreed h (w_log (g_world g)) (fs_id f) e0) \/
    match fs_wrappers f with
    | [u] => forall id e, sole_problem (fs_id f) u = Some (id, e) -> agreed h (w_log (g_world g)) id e
    | ws => forall u e, In u ws -> fw_body u true = Err e -> agreed h (w_log (g_world g)) (fw_id u) e
    end.
  Proof.
    intros Hh H G f (i & m & E & I) N. destruct (script_sets make p0 name ns cs w tr i m H E) as (_ & _ & _ & B).
    eapply tree_offered; eauto.
  Qed.
  Theorem script_functions p name ns cs w tr i m : run make p cs (new_root name ns) = (w, tr) -> nth_error (w_mods w) i = Some m ->
    map fs_name (m_functions m) = first_occurrences (names_of i tr) /\
    forall f, In f (m_functions m) -> Forall2 (wraps make) (functions_named i (fs_name f) tr) (fs_wrappers f) /\ fs_wrappers f <> [].
  Proof. intros H E. destruct (script_sets make p name ns cs w tr i m H E) as (A & B & _). auto. Qed.
End Top.
