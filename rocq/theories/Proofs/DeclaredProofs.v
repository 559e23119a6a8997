From Verif.Model Require Import Py PyState Mangle Errors Overloading Module.
From Verif.Spec Require Import OverloadSpec ModuleSpec PolicySpec SectionSpec.
From Verif.Proofs Require Import StrLemmas ModuleProofs ModuleSteps ModuleNames ModulePaths PolicyProofs.
From Coq Require Import Lia.
Open Scope string_scope.
Open Scope list_scope.
Open Scope st_scope.

Definition functions_at (w : world) (j : nat) : list fset := match nth_error (w_mods w) j with Some m => m_functions m | None => [] end.
Definition types_at (w : world) (j : nat) : list titem := match nth_error (w_mods w) j with Some m => m_types m | None => [] end.
Definition same_content (w w' : world) : Prop :=
  (forall j, functions_at w' j = functions_at w j) /\ (forall j, types_at w' j = types_at w j).
Lemma content_refl w : same_content w w.
Proof. split; reflexivity. Qed.
Lemma content_trans a b c : same_content a b -> same_content b c -> same_content a c.
Proof. intros (A & B) (A' & B'). split; intros; congruence. Qed.
Lemma content_upd i f w : (forall m, m_functions (f m) = m_functions m) -> (forall m, m_types (f m) = m_types m) -> same_content w (upd_mod i f w).
Proof.
  intros F T. split; intros j; unfold functions_at, types_at, upd_mod, set_mods; cbn [w_mods]; rewrite upd_nth;
    destruct (Nat.eqb_spec j i) as [->|]; try reflexivity; destruct (nth_error (w_mods w) i); cbn; congruence.
Qed.
Lemma content_fold n v l : forall w, same_content w (fold_left (fun w j => set_in n v j w) l w).
Proof.
  induction l as [|j l IH]; intros w; cbn [fold_left]; [apply content_refl|]. eapply content_trans; [|apply IH].
  now apply content_upd.
Qed.
Lemma content_register i name full v w : same_content w (fst (register_type i name full v w)).
Proof.
  unfold register_type. cbn [fst].
  assert (X : same_content w (match name with Some n => if String.eqb n "" then w else set_in n v i w | None => w end)).
  { destruct name as [n|]; [destruct (String.eqb n "")|]; auto using content_refl. now apply content_upd. }
  destruct full as [f|]; [|exact X]. destruct (String.eqb f ""); [exact X|]. eapply content_trans; [exact X|apply content_fold].
Qed.
Lemma fold_fields n v l : forall w, let w' := fold_left (fun w j => set_in n v j w) l w in
  w_section w' = w_section w /\ w_includes w' = w_includes w /\ w_once w' = w_once w.
Proof. induction l as [|j l IH]; intros w; cbn [fold_left]; cbv zeta; [auto|]. apply (IH (set_in n v j w)). Qed.
Lemma register_fields i name full v w : let w' := fst (register_type i name full v w) in
  w_section w' = w_section w /\ w_includes w' = w_includes w /\ w_once w' = w_once w.
Proof.
  unfold register_type. cbn [fst]. cbv zeta.
  destruct name as [n|], full as [f|]; try destruct (String.eqb n ""); try destruct (String.eqb f ""); auto;
    solve [apply (fold_fields f v _ (set_in n v i w)) | apply (fold_fields f v _ w)].
Qed.
Lemma content_sub j m name ns w : nth_error (w_mods w) j = Some m -> same_content w (with_sub j m name ns w).
Proof.
  intros E. assert (L : nth_error (w_mods w) (length (w_mods w)) = None) by (apply nth_error_None; lia).
  split; intros i; unfold functions_at, types_at; rewrite (with_sub_nth _ _ _ _ _ _ E);
    (destruct (Nat.eqb_spec i (length (w_mods w))) as [->|]; [now rewrite L|]); (destruct (Nat.eqb_spec i j) as [->|]; [now rewrite E|reflexivity]).
Qed.
Lemma content_logged l w : same_content w (logged l w).
Proof. split; reflexivity. Qed.

Section Declared.
  Context {V : Type} (make : list string -> list (string * string) -> res V) (p : policy).

  Definition adds_something (x : call V * res answer) : bool :=
    match x with (CFunctionC _ _, Ok (RObject _)) | (CType _ _, Ok (RObject _)) => true | _ => false end.

  Lemma eval_stands retval id s v w w' :
    eval_spec note make (if retval : bool then parse_retval_spec else parse_param_spec) p id s w = (w', Ok v) -> stands_for make retval s v.
  Proof.
    rewrite eval_problem. destruct (problem make retval s) as [x|] eqn:P; [discriminate|]. intros H.
    assert (H' := f_equal snd H). cbn [snd] in H'. destruct s as [x|args kw|t|]; cbn [stands_for].
    - congruence.
    - exact H'.
    - split; [|exact H']. destruct retval; [reflexivity|]. discriminate P.
    - discriminate H'.
  Qed.
  Lemma params_stand id l : forall vs w w', eval_params note make p id l w = (w', Ok vs) -> Forall2 (stands_for make false) l vs.
  Proof.
    induction l as [|s l IH]; intros vs w w' H; cbn [eval_params] in H.
    - assert (vs = []) as -> by (unfold ret in H; congruence). constructor.
    - destruct (eval_param note make p id s w) as [w1 [v|e]] eqn:A; [|rewrite (sbind_err _ _ _ _ _ A) in H; discriminate].
      rewrite (sbind_ok _ _ _ _ _ A) in H. destruct (eval_params note make p id l w1) as [w2 [r|e]] eqn:B; [|rewrite (sbind_err _ _ _ _ _ B) in H; discriminate].
      rewrite (sbind_ok _ _ _ _ _ B) in H. assert (vs = v :: r) as -> by (unfold ret in H; congruence).
      constructor; [|eauto]. exact (eval_stands false id s v w w1 A).
  Qed.
  Lemma attempt_stands d w w' v : function_attempt make p d w = (w', Ok (Some v)) ->
    stands_for make true (fd_retval d) (fst v) /\ Forall2 (stands_for make false) (fd_params d) (snd v).
  Proof.
    unfold function_attempt, try_except. destruct (new_function make p d w) as [w1 [x|e]] eqn:N.
    - rewrite (sbind_ok _ _ _ _ _ N). intros H. assert (x = v) as -> by (unfold ret in H; congruence). unfold new_function in N.
      destruct (eval_retval note make p (fd_id d) (fd_retval d) w) as [w2 [r|e]] eqn:A; [|rewrite (sbind_err _ _ _ _ _ A) in N; discriminate].
      rewrite (sbind_ok _ _ _ _ _ A) in N. destruct (eval_params note make p (fd_id d) (fd_params d) w2) as [w3 [ps|e]] eqn:B; [|rewrite (sbind_err _ _ _ _ _ B) in N; discriminate].
      rewrite (sbind_ok _ _ _ _ _ B) in N. assert (v = (r, ps)) as -> by (unfold ret in N; congruence). cbn [fst snd]. split.
      + exact (eval_stands true _ _ _ _ _ A).
      + eapply params_stand; eauto.
    - rewrite (sbind_err _ _ _ _ _ N). destruct (exc_eq_dec e SkipWrapper); discriminate.
  Qed.
  Lemma the_wrapper_wraps m s d v : stands_for make true (fd_retval d) (fst v) -> Forall2 (stands_for make false) (fd_params d) (snd v) ->
    wraps make (d, s) (the_wrapper m s d v).
  Proof.
    intros A B. unfold wraps, the_wrapper. cbn [fst snd fw_id fw_section fw_own fw_doc fw_autodoc fw_forced fw_needs_interface fw_body].
    repeat (split; [reflexivity|]). split.
    - destruct (fd_own d); split; congruence.
    - exists (fst v), (snd v). auto.
  Qed.

  (** What a call does to the functions and types of the modules. *)
  Lemma step_content c w w' r : run_call make p c w = (w', r) ->
    (adds_something (c, r) = false /\ same_content w w') \/
    (exists i d n m f, c = CFunctionC i d /\ r = Ok (RObject n) /\ nth_error (w_mods w) i = Some m /\ wraps make (d, w_section w) f /\
       (forall j, functions_at w' j = if Nat.eqb j i then add_to n d f (functions_at w j) else functions_at w j) /\
       (forall j, types_at w' j = types_at w j)) \/
    (exists i t full m x, c = CType i t /\ r = Ok (RObject full) /\ nth_error (w_mods w) i = Some m /\ describes (t, full, w_section w) x /\
       (forall j, types_at w' j = if Nat.eqb j i then types_at w j ++ [x] else types_at w j) /\
       (forall j, functions_at w' j = functions_at w j)).
  Proof.
    destruct c as [j n ns|j n|i d|i t|i o k a|i s|i s|i s|i s|i s|i f]; intros H.
    - left. split; [reflexivity|]. cbn [run_call] in H. destruct (nth_error (w_mods w) j) as [m|] eqn:E.
      + rewrite (sbind_ok _ _ _ _ _ (new_submodule_eq j n ns w m E)) in H.
        replace w' with (with_sub j m n ns w) by (unfold ret in H; congruence). now apply content_sub.
      + assert (X : new_submodule j n ns w = (w, Err Unmodelled)).
        { unfold new_submodule. apply sbind_err. unfold get_mod. now rewrite E. }
        rewrite (sbind_err _ _ _ _ _ X) in H. replace w' with w by congruence. apply content_refl.
    - left. split; [reflexivity|]. cbn [run_call] in H. destruct (namespace_cases j n w) as [(E & X)|(m & E & [(i & F & X)|(F & X)])].
      + rewrite (sbind_err _ _ _ _ _ X) in H. replace w' with w by congruence. apply content_refl.
      + rewrite (sbind_ok _ _ _ _ _ X) in H. replace w' with w by (unfold ret in H; congruence). apply content_refl.
      + rewrite (sbind_ok _ _ _ _ _ X) in H. replace w' with (with_sub j m n (Some n) w) by (unfold ret in H; congruence). now apply content_sub.
    - destruct (function_cases make p i d w) as [(E & X)|(m & l & E & [(e & _ & X)|[(_ & X)|(v & A & X)]])]; rewrite X in H.
      + left. replace w' with w by congruence. replace r with (@Err answer Unmodelled) by congruence. split; [reflexivity|apply content_refl].
      + left. replace w' with (logged l w) by congruence. replace r with (@Err answer e) by congruence. split; [reflexivity|apply content_logged].
      + left. replace w' with (logged l w) by congruence. replace r with (Ok RNone) by congruence. split; [reflexivity|apply content_logged].
      + right; left. destruct (attempt_stands _ _ _ _ (A w)) as (S1 & S2).
        exists i, d, (python_name m d), m, (the_wrapper m (w_section w) d v). split; [reflexivity|]. split; [congruence|]. split; [exact E|].
        split; [now apply the_wrapper_wraps|]. replace w' with (with_function i m d v (logged l w)) by congruence.
        unfold with_function, functions_at, types_at, upd_mod, set_mods. cbn [w_mods w_section logged].
        split; intros j; rewrite upd_nth; destruct (Nat.eqb_spec j i) as [->|]; rewrite ?E; reflexivity.
    - destruct (type_cases make p i t w) as [(E & X)|(m & l & E & [(e & _ & X)|[(_ & X)|(A & X)]])]; cbv zeta in X; rewrite X in H.
      + left. replace w' with w by congruence. replace r with (@Err answer Unmodelled) by congruence. split; [reflexivity|apply content_refl].
      + left. replace w' with (logged l w) by congruence. replace r with (@Err answer e) by congruence. split; [reflexivity|apply content_logged].
      + left. replace w' with (logged l w) by congruence. replace r with (Ok RNone) by congruence. split; [reflexivity|apply content_logged].
      + right; right. set (full := full_name (m_ns_prefix m) (td_scope t) (td_name t)) in *.
        exists i, t, full, m, (the_item m (w_section w) t). split; [reflexivity|]. split; [congruence|]. split; [exact E|].
        split; [unfold describes, the_item; cbn [fst snd]; repeat split; reflexivity|].
        match type of H with (?a, _) = _ => replace w' with a by congruence end.
        pose proof (content_register i (Some (td_name t)) (Some full) (td_id t) (with_type i m t (logged l w))) as (Cf & Ct).
        split; intros j; rewrite ?Cf, ?Ct; unfold with_type, functions_at, types_at, upd_mod, set_mods; cbn [w_mods w_section logged];
          rewrite upd_nth; destruct (Nat.eqb_spec j i) as [->|]; rewrite ?E; reflexivity.
    - left. split; [reflexivity|]. cbn [run_call] in H. unfold add_typedef, sbind, get_mod in H.
      destruct (nth_error (w_mods w) i); [|replace w' with w by congruence; apply content_refl].
      destruct (nth_error (w_mods w) o); [|replace w' with w by congruence; apply content_refl].
      pose proof (content_register i (Some a) (Some a) k w) as C1.
      destruct (register_type i (Some a) (Some a) k w) as [w1 [[]|]] eqn:R1; cbn [fst] in C1; [|replace w' with w1 by congruence; exact C1].
      pose proof (content_register o None (Some a) k w1) as C2.
      destruct (register_type o None (Some a) k w1) as [w2 [[]|]] eqn:R2; cbn [fst] in C2; [|replace w' with w2 by congruence; eauto using content_trans].
      unfold gets in H. match type of H with context [register_type o None (Some ?f) k w2] => set (full := f) in * end.
      pose proof (content_register o None (Some full) k w2) as C3.
      destruct (register_type o None (Some full) k w2) as [w3 [[]|]] eqn:R3; cbn [fst] in C3; replace w' with w3 by (unfold ret in H; congruence); eauto using content_trans.
    - left. split; [reflexivity|]. cbn [run_call] in H. unfold sbind, get_mod, add_include, ret in H. destruct (nth_error (w_mods w) i); [|replace w' with w by congruence; apply content_refl].
      destruct (include_ok s); [|replace w' with w by congruence; apply content_refl].
      destruct (w_includes w); [|replace w' with w by congruence; apply content_refl].
      destruct (mem s l); [replace w' with w by congruence; apply content_refl|]. match type of H with (?a, _) = _ => replace w' with a by congruence end. split; reflexivity.
    - left. split; [reflexivity|]. cbn [run_call] in H. unfold sbind, get_mod, declare_one_time_definition, ret in H. destruct (nth_error (w_mods w) i); [|replace w' with w by congruence; apply content_refl].
      destruct (mem s (w_once w)); [replace w' with w by congruence; apply content_refl|]. match type of H with (?a, _) = _ => replace w' with a by congruence end. split; reflexivity.
    - left. split; [reflexivity|]. cbn [run_call] in H. unfold sbind, get_mod, begin_section, ret in H. destruct (nth_error (w_mods w) i); [|replace w' with w by congruence; apply content_refl].
      destruct (negb _); [replace w' with w by congruence; apply content_refl|]. destruct (String.eqb s "__main__"); [replace w' with w by congruence; apply content_refl|].
      destruct (is_root i w); [|replace w' with w by congruence; apply content_refl]. match type of H with (?a, _) = _ => replace w' with a by congruence end. split; reflexivity.
    - left. split; [reflexivity|]. cbn [run_call] in H. unfold sbind, get_mod, end_section, ret in H. destruct (nth_error (w_mods w) i); [|replace w' with w by congruence; apply content_refl].
      destruct (is_root i w); [|replace w' with w by congruence; apply content_refl].
      destruct (String.eqb (w_section w) s); [|replace w' with w by congruence; apply content_refl]. match type of H with (?a, _) = _ => replace w' with a by congruence end. split; reflexivity.
    - left. split; [reflexivity|]. cbn [run_call] in H. unfold sbind, get_mod, modify, ret in H. destruct (nth_error (w_mods w) i); [|replace w' with w by congruence; apply content_refl].
      match type of H with (?a, _) = _ => replace w' with a by congruence end. now apply content_upd.
    - left. split; [reflexivity|]. cbn [run_call] in H. unfold sbind, get_mod, modify, ret in H. destruct (nth_error (w_mods w) i); [|replace w' with w by congruence; apply content_refl].
      match type of H with (?a, _) = _ => replace w' with a by congruence end. now apply content_upd.
  Qed.
End Declared.
