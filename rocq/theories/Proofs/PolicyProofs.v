From Verif.Model Require Import Py PyState Mangle Errors Overloading Module.
From Verif.Spec Require Import OverloadSpec ModuleSpec PolicySpec.
From Verif.Proofs Require Import StrLemmas ModuleProofs ModuleSteps.
From Coq Require Import Lia.
Open Scope string_scope.
Open Scope list_scope.
Open Scope st_scope.

Lemma decl_error e : is_instance e lookup_errors = declaration_error e.
Proof. destruct e; reflexivity. Qed.

Lemma logged_same l w : same_module (logged l w) w /\ w_log (logged l w) = w_log w ++ l.
Proof. repeat split. Qed.

Lemma set_in_log k v i w : w_log (set_in k v i w) = w_log w.
Proof. reflexivity. Qed.
Lemma fold_log n v l : forall w, w_log (fold_left (fun w j => set_in n v j w) l w) = w_log w.
Proof. induction l as [|j l IH]; intros w; cbn [fold_left]; [reflexivity|]. now rewrite IH. Qed.
Lemma register_type_log i name full v w : w_log (fst (register_type i name full v w)) = w_log w.
Proof.
  unfold register_type. cbn [fst]. destruct name as [n|], full as [f|]; try destruct (String.eqb n ""); try destruct (String.eqb f ""); rewrite ?fold_log; reflexivity.
Qed.

Section Policy.
  Context {V : Type} (make : list string -> list (string * string) -> res V) (p : policy).

  Definition verdict (id : nat) (x : pyexc * bool) := policy_of p id (fst x) (snd x && declaration_error (fst x)).

  Lemma handled_make id (r : res V) w :
    call_with_error_handling note p lookup_errors id (lift r) w =
    match looked_up r with
    | None => (w, r)
    | Some x => (logged (fst (verdict id x)) w, Err (snd (verdict id x)))
    end.
  Proof.
    unfold call_with_error_handling, verdict, policy_of. destruct r as [v|e]; cbn [looked_up fst snd].
    - destruct p; reflexivity.
    - destruct p as [h|]; [|now rewrite logged_nil]. unfold try_except, lift. rewrite decl_error.
      cbn [andb]. destruct (declaration_error e); [|now rewrite logged_nil].
      unfold sbind, handle_error, sbind, modify, lift. destruct (h id e) as [[|]|]; reflexivity.
  Qed.

  Lemma eval_problem retval id s w :
    eval_spec note make (if retval : bool then parse_retval_spec else parse_param_spec) p id s w =
    match problem make retval s with
    | None => (w, match s with
                  | SObject v => Ok v
                  | STuple args kw => make args match kw with Some k => k | None => [] end
                  | SString t => make [t] []
                  | SOther => Err TypeError
                  end)
    | Some x => (logged (fst (verdict id x)) w, Err (snd (verdict id x)))
    end.
  Proof.
    assert (N : forall e, (logged (fst (verdict id (e, false))) w, @Err V (snd (verdict id (e, false)))) = (w, Err e)).
    { intros e. unfold verdict, policy_of. cbn [fst snd andb]. destruct p; cbn [fst snd]; now rewrite logged_nil. }
    unfold problem, eval_spec. destruct s as [v|args kw|t|].
    - reflexivity.
    - destruct retval; cbn [parse_retval_spec parse_param_spec].
      + destruct (Nat.leb_spec 1 (length args + match kw with Some _ => 1 | None => 0 end)),
          (Nat.ltb_spec (length args + match kw with Some _ => 1 | None => 0 end) 1); try lia.
        * unfold sbind, lift at 1. cbn [fst snd]. rewrite handled_make.
          destruct (make args _) eqn:M; cbn [looked_up]; rewrite ?M; reflexivity.
        * now rewrite N.
      + destruct (Nat.leb_spec 2 (length args + match kw with Some _ => 1 | None => 0 end)),
          (Nat.ltb_spec (length args + match kw with Some _ => 1 | None => 0 end) 2); try lia.
        * unfold sbind, lift at 1. cbn [fst snd]. rewrite handled_make.
          destruct (make args _) eqn:M; cbn [looked_up]; rewrite ?M; reflexivity.
        * now rewrite N.
    - destruct retval; cbn [parse_retval_spec parse_param_spec].
      + unfold sbind, lift at 1. cbn [fst snd]. rewrite handled_make. destruct (make [t] []); reflexivity.
      + now rewrite N.
    - destruct retval; now rewrite N.
  Qed.
  Lemma eval_fine retval id s w : problem make retval s = None ->
    exists v, eval_spec note make (if retval : bool then parse_retval_spec else parse_param_spec) p id s w = (w, Ok v).
  Proof.
    intros P. rewrite eval_problem, P. unfold problem in P. destruct s as [v|args kw|t|]; [eauto|..].
    - destruct (Nat.ltb _ _); [discriminate|]. destruct (make args _); [eauto|discriminate].
    - destruct retval; [|discriminate]. destruct (make [t] []); [eauto|discriminate].
    - discriminate.
  Qed.
  Lemma eval_bad retval id s w x : problem make retval s = Some x ->
    eval_spec note make (if retval : bool then parse_retval_spec else parse_param_spec) p id s w = (logged (fst (verdict id x)) w, Err (snd (verdict id x))).
  Proof. intros P. now rewrite eval_problem, P. Qed.

  Lemma params_problem id l w :
    match first_some (map (problem make false) l) with
    | None => exists vs, eval_params note make p id l w = (w, Ok vs)
    | Some x => eval_params note make p id l w = (logged (fst (verdict id x)) w, Err (snd (verdict id x)))
    end.
  Proof.
    induction l as [|s l IH]; [exists []; reflexivity|]. cbn [map first_some eval_params].
    destruct (problem make false s) as [x|] eqn:P.
    - apply (sbind_err (eval_param note make p id s)). apply (eval_bad false). exact P.
    - destruct (eval_fine false id s w P) as (v & E). change (eval_param note make p id s w = (w, Ok v)) in E.
      destruct (first_some (map (problem make false) l)) as [x|].
      + rewrite (sbind_ok _ _ _ _ _ E). now apply (sbind_err (eval_params note make p id l)).
      + destruct IH as (vs & IH). exists (v :: vs). rewrite (sbind_ok _ _ _ _ _ E). rewrite (sbind_ok _ _ _ _ _ IH). reflexivity.
  Qed.
  Lemma types_problem id l w :
    match first_some (map (problem make true) l) with
    | None => eval_types make p id l w = (w, Ok tt)
    | Some x => eval_types make p id l w = (logged (fst (verdict id x)) w, Err (snd (verdict id x)))
    end.
  Proof.
    induction l as [|s l IH]; [reflexivity|]. cbn [map first_some eval_types].
    destruct (problem make true s) as [x|] eqn:P.
    - apply (sbind_err (eval_retval note make p id s)). apply (eval_bad true). exact P.
    - destruct (eval_fine true id s w P) as (v & E). change (eval_retval note make p id s w = (w, Ok v)) in E.
      destruct (first_some (map (problem make true) l)) as [x|]; rewrite (sbind_ok _ _ _ _ _ E); exact IH.
  Qed.
  Lemma new_function_problem d w :
    match function_problem make d with
    | None => exists v, new_function make p d w = (w, Ok v)
    | Some x => new_function make p d w = (logged (fst (verdict (fd_id d) x)) w, Err (snd (verdict (fd_id d) x)))
    end.
  Proof.
    unfold function_problem. cbn [first_some]. unfold new_function.
    destruct (problem make true (fd_retval d)) as [x|] eqn:P.
    - apply (sbind_err (eval_retval note make p (fd_id d) (fd_retval d))). apply (eval_bad true). exact P.
    - destruct (eval_fine true (fd_id d) _ w P) as (v & E). change (eval_retval note make p (fd_id d) (fd_retval d) w = (w, Ok v)) in E.
      pose proof (params_problem (fd_id d) (fd_params d) w) as Q.
      destruct (first_some (map (problem make false) (fd_params d))) as [x|].
      + rewrite (sbind_ok _ _ _ _ _ E). now apply (sbind_err (eval_params note make p (fd_id d) (fd_params d))).
      + destruct Q as (vs & Q). exists (v, vs). rewrite (sbind_ok _ _ _ _ _ E). rewrite (sbind_ok _ _ _ _ _ Q). reflexivity.
  Qed.

  Theorem function_policy i d w m : nth_error (w_mods w) i = Some m ->
    match function_problem make d with
    | None => exists w' n, run_call make p (CFunctionC i d) w = (w', Ok (RObject n)) /\ w_log w' = w_log w
    | Some (e, ask) =>
        let x := policy_of p (fd_id d) e (ask && declaration_error e) in
        exists w', run_call make p (CFunctionC i d) w = (w', if exc_eq_dec (snd x) SkipWrapper then Ok RNone else Err (snd x)) /\
          same_module w' w /\ w_log w' = w_log w ++ fst x
    end.
  Proof.
    intros E. pose proof (new_function_problem d w) as N.
    assert (A : match function_problem make d with
      | None => exists v, function_attempt make p d w = (w, Ok (Some v))
      | Some x => function_attempt make p d w = (logged (fst (verdict (fd_id d) x)) w, if exc_eq_dec (snd (verdict (fd_id d) x)) SkipWrapper then Ok None else Err (snd (verdict (fd_id d) x)))
      end).
    { unfold function_attempt, try_except. destruct (function_problem make d) as [x|].
      - rewrite (sbind_err _ _ _ _ _ N). destruct (exc_eq_dec _ SkipWrapper); reflexivity.
      - destruct N as (v & N). exists v. rewrite (sbind_ok _ _ _ _ _ N). reflexivity. }
    destruct (function_cases make p i d w) as [(X & _)|(m' & l & X & C)]; [congruence|].
    destruct (function_problem make d) as [[e ask]|].
    - change (verdict (fd_id d) (e, ask)) with (policy_of p (fd_id d) e (ask && declaration_error e)) in A. cbv zeta.
      destruct C as [(e' & F & R)|[(F & R)|(v & F & R)]]; rewrite F in A.
      + exists (logged (fst (policy_of p (fd_id d) e (ask && declaration_error e))) w). split; [|apply logged_same]. rewrite R.
        destruct (exc_eq_dec _ SkipWrapper); congruence.
      + exists (logged (fst (policy_of p (fd_id d) e (ask && declaration_error e))) w). split; [|apply logged_same]. rewrite R.
        destruct (exc_eq_dec _ SkipWrapper); congruence.
      + destruct (exc_eq_dec _ SkipWrapper); congruence.
    - destruct A as (v & A). destruct C as [(e' & F & R)|[(F & R)|(v' & F & R)]]; rewrite F in A; [congruence|congruence|].
      exists (with_function i m' d v' (logged l w)), (python_name m' d). split; [exact R|].
      assert (logged l w = w) as -> by congruence. reflexivity.
  Qed.

  Theorem type_policy i t w m : nth_error (w_mods w) i = Some m ->
    match type_problem make t with
    | None => exists w' n, run_call make p (CType i t) w = (w', Ok (RObject n)) /\ w_log w' = w_log w
    | Some (e, ask) =>
        let x := policy_of p (td_id t) e (ask && declaration_error e) in
        exists w', run_call make p (CType i t) w =
                   (w', if exc_eq_dec (snd x) SkipWrapper then match td_kind t with KContainer => Ok RNone | _ => Err SkipWrapper end else Err (snd x)) /\
          same_module w' w /\ w_log w' = w_log w ++ fst x
    end.
  Proof.
    intros E. pose proof (types_problem (td_id t) (td_specs t) w) as N. fold (type_problem make t) in N.
    set (K := fun e => if exc_eq_dec e SkipWrapper then match td_kind t with KContainer => Ok false | _ => Err SkipWrapper end else Err e).
    assert (A : match type_problem make t with
      | None => type_attempt make p t w = (w, Ok true)
      | Some x => type_attempt make p t w = (logged (fst (verdict (td_id t) x)) w, K (snd (verdict (td_id t) x)))
      end).
    { unfold type_attempt, try_except, K. destruct (type_problem make t) as [x|].
      - rewrite (sbind_err _ _ _ _ _ N). destruct (exc_eq_dec _ SkipWrapper) as [->|]; [|reflexivity]. destruct (td_kind t); reflexivity.
      - rewrite (sbind_ok _ _ _ _ _ N). reflexivity. }
    destruct (type_cases make p i t w) as [(X & _)|(m' & l & X & C)]; [congruence|].
    destruct (type_problem make t) as [[e ask]|].
    - change (verdict (td_id t) (e, ask)) with (policy_of p (td_id t) e (ask && declaration_error e)) in A. cbv zeta. unfold K in A.
      exists (logged (fst (policy_of p (td_id t) e (ask && declaration_error e))) w).
      destruct C as [(e' & F & R)|[(F & R)|(F & R)]]; rewrite F in A; (split; [|apply logged_same]);
      destruct (exc_eq_dec _ SkipWrapper); destruct (td_kind t); try congruence.
    - destruct C as [(e' & F & R)|[(F & R)|(F & R)]]; rewrite F in A; [congruence|congruence|].
      cbv zeta in R. eexists _, _. split; [exact R|]. assert (logged l w = w) as -> by congruence.
      pose proof (register_type_log i (Some (td_name t)) (Some (full_name (m_ns_prefix m') (td_scope t) (td_name t))) (td_id t)) as L. rewrite L. reflexivity.
  Qed.
End Policy.

(** ** Calls without effect *)
Lemma same_refl w : same_module w w.
Proof. repeat split. Qed.
Lemma same_sym a b : same_module a b -> same_module b a.
Proof. intros (A & B & C & D). repeat split; congruence. Qed.
Lemma same_trans a b c : same_module a b -> same_module b c -> same_module a c.
Proof. intros (A & B & C & D) (A' & B' & C' & D'). repeat split; congruence. Qed.

(** The record of the calls of the handler plays no part. *)
Definition blind {A} (m : st world A) : Prop :=
  forall a b, same_module a b -> same_module (fst (m a)) (fst (m b)) /\ snd (m a) = snd (m b).
Lemma blind_ret {A} (x : A) : blind (ret x).
Proof. intros a b S. auto. Qed.
Lemma blind_lift {A} (x : res A) : blind (lift x).
Proof. intros a b S. auto. Qed.
Lemma blind_bind {A B} (m : st world A) (f : A -> st world B) : blind m -> (forall x, blind (f x)) -> blind (sbind m f).
Proof.
  intros M F a b S. unfold sbind. destruct (M a b S) as [S' R]. destruct (m a) as [a' r], (m b) as [b' r']. cbn [fst snd] in *. subst r'.
  destruct r as [x|e]; [now apply F|auto].
Qed.
Lemma blind_try {A} (m : st world A) h : blind m -> (forall e, blind (h e)) -> blind (try_except m h).
Proof.
  intros M F a b S. unfold try_except. destruct (M a b S) as [S' R]. destruct (m a) as [a' r], (m b) as [b' r']. cbn [fst snd] in *. subst r'.
  destruct r as [x|e]; [auto|now apply F].
Qed.
Lemma blind_only {A} (m : st world A) : only_logs m -> blind m.
Proof. intros (l & r & E) a b S. rewrite !E. cbn [fst snd]. split; [|reflexivity]. destruct S as (A1 & B & C & D). repeat split; assumption. Qed.
Lemma blind_get i : blind (get_mod i).
Proof. intros a b S. unfold get_mod. cbn [fst snd]. split; [exact S|]. destruct S as (-> & _). reflexivity. Qed.
Lemma blind_gets {A} (f : world -> A) : (forall a b, same_module a b -> f a = f b) -> blind (gets f).
Proof. intros F a b S. unfold gets. cbn [fst snd]. split; [exact S|]. f_equal. now apply F. Qed.
Lemma blind_pure {A} (f : world -> world) (g : world -> res A) :
  (forall a b, same_module a b -> same_module (f a) (f b) /\ g a = g b) -> blind (fun w => (f w, g w)).
Proof. intros F a b S. exact (F a b S). Qed.
Lemma same_upd i f a b : same_module a b -> same_module (upd_mod i f a) (upd_mod i f b).
Proof. intros (A & B & C & D). unfold upd_mod, set_mods. repeat split; cbn; congruence. Qed.
Lemma same_fold n v l : forall a b, same_module a b ->
  same_module (fold_left (fun w j => set_in n v j w) l a) (fold_left (fun w j => set_in n v j w) l b).
Proof. induction l as [|j l IH]; intros a b S; cbn [fold_left]; [exact S|]. apply IH. now apply same_upd. Qed.
Lemma blind_register i name full v : blind (register_type i name full v).
Proof.
  intros a b S. unfold register_type. cbn [fst snd]. split; [|reflexivity].
  assert (E : w_mods a = w_mods b) by apply S.
  assert (X : same_module (match name with Some n => if String.eqb n "" then a else set_in n v i a | None => a end)
                          (match name with Some n => if String.eqb n "" then b else set_in n v i b | None => b end)).
  { destruct name as [n|]; [destruct (String.eqb n "")|]; auto using same_upd. now apply same_upd. }
  destruct full as [f|]; [|exact X]. destruct (String.eqb f ""); [exact X|]. rewrite E. now apply same_fold.
Qed.
Lemma same_new n j ns a b : same_module a b -> new_module n j ns a = new_module n j ns b.
Proof. intros (A & _). unfold new_module. now rewrite A. Qed.
Lemma blind_submodule j n ns : blind (new_submodule j n ns).
Proof.
  unfold new_submodule. apply blind_bind; [apply blind_get|]. intros m a b S. cbn [fst snd]. pose proof S as (A & B & C & D).
  rewrite (same_new n (Some j) ns a b S), A. split; [|reflexivity]. repeat split; cbn; congruence.
Qed.
Ltac same_parts S := let A := fresh in let B := fresh in let C := fresh in let D := fresh in
  pose proof S as (A & B & C & D); rewrite ?A, ?B, ?C, ?D.

Section Blind.
  Context {V : Type} (make : list string -> list (string * string) -> res V) (p : policy).
  Lemma blind_function i d : blind (add_function make p i d).
  Proof.
    unfold add_function. apply blind_bind; [apply blind_get|]. intros m. apply blind_bind.
    - apply blind_only. exact (ol_fattempt make p d).
    - intros [x|]; [|apply blind_ret]. apply blind_bind; [|intros; apply blind_ret].
      unfold add_function_obj. apply blind_bind; [apply blind_get|]. intros m'. intros a b S. cbn [fst snd]. split; [|reflexivity].
      same_parts S. now apply same_upd.
  Qed.
  Lemma blind_type i t : blind (add_type make p i t).
  Proof.
    unfold add_type. apply blind_bind; [apply blind_get|]. intros m. apply blind_bind.
    - apply blind_only. exact (ol_tattempt make p t).
    - intros [|]; [|apply blind_ret]. cbv zeta. apply blind_bind; [apply blind_gets; intros a b S; apply S|]. intros s.
      apply blind_bind; [intros a b S; cbn [fst snd]; auto using same_upd|]. intros _.
      apply blind_bind; [apply blind_register|]. intros _. apply blind_ret.
  Qed.
  Lemma blind_call c : blind (run_call make p c).
  Proof.
    destruct c as [j n ns|j n|i d|i t|i o k al|i s|i s|i s|i s|i s|i f]; cbn [run_call]; (apply blind_bind; [|]).
    all: try (intros x__; try apply blind_ret); [..].
    - apply blind_submodule.
    - unfold add_cpp_namespace. apply blind_try.
      + unfold get_submodule. apply blind_bind; [apply blind_get|]. intros m a b S. cbn [fst snd]. same_parts S. auto.
      + intros e. destruct (exc_eq_dec e ValueError); [apply blind_submodule|apply blind_lift].
    - apply blind_function.
    - apply blind_type.
    - unfold add_typedef. apply blind_bind; [apply blind_get|]. intros _. apply blind_bind; [apply blind_get|]. intros _.
      apply blind_bind; [apply blind_register|]. intros _. apply blind_bind; [apply blind_register|]. intros _.
      apply blind_bind; [apply blind_gets|]. { intros a b S. now same_parts S. }
      intros f. apply blind_bind; [apply blind_register|]. intros _. apply blind_ret.
    - apply blind_get.
    - apply blind_bind; [|intros; apply blind_ret]. intros a b S. unfold add_include. destruct (include_ok s); [|auto].
      same_parts S. destruct (w_includes b); [|auto]. destruct (mem s l); cbn [fst snd]; [auto|]. split; [|reflexivity]. repeat split; cbn; assumption.
    - apply blind_get.
    - apply blind_bind; [|intros; apply blind_ret]. intros a b S. unfold declare_one_time_definition. same_parts S.
      destruct (mem s (w_once b)); cbn [fst snd]; [auto|]. split; [|reflexivity]. repeat split; cbn; congruence.
    - apply blind_get.
    - apply blind_bind; [|intros; apply blind_ret]. intros a b S. unfold begin_section, is_root. same_parts S.
      repeat match goal with |- context [if ?c then _ else _] => destruct c end; cbn [fst snd]; (split; [|reflexivity]); auto.
      repeat split; cbn; congruence.
    - apply blind_get.
    - apply blind_bind; [|intros; apply blind_ret]. intros a b S. unfold end_section, is_root. same_parts S.
      repeat match goal with |- context [if ?c then _ else _] => destruct c end; cbn [fst snd]; (split; [|reflexivity]); auto.
      repeat split; cbn; congruence.
    - apply blind_get.
    - apply blind_bind; [|intros; apply blind_ret]. intros a b S. unfold modify. cbn [fst snd]. auto using same_upd.
    - apply blind_get.
    - apply blind_bind; [|intros; apply blind_ret]. intros a b S. unfold modify. cbn [fst snd]. auto using same_upd.
  Qed.

  Theorem atomic c w w' r : run_call make p c w = (w', r) -> no_effect (c, r) = true -> same_module w' w.
  Proof.
    destruct c as [j n ns|j n|i d|i t|i o k a|i s|i s|i s|i s|i s|i f]; intros R N.
    - cbn [run_call] in R. unfold new_submodule, sbind, get_mod, ret in R. destruct (nth_error (w_mods w) j) as [m|]; [|replace w' with w by congruence; apply same_refl].
      replace r with (Ok (RModule (length (w_mods w)))) in N by congruence. discriminate.
    - cbn [run_call] in R. destruct (namespace_cases j n w) as [(_ & E)|(m & _ & [(i & _ & E)|(_ & E)])].
      + rewrite (sbind_err _ _ _ _ _ E) in R. replace w' with w by congruence; apply same_refl.
      + rewrite (sbind_ok _ _ _ _ _ E) in R. replace r with (Ok (RModule i)) in N by (unfold ret in R; congruence). discriminate.
      + rewrite (sbind_ok _ _ _ _ _ E) in R. replace r with (Ok (RModule (length (w_mods w)))) in N by (unfold ret in R; congruence). discriminate.
    - destruct (function_cases make p i d w) as [(_ & E)|(m & l & _ & [(e & _ & E)|[(_ & E)|(v & _ & E)]])]; rewrite E in R.
      + replace w' with w by congruence; apply same_refl.
      + replace w' with (logged l w) by congruence. apply logged_same.
      + replace w' with (logged l w) by congruence. apply logged_same.
      + replace r with (Ok (RObject (python_name m d))) in N by congruence. discriminate.
    - destruct (type_cases make p i t w) as [(_ & E)|(m & l & _ & [(e & _ & E)|[(_ & E)|(_ & E)]])]; cbv zeta in E; rewrite E in R.
      + replace w' with w by congruence; apply same_refl.
      + replace w' with (logged l w) by congruence. apply logged_same.
      + replace w' with (logged l w) by congruence. apply logged_same.
      + match type of R with (_, ?x) = _ => replace r with x in N by congruence end. discriminate.
    - cbn [run_call] in R. unfold add_typedef, sbind, get_mod in R.
      destruct (nth_error (w_mods w) i) as [m|] eqn:E1; [|replace w' with w by congruence; apply same_refl].
      destruct (nth_error (w_mods w) o) as [m'|] eqn:E2; [|replace w' with w by congruence; apply same_refl].
      exfalso. unfold register_type, gets, ret in R. assert (exists x, r = Ok (RObject x)) as (x & ->) by (eexists; symmetry; exact (f_equal snd R)). discriminate.
    - cbn [run_call] in R. unfold sbind, get_mod, add_include, ret in R. destruct (nth_error (w_mods w) i); [|replace w' with w by congruence; apply same_refl].
      destruct (include_ok s); [|replace w' with w by congruence; apply same_refl].
      destruct (w_includes w); [|replace w' with w by congruence; apply same_refl]. replace r with (Ok RNone) in N by congruence. discriminate.
    - cbn [run_call] in R. unfold sbind, get_mod, declare_one_time_definition, ret in R. destruct (nth_error (w_mods w) i); [|replace w' with w by congruence; apply same_refl].
      destruct (mem s (w_once w)); [replace w' with w by congruence; apply same_refl|]. replace r with (Ok RNone) in N by congruence. discriminate.
    - cbn [run_call] in R. unfold sbind, get_mod, begin_section, ret in R. destruct (nth_error (w_mods w) i); [|replace w' with w by congruence; apply same_refl].
      destruct (negb _); [replace w' with w by congruence; apply same_refl|]. destruct (String.eqb s "__main__"); [replace w' with w by congruence; apply same_refl|].
      destruct (is_root i w); [|replace w' with w by congruence; apply same_refl]. replace r with (Ok RNone) in N by congruence. discriminate.
    - cbn [run_call] in R. unfold sbind, get_mod, end_section, ret in R. destruct (nth_error (w_mods w) i); [|replace w' with w by congruence; apply same_refl].
      destruct (is_root i w); [|replace w' with w by congruence; apply same_refl].
      destruct (String.eqb (w_section w) s); [|replace w' with w by congruence; apply same_refl]. replace r with (Ok RNone) in N by congruence. discriminate.
    - cbn [run_call] in R. unfold sbind, get_mod, modify, ret in R. destruct (nth_error (w_mods w) i); [|replace w' with w by congruence; apply same_refl].
      replace r with (Ok RNone) in N by congruence. discriminate.
    - cbn [run_call] in R. unfold sbind, get_mod, modify, ret in R. destruct (nth_error (w_mods w) i); [|replace w' with w by congruence; apply same_refl].
      replace r with (Ok RNone) in N by congruence. discriminate.
  Qed.

  Lemma script_gen cs : forall a b, same_module a b ->
    let x := run make p cs a in
    let y := run make p (map fst (filter (fun e => negb (no_effect e)) (snd x))) b in
    same_module (fst y) (fst x) /\ snd y = filter (fun e => negb (no_effect e)) (snd x).
  Proof.
    induction cs as [|c cs IH]; intros a b S; cbv zeta; [split; [now apply same_sym|reflexivity]|].
    cbn [run]. destruct (run_call make p c a) as [a' r] eqn:E. cbn [fst snd]. cbn [filter].
    destruct (no_effect (c, r)) eqn:N; cbn [negb].
    - apply IH. eapply same_trans; [eapply atomic; eauto|exact S].
    - cbn [map fst run]. destruct (blind_call c a b S) as [S' R]. rewrite E in S', R. destruct (run_call make p c b) as [b' r'].
      cbn [fst snd] in *. subst r'. destruct (IH a' b' S') as [X Y]. split; [exact X|]. f_equal. exact Y.
  Qed.
  Theorem script cs w0 w tr : run make p cs w0 = (w, tr) ->
    exists w', run make p (map fst (filter (fun e => negb (no_effect e)) tr)) w0 = (w', filter (fun e => negb (no_effect e)) tr) /\ same_module w' w.
  Proof.
    intros R. pose proof (script_gen cs w0 w0 (same_refl w0)) as H. rewrite R in H. cbn [fst snd] in H. cbv zeta in H.
    destruct H as [A B]. eexists. split; [|exact A]. eapply eq_trans; [apply surjective_pairing|]. f_equal. exact B.
  Qed.
End Blind.
