From Verif.Model Require Import Py PyState Mangle Errors Overloading Module.
From Verif.Spec Require Import OverloadSpec ModuleSpec.
From Verif.Proofs Require Import StrLemmas ModuleProofs.
From Coq Require Import Lia.
Open Scope string_scope.
Open Scope list_scope.
Open Scope st_scope.

Lemma sbind_ok {W A B} (m : st W A) (f : A -> st W B) s s' a : m s = (s', Ok a) -> sbind m f s = f a s'.
Proof. intros E. unfold sbind. now rewrite E. Qed.
Lemma sbind_err {W A B} (m : st W A) (f : A -> st W B) s s' e : m s = (s', Err e) -> sbind m f s = (s', Err e).
Proof. intros E. unfold sbind. now rewrite E. Qed.

Definition logged (l : list (nat * pyexc)) (w : world) : world :=
  mk_world (w_mods w) (w_section w) (w_includes w) (w_once w) (w_log w ++ l).
Lemma logged_nil w : logged [] w = w.
Proof. unfold logged. rewrite app_nil_r. now destruct w. Qed.
Lemma logged_app a b w : logged b (logged a w) = logged (a ++ b) w.
Proof. unfold logged. cbn. now rewrite app_assoc. Qed.

(** Computations that only record calls of the error handler. *)
Definition only_logs {A} (m : st world A) : Prop := exists l r, forall w, m w = (logged l w, r).
Lemma ol_ret {A} (a : A) : only_logs (ret a).
Proof. exists [], (Ok a). intros w. now rewrite logged_nil. Qed.
Lemma ol_lift {A} (r : res A) : only_logs (lift r).
Proof. exists [], r. intros w. now rewrite logged_nil. Qed.
Lemma ol_bind {A B} (m : st world A) (f : A -> st world B) : only_logs m -> (forall a, only_logs (f a)) -> only_logs (sbind m f).
Proof.
  intros (l & r & E) F. destruct r as [a|e].
  - destruct (F a) as (l' & r' & E'). exists (l ++ l'), r'. intros w. unfold sbind. rewrite E, E', logged_app. reflexivity.
  - exists l, (Err e). intros w. unfold sbind. rewrite E. reflexivity.
Qed.
Lemma ol_try {A} (m : st world A) h : only_logs m -> (forall e, only_logs (h e)) -> only_logs (try_except m h).
Proof.
  intros (l & r & E) F. destruct r as [a|e].
  - exists l, (Ok a). intros w. unfold try_except. rewrite E. reflexivity.
  - destruct (F e) as (l' & r' & E'). exists (l ++ l'), r'. intros w. unfold try_except. rewrite E, E', logged_app. reflexivity.
Qed.
Lemma ol_handle h k e : only_logs (handle_error note h k e).
Proof. exists [(k, e)], (h k e). intros w. reflexivity. Qed.
Lemma ol_call {A} p l k (m : st world A) : only_logs m -> only_logs (call_with_error_handling note p l k m).
Proof.
  intros O. unfold call_with_error_handling. destruct p as [h|]; [|assumption]. apply ol_try; [assumption|].
  intros e. destruct (is_instance e l); [|apply ol_lift]. apply ol_bind; [apply ol_handle|]. intros b; destruct b; apply ol_lift.
Qed.

Section Steps.
  Context {V : Type} (make : list string -> list (string * string) -> res V) (p : policy).
  Notation run_call := (run_call make p).

  Lemma ol_spec parse k s : only_logs (eval_spec note make parse p k s : st world V).
  Proof.
    unfold eval_spec. destruct s; try apply ol_ret; (apply ol_bind; [apply ol_lift|]); intros a; apply ol_call, ol_lift.
  Qed.
  Lemma ol_params k l : only_logs (eval_params note make p k l : st world (list V)).
  Proof.
    induction l as [|s l IH]; cbn [eval_params]; [apply ol_ret|]. apply ol_bind; [apply ol_spec|]. intros v.
    apply ol_bind; [assumption|]. intros vs. apply ol_ret.
  Qed.
  Lemma ol_types k l : only_logs (eval_types make p k l).
  Proof.
    induction l as [|s l IH]; cbn [eval_types]; [apply ol_ret|]. apply ol_bind; [apply ol_spec|]. auto.
  Qed.
  Lemma ol_function d : only_logs (new_function make p d).
  Proof.
    unfold new_function. apply ol_bind; [apply ol_spec|]. intros r. apply ol_bind; [apply ol_params|]. intros ps. apply ol_ret.
  Qed.
  Definition function_attempt (d : fdecl V) : st world (option (V * list V)) :=
    try_except (x <~ new_function make p d ;; ret (Some x)) (fun e => if exc_eq_dec e SkipWrapper then ret None else raise e).
  Definition type_attempt (t : tdecl V) : st world bool :=
    try_except (eval_types make p (td_id t) (td_specs t) ;~ ret true)
      (fun e => if exc_eq_dec e SkipWrapper then if kind_eq_dec (td_kind t) KContainer then ret false else raise e else raise e).
  Lemma ol_fattempt d : only_logs (function_attempt d).
  Proof.
    apply ol_try; [apply ol_bind; [apply ol_function|intros; apply ol_ret]|]. intros e.
    destruct (exc_eq_dec e SkipWrapper); [apply ol_ret|apply ol_lift].
  Qed.
  Lemma ol_tattempt t : only_logs (type_attempt t).
  Proof.
    apply ol_try; [apply ol_bind; [apply ol_types|intros; apply ol_ret]|]. intros e.
    destruct (exc_eq_dec e SkipWrapper); [destruct (kind_eq_dec (td_kind t) KContainer); [apply ol_ret|apply ol_lift]|apply ol_lift].
  Qed.

  (** What a function declaration does. *)
  Definition the_wrapper (m : modul) (section : string) (d : fdecl V) (v : V * list V) : fwrapper :=
    mk_fwrapper (fd_id d) section ("_wrap_" ++ m_prefix m ++ "_" ++ mangled_name d)%string false
      (match fd_own d with Some _ => true | None => false end) (fd_own d) (fd_doc d) (fd_autodoc d) (fd_body d (fst v) (snd v)).
  Definition with_function (i : nat) (m : modul) (d : fdecl V) (v : V * list V) (w : world) : world :=
    upd_mod i (with_functions (add_to (python_name m d) d (the_wrapper m (w_section w) d v) (m_functions m))) w.
  Lemma function_cases i d w :
    (nth_error (w_mods w) i = None /\ run_call (CFunctionC i d) w = (w, Err Unmodelled)) \/
    (exists m l, nth_error (w_mods w) i = Some m /\
      ((exists e, (forall w', function_attempt d w' = (logged l w', Err e)) /\ run_call (CFunctionC i d) w = (logged l w, Err e)) \/
       ((forall w', function_attempt d w' = (logged l w', Ok None)) /\ run_call (CFunctionC i d) w = (logged l w, Ok RNone)) \/
       (exists v, (forall w', function_attempt d w' = (logged l w', Ok (Some v))) /\
          run_call (CFunctionC i d) w = (with_function i m d v (logged l w), Ok (RObject (python_name m d)))))).
  Proof.
    destruct (nth_error (w_mods w) i) as [m|] eqn:E.
    - right. destruct (ol_fattempt d) as (l & r & R). exists m, l. split; [reflexivity|].
      assert (G : get_mod i w = (w, Ok m)) by (unfold get_mod; now rewrite E).
      assert (H : add_function make p i d w = sbind (function_attempt d) (fun v => match v with
        | None => ret None | Some x => add_function_obj i d x ;~ ret (Some (python_name m d)) end) w)
        by (unfold add_function; rewrite (sbind_ok _ _ _ _ _ G); reflexivity).
      destruct r as [[v|]|e].
      + right; right. exists v. split; [exact R|]. rewrite (sbind_ok _ _ _ _ _ (R w)) in H.
        cbn [Module.run_call]. eapply eq_trans; [apply sbind_ok; rewrite H; unfold add_function_obj, get_mod, sbind, ret; cbn [w_mods logged]; rewrite E; reflexivity|reflexivity].
      + right; left. split; [exact R|]. rewrite (sbind_ok _ _ _ _ _ (R w)) in H. cbn [Module.run_call]. eapply eq_trans; [apply sbind_ok; exact H|reflexivity].
      + left. exists e. split; [exact R|]. rewrite (sbind_err _ _ _ _ _ (R w)) in H. cbn [Module.run_call]. eapply eq_trans; [apply sbind_err; exact H|reflexivity].
    - left. split; [reflexivity|]. cbn [Module.run_call]. unfold add_function, get_mod, sbind. rewrite E. reflexivity.
  Qed.

  (** What a type declaration does. *)
  Definition the_item (m : modul) (section : string) (t : tdecl V) : titem :=
    mk_titem (td_id t) (td_kind t) (td_name t) (full_name (m_ns_prefix m) (td_scope t) (td_name t)) section (td_imported t)
      (td_claim t) (td_forward t) (td_body t).
  Definition with_type (i : nat) (m : modul) (t : tdecl V) (w : world) : world :=
    upd_mod i (with_types (m_types m ++ [the_item m (w_section w) t])) w.
  Lemma type_cases i t w :
    (nth_error (w_mods w) i = None /\ run_call (CType i t) w = (w, Err Unmodelled)) \/
    (exists m l, nth_error (w_mods w) i = Some m /\
      ((exists e, (forall w', type_attempt t w' = (logged l w', Err e)) /\ run_call (CType i t) w = (logged l w, Err e)) \/
       ((forall w', type_attempt t w' = (logged l w', Ok false)) /\ run_call (CType i t) w = (logged l w, Ok RNone)) \/
       ((forall w', type_attempt t w' = (logged l w', Ok true)) /\
          let full := full_name (m_ns_prefix m) (td_scope t) (td_name t) in
          run_call (CType i t) w = (fst (register_type i (Some (td_name t)) (Some full) (td_id t) (with_type i m t (logged l w))), Ok (RObject full))))).
  Proof.
    destruct (nth_error (w_mods w) i) as [m|] eqn:E.
    - right. destruct (ol_tattempt t) as (l & r & R). exists m, l. split; [reflexivity|].
      assert (G : get_mod i w = (w, Ok m)) by (unfold get_mod; now rewrite E).
      pose proof (sbind_ok _ (fun m =>
        ok <~ type_attempt t ;;
        (if ok : bool then
          let full := full_name (m_ns_prefix m) (td_scope t) (td_name t) in
          s <~ gets w_section ;;
          (fun w => (upd_mod i (with_types (m_types m ++
            [mk_titem (td_id t) (td_kind t) (td_name t) full s (td_imported t) (td_claim t) (td_forward t) (td_body t)])) w, Ok tt)) ;~
          register_type i (Some (td_name t)) (Some full) (td_id t) ;~
          ret (Some full)
        else ret None)) _ _ _ G) as H.
      match type of H with ?a = _ => change a with (add_type make p i t w) in H end. cbv beta in H.
      destruct r as [[]|e].
      + right; right. split; [exact R|]. cbv zeta. rewrite (sbind_ok _ _ _ _ _ (R w)) in H.
        cbn [Module.run_call]. eapply eq_trans; [apply sbind_ok; rewrite H; unfold sbind, gets, ret, register_type; reflexivity|reflexivity].
      + right; left. split; [exact R|]. rewrite (sbind_ok _ _ _ _ _ (R w)) in H. cbn [Module.run_call]. eapply eq_trans; [apply sbind_ok; exact H|reflexivity].
      + left. exists e. split; [exact R|]. rewrite (sbind_err _ _ _ _ _ (R w)) in H. cbn [Module.run_call]. eapply eq_trans; [apply sbind_err; exact H|reflexivity].
    - left. split; [reflexivity|]. cbn [Module.run_call]. unfold add_type, get_mod, sbind. rewrite E. reflexivity.
  Qed.

  (** ** New submodules *)
  Definition with_sub (j : nat) (m : modul) (name : string) (ns : option string) (w : world) : world :=
    set_mods w (upd (w_mods w) j (with_submodules (m_submodules m ++ [length (w_mods w)])) ++ [new_module name (Some j) ns w]).
  Lemma new_submodule_eq j name ns w m : nth_error (w_mods w) j = Some m ->
    new_submodule j name ns w = (with_sub j m name ns w, Ok (length (w_mods w))).
  Proof. intros E. unfold new_submodule, sbind, get_mod. rewrite E. reflexivity. Qed.
  Lemma with_sub_nth j m name ns w i : nth_error (w_mods w) j = Some m ->
    nth_error (w_mods (with_sub j m name ns w)) i =
      if Nat.eqb i (length (w_mods w)) then Some (new_module name (Some j) ns w)
      else if Nat.eqb i j then Some (with_submodules (m_submodules m ++ [length (w_mods w)]) m) else nth_error (w_mods w) i.
  Proof.
    intros E. unfold with_sub, set_mods. cbn [w_mods].
    assert (j < length (w_mods w)) as L by (apply nth_error_Some; congruence).
    destruct (Nat.eqb_spec i (length (w_mods w))) as [->|N].
    - rewrite nth_error_app2; rewrite upd_length; [|lia]. now rewrite Nat.sub_diag.
    - destruct (Nat.lt_ge_cases i (length (w_mods w))).
      + rewrite nth_error_app1 by (rewrite upd_length; lia). rewrite upd_nth.
        destruct (Nat.eqb_spec i j) as [->|N']; [rewrite E|]; reflexivity.
      + destruct (Nat.eqb_spec i j) as [->|N']; [lia|].
        rewrite nth_error_app2; rewrite upd_length; [|lia]. destruct (i - length (w_mods w)) eqn:D; [lia|].
        cbn [nth_error]. destruct n; symmetry; apply nth_error_None; lia.
  Qed.
  Lemma with_sub_grows j m name ns w : nth_error (w_mods w) j = Some m -> grows (w_mods w) (w_mods (with_sub j m name ns w)).
  Proof.
    intros E i x X. rewrite (with_sub_nth _ _ _ _ _ _ E).
    assert (i < length (w_mods w)) as L by (apply nth_error_Some; congruence).
    destruct (Nat.eqb_spec i (length (w_mods w))) as [->|N]; [lia|].
    destruct (Nat.eqb_spec i j) as [->|N'].
    - rewrite E in X. injection X as <-. eexists _, _. split; [reflexivity|]. split; [split|]; reflexivity.
    - exists x, []. rewrite app_nil_r. auto using shape_refl.
  Qed.
  Lemma with_sub_wf j m name ns w : wf (w_mods w) -> nth_error (w_mods w) j = Some m -> wf (w_mods (with_sub j m name ns w)).
  Proof.
    intros W E. set (n := length (w_mods w)).
    assert (j < n) as L by (apply nth_error_Some; congruence).
    pose proof (fun i => with_sub_nth j m name ns w i E) as N. fold n in N.
    split.
    - destruct (wf_root _ W) as (m0 & E0 & P0). rewrite N. destruct (Nat.eqb_spec 0 n); [lia|].
      destruct (Nat.eqb_spec 0 j) as [<-|].
      + rewrite E in E0. injection E0 as <-. eexists; split; [reflexivity|exact P0].
      + eauto.
    - intros i x X P. rewrite N in X. destruct (Nat.eqb_spec i n) as [->|].
      { injection X as <-. discriminate P. }
      destruct (Nat.eqb_spec i j) as [->|].
      { injection X as <-. eapply (wf_only _ W); eauto. }
      eapply (wf_only _ W); eauto.
    - intros i x k X P. rewrite N in X. destruct (Nat.eqb_spec i n) as [->|Hn].
      + injection X as <-. cbn in P. injection P as <-. split; [assumption|]. rewrite N.
        destruct (Nat.eqb_spec j n); [lia|]. rewrite Nat.eqb_refl. eexists; split; [reflexivity|].
        cbn [m_submodules with_submodules]. apply in_or_app. right. now left.
      + assert (exists x0, nth_error (w_mods w) i = Some x0 /\ m_parent x0 = Some k) as (x0 & X0 & P0).
        { destruct (Nat.eqb_spec i j) as [->|]; [|eauto]. injection X as <-. eauto. }
        destruct (wf_parent _ W _ _ _ X0 P0) as (Lk & mk & Ek & I). split; [assumption|]. rewrite N.
        assert (k < n) by (apply nth_error_Some; congruence).
        destruct (Nat.eqb_spec k n); [lia|]. destruct (Nat.eqb_spec k j) as [->|]; [|eauto].
        rewrite E in Ek. injection Ek as <-. eexists; split; [reflexivity|]. cbn [m_submodules with_submodules]. apply in_or_app. now left.
    - intros i x k X I. rewrite N in X. destruct (Nat.eqb_spec i n) as [->|Hn].
      { injection X as <-. destruct I. }
      assert (C : (i = j /\ k = n) \/ exists x0, nth_error (w_mods w) i = Some x0 /\ In k (m_submodules x0)).
      { destruct (Nat.eqb_spec i j) as [->|]; [|eauto]. injection X as <-. cbn [m_submodules with_submodules] in I.
        apply in_app_or in I. destruct I as [I|[<-|[]]]; eauto. }
      rewrite N. destruct C as [(-> & ->)|(x0 & X0 & I0)].
      + rewrite Nat.eqb_refl. eexists; split; reflexivity.
      + destruct (wf_sub _ W _ _ _ X0 I0) as (mk & Ek & Pk).
        assert (k < n) by (apply nth_error_Some; congruence).
        destruct (Nat.eqb_spec k n); [lia|]. destruct (Nat.eqb_spec k j) as [->|]; [|eauto].
        rewrite E in Ek. injection Ek as <-. eexists; split; [reflexivity|assumption].
    - intros i x X. rewrite N in X. destruct (Nat.eqb_spec i n) as [->|Hn].
      { injection X as <-. constructor. }
      destruct (Nat.eqb_spec i j) as [->|]; [|eapply (wf_nodup _ W); eauto].
      injection X as <-. cbn [m_submodules with_submodules]. pose proof (wf_nodup _ W _ _ E) as D.
      apply NoDup_rev in D. rewrite <- (rev_involutive (m_submodules m ++ [n])). apply NoDup_rev. rewrite rev_app_distr. cbn [rev app].
      constructor; [|assumption]. intros I. apply in_rev in I. destruct (wf_sub _ W _ _ _ E I) as (mk & Ek & _).
      assert (n < n) by (apply nth_error_Some; congruence). lia.
  Qed.
  Lemma with_sub_lookup j m name ns w a k : nth_error (w_mods w) j = Some m -> lookup a k (with_sub j m name ns w) = lookup a k w.
  Proof.
    intros E. unfold lookup. rewrite (with_sub_nth _ _ _ _ _ _ E).
    destruct (Nat.eqb_spec a (length (w_mods w))) as [->|].
    - destruct (nth_error (w_mods w) (length (w_mods w))) eqn:X; [|reflexivity].
      assert (length (w_mods w) < length (w_mods w)) by (apply nth_error_Some; congruence). lia.
    - destruct (Nat.eqb_spec a j) as [->|]; [|reflexivity]. rewrite E. reflexivity.
  Qed.

  Lemma namespace_cases j name w :
    (nth_error (w_mods w) j = None /\ add_cpp_namespace j name w = (w, Err Unmodelled)) \/
    (exists m, nth_error (w_mods w) j = Some m /\
      ((exists i, find_submodule (w_mods w) name (m_submodules m) = Some i /\ add_cpp_namespace j name w = (w, Ok i)) \/
       (find_submodule (w_mods w) name (m_submodules m) = None /\
        add_cpp_namespace j name w = (with_sub j m name (Some name) w, Ok (length (w_mods w)))))).
  Proof.
    destruct (nth_error (w_mods w) j) as [m|] eqn:E.
    - right. exists m. split; [reflexivity|].
      assert (G : get_mod j w = (w, Ok m)) by (unfold get_mod; now rewrite E).
      unfold add_cpp_namespace, try_except, get_submodule. rewrite (sbind_ok _ _ _ _ _ G).
      destruct (find_submodule (w_mods w) name (m_submodules m)) as [i|] eqn:F.
      + left. exists i. split; reflexivity.
      + right. split; [reflexivity|]. cbn. now apply new_submodule_eq.
    - left. split; [reflexivity|].
      assert (G : get_mod j w = (w, Err Unmodelled)) by (unfold get_mod; now rewrite E).
      unfold add_cpp_namespace, try_except, get_submodule. rewrite (sbind_err _ _ _ _ _ G). reflexivity.
  Qed.
End Steps.
