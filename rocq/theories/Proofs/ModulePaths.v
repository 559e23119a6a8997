From Verif.Model Require Import Py PyState Mangle Errors Overloading Module.
From Verif.Spec Require Import OverloadSpec ModuleSpec.
From Verif.Proofs Require Import StrLemmas ModuleProofs ModuleSteps ModuleNames.
From Coq Require Import Lia.
Open Scope string_scope.
Open Scope list_scope.
Open Scope st_scope.

(** ** Splitting at '::' *)
Lemma split_component x rest : mem_char ":" x = false -> split_colons (x ++ String ":" (String ":" rest))%string = x :: split_colons rest.
Proof.
  induction x as [|c x IH]; intros M; [reflexivity|]. cbn [mem_char] in M. apply orb_false_iff in M. destruct M as [Mc Mx].
  cbn [String.append split_colons]. assert (Hc : Ascii.eqb c ":" = false) by (first [exact Mc | rewrite Ascii.eqb_sym; exact Mc]). rewrite Hc, (IH Mx). reflexivity.
Qed.
Lemma split_last x : mem_char ":" x = false -> split_colons x = [x].
Proof.
  induction x as [|c x IH]; intros M; [reflexivity|]. cbn [mem_char] in M. apply orb_false_iff in M. destruct M as [Mc Mx].
  cbn [split_colons]. assert (Hc : Ascii.eqb c ":" = false) by (first [exact Mc | rewrite Ascii.eqb_sym; exact Mc]). rewrite Hc, (IH Mx). reflexivity.
Qed.
Lemma split_join l : l <> [] -> Forall component l -> split_colons (String.concat "::" l) = l.
Proof.
  induction l as [|x l IH]; intros N F; [congruence|]. inversion F as [|? ? [_ M] F']; subst. destruct l as [|y l].
  - cbn [String.concat]. now apply split_last.
  - rewrite concat_cons_s. change ("::" ++ ?r)%string with (String ":" (String ":" r)). rewrite split_component by assumption.
    f_equal. apply IH; [discriminate|assumption].
Qed.
Lemma concat_ne l : l <> [] -> Forall component l -> exists c r, String.concat "::" l = String c r /\ Ascii.eqb c ":" = false.
Proof.
  intros N F. destruct l as [|x l]; [congruence|]. inversion F as [|? ? [E M] _]; subst. destruct x as [|c x]; [congruence|].
  cbn [mem_char] in M. apply orb_false_iff in M. destruct M as [Mc _].
  exists c, (x ++ match l with [] => "" | _ => "::" ++ String.concat "::" l end)%string. split; [|first [exact Mc | rewrite Ascii.eqb_sym; exact Mc]].
  destruct l; [cbn [String.concat]; now rewrite app_nil_r_s|reflexivity].
Qed.
Lemma ns_part_written ns l : written ns l -> ns_part ns = l.
Proof.
  intros []; try reflexivity.
  - destruct (concat_ne l0 H H0) as (c & r & E & Nc). unfold ns_part. rewrite split_join by assumption. rewrite E at 1 2.
    assert (X : String.eqb (String c r) "" = false) by reflexivity. rewrite X.
    assert (Y : String.eqb (String c r) "::" = false).
    { apply String.eqb_neq. intros Q. injection Q as -> _. discriminate Nc. }
    rewrite Y. cbn [orb]. destruct l0 as [|x l0]; [congruence|]. inversion H0 as [|? ? [Ex _] _]; subst.
    apply String.eqb_neq in Ex. now rewrite Ex.
  - destruct (concat_ne l0 H H0) as (c & r & E & Nc). unfold ns_part.
    change ("::" ++ String.concat "::" l0)%string with (String ":" (String ":" (String.concat "::" l0))).
    assert (X : forall s, String.eqb (String ":" (String ":" s)) "" = false) by reflexivity. rewrite X.
    assert (Y : String.eqb (String ":" (String ":" (String.concat "::" l0))) "::" = false).
    { apply String.eqb_neq. rewrite E. discriminate. }
    rewrite Y. cbn [orb split_colons]. cbn [Ascii.eqb]. cbn. now apply split_join.
Qed.

(** ** The namespace of a module *)
Definition own_part (mods : list modul) (j : nat) : list string :=
  match nth_error mods j with Some m => ns_part (m_ns m) | None => [] end.
Lemma ns_path_up_app mods js : forall names, ns_path_up mods js names = concat (map (own_part mods) (rev js)) ++ names.
Proof.
  induction js as [|j js IH]; intros names; [reflexivity|]. cbn [ns_path_up rev]. rewrite IH.
  rewrite map_app, concat_app. cbn [map concat]. rewrite app_nil_r, <- app_assoc. reflexivity.
Qed.
Lemma enclosing_fuel mods (W : wf mods) : forall f g i, i < f -> i < g -> i < length mods -> enclosing f mods i = enclosing g mods i.
Proof.
  induction f as [|f IH]; intros g i Lf Lg Lm; [lia|]. destruct g as [|g]; [lia|]. cbn [enclosing].
  destruct (nth_error mods i) as [m|] eqn:E; [|reflexivity]. destruct (m_parent m) as [j|] eqn:P; [|reflexivity].
  destruct (wf_parent _ W _ _ _ E P) as (L & _). f_equal. apply IH; lia.
Qed.
Lemma chain_parent mods i m j : wf mods -> nth_error mods i = Some m -> m_parent m = Some j -> chain mods i = i :: chain mods j.
Proof.
  intros W E P. unfold chain. destruct (wf_parent _ W _ _ _ E P) as (L & _). pose proof (nth_valid _ _ _ E).
  change (enclosing (S i) mods i) with (i :: match nth_error mods i with
    | Some m => match m_parent m with Some j => enclosing i mods j | None => [] end | None => [] end).
  rewrite E, P. f_equal. apply enclosing_fuel; auto; lia.
Qed.
Lemma chain_root mods i m : nth_error mods i = Some m -> m_parent m = None -> chain mods i = [i].
Proof. intros E P. unfold chain. cbn [enclosing]. now rewrite E, P. Qed.
Definition full_path (mods : list modul) (i : nat) : list string := concat (map (own_part mods) (rev (chain mods i))).
Lemma namespace_path_full mods i : namespace_path mods i = full_path mods i.
Proof.
  unfold namespace_path, full_path. destruct (chain mods i) as [|j r]; [reflexivity|]. fold (own_part mods j). rewrite ns_path_up_app.
  cbn [rev]. rewrite map_app, concat_app. cbn [map concat]. now rewrite app_nil_r.
Qed.
Lemma full_path_cpp mods i l : wf mods -> cpp_path mods i l -> full_path mods i = l.
Proof.
  intros W. induction 1 as [i m l E P Wr|i m j l0 l E P _ IH Wr]; unfold full_path.
  - rewrite (chain_root _ _ _ E P). cbn [rev app map concat]. unfold own_part. rewrite E, app_nil_r. now apply ns_part_written.
  - rewrite (chain_parent _ _ _ _ W E P). cbn [rev]. rewrite map_app, concat_app. fold (full_path mods j). rewrite IH.
    cbn [map concat]. rewrite app_nil_r. f_equal. unfold own_part. rewrite E. now apply ns_part_written.
Qed.

(** Chains and paths of existing modules stay. *)
Lemma chain_grows mods mods' i : wf mods -> wf mods' -> grows mods mods' -> i < length mods -> chain mods i = chain mods' i.
Proof.
  intros W W' G. induction i as [i IH] using (well_founded_induction lt_wf). intros L.
  destruct (valid_nth mods i L) as (m & E). destruct (G _ _ E) as (m' & l & E' & Sh & _).
  destruct (m_parent m) as [j|] eqn:P.
  - destruct (wf_parent _ W _ _ _ E P) as (Lj & mj & Ej & _).
    rewrite (chain_parent _ _ _ _ W E P). rewrite (chain_parent _ _ _ j W' E') by (rewrite <- (sh_parent _ _ Sh); assumption).
    f_equal. apply IH; [assumption|]. now apply nth_valid in Ej.
  - rewrite (chain_root _ _ _ E P). rewrite (chain_root _ _ _ E'); [reflexivity|]. now rewrite <- (sh_parent _ _ Sh).
Qed.
Lemma chain_valid mods i a : wf mods -> i < length mods -> In a (chain mods i) -> a < length mods.
Proof. intros W L I. apply (chain_contains _ _ _ W L) in I. eapply contains_valid; eauto. Qed.
Lemma full_path_grows mods mods' i : wf mods -> wf mods' -> grows mods mods' -> i < length mods -> full_path mods i = full_path mods' i.
Proof.
  intros W W' G L. unfold full_path. rewrite <- (chain_grows _ _ _ W W' G L). f_equal. apply map_ext_in. intros a I.
  apply in_rev in I. apply (chain_valid _ _ _ W L) in I. destruct (valid_nth _ _ I) as (m & E). destruct (G _ _ E) as (m' & l & E' & Sh & _).
  unfold own_part. rewrite E, E'. now rewrite (sh_ns _ _ Sh).
Qed.

(** The stored prefix is the path. *)
Definition prefixed (mods : list modul) : Prop :=
  forall i m, nth_error mods i = Some m -> m_ns_prefix m = String.concat "::" (full_path mods i).
Lemma prefixed_grows mods mods' i m m' : wf mods -> wf mods' -> grows mods mods' -> prefixed mods -> nth_error mods i = Some m ->
  nth_error mods' i = Some m' -> m_ns_prefix m' = String.concat "::" (full_path mods' i).
Proof.
  intros W W' G P E E'. rewrite <- (full_path_grows mods mods' i); auto; [|now apply nth_valid in E].
  destruct (G _ _ E) as (m1 & l & E1 & Sh & _). rewrite E' in E1. injection E1 as <-. rewrite <- (sh_nsp _ _ Sh). now apply P.
Qed.
Lemma prefixed_reshaped mods mods' : wf mods -> reshaped mods mods' -> prefixed mods -> prefixed mods'.
Proof.
  intros W R P i m' E'. destruct (reshaped_nth _ _ _ _ (reshaped_sym _ _ R) E') as (m & E & _).
  eapply prefixed_grows with (m := m); eauto using reshaped_grows, reshaped_wf.
Qed.
Lemma with_sub_prefixed j m name ns w : wf (w_mods w) -> nth_error (w_mods w) j = Some m -> prefixed (w_mods w) ->
  prefixed (w_mods (with_sub j m name ns w)).
Proof.
  intros W E P i x X. pose proof (with_sub_wf j m name ns w W E) as W'. pose proof (with_sub_grows j m name ns w E) as G.
  set (mods' := w_mods (with_sub j m name ns w)) in *. pose proof (with_sub_nth j m name ns w i E) as N. fold mods' in N.
  destruct (Nat.eqb_spec i (length (w_mods w))) as [->|Hn].
  - rewrite N in X. injection X as <-. cbn [m_ns_prefix new_module].
    unfold full_path. rewrite (chain_parent _ _ _ j W' N) by reflexivity. cbn [rev]. rewrite map_app, concat_app.
    fold (full_path mods' j). rewrite <- (full_path_grows (w_mods w) mods' j W W' G) by (eapply nth_valid; eauto).
    cbn [map concat]. rewrite app_nil_r. unfold own_part. rewrite N. cbn [m_ns new_module].
    rewrite ns_path_up_app. reflexivity.
  - destruct (Nat.eqb_spec i j) as [->|Hj].
    + exact (prefixed_grows _ _ _ _ _ W W' G P E X).
    + rewrite N in X. refine (prefixed_grows _ _ _ _ _ W W' G P X _). now rewrite N.
Qed.

Section Run.
  Context {V : Type} (make : list string -> list (string * string) -> res V) (p : policy).
  Notation run_call := (run_call make p).

  (** A call keeps the tree, or adds one submodule. *)
  Lemma step_shape c w w' r : wf (w_mods w) -> run_call c w = (w', r) ->
    reshaped (w_mods w) (w_mods w') \/
    exists j m name ns, nth_error (w_mods w) j = Some m /\ w' = with_sub j m name ns w.
  Proof.
    intros W H. destruct c as [j n ns|j n|i d|i t|i o k al|i s|i s|i s|i s|i s|i f].
    - cbn [Module.run_call] in H. destruct (nth_error (w_mods w) j) as [m|] eqn:E.
      + rewrite (sbind_ok _ _ _ _ _ (new_submodule_eq j n ns w m E)) in H. injection H as <- <-. right. exists j, m, n, ns. auto.
      + assert (X : new_submodule j n ns w = (w, Err Unmodelled)).
        { unfold new_submodule. apply sbind_err. unfold get_mod. now rewrite E. }
        rewrite (sbind_err _ _ _ _ _ X) in H. injection H as <- <-. left. apply reshaped_refl.
    - cbn [Module.run_call] in H. destruct (namespace_cases j n w) as [(E & X)|(m & E & [(i & F & X)|(F & X)])].
      + rewrite (sbind_err _ _ _ _ _ X) in H. injection H as <- <-. left. apply reshaped_refl.
      + rewrite (sbind_ok _ _ _ _ _ X) in H. injection H as <- <-. left. apply reshaped_refl.
      + rewrite (sbind_ok _ _ _ _ _ X) in H. injection H as <- <-. right. exists j, m, n, (Some n). auto.
    - left. destruct (function_cases make p i d w) as [(E & X)|(m & l & E & [(e & _ & X)|[(_ & X)|(v & _ & X)]])];
        rewrite X in H; injection H as <- <-; try apply reshaped_refl.
      unfold with_function, upd_mod, set_mods. cbn [w_mods logged]. apply keeps_upd, keeps_functions.
    - left. destruct (type_cases make p i t w) as [(E & X)|(m & l & E & [(e & _ & X)|[(_ & X)|(_ & X)]])];
        try (rewrite X in H; injection H as <- <-; apply reshaped_refl).
      cbv zeta in X. set (w1 := with_type i m t (logged l w)) in *.
      assert (R1 : reshaped (w_mods w) (w_mods w1)).
      { unfold w1, with_type, upd_mod, set_mods. cbn [w_mods logged]. apply keeps_upd, keeps_types. }
      destruct (register_type_ok i (Some (td_name t)) (Some (full_name (m_ns_prefix m) (td_scope t) (td_name t))) (td_id t) w1) as (w2 & Q & R2 & _ & K2).
      { eapply reshaped_wf; eauto. } { rewrite <- (reshaped_length _ _ R1). eapply nth_valid; eauto. }
      rewrite Q in X. cbn [fst] in X. rewrite X in H. injection H as <- <-. eapply reshaped_trans; eauto.
    - left. cbn [Module.run_call] in H. unfold add_typedef in H.
      destruct (get_mod_cases i w) as [(m & E & G)|(E & G)].
      2:{ rewrite (sbind_err _ _ w w Unmodelled) in H by (apply (sbind_err _ _ _ _ _ G)). injection H as <- <-. apply reshaped_refl. }
      destruct (get_mod_cases o w) as [(m' & E' & G')|(E' & G')].
      2:{ rewrite (sbind_err _ _ w w Unmodelled) in H by (rewrite (sbind_ok _ _ _ _ _ G); apply (sbind_err _ _ _ _ _ G')). injection H as <- <-.
          apply reshaped_refl. }
      assert (Li : i < length (w_mods w)) by (eapply nth_valid; eauto).
      assert (Lo : o < length (w_mods w)) by (eapply nth_valid; eauto).
      destruct (register_type_ok i (Some al) (Some al) k w W Li) as (w1 & Q1 & R1 & _ & K1).
      assert (W1 : wf (w_mods w1)) by (eapply reshaped_wf; eauto).
      assert (Lo1 : o < length (w_mods w1)) by (rewrite <- (reshaped_length _ _ R1); assumption).
      destruct (register_type_ok o None (Some al) k w1 W1 Lo1) as (w2 & Q2 & R2 & _ & K2).
      assert (W2 : wf (w_mods w2)) by (eapply reshaped_wf; eauto).
      assert (Lo2 : o < length (w_mods w2)) by (rewrite <- (reshaped_length _ _ R2); assumption).
      destruct (register_type_ok o None (Some (join "::" (namespace_path (w_mods w2) i ++ [al]))) k w2 W2 Lo2) as (w3 & Q3 & R3 & _ & K3).
      assert (X : sbind (get_mod i) (fun _ => sbind (get_mod o) (fun _ =>
          sbind (register_type i (Some al) (Some al) k) (fun _ => sbind (register_type o None (Some al) k) (fun _ =>
            full <~ gets (fun w => join "::" (namespace_path (w_mods w) i ++ [al])) ;; register_type o None (Some full) k ;~ ret full)))) w
          = (w3, Ok (join "::" (namespace_path (w_mods w2) i ++ [al])))).
      { rewrite (sbind_ok _ _ _ _ _ G), (sbind_ok _ _ _ _ _ G'), (sbind_ok _ _ _ _ _ Q1), (sbind_ok _ _ _ _ _ Q2).
        unfold gets. erewrite sbind_ok by reflexivity. rewrite (sbind_ok _ _ _ _ _ Q3). reflexivity. }
      rewrite (sbind_ok _ _ _ _ _ X) in H. injection H as <- <-.
      eapply reshaped_trans; [exact R1|]. eapply reshaped_trans; eassumption.
    - left. cbn [Module.run_call] in H. destruct (get_mod_cases i w) as [(m & E & G)|(E & G)].
      2:{ rewrite (sbind_err _ _ _ _ _ G) in H. injection H as <- <-. apply reshaped_refl. }
      rewrite (sbind_ok _ _ _ _ _ G) in H. unfold sbind, add_include, ret in H.
      destruct (include_ok s); [destruct (w_includes w) as [incs|]; [destruct (mem s incs)|]|]; injection H as <- _; apply reshaped_refl.
    - left. cbn [Module.run_call] in H. destruct (get_mod_cases i w) as [(m & E & G)|(E & G)].
      2:{ rewrite (sbind_err _ _ _ _ _ G) in H. injection H as <- <-. apply reshaped_refl. }
      rewrite (sbind_ok _ _ _ _ _ G) in H. unfold sbind, declare_one_time_definition, ret in H.
      destruct (mem s (w_once w)); injection H as <- _; apply reshaped_refl.
    - left. cbn [Module.run_call] in H. destruct (get_mod_cases i w) as [(m & E & G)|(E & G)].
      2:{ rewrite (sbind_err _ _ _ _ _ G) in H. injection H as <- <-. apply reshaped_refl. }
      rewrite (sbind_ok _ _ _ _ _ G) in H. unfold sbind, begin_section, ret in H.
      destruct (negb (String.eqb (w_section w) "__main__")); [injection H as <- _; apply reshaped_refl|].
      destruct (String.eqb s "__main__"); [injection H as <- _; apply reshaped_refl|]. destruct (is_root i w); injection H as <- _; apply reshaped_refl.
    - left. cbn [Module.run_call] in H. destruct (get_mod_cases i w) as [(m & E & G)|(E & G)].
      2:{ rewrite (sbind_err _ _ _ _ _ G) in H. injection H as <- <-. apply reshaped_refl. }
      rewrite (sbind_ok _ _ _ _ _ G) in H. unfold sbind, end_section, ret in H.
      destruct (is_root i w); [destruct (String.eqb (w_section w) s)|]; injection H as <- _; apply reshaped_refl.
    - left. cbn [Module.run_call] in H. destruct (get_mod_cases i w) as [(m & E & G)|(E & G)].
      2:{ rewrite (sbind_err _ _ _ _ _ G) in H. injection H as <- <-. apply reshaped_refl. }
      rewrite (sbind_ok _ _ _ _ _ G) in H. unfold sbind, modify, ret in H. injection H as <- <-. apply keeps_upd, keeps_transform.
    - left. cbn [Module.run_call] in H. destruct (get_mod_cases i w) as [(m & E & G)|(E & G)].
      2:{ rewrite (sbind_err _ _ _ _ _ G) in H. injection H as <- <-. apply reshaped_refl. }
      rewrite (sbind_ok _ _ _ _ _ G) in H. unfold sbind, modify, ret in H. injection H as <- <-. apply keeps_upd, keeps_transform.
  Qed.
  Lemma step_prefixed c w w' r : wf (w_mods w) -> prefixed (w_mods w) -> run_call c w = (w', r) -> prefixed (w_mods w').
  Proof.
    intros W P H. destruct (step_shape _ _ _ _ W H) as [R|(j & m & name & ns & E & ->)].
    - eapply prefixed_reshaped; eauto.
    - now apply with_sub_prefixed.
  Qed.

  (** Two runs in sequence. *)
  Lemma run_app cs1 cs2 w : run make p (cs1 ++ cs2) w =
    let x := run make p cs1 w in let y := run make p cs2 (fst x) in (fst y, snd x ++ snd y).
  Proof.
    revert w. induction cs1 as [|c cs1 IH]; intros w; cbn [app run fst snd].
    - now destruct (run make p cs2 w).
    - rewrite IH. reflexivity.
  Qed.
  Lemma run_length cs : forall w, length (snd (run make p cs w)) = length cs.
  Proof. induction cs as [|c cs IH]; intros w; cbn [run fst snd length]; [reflexivity|]. now rewrite IH. Qed.
  Lemma run_split cs : forall w w' tr1 e tr2, run make p cs w = (w', tr1 ++ e :: tr2) ->
    exists cs1 cs2 w1 w2, cs = cs1 ++ fst e :: cs2 /\ run make p cs1 w = (w1, tr1) /\ run_call (fst e) w1 = (w2, snd e) /\
      run make p cs2 w2 = (w', tr2).
  Proof.
    induction cs as [|c cs IH]; intros w w' tr1 e tr2 H; cbn [run] in H.
    - destruct tr1; discriminate H.
    - destruct (run_call c w) as [wa r] eqn:X. cbn [fst snd] in H. destruct (run make p cs wa) as [wb t] eqn:Y. cbn [fst snd] in H.
      destruct tr1 as [|x tr1]; cbn [app] in H.
      + injection H as <- <- <-. exists [], cs, w, wa. cbn [fst snd app run]. auto.
      + injection H as <- <- ->. destruct (IH _ _ _ _ _ Y) as (cs1 & cs2 & w1 & w2 & -> & R1 & R2 & R3).
        exists (c :: cs1), cs2, w1, w2. split; [reflexivity|]. split; [|auto]. cbn [run]. rewrite X. cbn [fst snd]. rewrite R1. reflexivity.
  Qed.

  Lemma run_inv cs : forall w w' tr, wf (w_mods w) -> prefixed (w_mods w) -> run make p cs w = (w', tr) ->
    wf (w_mods w') /\ prefixed (w_mods w') /\ grows (w_mods w) (w_mods w').
  Proof.
    induction cs as [|c cs IH]; intros w w' tr W P H; cbn [run] in H.
    - injection H as <- <-. auto using grows_refl.
    - destruct (run_call c w) as [wa r] eqn:X. cbn [fst snd] in H. destruct (run make p cs wa) as [wb t] eqn:Y. cbn [fst snd] in H.
      injection H as <- <-. destruct (step make p _ _ _ _ W X) as (W1 & G1 & _). pose proof (step_prefixed _ _ _ _ W P X) as P1.
      destruct (IH _ _ _ W1 P1 Y) as (W2 & P2 & G2). eauto using grows_trans.
  Qed.
  Lemma root_prefixed name ns : prefixed (w_mods (new_root name ns)).
  Proof.
    intros [|[|i]] m E; try discriminate E. injection E as <-. cbn [new_module m_ns_prefix new_root set_mods w_mods].
    unfold full_path. cbn. unfold own_part. cbn. now rewrite app_nil_r.
  Qed.

  (** C28: full names *)
  Lemma full_name_script name ns cs w tr i t full l : run make p cs (new_root name ns) = (w, tr) ->
    In (CType i t, Ok (RObject full)) tr -> cpp_path (w_mods w) i l -> td_scope t = ScModule ->
    full = String.concat "::" (l ++ [td_name t]).
  Proof.
    intros H I C Sc. apply in_split in I. destruct I as (t1 & t2 & ->).
    destruct (run_split _ _ _ _ _ _ H) as (cs1 & cs2 & w1 & w2 & -> & R1 & R2 & R3). cbn [fst snd] in *.
    destruct (run_inv _ _ _ _ (root_wf name ns) (root_prefixed name ns) R1) as (W1 & P1 & _).
    destruct (step make p _ _ _ _ W1 R2) as (W2 & G2 & _). pose proof (step_prefixed _ _ _ _ W1 P1 R2) as P2.
    destruct (run_inv _ _ _ _ W2 P2 R3) as (W3 & P3 & G3).
    destruct (type_cases make p i t w1) as [(E & X)|(m & lg & E & [(e & _ & X)|[(_ & X)|(_ & X)]])]; rewrite X in R2; try discriminate R2.
    cbv zeta in R2. injection R2 as _ <-.
    assert (G : grows (w_mods w1) (w_mods w)) by eauto using grows_trans.
    pose proof (P1 _ _ E) as Q. rewrite (full_path_grows _ _ _ W1 W3 G) in Q by (eapply nth_valid; eauto).
    rewrite (full_path_cpp _ _ _ W3 C) in Q. rewrite Q, Sc. cbn [full_name].
    destruct l as [|x l].
    - reflexivity.
    - assert (N : String.concat "::" (x :: l) <> "").
      { clear -C. assert (F : Forall component (x :: l)).
        { remember (x :: l) as y. clear Heqy x l. induction C as [? ? ? _ _ Wr|? ? ? ? ? _ _ _ IH Wr].
          - inversion Wr; auto.
          - apply Forall_app. split; [assumption|]. inversion Wr; auto. }
        destruct (concat_ne (x :: l)) as (c & r & E & _); [discriminate|assumption|]. rewrite E. discriminate. }
      apply String.eqb_neq in N. rewrite N. clear. generalize x. induction l as [|y l IH]; intros z; [reflexivity|].
      specialize (IH y). cbn [app] in IH |- *. rewrite (concat_cons_s _ z y (l ++ [td_name t])), <- IH, (concat_cons_s _ z y l). now rewrite !app_assoc_s.
  Qed.

  (** C28: add_cpp_namespace *)
  Lemma find_grows mods mods' n l l' i : grows mods mods' -> (forall j, In j l -> j < length mods) ->
    find_submodule mods n l = Some i -> find_submodule mods' n (l ++ l') = Some i.
  Proof.
    intros G. induction l as [|j l IH]; intros Va F; [discriminate F|]. cbn [find_submodule app] in *.
    destruct (valid_nth mods j (Va j (or_introl eq_refl))) as (m & E). rewrite E in F. destruct (G _ _ E) as (m' & k & E' & Sh & _). rewrite E', <- (sh_name _ _ Sh).
    destruct (String.eqb (m_name m) n); [assumption|]. apply IH; [|assumption]. intros x I. apply Va. now right.
  Qed.
  Definition named (w : world) (j : nat) (n : string) (i : nat) : Prop :=
    exists m, nth_error (w_mods w) j = Some m /\ find_submodule (w_mods w) n (m_submodules m) = Some i.
  Lemma named_grows w w' j n i : wf (w_mods w) -> grows (w_mods w) (w_mods w') -> named w j n i -> named w' j n i.
  Proof.
    intros W G (m & E & F). destruct (G _ _ E) as (m' & l & E' & Sh & U). exists m'. split; [assumption|]. rewrite U.
    eapply find_grows; eauto. intros x I. destruct (wf_sub _ W _ _ _ E I) as (mx & Ex & _). now apply nth_valid in Ex.
  Qed.
  Lemma find_none_app mods n l i : find_submodule mods n l = None -> find_submodule mods n (l ++ [i]) = find_submodule mods n [i].
  Proof.
    induction l as [|j l IH]; intros F; [reflexivity|]. cbn [find_submodule app] in F |- *. destruct (nth_error mods j) as [m|]; [|auto].
    destruct (String.eqb (m_name m) n); [discriminate F|auto].
  Qed.
  Lemma namespace_named j n w w' i : wf (w_mods w) -> run_call (CNamespace j n) w = (w', Ok (RModule i)) -> named w' j n i.
  Proof.
    intros W H. cbn [Module.run_call] in H. destruct (namespace_cases j n w) as [(E & X)|(m & E & [(k & F & X)|(F & X)])].
    - rewrite (sbind_err _ _ _ _ _ X) in H. discriminate H.
    - rewrite (sbind_ok _ _ _ _ _ X) in H. injection H as <- <-. exists m. auto.
    - rewrite (sbind_ok _ _ _ _ _ X) in H. injection H as <- <-. unfold named. pose proof (with_sub_nth j m n (Some n) w) as N.
      exists (with_submodules (m_submodules m ++ [length (w_mods w)]) m). rewrite N by assumption. rewrite Nat.eqb_refl.
      assert (j < length (w_mods w)) as L by (eapply nth_valid; eauto).
      destruct (Nat.eqb_spec j (length (w_mods w))); [lia|]. split; [reflexivity|]. cbn [m_submodules with_submodules].
      rewrite find_none_app.
      + cbn [find_submodule]. rewrite N, Nat.eqb_refl by assumption. cbn [m_name new_module]. now rewrite String.eqb_refl.
      + assert (Va : forall x, In x (m_submodules m) -> x < length (w_mods w)).
        { intros x I. destruct (wf_sub _ W _ _ _ E I) as (mx & Ex & _). now apply nth_valid in Ex. }
        revert F Va. generalize (m_submodules m) as l. intros l. assert (NN : forall y, y < length (w_mods w) ->
          exists a b, nth_error (w_mods w) y = Some a /\ nth_error (w_mods (with_sub j m n (Some n) w)) y = Some b /\ m_name a = m_name b).
        { intros y Hy. destruct (valid_nth _ _ Hy) as (a & A). destruct (with_sub_grows j m n (Some n) w E _ _ A) as (b & ? & B & Sh & _).
          exists a, b. auto using (sh_name _ _ Sh). }
        induction l as [|y l IH]; intros F Va; [reflexivity|]. cbn [find_submodule] in F |- *.
        destruct (NN y (Va y (or_introl eq_refl))) as (a & b & A & B & Nm). rewrite A in F. rewrite B, <- Nm.
        destruct (String.eqb (m_name a) n); [discriminate F|]. apply IH; [assumption|]. intros x I. apply Va. now right.
  Qed.
  Lemma named_namespace j n w i : named w j n i -> run_call (CNamespace j n) w = (w, Ok (RModule i)).
  Proof.
    intros (m & E & F). cbn [Module.run_call]. destruct (namespace_cases j n w) as [(E' & X)|(m' & E' & [(k & F' & X)|(F' & X)])].
    - congruence.
    - rewrite (sbind_ok _ _ _ _ _ X). rewrite E in E'. injection E' as <-. rewrite F in F'. injection F' as <-. reflexivity.
    - rewrite E in E'. injection E' as <-. congruence.
  Qed.
  Lemma namespace_again name ns cs w t1 t2 t3 j n i r :
    run make p cs (new_root name ns) = (w, t1 ++ (CNamespace j n, Ok (RModule i)) :: t2 ++ (CNamespace j n, r) :: t3) -> r = Ok (RModule i).
  Proof.
    intros H. destruct (run_split _ _ _ _ _ _ H) as (c1 & c2 & w1 & w2 & -> & R1 & R2 & R3). cbn [fst snd] in *.
    destruct (run_inv _ _ _ _ (root_wf name ns) (root_prefixed name ns) R1) as (W1 & P1 & _).
    destruct (step make p _ _ _ _ W1 R2) as (W2 & G2 & _). pose proof (step_prefixed _ _ _ _ W1 P1 R2) as P2.
    pose proof (namespace_named _ _ _ _ _ W1 R2) as Na.
    destruct (run_split _ _ _ _ _ _ R3) as (c3 & c4 & w3 & w4 & -> & R4 & R5 & R6). cbn [fst snd] in *.
    destruct (run_inv _ _ _ _ W2 P2 R4) as (W3 & P3 & G3). rewrite (named_namespace j n w3 i) in R5 by exact (named_grows _ _ _ _ _ W2 G3 Na).
    now injection R5.
  Qed.
  (** What a namespace call does. *)
  Lemma namespace_new name ns cs w tr j n w' i : run make p cs (new_root name ns) = (w, tr) -> run_call (CNamespace j n) w = (w', Ok (RModule i)) ->
    (w' = w /\ exists m mi, nth_error (w_mods w) j = Some m /\ In i (m_submodules m) /\ nth_error (w_mods w) i = Some mi /\ m_name mi = n /\ m_parent mi = Some j) \/
    (i = length (w_mods w) /\ (forall a k, lookup a k w' = lookup a k w) /\
     exists mi, nth_error (w_mods w') i = Some mi /\ m_name mi = n /\ m_parent mi = Some j /\ m_ns mi = Some n /\ m_functions mi = [] /\ m_types mi = []).
  Proof.
    intros H0 H. destruct (run_inv _ _ _ _ (root_wf name ns) (root_prefixed name ns) H0) as (W & P & _).
    cbn [Module.run_call] in H. destruct (namespace_cases j n w) as [(E & X)|(m & E & [(k & F & X)|(F & X)])].
    - rewrite (sbind_err _ _ _ _ _ X) in H. discriminate H.
    - rewrite (sbind_ok _ _ _ _ _ X) in H. injection H as <- <-. left. split; [reflexivity|]. exists m.
      assert (Q : In k (m_submodules m) /\ exists mi, nth_error (w_mods w) k = Some mi /\ m_name mi = n).
      { revert F. generalize (m_submodules m) as l. induction l as [|y l IH]; intros F; [discriminate F|]. cbn [find_submodule] in F.
        destruct (nth_error (w_mods w) y) as [a|] eqn:A.
        - destruct (String.eqb_spec (m_name a) n) as [Nm|_]; [injection F as <-; split; [now left|eauto]|].
          destruct (IH F) as (I & Y). split; [now right|assumption].
        - destruct (IH F) as (I & Y). split; [now right|assumption]. }
      destruct Q as (I & mi & Ei & Nm). exists mi. repeat (split; [assumption|]). destruct (wf_sub _ W _ _ _ E I) as (mx & Ex & Px). congruence.
    - rewrite (sbind_ok _ _ _ _ _ X) in H. injection H as <- <-. right. split; [reflexivity|]. split; [intros; now apply with_sub_lookup|].
      exists (new_module n (Some j) (Some n) w). rewrite with_sub_nth, Nat.eqb_refl by assumption. repeat split; reflexivity.
  Qed.
End Run.
