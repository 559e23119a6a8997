From Verif.Model Require Import Py PyState Mangle Errors Overloading Module.
From Verif.Spec Require Import OverloadSpec ModuleSpec.
From Verif.Proofs Require Import StrLemmas ModuleProofs ModuleSteps.
From Coq Require Import Lia.
Open Scope string_scope.
Open Scope list_scope.
Open Scope st_scope.

Lemma lookup_same a b i k : w_mods a = w_mods b -> lookup i k a = lookup i k b.
Proof. unfold lookup. now intros ->. Qed.
Lemma lookup_upd i f w a k : (forall m, m_dict (f m) = m_dict m) -> lookup a k (upd_mod i f w) = lookup a k w.
Proof.
  intros K. unfold lookup, upd_mod, set_mods. cbn [w_mods]. rewrite upd_nth. destruct (Nat.eqb_spec a i) as [->|]; [|reflexivity].
  destruct (nth_error (w_mods w) i); cbn [option_map]; [now rewrite K|reflexivity].
Qed.
Lemma valid_nth {A} (l : list A) i : i < length l -> exists x, nth_error l i = Some x.
Proof. intros L. destruct (nth_error l i) eqn:E; [eauto|]. apply nth_error_None in E. lia. Qed.
Lemma nth_valid {A} (l : list A) i x : nth_error l i = Some x -> i < length l.
Proof. intros E. apply nth_error_Some. congruence. Qed.
Lemma contains_reshaped mods mods' a i : wf mods -> reshaped mods mods' -> i < length mods -> (contains mods a i <-> contains mods' a i).
Proof. intros W R. apply contains_grows; [assumption|now apply reshaped_grows]. Qed.

(** Each simple call: the modules are as before. *)
Lemma get_mod_cases i w :
  (exists m, nth_error (w_mods w) i = Some m /\ get_mod i w = (w, Ok m)) \/
  (nth_error (w_mods w) i = None /\ get_mod i w = (w, Err Unmodelled)).
Proof. unfold get_mod. destruct (nth_error (w_mods w) i); eauto. Qed.

Section Names.
  Context {V : Type} (make : list string -> list (string * string) -> res V) (p : policy).

  Definition good (c : call V) (w w' : world) (r : res answer) : Prop :=
    wf (w_mods w') /\ grows (w_mods w) (w_mods w') /\
    (forall a k v, registers (w_mods w') (c, r) a k v -> lookup a k w' = Some v) /\
    (forall a k, (forall v, ~ registers (w_mods w') (c, r) a k v) -> lookup a k w' = lookup a k w).

  (** A call that registers nothing. *)
  Lemma good_quiet c w w' r : wf (w_mods w) -> reshaped (w_mods w) (w_mods w') -> (forall a k, lookup a k w' = lookup a k w) ->
    (forall mods a k v, ~ registers mods (c, r) a k v) -> good c w w' r.
  Proof.
    intros W R L N. split; [eapply reshaped_wf; eauto|]. split; [now apply reshaped_grows|]. split; [|auto].
    intros a k v H. now apply N in H.
  Qed.

  Ltac no_reg := let H := fresh in intros ? ? ? ? H; inversion H.

  Lemma step c w w' r : wf (w_mods w) -> run_call make p c w = (w', r) -> good c w w' r.
  Proof.
    intros W H. destruct c as [j n ns|j n|i d|i t|i o k al|i s|i s|i s|i s|i s|i f].
    - (* CSubModule *) cbn [run_call] in H. destruct (nth_error (w_mods w) j) as [m|] eqn:E.
      + rewrite (sbind_ok _ _ _ _ _ (new_submodule_eq j n ns w m E)) in H. injection H as <- <-.
        split; [now apply with_sub_wf|]. split; [now apply with_sub_grows|]. split.
        * intros a k v H. inversion H.
        * intros a k _. now apply with_sub_lookup.
      + assert (X : new_submodule j n ns w = (w, Err Unmodelled)).
        { unfold new_submodule. apply sbind_err. unfold get_mod. now rewrite E. }
        rewrite (sbind_err _ _ _ _ _ X) in H. injection H as <- <-. apply good_quiet; auto using reshaped_refl. no_reg.
    - (* CNamespace *) cbn [run_call] in H. destruct (namespace_cases j n w) as [(E & X)|(m & E & [(i & F & X)|(F & X)])].
      + rewrite (sbind_err _ _ _ _ _ X) in H. injection H as <- <-. apply good_quiet; auto using reshaped_refl. no_reg.
      + rewrite (sbind_ok _ _ _ _ _ X) in H. injection H as <- <-. apply good_quiet; auto using reshaped_refl. no_reg.
      + rewrite (sbind_ok _ _ _ _ _ X) in H. injection H as <- <-.
        split; [now apply with_sub_wf|]. split; [now apply with_sub_grows|]. split.
        * intros a k v H. inversion H.
        * intros a k _. now apply with_sub_lookup.
    - (* CFunctionC *) destruct (function_cases make p i d w) as [(E & X)|(m & l & E & [(e & _ & X)|[(_ & X)|(v & _ & X)]])];
        rewrite X in H; injection H as <- <-; (apply good_quiet; [assumption| | |no_reg]); try apply reshaped_refl; try reflexivity.
      + unfold with_function, upd_mod, set_mods. cbn [w_mods logged]. apply keeps_upd, keeps_functions.
      + intros a k. unfold with_function. rewrite lookup_upd by reflexivity. reflexivity.
    - (* CType *) destruct (type_cases make p i t w) as [(E & X)|(m & l & E & [(e & _ & X)|[(_ & X)|(_ & X)]])].
      + rewrite X in H; injection H as <- <-. apply good_quiet; auto using reshaped_refl. no_reg.
      + rewrite X in H; injection H as <- <-. apply good_quiet; auto using reshaped_refl. no_reg.
      + rewrite X in H; injection H as <- <-. apply good_quiet; auto using reshaped_refl. no_reg.
      + cbv zeta in X. set (full := full_name (m_ns_prefix m) (td_scope t) (td_name t)) in *.
        set (w1 := with_type i m t (logged l w)) in *.
        assert (R1 : reshaped (w_mods w) (w_mods w1)).
        { unfold w1, with_type, upd_mod, set_mods. cbn [w_mods logged]. apply keeps_upd, keeps_types. }
        assert (W1 : wf (w_mods w1)) by (eapply reshaped_wf; eauto).
        assert (L : i < length (w_mods w)) by (eapply nth_valid; eauto).
        assert (L1 : i < length (w_mods w1)) by (rewrite <- (reshaped_length _ _ R1); assumption).
        assert (K1 : forall a k, lookup a k w1 = lookup a k w).
        { intros a k. unfold w1, with_type. rewrite lookup_upd by reflexivity. reflexivity. }
        destruct (register_type_ok i (Some (td_name t)) (Some full) (td_id t) w1 W1 L1) as (w2 & Q & R2 & _ & K2).
        rewrite Q in X. cbn [fst] in X. rewrite X in H. injection H as <- <-.
        assert (W2 : wf (w_mods w2)) by (eapply reshaped_wf; eauto).
        assert (C : forall a, contains (w_mods w1) a i <-> contains (w_mods w2) a i) by (intros a; now apply contains_reshaped).
        split; [assumption|]. split; [eapply grows_trans; apply reshaped_grows; eauto|]. split.
        * intros a k v H. inversion H as [? ? ? N|? ? ? ? N CC| | ]; subst.
          -- apply K2. left. eauto 6.
          -- apply K2. right. eexists; repeat split; auto. now apply C.
        * intros a k H. rewrite <- K1. apply K2. intros [(n & Hn & N & <- & ->)|(n & Hn & N & <- & CC)].
          -- injection Hn as <-. apply (H (td_id t)). now constructor.
          -- injection Hn as <-. apply (H (td_id t)). constructor; [assumption|now apply C].
    - (* CTypedef *) cbn [run_call] in H. unfold add_typedef in H.
      destruct (get_mod_cases i w) as [(m & E & G)|(E & G)].
      2:{ rewrite (sbind_err _ _ w w Unmodelled) in H by (apply (sbind_err _ _ _ _ _ G)). injection H as <- <-.
          apply good_quiet; auto using reshaped_refl. no_reg. }
      destruct (get_mod_cases o w) as [(m' & E' & G')|(E' & G')].
      2:{ rewrite (sbind_err _ _ w w Unmodelled) in H by (rewrite (sbind_ok _ _ _ _ _ G); apply (sbind_err _ _ _ _ _ G')). injection H as <- <-.
          apply good_quiet; auto using reshaped_refl. no_reg. }
      assert (Li : i < length (w_mods w)) by (eapply nth_valid; eauto).
      assert (Lo : o < length (w_mods w)) by (eapply nth_valid; eauto).
      destruct (register_type_ok i (Some al) (Some al) k w W Li) as (w1 & Q1 & R1 & _ & K1).
      assert (W1 : wf (w_mods w1)) by (eapply reshaped_wf; eauto).
      assert (Lo1 : o < length (w_mods w1)) by (rewrite <- (reshaped_length _ _ R1); assumption).
      destruct (register_type_ok o None (Some al) k w1 W1 Lo1) as (w2 & Q2 & R2 & _ & K2).
      assert (W2 : wf (w_mods w2)) by (eapply reshaped_wf; eauto).
      assert (Lo2 : o < length (w_mods w2)) by (rewrite <- (reshaped_length _ _ R2); assumption).
      set (full := join "::" (namespace_path (w_mods w2) i ++ [al])) in *.
      destruct (register_type_ok o None (Some full) k w2 W2 Lo2) as (w3 & Q3 & R3 & _ & K3).
      assert (W3 : wf (w_mods w3)) by (eapply reshaped_wf; eauto).
      assert (X : sbind (get_mod i) (fun _ => sbind (get_mod o) (fun _ =>
          sbind (register_type i (Some al) (Some al) k) (fun _ => sbind (register_type o None (Some al) k) (fun _ =>
            full <~ gets (fun w => join "::" (namespace_path (w_mods w) i ++ [al])) ;; register_type o None (Some full) k ;~ ret full)))) w
          = (w3, Ok full)).
      { rewrite (sbind_ok _ _ _ _ _ G), (sbind_ok _ _ _ _ _ G'), (sbind_ok _ _ _ _ _ Q1), (sbind_ok _ _ _ _ _ Q2).
        unfold gets. erewrite sbind_ok by reflexivity. fold full. rewrite (sbind_ok _ _ _ _ _ Q3). reflexivity. }
      rewrite (sbind_ok _ _ _ _ _ X) in H. injection H as <- <-.
      assert (R01 := R1). assert (R12 := R2). assert (R23 := R3).
      assert (Ci : forall a, contains (w_mods w) a i <-> contains (w_mods w3) a i).
      { intros a. apply contains_reshaped; auto. eapply reshaped_trans; eauto. eapply reshaped_trans; eauto. }
      assert (Co : forall a, contains (w_mods w1) a o <-> contains (w_mods w3) a o).
      { intros a. apply contains_reshaped; auto. eapply reshaped_trans; eauto. }
      assert (Co2 : forall a, contains (w_mods w2) a o <-> contains (w_mods w3) a o) by (intros a; apply contains_reshaped; auto).
      split; [assumption|]. split; [repeat (eapply grows_trans; [apply reshaped_grows; eassumption|]); apply grows_refl|]. split.
      * intros a key v H.
        assert (D3 : (exists n, Some full = Some n /\ n <> "" /\ n = key /\ contains (w_mods w2) a o) \/ ~ (exists n, Some full = Some n /\ n <> "" /\ n = key /\ contains (w_mods w2) a o)).
        { destruct (string_dec full key) as [Hk|Hk]; [|right; intros (n & X1 & _ & X2 & _); congruence].
          destruct (string_dec full "") as [Z|Z]; [right; intros (n & X1 & X2 & _); congruence|].
          destruct (in_dec Nat.eq_dec a (chain (w_mods w2) o)) as [I|I].
          - left. exists full. split; [reflexivity|]. split; [exact Z|]. split; [exact Hk|]. now apply chain_contains.
          - right. intros (n & _ & _ & _ & X2). apply I. now apply chain_contains. }
        destruct D3 as [D3|D3].
        { assert (v = k) as -> by (inversion H; reflexivity). apply K3. right. exact D3. }
        destruct (K3 a key) as [_ K3']. rewrite K3' by (intros [(n & X1 & _)|X1]; [congruence|now apply D3]).
        inversion H as [| |? ? ? ? ? ? N CC|? ? ? ? ? ? N CC]; subst.
        -- destruct (in_dec Nat.eq_dec a (chain (w_mods w1) o)) as [I|I].
           ++ apply K2. right. exists key. repeat split; auto. now apply chain_contains.
           ++ destruct (K2 a key) as [_ K2']. rewrite K2' by (intros [(n & X1 & _)|(n & X1 & _ & _ & X2)]; [congruence|apply I; now apply chain_contains]).
              apply K1. right. exists key. repeat split; auto. destruct CC as [CC|CC]; [now apply Ci|].
              exfalso. apply I. apply chain_contains; auto. now apply Co.
        -- exfalso. apply D3. exists full. repeat split; auto. now apply Co2.
      * intros a key H.
        destruct (K3 a key) as [_ ->].
        2:{ intros [(n & X1 & _)|(n & X1 & X2 & <- & X3)]; [congruence|]. injection X1 as <-. apply (H k). constructor; [assumption|now apply Co2]. }
        destruct (K2 a key) as [_ ->].
        2:{ intros [(n & X1 & _)|(n & X1 & X2 & <- & X3)]; [congruence|]. injection X1 as <-. apply (H k). constructor; [assumption|right; now apply Co]. }
        apply K1. intros [(n & X1 & X2 & <- & ->)|(n & X1 & X2 & <- & X3)]; injection X1 as <-; apply (H k); (constructor; [assumption|]).
        -- left. constructor.
        -- left. now apply Ci.
    - (* CInclude *) cbn [run_call] in H. destruct (get_mod_cases i w) as [(m & E & G)|(E & G)].
      2:{ rewrite (sbind_err _ _ _ _ _ G) in H. injection H as <- <-. apply good_quiet; auto using reshaped_refl. no_reg. }
      rewrite (sbind_ok _ _ _ _ _ G) in H.
      assert (M : w_mods w' = w_mods w /\ forall a k v, ~ registers (V := V) (w_mods w') (CInclude i s, r) a k v).
      { split; [|intros a k v X; inversion X]. unfold sbind, add_include, ret in H.
        destruct (include_ok s); [destruct (w_includes w) as [incs|]; [destruct (mem s incs)|]|]; injection H as <- _; reflexivity. }
      destruct M as [M N]. apply good_quiet; [assumption|rewrite M; apply reshaped_refl|intros; now apply lookup_same|no_reg].
    - (* COnce *) cbn [run_call] in H. destruct (get_mod_cases i w) as [(m & E & G)|(E & G)].
      2:{ rewrite (sbind_err _ _ _ _ _ G) in H. injection H as <- <-. apply good_quiet; auto using reshaped_refl. no_reg. }
      rewrite (sbind_ok _ _ _ _ _ G) in H.
      assert (M : w_mods w' = w_mods w).
      { unfold sbind, declare_one_time_definition, ret in H. destruct (mem s (w_once w)); injection H as <- _; reflexivity. }
      apply good_quiet; [assumption|rewrite M; apply reshaped_refl|intros; now apply lookup_same|no_reg].
    - (* CBegin *) cbn [run_call] in H. destruct (get_mod_cases i w) as [(m & E & G)|(E & G)].
      2:{ rewrite (sbind_err _ _ _ _ _ G) in H. injection H as <- <-. apply good_quiet; auto using reshaped_refl. no_reg. }
      rewrite (sbind_ok _ _ _ _ _ G) in H.
      assert (M : w_mods w' = w_mods w).
      { unfold sbind, begin_section, ret in H. destruct (negb (String.eqb (w_section w) "__main__")); [injection H as <- _; reflexivity|].
        destruct (String.eqb s "__main__"); [injection H as <- _; reflexivity|]. destruct (is_root i w); injection H as <- _; reflexivity. }
      apply good_quiet; [assumption|rewrite M; apply reshaped_refl|intros; now apply lookup_same|no_reg].
    - (* CEnd *) cbn [run_call] in H. destruct (get_mod_cases i w) as [(m & E & G)|(E & G)].
      2:{ rewrite (sbind_err _ _ _ _ _ G) in H. injection H as <- <-. apply good_quiet; auto using reshaped_refl. no_reg. }
      rewrite (sbind_ok _ _ _ _ _ G) in H.
      assert (M : w_mods w' = w_mods w).
      { unfold sbind, end_section, ret in H. destruct (is_root i w); [destruct (String.eqb (w_section w) s)|]; injection H as <- _; reflexivity. }
      apply good_quiet; [assumption|rewrite M; apply reshaped_refl|intros; now apply lookup_same|no_reg].
    - (* CStrip *) cbn [run_call] in H. destruct (get_mod_cases i w) as [(m & E & G)|(E & G)].
      2:{ rewrite (sbind_err _ _ _ _ _ G) in H. injection H as <- <-. apply good_quiet; auto using reshaped_refl. no_reg. }
      rewrite (sbind_ok _ _ _ _ _ G) in H. unfold sbind, modify, ret in H. injection H as <- <-.
      apply good_quiet; [assumption|apply keeps_upd, keeps_transform|intros; now apply lookup_upd|no_reg].
    - (* CTransform *) cbn [run_call] in H. destruct (get_mod_cases i w) as [(m & E & G)|(E & G)].
      2:{ rewrite (sbind_err _ _ _ _ _ G) in H. injection H as <- <-. apply good_quiet; auto using reshaped_refl. no_reg. }
      rewrite (sbind_ok _ _ _ _ _ G) in H. unfold sbind, modify, ret in H. injection H as <- <-.
      apply good_quiet; [assumption|apply keeps_upd, keeps_transform|intros; now apply lookup_upd|no_reg].
  Qed.


  (** The modules a call that registers something is about. *)
  Definition about (c : call V) (i : nat) : Prop :=
    match c with CType j _ => i = j | CTypedef j o _ _ => i = j \/ i = o | _ => False end.
  Lemma about_valid c w w' n i : run_call make p c w = (w', Ok (RObject n)) -> about c i -> i < length (w_mods w).
  Proof.
    intros H A. destruct c as [j x ns|j x|j d|j t|j o k al|j s|j s|j s|j s|j s|j f]; cbn [about] in A; try contradiction.
    - subst j. destruct (type_cases make p i t w) as [(E & X)|(m & l & E & _)]; [congruence|]. now apply nth_valid in E.
    - cbn [run_call] in H. unfold add_typedef in H.
      destruct (get_mod_cases j w) as [(m & E & G)|(E & G)].
      2:{ rewrite (sbind_err _ _ w w Unmodelled) in H by (apply (sbind_err _ _ _ _ _ G)). discriminate H. }
      destruct (get_mod_cases o w) as [(m' & E' & G')|(E' & G')].
      2:{ rewrite (sbind_err _ _ w w Unmodelled) in H by (rewrite (sbind_ok _ _ _ _ _ G); apply (sbind_err _ _ _ _ _ G')). discriminate H. }
      apply nth_valid in E. apply nth_valid in E'. destruct A as [->| ->]; assumption.
  Qed.
  Lemma registers_object mods c r a k v : registers (V := V) mods (c, r) a k v -> exists n, r = Ok (RObject n).
  Proof. intros H. inversion H; eauto. Qed.
  Lemma registers_grows mods mods' (c : call V) r a k v : wf mods -> grows mods mods' -> (forall i, about c i -> i < length mods) ->
    (registers mods (c, r) a k v <-> registers mods' (c, r) a k v).
  Proof.
    intros W G A.
    assert (C : forall i b, about c i -> (contains mods b i <-> contains mods' b i)) by (intros i b Hi; apply contains_grows; auto).
    split; intros H; inversion H as [| ? ? ? ? N CC|? ? ? ? ? ? N CC|? ? ? ? ? ? N CC]; subst.
    - constructor; assumption.
    - constructor; [assumption|]. apply C; [reflexivity|assumption].
    - apply rg_alias; [assumption|]. destruct CC as [CC|CC]; [left|right]; apply C; cbn; auto.
    - apply rg_alias_full; [assumption|]. apply C; cbn; auto.
    - constructor; assumption.
    - constructor; [assumption|]. apply C; [reflexivity|assumption].
    - apply rg_alias; [assumption|]. destruct CC as [CC|CC]; [left|right]; apply C; cbn; auto.
    - apply rg_alias_full; [assumption|]. apply C; cbn; auto.
  Qed.
  Lemma registers_fun mods (e : call V * res answer) a k v v' : registers mods e a k v -> registers mods e a k v' -> v = v'.
  Proof. intros H H'. destruct H; inversion H'; reflexivity. Qed.
  Lemma contains_dec mods a i : wf mods -> i < length mods -> {contains mods a i} + {~ contains mods a i}.
  Proof.
    intros W L. destruct (in_dec Nat.eq_dec a (chain mods i)) as [I|I]; [left|right; intros X; apply I]; now apply (chain_contains mods i a W L).
  Qed.
  Lemma registers_dec mods (c : call V) r a k : wf mods -> (forall i n, r = Ok (RObject n) -> about c i -> i < length mods) ->
    (exists v, registers mods (c, r) a k v) \/ (forall v, ~ registers mods (c, r) a k v).
  Proof.
    intros W A. destruct r as [[j|n|]|e]; try (right; intros v H; apply registers_object in H; destruct H; congruence).
    destruct c as [j x ns|j x|j d|j t|j o o' al|j s|j s|j s|j s|j s|j f]; try (right; intros v H; inversion H; fail).
    - assert (L : j < length mods) by (eapply A; reflexivity).
      destruct (string_dec (td_name t) "") as [N|N], (string_dec (td_name t) k) as [Q|Q], (Nat.eq_dec a j) as [J|J];
        try (left; exists (td_id t); subst; now constructor);
        (destruct (string_dec n "") as [N'|N'], (string_dec n k) as [Q'|Q'], (contains_dec mods a j W L) as [C|C];
         try (left; exists (td_id t); rewrite <- Q'; constructor; assumption);
         right; intros v H; inversion H; subst; congruence || contradiction).
    - assert (Li : j < length mods) by (eapply A; [reflexivity|cbn; auto]).
      assert (Lo : o < length mods) by (eapply A; [reflexivity|cbn; auto]).
      destruct (contains_dec mods a j W Li) as [Ci|Ci], (contains_dec mods a o W Lo) as [Co|Co];
        destruct (string_dec al "") as [N|N], (string_dec al k) as [Q|Q];
        try (left; exists o'; rewrite <- Q; apply rg_alias; [assumption|tauto]);
        (destruct (string_dec n "") as [N'|N'], (string_dec n k) as [Q'|Q'];
         try (left; exists o'; rewrite <- Q'; apply rg_alias_full; assumption);
         right; intros v H; inversion H; subst; congruence || tauto).
  Qed.

  Lemma run_lookup cs : forall w w' tr, wf (w_mods w) -> run make p cs w = (w', tr) ->
    wf (w_mods w') /\ grows (w_mods w) (w_mods w') /\
    forall a k,
      (exists v tr1 e tr2, tr = tr1 ++ e :: tr2 /\ registers (w_mods w') e a k v /\
         (forall e' v', In e' tr2 -> ~ registers (w_mods w') e' a k v') /\ lookup a k w' = Some v) \/
      ((forall e v, In e tr -> ~ registers (w_mods w') e a k v) /\ lookup a k w' = lookup a k w).
  Proof.
    induction cs as [|c cs IH]; intros w w' tr W H; cbn [run] in H.
    - injection H as <- <-. split; [assumption|]. split; [apply grows_refl|]. intros a k. right. split; [intros e v []|reflexivity].
    - destruct (run_call make p c w) as [w1 r] eqn:X. cbn [fst snd] in H.
      destruct (run make p cs w1) as [w2 tr2] eqn:Y. cbn [fst snd] in H. injection H as <- <-.
      destruct (step c w w1 r W X) as (W1 & G1 & K1 & N1). destruct (IH w1 w2 tr2 W1 Y) as (W2 & G2 & K2).
      split; [assumption|]. split; [eapply grows_trans; eauto|].
      intros a k. destruct (K2 a k) as [(v & t1 & e & t2 & -> & R & L & V')|(N & V')].
      { left. exists v, ((c, r) :: t1), e, t2. auto. }
      assert (A : forall i n, r = Ok (RObject n) -> about c i -> i < length (w_mods w1)).
      { intros i n -> A. pose proof (about_valid _ _ _ _ _ X A). apply grows_length in G1. lia. }
      destruct (registers_dec (w_mods w1) c r a k W1 A) as [(v & R)|R].
      + left. exists v, [], (c, r), tr2. split; [reflexivity|]. split.
        * destruct (registers_object _ _ _ _ _ _ R) as (n & E). apply (registers_grows (w_mods w1)); eauto.
        * split; [exact N|]. rewrite V'. now apply K1.
      + right. split; [|rewrite V'; now apply N1]. intros e v [<-|I].
        * intros Q. destruct (registers_object _ _ _ _ _ _ Q) as (n & E). apply (R v). apply (registers_grows (w_mods w1)  (w_mods w2)); eauto.
        * now apply N.
  Qed.

  Lemma root_wf name ns : wf (w_mods (new_root name ns)).
  Proof.
    cbn [new_root set_mods w_mods]. set (m := new_module _ _ _ _).
    split.
    - exists m. split; reflexivity.
    - intros [|[|i]] x E _; [reflexivity|discriminate E|discriminate E].
    - intros [|[|i]] x j E P; [|discriminate E|discriminate E]. injection E as <-. discriminate P.
    - intros [|[|i]] x j E I; [|discriminate E|discriminate E]. injection E as <-. destruct I.
    - intros [|[|i]] x E; [|discriminate E|discriminate E]. injection E as <-. constructor.
  Qed.

  Lemma lookup_script name ns cs w tr a k v : run make p cs (new_root name ns) = (w, tr) ->
    (lookup a k w = Some v <->
     exists tr1 e tr2, tr = tr1 ++ e :: tr2 /\ registers (w_mods w) e a k v /\ forall e' v', In e' tr2 -> ~ registers (w_mods w) e' a k v').
  Proof.
    intros H. destruct (run_lookup cs _ _ _ (root_wf name ns) H) as (_ & _ & K). destruct (K a k) as [(v0 & t1 & e & t2 & -> & R & L & Q)|(N & Q)].
    - rewrite Q. split.
      + intros X. injection X as <-. exists t1, e, t2. auto.
      + intros (s1 & e' & s2 & E & R' & L'). f_equal.
        assert (D : t1 = s1 /\ e = e' /\ t2 = s2 \/ In e' t2 \/ In e s2).
        { clear -E. revert s1 E. induction t1 as [|x t1 IH]; intros [|y s1] E; cbn [app] in E.
          - injection E as -> ->. auto.
          - injection E as -> ->. right; left. apply in_or_app; right; now left.
          - injection E as -> <-. right; right. apply in_or_app; right; now left.
          - injection E as -> E. destruct (IH _ E) as [(-> & -> & ->)|[I|I]]; auto. }
        destruct D as [(-> & -> & ->)|[I|I]].
        * eapply registers_fun; eauto.
        * exfalso. eapply L; eauto.
        * exfalso. eapply L'; eauto.
    - assert (Z : lookup a k (new_root name ns) = None).
      { unfold lookup. cbn [new_root set_mods w_mods]. destruct a as [|[|a]]; reflexivity. }
      rewrite Q, Z. split; [discriminate|]. intros (s1 & e' & s2 & -> & R' & _). exfalso. eapply N; [|exact R']. apply in_or_app; right; now left.
  Qed.
  Lemma lookup_none name ns cs w tr a k : run make p cs (new_root name ns) = (w, tr) ->
    (lookup a k w = None <-> forall e v, In e tr -> ~ registers (w_mods w) e a k v).
  Proof.
    intros H. destruct (run_lookup cs _ _ _ (root_wf name ns) H) as (_ & _ & K). destruct (K a k) as [(v0 & t1 & e & t2 & -> & R & L & Q)|(N & Q)].
    - rewrite Q. split; [discriminate|]. intros X. exfalso. eapply X; [|exact R]. apply in_or_app; right; now left.
    - assert (Z : lookup a k (new_root name ns) = None).
      { unfold lookup. cbn [new_root set_mods w_mods]. destruct a as [|[|a]]; reflexivity. }
      rewrite Q, Z. split; auto.
  Qed.
End Names.
