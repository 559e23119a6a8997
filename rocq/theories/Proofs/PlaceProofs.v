From Verif.Model Require Import Py PyState Mangle Errors Overloading Module.
From Verif.Spec Require Import OverloadSpec ModuleSpec PolicySpec SectionSpec.
From Verif.Proofs Require Import StrLemmas OverloadProofs ModuleProofs ModuleSteps ModuleNames ModulePaths Steps GenSteps PruneProofs ScriptProofs EscapeTop.
From Coq Require Import Lia.
Open Scope string_scope.
Open Scope list_scope.
Open Scope st_scope.

(** ** Overloads write only about their own functions *)
Definition about (l : list fwrapper) (c : chunk) : Prop := match c with CFunction id _ _ => In id (map fw_id l) | _ => True end.
Lemma normalize_ids {W} (note : nat -> pyexc -> W -> W) p ws s s' ks : normalize_flags note p ws s = (s', Ok ks) -> incl (map fw_id ks) (map fw_id ws).
Proof.
  intros H. destruct (Nat.eq_dec (length ws) 1) as [L|L].
  - destruct ws as [|w [|w2 r]]; try discriminate L. cbn [normalize_flags] in H. unfold ret in H. replace ks with [w] by congruence. apply incl_refl.
  - destruct (normalize_cases note p ws s L) as [(k & t & Sv & N & _)|(w & e & t & _ & _ & N)]; rewrite N in H; [|discriminate].
    replace ks with (map force k) by congruence. intros x I. rewrite map_map in I. apply in_map_iff in I. destruct I as (u & <- & Iu).
    apply in_map_iff. exists u. split; [reflexivity|]. eapply survive_sub; eauto.
Qed.
Section Overload.
  Context {W : Type} (R : W -> W -> Prop) (Rrefl : forall s, R s s) (Rtrans : forall a b c, R a b -> R b c -> R a c).
  Context (note : nat -> pyexc -> W -> W) (Rnote : forall k e s, R s (note k e s)) (write : chunk -> W -> W).
  Lemma steps_bind_val {A B} (m : st W A) (f : A -> st W B) : steps R m -> (forall s s' a, m s = (s', Ok a) -> steps R (f a)) -> steps R (sbind m f).
  Proof.
    intros M F s. unfold sbind. specialize (M s). destruct (m s) as [s' [a|e]] eqn:E; cbn [fst] in *; [|exact M].
    exact (Rtrans _ _ _ M (F _ _ _ E s')).
  Qed.
  Lemma steps_overload_of p l : (forall c s, about l c -> R s (write c s)) -> steps R (generate_overload note write p l).
  Proof.
    intros Rw. unfold generate_overload. apply steps_bind_val; [now apply steps_normalize|]. intros s0 s1 ks N. apply normalize_ids in N.
    destruct ks as [|w r]; [now apply steps_raise|].
    destruct (match r with [] => negb (fw_needs_interface w) | _ => false end).
    - apply steps_bind; [exact Rtrans| |intros; now apply steps_ret]. apply steps_call; auto. unfold generate_wrapper.
      apply steps_bind; [exact Rtrans|now apply steps_lift|]. intros _. apply steps_modify. intros s. apply Rw. cbn [about]. apply N. now left.
    - apply steps_bind; [exact Rtrans|now apply steps_lift|]. intros f.
      assert (D : forall base l' n, incl (map fw_id l') (map fw_id l) -> steps R (generate_delegates note write p base n l')).
      { intros base l'. induction l' as [|u l' IH]; intros n I; cbn [generate_delegates]; [now apply steps_ret|].
        apply steps_bind; [exact Rtrans|apply steps_modify; intros s; apply Rw; exact Logic.I|]. intros _. apply steps_bind; [exact Rtrans| |].
        - apply steps_try; [exact Rtrans| |].
          + apply steps_bind; [exact Rtrans| |intros; now apply steps_ret]. apply steps_call; auto. unfold generate_wrapper.
            apply steps_bind; [exact Rtrans|now apply steps_lift|]. intros _. apply steps_modify. intros s. apply Rw. cbn [about force fw_id]. apply I. now left.
          + intros e. destruct (exc_eq_dec e SkipWrapper); [now apply steps_ret|now apply steps_raise].
        - intros ok. apply steps_bind; [exact Rtrans|apply IH; intros x Ix; apply I; now right|]. intros names. now apply steps_ret. }
      apply steps_bind; [exact Rtrans|now apply D|]. intros [|n ns]; [now apply steps_raise|].
      apply steps_bind; [exact Rtrans|apply steps_modify; intros s; apply Rw; exact Logic.I|]. intros _.
      apply steps_bind; [exact Rtrans|apply steps_modify; intros s; apply Rw; exact Logic.I|intros; now apply steps_ret].
  Qed.
End Overload.

(** ** Invariants of generation *)
Definition keeping (I : gstate -> Prop) (a b : gstate) : Prop := I a -> I b.
Definition keeps {A} (I : gstate -> Prop) (m : st gstate A) : Prop := steps (keeping I) m.
Lemma keeping_refl I a : keeping I a a.
Proof. exact (fun x => x). Qed.
Lemma keeping_trans I a b c : keeping I a b -> keeping I b c -> keeping I a c.
Proof. unfold keeping. auto. Qed.
Global Hint Resolve keeping_refl : core.
Lemma keeps_bind {A B} I (m : st gstate A) (f : A -> st gstate B) : keeps I m -> (forall a, keeps I (f a)) -> keeps I (sbind m f).
Proof. apply steps_bind. apply keeping_trans. Qed.
Lemma keeps_for {A} I (f : A -> st gstate unit) l : (forall x, In x l -> keeps I (f x)) -> keeps I (for_each f l).
Proof. apply steps_for; [apply keeping_refl|apply keeping_trans]. Qed.
Lemma keeps_ret {A} I (a : A) : keeps I (ret a).
Proof. intros g H. exact H. Qed.
Lemma keeps_raise {A} I e : keeps I (raise e : st gstate A).
Proof. intros g H. exact H. Qed.

(** The code is written to the file of the section; it has been started by then. *)
Lemma sink_again multi s g : sink_for multi s (fst (sink_for multi s g)) = (fst (sink_for multi s g), Ok (place multi s)).
Proof.
  unfold sink_for, place. destruct multi; [|reflexivity]. destruct s as [s|]; [|reflexivity]. destruct (mem s (g_started g)) eqn:M; cbn [fst]; [now rewrite M|].
  cbn [emit g_started mem existsb]. rewrite String.eqb_refl. reflexivity.
Qed.
Lemma sink_value multi s g : sink_for multi s g = (fst (sink_for multi s g), Ok (place multi s)).
Proof. unfold sink_for, place. destruct multi; [|reflexivity]. destruct s as [s|]; [|reflexivity]. destruct (mem s (g_started g)); reflexivity. Qed.
Lemma function_started p multi f g : gen_function p multi f (fst (sink_for multi (set_section_of f) g)) = gen_function p multi f g.
Proof. unfold gen_function. now rewrite (sbind_ok _ _ _ _ _ (sink_again multi _ g)), (sbind_ok _ _ _ _ _ (sink_value multi _ g)). Qed.
Lemma type_started multi t g : gen_type multi t (fst (sink_for multi (Some (ti_section t)) g)) = gen_type multi t g.
Proof. unfold gen_type. now rewrite (sbind_ok _ _ _ _ _ (sink_again multi _ g)), (sbind_ok _ _ _ _ _ (sink_value multi _ g)). Qed.

Section Inv.
  Context (p : policy) (multi : bool) (mods : list modul) (I : gstate -> Prop).
  Context (Imods : forall g, I g -> w_mods (g_world g) = mods).
  Context (Inote : forall k e g, I g -> I (gnote k e g)).

  Lemma the_place s : the_sink multi s = place multi s.
  Proof. unfold the_sink, place. destruct multi; [|reflexivity]. destruct s; reflexivity. Qed.

  Lemma keeps_function f : (forall g, I g -> I (fst (sink_for multi (set_section_of f) g))) ->
    (forall g, I g -> I (emit (place multi (set_section_of f)) PBlank g)) ->
    (forall c g, about (fs_wrappers f) c -> I g -> I (emit (place multi (set_section_of f)) (PChunk c) g)) ->
    (forall n g, I g -> I (emit SMain (PDeclare n) g)) -> keeps I (gen_function p multi f).
  Proof.
    intros Si Bl Ch De. unfold gen_function. intros g H. rewrite (sbind_ok _ _ _ _ _ (sink_value multi _ g)). specialize (Si g H).
    revert Si. generalize (fst (sink_for multi (set_section_of f) g)) as g1. clear g H. intros g H. revert g H.
    match goal with |- forall g, I g -> I (fst (?m g)) => change (keeps I m) end.
    apply keeps_bind; [apply steps_modify; exact Bl|]. intros _.
    apply keeps_bind.
    - apply steps_handled; try exact (keeping_refl I); try exact (keeping_trans I); try exact Inote.
      apply steps_overload_of; try exact (keeping_refl I); try exact (keeping_trans I); try exact Inote. intros c s A Is. now apply Ch.
    - intros [[ws b]|]; [|apply keeps_ret]. apply keeps_bind.
      + apply steps_handled; try exact (keeping_refl I); try exact (keeping_trans I); try exact Inote. apply keeps_bind.
        * apply steps_overload; try exact (keeping_refl I); try exact (keeping_trans I); try exact Inote. intros c s. apply keeping_refl.
        * intros x. apply keeps_bind; [apply steps_modify; intros g H; now apply De|]. intros _. apply keeps_ret.
      + intros [[ws' b']|]; [|apply keeps_ret]. apply keeps_bind; [apply steps_modify; exact Bl|]. intros _.
        apply keeps_bind; [apply steps_row; try exact (keeping_refl I); try exact (keeping_trans I); try exact Inote|]. intros r. apply keeps_ret.
  Qed.
  Lemma keeps_type t : (forall g, I g -> I (fst (sink_for multi (Some (ti_section t)) g))) ->
    let k := place multi (Some (ti_section t)) in
    (forall g, I g -> I (emit k PBlank g)) ->
    (forall x g, In (AText x) (ti_body t) -> I g -> I (emit k (PText x (ti_id t)) g)) ->
    (forall n pr g, In (AOnce n pr) (ti_body t) -> mem n (w_once (g_world g)) = false -> I g -> I (once n pr k g)) ->
    (forall n g, ti_claim t = Some n -> I g -> I (emit k (PDefine n) g)) ->
    keeps I (gen_type multi t).
  Proof.
    cbv zeta. intros Si Bl T O C. unfold gen_type. intros g H. rewrite (sbind_ok _ _ _ _ _ (sink_value multi _ g)). specialize (Si g H).
    revert Si. generalize (fst (sink_for multi (Some (ti_section t)) g)) as g1. clear g H. intros g H. revert g H.
    match goal with |- forall g, I g -> I (fst (?m g)) => change (keeps I m) end.
    apply keeps_bind; [apply steps_modify; exact Bl|]. intros _. apply keeps_bind.
    - apply keeps_for. intros a Ia. apply steps_action; [exact (keeping_refl I)| |].
      + intros x -> g H. now apply T.
      + intros n pr g -> M H. now apply O.
    - intros _. apply keeps_bind; [|intros _; apply steps_modify; exact Bl]. destruct (ti_claim t) as [n|]; [|apply keeps_ret].
      apply steps_modify. intros g H. now apply C.
  Qed.
  Lemma keeps_forward_type t :
    (forall x g, In (AText x) (ti_forward t) -> I g -> I (emit SHeader (PForward x (ti_id t)) g)) ->
    (forall n pr g, In (AOnce n pr) (ti_forward t) -> mem n (w_once (g_world g)) = false -> I g -> I (once n pr SHeader g)) ->
    (forall n g, ti_claim t = Some n -> mem n (w_once (g_world g)) = false -> I g -> I (emit SHeader (PProto n) (claim_state n g))) ->
    keeps I (forward_type t).
  Proof.
    intros T O C. apply steps_forward_type; try exact (keeping_refl I); try exact (keeping_trans I).
    - intros x Ix g H. now apply T.
    - intros n pr g In_ M H. now apply (O n pr).
    - intros n g E M H. now apply C.
  Qed.

  Lemma keeps_gmod i {B} (f : modul -> st gstate B) : (forall m, nth_error mods i = Some m -> keeps I (f m)) -> keeps I (sbind (get_gmod i) f).
  Proof.
    intros F g H. unfold sbind, get_gmod. rewrite (Imods g H). destruct (nth_error mods i) as [m|] eqn:E; [|exact H]. exact (F m eq_refl g H).
  Qed.
  Lemma keeps_forward : (forall i m t, nth_error mods i = Some m -> In t (m_types m) -> keeps I (forward_type t)) ->
    forall fuel i, keeps I (forward_module fuel i).
  Proof.
    intros F. induction fuel as [|fuel IH]; intros i; cbn [forward_module]; [apply keeps_raise|]. apply keeps_gmod. intros m E. apply keeps_bind.
    - apply keeps_for. intros t It. eapply F; [exact E|now apply ordered_in].
    - intros _. apply keeps_for. intros j _. apply IH.
  Qed.
  Lemma keeps_module : (forall i m f, nth_error mods i = Some m -> In f (m_functions m) -> keeps I (gen_function p multi f)) ->
    (forall i m t, nth_error mods i = Some m -> In t (m_types m) -> keeps I (gen_type multi t)) ->
    (forall pre rows g, I g -> I (emit SMain (PTable pre rows) g)) -> (forall pre subs g, I g -> I (emit SMain (PInit pre subs) g)) ->
    keeps I flush_header -> forall fuel i, keeps I (gen_module p multi fuel i).
  Proof.
    intros F T Ta In_ Fl. induction fuel as [|fuel IH]; intros i; cbn [gen_module]; [apply keeps_raise|]. apply keeps_gmod. intros m E.
    apply keeps_bind; [apply keeps_for; intros j _; apply IH|]. intros _. apply keeps_bind.
    { assert (Q : forall l, incl l (m_functions m) -> keeps I (gen_functions p multi l)).
      { induction l as [|f l IHl]; intros Il; cbn [gen_functions]; [apply keeps_ret|]. apply keeps_bind; [eapply F; [exact E|apply Il; now left]|].
        intros a. apply keeps_bind; [apply IHl; intros x Ix; apply Il; now right|]. intros rows. apply keeps_ret. }
      apply Q, incl_refl. }
    intros rows. apply keeps_bind; [apply steps_modify; intros g H; now apply Ta|]. intros _.
    apply keeps_bind; [apply keeps_for; intros t It; eapply T; [exact E|now apply ordered_in]|]. intros _.
    apply keeps_bind; [apply keeps_for; intros t It; eapply T; [exact E|apply filter_In in It; tauto]|]. intros _.
    apply keeps_bind; [exact Fl|]. intros _. apply keeps_bind; [intros g H; exact H|]. intros subs. apply steps_modify. intros g H. now apply In_.
  Qed.
End Inv.

(** ** Placement *)
Definition placed_in (w : world) (multi : bool) (x : sink * piece) : Prop :=
  let k := fst x in
  match snd x with
  | PBlank => True
  | PCommonHeader => multi = true /\ (k = SMain \/ exists s, s <> "__main__" /\ k = SSection s)
  | PInclude s => k = SHeader /\ exists l, w_includes w = Some l /\ In s l
  | PChunk c => exists f, in_tree m_functions w f /\ k = place multi (set_section_of f) /\ about (fs_wrappers f) c
  | PDeclare _ | PTable _ _ | PInit _ _ => k = SMain
  | PForward t id => k = SHeader /\ exists x, in_tree m_types w x /\ ti_id x = id /\ In (AText t) (ti_forward x)
  | PText t id => exists x, in_tree m_types w x /\ ti_id x = id /\ In (AText t) (ti_body x) /\ k = file_of multi (ti_section x)
  | PProto _ => k = SHeader
  | PDefine n => exists x, in_tree m_types w x /\
      ((k = SHeader /\ exists b, In (AOnce n b) (ti_forward x)) \/
       (k = file_of multi (ti_section x) /\ (ti_claim x = Some n \/ exists b, In (AOnce n b) (ti_body x))))
  end.
Section Placement.
  Context (p : policy) (multi : bool) (w : world).
  Notation ok := (placed_in w multi).
  Definition well_placed (g : gstate) : Prop :=
    w_mods (g_world g) = w_mods w /\ Forall ok (g_out g) /\ (forall x, In x (g_header g) -> ok (SHeader, x)) /\ In "__main__" (g_started g).
  Lemma wp_emit k x g : ok (k, x) -> well_placed g -> well_placed (emit k x g).
  Proof. intros O (A & B & C & D). split; [exact A|]. split; [apply Forall_app; auto|]. auto. Qed.
  Lemma wp_sink s g : well_placed g -> well_placed (fst (sink_for multi s g)).
  Proof.
    intros H. unfold sink_for. destruct multi eqn:Mu; [|exact H]. destruct s as [s|]; [|exact H]. destruct (mem s (g_started g)) eqn:M; [exact H|]. cbn [fst].
    destruct H as (A & B & C & D). split; [exact A|]. split; [cbn; apply Forall_app; split; [exact B|]|split; [exact C|now right]].
    constructor; [|constructor]. cbn. split; [exact Mu|]. right. exists s. split; [|reflexivity]. intros ->. apply mem_false in M. now apply M.
  Qed.
  Lemma wp_once n pr k g : ok (k, PDefine n) -> well_placed g -> well_placed (once n pr k g).
  Proof.
    intros O (A & B & C & D). split; [exact A|]. split; [cbn; apply Forall_app; auto|]. split; [|exact D].
    cbn. intros x I. apply in_app_or in I. destruct I as [I|I]; [auto|]. destruct pr; [|destruct I]. destruct I as [<-|[]]. reflexivity.
  Qed.
  Lemma wp_flush : keeps well_placed flush_header.
  Proof.
    intros g (A & B & C & D). unfold flush_header. cbn [fst]. split; [exact A|]. split; [cbn; apply Forall_app; split; [exact B|]|split; [contradiction|exact D]].
    apply Forall_forall. intros x I. apply in_map_iff in I. destruct I as (y & <- & I). auto.
  Qed.
  Lemma wp_forward fuel i : keeps well_placed (forward_module fuel i).
  Proof.
    eapply (keeps_forward (w_mods w)); [intros g H; apply H|]. intros j m t E I. apply keeps_forward_type.
    - intros x g Ix. apply wp_emit. split; [reflexivity|]. exists t. split; [exists j, m; auto|auto].
    - intros n pr g In_ _. apply wp_once. exists t. split; [exists j, m; auto|]. left. eauto.
    - intros n g _ _ (A & B & C & D). split; [exact A|]. split; [cbn; apply Forall_app; split; [exact B|constructor; [reflexivity|constructor]]|]. auto.
  Qed.
  Lemma wp_module fuel i : keeps well_placed (gen_module p multi fuel i).
  Proof.
    eapply (keeps_module p multi (w_mods w)).
    - intros g H. apply H.
    - intros j m f E I. apply keeps_function.
      + intros k e g H. exact H.
      + intros g. apply wp_sink.
      + intros g. apply wp_emit. exact Logic.I.
      + intros c g A. apply wp_emit. exists f. split; [exists j, m; auto|]. auto.
      + intros n g. apply wp_emit. reflexivity.
    - intros j m t E I. apply keeps_type.
      + intros g. apply wp_sink.
      + intros g. apply wp_emit. exact Logic.I.
      + intros x g Ix. apply wp_emit. exists t. split; [exists j, m; auto|]. auto.
      + intros n pr g In_ _. apply wp_once. exists t. split; [exists j, m; auto|]. right. split; [reflexivity|]. right. eauto.
      + intros n g Cl. apply wp_emit. exists t. split; [exists j, m; auto|]. right. split; [reflexivity|]. now left.
    - intros pre rows g. apply wp_emit. reflexivity.
    - intros pre subs g. apply wp_emit. reflexivity.
    - apply wp_flush.
  Qed.
  Lemma placement g r : generate p multi w = (g, r) -> Forall ok (g_out g).
  Proof.
    unfold generate. set (g0 := mk_gstate w _ _ _). intros H.
    assert (W0 : well_placed g0).
    { split; [reflexivity|]. split; [cbn; destruct multi eqn:E; [|constructor]|split; [contradiction|now left]]. constructor; [|constructor]. cbn. split; [reflexivity|now left]. }
    assert (K : well_placed (fst (gen_root p multi g0))).
    { unfold gen_root. rewrite (sbind_ok _ _ _ _ _ (eq_refl : gets g_world g0 = (g0, Ok w))). destruct (w_includes w) as [incs|] eqn:Inc; [|exact W0].
      unfold captured at 1. unfold sbind at 1.
      assert (W1 : well_placed (with_out [] g0)) by (destruct W0 as (A & B & C & D); split; [exact A|split; [constructor|auto]]).
      pose proof (wp_forward (length (w_mods w)) 0 _ W1) as W2. destruct (forward_module (length (w_mods w)) 0 (with_out [] g0)) as [g1 [a|e]] eqn:F; cbn [fst] in W2.
      - set (g2 := with_out (g_out g0) g1). assert (W3 : well_placed g2).
        { destruct W0 as (A & B & C & D), W2 as (A' & B' & C' & D'). split; [exact A'|]. split; [exact B|]. auto. }
        revert W3. generalize g2. clear g2. intros g2 W3.
        match goal with |- well_placed (fst (?m g2)) => assert (Kp : keeps well_placed m); [|exact (Kp g2 W3)] end.
        apply keeps_bind.
        + apply keeps_for. intros s Is. apply steps_modify. intros g' Hg. apply wp_emit; [|exact Hg]. split; [reflexivity|]. exists incs. auto.
        + intros _. apply keeps_bind; [apply steps_modify; intros g' (A & B & C & D); split; [exact A|]; auto|]. intros _.
          apply keeps_bind; [|intros _; apply wp_module]. apply steps_modify. intros g' (A & B & C & D). split; [exact A|]. split; [cbn; apply Forall_app; split; [exact B|apply W2]|]. auto.
      - cbn [fst]. destruct W0 as (A & B & C & D), W2 as (A' & B' & C' & D'). split; [exact A'|]. split; [exact B|]. auto. }
    rewrite H in K. apply K.
  Qed.
End Placement.

Section Top.
  Context {V : Type} (make : list string -> list (string * string) -> res V).
  Lemma declared_set p0 name ns cs w tr f : run make p0 cs (new_root name ns) = (w, tr) -> in_tree m_functions w f ->
    exists i d0 s0 ds, functions_named i (fs_name f) tr = (d0, s0) :: ds /\ set_section_of f = Some s0 /\ map fw_id (fs_wrappers f) = map (fun y => fd_id (fst y)) ((d0, s0) :: ds).
  Proof.
    intros H (i & m & E & I). destruct (script_sets make p0 name ns cs w tr i m H E) as (_ & F & _). destruct (F f I) as (Fa & NE). exists i.
    destruct (fs_wrappers f) as [|u us] eqn:Fw; [now destruct NE|]. inversion Fa as [|x ? l ? Wu Wl El Er]. subst.
    destruct x as [d0 s0]. exists d0, s0, l. split; [reflexivity|]. split.
    - unfold set_section_of. rewrite Fw. f_equal. apply Wu.
    - cbn [map]. f_equal; [apply Wu|]. clear -Wl. induction Wl as [|x y l l' (A & _) _ IH]; cbn [map]; [reflexivity|]. now rewrite A, IH.
  Qed.
  Lemma declared_type p0 name ns cs w tr t : run make p0 cs (new_root name ns) = (w, tr) -> in_tree m_types w t ->
    exists i d full s, In (d, full, s) (types_in i tr) /\ describes (d, full, s) t.
  Proof.
    intros H (i & m & E & I). destruct (script_sets make p0 name ns cs w tr i m H E) as (_ & _ & D & _). exists i.
    revert I. induction D as [|[[d full] s] y l l' Q _ IH]; intros I; [destruct I|]. destruct I as [<-|I].
    - exists d, full, s. split; [now left|exact Q].
    - destruct (IH I) as (d' & f' & s' & J & Q'). exists d', f', s'. split; [now right|exact Q'].
  Qed.
  Theorem script_placement p0 name ns cs w tr p multi g r : run make p0 cs (new_root name ns) = (w, tr) -> generate p multi w = (g, r) ->
    forall x, In x (g_out g) -> placed tr multi x.
  Proof.
    intros H G [k x] I. pose proof (placement p multi w g r G) as P. rewrite Forall_forall in P. specialize (P _ I). clear I.
    unfold placed, placed_in in *. cbn [fst snd] in *. destruct x; try exact P.
    - destruct P as (A & l & B & C). split; [exact A|]. destruct (script_fields make p0 _ _ _ _ _ H) as (_ & _ & _ & X). rewrite X in B.
      apply first_in. congruence.
    - destruct P as (f & T & -> & A). destruct (declared_set _ _ _ _ _ _ _ H T) as (i & d0 & s0 & ds & E & S & M).
      exists i, (fs_name f), d0, s0, ds. split; [exact E|]. split; [rewrite S; reflexivity|]. destruct c; auto. unfold about in A. now rewrite M in A.
    - destruct P as (-> & y & T & <- & A). split; [reflexivity|]. destruct (declared_type _ _ _ _ _ _ _ H T) as (i & d & full & s & J & Q).
      exists i, d, full, s. unfold describes in Q. cbn [fst snd] in Q. destruct Q as (Q1 & _ & _ & _ & _ & _ & _ & Q8 & _). rewrite Q8 in A. auto.
    - destruct P as (y & T & <- & A & ->). destruct (declared_type _ _ _ _ _ _ _ H T) as (i & d & full & s & J & Q).
      exists i, d, full, s. unfold describes in Q. cbn [fst snd] in Q. destruct Q as (Q1 & _ & _ & _ & Q5 & _ & _ & _ & Q9). rewrite Q9 in A. rewrite Q5. auto.
    - destruct P as (y & T & A). destruct (declared_type _ _ _ _ _ _ _ H T) as (i & d & full & s & J & Q).
      exists i, d, full, s. unfold describes in Q. cbn [fst snd] in Q. destruct Q as (Q1 & _ & _ & _ & Q5 & _ & Q7 & Q8 & Q9).
      rewrite Q5, Q7, Q8, Q9 in A. auto.
  Qed.
End Top.
