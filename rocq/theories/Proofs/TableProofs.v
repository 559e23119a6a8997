From Verif.Model Require Import Py PyState Mangle Errors Overloading Module.
From Verif.Spec Require Import OverloadSpec ModuleSpec PolicySpec SectionSpec TableSpec.
From Verif.Proofs Require Import StrLemmas OverloadProofs ModuleProofs ModuleSteps ModuleNames ModulePaths Steps GenSteps PruneProofs EscapeProofs ScriptProofs EscapeTop OfferProofs PlaceProofs OnceProofs CompleteProofs.
From Coq Require Import Lia Permutation.
Open Scope string_scope.
Open Scope list_scope.
Open Scope st_scope.

Lemma nodup_app {A} (l l' : list A) : NoDup l -> NoDup l' -> (forall x, In x l -> In x l' -> False) -> NoDup (l ++ l').
Proof.
  induction 1 as [|x l N _ IH]; intros N' D; [exact N'|]. cbn [app]. constructor.
  - intros I. apply in_app_or in I. destruct I as [I|I]; [contradiction|]. exact (D x (or_introl eq_refl) I).
  - apply IH; [exact N'|]. intros y Y Y'. exact (D y (or_intror Y) Y').
Qed.
(** * The order of generation *)
Section Order.
  Context (mods : list modul) (W : wf mods).
  Fixpoint postorder (fuel i : nat) : list nat :=
    match fuel with
    | O => []
    | Datatypes.S f => match nth_error mods i with
                       | Some m => flat_map (postorder f) (m_submodules m) ++ [i]
                       | None => []
                       end
    end.
  Lemma below_le i j : below mods i j -> i <= j.
  Proof.
    induction 1 as [i|i m j k E I B IH]; [lia|]. destruct (wf_sub _ W _ _ _ E I) as (mj & Ej & P). destruct (wf_parent _ W _ _ _ Ej P) as (L & _). lia.
  Qed.
  Lemma below_cut i k : below mods i k -> k = i \/ exists m j, nth_error mods k = Some m /\ m_parent m = Some j /\ below mods i j.
  Proof.
    induction 1 as [i|i m j k E I B IH]; [now left|]. right. destruct (wf_sub _ W _ _ _ E I) as (mj & Ej & P). destruct IH as [->|(mk & l & Ek & Pk & Bl)].
    - exists mj, i. repeat split; auto. constructor.
    - exists mk, l. repeat split; auto. econstructor; eauto.
  Qed.
  Lemma below_chain k : forall a b, below mods a k -> below mods b k -> below mods a b \/ below mods b a.
  Proof.
    induction k as [k IH] using lt_wf_ind. intros a b A B. destruct (below_cut _ _ A) as [->|(m & j & E & P & A')]; [now right|].
    destruct (below_cut _ _ B) as [->|(m' & j' & E' & P' & B')]; [now left|]. assert (j' = j) by congruence. subst j'.
    destruct (wf_parent _ W _ _ _ E P) as (L & _). exact (IH j L a b A' B').
  Qed.
  Lemma siblings_apart i m a b k : nth_error mods i = Some m -> In a (m_submodules m) -> In b (m_submodules m) -> below mods a k -> below mods b k -> a = b.
  Proof.
    intros E Ia Ib A B. assert (Q : forall a b, In a (m_submodules m) -> In b (m_submodules m) -> below mods a b -> a = b).
    { clear -W E. intros a b Ia Ib A. destruct (below_cut _ _ A) as [->|(mb & j & Eb & P & A')]; [reflexivity|]. exfalso.
      destruct (wf_sub _ W _ _ _ E Ib) as (mb' & Eb' & P'). assert (j = i) by congruence. subst j. apply below_le in A'.
      destruct (wf_sub _ W _ _ _ E Ia) as (ma & Ea & Pa). destruct (wf_parent _ W _ _ _ Ea Pa) as (L & _). lia. }
    destruct (below_chain k a b A B) as [X|X]; [auto|symmetry; auto].
  Qed.
  Lemma postorder_below fuel : forall i k, In k (postorder fuel i) -> below mods i k /\ k < length mods.
  Proof.
    induction fuel as [|fuel IH]; intros i k I; cbn [postorder] in I; [destruct I|]. destruct (nth_error mods i) as [m|] eqn:E; [|destruct I].
    apply in_app_or in I. destruct I as [I|[->|[]]].
    - apply in_flat_map in I. destruct I as (j & J & I). destruct (IH _ _ I) as (B & L). split; [econstructor; eauto|exact L].
    - split; [constructor|now apply nth_valid in E].
  Qed.
  Lemma postorder_nodup fuel : forall i, NoDup (postorder fuel i).
  Proof.
    induction fuel as [|fuel IH]; intros i; cbn [postorder]; [constructor|]. destruct (nth_error mods i) as [m|] eqn:E; [|constructor].
    assert (Q : NoDup (flat_map (postorder fuel) (m_submodules m))).
    { pose proof (wf_nodup _ W _ _ E) as N. assert (Sub : incl (m_submodules m) (m_submodules m)) by apply incl_refl. revert Sub N. generalize (m_submodules m) at 1 3 4 as l.
      induction l as [|a l IHl]; intros Sub N; cbn [flat_map]; [constructor|]. inversion N as [|x y Na Nl]. subst. apply nodup_app; [apply IH|apply IHl; auto; intros x X; apply Sub; now right|].
      intros x X Y. apply in_flat_map in Y. destruct Y as (b & Ib & Y). apply postorder_below in X, Y. destruct X as (X & _), Y as (Y & _).
      assert (a = b) by (eapply siblings_apart; eauto; apply Sub; [now left|now right]). subst b. contradiction. }
    apply nodup_app; [exact Q|repeat constructor; auto|]. intros x X [<-|[]]. apply in_flat_map in X. destruct X as (j & J & X). apply postorder_below in X. destruct X as (X & _).
    apply below_le in X. destruct (wf_sub _ W _ _ _ E J) as (mj & Ej & P). destruct (wf_parent _ W _ _ _ Ej P) as (L & _). lia.
  Qed.
  Lemma postorder_all fuel : forall i k, below mods i k -> k < length mods -> k - i < fuel -> In k (postorder fuel i).
  Proof.
    induction fuel as [|fuel IH]; intros i k B L F; [lia|]. cbn [postorder]. destruct B as [i|i m j k E I B].
    - destruct (valid_nth mods i L) as (m & ->). apply in_or_app. right. now left.
    - rewrite E. apply in_or_app. left. apply in_flat_map. exists j. split; [exact I|]. apply IH; auto.
      destruct (wf_sub _ W _ _ _ E I) as (mj & Ej & P). destruct (wf_parent _ W _ _ _ Ej P) as (Lj & _). apply below_le in B. lia.
  Qed.
  Lemma postorder_perm : Permutation (postorder (length mods) 0) (seq 0 (length mods)).
  Proof.
    apply NoDup_Permutation; [apply postorder_nodup|apply seq_NoDup|]. intros k. rewrite in_seq. split.
    - intros I. apply postorder_below in I. lia.
    - intros (_ & L). apply postorder_all; [|lia|lia]. eapply wf_below; eauto.
  Qed.
End Order.

(** * The tables written *)
Definition plain_piece (x : piece) : Prop := match x with PTable _ _ | PInit _ _ => False | _ => True end.
Lemma tables_app a b : tables (a ++ b) = tables a ++ tables b.
Proof. unfold tables. apply flat_map_app. Qed.
Lemma inits_app a b : initialisations (a ++ b) = initialisations a ++ initialisations b.
Proof. unfold initialisations. apply flat_map_app. Qed.
Lemma tables_plain l : Forall (fun x => plain_piece (snd x)) l -> tables l = [] /\ initialisations l = [].
Proof. induction 1 as [|x l H _ (IH1 & IH2)]; [split; reflexivity|]. unfold tables, initialisations in *. cbn [flat_map]. rewrite IH1, IH2. destruct (snd x); try contradiction; split; reflexivity. Qed.

Section Tables.
  Context (p : policy) (multi : bool) (mods : list modul).
  Definition holds (T : list (string * list row)) (N : list (string * list (string * string))) (g : gstate) : Prop :=
    w_mods (g_world g) = mods /\ tables (g_out g) = T /\ initialisations (g_out g) = N /\ Forall plain_piece (g_header g).
  Lemma holds_add T N g g' l : holds T N g -> w_mods (g_world g') = w_mods (g_world g) -> g_out g' = g_out g ++ l -> Forall (fun x => plain_piece (snd x)) l -> Forall plain_piece (g_header g') -> holds T N g'.
  Proof.
    intros (A & B & C & D) M O Pl H. destruct (tables_plain _ Pl) as (Q1 & Q2). split; [congruence|]. rewrite O, tables_app, inits_app, Q1, Q2, !app_nil_r. auto.
  Qed.
  Lemma holds_emit T N k x g : plain_piece x -> holds T N g -> holds T N (emit k x g).
  Proof. intros P H. eapply (holds_add T N g _ [(k, x)] H); [reflexivity|reflexivity|repeat constructor; exact P|apply H]. Qed.
  Lemma holds_once T N n pr k g : holds T N g -> holds T N (once n pr k g).
  Proof.
    intros H. eapply (holds_add T N g _ [(k, PDefine n)] H); [reflexivity|reflexivity|repeat constructor|]. cbn. apply Forall_app. split; [apply H|destruct pr; repeat constructor].
  Qed.
  Lemma holds_sink T N s g : holds T N g -> holds T N (fst (sink_for multi s g)).
  Proof.
    intros H. unfold sink_for. destruct multi; [|exact H]. destruct s as [s|]; [|exact H]. destruct (mem s (g_started g)); [exact H|]. cbn [fst].
    apply holds_emit; [exact Logic.I|exact H].
  Qed.
  Lemma holds_function T N f : keeps (holds T N) (gen_function p multi f).
  Proof.
    apply keeps_function; intros.
    - assumption.
    - now apply holds_sink.
    - now apply holds_emit.
    - now apply holds_emit.
    - now apply holds_emit.
  Qed.
  Lemma holds_functions T N l : keeps (holds T N) (gen_functions p multi l).
  Proof.
    induction l as [|f l IH]; cbn [gen_functions]; [apply keeps_ret|]. apply keeps_bind; [apply holds_function|]. intros a. apply keeps_bind; [exact IH|]. intros rows. apply keeps_ret.
  Qed.
  Lemma holds_type T N t : keeps (holds T N) (gen_type multi t).
  Proof.
    apply keeps_type; intros.
    - now apply holds_sink.
    - now apply holds_emit.
    - now apply holds_emit.
    - now apply holds_once.
    - now apply holds_emit.
  Qed.
  Lemma holds_flush T N : keeps (holds T N) flush_header.
  Proof.
    intros g H. unfold flush_header. cbn [fst]. eapply (holds_add T N g _ (map (fun x => (SHeader, x)) (g_header g)) H); [reflexivity|reflexivity| |constructor].
    destruct H as (_ & _ & _ & H). induction H; cbn [map]; constructor; auto.
  Qed.
  Definition made (g' : gstate) (i : nat) (x : string * list row) : Prop :=
    exists m ga gb, nth_error mods i = Some m /\ fst x = m_prefix m /\ gen_functions p multi (m_functions m) ga = (gb, Ok (snd x)) /\ grows gb g'.
  Lemma made_grows g g' i x : grows g g' -> made g i x -> made g' i x.
  Proof. intros G (m & ga & gb & A & B & C & D). exists m, ga, gb. split; [exact A|]. split; [exact B|]. split; [exact C|]. exact (grows_trans _ _ _ D G). Qed.
  Definition registers (i : nat) (x : string * list (string * string)) : Prop :=
    exists m, nth_error mods i = Some m /\ fst x = m_prefix m /\
    snd x = flat_map (fun j => match nth_error mods j with Some s => [("init" ++ m_prefix s, m_name s)%string] | None => [] end) (m_submodules m).
  Lemma forall2_mono {A B} (P Q : A -> B -> Prop) l l' : (forall a b, P a b -> Q a b) -> Forall2 P l l' -> Forall2 Q l l'.
  Proof. intros PQ. induction 1; constructor; auto. Qed.
  Lemma module_tables fuel : forall i T N g g' u, holds T N g -> gen_module p multi fuel i g = (g', Ok u) ->
    exists T' N', holds (T ++ T') (N ++ N') g' /\ Forall2 (made g') (postorder mods fuel i) T' /\ Forall2 registers (postorder mods fuel i) N'.
  Proof.
    induction fuel as [|fuel IH]; intros i T N g g' u H0 H; cbn [gen_module] in H; [discriminate|]. cbn [postorder].
    apply bind_inv in H. destruct H as (g0 & mi & Gm & H). unfold get_gmod in Gm. pose proof H0 as (M & _). rewrite M in Gm.
    destruct (nth_error mods i) as [mi'|] eqn:Ni; [|discriminate]. assert (g0 = g /\ mi' = mi) as [-> ->] by (split; congruence). clear Gm.
    apply bind_inv in H. destruct H as (g1 & [] & H1 & H).
    assert (X : exists T' N', holds (T ++ T') (N ++ N') g1 /\ Forall2 (made g1) (flat_map (postorder mods fuel) (m_submodules mi)) T' /\ Forall2 registers (flat_map (postorder mods fuel) (m_submodules mi)) N').
    { clear H M. revert T N g g1 H0 H1. induction (m_submodules mi) as [|j l IHl]; intros T N g g1 H0 H1; cbn [for_each flat_map] in *.
      - exists [], []. rewrite !app_nil_r. replace g1 with g by (unfold ret in H1; congruence). split; [exact H0|]. split; constructor.
      - apply bind_inv in H1. destruct H1 as (g2 & [] & Ha & Hb). destruct (IH _ _ _ _ _ _ H0 Ha) as (T1 & N1 & H2 & F1 & F2).
        destruct (IHl _ _ _ _ H2 Hb) as (T2 & N2 & H3 & F3 & F4). exists (T1 ++ T2), (N1 ++ N2). rewrite !app_assoc. split; [exact H3|]. split.
        + apply Forall2_app; [|exact F3]. eapply forall2_mono; [|exact F1]. intros a b. apply made_grows. exact (step_of _ _ _ _ (grows_for _ _ (grows_module p multi fuel)) Hb).
        + apply Forall2_app; assumption. }
    destruct X as (T1 & N1 & Hs & F1 & F2).
    apply bind_inv in H. destruct H as (g2 & rows & H2 & H). pose proof (step_of _ _ _ _ (grows_functions p multi _) H2) as C2. pose proof (holds_functions _ _ (m_functions mi) g1 Hs) as K2. rewrite H2 in K2. cbn [fst] in K2.
    apply bind_inv in H. destruct H as (g3 & [] & H3 & H).
    assert (E3 : g3 = emit SMain (PTable (m_prefix mi) rows) g2) by (unfold put, modify in H3; congruence).
    assert (K3 : holds ((T ++ T1) ++ [(m_prefix mi, rows)]) (N ++ N1) g3).
    { subst g3. destruct K2 as (A & B & C & D). split; [exact A|]. cbn [emit g_out]. rewrite tables_app, inits_app, B, C. cbn. rewrite app_nil_r. auto. }
    apply bind_inv in H. destruct H as (g4 & [] & H4 & H).
    assert (K4 : holds ((T ++ T1) ++ [(m_prefix mi, rows)]) (N ++ N1) g4).
    { pose proof (keeps_for (holds ((T ++ T1) ++ [(m_prefix mi, rows)]) (N ++ N1)) (gen_type multi) (ordered (m_types mi)) (fun t _ => holds_type _ _ t) g3 K3) as K. now rewrite H4 in K. }
    apply bind_inv in H. destruct H as (g5 & [] & H5 & H).
    assert (K5 : holds ((T ++ T1) ++ [(m_prefix mi, rows)]) (N ++ N1) g5).
    { pose proof (keeps_for (holds ((T ++ T1) ++ [(m_prefix mi, rows)]) (N ++ N1)) (gen_type multi) (filter (of_kind KEnum) (m_types mi)) (fun t _ => holds_type _ _ t) g4 K4) as K. now rewrite H5 in K. }
    apply bind_inv in H. destruct H as (g6 & [] & H6 & H). pose proof (holds_flush _ _ _ K5) as K6. rewrite H6 in K6. cbn [fst] in K6.
    unfold gets in H. rewrite (sbind_ok (fun s => (s, Ok _)) _ g6 g6 _ eq_refl) in H.
    pose proof (step_of _ _ _ _ (grows_put SMain (PTable (m_prefix mi) rows)) H3) as C3.
    pose proof (step_of _ _ _ _ (grows_for _ _ (grows_type multi)) H4) as C4. pose proof (step_of _ _ _ _ (grows_for _ _ (grows_type multi)) H5) as C5.
    pose proof (step_of _ _ _ _ grows_flush H6) as C6. pose proof (step_of _ _ _ _ (grows_put SMain _) H) as C7.
    pose proof (grows_trans _ _ _ C3 (grows_trans _ _ _ C4 (grows_trans _ _ _ C5 (grows_trans _ _ _ C6 C7)))) as C. clear C3 C4 C5 C6 C7.
    assert (M6 : w_mods (g_world g6) = mods) by apply K6. rewrite M6 in H.
    exists (T1 ++ [(m_prefix mi, rows)]), (N1 ++ [(m_prefix mi, flat_map (fun j => match nth_error mods j with Some x => [("init" ++ m_prefix x, m_name x)%string] | None => [] end) (m_submodules mi))]).
    rewrite !app_assoc. split; [|split].
    - unfold put, modify in H. replace g' with (emit SMain (PInit (m_prefix mi) (flat_map (fun j => match nth_error mods j with Some x => [("init" ++ m_prefix x, m_name x)%string] | None => [] end) (m_submodules mi))) g6) by congruence.
      destruct K6 as (A & B & C' & D). split; [exact A|]. cbn [emit g_out g_header]. rewrite tables_app, inits_app, B, C'. cbn. rewrite app_nil_r. auto.
    - apply Forall2_app.
      + eapply forall2_mono; [|exact F1]. intros a b. apply made_grows. exact (grows_trans _ _ _ C2 C).
      + constructor; [|constructor]. exists mi, g1, g2. auto.
    - apply Forall2_app; [exact F2|]. constructor; [|constructor]. exists mi. auto.
  Qed.
End Tables.

Lemma holds_forward mods fuel : forall i T N, keeps (holds mods T N) (forward_module fuel i).
Proof.
  intros i T N. eapply (keeps_forward mods); [intros g H; apply H|]. intros j m t _ _. apply keeps_forward_type; intros.
  - now apply holds_emit.
  - now apply holds_once.
  - apply holds_emit; [exact Logic.I|]. assumption.
Qed.
Lemma generate_tables p multi w g : generate p multi w = (g, Ok tt) ->
  Forall2 (made p multi (w_mods w) g) (postorder (w_mods w) (length (w_mods w)) 0) (tables (g_out g)) /\
  Forall2 (registers (w_mods w)) (postorder (w_mods w) (length (w_mods w)) 0) (initialisations (g_out g)).
Proof.
  unfold generate. set (g1 := mk_gstate w _ _ _). intros H. unfold gen_root in H.
  rewrite (sbind_ok _ _ _ _ _ (eq_refl : gets g_world g1 = (g1, Ok w))) in H. destruct (w_includes w) as [incs|]; [|discriminate].
  apply bind_inv in H. destruct H as (g2 & fwd & Cp & H). unfold captured in Cp.
  destruct (forward_module (length (w_mods w)) 0 (with_out [] g1)) as [g0 [[]|]] eqn:F; [|discriminate].
  assert (g2 = with_out (g_out g1) g0 /\ fwd = g_out g0) as [-> ->] by (split; congruence). clear Cp.
  assert (K0 : holds (w_mods w) [] [] g0).
  { pose proof (holds_forward (w_mods w) (length (w_mods w)) 0 [] [] (with_out [] g1)) as K. rewrite F in K. apply K. repeat split. constructor. }
  apply bind_inv in H. destruct H as (g2 & [] & H2 & H).
  assert (K2 : holds (w_mods w) [] [] g2).
  { pose proof (keeps_for (holds (w_mods w) [] []) (fun s => put SHeader (PInclude s)) incs) as K. specialize (K (fun s _ => steps_modify _ _ (fun g => holds_emit (w_mods w) [] [] SHeader (PInclude s) g Logic.I))).
    specialize (K (with_out (g_out g1) g0)). rewrite H2 in K. apply K. destruct K0 as (A & _ & _ & D). split; [exact A|]. unfold with_out. cbn [g_out g_header].
    unfold g1. cbn [g_out]. destruct multi; repeat split; exact D. }
  unfold sbind at 1, modify at 1 in H. unfold sbind at 1, modify at 1 in H.
  match type of H with gen_module _ _ _ _ ?s = _ => set (g3 := s) in H end.
  assert (K3 : holds (w_mods w) [] [] g3).
  { destruct K0 as (_ & B0 & C0 & _), K2 as (A & B & C & D). split; [exact A|]. unfold g3, with_out, drop_includes. cbn [g_out g_header]. rewrite tables_app, inits_app, B, C, B0, C0. auto. }
  destruct (module_tables p multi (w_mods w) _ _ _ _ _ _ _ K3 H) as (T & N & (_ & E1 & E2 & _) & F1 & F2). cbn [app] in E1, E2. rewrite E1, E2. auto.
Qed.

(** * One function *)
Lemma call_ok {W A} (note : nat -> pyexc -> W -> W) p l k (m : st W A) s s' a : call_with_error_handling note p l k m s = (s', Ok a) -> m s = (s', Ok a).
Proof.
  unfold call_with_error_handling. destruct p as [h|]; [|auto]. unfold try_except. destruct (m s) as [s1 [x|e]]; [auto|].
  destruct (is_instance e l); [|discriminate]. unfold sbind. destruct (handle_error note h k e s1) as [s2 [[|]|]]; discriminate.
Qed.
Lemma handled_some {A} p k (m : st gstate A) g g' a : handled p k m g = (g', Ok (Some a)) -> m g = (g', Ok a).
Proof.
  unfold handled, try_except. intros H. destruct (call_with_error_handling gnote p generation_errors k m g) as [g1 [x|e]] eqn:C; unfold sbind in H; rewrite C in H.
  - apply (call_ok gnote p generation_errors k m g). unfold ret in H. rewrite C. congruence.
  - destruct (exc_eq_dec e SkipWrapper); discriminate.
Qed.
Lemma bind_out {W A B} (m : st W A) (f : A -> st W B) g g' b : sbind m f g = (g', Ok b) -> exists g1 a, m g = (g1, Ok a) /\ f a g1 = (g', Ok b).
Proof. unfold sbind. destruct (m g) as [g1 [a|e]]; [eauto|discriminate]. Qed.
Lemma overload_defines p k ws g g' ws' base : generate_overload gnote (write_to k) p ws g = (g', Ok (ws', base)) -> (exists c, In (k, PChunk c) (g_out g') /\ defines base c) /\ exists w r, ws' = w :: r /\ base = fw_base w.
Proof.
  unfold generate_overload. intros H. apply bind_out in H. destruct H as (g1 & l & _ & H). destruct l as [|w r]; [discriminate|].
  destruct (match r with [] => negb (fw_needs_interface w) | _ => false end).
  - apply bind_out in H. destruct H as (g2 & [] & C & H). apply call_ok in C. unfold generate_wrapper in C. apply bind_out in C. destruct C as (g3 & fl & _ & C).
    unfold modify in C. unfold ret in H. split; [|exists w, r; split; congruence]. exists (CFunction (fw_id w) (fw_base w) false). replace g' with (write_to k (CFunction (fw_id w) (fw_base w) false) g3) by congruence.
    replace base with (fw_base w) by congruence. split; [|reflexivity]. cbn. apply in_or_app. right. now left.
  - apply bind_out in H. destruct H as (g2 & fl & _ & H). apply bind_out in H. destruct H as (g3 & names & _ & H). destruct names as [|n names]; [discriminate|].
    unfold sbind, modify, ret in H. split; [|exists (force w), (map force r); split; [cbn [map] in H; congruence|cbn; congruence]].
    exists (CAggregator (fw_base w) (n :: names) (mem "METH_KEYWORDS" fl)).
    replace g' with (write_to k (CAggregator (fw_base w) (n :: names) (mem "METH_KEYWORDS" fl)) (write_to k CBlank g3)) by congruence.
    replace base with (fw_base w) by congruence. split; [|reflexivity]. cbn. apply in_or_app. right. now left.
Qed.

Lemma row_get {W} (note : nat -> pyexc -> W -> W) p l actual name s s' r : get_row note p l actual name s = (s', Ok r) ->
  row_name r = name /\ row_function r = actual /\ exists w rest f, l = w :: rest /\ get_flags w = Ok f /\ row_flags r = sorted f /\
  ((alone l /\ row_doc r = Some match fw_doc w with Some d => d | None => fw_autodoc w end) \/ (~ alone l /\ common_doc l (row_doc r))).
Proof.
  unfold get_row. destruct l as [|w rest]; [discriminate|]. destruct (match rest with [] => negb (fw_needs_interface w) | _ => false end) eqn:D.
  - intros H. apply bind_out in H. destruct H as (s1 & f & G & H). unfold lift in G. unfold ret in H.
    assert (E : r = mk_row name actual (sorted f) match fw_doc w with Some d => Some d | None => Some (fw_autodoc w) end) by congruence. subst r. cbn.
    split; [reflexivity|]. split; [reflexivity|]. exists w, rest, f. split; [reflexivity|]. split; [congruence|]. split; [reflexivity|]. left. split; [|destruct (fw_doc w); reflexivity].
    destruct rest; [|discriminate]. exists w. split; [reflexivity|]. now destruct (fw_needs_interface w).
  - intros H. apply bind_out in H. destruct H as (s1 & x & _ & H). apply bind_out in H. destruct H as (s2 & f & G & H). apply bind_out in H. destruct H as (s3 & y & _ & H).
    unfold lift in G. pose proof (doc_cases (w :: rest)) as DC. unfold docs in DC.
    assert (Na : ~ alone (w :: rest)).
    { intros (u & E & N). assert (u = w /\ rest = []) as [-> ->] by (split; congruence). rewrite N in D. discriminate. }
    destruct (distinct _) as [|d [|d2 ds]]; unfold ret, raise in H; [| |discriminate].
    + replace r with (mk_row name actual (sorted f) None) by congruence. cbn [row_name row_function row_flags row_doc]. split; [reflexivity|]. split; [reflexivity|]. exists w, rest, f. split; [reflexivity|]. split; [congruence|]. split; [reflexivity|]. now right.
    + replace r with (mk_row name actual (sorted f) (Some d)) by congruence. cbn [row_name row_function row_flags row_doc]. split; [reflexivity|]. split; [reflexivity|]. exists w, rest, f. split; [reflexivity|]. split; [congruence|]. split; [reflexivity|]. now right.
Qed.
Lemma common_force ks d : common_doc (map force ks) d -> common_doc ks d.
Proof.
  destruct d as [d|]; cbn.
  - intros ((w & I & E) & A). split.
    + apply in_map_iff in I. destruct I as (u & <- & I). exists u. auto.
    + intros w' I'. exact (A _ (in_map force _ _ I')).
  - intros A w I. exact (A _ (in_map force _ _ I)).
Qed.
Lemma function_row p multi f g g' r : gen_function p multi f g = (g', Ok (Some r)) ->
  row_name r = fs_name f /\ exists ks, kept (fs_id f) (fs_wrappers f) ks /\ row_for ks r /\
    In (SMain, PDeclare (row_function r)) (g_out g') /\ exists k c, In (k, PChunk c) (g_out g') /\ defines (row_function r) c.
Proof.
  intros G. destruct (gen_function_eq multi p f g) as (g1 & _ & E). set (k := place multi (set_section_of f)) in *.
  destruct (handled p (fs_id f) (generate_overload gnote (write_to k) p (fs_wrappers f)) g1) as [g2 a] eqn:H. specialize (E a g2 eq_refl). rewrite E in G. clear E.
  destruct a as [[[ws base]|]|e1]; [|discriminate|discriminate]. apply handled_some in H.
  destruct (overload_left p _ f _ _ _ _ H) as (C & K & F). destruct (overload_defines _ _ _ _ _ _ _ H) as ((c & Ic & Dc) & w0 & r0 & Ews & Eb).
  destruct (clean_overload ws C) as (cs & ws' & base' & Go & C' & (w1 & r1 & Ews' & Eb' & _) & Ew).
  unfold rest in G. assert (H2 : handled p (fs_id f) (x <~ generate_overload gnote (fun _ g => g) p ws ;; put SMain (PDeclare (snd x)) ;~ ret x) g2
        = (emit SMain (PDeclare base') g2, Ok (Some (ws', base')))).
  { apply handled_ok. rewrite (sbind_ok _ _ _ _ _ (Go _ gnote (fun _ g => g) p g2)). rewrite writes_null. reflexivity. }
  rewrite (sbind_ok _ _ _ _ _ H2) in G. unfold put in G. unfold sbind at 1, modify at 1 in G. apply bind_out in G. destruct G as (g3 & x & R & G).
  assert (r = x /\ g3 = g') as [-> ->] by (unfold ret in G; split; congruence).
  pose proof (steps_row grows grows_refl grows_trans gnote (fun k e s => gr_note s k e s (grows_refl s)) p ws' base' (fs_name f)) as S. 
  specialize (S (emit k PBlank (emit SMain (PDeclare base') g2))). rewrite R in S. cbn [fst] in S.
  destruct (row_get _ _ _ _ _ _ _ _ R) as (Rn & Rf & w & rest & fl & El & Gf & Fl & Dd).
  assert (Bb : base = base') by congruence.
  split; [exact Rn|]. exists (match fs_wrappers f with [w] => [w] | _ => ws end). split; [exact K|]. rewrite Rf. split; [|split].
  - destruct (fs_wrappers f) as [|v [|v2 l]] eqn:FW.
    + exfalso. inversion K; subst. match goal with X : survive None [] _ |- _ => inversion X; subst end. cbn in *. discriminate.
    + destruct (fw_needs_interface v) eqn:Ni.
      * assert (Es : exists u, ws = [u] /\ force u = force v).
        { cbn [map] in F. destruct ws as [|u [|u2 us]]; try discriminate F. exists u. split; [reflexivity|exact (f_equal (hd u) F)]. }
        destruct Es as (u & -> & Fu). assert (Niu : fw_needs_interface u = true) by (change (fw_needs_interface (force u) = true); rewrite Fu; exact Ni).
        rewrite Niu in Ew. cbn [negb map] in Ew. subst ws'. assert (w = force u /\ rest = []) as [-> ->] by (split; congruence). rewrite Fu in *.
        exists v, [], fl. split; [reflexivity|]. split; [rewrite Rf; replace w1 with u in Eb' by congruence; rewrite Eb'; exact (f_equal fw_base Fu)|]. split; [exact Fl|]. right.
        assert (Na : ~ alone [v]) by (intros (q & Eq & Nq); congruence). split; [exact Na|]. split; [exact Gf|].
        destruct Dd as [((q & Eq & Nq) & _)|(_ & Dd)]; [assert (q = force v) by congruence; subst q; cbn in Nq; congruence|]. exact (common_force [v] _ Dd).
      * assert (Es : ws = [v]).
        { unfold generate_overload in H. cbn [normalize_flags] in H. rewrite (sbind_ok _ _ _ _ _ (eq_refl : ret [v] g1 = (g1, Ok [v]))) in H. rewrite Ni in H. cbn [negb] in H.
          apply bind_out in H. destruct H as (q & [] & _ & H). unfold ret in H. congruence. }
        rewrite Es in Ew. rewrite Ni in Ew. cbn [negb] in Ew. subst ws'. assert (w = v /\ rest = []) as [-> ->] by (split; congruence).
        exists v, [], fl. split; [reflexivity|]. split; [rewrite Rf; congruence|]. split; [exact Fl|]. left.
        assert (Al : alone [v]) by (exists v; auto). split; [exact Al|]. destruct Dd as [(_ & Dd)|(Dd & _)]; [|contradiction]. auto.
    + assert (Fo : map force ws = ws).
      { inversion K as [q Sq Eq|q q' Sq Eq|q ks Lq Sv Eq]; subst; [..|rewrite map_map; reflexivity]; try discriminate. }
      assert (Ew' : ws' = ws).
      { rewrite Ew. destruct ws as [|q [|q2 qs]]; [reflexivity| |exact Fo]. destruct (negb (fw_needs_interface q)); [reflexivity|exact Fo]. }
      subst ws'. exists w, rest, fl. split; [congruence|]. split; [congruence|]. split; [exact Fl|]. rewrite Ew' in Dd.
      assert (Fw : fw_forced w = true).
      { assert (In w ws) by (rewrite <- Ew', El; now left). rewrite <- Fo in H0. apply in_map_iff in H0. destruct H0 as (q & <- & _). reflexivity. }
      unfold get_flags in Gf. destruct Dd as [(Al & Dd)|(Na & Dd)]; [left; auto|right]. split; [exact Na|]. split; [|exact Dd]. rewrite Fw in Gf. exact Gf.
  - eapply grows_out; [exact S|]. cbn. apply in_or_app. left. apply in_or_app. right. now left.
  - exists k, c. split; [|rewrite <- Bb; exact Dc]. eapply grows_out; [exact S|]. cbn. apply in_or_app. left. apply in_or_app. now left.
Qed.
Lemma function_none p multi f g g' : honest_policy p -> no_skips f -> fs_wrappers f <> [] -> gen_function p multi f g = (g', Ok None) -> left_out p f.
Proof.
  intros Ho NS NE G. destruct p as [h|]; [|destruct (function_no_handler multi f g g' None NS NE G) as (X & _); now destruct X]. exists h. split; [reflexivity|].
  destruct (gen_function_eq multi (Some h) f g) as (g1 & _ & E). set (k := place multi (set_section_of f)) in *.
  destruct (handled (Some h) (fs_id f) (generate_overload gnote (write_to k) (Some h) (fs_wrappers f)) g1) as [g2 a] eqn:H. specialize (E a g2 eq_refl). rewrite E in G. clear E.
  destruct a as [[[ws base]|]|e1]; [..|discriminate].
  - exfalso. apply handled_some in H. destruct (overload_left _ _ f _ _ _ _ H) as (C & _ & _). destruct (clean_overload ws C) as (cs & ws' & base' & Go & _).
    unfold rest in G. assert (H2 : handled (Some h) (fs_id f) (x <~ generate_overload gnote (fun _ g => g) (Some h) ws ;; put SMain (PDeclare (snd x)) ;~ ret x) g2
        = (emit SMain (PDeclare base') g2, Ok (Some (ws', base')))).
    { apply handled_ok. rewrite (sbind_ok _ _ _ _ _ (Go _ gnote (fun _ g => g) (Some h) g2)). rewrite writes_null. reflexivity. }
    rewrite (sbind_ok _ _ _ _ _ H2) in G. apply bind_out in G. destruct G as (g3 & [] & _ & G). apply bind_out in G. destruct G as (g4 & x & _ & G). discriminate.
  - clear G. pose proof (handling_escape (Some h) (fs_id f) (generate_overload gnote (write_to k) (Some h) (fs_wrappers f)) g1) as X.
    unfold handled, try_except in H. destruct (generate_overload gnote (write_to k) (Some h) (fs_wrappers f) g1) as [g3 [x|e0]] eqn:O; cbn [snd fst] in X.
    { rewrite (sbind_ok _ _ _ _ _ X) in H. discriminate. }
    destruct X as (g4 & e & X & Q). rewrite (sbind_err _ _ _ _ _ X) in H. destruct (exc_eq_dec e SkipWrapper) as [->|N]; [|discriminate].
    assert (D : e0 = SkipWrapper \/ (generation_error e0 = true /\ h (fs_id f) e0 = Ok true)).
    { destruct Q as [Q|(_ & h' & Eh & Ge & Ha & _)]; [|right; split; [exact Ge|congruence]]. cbn in Q. destruct (generation_error e0) eqn:Ge; [|now left].
      destruct Q as [(_ & <-)|Q]; [discriminate|]. exfalso. exact (Ho _ _ Q). }
    destruct D as [->|(Ge & Ha)].
    + left. destruct (Nat.eq_dec (length (fs_wrappers f)) 1) as [L|L].
      * destruct (fs_wrappers f) as [|w [|w2 l]]; try discriminate L. destruct (sole_problem (fs_id f) w) as [x|] eqn:Sp; [eapply kp_one_not; eauto|]. exfalso.
        assert (C : clean [w]).
        { destruct (sole_cases (fs_id f) w) as [(fl & B & NI & _)|[(q & _ & _ & Z)|[(q1 & q2 & _ & _ & _ & Z)|(q & _ & _ & Z)]]]; try congruence. left. exists w. eauto. }
        destruct (clean_overload _ C) as (cs & ks' & base' & Go & _). rewrite Go in O. discriminate.
      * destruct (normalize_cases gnote (Some h) (fs_wrappers f) g1 L) as [(ks & s' & Sv & N & _)|(w & e1 & s' & I & Rj & N)].
        -- pose proof (generate_many gnote (write_to k) (Some h) _ ks g1 s' L N Sv) as M. destruct ks as [|w r]; [exact (kp_many (fs_id f) _ _ L Sv)|].
           destruct M as (fl & _ & M). rewrite M in O. discriminate.
        -- exfalso. unfold generate_overload in O. rewrite (sbind_err _ _ _ _ _ N) in O. assert (e1 = SkipWrapper) by congruence. subst e1.
           destruct Rj as [(_ & Z & _)|(e' & _ & Z)]; [now apply Z|exact (Ho _ _ Z)].
    + right. exists e0. split; [|auto]. destruct (overload_out (Some h) (write_to k) f g1 e0) as [->|Z]; [now rewrite O|discriminate|exact Z].
Qed.

Lemma functions_rows p multi l : forall g g' rows, gen_functions p multi l g = (g', Ok rows) ->
  in_order (map row_name rows) (map fs_name l) /\
  (forall r, In r rows -> exists f ks, In f l /\ fs_name f = row_name r /\ kept (fs_id f) (fs_wrappers f) ks /\ row_for ks r /\
     In (SMain, PDeclare (row_function r)) (g_out g') /\ exists k c, In (k, PChunk c) (g_out g') /\ defines (row_function r) c) /\
  (forall f, In f l -> In (fs_name f) (map row_name rows) \/ exists ga gb, gen_function p multi f ga = (gb, Ok None)).
Proof.
  induction l as [|f l IH]; intros g g' rows H; cbn [gen_functions] in H.
  - replace rows with (@nil row) by (unfold ret in H; congruence). split; [constructor|]. split; contradiction.
  - apply bind_out in H. destruct H as (g1 & a & G & H). apply bind_out in H. destruct H as (g2 & rows' & Gs & H). unfold ret in H.
    assert (g' = g2) by congruence. subst g2. destruct (IH _ _ _ Gs) as (A & B & C). pose proof (grows_functions p multi l g1) as Gr. rewrite Gs in Gr. cbn [fst] in Gr.
    destruct a as [r|].
    + replace rows with (r :: rows') by congruence. destruct (function_row _ _ _ _ _ _ G) as (Rn & ks & K & Rf & De & k & c & Ic & Dc). cbn [map]. rewrite Rn. split; [now constructor|]. split.
      * intros x [<-|I].
        -- exists f, ks. split; [now left|]. split; [auto|]. split; [exact K|]. split; [exact Rf|]. split; [eapply grows_out; eauto|]. exists k, c. split; [eapply grows_out; eauto|exact Dc].
        -- destruct (B x I) as (f' & ks' & If & Q). exists f', ks'. split; [now right|exact Q].
      * intros x [<-|I]; [left; now left|]. destruct (C x I) as [Q|Q]; [left; now right|now right].
    + replace rows with rows' by congruence. split; [now constructor|]. split.
      * intros x I. destruct (B x I) as (f' & ks' & If & Q). exists f', ks'. split; [now right|exact Q].
      * intros x [<-|I]; [right; eauto|auto].
Qed.

Section Top.
  Context {V : Type} (make : list string -> list (string * string) -> res V).
  Theorem script_tables p0 name ns cs w tr p multi g : run make p0 cs (new_root name ns) = (w, tr) -> generate p multi w = (g, Ok tt) ->
    exists order, Permutation order (seq 0 (length (w_mods w))) /\
    Forall2 (fun i x => exists m, nth_error (w_mods w) i = Some m /\ fst x = m_prefix m /\
      in_order (map row_name (snd x)) (first_occurrences (names_of i tr)) /\ forall r, In r (snd x) -> row_ok (g_out g) m r) order (tables (g_out g)) /\
    Forall2 (fun i x => exists m, nth_error (w_mods w) i = Some m /\ fst x = m_prefix m /\
      exists js, NoDup js /\ (forall j, In j js <-> child (w_mods w) i j) /\
        Forall2 (fun j y => exists s, nth_error (w_mods w) j = Some s /\ y = ("init" ++ m_prefix s, m_name s)%string) js (snd x)) order (initialisations (g_out g)).
  Proof.
    intros H G. destruct (generate_tables p multi w g G) as (A & B). destruct (run_inv make p0 _ _ _ _ (root_wf name ns) (root_prefixed name ns) H) as (W & _ & _).
    exists (postorder (w_mods w) (length (w_mods w)) 0). split; [now apply postorder_perm|]. split.
    - eapply forall2_mono; [|exact A]. intros i x (m & ga & gb & E & P & F & Gr). exists m. split; [exact E|]. split; [exact P|].
      destruct (script_sets make p0 name ns cs w tr i m H E) as (Sn & _). destruct (functions_rows _ _ _ _ _ _ F) as (Q1 & Q2 & _). rewrite <- Sn. split; [exact Q1|].
      intros r I. destruct (Q2 r I) as (f & ks & If & Fn & K & Rf & De & k & c & Ic & Dc). exists f, ks. split; [exact If|]. split; [exact Fn|]. split; [exact K|]. split; [exact Rf|].
      split; [eapply grows_out; eauto|]. exists k, c. split; [eapply grows_out; eauto|exact Dc].
    - eapply forall2_mono; [|exact B]. intros i x (m & E & P & S). exists m. split; [exact E|]. split; [exact P|]. exists (m_submodules m). split; [eapply wf_nodup; eauto|]. split.
      + intros j. split; [intros I; destruct (wf_sub _ W _ _ _ E I) as (mj & Ej & Pj); exists mj; auto|]. intros (mj & Ej & Pj). destruct (wf_parent _ W _ _ _ Ej Pj) as (_ & mi & Ei & I). congruence.
      + rewrite S. clear -W E. assert (Z : forall j, In j (m_submodules m) -> exists s, nth_error (w_mods w) j = Some s) by (intros j I; destruct (wf_sub _ W _ _ _ E I) as (mj & Ej & _); eauto).
        induction (m_submodules m) as [|j l IH]; cbn [flat_map]; [constructor|]. destruct (Z j (or_introl eq_refl)) as (s & Es). rewrite Es. cbn [app]. constructor; [eauto|].
        apply IH. intros j' I. apply Z. now right.
  Qed.
  (** A function is in the table unless the error handler agreed to leave out everything of its name. *)
  Theorem script_complete p0 name ns cs w tr p multi g : run make p0 cs (new_root name ns) = (w, tr) -> generate p multi w = (g, Ok tt) -> honest_policy p ->
    forall i m n, nth_error (w_mods w) i = Some m -> In n (names_of i tr) ->
    (forall d s, In (d, s) (functions_named i n tr) -> forall r ps b, fd_body d r ps b <> Err SkipWrapper) ->
    (exists rows r, In (m_prefix m, rows) (tables (g_out g)) /\ In r rows /\ row_name r = n) \/
    (exists f, In f (m_functions m) /\ fs_name f = n /\ left_out p f).
  Proof.
    intros H G Ho i m n E In_ NS. destruct (generate_tables p multi w g G) as (A & _). destruct (run_inv make p0 _ _ _ _ (root_wf name ns) (root_prefixed name ns) H) as (W & _ & _).
    assert (Po : In i (postorder (w_mods w) (length (w_mods w)) 0)).
    { eapply Permutation_in; [apply Permutation_sym, postorder_perm, W|]. apply in_seq. apply nth_valid in E. lia. }
    assert (X : exists x, In x (tables (g_out g)) /\ made p multi (w_mods w) g i x).
    { clear -A Po. induction A as [|a b l l' M _ IH]; [destruct Po|]. destruct Po as [->|Po]; [exists b; split; [now left|exact M]|]. destruct (IH Po) as (x & I & Mx). exists x. split; [now right|exact Mx]. }
    destruct X as ([pre rows] & Ix & m' & ga & gb & E' & P & F & Gr). cbn [fst snd] in *. assert (m' = m) by congruence. subst m'. subst pre.
    destruct (script_sets make p0 name ns cs w tr i m H E) as (Sn & Ff & _). apply first_in in In_. rewrite <- Sn in In_. apply in_map_iff in In_. destruct In_ as (f & <- & If).
    destruct (functions_rows _ _ _ _ _ _ F) as (_ & _ & Q). destruct (Q f If) as [Y|(a & b & Y)].
    - left. apply in_map_iff in Y. destruct Y as (r & Er & Ir). exists rows, r. auto.
    - right. exists f. split; [exact If|]. split; [reflexivity|]. destruct (Ff f If) as (Fa & NE). eapply function_none; eauto.
      intros u b' Iu. clear -Fa Iu NS. induction Fa as [|[d' s'] y l l' Wr Fa IH]; [destruct Iu|]. destruct Iu as [<-|Iu].
      + destruct Wr as (_ & _ & _ & _ & _ & _ & _ & rv & ps & _ & _ & Bd). rewrite Bd. apply (NS d' s'). now left.
      + apply IH; [|exact Iu]. intros d1 s1 I1. apply (NS d1 s1). now right.
  Qed.
  (** The root module can be generated once. *)
  Theorem generate_twice p multi w g p' multi' : generate p multi w = (g, Ok tt) ->
    generate p' multi' (g_world g) = (mk_gstate (g_world g) (if multi' then [(SMain, PCommonHeader)] else []) ["__main__"] [], Err TypeError).
  Proof.
    intros H. assert (N : w_includes (g_world g) = None).
    { unfold generate, gen_root in H. set (g1 := mk_gstate w _ _ _) in H. rewrite (sbind_ok _ _ _ _ _ (eq_refl : gets g_world g1 = (g1, Ok w))) in H.
      destruct (w_includes w) as [incs|]; [|discriminate]. apply bind_inv in H. destruct H as (g2 & fwd & _ & H). apply bind_inv in H. destruct H as (g3 & [] & _ & H).
      unfold sbind at 1, modify at 1 in H. unfold sbind at 1, modify at 1 in H. set (I := fun g : gstate => w_includes (g_world g) = None).
      match type of H with gen_module _ _ _ _ ?s = _ => assert (K : I s) by reflexivity; pose proof (keeps_module p multi (w_mods (g_world s)) (fun g => w_mods (g_world g) = w_mods (g_world s) /\ I g)) as KM; set (s0 := s) in * end.
      assert (KK : keeps (fun g => w_mods (g_world g) = w_mods (g_world s0) /\ I g) (gen_module p multi (length (w_mods w)) 0)).
      { apply KM.
        - intros x (X & _). exact X.
        - intros j m f _ _. apply keeps_function; intros; auto. unfold sink_for. destruct multi; auto. destruct (set_section_of f); auto. destruct (mem s (g_started g0)); auto.
        - intros j m t _ _. apply keeps_type; intros; auto. unfold sink_for. destruct multi; auto. destruct (mem (ti_section t) (g_started g0)); auto.
        - intros; auto.
        - intros; auto.
        - intros x X. exact X. }
      specialize (KK s0 (conj eq_refl K)). rewrite H in KK. apply KK. }
    unfold generate, gen_root. rewrite (sbind_ok (gets g_world) _ _ _ _ eq_refl). cbn [g_world]. now rewrite N.
  Qed.
End Top.
