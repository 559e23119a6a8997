From Verif.Model Require Import Py PyState Mangle Errors Overloading Module.
From Verif.Spec Require Import OverloadSpec ModuleSpec PolicySpec SectionSpec.
From Verif.Proofs Require Import StrLemmas ModuleProofs ModuleSteps ModuleNames ModulePaths Steps GenSteps PruneProofs ScriptProofs EscapeTop PlaceProofs.
From Coq Require Import Lia.
Open Scope string_scope.
Open Scope list_scope.
Open Scope st_scope.

Definition plain (x : piece) : Prop := is_common x = false /\ is_include x = false.
Lemma contents_app k a b : contents k (a ++ b) = contents k a ++ contents k b.
Proof. unfold contents. now rewrite filter_app, map_app. Qed.
Lemma contents_header l : contents SHeader (map (fun x => (SHeader, x)) l) = l.
Proof.
  unfold contents. induction l as [|x l IH]; [reflexivity|]. exact (f_equal (cons x) IH).
Qed.
Lemma contents_other k l : k <> SHeader -> contents k (map (fun x => (SHeader, x)) l) = [].
Proof.
  intros N. unfold contents. induction l as [|x l IH]; [reflexivity|]. cbn [map filter fst].
  destruct k; cbn [same_file]; try congruence; exact IH.
Qed.
Lemma same_file_eq k s : s <> "__main__" -> same_file (SSection s) k = true <-> k = SSection s.
Proof.
  intros N. destruct k as [| |t]; cbn; split; try discriminate.
  - intros E. apply String.eqb_eq in E. congruence.
  - intros E. apply String.eqb_eq in E. congruence.
  - intros [= ->]. apply String.eqb_refl.
Qed.

Section Header.
  Context (p : policy) (multi : bool) (w : world) (incs : list string).

  Definition starts (h : list piece) (l : list piece) : Prop := exists rest, l = h ++ rest /\ Forall plain rest.
  Lemma starts_app h l r : starts h l -> Forall plain r -> starts h (l ++ r).
  Proof. intros (rest & -> & F) R. exists (rest ++ r). split; [now rewrite app_assoc|apply Forall_app; auto]. Qed.
  Definition top : list piece := if multi then [PCommonHeader] else [].
  Definition headed (g : gstate) : Prop :=
    w_mods (g_world g) = w_mods w /\ Forall plain (g_header g) /\ In "__main__" (g_started g) /\
    starts (map PInclude incs) (contents SHeader (g_out g)) /\ starts top (contents SMain (g_out g)) /\
    forall s, s <> "__main__" ->
      (In s (g_started g) /\ multi = true /\ starts top (contents (SSection s) (g_out g))) \/ (~ In s (g_started g) /\ contents (SSection s) (g_out g) = []).
  Definition opened (k : sink) (g : gstate) : Prop := match k with SSection s => multi = true /\ In s (g_started g) | _ => True end.

  Lemma headed_emit k x g : plain x -> opened k g -> headed g -> headed (emit k x g).
  Proof.
    intros P O (A & B & C & D & E & F). unfold headed, emit. cbn [g_world g_header g_started g_out].
    assert (X : forall h k', starts h (contents k' (g_out g)) -> starts h (contents k' (g_out g ++ [(k, x)]))).
    { intros h k' S. rewrite contents_app. apply starts_app; [exact S|]. unfold contents. cbn. destruct (same_file k' k); cbn; auto. }
    repeat split; auto. intros s N. destruct (F s N) as [(I & M & S)|(I & S)].
    - left. auto.
    - right. split; [exact I|]. rewrite contents_app, S. unfold contents. cbn [filter fst app].
      destruct (same_file (SSection s) k) eqn:Q; [|reflexivity]. apply (proj1 (same_file_eq k s N)) in Q. subst k. destruct O as (_ & O). contradiction.
  Qed.
  Lemma headed_sink s g : headed g -> headed (fst (sink_for multi s g)) /\ opened (place multi s) (fst (sink_for multi s g)).
  Proof.
    intros H. unfold sink_for, place. destruct multi eqn:Mu; [|split; [exact H|exact Logic.I]]. destruct s as [s|]; [|split; [exact H|exact Logic.I]].
    destruct (mem s (g_started g)) eqn:M; cbn [fst].
    - split; [exact H|]. split; [exact Mu|]. now apply mem_spec.
    - split; [|split; [exact Mu|cbn; now left]]. apply mem_false in M. destruct H as (A & B & C & D & E & F).
      assert (Nm : s <> "__main__") by (intros ->; now apply M).
      unfold headed, emit. cbn [g_world g_header g_started g_out]. split; [exact A|]. split; [exact B|]. split; [now right|].
      split; [|split].
      + rewrite contents_app. apply starts_app; [exact D|]. constructor.
      + rewrite contents_app. apply starts_app; [exact E|]. unfold contents. cbn. destruct (String.eqb_spec s "__main__"); [contradiction|constructor].
      + intros t Nt. rewrite contents_app. unfold contents at 2 4. cbn [filter fst same_file]. destruct (String.eqb_spec t s) as [->|Ns].
        * destruct (F s Nt) as [(I & _)|(_ & S)]; [contradiction|]. left. split; [now left|]. split; [exact Mu|]. rewrite S. exists []. unfold top. rewrite Mu. cbn. auto.
        * cbn [map]. rewrite app_nil_r. destruct (F t Nt) as [(I & M' & S)|(I & S)].
          -- left. split; [now right|]. auto.
          -- right. split; [|exact S]. intros [->|I']; [congruence|contradiction].
  Qed.
  Lemma opened_sink k s g : opened k g -> opened k (fst (sink_for multi s g)).
  Proof.
    intros O. unfold sink_for. destruct multi; [|exact O]. destruct s as [s|]; [|exact O]. destruct (mem s (g_started g)); [exact O|]. destruct k; auto.
    destruct O. split; [assumption|]. cbn. now right.
  Qed.
  Lemma headed_once n pr k g : opened k g -> headed g -> headed (once n pr k g).
  Proof.
    intros O H. pose proof (headed_emit k (PDefine n) g (conj eq_refl eq_refl) O H) as (A & B & C & D). split; [exact A|]. split; [|exact (conj C D)].
    cbn. apply Forall_app. split; [exact B|]. destruct pr; [|constructor]. constructor; [split; reflexivity|constructor].
  Qed.
  Lemma headed_module fuel i : keeps headed (gen_module p multi fuel i).
  Proof.
    eapply (keeps_module p multi (w_mods w)).
    - intros g H. apply H.
    - intros j m f E I g H. rewrite <- function_started. destruct (headed_sink (set_section_of f) g H) as (H1 & O1).
      set (g1 := fst (sink_for multi (set_section_of f) g)) in *. clearbody g1. set (k := place multi (set_section_of f)) in *.
      enough (Q : keeps (fun g => headed g /\ opened k g) (gen_function p multi f)) by exact (proj1 (Q g1 (conj H1 O1))).
      apply keeps_function.
      + intros a e g' X. exact X.
      + intros g' (X & Y). split; [now apply headed_sink|now apply opened_sink].
      + intros g' (X & Y). split; [apply headed_emit; auto; split; reflexivity|exact Y].
      + intros c g' _ (X & Y). split; [apply headed_emit; auto; split; reflexivity|exact Y].
      + intros n g' (X & Y). split; [apply headed_emit; auto; [split; reflexivity|exact Logic.I]|exact Y].
    - intros j m t E I g H. rewrite <- type_started. destruct (headed_sink (Some (ti_section t)) g H) as (H1 & O1).
      set (g1 := fst (sink_for multi (Some (ti_section t)) g)) in *. clearbody g1. set (k := place multi (Some (ti_section t))) in *.
      enough (Q : keeps (fun g => headed g /\ opened k g) (gen_type multi t)) by exact (proj1 (Q g1 (conj H1 O1))).
      apply keeps_type.
      + intros g' (X & Y). split; [now apply headed_sink|now apply opened_sink].
      + intros g' (X & Y). split; [apply headed_emit; auto; split; reflexivity|exact Y].
      + intros x g' _ (X & Y). split; [apply headed_emit; auto; split; reflexivity|exact Y].
      + intros n pr g' _ _ (X & Y). split; [now apply headed_once|exact Y].
      + intros n g' _ (X & Y). split; [apply headed_emit; auto; split; reflexivity|exact Y].
    - intros pre rows g H. apply headed_emit; auto; [split; reflexivity|exact Logic.I].
    - intros pre subs g H. apply headed_emit; auto; [split; reflexivity|exact Logic.I].
    - intros g (A & B & C & D & E & F). unfold flush_header. cbn [fst]. unfold headed. cbn [g_world g_header g_started g_out].
      split; [exact A|]. split; [constructor|]. split; [exact C|]. split; [rewrite contents_app; apply starts_app; [exact D|now rewrite contents_header]|].
      split; [rewrite contents_app, contents_other by discriminate; now rewrite app_nil_r|]. intros s N. rewrite contents_app, contents_other by discriminate. rewrite app_nil_r. auto.
  Qed.
  (** The forward declarations go to the header file. *)
  Definition forwards (g : gstate) : Prop :=
    w_mods (g_world g) = w_mods w /\ g_started g = ["__main__"] /\ Forall plain (g_header g) /\ exists l, g_out g = map (fun x => (SHeader, x)) l /\ Forall plain l.
  Lemma forwards_forward fuel i : keeps forwards (forward_module fuel i).
  Proof.
    assert (Em : forall x g, plain x -> forwards g -> forwards (emit SHeader x g)).
    { intros x g P (A & B & C & l & D & E). split; [exact A|]. split; [exact B|]. split; [exact C|]. exists (l ++ [x]).
      cbn [emit g_out]. rewrite D, map_app. split; [reflexivity|]. apply Forall_app; auto. }
    eapply (keeps_forward (w_mods w)); [intros g H; apply H|]. intros j m t E I. apply keeps_forward_type.
    - intros x g _. apply Em. split; reflexivity.
    - intros n pr g _ _ H. destruct (Em (PDefine n) g (conj eq_refl eq_refl) H) as (A & B & C & D). split; [exact A|]. split; [exact B|]. split; [|exact D].
      cbn. apply Forall_app. split; [exact C|]. destruct pr; [|constructor]. constructor; [split; reflexivity|constructor].
    - intros n g _ _ H. exact (Em (PProto n) g (conj eq_refl eq_refl) H).
  Qed.
  Lemma put_includes l : forall g, for_each (fun s => put SHeader (PInclude s)) l g = (with_out (g_out g ++ map (fun s => (SHeader, PInclude s)) l) g, Ok tt).
  Proof.
    induction l as [|s l IH]; intros g; cbn [for_each map].
    - rewrite app_nil_r. destruct g; reflexivity.
    - unfold put. rewrite (sbind_ok _ _ _ _ _ (eq_refl : modify (emit SHeader (PInclude s)) g = (emit SHeader (PInclude s) g, Ok tt))). fold (put). rewrite IH.
      unfold with_out, emit. cbn [g_out g_world g_started g_header]. now rewrite <- app_assoc.
  Qed.
  Lemma headed_generate g r : w_includes w = Some incs -> generate p multi w = (g, r) ->
    headed g \/ (exists e, r = Err e /\ g_out g = if multi then [(SMain, PCommonHeader)] else []).
  Proof.
    unfold generate. set (g0 := mk_gstate w _ _ _). intros Inc H. unfold gen_root in H.
    rewrite (sbind_ok _ _ _ _ _ (eq_refl : gets g_world g0 = (g0, Ok w))) in H. rewrite Inc in H. unfold captured at 1 in H. unfold sbind at 1 in H.
    assert (F0 : forwards (with_out [] g0)).
    { split; [reflexivity|]. split; [reflexivity|]. split; [constructor|]. exists []. split; [reflexivity|constructor]. }
    pose proof (forwards_forward (length (w_mods w)) 0 _ F0) as F1. destruct (forward_module (length (w_mods w)) 0 (with_out [] g0)) as [g1 [a|e]] eqn:F; cbn [fst] in F1.
    - left. rewrite (sbind_ok _ _ _ _ _ (put_includes incs _)) in H. unfold sbind at 1, modify at 1 in H. unfold sbind at 1, modify at 1 in H.
      match type of H with gen_module _ _ _ _ ?s = _ => set (g2 := s) in H end.
      assert (K : headed g2).
      { destruct F1 as (A & B & C & l & D & E). unfold g2. unfold headed, with_out, drop_includes. cbn [g_out g_world g_started g_header w_mods].
        split; [exact A|]. split; [exact C|]. split; [rewrite B; now left|]. rewrite D.
        assert (Z : forall k, k <> SHeader -> contents k ((g_out g0 ++ map (fun s => (SHeader, PInclude s)) incs) ++ map (fun x => (SHeader, x)) l) = contents k (g_out g0)).
        { intros k N. rewrite !contents_app, <- (map_map PInclude (fun x => (SHeader, x))), !contents_other by exact N. now rewrite !app_nil_r. }
        split; [|split].
        - rewrite !contents_app, <- (map_map PInclude (fun x => (SHeader, x))), !contents_header. unfold g0. cbn [g_out].
          exists l. split; [|exact E]. destruct multi; reflexivity.
        - rewrite Z by discriminate. exists []. rewrite app_nil_r. split; [|constructor]. unfold g0, top. cbn [g_out]. destruct multi; reflexivity.
        - intros s N. right. rewrite B, Z by discriminate. split; [intros [<-|[]]; congruence|]. unfold g0. cbn [g_out]. destruct multi; [|reflexivity].
          unfold contents. cbn. destruct (String.eqb_spec s "__main__"); [contradiction|reflexivity]. }
      pose proof (headed_module (length (w_mods w)) 0 g2 K) as K'. rewrite H in K'. exact K'.
    - right. exists e. split; [congruence|]. replace g with (with_out (g_out g0) g1) by congruence. reflexivity.
  Qed.
End Header.

Section Top.
  Context {V : Type} (make : list string -> list (string * string) -> res V).
  (** The header file starts with the includes asked for. *)
  Theorem script_includes p0 name ns cs w tr p multi g : run make p0 cs (new_root name ns) = (w, tr) -> generate p multi w = (g, Ok tt) ->
    exists rest, contents SHeader (g_out g) = map PInclude (first_occurrences (asked tr)) ++ rest /\ (forall x, In x rest -> is_include x = false) /\
    forall k s, In (k, PInclude s) (g_out g) -> k = SHeader.
  Proof.
    intros H G. destruct (script_fields make p0 _ _ _ _ _ H) as (_ & _ & _ & X).
    destruct (headed_generate p multi w _ g _ X G) as [(_ & _ & _ & (rest & E & P) & _)|(e & Er & _)]; [|discriminate].
    exists rest. split; [exact E|]. rewrite Forall_forall in P. split; [intros x I; apply P in I; apply I|].
    intros k s I. pose proof (script_placement make _ _ _ _ _ _ _ _ _ _ H G _ I) as (Q & _). exact Q.
  Qed.
  (** Each of the other files starts with the include of the common header. *)
  Theorem script_common p0 name ns cs w tr p g r : run make p0 cs (new_root name ns) = (w, tr) -> generate p true w = (g, r) ->
    forall k, k <> SHeader -> contents k (g_out g) = [] \/ exists rest, contents k (g_out g) = PCommonHeader :: rest /\ forall x, In x rest -> is_common x = false.
  Proof.
    intros H G k N. destruct (script_fields make p0 _ _ _ _ _ H) as (_ & _ & _ & X).
    assert (Sm : forall s, String.eqb s "__main__" = true -> contents (SSection s) (g_out g) = contents SMain (g_out g)).
    { intros s E. apply String.eqb_eq in E. subst s. unfold contents. f_equal. apply filter_ext. intros [k' x]. cbn [fst]. destruct k' as [| |n0]; [reflexivity|reflexivity|exact (String.eqb_sym _ _)]. }
    destruct (headed_generate p true w _ g _ X G) as [(_ & _ & _ & _ & E & F)|(e & Er & E)].
    - assert (Q : forall l, starts (top true) l -> l = [] \/ exists rest, l = PCommonHeader :: rest /\ forall x, In x rest -> is_common x = false).
      { intros l (rest & -> & P). right. exists rest. split; [reflexivity|]. rewrite Forall_forall in P. intros x I. apply P in I. apply I. }
      destruct k as [| |s]; [now apply Q|contradiction|]. destruct (String.eqb s "__main__") eqn:Es.
      + rewrite (Sm s Es). now apply Q.
      + apply String.eqb_neq in Es. destruct (F s Es) as [(_ & _ & S)|(_ & S)]; [now apply Q|now left].
    - rewrite E. unfold contents. cbn [filter fst map]. destruct (same_file k SMain); [right; exists []; split; [reflexivity|contradiction]|now left].
  Qed.
  Theorem script_single p0 name ns cs w tr p g r : run make p0 cs (new_root name ns) = (w, tr) -> generate p false w = (g, r) ->
    forall k x, In (k, x) (g_out g) -> is_common x = false /\ (k = SMain \/ k = SHeader \/ x = PBlank).
  Proof.
    intros H G k x I. pose proof (script_placement make _ _ _ _ _ _ _ _ _ _ H G _ I) as Q. unfold placed in Q. cbn [fst snd] in Q.
    destruct x; cbn [is_common]; (split; [try reflexivity|]); try tauto.
    - now destruct Q.
    - destruct Q; congruence.
    - destruct Q as (i & n & d0 & s0 & ds & _ & -> & _). now left.
    - destruct Q as (i & d & full & s & _ & _ & _ & ->). now left.
    - destruct Q as (i & d & full & s & _ & [(-> & _)|(-> & _)]); [now right; left|now left].
  Qed.
End Top.
