(** Where calls of virtual methods end. *)
From Verif.Model Require Import Py PyState Hierarchy MethodTable Dispatch.
From Verif.Spec Require Import HierarchySpec MethodTableSpec VirtualSpec.
From Verif.Proofs Require Import StrLemmas HierarchyProofs PureProofs PureScript AbstractProofs HelperProofs HierarchyTop.
From Verif.Proofs Require Import TableDeclared TableFold TableGen TableTop TableLookup DispatchHelper.
From Coq Require Import Lia.
Open Scope list_scope.

(** ** Python classes *)
Lemma definer_some n l : forall k0 from k, definer n l k0 from = Some k ->
  k0 <= k /\ from <= k /\ (exists names, nth_error l (k - k0) = Some names /\ In n names) /\
  forall j names, k0 <= j -> from <= j < k -> nth_error l (j - k0) = Some names -> ~ In n names.
Proof.
  induction l as [|names l IH]; intros k0 from k E; cbn [definer] in E; [discriminate|]. destruct (Nat.leb from k0 && existsb (String.eqb n) names) eqn:B.
  - injection E as <-. apply andb_prop in B as [B1 B2]. apply Nat.leb_le in B1. split; [lia|]. split; [lia|]. split.
    + rewrite Nat.sub_diag. exists names. split; [reflexivity|]. apply existsb_exists in B2. destruct B2 as (x & Hx & Ex). apply String.eqb_eq in Ex. now subst x.
    + intros j x H1 H2. lia.
  - destruct (IH _ _ _ E) as (A1 & A2 & (x & Ax & Ix) & A3). split; [lia|]. split; [lia|]. split.
    + exists x. replace (k - k0) with (S (k - S k0)) by lia. auto.
    + intros j y H1 H2 Hy. destruct (Nat.eq_dec j k0) as [->|Ne].
      * rewrite Nat.sub_diag in Hy. injection Hy as <-. intros Hn. assert (E1 : Nat.leb from k0 = true) by (apply Nat.leb_le; lia).
        rewrite E1 in B. cbn in B. assert (E2 : existsb (String.eqb n) names = true); [|congruence]. apply existsb_exists. exists n. split; [assumption|apply String.eqb_refl].
      * apply (A3 j y); [lia|assumption|]. replace (j - k0) with (S (j - S k0)) in Hy by lia. exact Hy.
Qed.
Lemma definer_none n l : forall k0 from, definer n l k0 from = None ->
  forall j names, k0 <= j -> from <= j -> nth_error l (j - k0) = Some names -> ~ In n names.
Proof.
  induction l as [|names l IH]; intros k0 from E j y H1 H2 Hy; [destruct (j - k0); discriminate|]. cbn [definer] in E.
  destruct (Nat.leb from k0 && existsb (String.eqb n) names) eqn:B; [discriminate|]. destruct (Nat.eq_dec j k0) as [->|Ne].
  - rewrite Nat.sub_diag in Hy. injection Hy as <-. intros Hn. assert (E1 : Nat.leb from k0 = true) by now apply Nat.leb_le.
    rewrite E1 in B. cbn in B. assert (E2 : existsb (String.eqb n) names = true); [|congruence]. apply existsb_exists. exists n. split; [assumption|apply String.eqb_refl].
  - apply (IH _ _ E j y); [lia|assumption|]. replace (j - k0) with (S (j - S k0)) in Hy by lia. exact Hy.
Qed.
Lemma first_definer_eq n l from k : first_definer n l from k -> definer n l 0 from = Some k.
Proof.
  intros (H1 & (names & H2 & H3) & H4). destruct (definer n l 0 from) as [k'|] eqn:E.
  - destruct (definer_some _ _ _ _ _ E) as (_ & A1 & (names' & A2 & A3) & A4). rewrite Nat.sub_0_r in A2.
    destruct (Nat.lt_trichotomy k k') as [L|[->|L]]; [|reflexivity|].
    + elim (A4 k names (Nat.le_0_l k) (conj H1 L)); [now rewrite Nat.sub_0_r|assumption].
    + elim (H4 k' names' (conj A1 L) A2 A3).
  - exfalso. apply (definer_none _ _ _ _ E k names (Nat.le_0_l k) H1); [now rewrite Nat.sub_0_r|assumption].
Qed.
Lemma no_definer_eq n l from : no_definer n l from -> definer n l 0 from = None.
Proof.
  intros H. destruct (definer n l 0 from) as [k|] eqn:E; [|reflexivity]. destruct (definer_some _ _ _ _ _ E) as (_ & A1 & (names & A2 & A3) & _).
  rewrite Nat.sub_0_r in A2. elim (H k names A1 A2 A3).
Qed.

(** ** Signatures *)
Lemma selects_eq s m : selects s m = true <-> signature m = s.
Proof.
  destruct s as [[n types] c]. unfold selects, signature. rewrite !andb_true_iff, String.eqb_eq, same_types_eq, Bool.eqb_true_iff. split.
  - intros [[-> ->] ->]. reflexivity.
  - intros [= -> -> ->]. auto.
Qed.
Lemma public_in answers i n m : In m (public_methods answers i n) <->
  exists d a, In (HMethod i d, Ok a) answers /\ md_name d = n /\ md_wrappable d = true /\ md_vis d = Public /\ m = method_of d.
Proof.
  induction answers as [|[c r] l IH]; cbn [public_methods]; [split; [intros []|intros (d & a & [] & _)]|].
  assert (Skip : (forall d a, (c, r) = (HMethod i d, Ok a) -> md_name d = n -> md_wrappable d = true -> md_vis d <> Public) ->
    (In m (public_methods l i n) <-> exists d a, In (HMethod i d, Ok a) ((c, r) :: l) /\ md_name d = n /\ md_wrappable d = true /\ md_vis d = Public /\ m = method_of d)).
  { intros H. rewrite IH. split; intros (d & a & Hd & H1 & H2 & H3 & H4); exists d, a; (split; [|auto]); [now right|].
    destruct Hd as [Hd|Hd]; [|assumption]. now elim (H d a Hd H1 H2). }
  destruct c as [d|j d|j n0|j n0|j n0|j n0|j b|j s|j|j|j v]; try (apply Skip; intros; discriminate).
  destruct r as [a|e]; [|apply Skip; intros; discriminate].
  destruct (Nat.eqb j i && String.eqb (md_name d) n && md_wrappable d && is_public (md_vis d)) eqn:B.
  - apply andb_prop in B as [B B4]. apply andb_prop in B as [B B3]. apply andb_prop in B as [B1 B2].
    apply Nat.eqb_eq in B1. apply String.eqb_eq in B2. subst j n. assert (V : md_vis d = Public) by (destruct (md_vis d); auto; discriminate). split.
    + intros [<-|H]; [exists d, a; repeat split; auto; now left|]. apply IH in H. destruct H as (d' & a' & H & X). exists d', a'. split; [now right|exact X].
    + intros (d' & a' & [H|H] & X); [injection H as <- <-; left; symmetry; tauto|]. right. apply IH. eauto.
  - apply Skip. intros d' a' [= -> <- <-] N Wr V. rewrite Nat.eqb_refl, N, String.eqb_refl, Wr, V in B. discriminate.
Qed.
Lemma first_class {A} (P : A -> Prop) (dec : forall x, {P x} + {~ P x}) l : (exists x, In x l /\ P x) ->
  exists before c after, l = before ++ c :: after /\ P c /\ forall b, In b before -> ~ P b.
Proof.
  induction l as [|x l IH]; intros (y & Hy & Py); [destruct Hy|]. destruct (dec x) as [Px|Nx].
  - exists [], x, l. split; [reflexivity|]. split; [assumption|intros b []].
  - destruct IH as (before & c & after & -> & Pc & Nb); [exists y; destruct Hy as [->|Hy]; [contradiction|auto]|].
    exists (x :: before), c, after. split; [reflexivity|]. split; [assumption|]. intros b [<-|Hb]; auto.
Qed.
Lemma line_suffix p i before c after : line p i (before ++ c :: after) -> line p c (c :: after).
Proof.
  revert i. induction before as [|b before IH]; intros i L; cbn in L.
  - inversion L; subst; [now constructor|]. assumption.
  - inversion L as [? E|? b' l E L']; subst; [destruct before; discriminate|]. now apply (IH b').
Qed.

Section Top.
  Variables (dn ds : bool) (ok proxy : method -> bool) (copyable : nat -> bool).
  Notation script := (hscript dn ds proxy).
  Variables (decls : list hcall) (order : list nat).
  Notation cs := (decls ++ map HForward order).
  Notation w := (fst (script cs [])).
  Notation answers := (snd (script cs [])).
  Notation P := (declared_parents answers).
  Hypothesis NFn : forall j n, ~ In (HFunction j n) decls.
  Hypothesis ND : forall j b, ~ In (HDisable j b) decls.
  Hypothesis NF : forall j, ~ In (HForward j) decls.
  Hypothesis Once : NoDup order.
  Hypothesis IN : forall c, In c order -> c < length w.
  Lemma no_functions : forall j m, ~ In (HFunction j m) cs.
  Proof. intros j m H. apply in_app_iff in H. destruct H as [H|H]; [now apply (NFn j m)|]. apply in_map_iff in H. destruct H as (? & ? & _). discriminate. Qed.

  Variables (i : nat) (l : list nat) (s : selector) (v : visibility).
  Hypothesis Ln : line P i l.
  Hypothesis Lo : forall c, In c l -> In c order.
  Hypothesis En : forall j k, In j l -> nth_error w j = Some k -> k_disabled k = false.
  Hypothesis One : one_virtual answers ok proxy l s v.
  Hypothesis Sp : special (called s) = false.
  Hypothesis Ny : called s <> "__copy__"%string.

  Lemma members c m : mt_virtual m = true -> (In m (Dispatch.methods_of w c) <-> declares_wrapped answers c m).
  Proof. intros V. exact (wrapped_declared dn ds proxy cs c m V). Qed.
  (** The declarations of the name. *)
  Lemma named c m : In c l -> declares_wrapped answers c m -> mt_name m = called s ->
    signature m = s /\ mt_virtual m = true /\ mt_vis m = v /\ ok m = true /\ proxy m = true.
  Proof.
    intros Hc (d & a & Hd & _ & _ & ->) Nm. destruct One as [O _]. destruct (O c d a Hc Hd Nm) as (H1 & H2 & H3 & H4 & H5 & H6).
    repeat split; auto.
  Qed.
  Lemma sig_name m : signature m = s -> mt_name m = called s.
  Proof. unfold called. intros <-. reflexivity. Qed.
  Lemma has_facts c m : In c l -> has_method answers c s m -> mt_virtual m = true /\ mt_vis m = v /\ ok m = true /\ proxy m = true.
  Proof. intros Hc [D S]. apply (named c m Hc D). now apply sig_name. Qed.
  Lemma has_members c m : In c l -> (has_method answers c s m <-> In m (Dispatch.methods_of w c) /\ mt_virtual m = true /\ signature m = s).
  Proof.
    intros Hc. split.
    - intros H. pose proof (has_facts c m Hc H) as (V & _). destruct H as [D S]. split; [now apply members|auto].
    - intros (H & V & S). split; [now apply members|assumption].
  Qed.
  Lemma has_dec c : {exists m, has_method answers c s m} + {~ exists m, has_method answers c s m}.
  Proof.
    destruct (in_dec Nat.eq_dec c l) as [Hc|Hc].
    - destruct (find (fun m => mt_virtual m && selects s m) (Dispatch.methods_of w c)) as [m|] eqn:F.
      + left. exists m. apply find_some in F. destruct F as [F1 F2]. apply andb_prop in F2 as [V S]. apply selects_eq in S. now apply has_members.
      + right. intros (m & H). apply has_members in H; [|assumption]. destruct H as (H & V & S). apply (find_none _ _ F) in H.
        apply selects_eq in S. rewrite V, S in H. discriminate.
    - destruct (existsb (fun x => match fst x, snd x with HMethod j d, Ok _ => Nat.eqb j c && md_wrappable d && selects s (method_of d) &&
          negb (is_protected (md_vis d) && negb (mt_virtual (method_of d))) | _, _ => false end) answers) eqn:B.
      + left. apply existsb_exists in B. destruct B as ([[d|j d|j n0|j n0|j n0|j n0|j b|j q|j|j|j z] [a|e]] & Hx & B); cbn [fst snd] in B; try discriminate.
        apply andb_prop in B as [B B4]. apply andb_prop in B as [B B3]. apply andb_prop in B as [B1 B2]. apply Nat.eqb_eq in B1. subst j. apply selects_eq in B3.
        exists (method_of d). split; [|assumption]. exists d, a. split; [assumption|]. split; [|auto]. unfold recorded. rewrite B2. intros [X Y].
        rewrite X, Y in B4. discriminate.
      + right. intros (m & (d & a & Hd & Rd & Wd & ->) & S). assert (X : false = true); [|discriminate]. rewrite <- B. apply existsb_exists. exists (HMethod c d, Ok a).
        split; [assumption|]. cbn [fst snd]. rewrite Nat.eqb_refl, Wd. apply selects_eq in S. rewrite S. cbn [andb]. unfold recorded in Rd. rewrite Wd in Rd.
        destruct (md_vis d) eqn:Vd; try reflexivity. destruct (mt_virtual (method_of d)) eqn:V; [reflexivity|]. exfalso. apply Rd. split; [reflexivity|reflexivity].
  Qed.

  Lemma suffix_line before c after : l = before ++ c :: after -> line P c (c :: after).
  Proof. intros E. rewrite E in Ln. now apply line_suffix in Ln. Qed.
  Lemma mro_at c after before : l = before ++ c :: after -> get_mro w c = Ok (c :: after).
  Proof. intros E. apply (line_ok dn ds proxy cs). now apply (suffix_line before). Qed.
  Lemma mro_here : get_mro w i = Ok l. Proof. apply (line_ok dn ds proxy cs). exact Ln. Qed.
  Lemma l_head : exists r, l = i :: r. Proof. inversion Ln; eauto. Qed.

  (** ** The nearest class that has the method *)
  Fixpoint scan (ls : list nat) : option (nat * method) :=
    match ls with
    | [] => None
    | c :: r => match find (fun m => mt_virtual m && selects s m) (Dispatch.methods_of w c) with Some m => Some (c, m) | None => scan r end
    end.
  Lemma holder_scan j : holder w j s = scan (resolution w j).
  Proof. unfold holder. induction (resolution w j) as [|c r IH]; [reflexivity|]. cbn [scan]. now rewrite IH. Qed.
  Lemma scan_found before c after m0 : (forall b, In b (before ++ c :: after) -> In b l) ->
    has_method answers c s m0 -> (forall b m, In b before -> ~ has_method answers b s m) ->
    exists m, scan (before ++ c :: after) = Some (c, m) /\ has_method answers c s m.
  Proof.
    induction before as [|b before IH]; cbn [app scan]; intros Sub Hm Nb.
    - assert (Hc : In c l) by (apply Sub; now left). destruct (find _ (Dispatch.methods_of w c)) as [m|] eqn:F.
      + exists m. split; [reflexivity|]. apply find_some in F. destruct F as [F1 F2]. apply andb_prop in F2 as [V S]. apply selects_eq in S. now apply has_members.
      + exfalso. apply has_members in Hm; [|assumption]. destruct Hm as (H & V & S). apply (find_none _ _ F) in H. apply selects_eq in S. rewrite V, S in H. discriminate.
    - destruct (find _ (Dispatch.methods_of w b)) as [m|] eqn:F.
      + exfalso. apply find_some in F. destruct F as [F1 F2]. apply andb_prop in F2 as [V S]. apply selects_eq in S.
        apply (Nb b m); [now left|]. apply has_members; [|auto]. apply Sub. now left.
      + apply IH; [intros b' Hb'; apply Sub; now right | assumption | intros b' m Hb; apply Nb; now right].
  Qed.
  Lemma holder_is before c after m0 : l = before ++ c :: after -> has_method answers c s m0 -> (forall b m, In b before -> ~ has_method answers b s m) ->
    forall pre post, before = pre ++ post -> exists j m, hd_error (post ++ c :: after) = Some j /\ holder w j s = Some (c, m) /\ has_method answers c s m.
  Proof.
    intros E Hm Nb pre post Eb. assert (exists j r, post ++ c :: after = j :: r) as (j & r & Ej) by (destruct post; cbn; eauto).
    destruct (scan_found post c after m0) as (m & Sc & Hm').
    - intros b Hb. rewrite E, Eb, <- app_assoc. apply in_or_app. now right.
    - exact Hm.
    - intros b m Hb. apply Nb. rewrite Eb. apply in_or_app. now right.
    - exists j, m. rewrite Ej. split; [reflexivity|]. split; [|assumption]. rewrite holder_scan. unfold resolution.
      rewrite (mro_at j r pre); [now rewrite <- Ej|]. rewrite E, Eb, <- app_assoc. now rewrite Ej.
  Qed.
  Lemma holder_top before c after m0 : l = before ++ c :: after -> has_method answers c s m0 -> (forall b m, In b before -> ~ has_method answers b s m) ->
    exists m, holder w i s = Some (c, m) /\ has_method answers c s m.
  Proof.
    intros E Hm Nb. destruct (holder_is before c after m0 E Hm Nb [] before eq_refl) as (j & m & Hj & X). exists m. destruct l_head as (r & Er).
    rewrite <- E, Er in Hj. injection Hj as <-. exact X.
  Qed.
  Lemma holder_self before c after m0 : l = before ++ c :: after -> has_method answers c s m0 -> (forall b m, In b before -> ~ has_method answers b s m) ->
    exists m, holder w c s = Some (c, m) /\ has_method answers c s m.
  Proof.
    intros E Hm Nb. destruct (holder_is before c after m0 E Hm Nb before []) as (j & m & Hj & X); [now rewrite app_nil_r|]. cbn in Hj. injection Hj as <-. eauto.
  Qed.
  Lemma pure_same c m m' : In c l -> has_method answers c s m -> has_method answers c s m' -> mt_pure m = mt_pure m'.
  Proof. intros Hc. apply (proj2 One c Hc). Qed.
  Lemma impl_in c : implementor answers l s c -> In c l.
  Proof. intros (before & after & -> & _). apply in_or_app. right. now left. Qed.
  Lemma qualified_top c : implementor answers l s c -> qualified w i s = BCpp c.
  Proof.
    intros Im. pose proof (impl_in c Im) as Hc. destruct Im as (before & after & E & (m0 & Hm & Pm) & Nb). destruct (holder_top before c after m0 E Hm Nb) as (m & Hh & Hm'). unfold qualified. rewrite Hh.
    now rewrite (pure_same c m m0 Hc Hm' Hm), Pm.
  Qed.
  Lemma qualified_self c : implementor answers l s c -> qualified w c s = BCpp c.
  Proof.
    intros Im. pose proof (impl_in c Im) as Hc. destruct Im as (before & after & E & (m0 & Hm & Pm) & Nb). destruct (holder_self before c after m0 E Hm Nb) as (m & Hh & Hm'). unfold qualified. rewrite Hh.
    now rewrite (pure_same c m m0 Hc Hm' Hm), Pm.
  Qed.
  Lemma owner_top c : implementor answers l s c -> owner w i s = c.
  Proof. intros (before & after & E & (m0 & Hm & Pm) & Nb). destruct (holder_top before c after m0 E Hm Nb) as (m & Hh & _). unfold owner. now rewrite Hh. Qed.

  (** ** Helper classes of the line *)
  Lemma helper_facts before c after h : l = before ++ c :: after -> helper_class w c = Some h ->
    (forall b m, In b (c :: after) -> has_method answers b s m -> exists p, In p (hp_virtuals h) /\ signature p = s) /\
    (forall p, In p (hp_virtuals h) -> mt_name p = called s -> exists b, has_method answers b s p /\ In b (c :: after) /\
       (forall d m, has_method answers d s m -> forall x y, c :: after = x ++ d :: y -> ~ In b y)).
  Proof.
    intros E Hh. assert (Hc : In c l) by (rewrite E; apply in_or_app; right; now left).
    assert (Sub : forall b, In b (c :: after) -> In b l) by (intros b Hb; rewrite E; apply in_or_app; now right).
    destruct (helper_content dn ds proxy decls order ND NF Once c (c :: after) h) as [H1 H2].
    - now apply Lo.
    - now apply IN, Lo.
    - eapply line_ext; [|exact (suffix_line before c after E)]. intros q. symmetry. apply parents_ok.
    - intros j k Hj. apply En. now apply Sub.
    - exact Hh.
    - split.
      + intros b m Hb Hm. pose proof (Sub b Hb) as Hbl. apply has_members in Hm; [|assumption]. destruct Hm as (M & V & S). destruct (H1 b m Hb M V) as (p & Hp & Sg). exists p. split; [assumption|congruence].
      + intros p Hp Np. destruct (H2 p Hp) as (V & x & b & y & Ex & Hb & Nx). exists b.
        assert (Hbl : In b (c :: after)) by (rewrite Ex; apply in_or_app; right; now left).
        assert (Hm : has_method answers b s p).
        { assert (D : declares_wrapped answers b p) by now apply members. split; [assumption|]. now apply (named b p (Sub b Hbl) D). }
        split; [assumption|]. split; [assumption|]. intros d m Hd x' y' Ex' Hy.
        assert (Nd : NoDup (c :: after)).
        { pose proof (line_sorted w (final_wf dn ds proxy cs) c (c :: after)) as Ls. apply Ls. eapply line_ext; [|exact (suffix_line before c after E)]. intros q. symmetry. apply parents_ok. }
        assert (Hdx : In d x).
        { rewrite Ex in Ex', Nd. clear - Ex' Hy Nd. revert x' Ex'. induction x as [|z x IH]; intros x' Ex'; cbn in Ex', Nd.
          - exfalso. inversion Nd as [|? ? N1 N2]; subst. destruct x' as [|z' x']; cbn in Ex'; injection Ex' as <- ->; apply N1; [assumption|]. apply in_or_app. right. now right.
          - inversion Nd as [|? ? N1 N2]; subst. destruct x' as [|z' x']; cbn in Ex'; injection Ex' as <- Ex'; [now left|]. right. now apply (IH N2 x'). }
        assert (Hdl : In d l) by (apply Sub; rewrite Ex; apply in_or_app; now left).
        apply (has_members d m Hdl) in Hd. destruct Hd as (M & Vm & Sm). apply (Nx d m Hdx M Vm). destruct Hm as [_ Sp']. congruence.
  Qed.
  Lemma proxy_found o : ob_class o = i -> ob_helper o = true -> helper_class w i <> None -> (exists c m, In c l /\ has_method answers c s m) ->
    exists p, find (selects s) (proxies proxy w i) = Some p /\ mt_vis p = v /\ forall c, implementor answers l s c -> mt_pure p = false.
  Proof.
    intros Oc Oh Hh (c & m & Hc & Hm). destruct (helper_class w i) as [h|] eqn:Eh; [|congruence]. destruct l_head as (r & Er).
    destruct (helper_facts [] i r h Er Eh) as [H1 H2]. destruct (H1 c m) as (p & Hp & Sg); [now rewrite <- Er|assumption|].
    unfold proxies. rewrite Eh. destruct (find (selects s) (filter proxy (hp_virtuals h))) as [q|] eqn:F.
    - exists q. split; [reflexivity|]. apply find_some in F. destruct F as [F1 F2]. apply filter_In in F1. destruct F1 as [F1 _]. apply selects_eq in F2.
      destruct (H2 q F1 (sig_name q F2)) as (b & Hb & Ib & Uq). rewrite <- Er in Ib. split; [now apply (has_facts b q Ib)|].
      intros c' (before & after & El & (m0 & Hm0 & Pm0) & Nb). assert (Cb : b = c').
      { rewrite El in Ib. apply in_app_iff in Ib. destruct Ib as [Ib|[Ib|Ib]]; [now elim (Nb b q Ib)|auto|].
        elim (Uq c' m0 Hm0 before after); [congruence|assumption]. }
      subst b. rewrite <- Pm0. apply (pure_same c'); auto.
    - exfalso. destruct (H2 p Hp (sig_name p Sg)) as (b & Hb & Ib & _). rewrite <- Er in Ib. assert (X : selects s p = false).
      { apply (find_none _ _ F p). apply filter_In. split; [assumption|]. now apply (has_facts b p Ib). }
      apply selects_eq in Sg. congruence.
  Qed.

  (** ** Calls from C++ *)
  Lemma cpp_overridden o k : v <> Private -> ob_class o = i -> ob_helper o = true -> helper_class w i <> None -> (exists c m, In c l /\ has_method answers c s m) ->
    first_definer (called s) (ob_python o) 0 k -> call_virtual proxy w o s = BPython k.
  Proof.
    intros Nv Oc Oh Hh Ex Fd. destruct (proxy_found o Oc Oh Hh Ex) as (p & F & _). unfold call_virtual. rewrite Oh, Oc, F. now rewrite (first_definer_eq _ _ _ _ Fd).
  Qed.
  Lemma cpp_plain o c : v <> Private -> ob_class o = i -> (ob_helper o = true -> helper_class w i <> None /\ no_definer (called s) (ob_python o) 0) ->
    implementor answers l s c -> call_virtual proxy w o s = BCpp c.
  Proof.
    intros Nv Oc Oh Im. unfold call_virtual. destruct (ob_helper o) eqn:Eo; [|rewrite Oc; now apply qualified_top].
    destruct (Oh eq_refl) as [Hh No]. pose proof Im as (before & after & El & (m0 & Hm0 & _) & _).
    destruct (proxy_found o Oc Eo Hh) as (p & F & Vp & Pp); [exists c, m0; split; [now apply impl_in|assumption]|].
    rewrite Oc, F, (no_definer_eq _ _ _ No), (Pp c Im), Vp, (owner_top c Im), (qualified_self c Im). destruct v; [reflexivity|reflexivity|congruence].
  Qed.

  (** ** Calls from Python *)
  Notation ts := (tables ok copyable w order).
  Lemma public_has c m : v = Public -> In c l -> (In m (public_methods answers c (called s)) <-> has_method answers c s m).
  Proof.
    intros Ev Hc. rewrite public_in. split.
    - intros (d & a & Hd & Nd & Wd & Vd & ->). destruct One as [O _]. destruct (O c d a Hc Hd Nd) as (H1 & _).
      split; [|assumption]. exists d, a. split; [assumption|]. split; [|auto]. unfold recorded. rewrite Wd, Vd. intros [X _]. discriminate.
    - intros Hm. pose proof (has_facts c m Hc Hm) as (_ & V & _). destruct Hm as [(d & a & Hd & _ & Wd & ->) Sg]. exists d, a.
      split; [assumption|]. split; [now apply (sig_name (method_of d))|]. rewrite Ev in V. auto.
  Qed.
  Lemma found_public : v = Public -> (exists c m, In c l /\ has_method answers c s m) ->
    exists before c after m, l = before ++ c :: after /\ has_method answers c s m /\ (forall b m, In b before -> ~ has_method answers b s m) /\
      exists ws, find_method ts w i (called s) = Some (c, TWrappers ws) /\
        find (fun x => selects s (wr_method x)) ws = Some (mk_wrapper m c).
  Proof.
    intros Ev (c0 & m0 & Hc0 & Hm0).
    destruct (first_class (fun c => exists m, has_method answers c s m) has_dec l) as (before & c & after & El & (m1 & Hm1) & Nb); [eauto|].
    assert (Hc : In c l) by (rewrite El; apply in_or_app; right; now left).
    pose proof (line_found dn ds proxy ok (caller_names ok w) copyable cs no_functions order Once IN i before c after (called s)) as Lf.
    assert (Hp1 : In m1 (public_methods answers c (called s))) by now apply public_has.
    assert (Sub : forall b, In b before -> In b l) by (intros b Hb; rewrite El; apply in_or_app; now left).
    specialize (Lf ltac:(now rewrite <- El) Sp Ny).
    assert (Nc : forall b, In b before -> ~ In (called s) (caller_names ok w b)).
    { intros b Hb Hn. apply in_map_iff in Hn. destruct Hn as (p & Np & Hp). unfold parent_callers in Hp. destruct (helper_class w b) as [h|] eqn:Eh; [|destruct Hp].
      apply filter_In in Hp. destruct Hp as [Hp X]. apply andb_prop in X as [X _]. apply andb_prop in X as [X _].
      pose proof (Sub b Hb) as Hbl. apply in_split in Hbl. destruct Hbl as (x & y & Exy).
      destruct (helper_facts x b y h Exy Eh) as [_ H2]. destruct (H2 p Hp Np) as (d & Hd & Id & _).
      assert (Hdl : In d l) by (rewrite Exy; apply in_or_app; now right). destruct (has_facts d p Hdl Hd) as (_ & Vp & _). rewrite Vp, Ev in X. discriminate. }
    specialize (Lf Nc (Lo c Hc)).
    assert (Ne : forall b m, In b before -> In m (public_methods answers b (called s)) -> ok m = false).
    { intros b m Hb Hm. elim (Nb b Hb). exists m. apply public_has; auto. }
    specialize (Lf Ne ltac:(exists m1; split; [assumption|now apply (has_facts c m1 Hc)])).
    destruct (find (fun x => selects s (wr_method x)) (map (fun m => mk_wrapper m c) (filter ok (public_methods answers c (called s))))) as [x|] eqn:F.
    - pose proof (find_some _ _ F) as [Fx _]. apply in_map_iff in Fx. destruct Fx as (m & <- & Hm). apply filter_In in Hm. destruct Hm as [Hm _].
      exists before, c, after, m. split; [assumption|]. split; [now apply public_has|]. split; [intros b m' Hb Hm'; apply (Nb b Hb); eauto|].
      exists (map (fun m => mk_wrapper m c) (filter ok (public_methods answers c (called s)))). split; [exact Lf|exact F].
    - exfalso. assert (X : selects s m1 = false).
      { apply (find_none _ _ F (mk_wrapper m1 c)). apply in_map_iff. exists m1. split; [reflexivity|]. apply filter_In.
        split; [assumption|now apply (has_facts c m1 Hc)]. }
      destruct Hm1 as [_ Sg]. apply selects_eq in Sg. congruence.
  Qed.
  Lemma nearest_impl before c after m c' : l = before ++ c :: after -> has_method answers c s m -> (forall b m, In b before -> ~ has_method answers b s m) ->
    implementor answers l s c' -> c = c' /\ mt_pure m = false.
  Proof.
    intros El Hm Nb (before' & after' & El' & (m' & Hm' & Pm') & Nb'). assert (c = c').
    { clear - El El' Hm Hm' Nb Nb'. rewrite El in El'. clear El. revert before' Nb' El'. induction before as [|b before IH]; intros [|b' before'] Nb' E; cbn in E; injection E as -> E.
      - reflexivity.
      - elim (Nb' b' m); [now left|assumption].
      - elim (Nb c' m'); [now left|assumption].
      - apply (IH ltac:(intros; apply Nb; now right) before'); [intros; apply Nb'; now right|assumption]. }
    subst c'. split; [reflexivity|]. rewrite <- Pm'. apply (pure_same c); auto. rewrite El. apply in_or_app. right. now left.
  Qed.
  Lemma python_defined o from k : first_definer (called s) (ob_python o) from k -> call_python ok proxy copyable w order o from s = BPython k.
  Proof. intros Fd. unfold call_python. now rewrite (first_definer_eq _ _ _ _ Fd). Qed.
  Lemma python_plain o c : v = Public -> ob_class o = i -> (ob_helper o = true -> helper_class w i <> None) -> no_definer (called s) (ob_python o) 0 ->
    implementor answers l s c -> call_python ok proxy copyable w order o 0 s = BCpp c.
  Proof.
    intros Ev Oc Oh No Im. unfold call_python. rewrite (no_definer_eq _ _ _ No), Oc.
    pose proof Im as (b0 & a0 & E0 & (m0 & Hm0 & _) & _).
    destruct (found_public Ev) as (before & c1 & after & m & El & Hm & Nb & ws & F1 & F2); [exists c, m0; split; [now apply impl_in|assumption]|].
    rewrite F1, F2. cbn [wr_method]. assert (Cv : call_virtual proxy w o s = BCpp c) by (apply cpp_plain; [congruence|assumption|auto|assumption]).
    unfold run_wrapper. destruct (helper_class w c1); [|assumption]. destruct (_ && _) eqn:B; [|assumption].
    apply andb_prop in B as [_ B]. apply andb_prop in B as [_ B]. apply Nat.eqb_eq in B. rewrite Oc in B. subst c1. now apply qualified_top.
  Qed.
  (** super() *)
  Lemma python_super o from : v = Public -> ob_class o = i -> ob_helper o = true -> helper_class w i <> None -> no_definer (called s) (ob_python o) from ->
    implementor answers l s i -> call_python ok proxy copyable w order o from s = BCpp i.
  Proof.
    intros Ev Oc Oh Hh No Im. unfold call_python. rewrite (no_definer_eq _ _ _ No), Oc. destruct l_head as (r & Er).
    pose proof Im as (b0 & a0 & E0 & (m0 & Hm0 & _) & _).
    destruct (found_public Ev) as (before & c1 & after & m & El & Hm & Nb & ws & F1 & F2); [exists i, m0; split; [now apply impl_in|assumption]|].
    destruct (nearest_impl before c1 after m i El Hm Nb Im) as [-> Pm]. rewrite F1, F2. cbn [wr_method]. unfold run_wrapper.
    destruct (helper_class w i) as [h|]; [|congruence]. assert (Hi : In i l) by now apply impl_in.
    destruct (has_facts i m Hi Hm) as (V & _). rewrite V, Pm, Oh, Oc, Nat.eqb_refl. cbn [negb andb]. now apply qualified_top.
  Qed.
  Lemma python_super_back o from k : v = Public -> ob_class o = i -> ob_helper o = true -> helper_class w i <> None ->
    no_definer (called s) (ob_python o) from -> first_definer (called s) (ob_python o) 0 k ->
    (exists c m, In c l /\ has_method answers c s m) -> ~ implementor answers l s i ->
    call_python ok proxy copyable w order o from s = BPython k.
  Proof.
    intros Ev Oc Oh Hh No Fd Ex Ni. unfold call_python. rewrite (no_definer_eq _ _ _ No), Oc.
    destruct (found_public Ev Ex) as (before & c1 & after & m & El & Hm & Nb & ws & F1 & F2). rewrite F1, F2. cbn [wr_method].
    assert (Cv : call_virtual proxy w o s = BPython k) by (apply cpp_overridden; auto; congruence).
    unfold run_wrapper. destruct (helper_class w c1); [|assumption]. destruct (_ && _) eqn:B; [|assumption]. exfalso.
    apply andb_prop in B as [B1 B]. apply andb_prop in B1 as [_ B1]. apply andb_prop in B as [_ B]. apply Nat.eqb_eq in B. rewrite Oc in B. subst c1.
    apply Ni. exists before, after. split; [assumption|]. split; [exists m; split; [assumption|]|assumption]. now apply negb_true_iff in B1.
  Qed.

  (** ** Protected methods *)
  Lemma protected_empty c : v = Protected -> In c l -> public_methods answers c (called s) = [].
  Proof.
    intros Ev Hc. destruct (public_methods answers c (called s)) as [|m r] eqn:E; [reflexivity|].
    assert (H : In m (public_methods answers c (called s))) by (rewrite E; now left). apply public_in in H. destruct H as (d & a & Hd & Nd & Wd & Vd & _).
    destruct One as [O _]. destruct (O c d a Hc Hd Nd) as (_ & _ & X & _). congruence.
  Qed.
  Lemma caller_first names t n : In n names -> table_get (map (fun n => (n, TCaller)) names ++ t) n = Some TCaller.
  Proof.
    intros H. rewrite table_get_app. unfold table_get. induction names as [|x names IH]; [destruct H|]. cbn. destruct (String.eqb x n) eqn:E; [reflexivity|].
    destruct H as [->|H]; [now rewrite String.eqb_refl in E|]. apply IH, H.
  Qed.
  Lemma python_protected o from c : v = Protected -> ob_class o = i -> ob_helper o = true -> helper_class w i <> None ->
    no_definer (called s) (ob_python o) from -> implementor answers l s c -> call_python ok proxy copyable w order o from s = BCpp c.
  Proof.
    intros Ev Oc Oh Hh No Im. unfold call_python. rewrite (no_definer_eq _ _ _ No), Oc. destruct l_head as (r & Er).
    assert (Hi : In i l) by (rewrite Er; now left).
    destruct (helper_class w i) as [h|] eqn:Eh; [|congruence]. destruct (helper_facts [] i r h Er Eh) as [H1 H2].
    pose proof (impl_in c Im) as Hc. pose proof Im as (before & after & El & (m0 & Hm0 & Pm0) & Nb).
    destruct (H1 c m0) as (p & Hp & Sg); [now rewrite <- Er|assumption|].
    assert (Pc : In p (parent_callers ok w i)).
    { unfold parent_callers. rewrite Eh. apply filter_In. split; [assumption|]. destruct (H2 p Hp (sig_name p Sg)) as (b & Hb & Ib & Uq).
      rewrite <- Er in Ib. destruct (has_facts b p Ib Hb) as (_ & Vp & Op & _). rewrite Vp, Ev, Op. cbn.
      assert (b = c) as ->.
      { rewrite El in Ib. apply in_app_iff in Ib. destruct Ib as [Ib|[Ib|Ib]]; [now elim (Nb b p Ib)|auto|]. elim (Uq c m0 Hm0 before after); [congruence|assumption]. }
      rewrite (pure_same c p m0 Hc Hb Hm0), Pm0. reflexivity. }
    assert (Tg : table_get (table_of ts i) (called s) = Some TCaller).
    { destruct (table_parts dn ds proxy ok (caller_names ok w) copyable cs no_functions order Once IN i (Lo i Hi)) as (done & w' & acc & rest & _ & _ & _ & _ & _ & Tp).
      unfold tables. rewrite Tp, table_get_app, (own_get dn ds proxy ok cs no_functions i (called s)), Sp, (protected_empty i Ev Hi). cbn [filter].
      apply caller_first. unfold caller_names. apply in_map_iff. exists p. split; [now apply sig_name|assumption]. }
    unfold find_method. rewrite (type_mro_line w (final_wf dn ds proxy cs) i l) by (eapply line_ext; [|exact Ln]; intros q; symmetry; apply parents_ok).
    rewrite Er. cbn [look_up]. rewrite Tg. unfold run_caller. destruct (find (selects s) (parent_callers ok w i)) as [q|] eqn:F.
    - rewrite Oh, Oc, Nat.eqb_refl. cbn [andb]. rewrite (owner_top c Im). now apply qualified_self.
    - exfalso. pose proof (find_none _ _ F p Pc) as X. apply selects_eq in Sg. congruence.
  Qed.
  Lemma python_refused o from : v = Protected -> ob_class o = i -> ob_helper o = false -> no_definer (called s) (ob_python o) from ->
    call_python ok proxy copyable w order o from s = BTypeError \/ call_python ok proxy copyable w order o from s = BAttributeError.
  Proof.
    intros Ev Oc Oh No. unfold call_python. rewrite (no_definer_eq _ _ _ No), Oc.
    destruct (find_method ts w i (called s)) as [[k t]|] eqn:F; [|now right]. left.
    unfold find_method in F. rewrite (type_mro_line w (final_wf dn ds proxy cs) i l) in F by (eapply line_ext; [|exact Ln]; intros q; symmetry; apply parents_ok).
    apply look_up_some in F. destruct F as (before & after & El & Tg & _). assert (Hk : In k l) by (rewrite El; apply in_or_app; right; now left).
    destruct t as [ws| |].
    - exfalso. apply table_get_in in Tg. unfold tables in Tg.
      destruct (table_sound dn ds proxy ok (caller_names ok w) copyable cs no_functions order Once IN k (called s) ws Tg) as (_ & _ & Ne & [-> |(Sv & _)]).
      + rewrite (protected_empty k Ev Hk) in Ne. now apply Ne.
      + unfold several in Sv. pose proof (line_single dn ds proxy (caller_names ok w) copyable cs no_functions order IN i l Ln k Hk). lia.
    - unfold run_caller. rewrite Oh. cbn [andb]. destruct (find _ _); reflexivity.
    - reflexivity.
  Qed.
End Top.
