(** How Python finds methods through the tables. *)
From Verif.Model Require Import Py PyState Hierarchy MethodTable.
From Verif.Spec Require Import HierarchySpec MethodTableSpec.
From Verif.Proofs Require Import StrLemmas HierarchyProofs PureProofs PureScript HelperProofs HierarchyTop TableDeclared TableFold TableGen TableTop.
From Coq Require Import Lia.
Open Scope list_scope.

(** ** The order of the types *)
Lemma gather_some {A} (l : list (option A)) r : gather l = Some r -> l = map Some r.
Proof.
  revert r. induction l as [|[x|] l IH]; intros r E; cbn in E.
  - injection E as <-. reflexivity.
  - destruct (gather l) as [s|]; [|discriminate]. injection E as <-. cbn. now rewrite (IH s eq_refl).
  - discriminate.
Qed.
Lemma candidate_in ls all c : candidate ls all = Some c -> exists l, In (c :: l) ls.
Proof.
  induction ls as [|[|x l] ls IH]; cbn; [discriminate| |].
  - intros E. destruct (IH E) as (l & H). exists l. now right.
  - destruct (head_ok x all); intros E; [injection E as <-; exists l; now left|]. destruct (IH E) as (l' & H). exists l'. now right.
Qed.
Lemma merge_in : forall f ls r, merge f ls = Some r -> forall c, In c r <-> exists l, In l ls /\ In c l.
Proof.
  assert (Z : forall ls, forallb (fun l : list nat => match l with [] => true | _ => false end) ls = true -> forall c, ~ exists l, In l ls /\ In c l).
  { intros ls B c (l & Hl & Hc). rewrite forallb_forall in B. specialize (B l Hl). destruct l; [destruct Hc|discriminate]. }
  induction f as [|f IH]; intros ls r E c; cbn [merge] in E; destruct (forallb _ ls) eqn:B.
  - injection E as <-. split; [intros []|]. intros H. now elim (Z ls B c).
  - discriminate.
  - injection E as <-. split; [intros []|]. intros H. now elim (Z ls B c).
  - destruct (candidate ls ls) as [x|] eqn:C; [|discriminate]. destruct (merge f _) as [s|] eqn:M; [|discriminate]. injection E as <-.
    specialize (IH _ _ M c). destruct (candidate_in _ _ _ C) as (l0 & H0). split.
    + intros [<-|H].
      * exists (x :: l0). split; [assumption|now left].
      * apply IH in H. destruct H as (l & Hl & Hc). apply in_map_iff in Hl. destruct Hl as (l' & <- & Hl'). exists l'. split; [assumption|].
        unfold remove_head in Hc. destruct l' as [|y l']; [destruct Hc|]. destruct (Nat.eqb y x); [now right|assumption].
    + intros (l & Hl & Hc). destruct (Nat.eq_dec x c) as [->|Ne]; [now left|]. right. apply IH. exists (remove_head x l). split; [now apply in_map|].
      destruct l as [|y l]; [destruct Hc|]. cbn. destruct (Nat.eqb y x) eqn:E; [|assumption]. apply Nat.eqb_eq in E. destruct Hc as [Hc|Hc]; [congruence|assumption].
Qed.

Section Mro.
  Variable w : hier.
  Hypothesis W : wf w.
  Lemma mro_fuel : forall i f g, i < f -> i < g -> python_mro f w i = python_mro g w i.
  Proof.
    induction i as [i IH] using lt_wf_ind. intros f g Hf Hg. destruct f as [|f]; [lia|]. destruct g as [|g]; [lia|]. cbn [python_mro].
    pose proof (W i) as Wi. destruct (bases w i) as [|b [|b' bs]]; [reflexivity| |].
    - specialize (Wi b (or_introl eq_refl)). rewrite (IH b Wi f g) by lia. reflexivity.
    - assert (E : map (python_mro f w) (b :: b' :: bs) = map (python_mro g w) (b :: b' :: bs)).
      { apply map_ext_in. intros x Hx. specialize (Wi x Hx). apply IH; lia. }
      now rewrite E.
  Qed.
  Lemma type_mro_head i l : type_mro w i = Some l -> exists r, l = i :: r.
  Proof.
    unfold type_mro. cbn [python_mro]. destruct (bases w i) as [|b [|b' bs]].
    - intros [= <-]. eauto.
    - destruct (python_mro i w b); [|discriminate]. intros [= <-]. eauto.
    - destruct (gather _); [|discriminate]. destruct (merge _ _); [|discriminate]. intros [= <-]. eauto.
  Qed.
  Lemma type_mro_single i b : bases w i = [b] -> type_mro w i = option_map (cons i) (type_mro w b).
  Proof.
    intros E. unfold type_mro at 1. cbn [python_mro]. rewrite E. f_equal. apply mro_fuel; [|lia].
    apply (W i). rewrite E. now left.
  Qed.
  Lemma type_mro_ancestors : forall i l, type_mro w i = Some l -> forall c, In c l <-> ancestor (bases w) i c.
  Proof.
    induction i as [i IH] using lt_wf_ind. intros l E c. destruct (bases w i) as [|b [|b' bs]] eqn:B.
    - unfold type_mro in E. cbn [python_mro] in E. rewrite B in E. injection E as <-. cbn. split.
      + intros [<-|[]]. constructor.
      + intros A. inversion A as [|? x ? Hx]; subst; [now left|]. rewrite B in Hx. destruct Hx.
    - rewrite (type_mro_single i b B) in E. destruct (type_mro w b) as [r|] eqn:T; [|discriminate]. injection E as <-.
      assert (Lb : b < i) by (apply (W i); rewrite B; now left). specialize (IH b Lb r T c). cbn. rewrite IH. split.
      + intros [<-|A]; [constructor|]. eapply ancestor_up; [rewrite B; now left|assumption].
      + intros A. inversion A as [|? x ? Hx]; subst; [now left|]. rewrite B in Hx. destruct Hx as [<-|[]]. now right.
    - unfold type_mro in E. cbn [python_mro] in E. rewrite B in E. destruct (gather _) as [ls|] eqn:G; [|discriminate].
      destruct (merge _ _) as [r|] eqn:M; [|discriminate]. injection E as <-. apply gather_some in G.
      assert (Each : forall x, In x (b :: b' :: bs) -> exists lx, In lx ls /\ type_mro w x = Some lx).
      { intros x Hx. assert (Lx : x < i) by (apply (W i); now rewrite B). apply (in_map (python_mro i w)) in Hx. rewrite G in Hx.
        apply in_map_iff in Hx. destruct Hx as (lx & Ex & Hl). exists lx. split; [assumption|]. rewrite Ex. apply mro_fuel; lia. }
      assert (Back : forall lx, In lx ls -> exists x, In x (b :: b' :: bs) /\ type_mro w x = Some lx).
      { intros lx Hl. assert (H : In (Some lx) (map (python_mro i w) (b :: b' :: bs))) by (rewrite G; now apply in_map).
        apply in_map_iff in H. destruct H as (x & Ex & Hx). assert (Lx : x < i) by (apply (W i); now rewrite B). exists x. split; [assumption|].
        rewrite <- Ex. apply mro_fuel; lia. }
      cbn [In]. rewrite (merge_in _ _ _ M c). split.
      + intros [<-|(l & Hl & Hc)]; [constructor|]. apply in_app_iff in Hl. destruct Hl as [Hl|[<-|[]]].
        * destruct (Back l Hl) as (x & Hx & T). assert (Lx : x < i) by (apply (W i); now rewrite B).
          eapply ancestor_up; [rewrite B; exact Hx|]. now apply (IH x Lx l T).
        * eapply ancestor_up; [rewrite B; exact Hc|constructor].
      + intros A. inversion A as [|? x ? Hx Ax]; subst; [now left|]. right. rewrite B in Hx. destruct (Each x Hx) as (lx & Hl & T).
        assert (Lx : x < i) by (apply (W i); now rewrite B). exists lx. split; [apply in_app_iff; now left|]. now apply (IH x Lx lx T).
  Qed.
  Lemma type_mro_line i l : line (bases w) i l -> type_mro w i = Some l.
  Proof.
    induction 1 as [i B|i b l B L IH].
    - unfold type_mro. cbn [python_mro]. now rewrite B.
    - rewrite (type_mro_single i b B), IH. reflexivity.
  Qed.
End Mro.

Lemma look_up_some ts order n k t : look_up ts order n = Some (k, t) ->
  exists before after, order = before ++ k :: after /\ table_get (table_of ts k) n = Some t /\ forall c, In c before -> table_get (table_of ts c) n = None.
Proof.
  induction order as [|c order IH]; cbn; [discriminate|]. destruct (table_get (table_of ts c) n) as [t'|] eqn:E.
  - intros [= -> ->]. exists [], order. split; [reflexivity|]. split; [assumption|intros c []].
  - intros H. destruct (IH H) as (before & after & -> & T & B). exists (c :: before), after. split; [reflexivity|]. split; [assumption|].
    intros x [<-|Hx]; auto.
Qed.
Lemma look_up_none ts order n : look_up ts order n = None <-> forall c, In c order -> table_get (table_of ts c) n = None.
Proof.
  induction order as [|c order IH]; cbn; [split; [intros _ c []|reflexivity]|]. destruct (table_get (table_of ts c) n) as [t'|] eqn:E.
  - split; [discriminate|]. intros H. rewrite (H c (or_introl eq_refl)) in E. discriminate.
  - rewrite IH. split; [intros H x [<-|Hx]; auto|auto].
Qed.
Lemma look_up_skip ts before after n : (forall c, In c before -> table_get (table_of ts c) n = None) -> look_up ts (before ++ after) n = look_up ts after n.
Proof.
  induction before as [|c before IH]; cbn; intros H; [reflexivity|]. rewrite (H c) by now left. apply IH. auto.
Qed.
Lemma table_get_in t n x : table_get t n = Some x -> In (n, x) t.
Proof.
  unfold table_get. destruct (find _ t) as [[k y]|] eqn:E; [|discriminate]. intros [= <-]. apply find_some in E. destruct E as [E1 E2].
  cbn in E2. apply String.eqb_eq in E2. now subst k.
Qed.

Section Top.
  Variables (dn ds : bool) (proxy : method -> bool).
  Variables (ok : method -> bool) (callers : nat -> list string) (copyable : nat -> bool).
  Notation script := (hscript dn ds proxy).
  Variable cs : list hcall.
  Hypothesis NF : forall j m, ~ In (HFunction j m) cs.
  Notation w0 := (fst (script cs [])).
  Notation answers := (snd (script cs [])).
  Notation P := (declared_parents answers).
  Variable order : list nat.
  Hypothesis ND : NoDup order.
  Hypothesis IN : forall c, In c order -> c < length w0.
  Notation ts := (generate_tables ok callers copyable order w0).

  (** An entry of a class for a name that is neither a parent caller nor __copy__. *)
  Lemma entry_sound i n t : ~ In n (callers i) -> n <> "__copy__"%string -> table_get (table_of ts i) n = Some t ->
    exists l, t = TWrappers l /\ In (n, TWrappers l) (table_of ts i).
  Proof.
    intros Nc Ny H. apply table_get_in in H. destruct t as [l| |].
    - exists l. auto.
    - exfalso. destruct (in_dec Nat.eq_dec i order) as [Hi|Hi]; [|rewrite (table_missing ok callers copyable order i Hi) in H; destruct H].
      destruct (table_parts dn ds proxy ok callers copyable cs NF order ND IN i Hi) as (done & w & acc & rest & _ & _ & _ & _ & _ & T). rewrite T in H.
      apply in_app_iff in H. destruct H as [H|H]; [|apply in_app_iff in H; destruct H as [H|H]; [|apply in_app_iff in H; destruct H as [H|H]]].
      + rewrite own_entries_eq in H. apply (entries_in _ _ (own_one ok i)) in H. destruct H as (v & _ & H). unfold own_g, entry_of in H.
        destruct (special n); [destruct H|]. destruct (filter _ _); [destruct H|]. destruct H as [H|[]]. discriminate.
      + apply in_map_iff in H. destruct H as (x & [= ->] & H). auto.
      + rewrite inh_entries_eq in H. apply (entries_in _ _ (inh_one ok)) in H. destruct H as (v & _ & H). unfold inh_g, entry_of in H.
        destruct (one_class v); [|destruct H]. destruct (filter _ _); [destruct H|]. destruct H as [H|[]]. discriminate.
      + destruct (copyable i); [|destruct H]. destruct H as [H|[]]. discriminate.
    - exfalso. destruct (in_dec Nat.eq_dec i order) as [Hi|Hi]; [|rewrite (table_missing ok callers copyable order i Hi) in H; destruct H].
      destruct (table_parts dn ds proxy ok callers copyable cs NF order ND IN i Hi) as (done & w & acc & rest & _ & _ & _ & _ & _ & T). rewrite T in H.
      apply in_app_iff in H. destruct H as [H|H]; [|apply in_app_iff in H; destruct H as [H|H]; [|apply in_app_iff in H; destruct H as [H|H]]].
      + rewrite own_entries_eq in H. apply (entries_in _ _ (own_one ok i)) in H. destruct H as (v & _ & H). unfold own_g, entry_of in H.
        destruct (special n); [destruct H|]. destruct (filter _ _); [destruct H|]. destruct H as [H|[]]. discriminate.
      + apply in_map_iff in H. destruct H as (x & H & _). discriminate.
      + rewrite inh_entries_eq in H. apply (entries_in _ _ (inh_one ok)) in H. destruct H as (v & _ & H). unfold inh_g, entry_of in H.
        destruct (one_class v); [|destruct H]. destruct (filter _ _); [destruct H|]. destruct H as [H|[]]. discriminate.
      + destruct (copyable i); [|destruct H]. destruct H as [H|[]]. congruence.
  Qed.

  Lemma above_ancestor i c : ancestor P i c -> c = i \/ above answers i c.
  Proof. intros A. inversion A as [|? b ? Hb Ab]; subst; [now left|]. right. exists b. auto. Qed.

  Lemma aim_ok n : n <> "__copy__"%string -> forall i,
    (forall c, ancestor P i c -> In c order /\ ~ In n (callers c)) ->
    (forall x, first_line answers i x -> several answers x -> tidy answers ok x n) ->
    forall k t, find_method ts w0 i n = Some (k, t) -> first_line answers i k.
  Proof.
    intros Ny. induction i as [i IH] using lt_wf_ind. intros Ac Td k t H. pose proof (final_wf dn ds proxy cs) as W.
    assert (B : bases w0 i = P i) by apply parents_ok.
    unfold find_method in H. destruct (type_mro w0 i) as [l|] eqn:T; [|discriminate].
    destruct (type_mro_head w0 i l T) as (r & ->). cbn [look_up] in H. destruct (table_get (table_of ts i) n) as [t0|] eqn:E; [injection H as <- <-; constructor|].
    destruct (P i) as [|b [|b' bs]] eqn:Pi.
    - unfold type_mro in T. cbn [python_mro] in T. rewrite B in T. injection T as <-. discriminate.
    - rewrite (type_mro_single w0 W i b B) in T. destruct (type_mro w0 b) as [l|] eqn:Tb; [|discriminate]. injection T as <-.
      assert (Lb : b < i) by (apply (W i); rewrite B; now left).
      apply (first_up answers i b [] k Pi). apply (IH b Lb) with (t := t).
      + intros c A. apply Ac. eapply ancestor_up; [rewrite Pi; now left|assumption].
      + intros x Fx. apply Td. eapply first_up; eauto.
      + unfold find_method. now rewrite Tb.
    - exfalso. assert (Sv : several answers i) by (unfold several; rewrite Pi; cbn; lia).
      destruct (look_up_some _ _ _ _ _ H) as (before & after & Er & Tk & _).
      assert (Ai : ancestor P i k).
      { apply (ancestor_ext _ _ (parents_ok dn ds proxy cs)). apply (type_mro_ancestors w0 W i _ T). right. rewrite Er. apply in_app_iff. right. now left. }
      destruct (Ac k Ai) as [Ok_ Nk]. destruct (entry_sound k n t Nk Ny Tk) as (lk & -> & Hk).
      destruct (table_sound dn ds proxy ok callers copyable cs NF order ND IN k n lk Hk) as (_ & Sp & Ne & Ori).
      destruct (Ac i (ancestor_self _ _)) as [Oi Ni].
      assert (Own : filter ok (public_methods answers i n) = []).
      { destruct (filter ok (public_methods answers i n)) as [|q qs] eqn:Fq; [reflexivity|].
        rewrite (own_ok dn ds proxy ok callers copyable cs NF order ND IN i n Oi Sp) in E; [discriminate|]. congruence. }
      assert (Src : exists b m, (b = k \/ above answers k b) /\ In m (public_methods answers b n) /\ ok m = true).
      { destruct Ori as [-> |(_ & _ & a & Aa & X)].
        - destruct (filter ok (public_methods answers k n)) as [|m0 l0] eqn:Fm; [now elim Ne|]. exists k, m0. split; [now left|].
          apply filter_In. rewrite Fm. now left.
        - destruct lk as [|x lk]; [now elim Ne|]. destruct (X x (or_introl eq_refl)) as (Xc & Xo & _ & b0 & Hb & Hm).
          exists b0, (wr_method x). split; [|auto]. right. destruct Hb as [-> |Hb]; [assumption|].
            apply (sup_above dn ds proxy). eapply sup_trans; apply (sup_above dn ds proxy); eassumption. }
      destruct Src as (a & m & Ha & Hm & Om).
      assert (Aa : above answers i a \/ a = i).
      { destruct (above_ancestor i k Ai) as [-> |Aik].
        - destruct Ha as [->|Ha]; auto.
        - destruct Ha as [->|Ha]; [now left|]. left. apply (sup_above dn ds proxy). eapply sup_trans; apply (sup_above dn ds proxy); eassumption. }
      destruct Aa as [Aa| ->].
      + destruct (Td i (first_self _ _) Sv) as [(m0 & Hm0 & Om0)|(Nof & Uq & Kp)].
        * assert (X : In m0 (filter ok (public_methods answers i n))) by (apply filter_In; auto). rewrite Own in X. destruct X.
        * destruct (Kp a m Aa Hm Om) as (m' & Hm' & Om' & Nh').
          assert (Oa : offers answers a n) by (unfold offers; intros X; rewrite X in Hm; destruct Hm).
          destruct (inherited_ok dn ds proxy ok callers copyable cs NF order ND IN i n a m' Oi Sv Sp Nof Aa (fun b Ab Ob => Uq b a Ab Aa Ob Oa) Ni Hm' Om' Nh')
            as (keep & kk & Q1 & Q2 & Q3 & G). rewrite G in E. discriminate.
      + assert (X : In m (filter ok (public_methods answers i n))) by (apply filter_In; auto). rewrite Own in X. destruct X.
  Qed.

  Lemma found_ok i n a m l : type_mro w0 i = Some l -> ancestor P i a -> In a order -> special n = false ->
    In m (public_methods answers a n) -> ok m = true -> find_method ts w0 i n <> None.
  Proof.
    intros T A Oa Sp Hm Om. unfold find_method. rewrite T. intros H. rewrite look_up_none in H.
    assert (Il : In a l). { apply (type_mro_ancestors w0 (final_wf dn ds proxy cs) i l T). now apply (ancestor_ext _ _ (parents_ok dn ds proxy cs)). }
    specialize (H a Il). rewrite (own_ok dn ds proxy ok callers copyable cs NF order ND IN a n Oa Sp) in H; [discriminate|].
    apply filter_none. exists m. auto.
  Qed.

  Lemma line_single i l : line P i l -> forall b, In b l -> length (P b) <= 1.
  Proof. induction 1 as [i E|i b l E L IH]; intros x [<-|Hx]; try (rewrite E; cbn; lia); [destruct Hx|auto]. Qed.
  Lemma line_found i before c after n : line P i (before ++ c :: after) -> special n = false -> n <> "__copy__"%string ->
    (forall b, In b before -> ~ In n (callers b)) -> In c order ->
    (forall b m, In b before -> In m (public_methods answers b n) -> ok m = false) -> (exists m, In m (public_methods answers c n) /\ ok m = true) ->
    find_method ts w0 i n = Some (c, TWrappers (map (fun m => mk_wrapper m c) (filter ok (public_methods answers c n)))).
  Proof.
    intros Ln Sp Ny Nc Oc Nb (m & Hm & Om). unfold find_method.
    assert (E : forall q, P q = bases w0 q) by (intros q; symmetry; apply parents_ok).
    rewrite (type_mro_line w0 (final_wf dn ds proxy cs) i (before ++ c :: after)) by (eapply line_ext; [exact E|exact Ln]).
    rewrite look_up_skip.
    - cbn [look_up]. rewrite (own_ok dn ds proxy ok callers copyable cs NF order ND IN c n Oc Sp); [reflexivity|]. apply filter_none. exists m. auto.
    - intros b Hb. destruct (table_get (table_of ts b) n) as [t|] eqn:G; [|reflexivity]. exfalso.
      destruct (entry_sound b n t (Nc b Hb) Ny G) as (l & -> & Hl).
      destruct (table_sound dn ds proxy ok callers copyable cs NF order ND IN b n l Hl) as (_ & _ & Ne & [-> |(Sv & _)]).
      + destruct (filter ok (public_methods answers b n)) as [|q qs] eqn:Fq; [now elim Ne|].
        assert (X : In q (filter ok (public_methods answers b n))) by (rewrite Fq; now left). apply filter_In in X. destruct X as [X1 X2].
        rewrite (Nb b q Hb X1) in X2. discriminate.
      + unfold several in Sv. pose proof (line_single i _ Ln b). rewrite in_app_iff in *. specialize (H (or_introl Hb)). lia.
  Qed.
End Top.
