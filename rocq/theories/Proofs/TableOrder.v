(** Python's order of the types, where no class is reached twice; the names with slots. *)
From Verif.Model Require Import Py PyState Hierarchy MethodTable.
From Verif.Spec Require Import HierarchySpec MethodTableSpec.
From Verif.Proofs Require Import StrLemmas HierarchyProofs PureProofs HierarchyTop TableLookup.
From Coq Require Import Lia.
Open Scope list_scope.

Lemma special_slots n : special n = false <-> ~ In n slot_names.
Proof.
  assert (E : special_names = slot_names) by reflexivity. unfold special. rewrite E. split.
  - intros H Hn. assert (X : existsb (String.eqb n) slot_names = true); [|congruence]. apply existsb_exists. exists n. split; [assumption|apply String.eqb_refl].
  - intros H. destruct (existsb (String.eqb n) slot_names) eqn:X; [|reflexivity]. apply existsb_exists in X. destruct X as (x & Hx & Ex).
    apply String.eqb_eq in Ex. subst x. contradiction.
Qed.

Lemma candidate_skip ls all : candidate ls ([] :: all) = candidate ls all.
Proof. induction ls as [|[|c l] ls IH]; cbn [candidate]; [reflexivity|assumption|]. rewrite IH. reflexivity. Qed.
Lemma merge_skip : forall f ls, merge f ([] :: ls) = merge f ls.
Proof.
  induction f as [|f IH]; intros ls; cbn [merge forallb andb]; destruct (forallb _ ls); try reflexivity.
  change (candidate ([] :: ls) ([] :: ls)) with (candidate ls ([] :: ls)). rewrite candidate_skip. destruct (candidate ls ls) as [c|]; [|reflexivity].
  cbn [map remove_head]. now rewrite IH.
Qed.
Lemma head_ok_true c ls : (forall l, In l ls -> ~ In c (tl l)) -> head_ok c ls = true.
Proof.
  intros H. unfold head_ok. apply negb_true_iff. destruct (existsb _ ls) eqn:X; [|reflexivity]. apply existsb_exists in X. destruct X as (l & Hl & X).
  apply existsb_exists in X. destruct X as (y & Hy & E). apply Nat.eqb_eq in E. subst y. now elim (H l Hl).
Qed.
Lemma remove_other c l : ~ In c l -> remove_head c l = l.
Proof. destruct l as [|x l]; [reflexivity|]. cbn. intros H. destruct (Nat.eqb x c) eqn:E; [|reflexivity]. apply Nat.eqb_eq in E. tauto. Qed.
Lemma remove_others c ls : (forall l, In l ls -> ~ In c l) -> map (remove_head c) ls = ls.
Proof. induction ls as [|l ls IH]; intros H; [reflexivity|]. cbn [map]. rewrite (remove_other c l), IH; auto; [intros l' Hl'; apply H; now right|]. apply H. now left. Qed.

Definition headed (b : nat) (l : list nat) : Prop := exists t, l = b :: t.
Lemma headed_in bs ls : Forall2 headed bs ls -> forall b, In b bs -> In b (concat ls).
Proof. induction 1 as [|b l bs ls (t & ->) H IH]; intros x []; [subst; now left|]. cbn. right. apply in_or_app. right. auto. Qed.
Lemma in_concat_list (ls : list (list nat)) l x : In l ls -> In x l -> In x (concat ls).
Proof. intros H1 H2. apply in_concat. eauto. Qed.
Lemma merge_tree : forall f t ls bs, Forall2 headed bs ls -> NoDup (t ++ concat ls) -> length (t ++ concat ls) <= f ->
  merge f (t :: ls ++ [bs]) = Some (t ++ concat ls).
Proof.
  induction f as [|f IH]; intros t ls bs Hd Nd Lf.
  - destruct t as [|x t]; [|cbn in Lf; lia]. inversion Hd as [|b l bs' ls' (t' & El) Hd']; subst; [reflexivity|cbn in Lf; lia].
  - destruct t as [|x t].
    + inversion Hd as [|b l bs' ls' (t' & El) Hd']; subst; [reflexivity|]. rewrite merge_skip. cbn [app concat] in *. cbn [merge forallb andb app].
      inversion Nd as [|? ? Nb Nd']; subst. cbn [candidate]. rewrite (head_ok_true b).
      * cbn [map remove_head]. rewrite Nat.eqb_refl, map_app. cbn [map remove_head]. rewrite Nat.eqb_refl, (remove_others b ls').
        -- rewrite (IH t' ls' bs' Hd' Nd'); [reflexivity|]. cbn in Lf. lia.
        -- intros l Hl Hb. apply Nb. apply in_or_app. right. now apply (in_concat_list ls' l).
      * intros l [<-|Hl] Hb; cbn [tl] in Hb.
        -- apply Nb. apply in_or_app. now left.
        -- apply Nb. apply in_or_app. right. apply in_app_iff in Hl. destruct Hl as [Hl|[<-|[]]].
           ++ apply (in_concat_list ls' l); [assumption|]. destruct l; [destruct Hb|now right].
           ++ cbn [tl] in Hb. now apply (headed_in bs').
    + cbn [app] in *. cbn [merge forallb andb]. inversion Nd as [|? ? Nb Nd']; subst. cbn [candidate]. rewrite (head_ok_true x).
      * cbn [map remove_head]. rewrite Nat.eqb_refl, map_app. cbn [map]. rewrite (remove_others x ls), (remove_other x bs).
        -- rewrite (IH t ls bs Hd Nd'); [reflexivity|]. cbn in Lf. lia.
        -- intros Hb. apply Nb. apply in_or_app. right. now apply (headed_in bs).
        -- intros l Hl Hb. apply Nb. apply in_or_app. right. now apply (in_concat_list ls l).
      * intros l [<-|Hl] Hb; cbn [tl] in Hb.
        -- apply Nb. apply in_or_app. now left.
        -- apply Nb. apply in_or_app. right. apply in_app_iff in Hl. destruct Hl as [Hl|[<-|[]]].
           ++ apply (in_concat_list ls l); [assumption|]. destruct l; [destruct Hb|now right].
           ++ apply (headed_in bs ls Hd). destruct bs; [destruct Hb|now right].
Qed.

Lemma nodup_part (ls : list (list nat)) : NoDup (concat ls) -> forall l, In l ls -> NoDup l.
Proof.
  induction ls as [|l0 ls IH]; intros Nd l []; cbn in Nd.
  - subst l0. clear IH. induction l as [|x l IHl]; constructor.
    + inversion Nd as [|? ? N1 N2]; subst. intros H. apply N1. apply in_or_app. now left.
    + inversion Nd; auto.
  - apply IH; [|assumption]. clear IH H. induction l0 as [|x l0 IHl]; [assumption|]. inversion Nd; auto.
Qed.
Section Mro.
  Variable w : hier.
  Hypothesis W : wf w.
  Lemma mro_tree : forall i l, preorder (bases w) i l -> NoDup l -> type_mro w i = Some l.
  Proof.
    induction i as [i IH] using lt_wf_ind. intros l Pr Nd. inversion Pr as [i0 ls Fo E1 E2]; subst i0 l. unfold type_mro. cbn [python_mro].
    inversion Nd as [|? ? N1 N2]; subst. pose proof (W i) as Wi.
    assert (Fo' : Forall2 (fun b l => python_mro i w b = Some l /\ headed b l) (bases w i) ls).
    { clear Nd N1 Pr. revert Wi N2 Fo. generalize (bases w i) as bs. intros bs Wi N2 Fo. induction Fo as [|b l bs ls Hb Fo IHf]; [constructor|].
      assert (Lb : b < i) by (apply Wi; now left). constructor.
      - split; [|inversion Hb; subst; eexists; reflexivity]. rewrite (mro_fuel w W b i (S b)) by lia. apply (IH b Lb l Hb). apply (nodup_part _ N2). now left.
      - apply IHf; [intros x Hx; apply Wi; now right|]. cbn in N2. clear - N2. induction l; [assumption|]. inversion N2; auto. }
    destruct (bases w i) as [|b [|b' bs]] eqn:Eb.
    - inversion Fo'; subst. reflexivity.
    - inversion Fo' as [|? l ? ls' [Hb _] Fn]; subst. inversion Fn; subst. rewrite Hb. cbn. now rewrite app_nil_r.
    - assert (G : gather (map (python_mro i w) (b :: b' :: bs)) = Some ls /\ Forall2 headed (b :: b' :: bs) ls).
      { clear - Fo'. induction Fo' as [|x l xs ls [H1 H2] Fo IHf]; [split; [reflexivity|constructor]|]. destruct IHf as [IH1 IH2]. cbn [map gather].
        rewrite H1, IH1. split; [reflexivity|now constructor]. }
      destruct G as [G Hd]. rewrite G. rewrite <- merge_skip. rewrite (merge_tree _ [] ls _ Hd N2); [reflexivity|]. cbn [app]. lia.
  Qed.
End Mro.
Lemma preorder_ext p q : (forall i, p i = q i) -> forall i l, preorder p i l -> preorder q i l.
Proof.
  intros E. fix self 3. intros i l [j ls Fo]. constructor. rewrite <- E. clear - Fo self. induction Fo as [|b l bs ls Hb Fo IH]; constructor; auto.
Qed.
Lemma order_tree dn ds proxy cs i l : preorder (declared_parents (snd (hscript dn ds proxy cs []))) i l -> NoDup l ->
  type_mro (fst (hscript dn ds proxy cs [])) i = Some l.
Proof.
  intros Pr. apply mro_tree; [apply final_wf|]. eapply preorder_ext; [|exact Pr]. intros q. symmetry. apply parents_ok.
Qed.
