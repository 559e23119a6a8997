(** The names that generation gives to types. *)
From Verif.Model Require Import Py Import.
From Verif.Spec Require Import ImportSpec.
From Verif.Proofs Require Import StrLemmas ImportProofs ImportContents ImportOrder.
From Coq Require Import Lia.
Open Scope string_scope.
Open Scope list_scope.

Lemma gen_items_app f a b l : gen_items f (a ++ b) l = match gen_items f a l with Ok l' => gen_items f b l' | Err e => Err e end.
Proof. revert l. induction a as [|x a IH]; intros l; [reflexivity|]. cbn [app gen_items]. destruct (f x l) as [l'|e]; cbn; [apply IH|reflexivity]. Qed.

Section Names.
  Variable decls : list decl.
  Notation declared := (declared decls).
  Notation numbered := (numbered decls).
  Fixpoint gen_order (f m : nat) : list (nat * decl) :=
    match f with
    | O => []
    | S f => flat_map (fun x => gen_order f (fst x)) (in_module decls m is_module) ++
             filter (here m is_class) numbered ++ filter (here m is_container) numbered ++ filter (here m is_exception) numbered
    end.
  Lemma in_module_here m q : (forall p n x, q (DModule p n x) = false) -> in_module decls m q = filter (here m q) numbered.
  Proof. intros H. apply filter_ext. intros [k d]. unfold here. cbn [snd]. destruct d; try reflexivity. rewrite H. reflexivity. Qed.
  Lemma in_modules m k d : In (k, d) (in_module decls m is_module) -> parent decls k m /\ declared k d.
  Proof.
    unfold in_module. intros H. apply filter_In in H. destruct H as [H Q]. apply numbered_in in H. split; [|exact H]. cbn [snd] in Q. destruct d as [[p|] n x| | | | | |]; try discriminate. cbn in Q.
    apply Nat.eqb_eq in Q. subst p. exists n, x. exact H.
  Qed.
  Hypothesis Wf : well_formed decls.
  Lemma gen_flat f : forall m l, length decls <= f + m -> m < length decls -> gen_module decls f m l = gen_items (gen_item decls) (gen_order f m) l.
  Proof.
    induction f as [|f IH]; intros m l L Lm; [lia|]. cbn [gen_module gen_order]. rewrite !gen_items_app.
    assert (Sub : forall xs, incl xs (in_module decls m is_module) -> forall l, gen_items (fun x => gen_module decls f (fst x)) xs l = gen_items (gen_item decls) (flat_map (fun x => gen_order f (fst x)) xs) l).
    { induction xs as [|[k d] xs IHx]; intros I l0; [reflexivity|]. cbn [gen_items flat_map fst]. rewrite gen_items_app. assert (P : parent decls k m) by (apply (in_modules m k d), I; now left).
      destruct (parent_lt decls Wf k m P). rewrite (IH k l0) by lia. destruct (gen_items _ (gen_order f k) l0) as [l1|e]; cbn; [|reflexivity]. apply IHx. intros x Hx. apply I. now right. }
    rewrite (Sub _ (incl_refl _)). destruct (gen_items _ _ l) as [l1|e]; cbn; [|reflexivity].
    rewrite !in_module_here by reflexivity. rewrite !gen_items_app. destruct (gen_items _ (filter (here m is_class) numbered) l1) as [l2|e]; cbn; [|reflexivity]. rewrite gen_items_app.
    destruct (gen_items _ (filter (here m is_container) numbered) l2) as [l3|e]; cbn; reflexivity.
  Qed.
  Lemma path_dotted m : a_module decls m -> dotted decls m (module_path decls m).
  Proof.
    unfold module_path. assert (X : forall f m, m < f -> a_module decls m -> dotted decls m (path decls f m)); [|intros H; apply X; [lia|exact H]].
    induction f as [|f IH]; intros j L (p & n & x & H); [lia|]. cbn [path]. unfold ImportSpec.declared in H. rewrite H. destruct p as [p|].
    - pose proof (proj2 Wf j _ H) as [Lp Mp]. eapply dotted_sub; [exact H|]. apply IH; [lia|exact Mp].
    - eapply dotted_root. exact H.
  Qed.

  Hypothesis Ord : in_order decls.
  Definition nested (d : decl) (o : nat) : Prop :=
    match d with
    | DClass _ c => c_import c = None /\ c_outer c = Some o
    | DContainer _ _ u => u = Some o
    | DException _ _ u _ false => u = Some o
    | _ => False
    end.
  Lemma nested_before k d o m : declared k d -> home_of d = Some m -> nested d o -> o < k /\ exists a c, declared o (DClass a c) /\ c_import c = None /\ (a = m \/ earlier_branch decls a m).
  Proof.
    intros H Hm N. assert (Ni : nested_in decls k o).
    { destruct d as [p n x|m' n|m' c|m' n u|m' n u p t|m' c a|m' vs p ns u i]; cbn in N; try contradiction.
      - destruct N. left. eauto.
      - subst u. right. left. eauto.
      - destruct t; [contradiction|]. subst u. right. right. eauto. }
    assert (Ho : o < k /\ a_class decls o).
    { pose proof (proj2 Wf k d H) as W. destruct d as [p n x|m' n|m' c|m' n u|m' n u p t|m' c a|m' vs p ns u i]; cbn in N; try contradiction.
      - destruct W as (_ & _ & Wo & _). apply Wo. tauto.
      - destruct W as (_ & _ & Wo). now apply Wo.
      - destruct t; [contradiction|]. destruct W as (_ & _ & Wo & _). now apply Wo. }
    destruct Ho as (Lt & a & c & Ho). split; [exact Lt|]. exists a, c. split; [exact Ho|]. destruct Ord as (O1 & _ & O3 & _). split.
    - destruct (c_import c) as [s|] eqn:Ci; [|reflexivity]. exfalso. apply (O3 k o s Ni). exists a, c. auto.
    - apply (O1 k o a m Ni); [exists (DClass a c); auto|]. apply home_spec. eauto.
  Qed.
  Notation safe := (safe_for decls nested).
  Lemma gen_classes f : forall m m' k c, under decls m m' -> declared k (DClass m' c) -> length decls <= f + m -> In k (map fst (gen_order f m)).
  Proof.
    induction f as [|f IH]; intros m m' k c U H L.
    { exfalso. assert (Le : m <= m') by (clear - U Wf; induction U as [|b p P U IHU]; [lia|]; destruct (parent_lt decls Wf b p P); lia).
      assert (m' < k) by (pose proof (proj2 Wf k _ H) as W; cbn in W; intuition). assert (k < length decls) by (apply nth_error_Some; unfold ImportSpec.declared in H; congruence). lia. }
    cbn [gen_order]. rewrite !map_app, !in_app_iff. apply under_down in U. destruct U as [->|(c' & P & D)].
    - right. left. eapply in_here; [exact H|reflexivity|reflexivity].
    - left. destruct (parent_lt decls Wf c' m P). assert (X : In k (map fst (gen_order f c'))) by (eapply IH; [exact D|exact H|lia]). apply in_map_iff in X. destruct X as (e & <- & X). apply in_map_iff. exists e. split; [reflexivity|].
      destruct P as (n & x & P). apply in_flat_map. exists (c', DModule (Some m) n x). split; [|exact X]. unfold in_module. apply filter_In. split; [now apply numbered_in|]. cbn. now rewrite Nat.eqb_refl.
  Qed.
  Lemma gen_safe f : forall m (D : nat -> Prop), length decls <= f + m -> (forall k a c, declared k (DClass a c) -> earlier_branch decls a m -> D k) -> safe D (gen_order f m).
  Proof.
    induction f as [|f IH]; intros m D L Past; [constructor|]. cbn [gen_order]. apply safe_app.
    - unfold in_module. set (q := fun x => is_module (snd x) && _).
      assert (X : forall l1 l2, numbered = l1 ++ l2 -> safe (fun j => D j \/ In j (map fst (flat_map (fun x => gen_order f (fst x)) (filter q l1)))) (flat_map (fun x => gen_order f (fst x)) (filter q l2))).
      { intros l1 l2. revert l1. induction l2 as [|[k d] l2 IHl]; intros l1 E; [constructor|]. pose proof (numbered_split decls l1 k d l2 E) as Sp.
        assert (Dk : declared k d) by (apply (numbered_in decls); rewrite E; apply in_elt).
        specialize (IHl (l1 ++ [(k, d)])). rewrite <- app_assoc in IHl. specialize (IHl E). rewrite filter_app, flat_map_app in IHl. cbn [filter] in *. destruct (q (k, d)) eqn:Q; cbn [flat_map fst] in *.
        - apply safe_app.
          + assert (P : parent decls k m).
            { unfold q in Q. cbn in Q. destruct d as [[p|] n x| | | | | |]; try discriminate. cbn in Q. apply Nat.eqb_eq in Q. subst p. exists n, x. exact Dk. }
            destruct (parent_lt decls Wf k m P). apply IH; [lia|]. intros j a c Hj (p & c1 & c2 & C1 & C2 & Lt & U1 & U2).
            destruct (under_up _ _ _ _ U2 P) as [->|U'].
            * rewrite (parent_fun _ _ _ _ C2 P) in C1. right. destruct (parent_lt decls Wf c1 m C1). assert (Y : In j (map fst (gen_order f c1))) by (eapply gen_classes; [exact U1|exact Hj|lia]).
              apply in_map_iff in Y. destruct Y as (e & <- & Y). apply in_map_iff. exists e. split; [reflexivity|]. destruct C1 as (n1 & x1 & C1). apply in_flat_map. exists (c1, DModule (Some m) n1 x1). split; [|exact Y].
              apply filter_In. split; [apply Sp; auto|]. unfold q. cbn. now rewrite Nat.eqb_refl.
            * left. eapply Past; [exact Hj|]. exists p, c1, c2. auto.
          + eapply safe_more; [|exact IHl]. cbn. intros j. rewrite map_app, in_app_iff, app_nil_r. intuition.
        - eapply safe_more; [|exact IHl]. cbn. intros j. rewrite app_nil_r. intuition. }
      specialize (X [] numbered eq_refl). eapply safe_more; [|exact X]. cbn. intuition.
    - assert (Other : forall (D' : nat -> Prop) q, (forall k, D k -> D' k) -> (forall k, In k (map fst (filter (here m is_class) numbered)) -> D' k) -> safe D' (filter (here m q) numbered)).
      { intros D' q H0 H1. apply safe_filter. intros k d H Q o N. apply here_spec in Q. destruct Q as [_ Hm]. destruct (nested_before k d o m H Hm N) as (Lt & a & c & Ho & Ci & [->|B]); left; [|eauto].
        apply H1. eapply in_here; [exact Ho|reflexivity|reflexivity]. }
      apply safe_app; [|apply safe_app; apply Other; auto].
      apply safe_filter. intros k d H Q o N. apply here_spec in Q. destruct Q as [_ Hm]. destruct (nested_before k d o m H Hm N) as (Lt & a & c & Ho & Ci & [->|B]); [|eauto].
      right. exists (DClass m c). split; [exact Ho|]. split; [exact Lt|]. now apply here_spec.
  Qed.

  Definition good (D : nat -> Prop) (l : names) : Prop :=
    (forall k, D k -> defines_type decls k -> exists s, slot l k = Some s) /\ forall k s, slot l k = Some s -> called decls k s.
  Lemma good_same D l k : good D l -> ~ defines_type decls k -> good (fun j => D j \/ j = k) l.
  Proof. intros [A B] N. split; [|exact B]. intros j [H| ->] T; [eauto|contradiction]. Qed.
  Lemma good_add (D : nat -> Prop) l k s : good D l -> called decls k s -> good (fun j => D j \/ j = k) ((k, s) :: l).
  Proof.
    intros [A B] C. split.
    - intros j H T. cbn. destruct (Nat.eqb_spec k j) as [<-|Ne]; [eauto|]. destruct H as [H| ->]; [eauto|congruence].
    - intros j u. cbn. destruct (Nat.eqb_spec k j) as [<-|Ne]; [now intros [= <-]|apply B].
  Qed.
  Lemma item_gen (D : nat -> Prop) k d l : good D l -> declared k d -> (forall o, nested d o -> D o) -> exists l', gen_item decls (k, d) l = Ok l' /\ good (fun j => D j \/ j = k) l'.
  Proof.
    intros G H N.
    assert (Not : forall d', declared k d' -> d' = d) by (intros d' H'; unfold ImportSpec.declared in *; congruence).
    assert (Name : forall m u n, home_of d = Some m -> (forall o, u = Some o -> nested d o) -> (forall s, (u = None -> dotted decls m s) -> (forall o, u = Some o -> called decls o s) -> called decls k (s ++ "." ++ n)) ->
              exists l', (match type_name decls m u n l with Ok s => Ok ((k, s) :: l) | Err e => Err e end) = Ok l' /\ good (fun j => D j \/ j = k) l').
    { intros m u n Hm Hu Hc. assert (Mm : a_module decls m) by (pose proof (proj2 Wf k d H) as W; destruct d; try discriminate; cbn in Hm; injection Hm as <-; intuition).
      unfold type_name. destruct u as [o|].
      - specialize (Hu o eq_refl). destruct (nested_before k d o m H Hm Hu) as (_ & a & c & Ho & Ci & _). destruct (proj1 G o (N o Hu)) as [s Hs]; [left; eauto|]. rewrite Hs. eexists. split; [reflexivity|].
        apply good_add; [exact G|]. apply Hc; [discriminate|]. intros o' [= <-]. apply (proj2 G o s Hs).
      - eexists. split; [reflexivity|]. apply good_add; [exact G|]. apply Hc; [intros _; now apply path_dotted|discriminate]. }
    unfold gen_item. cbn [snd fst]. destruct d as [p n x|m n|m c|m n u|m n u p t|m c a|m vs p ns u i];
      try (eexists; split; [reflexivity|]; apply good_same; [exact G|]; intros [(? & ? & X & _)|[(? & ? & ? & X)|(? & ? & ? & ? & X)]]; apply Not in X; discriminate).
    - destruct (c_import c) as [s|] eqn:Ci.
      + eexists; split; [reflexivity|]; apply good_same; [exact G|]; intros [(? & ? & X & Y)|[(? & ? & ? & X)|(? & ? & ? & ? & X)]]; apply Not in X; try discriminate. injection X as -> ->. congruence.
      + assert (It : c_iter c && match c_outer c with Some _ => true | None => false end = false).
        { destruct (c_iter c) eqn:It; [|reflexivity]. destruct Ord as (_ & _ & _ & O4). now rewrite (O4 k m c H It Ci). }
        rewrite It. apply Name; [reflexivity|intros o Ho; cbn; auto|]. intros s A B. destruct (c_outer c) as [o|] eqn:Co; [eapply called_nested_class; eauto|eapply called_class; eauto].
    - apply Name; [reflexivity|intros o Ho; exact Ho|]. intros s A B. destruct u as [o|]; [eapply called_nested_container; eauto|eapply called_container; eauto].
    - destruct t.
      + eexists; split; [reflexivity|]; apply good_same; [exact G|]; intros [(? & ? & X & Y)|[(? & ? & ? & X)|(? & ? & ? & ? & X)]]; apply Not in X; discriminate.
      + apply Name; [reflexivity|intros o Ho; exact Ho|]. intros s A B. destruct u as [o|]; [eapply called_nested_exception; eauto|eapply called_exception; eauto].
  Qed.
  Lemma safe_gen (D : nat -> Prop) xs : safe D xs -> forall l, good D l -> exists l', gen_items (gen_item decls) xs l = Ok l' /\ good (fun j => D j \/ In j (map fst xs)) l'.
  Proof.
    induction 1 as [D|D k d xs H R S IH]; intros l G; cbn [gen_items map fst].
    - exists l. split; [reflexivity|]. destruct G as [A B]. split; [|exact B]. intros k [Hk|[]]; auto.
    - destruct (item_gen D k d l G H R) as (l1 & -> & G1). cbn. destruct (IH l1 G1) as (l2 & -> & G2). exists l2. split; [reflexivity|]. destruct G2 as [A B]. split; [|exact B].
      intros j [Hj|[->|Hj]]; apply A; auto.
  Qed.
  Lemma gen_all f : forall m m' k, under decls m m' -> home decls k m' -> defines_type decls k -> length decls <= f + m -> In k (map fst (gen_order f m)).
  Proof.
    induction f as [|f IH]; intros m m' k U Hk T L.
    { exfalso. assert (Le : m <= m') by (clear - U Wf; induction U as [|b p P U IHU]; [lia|]; destruct (parent_lt decls Wf b p P); lia).
      apply home_spec in Hk. destruct Hk as (d & H & Hm). assert (m' < k) by (pose proof (proj2 Wf k d H) as W; destruct d; try discriminate; cbn in Hm; injection Hm as <-; intuition).
      assert (k < length decls) by (apply nth_error_Some; unfold ImportSpec.declared in H; congruence). lia. }
    cbn [gen_order]. rewrite !map_app, !in_app_iff. apply under_down in U. destruct U as [->|(c' & P & D)].
    - right. destruct T as [(a & c & X & _)|[(a & n & o & X)|(a & n & o & p & X)]]; pose proof (home_dec _ _ _ _ X Hk) as Y; cbn in Y; injection Y as ->;
        [left|right; left|right; right]; (eapply in_here; [exact X|reflexivity|reflexivity]).
    - left. destruct (parent_lt decls Wf c' m P). assert (X : In k (map fst (gen_order f c'))) by (eapply IH; [exact D|exact Hk|exact T|lia]). apply in_map_iff in X. destruct X as (e & <- & X). apply in_map_iff. exists e. split; [reflexivity|].
      destruct P as (n & x & P). apply in_flat_map. exists (c', DModule (Some m) n x). split; [|exact X]. unfold in_module. apply filter_In. split; [now apply numbered_in|]. cbn. now rewrite Nat.eqb_refl.
  Qed.
  Lemma generates_well : exists l, generate decls = Ok l /\ forall k, defines_type decls k -> exists s, slot l k = Some s /\ called decls k s.
  Proof.
    assert (Sf : safe (fun _ => False) (gen_order (length decls) 0)).
    { apply gen_safe; [lia|]. intros k a c _ (p & c1 & c2 & C1 & C2 & Lt & U1 & U2).
      assert (X : forall a b, under decls a b -> a <= b) by (induction 1 as [|b q P U IHU]; [lia|]; destruct (parent_lt decls Wf b q P); lia). apply X in U2. destruct (parent_lt decls Wf c2 p C2). lia. }
    destruct (safe_gen _ _ Sf []) as (l & R & G); [split; [intros k []|discriminate]|].
    exists l. unfold generate. rewrite gen_flat; [|lia|exact (root_lt decls Wf)]. split; [exact R|]. intros k T.
    assert (Hk : exists m, home decls k m /\ a_module decls m).
    { destruct T as [(a & c & X & _)|[(a & n & o & X)|(a & n & o & p & X)]]; exists a; (split; [eexists; split; [exact X|reflexivity]|]); pose proof (proj2 Wf k _ X) as W; cbn in W; intuition. }
    destruct Hk as (m & Hk & Mm). destruct (proj1 G k) as [s Hs]; [right; eapply gen_all; [apply root_under; [exact Wf|exact Mm]|exact Hk|exact T|lia]|exact T|]. exists s. split; [exact Hs|]. exact (proj2 G k s Hs).
  Qed.
  Lemma dotted_fun m s : dotted decls m s -> forall s', dotted decls m s' -> s = s'.
  Proof.
    clear Wf Ord. induction 1 as [m n x H|m p n x s H D IH]; intros s' D'; inversion D' as [? n' x' H'|? p' n' x' s'' H' D'']; subst; unfold ImportSpec.declared in *; try congruence.
    assert (p' = p) by congruence. assert (n' = n) by congruence. subst. f_equal. auto.
  Qed.
  Lemma called_fun k s : called decls k s -> forall s', called decls k s' -> s = s'.
  Proof.
    clear Wf Ord. induction 1 as [k m c s H O D|k m c o s H O C IH|k m n s H D|k m n o s H C IH|k m n p x s H D|k m n o p x s H C IH]; intros s' C'; inversion C'; subst; unfold ImportSpec.declared in *;
      match goal with A : nth_error decls k = Some _, B : nth_error decls k = Some _ |- _ => rewrite A in B; injection B; intros; subst end; try congruence.
    - f_equal. eapply dotted_fun; eassumption.
    - f_equal. assert (o = o0) by congruence. subst. auto.
    - f_equal. eapply dotted_fun; eassumption.
    - f_equal. auto.
    - f_equal. eapply dotted_fun; eassumption.
    - f_equal. auto.
  Qed.
End Names.
