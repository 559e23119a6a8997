(** Closed form of reorder_modifiers. *)
From Verif.Model Require Import Py Tokenizer CType.
From Coq Require Import Lia.
Open Scope string_scope.
Open Scope list_scope.

(** A modifier name other than a star. *)
Definition modname (m : string) : Prop := m <> "*" /\ m <> "&".

Lemma named_star m i : modname m -> named i m = true -> is_star i = false.
Proof.
  intros [A B]. destruct i as [t|]; cbn; [|discriminate]. intros H. apply String.eqb_eq in H. subst m.
  unfold is_star. cbn. apply orb_false_intro; now apply String.eqb_neq.
Qed.

Fixpoint settle (m : string) (pend : list item) (l : list item) : list item :=
  match l with
  | [] => pend
  | x :: r => if named x m then settle m (pend ++ [x]) r
              else if is_star x then pend ++ x :: settle m [] r
              else x :: settle m pend r
  end.

(** The same on flagged lists, moved tokens first. *)
Fixpoint fsettle (m : string) (pm pu : list item) (l : list (item * bool)) : list item :=
  match l with
  | [] => pm ++ pu
  | (x, b) :: r =>
      if named x m then (if b then fsettle m (pm ++ [x]) pu r else fsettle m pm (pu ++ [x]) r)
      else if is_star x then pm ++ pu ++ x :: fsettle m [] [] r
      else x :: fsettle m pm pu r
  end.

Lemma fsettle_init m l : forall pu, fsettle m [] pu (map (fun i => (i, false)) l) = settle m pu l.
Proof. induction l as [|x l IH]; intros pu; cbn; [reflexivity|]. destruct (named x m); [apply IH|]. destruct (is_star x); f_equal; now rewrite IH. Qed.

(** Moved tokens of a segment are at its end. *)
Fixpoint moved_last (m : string) (seen : bool) (l : list (item * bool)) : Prop :=
  match l with
  | [] => True
  | (x, b) :: r =>
      if named x m then (if b then moved_last m true r else seen = false /\ moved_last m false r)
      else if is_star x then moved_last m false r
      else seen = false /\ moved_last m false r
  end.

Lemma moved_last_weaken m l : moved_last m true l -> moved_last m false l.
Proof.
  destruct l as [|[x b] l]; cbn; [easy|]. destruct (named x m); [destruct b; [easy|tauto]|]. destruct (is_star x); tauto.
Qed.

Lemma insert_settle m t : modname m -> named t m = true -> forall l pm pu,
  moved_last m false l ->
  fsettle m pm pu (insert_before_star (t, true) l) = fsettle m pm (t :: pu) l
  /\ moved_last m false (insert_before_star (t, true) l).
Proof.
  intros Hm Ht. 
  assert (G : forall l s, moved_last m s l -> moved_last m s (insert_before_star (t, true) l)).
  { induction l as [|[x b] l IH]; intros s H; cbn.
    - now rewrite Ht.
    - cbn in H. destruct (is_star x) eqn:Es.
      + cbn. rewrite Ht. destruct (named x m) eqn:En; [now rewrite (named_star m x Hm En) in Es|]. cbn. now rewrite Es.
      + cbn. destruct (named x m) eqn:En; [destruct b|].
        * now apply IH.
        * destruct H as [-> H]. split; [reflexivity|]. now apply IH.
        * rewrite Es. destruct H as [-> H]. split; [reflexivity|]. now apply IH. }
  intros l pm pu H. split; [|now apply G].
  clear G. revert pm pu. revert H. generalize false. 
  induction l as [|[x b] l IH]; intros s H pm pu; cbn.
  - rewrite Ht. now rewrite <- app_assoc.
  - cbn in H. destruct (is_star x) eqn:Es; cbn.
    + rewrite Ht. destruct (named x m) eqn:En; [now rewrite (named_star m x Hm En) in Es|]. rewrite Es.
      now rewrite <- app_assoc.
    + destruct (named x m) eqn:En; [destruct b|].
      * apply (IH true). exact H.
      * apply (IH false). tauto.
      * rewrite Es. f_equal. apply (IH false). tauto.
Qed.

Fixpoint unmoved (m : string) (l : list (item * bool)) : nat :=
  match l with
  | [] => 0
  | (x, b) :: r => (if named x m && negb b then 1 else 0) + unmoved m r
  end.

Lemma insert_unmoved m x l : unmoved m (insert_before_star (x, true) l) = unmoved m l.
Proof.
  induction l as [|[y b] l IH]; cbn; [now rewrite andb_false_r|].
  destruct (is_star y); cbn; [now rewrite andb_false_r|now rewrite IH].
Qed.

Lemma move_first_some m : modname m -> forall l l', move_first m l = Some l' ->
  unmoved m l = S (unmoved m l') /\
  (forall pm s, moved_last m s l -> fsettle m pm [] l' = fsettle m pm [] l) /\
  (forall s, moved_last m s l -> moved_last m s l').
Proof.
  intros Hm. induction l as [|[x b] l IH]; intros l' E; cbn in E; [discriminate|].
  destruct (named x m && negb b) eqn:Eb.
  - injection E as <-. apply andb_prop in Eb. destruct Eb as [En Eb]. apply negb_true_iff in Eb. subst b.
    split; [|split].
    + cbn. rewrite En, insert_unmoved. reflexivity.
    + intros pm s H. cbn in H |- *. rewrite En in H |- *. destruct H as [_ H].
      now apply insert_settle.
    + intros s H. cbn in H. rewrite En in H. destruct H as [-> H]. now apply (insert_settle m x Hm En l [] []).
  - destruct (move_first m l) as [l1|] eqn:E1; [|discriminate]. injection E as <-. destruct (IH _ eq_refl) as [A [B C]].
    split; [|split].
    + cbn. rewrite Eb. exact A.
    + intros pm s H. cbn in H |- *. destruct (named x m) eqn:En.
      * destruct b; [|discriminate]. apply (B _ _ H).
      * destruct (is_star x); f_equal; [f_equal; apply (B [] _ H)|apply (B pm false), H].
    + intros s H. cbn in H |- *. destruct (named x m) eqn:En.
      * destruct b; [|discriminate]. now apply C.
      * destruct (is_star x); [now apply C|]. split; [apply H|apply C, H].
Qed.

Lemma move_first_none m l : move_first m l = None -> unmoved m l = 0.
Proof.
  induction l as [|[x b] l IH]; cbn; [reflexivity|].
  destruct (named x m && negb b); [discriminate|]. destruct (move_first m l); [discriminate|]. intros _. now apply IH.
Qed.

Lemma unmoved_zero_none m l : unmoved m l = 0 -> move_first m l = None.
Proof.
  induction l as [|[x b] l IH]; cbn; [reflexivity|].
  destruct (named x m && negb b); [discriminate|]. cbn. intros H. now rewrite (IH H).
Qed.

Lemma fsettle_fixed m : forall l pm s, unmoved m l = 0 -> moved_last m s l -> (pm = [] \/ s = true) ->
  fsettle m pm [] l = pm ++ map fst l.
Proof.
  induction l as [|[x b] l IH]; intros pm s U H HS; cbn.
  - reflexivity.
  - cbn in U, H. destruct (named x m) eqn:En.
    + destruct b; [|discriminate]. cbn in U. rewrite (IH _ true U H) by (right; reflexivity). now rewrite <- app_assoc.
    + cbn in U. destruct (is_star x) eqn:Es.
      * rewrite (IH _ _ U H) by (left; reflexivity). reflexivity.
      * destruct H as [-> H]. destruct HS as [->|HS]; [|discriminate]. cbn. f_equal. apply (IH [] _ U H). now left.
Qed.

Lemma move_all_settle m : modname m -> forall fuel l, unmoved m l <= fuel -> moved_last m false l ->
  map fst (move_all m fuel l) = fsettle m [] [] l.
Proof.
  intros Hm. induction fuel as [|f IH]; intros l U H; cbn.
  - assert (U0 : unmoved m l = 0) by lia. rewrite (fsettle_fixed m l [] false U0 H); auto.
  - destruct (move_first m l) as [l'|] eqn:E.
    + destruct (move_first_some m Hm _ _ E) as [A [B C]]. rewrite IH; [apply (B [] false H)|lia|now apply C].
    + pose proof (move_first_none _ _ E) as U0. rewrite (fsettle_fixed m l [] false U0 H); auto.
Qed.

Lemma unmoved_length m l : unmoved m l <= length l.
Proof. induction l as [|[x b] l IH]; cbn; [lia|]. destruct (named x m && negb b); lia. Qed.

Lemma moved_last_init m l : moved_last m false (map (fun i => (i, false)) l).
Proof. induction l as [|x l IH]; cbn; [exact I|]. destruct (named x m); [auto|]. destruct (is_star x); auto. Qed.

Lemma reorder_modifier_settle m l : modname m -> reorder_modifier m l = settle m [] l.
Proof.
  intros Hm. unfold reorder_modifier. rewrite move_all_settle; [apply fsettle_init|exact Hm| |apply moved_last_init].
  rewrite <- (map_length (fun i => (i, false)) l). apply unmoved_length.
Qed.

(** Both modifiers at once. *)
Fixpoint norm (pc pv : list item) (l : list item) : list item :=
  match l with
  | [] => pc ++ pv
  | x :: r => if named x "const" then norm (pc ++ [x]) pv r
              else if named x "volatile" then norm pc (pv ++ [x]) r
              else if is_star x then pc ++ pv ++ x :: norm [] [] r
              else x :: norm pc pv r
  end.

Lemma const_mod : modname "const". Proof. split; discriminate. Qed.
Lemma volatile_mod : modname "volatile". Proof. split; discriminate. Qed.

Lemma const_not_volatile x : named x "const" = true -> named x "volatile" = false.
Proof. destruct x as [t|]; cbn; [|discriminate]. intros H. apply String.eqb_eq in H. now rewrite H. Qed.
Lemma volatile_not_const x : named x "volatile" = true -> named x "const" = false.
Proof. destruct x as [t|]; cbn; [|discriminate]. intros H. apply String.eqb_eq in H. now rewrite H. Qed.

Lemma settle_app m pend l1 l2 : Forall (fun x => named x m = false /\ is_star x = false) l1 ->
  settle m pend (l1 ++ l2) = l1 ++ settle m pend l2.
Proof. induction 1 as [|x l1 [A B] _ IH]; cbn; [reflexivity|]. rewrite A, B. now f_equal. Qed.

Definition is_c (x : item) := named x "const" = true.
Definition is_v (x : item) := named x "volatile" = true.

Lemma settle_settle l : forall pc pv, Forall is_c pc ->
  settle "volatile" pv (settle "const" pc l) = norm pc pv l.
Proof.
  assert (K : forall pc, Forall is_c pc -> Forall (fun x => named x "volatile" = false /\ is_star x = false) pc).
  { intros pc H. eapply Forall_impl; [|exact H]. intros a Ha. split; [now apply const_not_volatile|exact (named_star _ _ const_mod Ha)]. }
  induction l as [|x l IH]; intros pc pv Hc; cbn.
  - rewrite <- (app_nil_r pc) at 1. rewrite settle_app by auto. reflexivity.
  - destruct (named x "const") eqn:Ec.
    + apply IH. apply Forall_app. auto.
    + destruct (is_star x) eqn:Es.
      * rewrite settle_app by auto. cbn. rewrite Es.
        assert (named x "volatile" = false) as ->.
        { destruct (named x "volatile") eqn:Ev; [|reflexivity]. rewrite (named_star _ _ volatile_mod Ev) in Es. discriminate. }
        rewrite (IH [] []) by constructor. reflexivity.
      * cbn. destruct (named x "volatile") eqn:Ev.
        -- now apply IH.
        -- rewrite Es. f_equal. now apply IH.
Qed.

Lemma reorder_norm l : reorder_modifiers l = norm [] [] l.
Proof.
  unfold reorder_modifiers. rewrite (reorder_modifier_settle "const") by exact const_mod.
  rewrite reorder_modifier_settle by exact volatile_mod. now apply settle_settle.
Qed.

Lemma norm_c pc pv l1 l2 : Forall is_c l1 -> norm pc pv (l1 ++ l2) = norm (pc ++ l1) pv l2.
Proof.
  intros H. revert pc. induction H as [|x l1 Hx _ IH]; intros pc; cbn; [now rewrite app_nil_r|].
  rewrite Hx, IH, <- app_assoc. reflexivity.
Qed.
Lemma norm_v pc pv l1 l2 : Forall is_v l1 -> norm pc pv (l1 ++ l2) = norm pc (pv ++ l1) l2.
Proof.
  intros H. revert pv. induction H as [|x l1 Hx _ IH]; intros pv; cbn; [now rewrite app_nil_r|].
  rewrite (volatile_not_const _ Hx), Hx, IH, <- app_assoc. reflexivity.
Qed.

Lemma norm_norm l : forall pc pv qc qv, Forall is_c qc -> Forall is_v qv ->
  norm pc pv (norm qc qv l) = norm (pc ++ qc) (pv ++ qv) l.
Proof.
  induction l as [|x l IH]; intros pc pv qc qv Hc Hv; cbn.
  - rewrite norm_c by exact Hc. rewrite <- (app_nil_r qv) at 1. rewrite norm_v by exact Hv. cbn. reflexivity.
  - destruct (named x "const") eqn:Ec; [|destruct (named x "volatile") eqn:Ev; [|destruct (is_star x) eqn:Es]].
    + rewrite IH by (try apply Forall_app; auto). now rewrite app_assoc.
    + rewrite IH by (try apply Forall_app; auto). now rewrite (app_assoc pv).
    + rewrite norm_c, norm_v by assumption. cbn. rewrite Ec, Ev, Es.
      rewrite IH by constructor. reflexivity.
    + cbn. rewrite Ec, Ev, Es. f_equal. now apply IH.
Qed.

Lemma reorder_idempotent l : reorder_modifiers (reorder_modifiers l) = reorder_modifiers l.
Proof. rewrite !reorder_norm. now rewrite norm_norm by constructor. Qed.
