From Verif.Model Require Import Py IntHandlers Containers.
From Verif.Spec Require Import ContainerSpec.
From Coq Require Import Permutation Sorted Lia.
Open Scope list_scope.

Section Gather.
  Variable lval : Type.
  Variable less equal : cval lval -> cval lval -> bool.
  Variable place : list (cval lval) -> cval lval -> nat.
  Local Notation cval := (cval lval).
  Local Notation equivalent := (equivalent lval less).
  Local Notation firsts := (firsts lval).
  Local Notation insert_sorted := (insert_sorted lval less).

  Lemma insert_at_split {A} n (x : A) l : exists l1 l2, l = l1 ++ l2 /\ insert_at n x l = l1 ++ x :: l2.
  Proof.
    revert l. induction n as [|n IH]; intros l.
    - exists [], l. split; reflexivity.
    - destruct l as [|y r]; [exists [], []; split; reflexivity|]. destruct (IH r) as (l1 & l2 & E1 & E2).
      exists (y :: l1), l2. cbn. rewrite E2. split; [congruence|reflexivity].
  Qed.
  Lemma pairs_insert {A} (P : A -> A -> Prop) x l1 l2 : ForallOrdPairs P (l1 ++ l2) -> (forall y, In y l1 -> P y x) -> (forall y, In y l2 -> P x y) ->
    ForallOrdPairs P (l1 ++ x :: l2).
  Proof.
    induction l1 as [|y r IH]; cbn; intros F H1 H2.
    - constructor; [apply Forall_forall; exact H2|exact F].
    - inversion F as [|? ? F1 F2]; subst. constructor.
      + apply Forall_forall. intros z Z. rewrite Forall_forall in F1. apply in_app_or in Z as [Z|[<-|Z]]; [apply F1, in_or_app; auto|apply H1; auto|apply F1, in_or_app; auto].
      + apply IH; auto.
  Qed.
  Lemma firsts_nil {A} same (key : A -> cval) : firsts same key [] [].
  Proof. repeat split; try (intros ? []). constructor. Qed.
  Lemma firsts_skip {A} same (key : A -> cval) vs l x : firsts same key vs l -> (exists y, In y l /\ same (key x) (key y) = true) -> firsts same key (vs ++ [x]) l.
  Proof.
    intros (F1 & F2 & F3) Y. split; [|split; [|exact F3]].
    - intros y I. destruct (F1 y I) as (a & b & E & H). exists a, (b ++ [x]). rewrite E, <- app_assoc. split; [reflexivity|exact H].
    - intros z I. apply in_app_or in I as [I|[<-|[]]]; auto.
  Qed.
  Lemma firsts_put {A} same (key : A -> cval) vs l1 l2 x : (forall a, same a a = true) -> (forall a b, same a b = same b a) -> (forall a b c, same a b = true -> same b c = true -> same a c = true) ->
    firsts same key vs (l1 ++ l2) -> (forall y, In y (l1 ++ l2) -> same (key x) (key y) = false) -> firsts same key (vs ++ [x]) (l1 ++ x :: l2).
  Proof.
    intros R S' T (F1 & F2 & F3) N.
    assert (M : forall z, In z vs -> same (key z) (key x) = false).
    { intros z Z. destruct (F2 z Z) as (y & Y & E). destruct (same (key z) (key x)) eqn:K; [|reflexivity].
      rewrite S' in K. rewrite <- (N y Y). symmetry. exact (T _ _ _ K E). }
    split; [|split].
    - intros y I. apply in_app_or in I as [I|[<-|I]].
      + destruct (F1 y ltac:(apply in_or_app; auto)) as (a & b & E & H). exists a, (b ++ [x]). rewrite E, <- app_assoc. split; [reflexivity|exact H].
      + exists vs, []. split; [reflexivity|exact M].
      + destruct (F1 y ltac:(apply in_or_app; auto)) as (a & b & E & H). exists a, (b ++ [x]). rewrite E, <- app_assoc. split; [reflexivity|exact H].
    - intros z I. apply in_app_or in I as [I|[<-|[]]].
      + destruct (F2 z I) as (y & Y & E). exists y. split; [|exact E]. apply in_app_or in Y as [Y|Y]; apply in_or_app; [left|right; right]; exact Y.
      + exists x. split; [apply in_or_app; right; left; reflexivity|apply R].
    - apply pairs_insert; [exact F3| |].
      + intros y Y. rewrite S'. apply N, in_or_app. auto.
      + intros y Y. apply N, in_or_app. auto.
  Qed.

  (** Insertion in order. *)
  Lemma sorted_split {A} (key : A -> cval) u x l : exists l1 l2, l = l1 ++ l2 /\ (insert_sorted key u x l = l1 ++ x :: l2 \/ u = true /\ insert_sorted key u x l = l).
  Proof.
    induction l as [|y r IH]; cbn.
    - exists [], []. auto.
    - destruct (less (key x) (key y)); [exists [], (y :: r); auto|]. destruct (u && negb (less (key y) (key x))) eqn:K.
      + exists [], (y :: r). apply andb_true_iff in K as [K _]. auto.
      + destruct IH as (l1 & l2 & -> & [E|[E1 E]]); rewrite E; exists (y :: l1), l2; auto.
  Qed.

  Section Order.
    Hypothesis swo : strict_weak_order lval less.
    Lemma equivalent_refl x : equivalent x x = true.
    Proof. unfold ContainerSpec.equivalent. destruct swo as (I & _). rewrite I. reflexivity. Qed.
    Lemma equivalent_sym x y : equivalent x y = equivalent y x.
    Proof. unfold ContainerSpec.equivalent. apply andb_comm. Qed.
    Lemma equivalent_iff x y : equivalent x y = true <-> less x y = false /\ less y x = false.
    Proof. unfold ContainerSpec.equivalent. rewrite andb_true_iff, !negb_true_iff. reflexivity. Qed.
    Lemma equivalent_trans x y z : equivalent x y = true -> equivalent y z = true -> equivalent x z = true.
    Proof.
      rewrite !equivalent_iff. destruct swo as (_ & _ & N). intros [A B] [C D]. split.
      - destruct (less x z) eqn:K; [|reflexivity]. destruct (N x z y K); congruence.
      - destruct (less z x) eqn:K; [|reflexivity]. destruct (N z x y K); congruence.
    Qed.
    Lemma less_asym x y : less x y = true -> less y x = false.
    Proof. destruct swo as (I & T & _). intros H. destruct (less y x) eqn:K; [|reflexivity]. rewrite <- (I x). symmetry. exact (T x y x H K). Qed.
    (** x < y, y <= z: x < z; and so on. *)
    Lemma less_le x y z : less x y = true -> less z y = false -> less x z = true.
    Proof. destruct swo as (_ & _ & N). intros A B. destruct (N x y z A); congruence. Qed.
    Lemma le_less x y z : less y x = false -> less y z = true -> less x z = true.
    Proof. destruct swo as (_ & _ & N). intros A B. destruct (N y z x B); congruence. Qed.

    (** multiset *)
    Lemma multi_sorted x l : StronglySorted (fun a b => less b a = false) l -> StronglySorted (fun a b => less b a = false) (insert_sorted (fun y => y) false x l).
    Proof.
      induction l as [|y r IH]; cbn; intros S'; [repeat constructor|]. inversion S' as [|? ? S1 S2]; subst. destruct (less x y) eqn:K.
      - constructor; [exact S'|]. constructor; [apply less_asym; exact K|]. rewrite Forall_forall in *. intros z Z. specialize (S2 z Z).
        apply less_asym. exact (less_le x y z K S2).
      - constructor; [apply IH; exact S1|]. rewrite Forall_forall in *. destruct (sorted_split (fun a => a) false x r) as (l1 & l2 & -> & [E|[E _]]); [|discriminate].
        rewrite E. intros z Z. apply in_app_or in Z as [Z|[<-|Z]]; [apply S2, in_or_app; auto|exact K|apply S2, in_or_app; auto].
    Qed.
    Lemma multi_perm x l : Permutation (x :: l) (insert_sorted (fun y => y) false x l).
    Proof.
      destruct (sorted_split (fun a => a) false x l) as (l1 & l2 & -> & [E|[E _]]); [|discriminate]. rewrite E. apply Permutation_middle.
    Qed.
    Lemma filter_none {A} (f : A -> bool) l : (forall x, In x l -> f x = false) -> filter f l = [].
    Proof. induction l as [|y r IH]; cbn; intros H; [reflexivity|]. rewrite H by auto. apply IH. auto. Qed.
    Lemma multi_stable z x l : StronglySorted (fun a b => less b a = false) l ->
      filter (equivalent z) (insert_sorted (fun y => y) false x l) = filter (equivalent z) (l ++ [x]).
    Proof.
      induction l as [|y r IH]; intros S'; [reflexivity|]. inversion S' as [|? ? S1 S2]; subst. cbn [Containers.insert_sorted]. destruct (less x y) eqn:K.
      - destruct (equivalent z x) eqn:Z.
        + assert (N : forall a, In a (y :: r) -> equivalent z a = false).
          { intros a I. destruct (equivalent z a) eqn:Q; [|reflexivity]. exfalso.
            assert (X : equivalent x a = true). { rewrite equivalent_sym in Z. exact (equivalent_trans x z a Z Q). }
            apply equivalent_iff in X as [X _]. destruct I as [<-|I]; [congruence|]. rewrite Forall_forall in S2. specialize (S2 a I).
            rewrite (less_le x y a K S2) in X. discriminate. }
          assert (F := filter_none _ _ N). rewrite filter_app, F. change (filter (equivalent z) (x :: y :: r)) with (if equivalent z x then x :: filter (equivalent z) (y :: r) else filter (equivalent z) (y :: r)).
          rewrite F. cbn [filter]. rewrite Z. reflexivity.
        + rewrite filter_app. change (filter (equivalent z) (x :: y :: r)) with (if equivalent z x then x :: filter (equivalent z) (y :: r) else filter (equivalent z) (y :: r)).
          cbn [filter]. rewrite Z, app_nil_r. reflexivity.
      - cbn [andb app filter]. rewrite IH by exact S1. reflexivity.
    Qed.
    (** set and map *)
    Lemma unique_cases {A} (key : A -> cval) x l : StronglySorted (fun a b => less (key a) (key b) = true) l ->
      let l' := insert_sorted key true x l in
      StronglySorted (fun a b => less (key a) (key b) = true) l' /\
      ((l' = l /\ exists y, In y l /\ equivalent (key x) (key y) = true) \/
       (exists l1 l2, l = l1 ++ l2 /\ l' = l1 ++ x :: l2 /\ forall y, In y l -> equivalent (key x) (key y) = false)).
    Proof.
      induction l as [|y r IH]; cbn; intros S'.
      - split; [repeat constructor|]. right. exists [], []. split; [reflexivity|]. split; [reflexivity|]. intros ? [].
      - inversion S' as [|? ? S1 S2]; subst. rewrite Forall_forall in S2. destruct swo as (_ & T & _). destruct (less (key x) (key y)) eqn:K.
        + split.
          * constructor; [exact S'|]. apply Forall_forall. intros z [<-|Z]; [exact K|]. exact (T _ _ _ K (S2 z Z)).
          * right. exists [], (y :: r). split; [reflexivity|]. split; [reflexivity|].
            intros z Z. unfold ContainerSpec.equivalent. assert (X : less (key x) (key z) = true) by (destruct Z as [<-|Z]; [exact K|exact (T _ _ _ K (S2 z Z))]). rewrite X. reflexivity.
        + destruct (less (key y) (key x)) eqn:K2; cbn [negb].
          * specialize (IH S1). cbv zeta in IH. destruct IH as (I1 & I2). split.
            -- constructor; [exact I1|]. apply Forall_forall. intros z Z. destruct I2 as [(E & _)|(l1 & l2 & E1 & E2 & _)].
               ++ rewrite E in Z. exact (S2 z Z).
               ++ rewrite E2 in Z. apply in_app_or in Z as [Z|[<-|Z]]; [|exact K2|]; apply S2; rewrite E1; apply in_or_app; auto.
            -- destruct I2 as [(E & (z & Z & Q))|(l1 & l2 & E1 & E2 & Q)].
               ++ left. rewrite E. split; [reflexivity|]. exists z. auto.
               ++ right. exists (y :: l1), l2. rewrite E2. split; [cbn; congruence|]. split; [reflexivity|].
                  intros z [<-|Z]; [|exact (Q z Z)]. unfold ContainerSpec.equivalent. rewrite K2. cbn. apply andb_false_r.
          * split; [exact S'|]. left. split; [reflexivity|]. exists y. split; [auto|]. apply equivalent_iff. auto.
    Qed.
  End Order.

  Hypothesis swo : strict_weak_order lval less.
  Hypothesis eqv : equivalence lval equal.
  Lemma unique_gather {A} (key : A -> cval) vs :
    let l := fold_left (fun c x => insert_sorted key true x c) vs [] in
    StronglySorted (fun a b => less (key a) (key b) = true) l /\ firsts equivalent key vs l.
  Proof.
    cbv zeta. induction vs as [|x vs IH] using rev_ind; [split; [constructor|apply firsts_nil]|].
    rewrite fold_left_app. cbn [fold_left]. destruct IH as (I1 & I2). destruct (unique_cases swo key x _ I1) as (U1 & U2). split; [exact U1|].
    destruct U2 as [(E & Y)|(l1 & l2 & E1 & E2 & N)].
    - rewrite E. apply firsts_skip; assumption.
    - rewrite E2. rewrite E1 in I2, N. apply firsts_put; [apply equivalent_refl; exact swo|apply equivalent_sym|apply equivalent_trans; exact swo|exact I2|exact N].
  Qed.
  Lemma hashed_gather {A} (key : A -> cval) (where_ : list A -> A -> nat) vs :
    firsts equal key vs (fold_left (fun c x => if existsb (fun y => equal (key x) (key y)) c then c else insert_at (where_ c x) x c) vs []).
  Proof.
    destruct eqv as (R & S' & T). induction vs as [|x vs IH] using rev_ind; [apply firsts_nil|].
    rewrite fold_left_app. cbn [fold_left]. set (c := fold_left _ vs []) in *. destruct (existsb (fun y => equal (key x) (key y)) c) eqn:E.
    - apply firsts_skip; [exact IH|]. apply existsb_exists in E as (y & Y & Q). exists y. auto.
    - destruct (insert_at_split (where_ c x) x c) as (l1 & l2 & E1 & E2). rewrite E2. apply firsts_put; auto; rewrite <- E1; [exact IH|].
      intros y Y. destruct (equal (key x) (key y)) eqn:Q; [|reflexivity]. rewrite <- E. symmetry. apply existsb_exists. exists y. auto.
  Qed.
  Lemma gathers_ok k vs : gathers lval less equal k vs (fold_left (seq_add lval less equal place k) vs []).
  Proof.
    destruct k as [|[]|[]]; cbn [gathers seq_add].
    - assert (G : forall c, fold_left (fun l x => l ++ [x]) vs c = c ++ vs); [|exact (G [])].
      induction vs as [|x r IH]; intros c; cbn; [rewrite app_nil_r; reflexivity|]. rewrite IH, <- app_assoc. reflexivity.
    - exact (unique_gather (fun y => y) vs).
    - assert (G : Permutation vs (fold_left (fun c x => insert_sorted (fun y => y) false x c) vs []) /\
        StronglySorted (fun x y => less y x = false) (fold_left (fun c x => insert_sorted (fun y => y) false x c) vs []) /\
        (forall x, filter (equivalent x) (fold_left (fun c x => insert_sorted (fun y => y) false x c) vs []) = filter (equivalent x) vs)); [|exact G].
      induction vs as [|x vs IH] using rev_ind; [repeat constructor|]. rewrite fold_left_app. cbn [fold_left]. destruct IH as (I1 & I2 & I3). split; [|split].
      + rewrite <- multi_perm, <- I1. symmetry. apply Permutation_cons_append.
      + apply multi_sorted; assumption.
      + intros z. rewrite multi_stable by assumption. rewrite !filter_app, I3. reflexivity.
    - exact (hashed_gather (fun y => y) place vs).
    - assert (G : Permutation vs (fold_left (fun c x => insert_at (place c x) x c) vs [])); [|exact G].
      induction vs as [|x vs IH] using rev_ind; [constructor|]. rewrite fold_left_app. cbn [fold_left]. set (c := fold_left _ vs []) in *.
      destruct (insert_at_split (place c x) x c) as (l1 & l2 & E1 & E2). rewrite E2, <- (Permutation_middle l1 l2 x), <- E1, <- IH. symmetry. apply Permutation_cons_append.
  Qed.
  Lemma gathers_map_ok s vs : gathers_map lval less equal s vs (fold_left (map_add lval less equal place s) vs []).
  Proof.
    destruct s; cbn [gathers_map map_add].
    - exact (unique_gather fst vs).
    - exact (hashed_gather fst (fun c x => place (map fst c) (fst x)) vs).
  Qed.
End Gather.
