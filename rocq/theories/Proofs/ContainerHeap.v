From Verif.Model Require Import Py IntHandlers Containers.
From Verif.Spec Require Import ContainerSpec.
From Verif.Proofs Require Import ContainerConv ContainerRep.
From Coq Require Import Permutation Sorted Lia.
Open Scope list_scope.

Lemma nth_set {A} n (x : A) l m : nth_error (set_nth n x l) m = if Nat.eqb m n then match nth_error l n with Some _ => Some x | None => None end else nth_error l m.
Proof.
  revert n m. induction l as [|y r IH]; intros [|n] [|m]; cbn; try reflexivity.
  - destruct (Nat.eqb m n); reflexivity.
  - rewrite IH. reflexivity.
Qed.
Lemma nth_last {A} (x : A) l m : nth_error (l ++ [x]) m = if Nat.eqb m (length l) then Some x else nth_error l m.
Proof.
  revert m. induction l as [|y r IH]; intros [|m]; cbn; try reflexivity.
  - destruct m; reflexivity.
  - apply IH.
Qed.
Lemma nth_lt {A} (l : list A) n x : nth_error l n = Some x -> n < length l.
Proof. intros H. apply nth_error_Some. congruence. Qed.
Lemma set_same {A} (l : list A) n x : nth_error l n = Some x -> set_nth n x l = l.
Proof. revert n. induction l as [|y r IH]; intros [|n] H; cbn in *; try discriminate; [injection H as ->; reflexivity|]. f_equal. apply IH. exact H. Qed.
Lemma set_length {A} (l : list A) n x : length (set_nth n x l) = length l.
Proof. revert n. induction l as [|y r IH]; intros [|n]; cbn; auto. Qed.
Lemma set_set {A} (l : list A) n x y : set_nth n y (set_nth n x l) = set_nth n y l.
Proof. revert n. induction l as [|z r IH]; intros [|n]; cbn; try reflexivity. f_equal. apply IH. Qed.
Lemma set_last {A} (l : list A) x y : set_nth (length l) y (l ++ [x]) = l ++ [y].
Proof. induction l as [|z r IH]; cbn; [reflexivity|]. f_equal. exact IH. Qed.
Lemma set_app {A} (l m : list A) n x : n < length l -> set_nth n x (l ++ m) = set_nth n x l ++ m.
Proof. revert n. induction l as [|z r IH]; intros [|n] H; cbn in *; try lia; [reflexivity|]. f_equal. apply IH. lia. Qed.

Definition on (w : nat) (r : iter) : bool := negb (Nat.eqb (it_refs r) 0) && Nat.eqb (it_container r) w.
Definition b2n (b : bool) : nat := if b then 1 else 0.
Definition count (w : nat) (l : list iter) : nat := length (filter (on w) l).
Lemma count_app w l r : count w (l ++ [r]) = count w l + b2n (on w r).
Proof. unfold count. rewrite filter_app, app_length. cbn. destruct (on w r); reflexivity. Qed.
Lemma count_set w l i r r' : nth_error l i = Some r -> count w (set_nth i r' l) + b2n (on w r) = count w l + b2n (on w r').
Proof.
  unfold count. revert i. induction l as [|y l IH]; intros [|i] H; cbn [set_nth nth_error] in *; try discriminate.
  - injection H as ->. cbn [filter]. destruct (on w r), (on w r'); cbn; lia.
  - specialize (IH i H). cbn [filter]. destruct (on w y); cbn [length]; lia.
Qed.
Lemma count_pos w l i r : nth_error l i = Some r -> on w r = true -> 0 < count w l.
Proof.
  intros H O. unfold count. destruct (filter (on w) l) eqn:F; [|cbn; lia]. exfalso.
  assert (I : In r (filter (on w) l)) by (apply filter_In; split; [exact (nth_error_In _ _ H)|exact O]). rewrite F in I. exact I.
Qed.

Section Heap.
  Variables leaf lval atom : Type.
  Variable leaf_in : leaf -> pyobj atom -> lval + argerr.
  Variable leaf_out : leaf -> lval -> atom.
  Variable leaf_prepends : leaf -> bool.
  Variable less equal : cval lval -> cval lval -> bool.
  Variable place : list (cval lval) -> cval lval -> nat.
  Variable D : string -> option (ctype leaf).
  Local Notation ctype := (ctype leaf).
  Local Notation cval := (cval lval).
  Local Notation pyobj := (pyobj atom).
  Local Notation state := (state leaf lval).
  Local Notation event := (event leaf lval atom).
  Local Notation convert := (convert leaf lval atom leaf_in less equal place).
  Local Notation step := (step leaf lval atom leaf_in leaf_out leaf_prepends less equal place).
  Local Notation history := (history leaf lval atom leaf_in leaf_out leaf_prepends less equal place).
  Local Notation init := (init leaf lval atom leaf_in less equal place).
  Local Notation legal := (legal leaf lval atom D).
  Local Notation declared_in := (declared_in leaf D).
  Local Notation is_container := (is_container leaf).
  Local Notation has_type := (has_type leaf lval).
  Local Notation holds := (holds leaf lval).
  Local Notation live_wrapper := (live_wrapper leaf lval).
  Local Notation live_iter := (live_iter leaf lval).

  Definition good_wrapper (s : state) (w : nat) (r : wrapper leaf) : Prop :=
    declared_in (wr_type r) /\ is_container (wr_type r) /\ (wr_refs r = 0 -> wr_obj r = None) /\
    (forall a, wr_obj r = Some a -> exists v, contents s a = Some v /\ has_type (wr_type r) v /\ ~ In a (given s)) /\
    count w (iters s) <= wr_refs r.
  Definition good_iter (s : state) (r : iter) : Prop :=
    it_refs r <> 0 -> exists c v, nth_error (wraps s) (it_container r) = Some c /\ wr_obj c = Some (it_object r) /\
      contents s (it_object r) = Some v /\ it_pos r <= length (entries v).
  Record inv (s : state) : Prop := mk_inv {
    i_wr : forall w r, nth_error (wraps s) w = Some r -> good_wrapper s w r;
    i_inj : forall w w' r r' a, nth_error (wraps s) w = Some r -> nth_error (wraps s) w' = Some r' -> wr_obj r = Some a -> wr_obj r' = Some a -> w = w';
    i_cover : forall a v, contents s a = Some v -> In a (given s) \/ exists w r, nth_error (wraps s) w = Some r /\ wr_obj r = Some a;
    i_given : forall a, In a (given s) -> exists v, contents s a = Some v;
    i_it : forall i r, nth_error (iters s) i = Some r -> good_iter s r;
    i_range : forall i r, nth_error (iters s) i = Some r -> it_container r < length (wraps s) }.

  Lemma inv_start : inv start.
  Proof.
    constructor; unfold contents; cbn; intros.
    - destruct w; discriminate.
    - destruct w; discriminate.
    - destruct a; discriminate.
    - contradiction.
    - destruct i; discriminate.
    - destruct i; discriminate.
  Qed.

  (** ** Contents *)
  Lemma contents_new (s s' : state) x a : objs s' = objs s ++ [x] -> contents s' a = if Nat.eqb a (length (objs s)) then x else contents s a.
  Proof.
    intros E. unfold contents. rewrite E, nth_last. destruct (Nat.eqb_spec a (length (objs s))) as [->|N]; [destruct x; reflexivity|reflexivity].
  Qed.
  Lemma contents_lt (s : state) a v : contents s a = Some v -> a < length (objs s).
  Proof. unfold contents. destruct (nth_error (objs s) a) as [[|]|] eqn:E; try discriminate. intros _. exact (nth_lt _ _ _ E). Qed.
  Lemma contents_set (s s' : state) b x v a : objs s' = set_nth b x (objs s) -> contents s b = Some v -> contents s' a = if Nat.eqb a b then x else contents s a.
  Proof.
    intros E C. unfold contents in *. rewrite E, nth_set. destruct (Nat.eqb a b); [|reflexivity].
    destruct (nth_error (objs s) b) as [[|]|]; try discriminate. destruct x; reflexivity.
  Qed.

  (** ** What never changes *)
  Definition later (s s' : state) : Prop :=
    (forall w r, nth_error (wraps s) w = Some r -> exists r', nth_error (wraps s') w = Some r' /\ wr_type r' = wr_type r /\
       (forall a, wr_obj r = Some a -> wr_refs r' <> 0 -> wr_obj r' = Some a) /\ (wr_refs r = 0 -> wr_refs r' = 0)) /\
    (forall a, a < length (objs s) -> contents s' a = contents s a \/ contents s' a = None) /\
    (forall i r, nth_error (iters s) i = Some r -> exists r', nth_error (iters s') i = Some r' /\ it_container r' = it_container r /\
       it_object r' = it_object r /\ (it_refs r = 0 -> it_refs r' = 0)) /\
    length (objs s) <= length (objs s').
  Definition positions (j : option nat) (s s' : state) : Prop :=
    forall i r r', nth_error (iters s) i = Some r -> nth_error (iters s') i = Some r' -> Some i <> j -> it_pos r' = it_pos r.
  Lemma later_refl s : later s s.
  Proof.
    split; [|split; [|split]].
    - intros w r H. exists r. auto.
    - intros a _. left. reflexivity.
    - intros i r H. exists r. auto.
    - lia.
  Qed.
  Lemma positions_same j (s s' : state) : iters s' = iters s -> positions j s s'.
  Proof. intros E i r r' H H' _. rewrite E in H'. congruence. Qed.
  Lemma later_trans s1 s2 s3 : later s1 s2 -> later s2 s3 -> later s1 s3.
  Proof.
    intros (A1 & B1 & C1 & E1) (A2 & B2 & C2 & E2). split; [|split; [|split]].
    - intros w r H. destruct (A1 w r H) as (r2 & H2 & T2 & O2 & L2). destruct (A2 w r2 H2) as (r3 & H3 & T3 & O3 & L3). exists r3. split; [exact H3|]. split; [congruence|]. split.
      + intros a O N. apply O3; [|exact N]. apply O2; [exact O|]. intros K. apply N. apply L3. exact K.
      + auto.
    - intros a L. destruct (B1 a L) as [K|K], (B2 a ltac:(lia)) as [K2|K2]; rewrite K2; auto; rewrite K; auto.
    - intros i r H. destruct (C1 i r H) as (r2 & H2 & T2 & O2 & L2). destruct (C2 i r2 H2) as (r3 & H3 & T3 & O3 & L3). exists r3. split; [exact H3|]. split; [congruence|]. split; [congruence|auto].
    - lia.
  Qed.

  (** A new container in a new wrapper. *)
  Definition put_new (s : state) (ty : ctype) (v : cval) : state :=
    mk_state (objs s ++ [Some v]) (wraps s ++ [mk_wrapper ty 1 (Some (length (objs s)))]) (iters s) (given s).
  Lemma count_range (s : state) w : inv s -> length (wraps s) <= w -> count w (iters s) = 0.
  Proof.
    intros V L. unfold count. destruct (filter (on w) (iters s)) as [|r l] eqn:F; [reflexivity|]. exfalso.
    assert (I : In r (filter (on w) (iters s))) by (rewrite F; left; reflexivity). apply filter_In in I as [I O].
    apply In_nth_error in I as (i & I). assert (X := i_range s V i r I). unfold on in O. apply andb_true_iff in O as [_ O]. apply Nat.eqb_eq in O. lia.
  Qed.
  Lemma put_new_inv s ty v : inv s -> declared_in ty -> is_container ty -> has_type ty v -> inv (put_new s ty v).
  Proof.
    intros V DI IC HT. set (s' := put_new s ty v).
    assert (C : forall a, contents s' a = if Nat.eqb a (length (objs s)) then Some v else contents s a) by (intros a; apply contents_new; reflexivity).
    assert (C' : forall a u, contents s a = Some u -> contents s' a = Some u).
    { intros a u H. rewrite C. assert (L := contents_lt _ _ _ H). destruct (Nat.eqb_spec a (length (objs s))); [lia|exact H]. }
    constructor.
    - intros w r. unfold s', put_new; cbn [wraps]. rewrite nth_last. destruct (Nat.eqb_spec w (length (wraps s))) as [->|N].
      + intros [= <-]. split; [exact DI|]. split; [exact IC|]. split; [discriminate|]. cbn [wr_obj wr_type wr_refs given iters]. split.
        * intros a [= <-]. exists v. split; [|split; [exact HT|]].
          -- change (contents s' (length (objs s)) = Some v). rewrite C, Nat.eqb_refl. reflexivity.
          -- intros I. apply (i_given s V) in I as (u & U). apply contents_lt in U. lia.
        * rewrite count_range; [lia|exact V|lia].
      + intros H. destruct (i_wr s V w r H) as (A & B & E & F & G). split; [exact A|]. split; [exact B|]. split; [exact E|]. split; [|exact G].
        intros a O. destruct (F a O) as (u & U1 & U2 & U3). exists u. split; [exact (C' _ _ U1)|]. split; [exact U2|exact U3].
    - intros w w' r r' a. unfold s', put_new; cbn [wraps]. rewrite !nth_last.
      assert (X : forall x y, nth_error (wraps s) x = Some y -> wr_obj y <> Some (length (objs s))).
      { intros x y H O. destruct (i_wr s V x y H) as (_ & _ & _ & F & _). destruct (F _ O) as (u & U & _). apply contents_lt in U. lia. }
      destruct (Nat.eqb_spec w (length (wraps s))) as [->|N], (Nat.eqb_spec w' (length (wraps s))) as [->|N']; intros H H' O O'.
      + reflexivity.
      + injection H as <-. cbn in O. injection O as <-. exfalso. exact (X _ _ H' O').
      + injection H' as <-. cbn in O'. injection O' as <-. exfalso. exact (X _ _ H O).
      + exact (i_inj s V _ _ _ _ _ H H' O O').
    - intros a u. rewrite C. destruct (Nat.eqb_spec a (length (objs s))) as [->|N].
      + intros _. right. exists (length (wraps s)). eexists. unfold s', put_new; cbn [wraps]. rewrite nth_last, Nat.eqb_refl. split; reflexivity.
      + intros H. destruct (i_cover s V a u H) as [G|(w & r & W & O)]; [left; exact G|]. right. exists w, r. unfold s', put_new; cbn [wraps]. rewrite nth_last.
        destruct (Nat.eqb_spec w (length (wraps s))); [apply nth_lt in W; lia|]. auto.
    - intros a I. destruct (i_given s V a I) as (u & U). exists u. exact (C' _ _ U).
    - intros i r H L. destruct (i_it s V i r H L) as (c & u & W & O & U & P). exists c, u. split; [|split; [exact O|split; [exact (C' _ _ U)|exact P]]].
      unfold s', put_new; cbn [wraps]. rewrite nth_last. destruct (Nat.eqb_spec (it_container r) (length (wraps s))); [apply nth_lt in W; lia|exact W].
    - intros i r H. assert (X := i_range s V i r H). unfold s', put_new; cbn [wraps]. rewrite app_length. lia.
  Qed.
  Lemma put_new_later s ty v : later s (put_new s ty v).
  Proof.
    assert (C : forall a, contents (put_new s ty v) a = if Nat.eqb a (length (objs s)) then Some v else contents s a) by (intros a; apply contents_new; reflexivity).
    split; [|split; [|split]].
    - intros w r H. exists r. unfold put_new; cbn [wraps]. rewrite nth_last. destruct (Nat.eqb_spec w (length (wraps s))); [apply nth_lt in H; lia|]. auto.
    - intros a L. left. rewrite C. destruct (Nat.eqb_spec a (length (objs s))); [lia|reflexivity].
    - intros i r H. exists r. auto.
    - unfold put_new; cbn [objs]. rewrite app_length. lia.
  Qed.

  (** ** Wrappers *)
  Lemma set_w (s : state) w r x u : nth_error (wraps s) w = Some r -> nth_error (set_nth w x (wraps s)) u = if Nat.eqb u w then Some x else nth_error (wraps s) u.
  Proof. intros H. rewrite nth_set, H. reflexivity. Qed.
  Lemma new_inv s ty : inv s -> declared_in ty -> is_container ty -> inv (fst (new_wrapper s ty None)).
  Proof.
    intros V DI IC. constructor; cbn [fst new_wrapper wraps iters given with_wraps].
    - intros w r. rewrite nth_last. destruct (Nat.eqb_spec w (length (wraps s))) as [->|N].
      + intros [= <-]. split; [exact DI|]. split; [exact IC|]. split; [discriminate|]. cbn [wr_obj wr_type wr_refs given iters]. split; [discriminate|].
        cbn [with_wraps iters]. rewrite (count_range s); [lia|exact V|lia].
      + intros H. exact (i_wr s V w r H).
    - intros w w' r r' a. rewrite !nth_last.
      destruct (Nat.eqb_spec w (length (wraps s))) as [->|N], (Nat.eqb_spec w' (length (wraps s))) as [->|N']; intros H H' O O'.
      + reflexivity.
      + injection H as <-. discriminate O.
      + injection H' as <-. discriminate O'.
      + exact (i_inj s V _ _ _ _ _ H H' O O').
    - intros a u H. destruct (i_cover s V a u H) as [G|(w & r & W & O)]; [left; exact G|]. right. exists w, r. rewrite nth_last.
      destruct (Nat.eqb_spec w (length (wraps s))); [apply nth_lt in W; lia|]. auto.
    - intros a I. exact (i_given s V a I).
    - intros i r H L. destruct (i_it s V i r H L) as (c & u & W & O & U & P). exists c, u. split; [|split; [exact O|split; [exact U|exact P]]].
      cbn [fst new_wrapper wraps with_wraps]. rewrite nth_last. destruct (Nat.eqb_spec (it_container r) (length (wraps s))); [apply nth_lt in W; lia|exact W].
    - intros i r H. assert (X := i_range s V i r H). rewrite app_length. lia.
  Qed.
  Lemma new_later s ty : later s (fst (new_wrapper s ty None)).
  Proof.
    split; [|split; [|split]]; cbn [fst new_wrapper wraps iters objs with_wraps].
    - intros w r H. exists r. rewrite nth_last. destruct (Nat.eqb_spec w (length (wraps s))); [apply nth_lt in H; lia|]. auto.
    - intros a L. left. reflexivity.
    - intros i r H. exists r. auto.
    - lia.
  Qed.

  (** The number of references changes. *)
  Lemma refs_inv (s : state) w r n : inv s -> nth_error (wraps s) w = Some r -> n <> 0 -> count w (iters s) <= n ->
    inv (set_wrapper s w (mk_wrapper (wr_type r) n (wr_obj r))).
  Proof.
    intros V W N K. constructor; unfold set_wrapper; cbn [wraps iters given with_wraps].
    - intros u x. rewrite (set_w s w r _ u W). destruct (Nat.eqb_spec u w) as [->|NE]; intros E.
      + injection E as <-. destruct (i_wr s V w r W) as (A & B & C & F & G). split; [exact A|]. split; [exact B|]. split; [intros X; contradiction|]. split; [exact F|exact K].
      + exact (i_wr s V u x E).
    - intros u u' x x' a. rewrite !(set_w s w r _ _ W). intros E E' O O'.
      assert (X : forall y z, (if Nat.eqb y w then Some (mk_wrapper (wr_type r) n (wr_obj r)) else nth_error (wraps s) y) = Some z -> wr_obj z = Some a -> exists z', nth_error (wraps s) y = Some z' /\ wr_obj z' = Some a).
      { intros y z. destruct (Nat.eqb_spec y w) as [->|]; [|eauto]. intros [= <-] Q. exists r. auto. }
      destruct (X _ _ E O) as (z & Z1 & Z2). destruct (X _ _ E' O') as (z' & Z1' & Z2'). exact (i_inj s V _ _ _ _ _ Z1 Z1' Z2 Z2').
    - intros a u H. destruct (i_cover s V a u H) as [G|(y & z & Y & O)]; [left; exact G|]. right. exists y. rewrite (set_w s w r _ y W).
      destruct (Nat.eqb_spec y w) as [->|]; [|eauto]. eexists. split; [reflexivity|]. cbn. congruence.
    - intros a I. exact (i_given s V a I).
    - intros i x H L. destruct (i_it s V i x H L) as (c & u & C & O & U & P). cbn [wraps with_wraps set_wrapper]. unfold good_iter. cbn [wraps with_wraps].
      destruct (Nat.eqb_spec (it_container x) w) as [Ew|NE].
      + exists (mk_wrapper (wr_type r) n (wr_obj r)), u. rewrite (set_w s w r _ _ W), Ew, Nat.eqb_refl. split; [reflexivity|]. split; [|split; [exact U|exact P]].
        cbn. rewrite Ew in C. congruence.
      + exists c, u. rewrite (set_w s w r _ _ W). destruct (Nat.eqb_spec (it_container x) w); [contradiction|]. auto.
    - intros i x H. rewrite set_length. exact (i_range s V i x H).
  Qed.
  Lemma refs_later (s : state) w r n : nth_error (wraps s) w = Some r -> wr_refs r <> 0 -> later s (set_wrapper s w (mk_wrapper (wr_type r) n (wr_obj r))).
  Proof.
    intros W N. split; [|split; [|split]]; unfold set_wrapper; cbn [wraps iters objs with_wraps].
    - intros u x H. rewrite (set_w s w r _ u W). destruct (Nat.eqb_spec u w) as [->|NE]; [|exists x; auto].
      eexists. split; [reflexivity|]. rewrite H in W. injection W as ->. cbn. split; [reflexivity|]. split; [auto|contradiction].
    - intros a L. left. reflexivity.
    - intros i x H. exists x. auto.
    - lia.
  Qed.

  (** An uninitialised wrapper gets a container. *)
  Definition fill (s : state) (w : nat) (r : wrapper leaf) (v : cval) : state :=
    mk_state (objs s ++ [Some v]) (set_nth w (mk_wrapper (wr_type r) (wr_refs r) (Some (length (objs s)))) (wraps s)) (iters s) (given s).
  Lemma fill_contents s w r v a : contents (fill s w r v) a = if Nat.eqb a (length (objs s)) then Some v else contents s a.
  Proof. apply contents_new. reflexivity. Qed.
  Lemma fill_old s w r v a u : contents s a = Some u -> contents (fill s w r v) a = Some u.
  Proof. intros H. rewrite fill_contents. apply contents_lt in H as L. destruct (Nat.eqb_spec a (length (objs s))); [lia|exact H]. Qed.
  Lemma fill_inv (s : state) w r v : inv s -> nth_error (wraps s) w = Some r -> wr_refs r <> 0 -> wr_obj r = None -> has_type (wr_type r) v -> inv (fill s w r v).
  Proof.
    intros V W N O HT. set (x := mk_wrapper (wr_type r) (wr_refs r) (Some (length (objs s)))).
    assert (X : forall y z, nth_error (wraps s) y = Some z -> wr_obj z <> Some (length (objs s))).
    { intros y z H Q. destruct (i_wr s V y z H) as (_ & _ & _ & F & _). destruct (F _ Q) as (u & U & _). apply contents_lt in U. lia. }
    destruct (i_wr s V w r W) as (A & B & C & F & G).
    constructor.
    - intros u y. unfold fill; cbn [wraps]. rewrite (set_w s w r _ u W). destruct (Nat.eqb_spec u w) as [->|NE]; intros E.
      + injection E as <-. split; [exact A|]. split; [exact B|]. cbn [wr_refs wr_obj wr_type x iters given]. split; [intros Q; contradiction|]. split; [|exact G].
        intros a [= <-]. exists v. split; [|split; [exact HT|]].
        * change (contents (fill s w r v) (length (objs s)) = Some v). rewrite fill_contents, Nat.eqb_refl. reflexivity.
        * intros I. apply (i_given s V) in I as (t & U). apply contents_lt in U. lia.
      + destruct (i_wr s V u y E) as (A' & B' & C' & F' & G'). split; [exact A'|]. split; [exact B'|]. split; [exact C'|]. split; [|exact G'].
        intros a Q. destruct (F' a Q) as (t & T1 & T2 & T3). exists t. split; [exact (fill_old s w r v a t T1)|]. split; [exact T2|exact T3].
    - intros u u' y y' a. unfold fill; cbn [wraps]. rewrite !(set_w s w r _ _ W).
      destruct (Nat.eqb_spec u w) as [->|NE], (Nat.eqb_spec u' w) as [->|NE']; intros E E' Q Q'.
      + reflexivity.
      + injection E as <-. cbn in Q. injection Q as <-. exfalso. exact (X _ _ E' Q').
      + injection E' as <-. cbn in Q'. injection Q' as <-. exfalso. exact (X _ _ E Q).
      + exact (i_inj s V _ _ _ _ _ E E' Q Q').
    - intros a u. rewrite fill_contents. destruct (Nat.eqb_spec a (length (objs s))) as [->|NE].
      + intros _. right. exists w, x. unfold fill; cbn [wraps]. rewrite (set_w s w r _ _ W), Nat.eqb_refl. split; reflexivity.
      + intros H. destruct (i_cover s V a u H) as [I|(y & z & Y & Q)]; [left; exact I|]. right. exists y, z. unfold fill; cbn [wraps]. rewrite (set_w s w r _ _ W).
        destruct (Nat.eqb_spec y w) as [->|]; [congruence|auto].
    - intros a I. destruct (i_given s V a I) as (u & U). exists u. exact (fill_old s w r v a u U).
    - intros i y H L. destruct (i_it s V i y H L) as (c & u & C1 & O1 & U & P). exists c, u. split; [|split; [exact O1|split; [exact (fill_old s w r v _ u U)|exact P]]].
      unfold fill; cbn [wraps]. rewrite (set_w s w r _ _ W). destruct (Nat.eqb_spec (it_container y) w) as [E|]; [rewrite E in C1; congruence|exact C1].
    - intros i y H. unfold fill; cbn [wraps]. rewrite set_length. exact (i_range s V i y H).
  Qed.
  Lemma fill_later (s : state) w r v : nth_error (wraps s) w = Some r -> wr_obj r = None -> later s (fill s w r v).
  Proof.
    intros W N. split; [|split; [|split]].
    - intros u x H. unfold fill; cbn [wraps]. rewrite (set_w s w r _ u W). destruct (Nat.eqb_spec u w) as [->|NE]; [|exists x; auto].
      eexists. split; [reflexivity|]. rewrite H in W. injection W as ->. cbn. split; [reflexivity|]. split; [congruence|auto].
    - intros a L. left. rewrite fill_contents. destruct (Nat.eqb_spec a (length (objs s))); [lia|reflexivity].
    - intros i x H. exists x. auto.
    - unfold fill; cbn [objs]. rewrite app_length. lia.
  Qed.

  (** A container was created and deleted again. *)
  Lemma waste_contents (s : state) a : contents (with_objs s (objs s ++ [None])) a = contents s a.
  Proof.
    rewrite (contents_new s (with_objs s (objs s ++ [None])) None a eq_refl). destruct (Nat.eqb_spec a (length (objs s))) as [->|]; [|reflexivity].
    destruct (contents s (length (objs s))) eqn:E; [apply contents_lt in E; lia|reflexivity].
  Qed.
  Lemma waste_inv s : inv s -> inv (with_objs s (objs s ++ [None])).
  Proof.
    intros V. constructor; cbn [wraps iters given with_objs].
    - intros w r H. destruct (i_wr s V w r H) as (A & B & C & F & G). split; [exact A|]. split; [exact B|]. split; [exact C|]. split; [|exact G].
      intros a O. destruct (F a O) as (v & Y). exists v. rewrite waste_contents. exact Y.
    - exact (i_inj s V).
    - intros a v. rewrite waste_contents. exact (i_cover s V a v).
    - intros a I. destruct (i_given s V a I) as (v & C). exists v. rewrite waste_contents. exact C.
    - intros i r H L. destruct (i_it s V i r H L) as (c & v & C & O & U & P). exists c, v. rewrite waste_contents. auto.
    - exact (i_range s V).
  Qed.
  Lemma waste_later s : later s (with_objs s (objs s ++ [None])).
  Proof.
    split; [|split; [|split]].
    - intros w r H. exists r. auto.
    - intros a _. left. apply waste_contents.
    - intros i r H. exists r. auto.
    - cbn. rewrite app_length. lia.
  Qed.

  (** The last reference goes. *)
  Definition bury (s : state) (w : nat) (r : wrapper leaf) : state :=
    mk_state (match wr_obj r with Some a => set_nth a None (objs s) | None => objs s end) (set_nth w (mk_wrapper (wr_type r) 0 None) (wraps s)) (iters s) (given s).
  Lemma bury_contents s w r a : inv s -> nth_error (wraps s) w = Some r ->
    contents (bury s w r) a = match wr_obj r with Some b => if Nat.eqb a b then None else contents s a | None => contents s a end.
  Proof.
    intros V W. destruct (i_wr s V w r W) as (_ & _ & _ & F & _). destruct (wr_obj r) as [b|] eqn:O.
    - destruct (F b eq_refl) as (v & U & _). apply (contents_set s _ b None v a); [|exact U]. unfold bury. rewrite O. reflexivity.
    - unfold contents, bury. rewrite O. reflexivity.
  Qed.
  Lemma bury_inv (s : state) w r : inv s -> nth_error (wraps s) w = Some r -> count w (iters s) = 0 -> inv (bury s w r).
  Proof.
    intros V W K. assert (BC := fun a => bury_contents s w r a V W). destruct (i_wr s V w r W) as (A & B & C & F & G).
    assert (KEEP : forall u y a v, nth_error (wraps s) u = Some y -> u <> w -> wr_obj y = Some a -> contents s a = Some v -> contents (bury s w r) a = Some v).
    { intros u y a v U NE O Q. rewrite BC. destruct (wr_obj r) as [b|] eqn:OB; [|exact Q]. destruct (Nat.eqb_spec a b) as [->|]; [|exact Q].
      exfalso. apply NE. exact (i_inj s V _ _ _ _ _ U W O OB). }
    assert (KEEPG : forall a v, In a (given s) -> contents s a = Some v -> contents (bury s w r) a = Some v).
    { intros a v I Q. rewrite BC. destruct (wr_obj r) as [b|] eqn:OB; [|exact Q]. destruct (Nat.eqb_spec a b) as [->|]; [|exact Q].
      destruct (F b eq_refl) as (_ & _ & _ & NG). contradiction. }
    constructor.
    - intros u y. unfold bury; cbn [wraps]. rewrite (set_w s w r _ u W). destruct (Nat.eqb_spec u w) as [->|NE]; intros E.
      + injection E as <-. split; [exact A|]. split; [exact B|]. cbn [wr_refs wr_obj wr_type iters given]. split; [reflexivity|]. split; [discriminate|lia].
      + destruct (i_wr s V u y E) as (A' & B' & C' & F' & G'). split; [exact A'|]. split; [exact B'|]. split; [exact C'|]. split; [|exact G'].
        intros a Q. destruct (F' a Q) as (t & T1 & T2 & T3). exists t. split; [exact (KEEP u y a t E NE Q T1)|]. split; [exact T2|exact T3].
    - intros u u' y y' a. unfold bury; cbn [wraps]. rewrite !(set_w s w r _ _ W).
      destruct (Nat.eqb_spec u w) as [->|NE], (Nat.eqb_spec u' w) as [->|NE']; intros E E' Q Q'.
      + reflexivity.
      + injection E as <-. discriminate Q.
      + injection E' as <-. discriminate Q'.
      + exact (i_inj s V _ _ _ _ _ E E' Q Q').
    - intros a u H. assert (H' : contents s a = Some u /\ wr_obj r <> Some a).
      { rewrite BC in H. destruct (wr_obj r) as [b|]; [|split; [exact H|discriminate]]. destruct (Nat.eqb_spec a b); [discriminate|]. split; [exact H|congruence]. }
      destruct H' as [H1 H2]. destruct (i_cover s V a u H1) as [I|(y & z & Y & Q)]; [left; exact I|]. right. exists y, z. unfold bury; cbn [wraps]. rewrite (set_w s w r _ _ W).
      destruct (Nat.eqb_spec y w) as [->|]; [congruence|auto].
    - intros a I. destruct (i_given s V a I) as (u & U). exists u. exact (KEEPG a u I U).
    - intros i y H L. destruct (i_it s V i y H L) as (c & u & C1 & O1 & U & P).
      assert (NE : it_container y <> w).
      { intros E. assert (Z := count_pos w (iters s) i y H). unfold on in Z. rewrite E, Nat.eqb_refl in Z. destruct (Nat.eqb_spec (it_refs y) 0); [contradiction|]. specialize (Z eq_refl). lia. }
      exists c, u. split; [|split; [exact O1|split; [exact (KEEP _ _ _ _ C1 NE O1 U)|exact P]]].
      unfold bury; cbn [wraps]. rewrite (set_w s w r _ _ W). destruct (Nat.eqb_spec (it_container y) w); [contradiction|exact C1].
    - intros i y H. unfold bury; cbn [wraps]. rewrite set_length. exact (i_range s V i y H).
  Qed.
  Lemma bury_later (s : state) w r : inv s -> nth_error (wraps s) w = Some r -> later s (bury s w r).
  Proof.
    intros V W. split; [|split; [|split]].
    - intros u x H. unfold bury; cbn [wraps]. rewrite (set_w s w r _ u W). destruct (Nat.eqb_spec u w) as [->|NE]; [|exists x; auto].
      eexists. split; [reflexivity|]. rewrite H in W. injection W as ->. cbn. split; [reflexivity|]. split; [contradiction|auto].
    - intros a L. rewrite (bury_contents s w r a V W). destruct (wr_obj r) as [b|]; [|auto]. destruct (Nat.eqb a b); auto.
    - intros i x H. exists x. auto.
    - unfold bury; cbn [objs]. destruct (wr_obj r); [rewrite set_length|]; lia.
  Qed.

  (** ** Iterators *)
  Lemma set_i (s : state) i r x u : nth_error (iters s) i = Some r -> nth_error (set_nth i x (iters s)) u = if Nat.eqb u i then Some x else nth_error (iters s) u.
  Proof. intros H. rewrite nth_set, H. reflexivity. Qed.
  Lemma iter_inv (s : state) i r n p : inv s -> nth_error (iters s) i = Some r -> it_refs r <> 0 ->
    (forall v, contents s (it_object r) = Some v -> p <= length (entries v)) -> inv (set_iter s i (mk_iter n (it_container r) (it_object r) p)).
  Proof.
    intros V W N P. set (r' := mk_iter n (it_container r) (it_object r) p).
    assert (CNT : forall w, count w (set_nth i r' (iters s)) <= count w (iters s)).
    { intros w. assert (Z := count_set w (iters s) i r r' W). assert (Y : b2n (on w r') <= b2n (on w r)); [|lia].
      unfold on. cbn [it_refs it_container r']. destruct (Nat.eqb_spec (it_refs r) 0); [contradiction|]. cbn [negb andb].
      destruct (Nat.eqb n 0), (Nat.eqb (it_container r) w); cbn; lia. }
    constructor; unfold set_iter; cbn [wraps iters given with_iters].
    - intros w x H. destruct (i_wr s V w x H) as (A & B & C & F & G). split; [exact A|]. split; [exact B|]. split; [exact C|]. split; [exact F|].
      cbn [iters with_iters]. specialize (CNT w). lia.
    - exact (i_inj s V).
    - exact (i_cover s V).
    - exact (i_given s V).
    - intros j x. rewrite (set_i s i r _ j W). destruct (Nat.eqb_spec j i) as [->|NE]; intros H L.
      + injection H as <-. destruct (i_it s V i r W N) as (c & u & C & O & U & _). exists c, u. cbn [it_container it_object it_pos r' wraps with_iters]. auto.
      + exact (i_it s V j x H L).
    - intros j x. rewrite (set_i s i r _ j W). destruct (Nat.eqb_spec j i) as [->|NE]; intros H.
      + injection H as <-. cbn. exact (i_range s V i r W).
      + exact (i_range s V j x H).
  Qed.
  Lemma iter_later (s : state) i r n p : nth_error (iters s) i = Some r -> it_refs r <> 0 -> later s (set_iter s i (mk_iter n (it_container r) (it_object r) p)).
  Proof.
    intros W N. split; [|split; [|split]]; unfold set_iter; cbn [wraps iters objs with_iters].
    - intros u x H. exists x. auto.
    - intros a L. left. reflexivity.
    - intros u x H. rewrite (set_i s i r _ u W). destruct (Nat.eqb_spec u i) as [->|NE]; [|exists x; auto].
      eexists. split; [reflexivity|]. rewrite H in W. injection W as ->. cbn. split; [reflexivity|]. split; [reflexivity|contradiction].
    - lia.
  Qed.
  Lemma iter_positions (s : state) i r n p : nth_error (iters s) i = Some r -> positions (if Nat.eqb p (it_pos r) then None else Some i) s (set_iter s i (mk_iter n (it_container r) (it_object r) p)).
  Proof.
    intros W j x x' H. unfold set_iter; cbn [iters with_iters]. rewrite (set_i s i r _ j W). destruct (Nat.eqb_spec j i) as [->|NE]; intros E L.
    - injection E as <-. cbn. destruct (Nat.eqb_spec p (it_pos r)) as [->|]; [congruence|contradiction].
    - congruence.
  Qed.
  Lemma iter_new_inv (s : state) w r a : inv s -> nth_error (wraps s) w = Some r -> wr_obj r = Some a -> count w (iters s) < wr_refs r ->
    inv (with_iters s (iters s ++ [mk_iter 1 w a 0])).
  Proof.
    intros V W O K. constructor; cbn [wraps iters given with_iters].
    - intros u x H. destruct (i_wr s V u x H) as (A & B & C & F & G). split; [exact A|]. split; [exact B|]. split; [exact C|]. split; [exact F|].
      cbn [iters with_iters]. rewrite count_app. unfold on; cbn [it_refs it_container Nat.eqb negb andb]. destruct (Nat.eqb_spec w u) as [->|]; [|cbn; lia].
      rewrite H in W. injection W as ->. cbn. lia.
    - exact (i_inj s V).
    - exact (i_cover s V).
    - exact (i_given s V).
    - intros j x. rewrite nth_last. destruct (Nat.eqb_spec j (length (iters s))) as [->|NE]; intros H L.
      + injection H as <-. destruct (i_wr s V w r W) as (_ & _ & _ & F & _). destruct (F a O) as (v & U & _). exists r, v. cbn. repeat split; try assumption; lia.
      + exact (i_it s V j x H L).
    - intros j x. rewrite nth_last. destruct (Nat.eqb_spec j (length (iters s))) as [->|NE]; intros H.
      + injection H as <-. cbn. exact (nth_lt _ _ _ W).
      + exact (i_range s V j x H).
  Qed.
  Lemma iter_new_later (s : state) x : later s (with_iters s (iters s ++ [x])).
  Proof.
    split; [|split; [|split]]; cbn [wraps iters objs with_iters].
    - intros u y H. exists y. auto.
    - intros a L. left. reflexivity.
    - intros u y H. exists y. rewrite nth_last. destruct (Nat.eqb_spec u (length (iters s))); [apply nth_lt in H; lia|]. auto.
    - lia.
  Qed.
  Lemma iter_new_positions (s : state) x j : positions j s (with_iters s (iters s ++ [x])).
  Proof.
    intros i r r' H. cbn [iters with_iters]. rewrite nth_last. destruct (Nat.eqb_spec i (length (iters s))); [apply nth_lt in H; lia|]. congruence.
  Qed.

  (** ** Containers given to C++ *)
  Definition give (s : state) (v : cval) : state := mk_state (objs s ++ [Some v]) (wraps s) (iters s) (length (objs s) :: given s).
  Lemma give_contents s v a : contents (give s v) a = if Nat.eqb a (length (objs s)) then Some v else contents s a.
  Proof. apply contents_new. reflexivity. Qed.
  Lemma give_old s v a u : contents s a = Some u -> contents (give s v) a = Some u.
  Proof. intros H. rewrite give_contents. apply contents_lt in H as L. destruct (Nat.eqb_spec a (length (objs s))); [lia|exact H]. Qed.
  Lemma give_inv s v : inv s -> inv (give s v).
  Proof.
    intros V. constructor.
    - intros w r H. destruct (i_wr s V w r H) as (A & B & C & F & G). split; [exact A|]. split; [exact B|]. split; [exact C|]. split; [|exact G].
      intros a O. destruct (F a O) as (u & U1 & U2 & U3). exists u. split; [exact (give_old s v a u U1)|]. split; [exact U2|]. intros [<-|I]; [apply contents_lt in U1; lia|contradiction].
    - exact (i_inj s V).
    - intros a u. rewrite give_contents. destruct (Nat.eqb_spec a (length (objs s))) as [->|]; intros H.
      + left. left. reflexivity.
      + destruct (i_cover s V a u H) as [I|X]; [left; right; exact I|right; exact X].
    - intros a [<-|I].
      + exists v. change (contents (give s v) (length (objs s)) = Some v). rewrite give_contents, Nat.eqb_refl. reflexivity.
      + destruct (i_given s V a I) as (u & U). exists u. exact (give_old s v a u U).
    - intros i r H L. destruct (i_it s V i r H L) as (c & u & C & O & U & P). exists c, u. split; [exact C|]. split; [exact O|]. split; [exact (give_old s v _ u U)|exact P].
    - exact (i_range s V).
  Qed.
  Lemma give_later s v : later s (give s v).
  Proof.
    split; [|split; [|split]].
    - intros w r H. exists r. auto.
    - intros a L. left. rewrite give_contents. destruct (Nat.eqb_spec a (length (objs s))); [lia|reflexivity].
    - intros i r H. exists r. auto.
    - cbn. rewrite app_length. lia.
  Qed.
  Definition cpp_delete (s : state) (a : nat) : state :=
    mk_state (set_nth a None (objs s)) (wraps s) (iters s) (filter (fun b => negb (Nat.eqb a b)) (given s)).
  Lemma cpp_contents s a v b : contents s a = Some v -> contents (cpp_delete s a) b = if Nat.eqb b a then None else contents s b.
  Proof. intros H. exact (contents_set s (cpp_delete s a) a None v b eq_refl H). Qed.
  Lemma cpp_inv s a : inv s -> In a (given s) -> inv (cpp_delete s a).
  Proof.
    intros V I. destruct (i_given s V a I) as (v & Cv). assert (X := fun b => cpp_contents s a v b Cv).
    assert (GI : forall b, In b (given (cpp_delete s a)) <-> In b (given s) /\ b <> a).
    { intros b. cbn. rewrite filter_In. destruct (Nat.eqb_spec a b) as [->|]; cbn; split; intros [P Q]; split; auto; congruence. }
    constructor.
    - intros w r H. destruct (i_wr s V w r H) as (A & B & C & F & G). split; [exact A|]. split; [exact B|]. split; [exact C|]. split; [|exact G].
      intros b O. destruct (F b O) as (u & U1 & U2 & U3). exists u. split; [|split; [exact U2|]].
      + rewrite X. destruct (Nat.eqb_spec b a) as [->|]; [contradiction|exact U1].
      + intros J. apply GI in J as [J _]. contradiction.
    - exact (i_inj s V).
    - intros b u. rewrite X. destruct (Nat.eqb_spec b a) as [->|NE]; [discriminate|]. intros H. destruct (i_cover s V b u H) as [J|Y]; [left; apply GI; auto|right; exact Y].
    - intros b J. apply GI in J as [J NE]. destruct (i_given s V b J) as (u & U). exists u. rewrite X. destruct (Nat.eqb_spec b a); [contradiction|exact U].
    - intros i r H L. destruct (i_it s V i r H L) as (c & u & C & O & U & P). exists c, u. split; [exact C|]. split; [exact O|]. split; [|exact P].
      rewrite X. destruct (Nat.eqb_spec (it_object r) a) as [E|]; [|exact U]. exfalso.
      destruct (i_wr s V _ _ C) as (_ & _ & _ & F & _). destruct (F _ O) as (_ & _ & _ & NG). rewrite E in NG. contradiction.
    - exact (i_range s V).
  Qed.
  Lemma cpp_later s a v : contents s a = Some v -> later s (cpp_delete s a).
  Proof.
    intros H. split; [|split; [|split]].
    - intros w r K. exists r. auto.
    - intros b L. rewrite (cpp_contents s a v b H). destruct (Nat.eqb b a); auto.
    - intros i r K. exists r. auto.
    - cbn. rewrite set_length. lia.
  Qed.
End Heap.
