(** Shared pointers are counted correctly. *)
From Verif.Model Require Import Py SharedPtr.
From Verif.Spec Require Import SharedPtrSpec.
From Coq Require Import Lia.
Open Scope list_scope.

Lemma bind_some {A B} (x : option A) (f : A -> option B) r : bind x f = Some r -> exists a, x = Some a /\ f a = Some r.
Proof. destruct x; [|discriminate]. cbn. eauto. Qed.
Lemma replace_length {A} (l : list A) : forall i x, length (replace l i x) = length l.
Proof. induction l as [|y l IH]; intros [|i] x; cbn; auto. Qed.
Lemma replace_nth {A} (l : list A) : forall i x j, nth_error (replace l i x) j = if Nat.eqb j i then (if Nat.ltb i (length l) then Some x else None) else nth_error l j.
Proof.
  induction l as [|y l IH]; intros [|i] x [|j]; cbn; try reflexivity.
  - destruct (Nat.eqb j i); reflexivity.
  - rewrite IH. destruct (Nat.eqb j i); reflexivity.
Qed.
Lemma replace_same {A} (l : list A) i x y : nth_error l i = Some y -> nth_error (replace l i x) i = Some x.
Proof. intros H. rewrite replace_nth, Nat.eqb_refl. assert (L : i < length l) by (apply nth_error_Some; congruence). apply Nat.ltb_lt in L. now rewrite L. Qed.
Lemma replace_other {A} (l : list A) i x j : j <> i -> nth_error (replace l i x) j = nth_error l j.
Proof. intros H. rewrite replace_nth. apply Nat.eqb_neq in H. now rewrite H. Qed.

(** ** Counting *)
Definition is_ptr (o : nat) (p : option nat) : bool := match p with Some x => Nat.eqb x o | None => false end.
Definition occ (o : nat) (l : list (option nat)) : nat := length (filter (is_ptr o) l).
Definition one (o : nat) (p : option nat) : nat := if is_ptr o p then 1 else 0.
Lemma occ_cons o p l : occ o (p :: l) = one o p + occ o l.
Proof. unfold occ, one. cbn. destruct (is_ptr o p); reflexivity. Qed.
Lemma occ_app o a b : occ o (a ++ b) = occ o a + occ o b.
Proof. induction a as [|p a IH]; [reflexivity|]. cbn [app]. rewrite !occ_cons, IH. lia. Qed.
Lemma occ_replace o l : forall i p q, nth_error l i = Some q -> occ o (replace l i p) + one o q = occ o l + one o p.
Proof.
  induction l as [|x l IH]; intros [|i] p q E; try discriminate; cbn in E; cbn [replace]; rewrite !occ_cons.
  - injection E as ->. lia.
  - specialize (IH i p q E). lia.
Qed.
Lemma occ_in o l : 0 < occ o l <-> In (Some o) l.
Proof.
  induction l as [|p l IH]; [cbn; split; [lia|intros []]|]. rewrite occ_cons. unfold one, is_ptr. destruct p as [x|].
  - destruct (Nat.eqb x o) eqn:E.
    + apply Nat.eqb_eq in E. subst x. split; [now left|lia].
    + apply Nat.eqb_neq in E. cbn [In]. rewrite <- IH. split; [intros H; right; lia|]. intros [H|H]; [congruence|lia].
  - cbn [In]. rewrite <- IH. split; [intros H; right; lia|]. intros [H|H]; [discriminate|lia].
Qed.

Definition wptr (w : wrap) : option nat := if w_alive w then match w_obj w with Ptr p => p | Raw => None end else None.
Definition wptrs (s : state) : list (option nat) := map wptr (s_wraps s).
Definition holders (o : nat) (s : state) : nat := occ o (wptrs s) + occ o (s_kept s).

(** [ex]: the pointers in temporaries. *)
Definition counted (s : state) (ex : list (option nat)) : Prop :=
  (forall o x, nth_error (s_objs s) o = Some x -> o_count x = holders o s + occ o ex /\ o_alive x = negb (Nat.eqb (o_count x) 0)) /\
  (forall o, length (s_objs s) <= o -> holders o s + occ o ex = 0) /\
  NoDup (s_log s) /\ (forall o, In o (s_log s) <-> exists x, nth_error (s_objs s) o = Some x /\ o_alive x = false).
(** Addresses of the existing objects. *)
Definition placed (s : state) : Prop :=
  (forall o x, nth_error (s_objs s) o = Some x -> o_addr x <> 0) /\
  forall o o' x x', nth_error (s_objs s) o = Some x -> nth_error (s_objs s) o' = Some x' -> o_alive x = true -> o_alive x' = true -> o_addr x = o_addr x' -> o = o'.
Definition sane (s : state) : Prop := forall i w, nth_error (s_wraps s) i = Some w -> w_alive w = true -> w_obj w <> Raw /\ 0 < w_refs w.

Lemma counted_perm s ex ex' : (forall o, occ o ex = occ o ex') -> counted s ex -> counted s ex'.
Proof.
  intros E (C1 & C2 & C3 & C4). split; [|split; [|split; assumption]].
  - intros o x H. rewrite <- E. now apply C1.
  - intros o H. rewrite <- E. now apply C2.
Qed.
Lemma counted_alive s ex o : counted s ex -> 0 < holders o s + occ o ex -> exists x, nth_error (s_objs s) o = Some x /\ o_alive x = true.
Proof.
  intros (C1 & C2 & _) H. destruct (nth_error (s_objs s) o) as [x|] eqn:E.
  - destruct (C1 o x E) as [H1 H2]. exists x. split; [reflexivity|]. rewrite H2. destruct (Nat.eqb_spec (o_count x) 0); [lia|reflexivity].
  - apply nth_error_None in E. specialize (C2 o E). lia.
Qed.

(** What stays the same when pointers are copied and destroyed. *)
Definition same_rest (s s' : state) : Prop :=
  s_wraps s' = s_wraps s /\ s_kept s' = s_kept s /\ s_registry s' = s_registry s /\ length (s_objs s') = length (s_objs s) /\
  forall o x', nth_error (s_objs s') o = Some x' -> exists x, nth_error (s_objs s) o = Some x /\ o_addr x' = o_addr x /\ (o_alive x' = true -> o_alive x = true).
Lemma same_refl s : same_rest s s.
Proof. unfold same_rest. intuition eauto. Qed.
Lemma same_trans a b c : same_rest a b -> same_rest b c -> same_rest a c.
Proof.
  intros (A1 & A2 & A3 & A4 & A5) (B1 & B2 & B3 & B4 & B5). unfold same_rest. repeat (split; [congruence|]).
  intros o x H. destruct (B5 o x H) as (y & Hy & Ey & Ly). destruct (A5 o y Hy) as (z & Hz & Ez & Lz). exists z. split; [assumption|]. split; [congruence|auto].
Qed.
Lemma same_get s s' p : same_rest s s' -> get p s' = get p s.
Proof.
  intros (_ & _ & _ & L & H). destruct p as [o|]; [|reflexivity]. cbn. destruct (nth_error (s_objs s') o) as [x|] eqn:E.
  - destruct (H o x E) as (y & -> & -> & _). reflexivity.
  - apply nth_error_None in E. rewrite L in E. apply nth_error_None in E. now rewrite E.
Qed.
Lemma same_placed s s' : same_rest s s' -> placed s -> placed s'.
Proof.
  intros (_ & _ & _ & _ & H) [P1 P2]. split.
  - intros o x E. destruct (H o x E) as (y & Hy & -> & _). eauto.
  - intros o o' x x' E E' A A' Ea. destruct (H o x E) as (y & Hy & Ey & Ly), (H o' x' E') as (y' & Hy' & Ey' & Ly'). apply (P2 o o' y y'); auto; congruence.
Qed.
Lemma same_sane s s' : same_rest s s' -> sane s -> sane s'.
Proof. intros (E & _) S i w. rewrite E. apply S. Qed.

(** The objects of the log. *)
Lemma copy_ok p s ex : counted s ex -> (forall o, p = Some o -> 0 < holders o s + occ o ex) ->
  exists s', copy_ptr p s = Some s' /\ counted s' (p :: ex) /\ same_rest s s' /\ s_log s' = s_log s.
Proof.
  intros C A. destruct p as [o|].
  - destruct (counted_alive s ex o C (A o eq_refl)) as (x & Ex & Lx). cbn. rewrite Ex, Lx. eexists. split; [reflexivity|].
    destruct C as (C1 & C2 & C3 & C4). split; [|split; [|reflexivity]].
    + split; [|split; [|split; [assumption|]]].
      * intros o' y Ey. cbn [s_objs set_obj] in Ey. unfold holders, wptrs. cbn [s_wraps s_kept set_obj]. rewrite occ_cons. unfold one, is_ptr.
        destruct (Nat.eq_dec o' o) as [->|Ne].
        -- rewrite (replace_same _ _ _ _ Ex) in Ey. injection Ey as <-. cbn. rewrite Nat.eqb_refl. destruct (C1 o x Ex) as [-> _]. unfold holders, wptrs. split; [lia|reflexivity].
        -- rewrite (replace_other _ _ _ _ Ne) in Ey. destruct (Nat.eqb_spec o o'); [congruence|]. exact (C1 o' y Ey).
      * intros o' L. cbn [s_objs set_obj] in L. rewrite replace_length in L. unfold holders, wptrs. cbn [s_wraps s_kept set_obj]. rewrite occ_cons. unfold one, is_ptr.
        destruct (Nat.eqb_spec o o') as [->|Ne]; [|exact (C2 o' L)]. assert (o' < length (s_objs s)) by (apply nth_error_Some; congruence). lia.
      * intros o'. cbn [s_log s_objs set_obj]. rewrite C4. destruct (Nat.eq_dec o' o) as [->|Ne].
        -- rewrite (replace_same _ _ _ _ Ex). split; intros (z & Ez & Lz); [congruence|]. injection Ez as <-. discriminate.
        -- now rewrite (replace_other _ _ _ _ Ne).
    + split; [reflexivity|]. split; [reflexivity|]. split; [reflexivity|]. cbn. split; [apply replace_length|].
      intros o' y Ey. destruct (Nat.eq_dec o' o) as [->|Ne].
      * rewrite (replace_same _ _ _ _ Ex) in Ey. injection Ey as <-. exists x. auto.
      * rewrite (replace_other _ _ _ _ Ne) in Ey. exists y. auto.
  - exists s. split; [reflexivity|]. split; [|split; [apply same_refl|reflexivity]]. eapply counted_perm; [|exact C]. intros o. rewrite occ_cons. reflexivity.
Qed.
Lemma drop_ok p s ex : counted s (p :: ex) -> exists s', drop_ptr p s = Some s' /\ counted s' ex /\ same_rest s s' /\ (forall o, In o (s_log s) -> In o (s_log s')).
Proof.
  intros C. destruct p as [o|].
  - assert (H0 : 0 < holders o s + occ o (Some o :: ex)) by (rewrite occ_cons; unfold one, is_ptr; rewrite Nat.eqb_refl; lia).
    destruct (counted_alive s _ o C H0) as (x & Ex & Lx). destruct C as (C1 & C2 & C3 & C4). destruct (C1 o x Ex) as [Cx _].
    rewrite occ_cons in Cx. unfold one, is_ptr in Cx. rewrite Nat.eqb_refl in Cx. cbn. rewrite Ex, Lx.
    assert (Oth : forall o', o' <> o -> occ o' (Some o :: ex) = occ o' ex).
    { intros o' Ne. rewrite occ_cons. unfold one, is_ptr. destruct (Nat.eqb_spec o o'); [congruence|reflexivity]. }
    assert (Big : forall o', length (s_objs s) <= o' -> holders o' s + occ o' ex = 0).
    { intros o' L. rewrite <- (Oth o'); [now apply C2|]. intros ->. assert (o < length (s_objs s)) by (apply nth_error_Some; congruence). lia. }
    destruct (o_count x) as [|[|n]] eqn:Ec; [lia| |].
    + eexists. split; [reflexivity|]. split; [|split].
      * split; [|split; [|split]].
        -- intros o' y Ey. cbn [s_objs set_obj log] in Ey. unfold holders, wptrs. cbn [s_wraps s_kept set_obj log]. destruct (Nat.eq_dec o' o) as [->|Ne].
           ++ rewrite (replace_same _ _ _ _ Ex) in Ey. injection Ey as <-. cbn [o_count o_alive]. unfold holders, wptrs in Cx. split; [lia|reflexivity].
           ++ rewrite (replace_other _ _ _ _ Ne) in Ey. destruct (C1 o' y Ey) as [H1 H2]. rewrite (Oth o' Ne) in H1. split; [exact H1|exact H2].
        -- intros o' L. cbn [s_objs set_obj log] in L. rewrite replace_length in L. exact (Big o' L).
        -- cbn. constructor; [|assumption]. rewrite C4. intros (z & Ez & Lz). congruence.
        -- intros o'. cbn [s_log log set_obj s_objs In]. destruct (Nat.eq_dec o' o) as [->|Ne].
           ++ rewrite (replace_same _ _ _ _ Ex). split; [intros _; eexists; split; reflexivity|now left].
           ++ rewrite (replace_other _ _ _ _ Ne), <- C4. split; [intros [H|H]; [congruence|assumption]|auto].
      * split; [reflexivity|]. split; [reflexivity|]. split; [reflexivity|]. cbn. split; [apply replace_length|].
        intros o' y Ey. destruct (Nat.eq_dec o' o) as [->|Ne].
        -- rewrite (replace_same _ _ _ _ Ex) in Ey. injection Ey as <-. exists x. auto.
        -- rewrite (replace_other _ _ _ _ Ne) in Ey. exists y. auto.
      * intros o' H. cbn. now right.
    + eexists. split; [reflexivity|]. split; [|split].
      * split; [|split; [|split; [assumption|]]].
        -- intros o' y Ey. cbn [s_objs set_obj] in Ey. unfold holders, wptrs. cbn [s_wraps s_kept set_obj]. destruct (Nat.eq_dec o' o) as [->|Ne].
           ++ rewrite (replace_same _ _ _ _ Ex) in Ey. injection Ey as <-. cbn [o_count o_alive]. unfold holders, wptrs in Cx. split; [lia|reflexivity].
           ++ rewrite (replace_other _ _ _ _ Ne) in Ey. destruct (C1 o' y Ey) as [H1 H2]. rewrite (Oth o' Ne) in H1. split; [exact H1|exact H2].
        -- intros o' L. cbn [s_objs set_obj] in L. rewrite replace_length in L. exact (Big o' L).
        -- intros o'. cbn [s_log set_obj s_objs]. rewrite C4. destruct (Nat.eq_dec o' o) as [->|Ne].
           ++ rewrite (replace_same _ _ _ _ Ex). split; intros (z & Ez & Lz); [congruence|]. injection Ez as <-. discriminate.
           ++ now rewrite (replace_other _ _ _ _ Ne).
      * split; [reflexivity|]. split; [reflexivity|]. split; [reflexivity|]. cbn. split; [apply replace_length|].
        intros o' y Ey. destruct (Nat.eq_dec o' o) as [->|Ne].
        -- rewrite (replace_same _ _ _ _ Ex) in Ey. injection Ey as <-. exists x. auto.
        -- rewrite (replace_other _ _ _ _ Ne) in Ey. exists y. auto.
      * auto.
  - exists s. split; [reflexivity|]. split; [|split; [apply same_refl|auto]]. eapply counted_perm; [|exact C]. intros o. rewrite occ_cons. reflexivity.
Qed.
Lemma drop_all_ok l : forall s ex, counted s (l ++ ex) -> exists s', drop_all l s = Some s' /\ counted s' ex /\ same_rest s s'.
Proof.
  induction l as [|p l IH]; intros s ex C; cbn [drop_all].
  - exists s. split; [reflexivity|]. split; [exact C|apply same_refl].
  - destruct (drop_ok p s (l ++ ex) C) as (s1 & -> & C1 & R1 & _). cbn [bind]. destruct (IH s1 ex C1) as (s2 & -> & C2 & R2). exists s2. split; [reflexivity|]. split; [assumption|].
    eapply same_trans; eassumption.
Qed.
Lemma copy_all_ok l : forall s ex, counted s ex -> (forall o, In (Some o) l -> 0 < holders o s + occ o ex) ->
  exists s', copy_all l s = Some s' /\ counted s' (l ++ ex) /\ same_rest s s'.
Proof.
  induction l as [|p l IH]; intros s ex C A; cbn [copy_all].
  - exists s. split; [reflexivity|]. split; [exact C|apply same_refl].
  - destruct (copy_ok p s ex C) as (s1 & -> & C1 & R1 & _); [intros o ->; apply A; now left|]. cbn [bind].
    destruct (IH s1 (p :: ex) C1) as (s2 & -> & C2 & R2).
    { intros o Ho. specialize (A o (or_intror Ho)). rewrite occ_cons. destruct R1 as (E1 & E2 & _). unfold holders, wptrs in *. rewrite E1, E2. lia. }
    exists s2. split; [reflexivity|]. split; [|eapply same_trans; eassumption]. eapply counted_perm; [|exact C2].
    intros o. rewrite occ_app. cbn [app]. rewrite !occ_cons, occ_app. lia.
Qed.
