From Verif.Model Require Import Py IntHandlers Containers.
From Verif.Spec Require Import ContainerSpec IntSpec.
From Verif.Proofs Require Import ContainerConv ContainerRep ContainerHeap ContainerSteps.
From Coq Require Import Permutation Sorted Lia.
Open Scope list_scope.

Section Top.
  Variables leaf lval atom : Type.
  Variable leaf_in : leaf -> pyobj atom -> lval + argerr.
  Variable leaf_out : leaf -> lval -> atom.
  Variable leaf_prepends : leaf -> bool.
  Variable less equal : cval lval -> cval lval -> bool.
  Variable place : list (cval lval) -> cval lval -> nat.
  Variable D : string -> option (ctype leaf).
  Hypothesis swo : strict_weak_order lval less.
  Hypothesis eqv : equivalence lval equal.
  Local Notation ctype := (ctype leaf).
  Local Notation cval := (cval lval).
  Local Notation pyobj := (pyobj atom).
  Local Notation state := (state leaf lval).
  Local Notation event := (event leaf lval atom).
  Local Notation convert := (convert leaf lval atom leaf_in less equal place).
  Local Notation step := (step leaf lval atom leaf_in leaf_out leaf_prepends less equal place).
  Local Notation history := (history leaf lval atom leaf_in leaf_out leaf_prepends less equal place).
  Local Notation legal := (legal leaf lval atom D).
  Local Notation is_container := (is_container leaf).
  Local Notation has_type := (has_type leaf lval).
  Local Notation holds := (holds leaf lval).
  Local Notation live_wrapper := (live_wrapper leaf lval).
  Local Notation live_iter := (live_iter leaf lval).
  Local Notation usable := (usable lval atom).
  Local Notation represents := (represents leaf lval atom leaf_in less equal).
  Local Notation represent_all := (represent_all leaf lval atom leaf_in less equal).
  Local Notation erroneous := (erroneous leaf lval atom leaf_in less equal).
  Local Notation shows := (shows leaf lval atom leaf_out).
  Local Notation shows_entry := (shows_entry leaf lval atom leaf_out).
  Local Notation keys_first := (keys_first leaf leaf_prepends).
  Local Notation asked := (asked leaf lval atom).
  Local Notation legal_history := (legal_history leaf lval atom leaf_in leaf_out leaf_prepends less equal place D).
  Local Notation reachable := (reachable leaf lval atom leaf_in leaf_out leaf_prepends less equal place D).
  Local Notation inv := (inv leaf lval D).
  Local Notation later := (later leaf lval).

  Lemma in_order look n e xs old v : convert look (TSeq n Back e) (PList (map Some xs)) old = Done v ->
    exists l, v = CSeq l /\ Forall2 (represents look e) xs l.
  Proof.
    intros E. assert (G := convert_good leaf lval atom leaf_in less equal place swo eqv look (TSeq n Back e) (PList (map Some xs)) old). rewrite E in G. cbn [good] in G.
    inversion G as [| | |n' k' e' xs' vs l RA GA EQ1 EQ2 EQ3|]; subst. exists l. split; [reflexivity|]. cbn in GA. subst l.
    assert (XS : xs = xs').
    { apply (f_equal (fun l => map (fun o => match o with Some x => x | None => PTuple [] end) l)) in EQ2. rewrite !map_map, !map_id in EQ2. congruence. }
    subst xs'. clear G E EQ2. induction RA; constructor; auto.
  Qed.

  Lemma safe h : legal_history start h -> exists s l, history start h = Some (s, l).
  Proof. intros L. destruct (history_ok leaf lval atom leaf_in leaf_out leaf_prepends less equal place D swo eqv h start (inv_start _ _ D) L) as (s & l & E & _). exists s, l. exact E. Qed.

  Local Notation r_inv := (reachable_inv leaf lval atom leaf_in leaf_out leaf_prepends less equal place D swo eqv).

  (** ** Construction *)
  Lemma construct s ty arg : reachable s -> legal s (Construct ty arg) ->
    exists s' a, step s (Construct ty arg) = Some (s', a) /\
    match arg with
    | None => a = Nothing /\ look_up s' (length (wraps s)) = Some (type_name ty, Some (fresh ty))
    | Some o => (exists v, represents (look_up s) ty o v /\ a = Nothing /\ look_up s' (length (wraps s)) = Some (type_name ty, Some v)) \/
                (exists e, erroneous (look_up s) ty o e /\ a = Raised e /\ (forall b, contents s' b = contents s b) /\ ~ live_wrapper s' (length (wraps s)))
    end /\ (forall w, w < length (wraps s) -> look_up s' w = look_up s w).
  Proof.
    intros R L. assert (V := r_inv s R). destruct L as (DI & IC & U). cbn [Containers.step]. cbn [new_wrapper]. set (s1 := with_wraps s (wraps s ++ [mk_wrapper ty 1 None])).
    assert (V1 : inv s1) by exact (new_inv _ _ D s ty V DI IC). set (r := mk_wrapper ty 1 None).
    assert (W1 : nth_error (wraps s1) (length (wraps s)) = Some r) by (cbn; rewrite nth_last, Nat.eqb_refl; reflexivity).
    assert (SE : ContainerSteps.sees leaf lval s s1) by exact (new_sees _ _ s ty).
    assert (U1 : match arg with Some o => usable (look_up s1) o | None => True end).
    { destruct arg as [o|]; [|exact I]. exact (usable_mono leaf lval atom s s1 SE o U). }
    assert (OLD : forall w, w < length (wraps s) -> nth_error (wraps s1) w = nth_error (wraps s) w).
    { intros w LT. cbn. rewrite nth_last. destruct (Nat.eqb_spec w (length (wraps s))); [lia|reflexivity]. }
    assert (FILL : forall v, look_up (fill leaf lval s1 (length (wraps s)) r v) (length (wraps s)) = Some (type_name ty, Some v) /\
                             forall w, w < length (wraps s) -> look_up (fill leaf lval s1 (length (wraps s)) r v) w = look_up s w).
    { intros v. split.
      - apply look_inv. exists (mk_wrapper ty 1 (Some (length (objs s)))), (length (objs s)). unfold fill; cbn [wraps]. rewrite (set_w _ _ s1 _ r _ _ W1), Nat.eqb_refl.
        split; [reflexivity|]. split; [discriminate|]. split; [reflexivity|]. split; [|reflexivity]. change (contents (fill leaf lval s1 (length (wraps s)) r v) (length (objs s1)) = Some v).
        rewrite fill_contents, Nat.eqb_refl. reflexivity.
      - intros w LT. unfold look_up. unfold fill at 1; cbn [wraps]. rewrite (set_w _ _ s1 _ r _ _ W1). destruct (Nat.eqb_spec w (length (wraps s))); [lia|]. rewrite (OLD w LT).
        destruct (nth_error (wraps s) w) as [y|] eqn:Y; [|reflexivity]. destruct (Nat.eqb (wr_refs y) 0); [reflexivity|]. destruct (wr_obj y) as [a|] eqn:O; [|reflexivity].
        destruct (i_wr _ _ _ s V w y Y) as (_ & _ & _ & F & _). destruct (F a O) as (u & C & _). rewrite C.
        rewrite (fill_old _ _ s1 (length (wraps s)) r v a u C). reflexivity. }
    destruct (init_ok leaf lval atom leaf_in less equal place D swo eqv s1 (length (wraps s)) r arg V1 W1 ltac:(discriminate) eq_refl U1) as (s' & a & E & H). rewrite E.
    destruct arg as [o|]; [destruct H as [(v & RE & T & -> & ->)|(e & ER & EQ & ->)]|destruct H as [-> ->]].
    - eexists. eexists. split; [reflexivity|]. destruct (FILL v) as [F1 F2]. split; [|exact F2]. left. exists v. split; [|split; [reflexivity|exact F1]].
      destruct (convert_total leaf lval atom leaf_in less equal place swo eqv (look_up s) ty o (fresh ty) U) as [(v' & E1 & R1)|(left & e & E1 & R1 & _)].
      + rewrite <- (convert_mono leaf lval atom leaf_in less equal place s s1 SE ty o (fresh ty) U) in E1.
        (* both conversions give the same value *)
        unfold Containers.init in E. rewrite W1 in E. cbn [wr_refs r Nat.eqb allocate wr_type] in E.
        change (set_wrapper (with_objs s1 (objs s1 ++ [Some (fresh ty)])) (length (wraps s)) (mk_wrapper ty 1 (Some (length (objs s1))))) with (fill leaf lval s1 (length (wraps s)) r (fresh ty)) in E.
        rewrite (convert_mono leaf lval atom leaf_in less equal place s1 _ (fill_sees leaf lval D s1 (length (wraps s)) r (fresh ty) V1 W1 eq_refl) ty o (fresh ty) U1), E1 in E.
        injection E as E. apply (f_equal (fun x => nth_error x (length (objs s1)))) in E. unfold fill in E; cbn [objs] in E. rewrite set_last, !nth_last, Nat.eqb_refl in E. injection E as ->. exact R1.
      + exfalso. rewrite <- (convert_mono leaf lval atom leaf_in less equal place s s1 SE ty o (fresh ty) U) in E1.
        apply (exclusive leaf lval atom leaf_in less equal (look_up s1) ty o e) with (v := v) in RE; [exact RE|].
        assert (G := convert_good leaf lval atom leaf_in less equal place swo eqv (look_up s1) ty o (fresh ty)). rewrite E1 in G. exact G.
    - subst s'.
      assert (A : inv (with_objs s1 (objs s1 ++ [None]))) by exact (waste_inv _ _ D s1 V1).
      assert (K : count (length (wraps s)) (iters (with_objs s1 (objs s1 ++ [None]))) < wr_refs r).
      { change (count (length (wraps s)) (iters s) < 1). rewrite (count_range _ _ D s); [lia|exact V|lia]. }
      destruct (drop_wrapper_ok leaf lval D _ (length (wraps s)) r A W1 K) as (s3 & E3 & V3 & L3 & I3 & _ & EQ3). rewrite E3. exists s3, (Raised e). split; [reflexivity|].
      cbn [r wr_refs Nat.eqb] in EQ3.
      assert (CE : forall b, contents s3 b = contents s b) by (intros b; rewrite EQ3; change (contents (with_objs s1 (objs s1 ++ [None])) b = contents s b); rewrite waste_contents; reflexivity).
      split; [right; exists e; split; [|split; [reflexivity|split; [exact CE|]]]|].
      + destruct (convert_total leaf lval atom leaf_in less equal place swo eqv (look_up s) ty o (fresh ty) U) as [(v' & E1 & R1)|(left & e' & E1 & R1 & _)].
        * exfalso. rewrite <- (convert_mono leaf lval atom leaf_in less equal place s s1 SE ty o (fresh ty) U) in E1.
          assert (G := convert_good leaf lval atom leaf_in less equal place swo eqv (look_up s1) ty o (fresh ty)). rewrite E1 in G. cbn [good] in G.
          exact (proj1 (exclusive leaf lval atom leaf_in less equal (look_up s1) ty o e ER) _ G).
        * rewrite <- (convert_mono leaf lval atom leaf_in less equal place s s1 SE ty o (fresh ty) U) in E1.
          assert (G := convert_good leaf lval atom leaf_in less equal place swo eqv (look_up s1) ty o (fresh ty)). rewrite E1 in G. cbn [good] in G.
          rewrite (proj2 (exclusive leaf lval atom leaf_in less equal (look_up s1) ty o e' G) _ ER). exact R1.
      + intros (y & Y & N). rewrite EQ3 in Y. unfold bury in Y; cbn [wraps with_objs] in Y. rewrite (set_w _ _ s1 _ r _ _ W1), Nat.eqb_refl in Y. injection Y as <-. apply N. reflexivity.
      + intros w LT. unfold look_up. rewrite EQ3. unfold bury at 1; cbn [wraps with_objs]. rewrite (set_w _ _ s1 _ r _ _ W1). destruct (Nat.eqb_spec w (length (wraps s))); [lia|]. rewrite (OLD w LT), <- EQ3.
        destruct (nth_error (wraps s) w) as [y|]; [|reflexivity]. destruct (Nat.eqb (wr_refs y) 0); [reflexivity|]. destruct (wr_obj y) as [a|]; [|reflexivity]. rewrite CE. reflexivity.
    - eexists. eexists. split; [reflexivity|]. destruct (FILL (fresh ty)) as [F1 F2]. split; [split; [reflexivity|exact F1]|exact F2].
  Qed.

  (** ** Contents never change *)
  Lemma immutable s h s' l w n v : reachable s -> legal_history s h -> history s h = Some (s', l) -> look_up s w = Some (n, Some v) -> live_wrapper s' w ->
    look_up s' w = Some (n, Some v).
  Proof.
    intros R L E H (r' & W' & N'). assert (V := r_inv s R).
    destruct (history_ok leaf lval atom leaf_in leaf_out leaf_prepends less equal place D swo eqv h s V L) as (s2 & l2 & E2 & V2 & (A & B & _)). rewrite E in E2. injection E2 as <- <-.
    apply look_inv in H as (r & a & W & N & O & C & T). destruct (A w r W) as (r2 & W2 & T2 & O2 & _). rewrite W' in W2. injection W2 as <-.
    specialize (O2 a O N'). apply look_inv. exists r', a. split; [exact W'|]. split; [exact N'|]. split; [exact O2|]. split; [|congruence].
    destruct (i_wr _ _ _ s' V2 w r' W') as (_ & _ & _ & F & _). destruct (F a O2) as (v' & C' & _). rewrite C'. destruct (B a (contents_lt _ _ s a v C)) as [Q|Q]; congruence.
  Qed.

  (** ** Ownership *)
  Lemma owned s a v : reachable s -> contents s a = Some v ->
    (In a (given s) /\ forall w, ~ holds s w a) \/ (~ In a (given s) /\ exists w, holds s w a /\ forall w', holds s w' a -> w' = w).
  Proof.
    intros R C. assert (V := r_inv s R). destruct (in_dec Nat.eq_dec a (given s)) as [I|NI].
    - left. split; [exact I|]. intros w (r & W & _ & O). destruct (i_wr _ _ _ s V w r W) as (_ & _ & _ & F & _). destruct (F a O) as (_ & _ & _ & NG). contradiction.
    - right. split; [exact NI|]. destruct (i_cover _ _ _ s V a v C) as [I|(w & r & W & O)]; [contradiction|]. exists w. split.
      + exists r. split; [exact W|]. split; [|exact O]. destruct (i_wr _ _ _ s V w r W) as (_ & _ & Z & _). intros N. rewrite (Z N) in O. discriminate.
      + intros w' (r' & W' & _ & O'). exact (i_inj _ _ _ s V _ _ _ _ _ W' W O' O).
  Qed.
  Lemma not_dangling s w a : reachable s -> holds s w a -> exists v, contents s a = Some v /\ look_up s w <> None.
  Proof.
    intros R (r & W & N & O). assert (V := r_inv s R). destruct (i_wr _ _ _ s V w r W) as (_ & _ & _ & F & _). destruct (F a O) as (v & C & _). exists v. split; [exact C|].
    assert (X : look_up s w = Some (type_name (wr_type r), Some v)) by (apply look_inv; exists r, a; auto). congruence.
  Qed.
  Lemma no_leak s a v : reachable s -> (forall w, ~ live_wrapper s w) -> contents s a = Some v -> In a (given s).
  Proof.
    intros R N C. destruct (owned s a v R C) as [[I _]|[_ (w & (r & W & L & _) & _)]]; [exact I|]. exfalso. apply (N w). exists r. auto.
  Qed.
  Lemma iterator_keeps s i r : reachable s -> nth_error (iters s) i = Some r -> it_refs r <> 0 -> holds s (it_container r) (it_object r).
  Proof.
    intros R W N. assert (V := r_inv s R). destruct (i_it _ _ _ s V i r W N) as (c & v & C & O & _). exists c. split; [exact C|]. split; [|exact O].
    destruct (i_wr _ _ _ s V _ c C) as (_ & _ & Z & _). intros Q. rewrite (Z Q) in O. discriminate.
  Qed.

  (** ** Iteration *)
  Lemma positions_after h : forall s, inv s -> legal_history s h -> forall s' l i r r' v, history s h = Some (s', l) ->
    nth_error (iters s) i = Some r -> nth_error (iters s') i = Some r' -> it_refs r' <> 0 -> contents s (it_object r) = Some v ->
    it_container r' = it_container r /\ it_object r' = it_object r /\ it_pos r' = Nat.min (it_pos r + asked i h) (length (entries v)) /\ contents s' (it_object r) = Some v.
  Proof.
    induction h as [|e h IH]; intros s V L s' l i r r' v E W W' N C.
    - cbn in E. injection E as <- _. assert (r' = r) by congruence. subst r'. destruct (i_it _ _ _ s V i r W N) as (c & v' & _ & _ & C' & P). rewrite C in C'. injection C' as <-.
      split; [reflexivity|]. split; [reflexivity|]. split; [|exact C]. cbn. lia.
    - destruct L as [L1 L2]. cbn [Containers.history] in E.
      destruct (step_ok leaf lval atom leaf_in leaf_out leaf_prepends less equal place D swo eqv s e V L1) as (s1 & a & E1 & V1 & (LA & LB & LC & LD) & PO). rewrite E1 in E.
      destruct (history s1 h) as [[s2 l2]|] eqn:E2; [|discriminate]. injection E as <- <-.
      destruct (LC i r W) as (r1 & W1 & T1 & O1 & _).
      assert (NR1 : it_refs r1 <> 0).
      { intros Z. destruct (history_ok leaf lval atom leaf_in leaf_out leaf_prepends less equal place D swo eqv h s1 V1 (L2 s1 a E1)) as (s3 & l3 & E3 & _ & (_ & _ & LC3 & _)). rewrite E2 in E3. injection E3 as <- <-.
        destruct (LC3 i r1 W1) as (r3 & W3 & _ & _ & Z3). rewrite W' in W3. injection W3 as <-. exact (N (Z3 Z)). }
      assert (C1 : contents s1 (it_object r1) = Some v).
      { destruct (i_it _ _ _ s1 V1 i r1 W1 NR1) as (c & v' & _ & _ & C1 & _). rewrite C1. rewrite O1 in C1. destruct (LB _ (contents_lt _ _ s _ v C)) as [Q|Q]; congruence. }
      destruct (IH s1 V1 (L2 s1 a E1) s2 l2 i r1 r' v E2 W1 W' N C1) as (A1 & A2 & A3 & A4). split; [congruence|]. split; [congruence|].
      split; [|congruence]. rewrite A3.
      assert (X : it_pos r1 = Nat.min (it_pos r + (if match e with Next j => Nat.eqb i j | _ => false end then 1 else 0)) (length (entries v))).
      { assert (PR : it_pos r <= length (entries v)).
        { destruct (i_it _ _ _ s1 V1 i r1 W1 NR1) as (c & v' & _ & _ & C1' & P1). destruct (Nat.eq_dec (it_refs r) 0) as [Z|NZ].
          - destruct (LC i r W) as (r1' & W1' & _ & _ & Z'). rewrite W1 in W1'. injection W1' as <-. exfalso. exact (NR1 (Z' Z)).
          - destruct (i_it _ _ _ s V i r W NZ) as (c0 & v0 & _ & _ & C0 & P0). rewrite C in C0. injection C0 as <-. exact P0. }
        destruct (match e with Next j => Nat.eqb i j | _ => false end) eqn:M.
        - destruct e as [ty|w arg|ty arg|ty u|ty how o|w|j|w|w|j|j|b]; try discriminate M. apply Nat.eqb_eq in M. subst j.
          cbn [Containers.step] in E1. destruct (next_ok leaf lval atom leaf_out leaf_prepends D s i V L1) as (s1' & a' & E1' & _ & _ & _ & (rr & c & u & Wr & Cc & Oc & Cu & Y) & _).
          rewrite E1 in E1'. injection E1' as <- <-. rewrite W in Wr. injection Wr as <-. rewrite C in Cu. injection Cu as <-.
          destruct (nth_error (entries v) (it_pos r)) as [en|] eqn:EN.
          + destruct Y as (x & _ & _ & Y). rewrite Y, nth_set, Nat.eqb_refl, W in W1. injection W1 as <-. cbn. apply nth_lt in EN. lia.
          + destruct Y as (_ & -> & Y). rewrite W in W1. injection W1 as <-. lia.
        - rewrite (PO i r r1 W W1); [lia|]. intros Z. destruct e as [ty|w arg|ty arg|ty u|ty how o|w|j|w|w|j|j|b]; try discriminate Z. cbn in Z. injection Z as <-. rewrite Nat.eqb_refl in M. discriminate. }
      rewrite X. unfold ContainerSpec.asked. cbn [filter]. destruct (match e with Next j => Nat.eqb i j | _ => false end); cbn [length]; fold (asked i h); lia.
  Qed.
  Lemma iteration s w ty v h s1 l1 : reachable s -> (exists r, nth_error (wraps s) w = Some r /\ wr_type r = ty) -> look_up s w = Some (type_name ty, Some v) ->
    legal_history s (GetIter w :: h) -> history s (GetIter w :: h) = Some (s1, l1) -> live_iter s1 (length (iters s)) ->
    exists s2, match nth_error (entries v) (asked (length (iters s)) h) with
               | Some e => exists x, step s1 (Next (length (iters s))) = Some (s2, Item x) /\ (keys_first ty -> shows_entry s2 ty e x)
               | None => step s1 (Next (length (iters s))) = Some (s2, StopIteration) /\ s2 = s1
               end.
  Proof.
    intros R (r0 & W0 & T0) LK [L1 L2] E (r' & W' & N'). assert (V := r_inv s R). cbn [Containers.history] in E.
    destruct (step_ok leaf lval atom leaf_in leaf_out leaf_prepends less equal place D swo eqv s (GetIter w) V L1) as (s0 & a & E0 & V0 & (LA & LB & _) & _). rewrite E0 in E.
    destruct (history s0 h) as [[s2 l2]|] eqn:E2; [|discriminate]. injection E as <- <-.
    apply look_inv in LK as (r & b & W & N & O & C & T). rewrite W0 in W. injection W as ->.
    assert (IT : nth_error (iters s0) (length (iters s)) = Some (mk_iter 1 w b 0)).
    { cbn [Containers.step] in E0. unfold get_iter in E0. rewrite W0, O, C in E0. destruct (take_wrapper_ok leaf lval D s w r V W0 N) as (TW & _). rewrite TW in E0. injection E0 as <- _.
      cbn [iters with_iters]. rewrite nth_last. cbn. rewrite Nat.eqb_refl. reflexivity. }
    assert (C0 : contents s0 b = Some v).
    { destruct (i_it _ _ _ s0 V0 _ _ IT ltac:(discriminate)) as (c & u & _ & _ & U & _). cbn [it_object] in U. rewrite U. destruct (LB b (contents_lt _ _ s b v C)) as [Q|Q]; congruence. }
    destruct (positions_after h s0 V0 (L2 s0 a E0) s2 l2 _ _ r' v E2 IT W' N' C0) as (A1 & A2 & A3 & A4). cbn [it_container it_object it_pos] in A1, A2, A3, A4.
    destruct (history_ok leaf lval atom leaf_in leaf_out leaf_prepends less equal place D swo eqv h s0 V0 (L2 s0 a E0)) as (s3 & l3 & E3 & V3 & LT3). rewrite E2 in E3. injection E3 as <- <-.
    destruct (next_ok leaf lval atom leaf_out leaf_prepends D s2 (length (iters s)) V3 (ex_intro _ r' (conj W' N'))) as (s4 & x & E4 & _ & _ & _ & (rr & c & u & Wr & Cc & Oc & Cu & Y) & _).
    rewrite W' in Wr. injection Wr as <-. rewrite A2 in Cu. rewrite A4 in Cu. injection Cu as <-. rewrite A1 in Cc.
    assert (TY : wr_type c = ty).
    { destruct (LA w r W0) as (ra & Wa & Ta & _). destruct LT3 as (LA3 & _). destruct (LA3 w ra Wa) as (rb & Wb & Tb & _). congruence. }
    exists s4. cbn [Containers.step]. rewrite A3 in Y. cbn in Y.
    destruct (nth_error (entries v) (asked (length (iters s)) h)) as [e|] eqn:EN.
    - assert (Q := nth_lt _ _ _ EN). rewrite Nat.min_l in Y by lia. rewrite EN in Y. destruct Y as (y & -> & Y1 & Y2). exists y. split; [exact E4|]. rewrite TY in Y1. exact Y1.
    - apply nth_error_None in EN as Q. rewrite Nat.min_r in Y by lia. rewrite (proj2 (nth_error_None (entries v) (length (entries v))) (Nat.le_refl _)) in Y. destruct Y as (-> & -> & _). auto.
  Qed.

  (** ** Arguments and results *)
  Lemma argument_ok s ty how o : reachable s -> legal s (Argument ty how o) ->
    (exists v s', step s (Argument ty how o) = Some (s', Received v) /\ represents (look_up s) ty o v /\
       (forall w x, look_up s w = Some x -> look_up s' w = Some x) /\
       (how = Plain -> s' = s) /\ (how = GivenPointer -> exists a, contents s a = None /\ contents s' a = Some v /\ given s' = a :: given s)) \/
    (exists e, step s (Argument ty how o) = Some (s, Raised e) /\ erroneous (look_up s) ty o e).
  Proof.
    intros R (DI & IC & U & HT). assert (V := r_inv s R). cbn [Containers.step]. unfold argument.
    destruct (convert_ok leaf lval atom leaf_in less equal place D swo eqv s ty o (fresh ty) V DI U) as [(v & E & RE & T)|(lft & e & E & RE)]; rewrite E; [left; exists v|right; exists e; auto].
    assert (GIVE : exists a, contents s a = None /\ contents (give leaf lval s v) a = Some v /\ given (give leaf lval s v) = a :: given s).
    { exists (length (objs s)). split; [|split; [|reflexivity]].
      - destruct (contents s (length (objs s))) eqn:Q; [apply contents_lt in Q; lia|reflexivity].
      - rewrite give_contents, Nat.eqb_refl. reflexivity. }
    assert (KEEP : forall s', ContainerHeap.later leaf lval s s' -> (forall a u, contents s a = Some u -> contents s' a = Some u) -> (forall w r, nth_error (wraps s) w = Some r -> nth_error (wraps s') w = Some r) ->
      forall w x, look_up s w = Some x -> look_up s' w = Some x).
    { intros s' _ CE WE w x. unfold look_up. destruct (nth_error (wraps s) w) as [r|] eqn:W; [|discriminate]. rewrite (WE w r W). destruct (Nat.eqb (wr_refs r) 0); [discriminate|].
      destruct (wr_obj r) as [a|]; [|auto]. destruct (contents s a) as [u|] eqn:Q; [|discriminate]. rewrite (CE a u Q). auto. }
    destruct how as [|v'|].
    - exists s. split; [reflexivity|]. split; [exact RE|]. split; [auto|]. split; [auto|discriminate].
    - destruct (to_python_ok leaf lval atom leaf_out D s ty v' V DI HT) as (s' & x & E' & (A & B & _ & _ & SE) & _). rewrite E'. exists s'. split; [reflexivity|]. split; [exact RE|].
      split; [|split; discriminate]. destruct ty as [t|n k e0|n b0 tk tv]; [contradiction IC| |]; cbn in E'; injection E' as <- _.
      + apply (KEEP (put_new leaf lval s (TSeq n k e0) v')); [apply put_new_later| |].
        * intros a u Q. rewrite (contents_new _ _ s (put_new leaf lval s (TSeq n k e0) v') (Some v') a eq_refl). apply contents_lt in Q as LQ. destruct (Nat.eqb_spec a (length (objs s))); [lia|exact Q].
        * intros w r W. unfold put_new; cbn [wraps]. rewrite nth_last. destruct (Nat.eqb_spec w (length (wraps s))); [apply nth_lt in W; lia|exact W].
      + apply (KEEP (put_new leaf lval s (TMap n b0 tk tv) v')); [apply put_new_later| |].
        * intros a u Q. rewrite (contents_new _ _ s (put_new leaf lval s (TMap n b0 tk tv) v') (Some v') a eq_refl). apply contents_lt in Q as LQ. destruct (Nat.eqb_spec a (length (objs s))); [lia|exact Q].
        * intros w r W. unfold put_new; cbn [wraps]. rewrite nth_last. destruct (Nat.eqb_spec w (length (wraps s))); [apply nth_lt in W; lia|exact W].
    - exists (give leaf lval s v). split; [reflexivity|]. split; [exact RE|]. split; [|split; [discriminate|auto]].
      apply KEEP; [apply give_later|intros a u Q; exact (give_old _ _ s v a u Q)|auto].
  Qed.
  Lemma returned s ty v : reachable s -> legal s (Wrap ty v) -> exists s' x, step s (Wrap ty v) = Some (s', Item x) /\ shows s' ty v x /\
    (is_container ty -> x = IWrapper (length (wraps s)) /\ nth_error (wraps s) (length (wraps s)) = None).
  Proof.
    intros R [DI HT]. assert (V := r_inv s R). cbn [Containers.step]. destruct (to_python_ok leaf lval atom leaf_out D s ty v V DI HT) as (s' & x & E & _ & S). rewrite E. exists s', x.
    split; [reflexivity|]. split; [exact S|]. intros IC. split; [|apply nth_error_None; lia]. destruct ty as [t|n k e|n b tk tv]; [contradiction IC| |]; cbn in E; congruence.
  Qed.

  (** ** Round trips *)
  Definition as_object (x : item atom) : pyobj :=
    match x with IAtom a => PAtom a | IWrapper w => PRef w | ITuple x y => PTuple [match x with IAtom a => PAtom a | IWrapper w => PRef w | _ => PTuple [] end; match y with IAtom a => PAtom a | IWrapper w => PRef w | _ => PTuple [] end] end.
  Lemma shows_convert s ty v x old : (forall t u, leaf_in t (PAtom (leaf_out t u)) = inl u) -> shows s ty v x -> convert (look_up s) ty (as_object x) old = Done v.
  Proof.
    intros RT H. inversion H as [t u|t u w IC L]; subst; cbn [as_object Containers.convert].
    - rewrite RT. reflexivity.
    - destruct ty as [t'|n k e|n b tk tv]; [contradiction IC| |]; cbn [Containers.convert]; unfold from_wrapper; rewrite L; cbn [type_name]; rewrite String.eqb_refl; reflexivity.
  Qed.
  Lemma round_trip s n e l xs old : (forall t u, leaf_in t (PAtom (leaf_out t u)) = inl u) -> Forall2 (shows s e) l xs ->
    convert (look_up s) (TSeq n Back e) (PList (map (fun x => Some (as_object x)) xs)) old = Done (CSeq l).
  Proof.
    intros RT H. rewrite convert_seq. cut (forall c, seq_loop lval atom (seq_add lval less equal place Back) (fun x => convert (look_up s) e x (CSeq [])) (map (fun x => Some (as_object x)) xs) c = Done (CSeq (c ++ l))).
    { intros G. exact (G []). }
    induction H as [|v x l xs H1 H2 IH]; intros c; cbn [map seq_loop]; [rewrite app_nil_r; reflexivity|].
    rewrite (shows_convert s e v x (CSeq []) RT H1). rewrite IH. cbn [seq_add]. rewrite <- app_assoc. reflexivity.
  Qed.
End Top.
