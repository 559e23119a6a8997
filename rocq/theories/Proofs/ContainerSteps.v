From Verif.Model Require Import Py IntHandlers Containers.
From Verif.Spec Require Import ContainerSpec.
From Verif.Proofs Require Import ContainerConv ContainerRep ContainerHeap.
From Coq Require Import Permutation Sorted Lia.
Open Scope list_scope.

Section Steps.
  Variables leaf lval atom : Type.
  Variable leaf_in : leaf -> pyobj atom -> lval + argerr.
  Variable leaf_out : leaf -> lval -> atom.
  Variable leaf_prepends : leaf -> bool.
  Variable less equal : cval lval -> cval lval -> bool.
  Variable place : list (cval lval) -> cval lval -> nat.
  Variable D : string -> option (ctype leaf).
  Hypothesis swo : strict_weak_order lval less.
  Hypothesis eqv : equivalence lval equal.
  Local Notation ctype := (ctype leaf).
  Local Notation cval := (cval lval).
  Local Notation pyobj := (pyobj atom).
  Local Notation state := (state leaf lval).
  Local Notation event := (event leaf lval atom).
  Local Notation convert := (convert leaf lval atom leaf_in less equal place).
  Local Notation step := (step leaf lval atom leaf_in leaf_out leaf_prepends less equal place).
  Local Notation history := (history leaf lval atom leaf_in leaf_out leaf_prepends less equal place).
  Local Notation init := (init leaf lval atom leaf_in less equal place).
  Local Notation next := (next leaf lval atom leaf_out leaf_prepends).
  Local Notation to_python := (to_python leaf lval atom leaf_out).
  Local Notation entry_to_python := (entry_to_python leaf lval atom leaf_out leaf_prepends).
  Local Notation argument := (argument leaf lval atom leaf_in leaf_out less equal place).
  Local Notation legal := (legal leaf lval atom D).
  Local Notation declared_in := (declared_in leaf D).
  Local Notation is_container := (is_container leaf).
  Local Notation has_type := (has_type leaf lval).
  Local Notation holds := (holds leaf lval).
  Local Notation live_wrapper := (live_wrapper leaf lval).
  Local Notation live_iter := (live_iter leaf lval).
  Local Notation usable := (usable lval atom).
  Local Notation represents := (represents leaf lval atom leaf_in less equal).
  Local Notation erroneous := (erroneous leaf lval atom leaf_in less equal).
  Local Notation shows := (shows leaf lval atom leaf_out).
  Local Notation shows_entry := (shows_entry leaf lval atom leaf_out).
  Local Notation keys_first := (keys_first leaf leaf_prepends).
  Local Notation inv := (inv leaf lval D).
  Local Notation later := (later leaf lval).
  Local Notation positions := (positions leaf lval).
  Local Notation put_new := (put_new leaf lval).
  Local Notation fill := (fill leaf lval).
  Local Notation bury := (bury leaf lval).
  Local Notation give := (give leaf lval).

  (** ** What the converters see *)
  Definition sees (s s' : state) : Prop := forall w n v, look_up s w = Some (n, Some v) -> look_up s' w = Some (n, Some v).
  Lemma look_inv (s : state) w n v : look_up s w = Some (n, Some v) <->
    exists r a, nth_error (wraps s) w = Some r /\ wr_refs r <> 0 /\ wr_obj r = Some a /\ contents s a = Some v /\ type_name (wr_type r) = n.
  Proof.
    unfold look_up. split.
    - destruct (nth_error (wraps s) w) as [r|]; [|discriminate]. destruct (Nat.eqb_spec (wr_refs r) 0) as [|N]; [discriminate|].
      destruct (wr_obj r) as [a|] eqn:O; [|discriminate]. destruct (contents s a) as [u|] eqn:C; [|discriminate]. intros [= <- <-]. exists r, a. auto.
    - intros (r & a & -> & N & -> & -> & <-). destruct (Nat.eqb_spec (wr_refs r) 0); [contradiction|reflexivity].
  Qed.
  Lemma look_none (s : state) w n : look_up s w = Some (n, None) <->
    exists r, nth_error (wraps s) w = Some r /\ wr_refs r <> 0 /\ wr_obj r = None /\ type_name (wr_type r) = n.
  Proof.
    unfold look_up. split.
    - destruct (nth_error (wraps s) w) as [r|]; [|discriminate]. destruct (Nat.eqb_spec (wr_refs r) 0) as [|N]; [discriminate|].
      destruct (wr_obj r) as [a|] eqn:O; [destruct (contents s a) as [u|] eqn:C; discriminate|]. intros [= <-]. exists r. auto.
    - intros (r & -> & N & -> & <-). destruct (Nat.eqb_spec (wr_refs r) 0); [contradiction|reflexivity].
  Qed.
  Lemma sees_trans s1 s2 s3 : sees s1 s2 -> sees s2 s3 -> sees s1 s3.
  Proof. unfold sees. eauto. Qed.
  Lemma fill_sees s w r v : inv s -> nth_error (wraps s) w = Some r -> wr_obj r = None -> sees s (fill s w r v).
  Proof.
    intros V W N u n x H. apply look_inv in H as (y & a & Y & L & O & C & T). apply look_inv. exists y, a. split; [|split; [exact L|split; [exact O|split; [|exact T]]]].
    - unfold ContainerHeap.fill; cbn [wraps]. rewrite (set_w _ _ s w r _ u W). destruct (Nat.eqb_spec u w) as [->|]; [congruence|exact Y].
    - apply fill_old. exact C.
  Qed.
  Lemma new_sees s ty : sees s (fst (new_wrapper s ty None)).
  Proof.
    intros u n x H. apply look_inv in H as (y & a & Y & L & O & C & T). apply look_inv. exists y, a. split; [|auto].
    cbn. rewrite nth_last. destruct (Nat.eqb_spec u (length (wraps s))); [apply nth_lt in Y; lia|exact Y].
  Qed.
  Lemma put_sees s ty v : sees s (put_new s ty v).
  Proof.
    intros u n x H. apply look_inv in H as (y & a & Y & L & O & C & T). apply look_inv. exists y, a. split; [|split; [exact L|split; [exact O|split; [|exact T]]]].
    - unfold ContainerHeap.put_new; cbn [wraps]. rewrite nth_last. destruct (Nat.eqb_spec u (length (wraps s))); [apply nth_lt in Y; lia|exact Y].
    - rewrite (contents_new _ _ s (put_new s ty v) (Some v) a eq_refl). apply contents_lt in C as L'. destruct (Nat.eqb_spec a (length (objs s))); [lia|exact C].
  Qed.
  Lemma put_look s ty v : look_up (put_new s ty v) (length (wraps s)) = Some (type_name ty, Some v).
  Proof.
    apply look_inv. exists (mk_wrapper ty 1 (Some (length (objs s)))), (length (objs s)). unfold ContainerHeap.put_new; cbn [wraps]. rewrite nth_last, Nat.eqb_refl.
    split; [reflexivity|]. split; [discriminate|]. split; [reflexivity|]. split; [|reflexivity].
    rewrite (contents_new _ _ s (put_new s ty v) (Some v) _ eq_refl), Nat.eqb_refl. reflexivity.
  Qed.
  Lemma typed (s : state) : inv s -> forall w n v, look_up s w = Some (n, Some v) -> exists ty, D n = Some ty /\ has_type ty v.
  Proof.
    intros V w n v H. apply look_inv in H as (r & a & W & N & O & C & <-). destruct (i_wr _ _ _ s V w r W) as (A & B & _ & F & _).
    destruct (F a O) as (u & U & T & _). rewrite C in U. injection U as <-. exists (wr_type r). split; [|exact T].
    destruct (wr_type r) as [t|m k e|m b tk tv]; [contradiction B|exact (proj1 A)|exact (proj1 A)].
  Qed.

  (** ** Conversion with other wrappers around *)
  Lemma usable_mono (s s' : state) : sees s s' -> forall o, usable (look_up s) o -> usable (look_up s') o.
  Proof.
    intros M. fix IH 1. intros [a|l|l|w]; cbn [ContainerSpec.usable].
    - auto.
    - revert l. fix IHl 1. intros [|x r]; [auto|]. intros [A B]. split; [exact (IH x A)|exact (IHl r B)].
    - revert l. fix IHl 1. intros [|[x|] r]; [auto| |auto]. intros [A B]. split; [exact (IH x A)|exact (IHl r B)].
    - intros (n & v & E). exists n, v. exact (M _ _ _ E).
  Qed.
  Lemma convert_mono (s s' : state) : sees s s' -> forall ty o old, usable (look_up s) o -> convert (look_up s') ty o old = convert (look_up s) ty o old.
  Proof.
    intros M. induction ty as [t|n k e IH|n b tk IH1 tv IH2]; intros o old U.
    - reflexivity.
    - destruct o as [a|l|l|w].
      + reflexivity.
      + reflexivity.
      + rewrite !convert_seq. cbn [ContainerSpec.usable] in U.
        cut (forall c, seq_loop lval atom (seq_add lval less equal place k) (fun x => convert (look_up s') e x (CSeq [])) l c =
                       seq_loop lval atom (seq_add lval less equal place k) (fun x => convert (look_up s) e x (CSeq [])) l c); [intros G; exact (G [])|].
        revert U. induction l as [|[x|] r IHl]; intros U c; cbn [seq_loop].
        * reflexivity.
        * destruct U as [U1 U2]. rewrite (IH x (CSeq []) U1). destruct (convert (look_up s) e x (CSeq [])); [apply IHl; exact U2|reflexivity|reflexivity].
        * reflexivity.
      + cbn [Containers.convert]. unfold from_wrapper. destruct U as (m & v & E). rewrite E, (M _ _ _ E). reflexivity.
    - destruct o as [a|l|l|w].
      + reflexivity.
      + reflexivity.
      + rewrite !convert_map. cbn [ContainerSpec.usable] in U.
        cut (forall c, map_loop lval atom (fun x => convert (look_up s') tk x (CSeq [])) (map_add lval less equal place b) (fun x => convert (look_up s') tv x (CSeq [])) l c =
                       map_loop lval atom (fun x => convert (look_up s) tk x (CSeq [])) (map_add lval less equal place b) (fun x => convert (look_up s) tv x (CSeq [])) l c); [intros G; exact (G [])|].
        revert U. induction l as [|[x|] r IHl]; intros U c; cbn [map_loop].
        * reflexivity.
        * destruct U as [U1 U2]. destruct x as [a|[|x [|y [|z q]]]|l|w]; try reflexivity. cbn in U1. destruct U1 as (Ux & Uy & _).
          rewrite (IH1 x (CSeq []) Ux). destruct (convert (look_up s) tk x (CSeq [])); [|reflexivity|reflexivity].
          rewrite (IH2 y (CSeq []) Uy). destruct (convert (look_up s) tv y (CSeq [])); [apply IHl; exact U2|reflexivity|reflexivity].
        * reflexivity.
      + cbn [Containers.convert]. unfold from_wrapper. destruct U as (m & v & E). rewrite E, (M _ _ _ E). reflexivity.
  Qed.
  Definition converted (s : state) (ty : ctype) (o : pyobj) (r : conv lval) : Prop :=
    (exists v, r = Done v /\ represents (look_up s) ty o v /\ has_type ty v) \/
    (exists left e, r = Fails left e /\ erroneous (look_up s) ty o e).
  Lemma convert_ok (s : state) ty o old : inv s -> declared_in ty -> usable (look_up s) o -> converted s ty o (convert (look_up s) ty o old).
  Proof.
    intros V DI U. destruct (convert_total leaf lval atom leaf_in less equal place swo eqv (look_up s) ty o old U) as [(v & E & R)|(left & e & E & R & _)].
    - left. exists v. split; [exact E|]. split; [exact R|]. refine (convert_typed leaf lval atom leaf_in less equal place (look_up s) D (typed s V) ty o old v DI _). exact E.
    - right. exists left, e. auto.
  Qed.

  (** ** Conversion to Python *)
  Definition fresh_result (s s' : state) : Prop := inv s' /\ later s s' /\ iters s' = iters s /\ given s' = given s /\ sees s s'.
  Lemma fresh_refl s : inv s -> fresh_result s s.
  Proof. intros V. split; [exact V|]. split; [apply later_refl|]. repeat split. intros w n v H. exact H. Qed.
  Lemma fresh_trans s1 s2 s3 : fresh_result s1 s2 -> fresh_result s2 s3 -> fresh_result s1 s3.
  Proof.
    intros (A1 & B1 & C1 & E1 & F1) (A2 & B2 & C2 & E2 & F2). split; [exact A2|]. split; [exact (later_trans _ _ _ _ _ B1 B2)|]. split; [congruence|]. split; [congruence|].
    exact (sees_trans _ _ _ F1 F2).
  Qed.
  Lemma shows_mono (s s' : state) ty v x : sees s s' -> shows s ty v x -> shows s' ty v x.
  Proof. intros M H. inversion H as [t u|t u w IC L]; subst; constructor; [exact IC|exact (M _ _ _ L)]. Qed.
  Lemma to_python_ok (s : state) ty v : inv s -> declared_in ty -> has_type ty v -> exists s' x, to_python s ty v = Some (s', x) /\ fresh_result s s' /\ shows s' ty v x.
  Proof.
    intros V DI HT. assert (PUT : is_container ty -> fresh_result s (put_new s ty v) /\ shows (put_new s ty v) ty v (IWrapper (length (wraps s)))).
    { intros IC. split.
      - split; [exact (put_new_inv _ _ D s ty v V DI IC HT)|]. split; [apply put_new_later|]. split; [reflexivity|]. split; [reflexivity|apply put_sees].
      - constructor; [exact IC|apply put_look]. }
    destruct ty as [t|n k e|n b tk tv].
    - destruct v as [u|l|l]; [|contradiction HT|contradiction HT]. exists s, (IAtom (leaf_out t u)). split; [reflexivity|]. split; [exact (fresh_refl s V)|constructor].
    - exists (put_new s (TSeq n k e) v), (IWrapper (length (wraps s))). split; [reflexivity|]. exact (PUT I).
    - exists (put_new s (TMap n b tk tv) v), (IWrapper (length (wraps s))). split; [reflexivity|]. exact (PUT I).
  Qed.
  Lemma entry_ok (s : state) ty v p e : inv s -> declared_in ty -> has_type ty v -> nth_error (entries v) p = Some e ->
    exists s' x, entry_to_python s ty e = Some (s', x) /\ fresh_result s s' /\ (keys_first ty -> shows_entry s' ty e x).
  Proof.
    intros V DI HT E. destruct ty as [t|n k te|n b tk tv], v as [u|l|l]; cbn in HT; try contradiction HT; cbn [entries] in E.
    - destruct p; discriminate.
    - rewrite nth_error_map in E. destruct (nth_error l p) as [x|] eqn:L; [|discriminate]. cbn in E. injection E as <-.
      rewrite Forall_forall in HT. destruct (to_python_ok s te x V (proj2 DI) (HT x (nth_error_In _ _ L))) as (s' & y & E & F & S).
      exists s', y. cbn [Containers.entry_to_python]. split; [exact E|]. split; [exact F|]. intros _. constructor. exact S.
    - rewrite nth_error_map in E. destruct (nth_error l p) as [[kx vx]|] eqn:L; [|discriminate]. cbn in E. injection E as <-.
      rewrite Forall_forall in HT. destruct (HT _ (nth_error_In _ _ L)) as [HK HV]. cbn in HK, HV. destruct DI as (_ & DK & DV).
      destruct (to_python_ok s tv vx V DV HV) as (s1 & y & E1 & F1 & S1).
      destruct (to_python_ok s1 tk kx (proj1 F1) DK HK) as (s2 & z & E2 & F2 & S2).
      exists s2, (if prepends leaf_prepends tk then ITuple z y else ITuple y z). cbn [Containers.entry_to_python]. rewrite E1, E2.
      split; [reflexivity|]. split; [exact (fresh_trans _ _ _ F1 F2)|]. cbn [ContainerSpec.keys_first]. intros ->. constructor; [exact S2|].
      exact (shows_mono _ _ _ _ _ (proj2 (proj2 (proj2 (proj2 F2)))) S1).
  Qed.

  (** ** Initialisation *)
  Definition initialised (s : state) (w : nat) (r : wrapper leaf) (arg : option pyobj) (s' : state) (a : answer lval atom) : Prop :=
    match arg with
    | None => s' = fill s w r (fresh (wr_type r)) /\ a = Nothing
    | Some o => (exists v, represents (look_up s) (wr_type r) o v /\ has_type (wr_type r) v /\ s' = fill s w r v /\ a = Nothing) \/
                (exists e, erroneous (look_up s) (wr_type r) o e /\ s' = with_objs s (objs s ++ [None]) /\ a = Raised e)
    end.
  Lemma init_ok (s : state) w r arg : inv s -> nth_error (wraps s) w = Some r -> wr_refs r <> 0 -> wr_obj r = None ->
    match arg with Some o => usable (look_up s) o | None => True end ->
    exists s' a, init s w arg = Some (s', a) /\ initialised s w r arg s' a.
  Proof.
    intros V W N O U. unfold Containers.init. rewrite W. destruct (Nat.eqb_spec (wr_refs r) 0); [contradiction|]. cbn [allocate].
    destruct arg as [o|]; [|eexists; eexists; split; [reflexivity|split; reflexivity]].
    destruct (i_wr _ _ _ s V w r W) as (DI & IC & _).
    change (set_wrapper (with_objs s (objs s ++ [Some (fresh (wr_type r))])) w (mk_wrapper (wr_type r) (wr_refs r) (Some (length (objs s))))) with (fill s w r (fresh (wr_type r))).
    rewrite (convert_mono s (fill s w r (fresh (wr_type r))) (fill_sees s w r _ V W O) _ _ _ U).
    destruct (convert_ok s (wr_type r) o (fresh (wr_type r)) V DI U) as [(v & E & R & T)|(left & e & E & R)]; rewrite E.
    - eexists. eexists. split; [reflexivity|]. left. exists v. split; [exact R|]. split; [exact T|]. split; [|reflexivity].
      unfold with_objs, ContainerHeap.fill; cbn [objs wraps iters given]. rewrite set_last. reflexivity.
    - unfold delete. rewrite fill_contents, Nat.eqb_refl. eexists. eexists. split; [reflexivity|]. right. exists e. split; [exact R|]. split; [|reflexivity].
      unfold set_wrapper, with_wraps, with_objs, ContainerHeap.fill; cbn [objs wraps iters given]. rewrite set_last, set_set.
      f_equal. apply set_same. rewrite W. f_equal. destruct r as [ty n' ob]; cbn in *. congruence.
  Qed.
  Lemma initialised_inv (s : state) w r arg s' a : inv s -> nth_error (wraps s) w = Some r -> wr_refs r <> 0 -> wr_obj r = None ->
    initialised s w r arg s' a -> fresh_result s s'.
  Proof.
    intros V W N O H. assert (F : forall v, has_type (wr_type r) v -> fresh_result s (fill s w r v)).
    { intros v T. split; [exact (fill_inv _ _ D s w r v V W N O T)|]. split; [apply fill_later; assumption|]. split; [reflexivity|]. split; [reflexivity|]. exact (fill_sees s w r v V W O). }
    destruct (i_wr _ _ _ s V w r W) as (DI & IC & _).
    destruct arg as [o|]; [destruct H as [(v & _ & T & -> & _)|(e & _ & -> & _)]|destruct H as [-> _]].
    - exact (F v T).
    - split; [exact (waste_inv _ _ D s V)|]. split; [apply waste_later|]. split; [reflexivity|]. split; [reflexivity|].
      intros u n x L. apply look_inv in L as (y & b & Y & L & Q & C & T). apply look_inv. exists y, b. rewrite waste_contents. auto.
    - apply F. apply fresh_typed. exact IC.
  Qed.

  (** ** References *)
  Lemma drop_wrapper_ok (s : state) w r : inv s -> nth_error (wraps s) w = Some r -> count w (iters s) < wr_refs r ->
    exists s', drop_wrapper s w = Some s' /\ inv s' /\ later s s' /\ iters s' = iters s /\ given s' = given s /\
      s' = if Nat.eqb (wr_refs r) 1 then bury s w r else set_wrapper s w (mk_wrapper (wr_type r) (Nat.pred (wr_refs r)) (wr_obj r)).
  Proof.
    intros V W K. unfold drop_wrapper. rewrite W. destruct (wr_refs r) as [|[|n]] eqn:N; [lia| |].
    - exists (bury s w r). split; [|split; [|split; [|split; [reflexivity|split; reflexivity]]]].
      + unfold ContainerHeap.bury. destruct (wr_obj r) as [a|] eqn:O; [|reflexivity]. unfold delete.
        destruct (i_wr _ _ _ s V w r W) as (_ & _ & _ & F & _). destruct (F a O) as (v & C & _). rewrite C. reflexivity.
      + apply bury_inv; [exact V|exact W|lia].
      + exact (bury_later _ _ D s w r V W).
    - exists (set_wrapper s w (mk_wrapper (wr_type r) (S n) (wr_obj r))). split; [reflexivity|]. split; [apply refs_inv; [exact V|exact W|discriminate|lia]|].
      split; [apply refs_later; [exact W|lia]|]. split; [reflexivity|]. split; reflexivity.
  Qed.
  Lemma take_wrapper_ok (s : state) w r : inv s -> nth_error (wraps s) w = Some r -> wr_refs r <> 0 ->
    take_wrapper s w = Some (set_wrapper s w (mk_wrapper (wr_type r) (S (wr_refs r)) (wr_obj r))) /\
    inv (set_wrapper s w (mk_wrapper (wr_type r) (S (wr_refs r)) (wr_obj r))) /\ later s (set_wrapper s w (mk_wrapper (wr_type r) (S (wr_refs r)) (wr_obj r))).
  Proof.
    intros V W N. unfold take_wrapper. rewrite W. split; [destruct (wr_refs r) as [|n]; [contradiction|reflexivity]|]. split; [|apply refs_later; assumption].
    apply refs_inv; [exact V|exact W|discriminate|]. destruct (i_wr _ _ _ s V w r W) as (_ & _ & _ & _ & G). lia.
  Qed.
  Lemma drop_iter_ok (s : state) i r : inv s -> nth_error (iters s) i = Some r -> it_refs r <> 0 ->
    exists s', drop_iter s i = Some s' /\ inv s' /\ later s s' /\ iters s' = set_nth i (mk_iter (Nat.pred (it_refs r)) (it_container r) (it_object r) (it_pos r)) (iters s) /\ given s' = given s.
  Proof.
    intros V W N. assert (P : forall v, contents s (it_object r) = Some v -> it_pos r <= length (entries v)).
    { intros v C. destruct (i_it _ _ _ s V i r W N) as (c & u & _ & _ & U & P). rewrite C in U. injection U as <-. exact P. }
    unfold drop_iter. rewrite W. destruct (it_refs r) as [|[|n]] eqn:R; [contradiction| |].
    - set (s1 := set_iter s i (mk_iter 0 (it_container r) (it_object r) (it_pos r))).
      assert (V1 : inv s1) by (apply iter_inv; [exact V|exact W|congruence|exact P]).
      destruct (i_it _ _ _ s V i r W ltac:(congruence)) as (c & u & C & _).
      assert (K : count (it_container r) (iters s1) < wr_refs c).
      { assert (Z := count_set (it_container r) (iters s) i r (mk_iter 0 (it_container r) (it_object r) (it_pos r)) W). unfold on in Z at 1 2. cbn [it_refs it_container] in Z. rewrite R, Nat.eqb_refl in Z. cbn in Z.
        destruct (i_wr _ _ _ s V _ c C) as (_ & _ & _ & _ & G). change (iters s1) with (set_nth i (mk_iter 0 (it_container r) (it_object r) (it_pos r)) (iters s)). lia. }
      destruct (drop_wrapper_ok s1 (it_container r) c V1 C K) as (s' & E & V' & L' & I' & G' & _). exists s'. split; [exact E|]. split; [exact V'|]. split.
      + refine (later_trans _ _ _ _ _ _ L'). apply iter_later; [exact W|congruence].
      + split; [exact I'|exact G'].
    - eexists. split; [reflexivity|]. split; [apply iter_inv; [exact V|exact W|congruence|exact P]|]. split; [apply iter_later; [exact W|congruence]|]. split; reflexivity.
  Qed.

  (** ** Iteration *)
  Definition yields (s : state) (i : nat) (s' : state) (a : answer lval atom) : Prop :=
    exists r c v, nth_error (iters s) i = Some r /\ nth_error (wraps s) (it_container r) = Some c /\ wr_obj c = Some (it_object r) /\ contents s (it_object r) = Some v /\
      match nth_error (entries v) (it_pos r) with
      | Some e => exists x, a = Item x /\ (keys_first (wr_type c) -> shows_entry s' (wr_type c) e x) /\
          iters s' = set_nth i (mk_iter (it_refs r) (it_container r) (it_object r) (S (it_pos r))) (iters s)
      | None => a = StopIteration /\ s' = s /\ it_pos r = length (entries v)
      end.
  Lemma next_ok (s : state) i : inv s -> live_iter s i -> exists s' a, next s i = Some (s', a) /\ inv s' /\ later s s' /\ positions (Some i) s s' /\ yields s i s' a /\ given s' = given s.
  Proof.
    intros V (r & W & N). destruct (i_it _ _ _ s V i r W N) as (c & v & C & O & U & P). destruct (i_wr _ _ _ s V _ c C) as (DI & IC & _ & F & _).
    destruct (F _ O) as (v' & U' & HT & _). rewrite U in U'. injection U' as <-.
    unfold Containers.next. rewrite W. destruct (Nat.eqb_spec (it_refs r) 0); [contradiction|]. rewrite C, O, Nat.eqb_refl, U.
    destruct (nth_error (entries v) (it_pos r)) as [e|] eqn:E.
    - set (s0 := set_iter s i (mk_iter (it_refs r) (it_container r) (it_object r) (S (it_pos r)))).
      assert (V0 : inv s0). { apply iter_inv; [exact V|exact W|exact N|]. intros u Q. rewrite U in Q. injection Q as <-. apply nth_lt in E. lia. }
      destruct (entry_ok s0 (wr_type c) v (it_pos r) e V0 DI HT E) as (s' & x & E' & (A1 & A2 & A3 & A4 & A5) & SH). rewrite E'. exists s', (Item x). split; [reflexivity|].
      split; [exact A1|]. split; [refine (later_trans _ _ _ _ _ _ A2); apply iter_later; assumption|]. split; [|split].
      + intros j y y' Y Y' NE. rewrite A3 in Y'. assert (Q := iter_positions _ _ s i r (it_refs r) (S (it_pos r)) W j y y' Y Y'). apply Q.
        destruct (Nat.eqb_spec (S (it_pos r)) (it_pos r)); [lia|exact NE].
      + exists r, c, v. rewrite E. repeat split; try assumption. exists x. split; [reflexivity|]. split; [exact SH|exact A3].
      + exact A4.
    - apply nth_error_None in E as L. assert (EQ : it_pos r = length (entries v)) by lia. rewrite EQ, Nat.eqb_refl.
      exists s, StopIteration. split; [reflexivity|]. split; [exact V|]. split; [apply later_refl|]. split; [apply positions_same; reflexivity|]. split; [|reflexivity].
      exists r, c, v. rewrite E. repeat split; try assumption.
  Qed.

  (** ** Every step *)
  Definition moves (e : event) : option nat := match e with Next i => Some i | _ => None end.
  Lemma step_ok (s : state) e : inv s -> legal s e -> exists s' a, step s e = Some (s', a) /\ inv s' /\ later s s' /\ positions (moves e) s s'.
  Proof.
    intros V L. destruct e as [ty|w arg|ty arg|ty v|ty how o|w|i|w|w|i|i|a]; cbn [ContainerSpec.legal] in L; cbn [Containers.step moves].
    - destruct L as [DI IC]. eexists. eexists. split; [reflexivity|]. split; [exact (new_inv _ _ D s ty V DI IC)|]. split; [apply new_later|apply positions_same; reflexivity].
    - destruct L as [(r & W & N & O) U]. destruct (init_ok s w r arg V W N O U) as (s' & a & E & H). exists s', a. split; [exact E|].
      destruct (initialised_inv s w r arg s' a V W N O H) as (A & B & C & _). split; [exact A|]. split; [exact B|apply positions_same; exact C].
    - destruct L as (DI & IC & U). cbn [new_wrapper]. set (s1 := with_wraps s (wraps s ++ [mk_wrapper ty 1 None])).
      assert (V1 : inv s1) by exact (new_inv _ _ D s ty V DI IC). set (r := mk_wrapper ty 1 None).
      assert (W1 : nth_error (wraps s1) (length (wraps s)) = Some r) by (cbn; rewrite nth_last, Nat.eqb_refl; reflexivity).
      assert (U1 : match arg with Some o => usable (look_up s1) o | None => True end).
      { destruct arg as [o|]; [|exact I]. exact (usable_mono s s1 (new_sees s ty) o U). }
      destruct (init_ok s1 (length (wraps s)) r arg V1 W1 ltac:(discriminate) eq_refl U1) as (s' & a & E & H). rewrite E.
      destruct (initialised_inv s1 (length (wraps s)) r arg s' a V1 W1 ltac:(discriminate) eq_refl H) as (A & B & C & _).
      assert (LT : later s s') by exact (later_trans _ _ _ _ _ (new_later _ _ s ty) B).
      assert (IT : iters s' = iters s) by exact C.
      assert (K : a = Nothing \/ exists e, a = Raised e /\ s' = with_objs s1 (objs s1 ++ [None])).
      { destruct arg as [o|]; [destruct H as [(x & _ & _ & _ & ->)|(e & _ & -> & ->)]|destruct H as [_ ->]]; eauto. }
      destruct K as [->|(e & -> & EQ)].
      + exists s', Nothing. split; [reflexivity|]. split; [exact A|]. split; [exact LT|apply positions_same; exact IT].
      + assert (W' : nth_error (wraps s') (length (wraps s)) = Some r) by (rewrite EQ; exact W1).
        assert (K : count (length (wraps s)) (iters s') < wr_refs r).
        { rewrite IT, (count_range _ _ D s); [cbn; lia|exact V|lia]. }
        destruct (drop_wrapper_ok s' (length (wraps s)) r A W' K) as (s3 & E3 & V3 & L3 & I3 & _). rewrite E3. exists s3, (Raised e). split; [reflexivity|].
        split; [exact V3|]. split; [exact (later_trans _ _ _ _ _ LT L3)|]. apply positions_same. congruence.
    - destruct L as [DI HT]. destruct (to_python_ok s ty v V DI HT) as (s' & x & E & (A & B & C & _) & _). rewrite E. exists s', (Item x). split; [reflexivity|].
      split; [exact A|]. split; [exact B|apply positions_same; exact C].
    - destruct L as (DI & IC & U & HT). unfold Containers.argument. destruct (convert_ok s ty o (fresh ty) V DI U) as [(v & E & R & T)|(left & e & E & R)]; rewrite E.
      + destruct how as [|v'|].
        * exists s, (Received v). split; [reflexivity|]. split; [exact V|]. split; [apply later_refl|apply positions_same; reflexivity].
        * destruct (to_python_ok s ty v' V DI HT) as (s' & x & E' & (A & B & C & _) & _). rewrite E'. exists s', (Received v). split; [reflexivity|].
          split; [exact A|]. split; [exact B|apply positions_same; exact C].
        * exists (give s v), (Received v). split; [reflexivity|]. split; [exact (give_inv _ _ D s v V)|]. split; [apply give_later|apply positions_same; reflexivity].
      + exists s, (Raised e). split; [reflexivity|]. split; [exact V|]. split; [apply later_refl|apply positions_same; reflexivity].
    - destruct L as (a & r & W & N & O). unfold get_iter. rewrite W, O. destruct (i_wr _ _ _ s V w r W) as (_ & _ & _ & F & G). destruct (F a O) as (v & C & _). rewrite C.
      destruct (take_wrapper_ok s w r V W N) as (E & V1 & L1). rewrite E. eexists. eexists. split; [reflexivity|].
      set (s1 := set_wrapper s w (mk_wrapper (wr_type r) (S (wr_refs r)) (wr_obj r))) in *.
      assert (W1 : nth_error (wraps s1) w = Some (mk_wrapper (wr_type r) (S (wr_refs r)) (wr_obj r))).
      { unfold s1, set_wrapper; cbn [wraps with_wraps]. rewrite (set_w _ _ s w r _ w W), Nat.eqb_refl. reflexivity. }
      split; [refine (iter_new_inv _ _ D s1 w _ a V1 W1 O _)|].
      + cbn [wr_refs]. change (iters s1) with (iters s). lia.
      + split; [exact (later_trans _ _ _ _ _ L1 (iter_new_later _ _ s1 _))|]. exact (iter_new_positions _ _ s1 _ _).
    - destruct (next_ok s i V L) as (s' & a & E & A & B & C & _). exists s', a. auto.
    - destruct L as (r & W & N). destruct (take_wrapper_ok s w r V W N) as (E & V1 & L1). rewrite E. eexists. eexists. split; [reflexivity|]. split; [exact V1|]. split; [exact L1|].
      apply positions_same. reflexivity.
    - destruct L as (r & W & K). destruct (drop_wrapper_ok s w r V W K) as (s' & E & A & B & C & _). rewrite E. exists s', Nothing. split; [reflexivity|]. split; [exact A|]. split; [exact B|].
      apply positions_same. exact C.
    - destruct L as (r & W & N). unfold take_iter. rewrite W. destruct (it_refs r) as [|n] eqn:R; [contradiction|].
      eexists. eexists. split; [reflexivity|]. split; [apply iter_inv; [exact V|exact W|congruence|]|split; [apply iter_later; [exact W|congruence]|]].
      + intros v C. destruct (i_it _ _ _ s V i r W ltac:(congruence)) as (c & u & _ & _ & U & P). rewrite C in U. injection U as <-. exact P.
      + assert (Q := iter_positions _ _ s i r (S (S n)) (it_pos r) W). rewrite Nat.eqb_refl in Q. exact Q.
    - destruct L as (r & W & N). destruct (drop_iter_ok s i r V W N) as (s' & E & A & B & C & _). rewrite E. exists s', Nothing. split; [reflexivity|]. split; [exact A|]. split; [exact B|].
      assert (Q := iter_positions _ _ s i r (Nat.pred (it_refs r)) (it_pos r) W). rewrite Nat.eqb_refl in Q. intros j y y' Y Y'. rewrite C in Y'. exact (Q j y y' Y Y').
    - destruct (i_given _ _ _ s V a L) as (v & C). unfold delete. rewrite C. eexists. eexists. split; [reflexivity|].
      split; [exact (cpp_inv _ _ D s a V L)|]. split; [exact (cpp_later _ _ s a v C)|apply positions_same; reflexivity].
  Qed.

  (** ** Histories *)
  Local Notation legal_history := (legal_history leaf lval atom leaf_in leaf_out leaf_prepends less equal place D).
  Local Notation reachable := (reachable leaf lval atom leaf_in leaf_out leaf_prepends less equal place D).
  Lemma history_ok h : forall s, inv s -> legal_history s h -> exists s' l, history s h = Some (s', l) /\ inv s' /\ later s s'.
  Proof.
    induction h as [|e h IH]; intros s V L.
    - exists s, []. split; [reflexivity|]. split; [exact V|apply later_refl].
    - destruct L as [L1 L2]. destruct (step_ok s e V L1) as (s1 & a & E & V1 & B & _). destruct (IH s1 V1 (L2 s1 a E)) as (s2 & l & E2 & V2 & B2).
      exists s2, (a :: l). cbn [Containers.history]. rewrite E, E2. split; [reflexivity|]. split; [exact V2|exact (later_trans _ _ _ _ _ B B2)].
  Qed.
  Lemma reachable_inv s : reachable s -> inv s.
  Proof. intros (h & l & L & E). destruct (history_ok h start (inv_start _ _ D) L) as (s' & l' & E' & V & _). rewrite E in E'. injection E' as <- <-. exact V. Qed.
  Lemma history_app h1 : forall s h2, history s (h1 ++ h2) = match history s h1 with
    | Some (s1, l1) => match history s1 h2 with Some (s2, l2) => Some (s2, l1 ++ l2) | None => None end | None => None end.
  Proof.
    induction h1 as [|e h IH]; intros s h2; cbn [app Containers.history].
    - destruct (history s h2) as [[s2 l2]|]; reflexivity.
    - destruct (step s e) as [[s1 a]|]; [|reflexivity]. rewrite IH. destruct (history s1 h) as [[s2 l1]|]; [|reflexivity]. destruct (history s2 h2) as [[s3 l2]|]; reflexivity.
  Qed.
  Lemma legal_app h1 : forall s h2, legal_history s (h1 ++ h2) <-> legal_history s h1 /\ forall s1 l1, history s h1 = Some (s1, l1) -> legal_history s1 h2.
  Proof.
    induction h1 as [|e h IH]; intros s h2; cbn [app ContainerSpec.legal_history].
    - split; [intros L; split; [exact I|]; intros s1 l1 [= <- _]; exact L|]. intros [_ L]. exact (L s [] eq_refl).
    - split.
      + intros [L1 L2]. split; [split; [exact L1|]|].
        * intros s1 a E. exact (proj1 (proj1 (IH s1 h2) (L2 s1 a E))).
        * intros s2 l2. cbn [Containers.history]. destruct (step s e) as [[s1 a]|] eqn:E; [|discriminate]. destruct (history s1 h) as [[s3 l3]|] eqn:H; [|discriminate]. intros [= <- _].
          exact (proj2 (proj1 (IH s1 h2) (L2 s1 a eq_refl)) s3 l3 H).
      + intros [[L1 L2] L3]. split; [exact L1|]. intros s1 a E. apply IH. split; [exact (L2 s1 a E)|]. intros s2 l2 H. apply (L3 s2 (a :: l2)). cbn [Containers.history]. rewrite E, H. reflexivity.
  Qed.
End Steps.
