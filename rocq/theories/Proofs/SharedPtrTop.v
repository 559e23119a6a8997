(** Calls and whole programs with shared pointers. *)
From Verif.Model Require Import Py SharedPtr.
From Verif.Spec Require Import SharedPtrSpec.
From Verif.Proofs Require Import SharedPtrProofs SharedPtrInv SharedPtrSteps.
From Coq Require Import Lia.
Open Scope list_scope.

Section Top.
  Variable std_map : bool.
  Notation good := (good std_map).

  (** ** Arguments *)
  (** What the local variable of a parameter holds. *)
  Definition holds (s : state) (x : param * arg) (p : option nat) : Prop :=
    match snd x with AWrap i => exists w, nth_error (s_wraps s) i = Some w /\ w_obj w = Ptr p | AOther => False | _ => p = None end.
  Lemma convert_ok made l : forall s ex, good made s ex -> (forall p i, In (p, AWrap i) l -> live s i) ->
    exists s' ps ok, convert l s = Some (s', ps, ok) /\ good made s' (ps ++ ex) /\ same_rest s s' /\ s_log s' = s_log s /\
      (if ok then Forall2 (holds s) l ps else exists p, In (p, AOther) l).
  Proof.
    induction l as [|[p a] l IH]; intros s ex G Lv; cbn [convert].
    { exists s, [], true. split; [reflexivity|]. split; [exact G|]. split; [apply same_refl|]. split; [reflexivity|constructor]. }
    assert (Lv' : forall p i, In (p, AWrap i) l -> live s i) by (intros; eapply Lv; right; eassumption).
    assert (Go : forall q, value_of (p, a) s = Some (inl q) -> (forall o, q = Some o -> 0 < holders o s + occ o ex) -> holds s (p, a) q ->
      exists s' ps ok, (v <- value_of (p, a) s ;; match v with
        | inr _ => Some (s, [], false)
        | inl p => s' <- copy_ptr p s ;; y <- convert l s' ;; let '(s'', ps, ok) := y in Some (s'', p :: ps, ok) end) = Some (s', ps, ok) /\
        good made s' (ps ++ ex) /\ same_rest s s' /\ s_log s' = s_log s /\ (if ok then Forall2 (holds s) ((p, a) :: l) ps else exists p0, In (p0, AOther) ((p, a) :: l))).
    { intros q E A H. rewrite E. cbn [bind]. pose proof G as [V N]. destruct (inv_copy made q s ex V A) as (s1 & -> & V1 & R1 & L1). cbn [bind].
      assert (G1 : good made s1 (q :: ex)) by (eapply same_good; eassumption).
      destruct (IH s1 (q :: ex) G1) as (s2 & ps & ok & -> & G2 & R2 & L2 & O).
      { intros p' i Hi. unfold live. destruct R1 as (R1 & _). rewrite R1. exact (Lv' p' i Hi). }
      cbn [bind]. exists s2, (q :: ps), ok. split; [reflexivity|]. split.
      { destruct G2 as [V2 N2]. split; [|exact N2]. eapply inv_perm; [|exact V2]. intros o. cbn [app]. rewrite occ_cons, !occ_app, occ_cons. lia. }
      split; [eapply same_trans; eassumption|]. split; [congruence|]. destruct ok; [|destruct O as (p0 & O); exists p0; now right].
      constructor; [exact H|]. destruct R1 as (R1 & _). unfold holds in *. rewrite R1 in O. exact O. }
    destruct a as [i| | |].
    - destruct (Lv p i (or_introl eq_refl)) as (w & Hw & Lw). destruct (i_sane _ _ _ (proj1 G) i w Hw Lw) as [Nr _].
      destruct (w_obj w) as [|q] eqn:Ow; [congruence|]. apply (Go q).
      + unfold value_of. cbn [snd]. rewrite Hw. cbn [bind]. now rewrite Lw, Ow.
      + intros o ->. unfold holders. assert (0 < occ o (wptrs s)); [|lia]. apply occ_in. unfold wptrs. apply in_map_iff. exists w. split; [unfold wptr; now rewrite Lw, Ow|].
        eapply nth_error_In; eassumption.
      + exists w. auto.
    - apply (Go None); [reflexivity|discriminate|reflexivity].
    - cbn [value_of snd bind]. exists s, [], false. split; [reflexivity|]. split; [exact G|]. split; [apply same_refl|]. split; [reflexivity|]. exists p. now left.
    - apply (Go None); [reflexivity|discriminate|reflexivity].
  Qed.

  (** ** Calls *)
  Lemma good_drop_all made l s ex : good made s (l ++ ex) -> exists s', drop_all l s = Some s' /\ good made s' ex /\ same_rest s s'.
  Proof. intros G. destruct (inv_drop_all made l s ex (proj1 G)) as (s' & E & V & R). exists s'. split; [assumption|]. split; [eapply same_good; eassumption|assumption]. Qed.
  Lemma good_drop made p s ex : good made s (p :: ex) -> exists s', drop_ptr p s = Some s' /\ good made s' ex /\ same_rest s s'.
  Proof. intros G. destruct (inv_drop made p s ex (proj1 G)) as (s' & E & V & R). exists s'. split; [assumption|]. split; [eapply same_good; eassumption|assumption]. Qed.
  Lemma good_copy_all made l s ex : good made s ex -> (forall o, In (Some o) l -> 0 < holders o s + occ o ex) ->
    exists s', copy_all l s = Some s' /\ good made s' (l ++ ex) /\ same_rest s s'.
  Proof. intros G A. destruct (inv_copy_all made l s ex (proj1 G) A) as (s' & E & V & R). exists s'. split; [assumption|]. split; [eapply same_good; eassumption|assumption]. Qed.
  Lemma good_perm made s ex ex' : (forall o, occ o ex = occ o ex') -> good made s ex -> good made s ex'.
  Proof. intros E [V N]. split; [|exact N]. eapply inv_perm; eassumption. Qed.

  (** What a call that is not refused does. *)
  Lemma call_ok made args body r s : good made s [] -> (forall p i, In (p, AWrap i) args -> live s i) ->
    exists s' a, call std_map args body r s = Some (s', a) /\ good made s' [] /\ calm s s' /\
      ((forallb parses args && forallb (fun x => match snd x with AOther => false | _ => true end) args = false /\
          a = PTypeError /\ s_kept s' = s_kept s /\ s_wraps s' = s_wraps s /\ s_registry s' = s_registry s /\ length (s_objs s') = length (s_objs s)) \/
       (exists locals s2 s3 s4 p, Forall2 (holds s) args locals /\ same_rest s s2 /\ run_cacts locals body s2 = Some s3 /\ returned locals r s3 = Some (s4, p) /\
          calm s s3 /\ calm s4 s' /\ s_kept s' = s_kept s4 /\ s_kept s4 = s_kept s3 /\
          match r with
          | CVoid => a = PNone
          | _ => match p with None => a = PNone | Some o => exists i, a = PWrap i /\ refers s' o i /\ (std_map = true -> find_entry (s_registry s') (get p s') = Some i) end
          end)).
  Proof.
    intros G Lv. unfold call. destruct (forallb parses args) eqn:Pa.
    2:{ exists s, PTypeError. split; [reflexivity|]. split; [exact G|]. split; [apply calm_refl|]. left. auto 10. }
    destruct (convert_ok made args s [] G Lv) as (s1 & ls & ok & -> & G1 & R1 & _ & O). rewrite app_nil_r in G1. cbn [bind]. destruct ok.
    2:{ destruct (good_drop_all made ls s1 []) as (s2 & -> & G2 & R2); [now rewrite app_nil_r|]. cbn [bind]. exists s2, PTypeError.
        pose proof (same_trans _ _ _ R1 R2) as R. split; [reflexivity|]. split; [exact G2|]. split; [now apply calm_same|]. left. split.
        - cbn [andb]. destruct O as (p & O). apply not_true_iff_false. intros B. rewrite forallb_forall in B. now specialize (B _ O).
        - destruct R as (A & B & D & F & _). auto. }
    destruct (good_copy_all made ls s1 ls G1) as (s2 & -> & G2 & R2).
    { intros o H. assert (0 < occ o ls) by now apply occ_in. lia. }
    cbn [bind]. assert (Ar : forall o, In (Some o) ls -> In (Some o) (ls ++ ls)) by (intros; apply in_or_app; now left).
    destruct (good_cacts std_map made ls body s2 _ G2 Ar) as (s3 & E3 & G3 & C3). rewrite E3. cbn [bind].
    destruct (good_returned std_map made ls r s3 _ G3 Ar) as (s4 & p & E4 & G4 & C4 & K4). rewrite E4. cbn [bind].
    destruct (good_drop_all made ls s4 (p :: ls)) as (s5 & -> & G5 & R5).
    { eapply good_perm; [|exact G4]. intros o. rewrite occ_cons, !occ_app, occ_cons. lia. }
    cbn [bind].
    assert (Z : exists s6 a, match r with CVoid => Some (s5, PNone) | _ => wrap_result std_map p s5 end = Some (s6, a) /\ good made s6 (p :: ls) /\ calm s5 s6 /\ s_kept s6 = s_kept s5 /\
      match r with
      | CVoid => a = PNone
      | _ => match p with None => a = PNone | Some o => exists i, a = PWrap i /\ refers s6 o i /\ (std_map = true -> find_entry (s_registry s6) (get p s6) = Some i) end
      end).
    { destruct (good_wrap std_map made p s5 ls G5) as (s6 & a & Ew & G6 & C6 & K6 & Z). destruct r; try (exists s6, a; auto 6; fail).
      exists s5, PNone. split; [reflexivity|]. split; [exact G5|]. split; [apply calm_refl|auto]. }
    destruct Z as (s6 & a & -> & G6 & C6 & K6 & Z). cbn [bind]. destruct (good_drop made p s6 ls G6) as (s7 & -> & G7 & R7). cbn [bind].
    destruct (good_drop_all made ls s7 []) as (s8 & -> & G8 & R8); [now rewrite app_nil_r|]. cbn [bind]. exists s8, a. pose proof (same_trans _ _ _ R7 R8) as R78.
    pose proof (same_trans _ _ _ R1 R2) as R12.
    assert (C48 : calm s4 s8) by (eapply calm_trans; [apply calm_same; exact R5|eapply calm_trans; [exact C6|apply calm_same; exact R78]]).
    assert (C03 : calm s s3) by (eapply calm_trans; [apply calm_same; exact R12|exact C3]).
    split; [reflexivity|]. split; [exact G8|]. split; [eapply calm_trans; [exact C03|eapply calm_trans; eassumption]|]. right. exists ls, s2, s3, s4, p.
    split; [exact O|]. split; [exact R12|]. split; [exact E3|]. split; [exact E4|]. split; [exact C03|]. split; [exact C48|].
    pose proof R78 as (W8 & K8 & Rg8 & _). pose proof R5 as (_ & K5 & _). split; [congruence|]. split; [exact K4|].
    destruct r; try exact Z; (destruct p as [o|]; [|exact Z]; destruct Z as (i & -> & (w & Hw & X) & Fi); exists i; split; [reflexivity|]; split; [exists w; rewrite W8; auto|];
      intros E; rewrite Rg8, (same_get _ _ (Some o) R78); auto).
  Qed.

  (** ** Steps *)
  (** A step that ends the life of no wrapper referring to [o] keeps what is registered for it. *)
  Definition stays (o : nat) (s s' : state) : Prop :=
    forall i, exists_now s o -> find_entry (s_registry s) (get (Some o) s) = Some i -> refers s o i -> find_entry (s_registry s') (get (Some o) s') = Some i /\ refers s' o i.
  Lemma calm_stays o s s' : calm s s' -> stays o s s'.
  Proof.
    intros C i (x & Hx & _) F R. rewrite (c_get _ _ C) by (apply nth_error_Some; congruence). split; [now apply (c_keep _ _ C)|now apply (c_refers _ _ C)].
  Qed.
  Lemma inv_refers made s o i : inv made s [] -> refers s o i -> exists_now s o.
  Proof.
    intros V (w & Hw & Lw & Ow). apply (counted_alive s _ o (i_counted _ _ _ V)). unfold holders. assert (0 < occ o (wptrs s)); [|lia]. apply occ_in. unfold wptrs.
    apply in_map_iff. exists w. split; [unfold wptr; now rewrite Lw, Ow|]. eapply nth_error_In; eassumption.
  Qed.

  Lemma init_ok made i a s : good made s [] -> live s i -> In i made -> exists s', tp_init i a s = Some s' /\ good made s' [] /\ s_registry s' = s_registry s /\ s_kept s' = s_kept s /\
    (forall o, o < length (s_objs s) -> get (Some o) s' = get (Some o) s) /\ (forall j, j <> i -> nth_error (s_wraps s') j = nth_error (s_wraps s) j) /\
    (exists w, nth_error (s_wraps s) i = Some w /\ nth_error (s_wraps s') i = Some (mk_wrap (Ptr (Some (length (s_objs s)))) (w_refs w) true)) /\
    length (s_objs s') = S (length (s_objs s)).
  Proof.
    intros [V N] (w & Hw & Lw) Mi. unfold tp_init. destruct (make a s) as [s1 o] eqn:E. destruct (inv_make made a s [] V s1 o E) as (V1 & W1 & K1 & R1 & -> & Old & _ & Ln).
    pose proof (good_make std_map made a s [] s1 _ (conj V N) E) as G1. pose proof (calm_make made a s [] s1 _ V E) as C1.
    destruct (w_obj w) as [|old] eqn:Ow; [now elim (proj1 (i_sane _ _ _ V i w Hw Lw))|].
    assert (Hw1 : nth_error (s_wraps s1) i = Some w) by now rewrite W1.
    destruct (inv_move made i (Some (length (s_objs s))) s1 [] w old V1 Hw1 Lw Ow) as (s2 & E2 & V2 & R2).
    { destruct (i_made _ _ _ V i Mi) as [_ U]. unfold unlisted in *. now rewrite R1. }
    pose proof R2 as (A1 & A2 & A3 & A4 & _). cbn [set_wrap s_wraps s_kept s_registry s_objs] in A1, A2, A3, A4.
    exists s2. split; [exact E2|]. split; [split; [exact V2|]|].
    - intros E3. rewrite A3, R1. now apply N.
    - split; [congruence|]. split; [congruence|]. split.
      + intros o L. rewrite (same_get _ _ (Some o) R2). exact (c_get _ _ C1 o L).
      + split; [intros j Ne; rewrite A1, (replace_other _ _ _ _ Ne); now rewrite W1|]. split; [|congruence]. exists w. split; [exact Hw|]. rewrite A1. now apply (replace_same _ _ _ w).
  Qed.

  Lemma step_ok made a s : good made s [] -> legal made s a ->
    exists s' r, step std_map a s = Some (s', r) /\ good (now_made a r made) s' [] /\ length (s_objs s) <= length (s_objs s') /\
      (forall o, o < length (s_objs s) -> get (Some o) s' = get (Some o) s) /\
      (forall o, (forall j, refers s o j -> refers s' o j) -> stays o s s').
  Proof.
    intros G L. destruct a as [|i b|i|i|args body r|body]; cbn [step legal] in *.
    - change (tp_new s) with (add_wrap s (mk_wrap (Ptr None) 1 true), length (s_wraps s)). cbv zeta iota beta. destruct (good_add std_map made s [] G) as [[V' N'] C'].
      do 2 eexists. split; [reflexivity|]. split; [|split; [apply (c_objs _ _ C')|split; [apply (c_get _ _ C')|intros o _; now apply calm_stays]]].
      split; [|exact N']. cbn [now_made]. destruct V' as [A B D F M]. constructor; auto. intros j [<-|Hj]; [|now apply M]. split.
      + cbn. rewrite app_length. cbn. lia.
      + intros b Hb. destruct G as [V _]. destruct (i_registered _ _ _ V b _ Hb) as (w & _ & _ & Hw & _). assert (length (s_wraps s) < length (s_wraps s)) by (apply nth_error_Some; congruence). lia.
    - destruct L as [L Mi]. destruct (init_ok made i b s G L Mi) as (s' & -> & G' & Rg & K & Gt & W & (w & Hw & Hw') & Ln). cbn [bind]. do 2 eexists. split; [reflexivity|].
      split; [exact G'|]. split; [lia|]. split; [exact Gt|]. intros o Kp j (x & Hx & _) F R. rewrite Gt by (apply nth_error_Some; congruence). rewrite Rg. split; [exact F|auto].
    - destruct L as (w & Hw & Lw). destruct (inv_incref made i s [] w (proj1 G) Hw Lw) as (s' & -> & V' & Es). cbn [bind]. do 2 eexists. split; [reflexivity|]. split; [split; [exact V'|]|].
      + subst s'. exact (proj2 G).
      + split; [subst s'; cbn; lia|]. split; [intros o _; now subst s'|]. intros o Kp j _ F R. split; [subst s'; exact F|auto].
    - destruct L as (w & Hw & Lw). unfold decref. rewrite Hw. cbn [bind]. rewrite Lw. pose proof G as [V N].
      assert (D : exists s', dealloc std_map i s = Some s' /\ good made s' [] /\ length (s_objs s) <= length (s_objs s') /\ (forall o, o < length (s_objs s) -> get (Some o) s' = get (Some o) s) /\
        (forall o, (forall j, refers s o j -> refers s' o j) -> stays o s s')).
      { destruct (inv_dealloc std_map made i s [] w N V Hw Lw) as (s' & Ed & V' & Rg & K & Lw' & W & Wi & Lo). exists s'. split; [exact Ed|].
        assert (Gt : forall o, o < length (s_objs s) -> get (Some o) s' = get (Some o) s).
        { intros o _. unfold dealloc in Ed. rewrite Hw in Ed. cbn [bind] in Ed. destruct (w_obj w) as [|p]; [discriminate|]. apply bind_some in Ed. destruct Ed as (s1 & E1 & [= <-]).
          change (get (Some o) (set_wrap s1 i (mk_wrap Raw 0 false))) with (get (Some o) s1).
          assert (X : forall u, drop_ptr p u = Some s1 -> get (Some o) s1 = get (Some o) u).
          { clear. intros u H. destruct p as [q|]; [|now injection H as ->]. cbn in H. destruct (nth_error (s_objs u) q) as [x|] eqn:Hx; [|discriminate]. destruct (o_alive x); [|discriminate].
            assert (Y : forall n al, get (Some o) (set_obj u q (mk_cobj (o_addr x) n al)) = get (Some o) u).
            { intros n al. unfold get. cbn [set_obj s_objs]. destruct (Nat.eq_dec o q) as [->|Ne]; [now rewrite (replace_same _ _ _ _ Hx), Hx|now rewrite (replace_other _ _ _ _ Ne)]. }
            destruct (o_count x) as [|[|n]]; [discriminate| |]; injection H as <-; [exact (Y 0 false)|apply Y]. }
          rewrite (X _ E1). unfold unregister. now destruct std_map. }
        split; [split; [exact V'|]|split; [lia|split; [exact Gt|]]].
        - intros E. specialize (N E). destruct (s_registry s') as [|[b j] l] eqn:Er; [reflexivity|]. destruct (proj1 (Rg b j) (or_introl eq_refl)) as [Hb _]. rewrite N in Hb. destruct Hb.
        - intros o Kp j (x & Hx & Lx) F R. rewrite Gt by (apply nth_error_Some; congruence). split; [|auto].
          assert (Ni : w_obj w <> Ptr (Some o)).
          { intros Ow. destruct (Kp i) as (w' & Hw' & Lw2 & _); [exists w; auto|]. rewrite Wi in Hw'. injection Hw' as <-. discriminate. }
          unfold dealloc in Ed. rewrite Hw in Ed. cbn [bind] in Ed. destruct (w_obj w) as [|p] eqn:Ow; [discriminate|]. apply bind_some in Ed. destruct Ed as (s1 & E1 & [= <-]).
          assert (Er : s_registry s1 = s_registry (unregister std_map (get p s) s)).
          { revert E1. generalize (unregister std_map (get p s) s) as u. clear. intros u E1. destruct p as [q|]; [|now injection E1 as ->]. cbn in E1. destruct (nth_error _ q) as [y|]; [|discriminate]. destruct (o_alive y); [|discriminate].
            destruct (o_count y) as [|[|n]]; [discriminate| |]; now injection E1 as <-. }
          cbn [set_wrap s_registry]. rewrite Er. unfold unregister. destruct std_map; [|exact F]. cbn [set_registry s_registry]. rewrite find_erase; [exact F|].
          assert (Gx : get (Some o) s = o_addr x) by (cbn; now rewrite Hx). rewrite Gx. destruct (i_placed _ _ _ V) as [P1 P2]. intros Ea. destruct p as [q|].
          + cbn in Ea. destruct (nth_error (s_objs s) q) as [y|] eqn:Hy; [|now apply (P1 o x Hx)]. destruct (inv_refers made s q i V) as (y' & Hy' & Ly'); [exists w; auto|].
            rewrite Hy in Hy'. injection Hy' as <-. apply Ni. now rewrite (P2 o q x y Hx Hy Lx Ly' Ea).
          + cbn in Ea. now apply (P1 o x Hx). }
      destruct (w_refs w) as [|[|n]] eqn:Rw; cbn [now_made].
      + destruct D as (s' & -> & D). cbn [bind]. exists s', PNone. split; [reflexivity|exact D].
      + destruct D as (s' & -> & D). cbn [bind]. exists s', PNone. split; [reflexivity|exact D].
      + cbn [bind]. do 2 eexists. split; [reflexivity|]. split; [split; [|exact N]|].
        * destruct V as [C P S Rg M]. constructor; [| exact P | | | apply set_made, M].
          -- eapply counted_set; [exact Hw| |exact C]. intros o. unfold wptr. cbn [w_alive w_obj]. now rewrite Lw.
          -- eapply set_sane; [exact Hw|exact S|]. cbn. intros _. split; [now apply (S i w Hw)|lia].
          -- eapply set_registered; [exact Hw|exact Rg|left; auto].
        * split; [cbn; lia|]. split; [reflexivity|]. intros o Kp j _ F R. split; [exact F|auto].
    - destruct (call_ok made args body r s G L) as (s' & a & -> & G' & C' & _). do 2 eexists. split; [reflexivity|]. split; [exact G'|].
      split; [apply (c_objs _ _ C')|]. split; [apply (c_get _ _ C')|]. intros o _. now apply calm_stays.
    - destruct (good_cacts std_map made [] body s [] G) as (s' & -> & G' & C'); [intros o []|]. cbn [bind]. do 2 eexists. split; [reflexivity|]. split; [exact G'|].
      split; [apply (c_objs _ _ C')|]. split; [apply (c_get _ _ C')|]. intros o _. now apply calm_stays.
  Qed.

  Lemma good_start : good [] start [].
  Proof.
    assert (Nn : forall A (i : nat) (w : A), nth_error [] i = Some w -> False) by (intros A [|i] w; discriminate).
    split; [|intros _; reflexivity]. constructor.
    - split; [|split; [|split]].
      + intros o x H. now apply Nn in H.
      + reflexivity.
      + constructor.
      + intros o. split; [intros []|intros (x & H & _); now apply Nn in H].
    - split; [intros o x H; now apply Nn in H|intros o o' x x' H; now apply Nn in H].
    - intros i w H. now apply Nn in H.
    - intros a i [].
    - intros i [].
  Qed.
  Lemma history_good made s : history std_map made s -> good made s [].
  Proof.
    induction 1 as [|made s a s' r H IH L E]; [apply good_start|]. destruct (step_ok made a s IH L) as (s2 & r2 & E2 & G2 & _). rewrite E in E2. injection E2 as <- <-. exact G2.
  Qed.

  (** ** What it means *)
  Lemma good_alive made s o : good made s [] -> exists_now s o <-> (exists i, refers s o i) \/ (exists h, keeps s o h).
  Proof.
    intros [V _]. pose proof (i_counted _ _ _ V) as C. assert (X : 0 < holders o s <-> (exists i, refers s o i) \/ (exists h, keeps s o h)).
    { unfold holders. split.
      - intros H. assert (H' : 0 < occ o (wptrs s) \/ 0 < occ o (s_kept s)) by lia. destruct H' as [H'|H']; apply occ_in in H'.
        + left. unfold wptrs in H'. apply in_map_iff in H'. destruct H' as (w & E & Hw). apply In_nth_error in Hw. destruct Hw as (i & Hw). exists i, w. unfold wptr in E.
          destruct (w_alive w); [|discriminate]. destruct (w_obj w); [discriminate|]. now subst.
        + right. apply In_nth_error in H'. exact H'.
      - intros [(i & w & Hw & Lw & Ow)|(h & H)].
        + assert (0 < occ o (wptrs s)); [|lia]. apply occ_in. unfold wptrs. apply in_map_iff. exists w. split; [unfold wptr; now rewrite Lw, Ow|]. eapply nth_error_In; eassumption.
        + assert (0 < occ o (s_kept s)); [|lia]. apply occ_in. eapply nth_error_In; eassumption. }
    rewrite <- X. split.
    - intros (x & Hx & Lx). destruct C as (C1 & _). destruct (C1 o x Hx) as [E1 E2]. rewrite Lx in E2. symmetry in E2. apply negb_true_iff, Nat.eqb_neq in E2. cbn in E1. lia.
    - intros H. apply (counted_alive s [] o C). cbn. lia.
  Qed.
  Lemma good_deleted made s : good made s [] -> NoDup (s_log s) /\ forall o, In o (s_log s) <-> created s o /\ ~ exists_now s o.
  Proof.
    intros [V _]. destruct (i_counted _ _ _ V) as (_ & _ & C3 & C4). split; [exact C3|]. intros o. rewrite C4. unfold created, exists_now. split.
    - intros (x & Hx & Lx). split; [apply nth_error_Some; congruence|]. intros (y & Hy & Ly). congruence.
    - intros [L N]. apply nth_error_Some in L. destruct (nth_error (s_objs s) o) as [x|] eqn:Hx; [|congruence]. exists x. split; [reflexivity|]. destruct (o_alive x) eqn:Lx; [|reflexivity]. elim N. eauto.
  Qed.
End Top.
