(** The steps of programs with shared pointers. *)
From Verif.Model Require Import Py SharedPtr.
From Verif.Spec Require Import SharedPtrSpec.
From Verif.Proofs Require Import SharedPtrProofs SharedPtrInv.
From Coq Require Import Lia.
Open Scope list_scope.

Section Steps.
  Variable std_map : bool.
  Definition no_entries (s : state) : Prop := std_map = false -> s_registry s = [].
  Definition good (made : list nat) (s : state) (ex : list (option nat)) : Prop := inv made s ex /\ no_entries s.
  Definition fkeep (s s' : state) : Prop := forall b j, find_entry (s_registry s) b = Some j -> find_entry (s_registry s') b = Some j.
  (** Nothing of what Python sees goes away. *)
  Record calm (s s' : state) : Prop := mk_calm {
    c_keep : fkeep s s'; c_refers : forall o i, refers s o i -> refers s' o i; c_live : forall i, live s i -> live s' i;
    c_get : forall o, o < length (s_objs s) -> get (Some o) s' = get (Some o) s; c_objs : length (s_objs s) <= length (s_objs s') }.
  Lemma calm_trans a b c : calm a b -> calm b c -> calm a c.
  Proof.
    intros [A1 A2 A3 A4 A5] [B1 B2 B3 B4 B5]. constructor; unfold fkeep in *; auto; [|lia]. intros o H. rewrite B4 by lia. auto.
  Qed.
  Lemma calm_same s s' : same_rest s s' -> calm s s'.
  Proof.
    intros R. pose proof R as (R1 & R2 & R3 & R4 & _). constructor; [| | | |lia].
    - intros b j. now rewrite R3.
    - intros o i. unfold refers. now rewrite R1.
    - intros i. unfold live. now rewrite R1.
    - intros o _. now apply same_get.
  Qed.
  Lemma calm_refl s : calm s s. Proof. apply calm_same, same_refl. Qed.
  Lemma no_entries_eq s s' : s_registry s' = s_registry s -> no_entries s -> no_entries s'.
  Proof. unfold no_entries. now intros ->. Qed.
  Lemma same_good made s s' ex' ex : same_rest s s' -> inv made s' ex' -> good made s ex -> good made s' ex'.
  Proof. intros (_ & _ & R & _) V [_ N]. split; [assumption|]. eapply no_entries_eq; eassumption. Qed.

  Lemma calm_make made a s ex s' o : inv made s ex -> make a s = (s', o) -> calm s s'.
  Proof.
    intros V E. destruct (inv_make made a s ex V s' o E) as (_ & W & _ & Rg & _ & Old & _ & Ln). constructor; [| | | |lia].
    - intros b j. now rewrite Rg.
    - intros o' i. unfold refers. now rewrite W.
    - intros i. unfold live. now rewrite W.
    - intros o' L. cbn. apply nth_error_Some in L. destruct (nth_error (s_objs s) o') as [x|] eqn:X; [|congruence]. now rewrite (Old o' x X).
  Qed.
  Lemma good_make made a s ex s' o : good made s ex -> make a s = (s', o) -> good made s' (Some o :: ex).
  Proof. intros [V N] E. destruct (inv_make made a s ex V s' o E) as (V' & _ & _ & Rg & _). split; [assumption|]. eapply no_entries_eq; eassumption. Qed.

  (** ** New wrappers *)
  Lemma good_add made s ex : good made s ex -> good made (add_wrap s (mk_wrap (Ptr None) 1 true)) ex /\ calm s (add_wrap s (mk_wrap (Ptr None) 1 true)).
  Proof.
    intros [[C P S Rg M] N]. assert (Old : forall j w, nth_error (s_wraps s) j = Some w -> nth_error (s_wraps s ++ [mk_wrap (Ptr None) 1 true]) j = Some w).
    { intros j w H. rewrite nth_error_app1; [assumption|]. apply nth_error_Some. congruence. }
    split; [split; [|exact N]|].
    - constructor; [| exact P | | |].
      + destruct C as (C1 & C2 & C3 & C4). assert (X : forall o, holders o (add_wrap s (mk_wrap (Ptr None) 1 true)) = holders o s).
        { intros o. unfold holders, wptrs. cbn [add_wrap s_wraps s_kept]. rewrite map_app, occ_app. cbn. lia. }
        split; [|split; [|split; assumption]].
        * intros o x H. rewrite X. now apply C1.
        * intros o H. rewrite X. now apply C2.
      + intros j w H L. cbn in H. apply nth_app_last in H. destruct H as [H|[-> ->]]; [eauto|]. cbn. split; [discriminate|lia].
      + intros a i H. destruct (Rg a i H) as (w & o & x & Hw & X). exists w, o, x. split; [now apply Old|exact X].
      + intros i H. destruct (M i H) as [M1 M2]. cbn. rewrite app_length. split; [lia|exact M2].
    - constructor; [intros b j H; exact H| | |intros o _; reflexivity|cbn; lia].
      + intros o i (w & Hw & X). exists w. split; [now apply Old|assumption].
      + intros i (w & Hw & X). exists w. split; [now apply Old|assumption].
  Qed.
  Lemma replace_end {A} (l : list A) x y : replace (l ++ [x]) (length l) y = l ++ [y].
  Proof. induction l as [|z l IH]; [reflexivity|]. cbn. now rewrite IH. Qed.
  Lemma allocate_ok s : init_pystruct (length (s_wraps s)) (fst (allocate s)) = Some (add_wrap s (mk_wrap (Ptr None) 1 true)).
  Proof.
    unfold init_pystruct, allocate. cbn [fst add_wrap s_wraps]. rewrite nth_error_app2, Nat.sub_diag by lia. cbn [nth_error bind w_refs w_alive].
    unfold set_wrap, add_wrap. cbn [s_objs s_wraps s_kept s_registry s_log]. now rewrite replace_end.
  Qed.

  Lemma find_erase l a b : b <> a -> find_entry (erase l a) b = find_entry l b.
  Proof.
    intros Ne. induction l as [|[c i] l IH]; [reflexivity|]. unfold erase in *. cbn [filter fst]. destruct (Nat.eqb_spec c a) as [->|Nc]; cbn [negb find_entry].
    - destruct (Nat.eqb_spec a b); [congruence|exact IH].
    - now rewrite IH.
  Qed.
  Lemma good_wrap made p s ex : good made s (p :: ex) -> exists s' r, wrap_result std_map p s = Some (s', r) /\ good made s' (p :: ex) /\ calm s s' /\ s_kept s' = s_kept s /\
    match p with
    | None => r = PNone
    | Some o => exists i, r = PWrap i /\ refers s' o i /\ (std_map = true -> find_entry (s_registry s') (get p s') = Some i)
    end.
  Proof.
    intros [V N]. destruct p as [o|]; cbn [wrap_result]; [|exists s, PNone; split; [reflexivity|split; [split; assumption|split; [apply calm_refl|auto]]]].
    assert (Ao : exists x, nth_error (s_objs s) o = Some x /\ o_alive x = true).
    { apply (counted_alive s _ o (i_counted _ _ _ V)). rewrite occ_cons. unfold one, is_ptr. rewrite Nat.eqb_refl. lia. }
    destruct Ao as (x & Hx & Lx). assert (Gx : get (Some o) s = o_addr x) by (cbn; now rewrite Hx). rewrite Gx.
    destruct (if std_map then find_entry (s_registry s) (o_addr x) else None) as [i|] eqn:F.
    - assert (Sm : std_map = true) by (destruct std_map; [reflexivity|discriminate]). rewrite Sm in F. pose proof (find_in _ _ _ F) as Hi.
      destruct (i_registered _ _ _ V _ _ Hi) as (w & o' & y & Hw & Lw & Ow & Hy & Ay).
      assert (o' = o) as ->.
      { apply (proj2 (i_placed _ _ _ V) o' o y x Hy Hx); [|assumption|assumption]. destruct (counted_alive s _ o' (i_counted _ _ _ V)) as (y' & Hy' & Ly').
        - unfold holders. assert (0 < occ o' (wptrs s)); [|lia]. apply occ_in. unfold wptrs. apply in_map_iff. exists w. split; [unfold wptr; now rewrite Lw, Ow|].
          eapply nth_error_In; eassumption.
        - congruence. }
      destruct (inv_incref made i s _ w V Hw Lw) as (s' & -> & V' & Es). cbn [bind]. exists s', (PWrap i).
      assert (Cl : calm s s').
      { subst s'. constructor; [intros b j H; exact H| | |intros o' _; reflexivity|cbn; lia].
        - intros o' j (v & Hv & Lv & Ov). destruct (Nat.eq_dec j i) as [->|Ne].
          + exists (mk_wrap (w_obj w) (S (w_refs w)) true). cbn [set_wrap s_wraps]. rewrite (replace_same _ _ _ _ Hw). split; [reflexivity|]. split; [reflexivity|]. cbn. congruence.
          + exists v. cbn [set_wrap s_wraps]. rewrite (replace_other _ _ _ _ Ne). auto.
        - intros j (v & Hv & Lv). destruct (Nat.eq_dec j i) as [->|Ne].
          + eexists. cbn [set_wrap s_wraps]. rewrite (replace_same _ _ _ _ Hw). split; reflexivity.
          + exists v. cbn [set_wrap s_wraps]. rewrite (replace_other _ _ _ _ Ne). auto. }
      split; [reflexivity|]. split; [split; [assumption|subst s'; exact N]|]. split; [exact Cl|]. split; [now subst s'|]. exists i. split; [reflexivity|]. split.
      + apply (c_refers _ _ Cl). exists w. auto.
      + intros _. subst s'. cbn [set_wrap s_registry]. unfold get. cbn [set_wrap s_objs]. now rewrite Hx.
    - destruct (good_add made s _ (conj V N)) as [[V1 N1] Cl1]. change (allocate s) with (fst (allocate s), length (s_wraps s)). cbn [fst]. cbv zeta iota beta.
      pose proof (allocate_ok s) as Al. cbn [fst] in Al. rewrite Al. cbn [bind]. set (s2 := add_wrap s (mk_wrap (Ptr None) 1 true)) in *.
      set (i := length (s_wraps s)) in *. assert (Hi : nth_error (s_wraps s2) i = Some (mk_wrap (Ptr None) 1 true)).
      { unfold s2, i. cbn [add_wrap s_wraps]. rewrite nth_error_app2, Nat.sub_diag by lia. reflexivity. }
      assert (Ui : unlisted s2 i).
      { intros b Hb. unfold s2 in Hb. cbn in Hb. destruct (i_registered _ _ _ V b i Hb) as (w & _ & _ & Hw & _). assert (i < length (s_wraps s)) by (apply nth_error_Some; congruence). unfold i in *. lia. }
      unfold assign. destruct (inv_copy made (Some o) s2 _ V1) as (s3 & -> & V3 & R3 & _).
      { intros o' [= <-]. rewrite occ_cons. unfold one, is_ptr. rewrite Nat.eqb_refl. lia. }
      cbn [bind]. pose proof R3 as (R31 & R32 & R33 & R34 & _).
      destruct (inv_move made i (Some o) s3 (Some o :: ex) (mk_wrap (Ptr None) 1 true) None) as (s4 & -> & V4 & R4); [exact V3|now rewrite R31|reflexivity|reflexivity| |].
      { unfold unlisted. rewrite R33. exact Ui. }
      cbn [bind]. cbn [w_refs] in R4. pose proof R4 as (R41 & R42 & R43 & R44 & _). cbn [set_wrap s_wraps s_kept s_registry s_objs] in R41, R42, R43, R44.
      assert (W4 : forall j, j <> i -> nth_error (s_wraps s4) j = nth_error (s_wraps s2) j) by (intros j Ne; rewrite R41, (replace_other _ _ _ _ Ne), R31; reflexivity).
      assert (Wi : nth_error (s_wraps s4) i = Some (mk_wrap (Ptr (Some o)) 1 true)) by (rewrite R41; apply (replace_same _ _ _ (mk_wrap (Ptr None) 1 true)); now rewrite R31).
      assert (Rg4 : s_registry s4 = s_registry s) by (rewrite R43, R33; reflexivity).
      assert (G4 : forall q, get q s4 = get q s).
      { intros q. rewrite (same_get _ _ q R4). change (get q (set_wrap s3 i (mk_wrap (Ptr (Some o)) 1 true))) with (get q s3). now rewrite (same_get _ _ q R3). }
      assert (Nf : std_map = true -> find_entry (s_registry s) (o_addr x) = None) by (intros E; now rewrite E in F).
      assert (X4 : exists x4, nth_error (s_objs s4) o = Some x4 /\ o_addr x4 = o_addr x).
      { specialize (G4 (Some o)). rewrite Gx in G4. cbn in G4. destruct (nth_error (s_objs s4) o) as [x4|]; [eauto|]. destruct V as [_ [P1 _] _ _ _]. elim (P1 o x Hx). congruence. }
      destruct X4 as (x4 & Hx4 & Ax4).
      assert (Frame : s_objs (register std_map (get (Some o) s4) i s4) = s_objs s4 /\ s_wraps (register std_map (get (Some o) s4) i s4) = s_wraps s4 /\
        s_kept (register std_map (get (Some o) s4) i s4) = s_kept s4 /\ s_log (register std_map (get (Some o) s4) i s4) = s_log s4) by (unfold register; destruct std_map; auto).
      destruct Frame as (F1 & F2 & F3 & F4). exists (register std_map (get (Some o) s4) i s4), (PWrap i). split; [reflexivity|]. set (s5 := register std_map (get (Some o) s4) i s4) in *.
      assert (Ga : get (Some o) s4 = o_addr x) by (rewrite G4; exact Gx).
      assert (Rg5 : forall b j, In (b, j) (s_registry s5) -> (b, j) = (o_addr x, i) \/ In (b, j) (s_registry s)).
      { intros b j H. unfold s5, register in H. rewrite Ga in H. destruct std_map; cbn [set_registry s_registry] in H; rewrite ?Rg4 in H; [|now right].
        destruct H as [H|H]; [left; congruence|]. apply erase_in in H. right. tauto. }
      split; [split|].
      + destruct V4 as [C4 P4 S4 Rgs M4]. constructor.
        * unfold counted, holders, wptrs. rewrite F1, F2, F3, F4. exact C4.
        * unfold placed. rewrite F1. exact P4.
        * unfold sane. rewrite F2. exact S4.
        * intros b j H. rewrite F1, F2. apply Rg5 in H. destruct H as [[= -> ->]|H]; [|apply Rgs; now rewrite Rg4]. exists (mk_wrap (Ptr (Some o)) 1 true), o, x4. auto.
        * intros j Hj. rewrite F2. destruct (M4 j Hj) as [M1 M2]. split; [assumption|]. intros b H. apply Rg5 in H. destruct H as [[= _ ->]|H].
          -- destruct V as [_ _ _ _ M]. destruct (M i Hj) as [Li _]. unfold i in Li. lia.
          -- apply (M2 b). now rewrite Rg4.
      + intros E. unfold s5, register. rewrite E. rewrite Rg4. now apply N.
      + split; [|split].
        * eapply calm_trans; [exact Cl1|]. constructor.
          -- intros b j H. change (s_registry s2) with (s_registry s) in H. unfold s5, register. rewrite Ga, Rg4. destruct std_map; [|now rewrite Rg4]. cbn [set_registry s_registry find_entry].
             destruct (Nat.eqb_spec (o_addr x) b) as [<-|Ne]; [rewrite (Nf eq_refl) in H; discriminate|]. rewrite find_erase by congruence. exact H.
          -- intros o' j (w & Hw & X). destruct (Nat.eq_dec j i) as [->|Ne]; [rewrite Hi in Hw; injection Hw as <-; destruct X; discriminate|]. exists w. rewrite F2, (W4 j Ne). auto.
          -- intros j (w & Hw & X). destruct (Nat.eq_dec j i) as [->|Ne].
             ++ exists (mk_wrap (Ptr (Some o)) 1 true). rewrite F2. auto.
             ++ exists w. rewrite F2, (W4 j Ne). auto.
          -- intros o' _. unfold get at 1. rewrite F1. exact (G4 (Some o')).
          -- rewrite F1, R44, R34. lia.
        * rewrite F3, R42, R32. reflexivity.
        * exists i. split; [reflexivity|]. split; [exists (mk_wrap (Ptr (Some o)) 1 true); rewrite F2; auto|]. intros E. unfold get. rewrite F1, Hx4, Ax4.
          unfold s5, register. rewrite E, Ga. cbn [set_registry s_registry find_entry]. now rewrite Nat.eqb_refl.
  Qed.

  (** ** C++ code *)
  Lemma ex_alive s ex p : In p ex -> forall o, p = Some o -> 0 < holders o s + occ o ex.
  Proof. intros H o ->. assert (0 < occ o ex) by now apply occ_in. lia. Qed.
  Lemma pointer_in l k o : pointer l k = Some o -> In (Some o) l.
  Proof. unfold pointer. destruct (nth_error l k) as [p|] eqn:E; [|discriminate]. intros ->. eapply nth_error_In; eassumption. Qed.
  Lemma kept_alive s ex h : forall o, pointer (s_kept s) h = Some o -> 0 < holders o s + occ o ex.
  Proof. intros o H. apply pointer_in in H. assert (0 < occ o (s_kept s)) by now apply occ_in. unfold holders. lia. Qed.
  Lemma good_kept made s l ex ex' : (forall o, occ o l + occ o ex' = occ o (s_kept s) + occ o ex) -> good made s ex -> good made (set_kept s l) ex'.
  Proof.
    intros E [[(C1 & C2 & C3 & C4) P S Rg M] N]. split; [|exact N]. constructor; [| exact P | exact S | exact Rg | exact M].
    split; [|split; [|split; assumption]].
    - intros o x H. destruct (C1 o x H) as [-> H2]. split; [|assumption]. unfold holders, wptrs. cbn [set_kept s_wraps s_kept]. specialize (E o). lia.
    - intros o H. specialize (C2 o H). unfold holders, wptrs in *. cbn [set_kept s_wraps s_kept]. specialize (E o). lia.
  Qed.
  Lemma calm_kept s l : calm s (set_kept s l).
  Proof. constructor; unfold fkeep; auto. Qed.
  Lemma good_cact made args c s ex : good made s ex -> (forall o, In (Some o) args -> In (Some o) ex) ->
    exists s', run_cact args c s = Some s' /\ good made s' ex /\ calm s s'.
  Proof.
    intros G Ar. pose proof G as [V N]. destruct c as [k|a|h]; cbn [run_cact].
    - destruct (inv_copy made (pointer args k) s ex V) as (s' & -> & V' & R & _).
      { intros o H. apply (ex_alive s ex (Some o)); [|reflexivity]. apply Ar. now apply pointer_in in H. }
      cbn [bind]. eexists. split; [reflexivity|]. split; [|eapply calm_trans; [apply calm_same; exact R|apply calm_kept]].
      apply (good_kept made s' _ (pointer args k :: ex)); [|eapply same_good; eassumption]. intros o. rewrite occ_app, !occ_cons. cbn. lia.
    - destruct (make a s) as [s' o] eqn:E. eexists. split; [reflexivity|]. pose proof (good_make made a s ex s' o G E) as G'. split; [|eapply calm_trans; [eapply calm_make; eassumption|apply calm_kept]].
      apply (good_kept made s' _ (Some o :: ex)); [|exact G']. intros o'. rewrite occ_app, !occ_cons. cbn. lia.
    - assert (G' : good made (set_kept s (replace (s_kept s) h None)) (pointer (s_kept s) h :: ex)).
      { apply (good_kept made s _ ex); [|exact G]. intros o. rewrite occ_cons. unfold pointer. destruct (nth_error (s_kept s) h) as [p|] eqn:E.
        - pose proof (occ_replace o (s_kept s) h None p E). unfold one in *. cbn [is_ptr] in *. lia.
        - assert (X : replace (s_kept s) h None = s_kept s); [|rewrite X; unfold one; cbn; lia]. clear - E. revert h E. induction (s_kept s) as [|x l IH]; intros [|h] E; cbn in *; try reflexivity; [discriminate|].
          now rewrite IH. }
      destruct G' as [V' N']. destruct (inv_drop made _ _ ex V') as (s' & -> & V'' & R). exists s'. split; [reflexivity|]. split; [eapply same_good; [exact R|exact V''|split; [exact V'|exact N']]|].
      eapply calm_trans; [apply calm_kept|apply calm_same; exact R].
  Qed.
  Lemma good_cacts made args l : forall s ex, good made s ex -> (forall o, In (Some o) args -> In (Some o) ex) ->
    exists s', run_cacts args l s = Some s' /\ good made s' ex /\ calm s s'.
  Proof.
    induction l as [|c l IH]; intros s ex G A; cbn [run_cacts]; [exists s; split; [reflexivity|split; [assumption|apply calm_refl]]|].
    destruct (good_cact made args c s ex G A) as (s1 & -> & G1 & C1). cbn [bind]. destruct (IH s1 ex G1 A) as (s2 & -> & G2 & C2). exists s2. split; [reflexivity|]. split; [assumption|eapply calm_trans; eassumption].
  Qed.
  Lemma good_returned made args r s ex : good made s ex -> (forall o, In (Some o) args -> In (Some o) ex) ->
    exists s' p, returned args r s = Some (s', p) /\ good made s' (p :: ex) /\ calm s s' /\ s_kept s' = s_kept s.
  Proof.
    intros G Ar. pose proof G as [V N].
    assert (None_ : exists s' p, Some (s, @None nat) = Some (s', p) /\ good made s' (p :: ex) /\ calm s s' /\ s_kept s' = s_kept s).
    { exists s, None. split; [reflexivity|]. split; [|split; [apply calm_refl|reflexivity]]. destruct G as [G1 G2]. split; [|assumption]. eapply inv_perm; [|exact G1]. intros o. rewrite occ_cons. reflexivity. }
    destruct r as [| |k|h|a]; cbn [returned]; try exact None_.
    - destruct (inv_copy made (pointer args k) s ex V) as (s' & -> & V' & R & _).
      { intros o H. apply (ex_alive s ex (Some o)); [|reflexivity]. apply Ar. now apply pointer_in in H. }
      cbn [bind]. do 2 eexists. split; [reflexivity|]. split; [eapply same_good; eassumption|]. split; [now apply calm_same|apply R].
    - destruct (inv_copy made (pointer (s_kept s) h) s ex V) as (s' & -> & V' & R & _); [apply kept_alive|].
      cbn [bind]. do 2 eexists. split; [reflexivity|]. split; [eapply same_good; eassumption|]. split; [now apply calm_same|apply R].
    - destruct (make a s) as [s' o] eqn:E. do 2 eexists. split; [reflexivity|]. split; [eapply good_make; eassumption|]. split; [eapply calm_make; eassumption|].
      now destruct (inv_make made a s ex V s' o E) as (_ & _ & K & _).
  Qed.
End Steps.
