(** Proofs for C04. *)
From Coq Require Import Lia Sorting.Sorted.
From Verif.Model Require Import Py CodeSink CodeBlock.
From Verif.Spec Require Import BlockSpec.
Open Scope list_scope.

Section P.
Context {A : Type}.
Implicit Types (st : store A) (h : list (bop A)) (b n : nat).

Lemma brun_app st h1 h2 : brun st (h1 ++ h2) = bind (brun st h1) (fun s => brun s h2).
Proof.
  revert st; induction h1 as [|o r IH]; intros st; cbn; [reflexivity|].
  destruct (bstep st o); cbn; [apply IH|reflexivity].
Qed.

Lemma put_length st b k : b < length st -> length (put st b k) = length st.
Proof.
  intros; unfold put; rewrite app_length, firstn_length; cbn [length]; rewrite skipn_length; lia.
Qed.
Lemma put_same st b k : b < length st -> nth_error (put st b k) b = Some k.
Proof.
  intros; unfold put. rewrite nth_error_app2; rewrite firstn_length_le by lia; [|lia].
  now rewrite Nat.sub_diag.
Qed.
Lemma put_other st b k b' : b < length st -> b' <> b -> nth_error (put st b k) b' = nth_error st b'.
Proof.
  intros Hb Hn; unfold put.
  destruct (Nat.lt_ge_cases b' b).
  - rewrite nth_error_app1 by (rewrite firstn_length_le; lia).
    rewrite <- (firstn_skipn b st) at 2. rewrite nth_error_app1; [easy|rewrite firstn_length_le; lia].
  - rewrite nth_error_app2; rewrite firstn_length_le by lia; [|lia].
    destruct (b' - b) as [|m] eqn:E; [lia|]. cbn.
    rewrite <- (firstn_skipn (S b) st) at 2.
    rewrite nth_error_app2; rewrite firstn_length_le by lia; [|lia].
    f_equal; lia.
Qed.

Lemma since_clear_no h b : existsb (is_clear b) h = false -> since_clear b h = h.
Proof.
  destruct h as [|o r]; cbn; [easy|]. intros H; apply orb_false_iff in H as [H1 H2].
  now rewrite H2, H1.
Qed.
Lemma since_clear_snoc h b o :
  since_clear b (h ++ [o]) = if is_clear b o then [] else since_clear b h ++ [o].
Proof.
  induction h as [|x r IH]; cbn.
  - now destruct (is_clear b o).
  - rewrite IH, existsb_app; cbn. rewrite orb_false_r.
    destruct (is_clear b o); [now rewrite orb_true_r|rewrite orb_false_r].
    destruct (existsb (is_clear b) r); [reflexivity|].
    destruct (is_clear b x); reflexivity.
Qed.

Lemma registered_app b h1 h2 : registered b (h1 ++ h2) = registered b h1 ++ registered b h2.
Proof. unfold registered; apply flat_map_app. Qed.
Lemma cancelled_app b h1 h2 n : cancelled b (h1 ++ h2) n = cancelled b h1 n || cancelled b h2 n.
Proof. unfold cancelled; apply existsb_app. Qed.
Lemma numbered_snoc (l : list A) a : numbered (l ++ [a]) = numbered l ++ [(S (length l), a)].
Proof.
  unfold numbered. rewrite app_length; cbn. rewrite seq_app; cbn.
  assert (G : forall s (l' : list A) x y, combine (seq s (length l') ++ [x]) (l' ++ [y]) =
             combine (seq s (length l')) l' ++ [(x, y)]).
  { intros s' l'; revert s'; induction l' as [|c r IH]; intros; cbn; [reflexivity|]. now rewrite IH. }
  apply G.
Qed.
Lemma numbered_bound (l : list A) n a : In (n, a) (numbered l) -> 1 <= n <= length l.
Proof.
  unfold numbered; intros H. apply in_combine_l, in_seq in H. lia.
Qed.
Lemma numbered_has (l : list A) n : 1 <= n <= length l -> exists a, In (n, a) (numbered l).
Proof.
  intros Hn. unfold numbered.
  destruct (nth_error l (n-1)) as [a|] eqn:E.
  2:{ apply nth_error_None in E; lia. }
  exists a. 
  assert (G : forall (l : list A) s i a, nth_error l i = Some a -> In (s+i, a) (combine (seq s (length l)) l)).
  { clear. intros l; induction l as [|x r IH]; intros s [|i] a Hx; cbn in *; try discriminate.
    - injection Hx as ->; left; f_equal; lia.
    - right. replace (s + S i) with (S s + i) by lia. now apply IH. }
  replace n with (1 + (n-1)) by lia. now apply G.
Qed.

Definition mentions (o : bop A) b : Prop :=
  match o with
  | BNew _ _ => False
  | BClear b' | BCode b' _ | BIndent b' _ | BUnindent b' | BAdd b' _ | BCancel b' _
  | BCheck b' _ _ | BCleanup b' | BErrorReturn b' | BSetError b' _ => b = b'
  end.

Definition live_pairs b h : list (nat * A) :=
  let h' := since_clear b h in
  filter (fun na => negb (cancelled b h' (fst na))) (numbered (registered b h')).

Record good h st b (k : block A) : Prop := {
  g_err : exists e, nth_error (created h) b = Some (pred k, e) /\ err_ret k = last (assigned_error b h) e;
  g_pos : last_pos k = length (registered b (since_clear b h));
  g_act : actions k = live_pairs b h;
  g_can : forall n, cancelled b (since_clear b h) n = true -> n <= length (registered b (since_clear b h));
  g_pred : forall p, pred k = Some p -> p < b }.

Record inv h st : Prop := {
  i_len : length st = length (created h);
  i_men : forall o b, In o h -> mentions o b -> b < length st;
  i_blk : forall b k, nth_error st b = Some k -> good h st b k }.

Lemma nth_lt {T} (l : list T) n x : nth_error l n = Some x -> n < length l.
Proof. intros H; apply nth_error_Some; congruence. Qed.

(** An operation that does not concern block b leaves everything about b unchanged. *)
Lemma good_other h st st' o b k : ~ mentions o b -> (forall p e, o <> BNew p e) ->
  good h st b k -> good (h ++ [o]) st' b k.
Proof.
  intros Hm Hnew [[e [E1 E2]] G2 G3 G4 G5].
  assert (Hc : is_clear b o = false).
  { destruct o; cbn in *; try reflexivity. now apply Nat.eqb_neq. }
  assert (Hr : registered b [o] = []).
  { destruct o; cbn in *; try reflexivity. apply Nat.eqb_neq in Hm; now rewrite Hm. }
  assert (Hk : forall n, cancelled b [o] n = false).
  { intros n; destruct o; cbn in *; try reflexivity. apply Nat.eqb_neq in Hm; now rewrite Hm. }
  assert (He : assigned_error b [o] = []).
  { destruct o; cbn in *; try reflexivity. apply Nat.eqb_neq in Hm; now rewrite Hm. }
  assert (Hw : created [o] = []).
  { destruct o; cbn in *; try reflexivity. now destruct (Hnew p err). }
  split.
  - exists e. unfold created, assigned_error in *. rewrite !flat_map_app, Hw, He, !app_nil_r. auto.
  - rewrite since_clear_snoc, Hc, registered_app, Hr, app_nil_r; auto.
  - rewrite G3. unfold live_pairs. rewrite since_clear_snoc, Hc, registered_app, Hr, app_nil_r.
    apply filter_ext. intros [n a]; cbn [fst]. now rewrite cancelled_app, Hk, orb_false_r.
  - intros n. rewrite since_clear_snoc, Hc, registered_app, Hr, app_nil_r, cancelled_app, Hk, orb_false_r. apply G4.
  - exact G5.
Qed.

Lemma good_st h st st' b k : good h st b k -> good h st' b k.
Proof. intros [? ? ? ? ?]; split; auto. Qed.

(** Operations that only write. *)
Definition writes (o : bop A) b : Prop :=
  match o with
  | BCode b' _ | BIndent b' _ | BUnindent b' | BCheck b' _ _ | BCleanup b' | BErrorReturn b' => b = b'
  | _ => False
  end.

Lemma good_write h st st' o b k l : writes o b -> good h st b k ->
  good (h ++ [o]) st' b {| pred := pred k; actions := actions k; last_pos := last_pos k;
                           err_ret := err_ret k; out := l |}.
Proof.
  intros Hw [[e [E1 E2]] G2 G3 G4 G5].
  assert (Hc : is_clear b o = false) by (destruct o; cbn in *; easy).
  assert (Hr : registered b [o] = []) by (destruct o; cbn in *; easy).
  assert (Hk : forall n, cancelled b [o] n = false) by (intros n; destruct o; cbn in *; easy).
  assert (He : assigned_error b [o] = []) by (destruct o; cbn in *; easy).
  assert (Hn : created [o] = []) by (destruct o; cbn in *; easy).
  split; cbn [pred actions last_pos err_ret].
  - exists e. unfold created, assigned_error in *. rewrite !flat_map_app, Hn, He, !app_nil_r. auto.
  - rewrite since_clear_snoc, Hc, registered_app, Hr, app_nil_r; auto.
  - rewrite G3. unfold live_pairs. rewrite since_clear_snoc, Hc, registered_app, Hr, app_nil_r.
    apply filter_ext. intros [n a]; cbn [fst]. now rewrite cancelled_app, Hk, orb_false_r.
  - intros n. rewrite since_clear_snoc, Hc, registered_app, Hr, app_nil_r, cancelled_app, Hk, orb_false_r. apply G4.
  - exact G5.
Qed.

Lemma inv_put h st o b k0 k :
  inv h st -> nth_error st b = Some k0 -> mentions o b -> (forall p e, o <> BNew p e) ->
  good (h ++ [o]) (put st b k) b k -> inv (h ++ [o]) (put st b k).
Proof.
  intros [L M B] H0 Hm Hnew Hg. pose proof (nth_lt _ _ _ H0) as Hb.
  assert (Hw : created [o] = []).
  { destruct o; cbn in *; try reflexivity. now destruct (Hnew p err). }
  split.
  - rewrite put_length by easy. unfold created in *. rewrite flat_map_app, Hw, app_nil_r. easy.
  - intros o' b' Ho Hb'. rewrite put_length by easy.
    apply in_app_iff in Ho as [Ho|[<-|[]]]; [eauto|].
    assert (b' = b) by (destruct o; cbn in *; congruence). subst; easy.
  - intros b' k' Hk'. destruct (Nat.eq_dec b' b) as [->|Hne].
    + rewrite put_same in Hk' by easy. now injection Hk' as <-.
    + rewrite put_other in Hk' by easy. apply good_other with (st := st); auto.
      intros Hmm; apply Hne. destruct o; cbn in *; congruence.
Qed.

Lemma inv_emit h st st' o b l :
  inv h st -> writes o b -> emit st b l = Ok st' -> inv (h ++ [o]) st'.
Proof.
  intros I Hw He. unfold emit in He. destruct (nth_error st b) as [k|] eqn:E; [|discriminate].
  injection He as <-. eapply inv_put; eauto.
  - destruct o; cbn in *; easy.
  - intros p e ->; destruct Hw.
  - eapply good_write; eauto. eapply i_blk; eauto.
Qed.

Lemma no_mention_registered h b : (forall o, In o h -> ~ mentions o b) ->
  registered b (since_clear b h) = [] /\ (forall n, cancelled b (since_clear b h) n = false) /\
  assigned_error b h = [].
Proof.
  induction h as [|o r IH] using rev_ind; intros H; [cbn; auto|].
  destruct IH as [I1 [I2 I3]].
  { intros; apply H; apply in_app_iff; auto. }
  assert (Hm : ~ mentions o b) by (apply H, in_app_iff; cbn; auto).
  assert (Hc : is_clear b o = false).
  { destruct o; cbn in *; try reflexivity. now apply Nat.eqb_neq. }
  assert (Hr : registered b [o] = []).
  { destruct o; cbn in *; try reflexivity. apply Nat.eqb_neq in Hm; now rewrite Hm. }
  assert (Hk : forall n, cancelled b [o] n = false).
  { intros n; destruct o; cbn in *; try reflexivity. apply Nat.eqb_neq in Hm; now rewrite Hm. }
  assert (He : assigned_error b [o] = []).
  { destruct o; cbn in *; try reflexivity. apply Nat.eqb_neq in Hm; now rewrite Hm. }
  rewrite since_clear_snoc, Hc. split; [|split].
  - now rewrite registered_app, I1, Hr.
  - intros n. now rewrite cancelled_app, I2, Hk.
  - unfold assigned_error in *. now rewrite flat_map_app, I3, He.
Qed.

Lemma good_new_old h st st' p e b k : b < length (created h) -> good h st b k ->
  good (h ++ [BNew p e]) st' b k.
Proof.
  intros Hb [[e' [E1 E2]] G2 G3 G4 G5].
  split.
  - exists e'. unfold created, assigned_error in *. rewrite !flat_map_app; cbn. rewrite !app_nil_r.
    split; [rewrite nth_error_app1; auto|auto].
  - rewrite since_clear_snoc; cbn [is_clear]; rewrite registered_app; cbn. rewrite app_nil_r; auto.
  - rewrite G3. unfold live_pairs. rewrite since_clear_snoc; cbn [is_clear]; rewrite registered_app; cbn. rewrite app_nil_r.
    apply filter_ext. intros [n a]; cbn [fst]. now rewrite cancelled_app, orb_false_r.
  - intros n. rewrite since_clear_snoc; cbn [is_clear]; rewrite registered_app, cancelled_app; cbn.
    rewrite app_nil_r, orb_false_r. apply G4.
  - exact G5.
Qed.

Lemma inv_step h st o st' : inv h st -> bstep st o = Ok st' -> inv (h ++ [o]) st'.
Proof.
  intros I Hs. destruct o; cbn [bstep] in Hs.
  - (* BNew *)
    assert (E : st' = st ++ [new_block p err] /\ (forall q, p = Some q -> q < length st)).
    { unfold create in Hs. destruct p as [q|].
      - destruct (Nat.ltb_spec q (length st)); [|discriminate]. injection Hs as <-.
        split; [auto|intros ? [= <-]; auto].
      - injection Hs as <-. split; [auto|discriminate]. }
    destruct E as [-> Hp]. destruct I as [L M B]. split.
    + unfold created in *. rewrite flat_map_app, !app_length, L. reflexivity.
    + intros o b Ho Hm. rewrite app_length. apply in_app_iff in Ho as [Ho|[<-|[]]].
      * specialize (M _ _ Ho Hm). lia.
      * destruct Hm.
    + intros b k Hk. destruct (Nat.lt_ge_cases b (length st)) as [Hb|Hb].
      * rewrite nth_error_app1 in Hk by easy. eapply good_new_old; eauto. now rewrite <- L.
      * pose proof (nth_lt _ _ _ Hk) as Hl. rewrite app_length in Hl; cbn in Hl.
        assert (b = length st) by lia; subst b.
        rewrite nth_error_app2, Nat.sub_diag in Hk by lia. cbn in Hk. injection Hk as <-.
        destruct (no_mention_registered h (length st)) as [R1 [R2 R3]].
        { intros o Ho Hm. specialize (M _ _ Ho Hm). lia. }
        split; cbn [new_block pred actions last_pos err_ret].
        -- exists err. unfold created, assigned_error in *. rewrite !flat_map_app; cbn.
           rewrite L, nth_error_app2, Nat.sub_diag by lia. rewrite <- L, R3. auto.
        -- rewrite since_clear_snoc; cbn [is_clear]; rewrite registered_app, R1; reflexivity.
        -- unfold live_pairs. rewrite since_clear_snoc; cbn [is_clear]; rewrite registered_app, R1; reflexivity.
        -- intros n. rewrite since_clear_snoc; cbn [is_clear]; rewrite cancelled_app, R2; cbn. discriminate.
        -- exact Hp.
  - (* BClear *)
    unfold clear_block in Hs. destruct (nth_error st b) as [k|] eqn:E; [|discriminate]. injection Hs as <-.
    eapply inv_put; eauto; [reflexivity|discriminate|].
    destruct (i_blk _ _ I _ _ E) as [[e [E1 E2]] G2 G3 G4 G5].
    assert (Hc : is_clear b (BClear (A := A) b) = true) by (cbn; apply Nat.eqb_refl).
    split; cbn [new_block pred actions last_pos err_ret].
    + exists e. unfold created, assigned_error in *. rewrite !flat_map_app; cbn. rewrite !app_nil_r. auto.
    + now rewrite since_clear_snoc, Hc.
    + unfold live_pairs. now rewrite since_clear_snoc, Hc.
    + intros n. rewrite since_clear_snoc, Hc. discriminate.
    + exact G5.
  - eapply inv_emit; eauto; reflexivity.
  - eapply inv_emit; eauto; reflexivity.
  - eapply inv_emit; eauto; reflexivity.
  - (* BAdd *)
    unfold add_cleanup_code in Hs. destruct (nth_error st b) as [k|] eqn:E; [|discriminate].
    injection Hs as <-. cbn [fst].
    eapply inv_put; eauto; [reflexivity|discriminate|].
    destruct (i_blk _ _ I _ _ E) as [[e [E1 E2]] G2 G3 G4 G5].
    assert (Hr : registered b [BAdd b a] = [a]) by (cbn; now rewrite Nat.eqb_refl).
    split; cbn [pred actions last_pos err_ret].
    + exists e. unfold created, assigned_error in *. rewrite !flat_map_app; cbn. rewrite !app_nil_r. auto.
    + rewrite since_clear_snoc; cbn [is_clear]. rewrite registered_app, Hr, app_length; cbn. lia.
    + rewrite G3. unfold live_pairs. rewrite since_clear_snoc; cbn [is_clear].
      rewrite registered_app, Hr, numbered_snoc, filter_app. f_equal.
      * apply filter_ext. intros [n c]; cbn [fst]. now rewrite cancelled_app; cbn; rewrite orb_false_r.
      * cbn. rewrite cancelled_app; cbn; rewrite orb_false_r, G2.
        destruct (cancelled b (since_clear b h) _) eqn:C; [|reflexivity].
        apply G4 in C. lia.
    + intros n. rewrite since_clear_snoc; cbn [is_clear]. rewrite cancelled_app, registered_app, Hr, app_length; cbn.
      rewrite orb_false_r. intros C; apply G4 in C. lia.
    + exact G5.
  - (* BCancel *)
    unfold remove_cleanup_code in Hs. destruct (nth_error st b) as [k|] eqn:E; [|discriminate].
    destruct (existsb _ (actions k)) eqn:Ex; [|discriminate]. injection Hs as <-.
    eapply inv_put; eauto; [reflexivity|discriminate|].
    destruct (i_blk _ _ I _ _ E) as [[e [E1 E2]] G2 G3 G4 G5].
    split; cbn [pred actions last_pos err_ret].
    + exists e. unfold created, assigned_error in *. rewrite !flat_map_app; cbn. rewrite !app_nil_r. auto.
    + rewrite since_clear_snoc; cbn [is_clear]. rewrite registered_app; cbn. rewrite app_nil_r. auto.
    + rewrite G3. unfold live_pairs. rewrite since_clear_snoc; cbn [is_clear].
      rewrite registered_app; cbn. rewrite app_nil_r.
      induction (numbered _) as [|[n c] l IH]; [reflexivity|].
      cbn [filter fst]. rewrite cancelled_app; cbn. rewrite orb_false_r, Nat.eqb_refl; cbn.
      destruct (cancelled b (since_clear b h) n); cbn.
      * apply IH.
      * destruct (Nat.eqb n pos) eqn:En; cbn; [apply IH|]. f_equal. apply IH.
    + intros n. rewrite since_clear_snoc; cbn [is_clear]. rewrite cancelled_app, registered_app; cbn.
      rewrite app_nil_r, orb_false_r, Nat.eqb_refl; cbn. intros C. apply orb_true_iff in C as [C|C]; [auto|].
      apply Nat.eqb_eq in C; subst n. apply existsb_exists in Ex as [[m a] [Hin Hm]].
      cbn in Hm. apply Nat.eqb_eq in Hm; subst m. rewrite G3 in Hin. apply filter_In in Hin as [Hin _].
      apply numbered_bound in Hin. lia.
    + exact G5.
  - unfold write_error_check in Hs. destruct (nth_error st b) eqn:E; [|discriminate].
    eapply inv_emit; eauto; reflexivity.
  - eapply inv_emit; eauto; reflexivity.
  - unfold write_error_return in Hs. destruct (nth_error st b) eqn:E; [|discriminate].
    eapply inv_emit; eauto; reflexivity.
  - unfold set_error_return in Hs. destruct (nth_error st b) as [k|] eqn:E; [|discriminate].
    injection Hs as <-. eapply inv_put; eauto; [reflexivity|discriminate|].
    destruct (i_blk _ _ I _ _ E) as [[e [E1 E2]] G2 G3 G4 G5].
    split; cbn [pred actions last_pos err_ret].
    + exists e. unfold created, assigned_error in *. rewrite !flat_map_app; cbn.
      rewrite Nat.eqb_refl, !app_nil_r. split; [auto|]. now rewrite last_last.
    + rewrite since_clear_snoc; cbn [is_clear]. rewrite registered_app; cbn. rewrite app_nil_r. auto.
    + rewrite G3. unfold live_pairs. rewrite since_clear_snoc; cbn [is_clear].
      rewrite registered_app; cbn. rewrite app_nil_r. apply filter_ext.
      intros [n c]; cbn [fst]. now rewrite cancelled_app; cbn; rewrite orb_false_r.
    + intros n. rewrite since_clear_snoc; cbn [is_clear]. rewrite cancelled_app, registered_app; cbn.
      rewrite app_nil_r, orb_false_r. apply G4.
    + exact G5.
Qed.

Lemma inv_init : inv [] [].
Proof. split; [reflexivity|intros ? ? []|intros [|b] k; discriminate]. Qed.

Lemma inv_run h st : brun [] h = Ok st -> inv h st.
Proof.
  revert st; induction h as [|o r IH] using rev_ind; intros st H.
  - injection H as <-. apply inv_init.
  - rewrite brun_app in H. destruct (brun [] r) as [s|] eqn:E; [|discriminate]. cbn in H.
    destruct (bstep s o) as [s'|] eqn:E'; [|discriminate]. injection H as <-.
    eapply inv_step; eauto.
Qed.

(** Sorting does nothing: positions are inserted in increasing order. *)
Lemma sort_numbered_filter (f : nat * A -> bool) (l : list A) s :
  sort_actions (filter f (combine (seq s (length l)) l)) = filter f (combine (seq s (length l)) l).
Proof.
  revert s; induction l as [|a r IH]; intros s; cbn; [reflexivity|].
  destruct (f (s, a)); [|apply IH]. cbn. rewrite IH.
  destruct (filter f _) as [|[m c] t] eqn:E; [reflexivity|]. cbn.
  assert (Hin : In (m, c) (filter f (combine (seq (S s) (length r)) r))) by (rewrite E; now left).
  apply filter_In in Hin as [Hin _]. apply in_combine_l, in_seq in Hin.
  destruct (Nat.leb_spec s m); [reflexivity|lia].
Qed.

Lemma own_cleanups h st b k : inv h st -> nth_error st b = Some k ->
  rev (map snd (sort_actions (actions k))) = rev (live b h).
Proof.
  intros I E. rewrite (g_act _ _ _ _ (i_blk _ _ I _ _ E)). unfold live_pairs, numbered.
  rewrite sort_numbered_filter. reflexivity.
Qed.

Lemma cleanup_due h st : inv h st -> forall b fuel, b < length st -> b < fuel ->
  exists lin, lineage h b lin /\ get_cleanup_code fuel st b = due h lin.
Proof.
  intros I b. induction b as [b IH] using lt_wf_ind; intros [|f] Hb Hf; [lia|].
  destruct (nth_error st b) as [k|] eqn:E.
  2:{ apply nth_error_None in E; lia. }
  cbn [get_cleanup_code]. rewrite E, (own_cleanups _ _ _ _ I E).
  destruct (g_err _ _ _ _ (i_blk _ _ I _ _ E)) as [e [E1 _]].
  pose proof (g_pred _ _ _ _ (i_blk _ _ I _ _ E)) as Hp.
  destruct (pred k) as [p|].
  - specialize (Hp p eq_refl). destruct (IH p Hp f) as [lin [L1 L2]]; [lia|lia|].
    exists (b :: lin). split; [econstructor; eauto|]. cbn. now rewrite L2.
  - exists [b]. split; [econstructor; eauto|]. cbn. reflexivity.
Qed.

Lemma lineage_fun h b l1 l2 : lineage h b l1 -> lineage h b l2 -> l1 = l2.
Proof.
  intros H1; revert l2; induction H1 as [b e H|b p e l H H1 IH]; intros l2 H2; inversion H2; subst.
  - reflexivity.
  - congruence.
  - congruence.
  - f_equal. apply IH. congruence.
Qed.

Definition out_of (st : store A) b : list (item A) :=
  match nth_error st b with Some k => out k | None => [] end.
Definition same_registrations st st' b : Prop :=
  forall k k', nth_error st b = Some k -> nth_error st' b = Some k' ->
    actions k' = actions k /\ last_pos k' = last_pos k /\ err_ret k' = err_ret k /\ pred k' = pred k.

Lemma emit_effect st b l : b < length st ->
  exists st', emit st b l = Ok st' /\ length st' = length st /\
    out_of st' b = out_of st b ++ l /\ (forall b', b' <> b -> nth_error st' b' = nth_error st b').
Proof.
  intros Hb. unfold emit, out_of. destruct (nth_error st b) as [k|] eqn:E.
  2:{ apply nth_error_None in E; lia. }
  eexists; split; [reflexivity|]. split; [now apply put_length|]. split.
  - now rewrite put_same.
  - intros; now apply put_other.
Qed.

Theorem error_branch : forall h st, brun [] h = Ok st -> forall b, b < length (created h) ->
  exists lin ret,
    lineage h b lin /\ error_return_of h b ret /\
    (forall cond fail, exists st',
      brun [] (h ++ [BCheck b cond fail]) = Ok st' /\
      out_of st' b = out_of st b ++ [ICheck cond (opt_list fail ++ due h lin ++ [ret])] /\
      (forall b', b' <> b -> nth_error st' b' = nth_error st b')) /\
    (exists st',
      brun [] (h ++ [BCleanup b]) = Ok st' /\
      out_of st' b = out_of st b ++ map ICode (due h lin) /\
      (forall b', b' <> b -> nth_error st' b' = nth_error st b')) /\
    (exists st',
      brun [] (h ++ [BErrorReturn b]) = Ok st' /\
      out_of st' b = out_of st b ++ map ICode (due h lin ++ [ret]) /\
      (forall b', b' <> b -> nth_error st' b' = nth_error st b')).
Proof.
  intros h st H b Hb. pose proof (inv_run _ _ H) as I. rewrite <- (i_len _ _ I) in Hb.
  destruct (cleanup_due _ _ I b (S (length st)) Hb ltac:(lia)) as [lin [L1 L2]].
  destruct (nth_error st b) as [k|] eqn:E.
  2:{ apply nth_error_None in E; lia. }
  destruct (g_err _ _ _ _ (i_blk _ _ I _ _ E)) as [e [E1 E2]].
  exists lin, (err_ret k). split; [exact L1|]. split; [exists (pred k), e; auto|].
  split; [|split].
  - intros cond fail.
    destruct (emit_effect st b [ICheck cond (opt_list fail ++ due h lin ++ [err_ret k])] Hb)
      as [st' [S1 [S2 [S3 S4]]]].
    exists st'. rewrite brun_app, H. cbn [bind brun bstep]. unfold write_error_check, cleanup_code.
    rewrite E, L2, S1. cbn. auto.
  - destruct (emit_effect st b (map ICode (due h lin)) Hb) as [st' [S1 [S2 [S3 S4]]]].
    exists st'. rewrite brun_app, H. cbn [bind brun bstep]. unfold write_cleanup, cleanup_code.
    rewrite L2, S1. cbn. auto.
  - destruct (emit_effect st b (map ICode (due h lin ++ [err_ret k])) Hb) as [st' [S1 [S2 [S3 S4]]]].
    exists st'. rewrite brun_app, H. cbn [bind brun bstep]. unfold write_error_return, cleanup_code.
    rewrite E, L2, S1. cbn. auto.
Qed.

(** Handle given by the next registration. *)
Theorem handle_number : forall h st, brun [] h = Ok st -> forall b a, b < length (created h) ->
  exists st', add_cleanup_code st b a = Ok (st', S (length (registered b (since_clear b h)))) /\
              brun [] (h ++ [BAdd b a]) = Ok st'.
Proof.
  intros h st H b a Hb. pose proof (inv_run _ _ H) as I. rewrite <- (i_len _ _ I) in Hb.
  unfold add_cleanup_code.
  destruct (nth_error st b) as [k|] eqn:E.
  2:{ apply nth_error_None in E; lia. }
  eexists; split.
  - rewrite (g_pos _ _ _ _ (i_blk _ _ I _ _ E)). reflexivity.
  - rewrite brun_app, H. cbn. unfold add_cleanup_code. rewrite E. cbn.
    rewrite (g_pos _ _ _ _ (i_blk _ _ I _ _ E)). reflexivity.
Qed.

Theorem cancel_exact : forall h st, brun [] h = Ok st -> forall b n, b < length (created h) ->
  let h' := since_clear b h in
  (1 <= n <= length (registered b h') /\ cancelled b h' n = false ->
     exists st', brun [] (h ++ [BCancel b n]) = Ok st' /\ (forall b', out_of st' b' = out_of st b')) /\
  (~ (1 <= n <= length (registered b h') /\ cancelled b h' n = false) ->
     brun [] (h ++ [BCancel b n]) = Err KeyError).
Proof.
  intros h st H b n Hb h'. pose proof (inv_run _ _ H) as I. rewrite <- (i_len _ _ I) in Hb.
  destruct (nth_error st b) as [k|] eqn:E.
  2:{ apply nth_error_None in E; lia. }
  pose proof (g_act _ _ _ _ (i_blk _ _ I _ _ E)) as G3.
  rewrite brun_app, H. cbn [bind brun bstep]. unfold remove_cleanup_code. rewrite E, G3.
  split.
  - intros [Hn Hc]. destruct (numbered_has (registered b h') n Hn) as [a Ha].
    assert (X : existsb (fun x => Nat.eqb (fst x) n) (live_pairs b h) = true).
    { apply existsb_exists. exists (n, a). split; [|apply Nat.eqb_refl].
      apply filter_In. split; [exact Ha|]. cbn [fst]. fold h'. now rewrite Hc. }
    rewrite X. cbn. eexists; split; [reflexivity|]. intros b'. unfold out_of.
    destruct (Nat.eq_dec b' b) as [->|Hne].
    + rewrite put_same by easy. now rewrite E.
    + now rewrite put_other by easy.
  - intros Hn. destruct (existsb _ (live_pairs b h)) eqn:X; [|reflexivity].
    exfalso; apply Hn. apply existsb_exists in X as [[m a] [X1 X2]]. cbn in X2.
    apply Nat.eqb_eq in X2; subst m. apply filter_In in X1 as [X1 X3]. cbn [fst] in X3. fold h' in X1, X3.
    split; [eapply numbered_bound; eauto|]. now destruct (cancelled b h' n).
Qed.

(** Failures: only unknown blocks and dead handles. *)
Theorem failures : forall h e, brun [] h = Err e ->
  exists h1 o h2 st, h = h1 ++ o :: h2 /\ brun [] h1 = Ok st /\ brun [] (h1 ++ [o]) = Err e /\
    ((e = NameError /\ ((exists b, mentions o b /\ length (created h1) <= b) \/
                        (exists q err, o = BNew (Some q) err /\ length (created h1) <= q))) \/
     (e = KeyError /\ exists b n, o = BCancel b n)).
Proof.
  intros h e H. 
  assert (G : exists h1 o h2 st, h = h1 ++ o :: h2 /\ brun [] h1 = Ok st /\ bstep st o = Err e).
  { induction h as [|o r IH] using rev_ind; [discriminate|]. rewrite brun_app in H.
    destruct (brun [] r) as [s|e'] eqn:E.
    - exists r, o, [], s. split; [reflexivity|]. split; [exact E|]. cbn in H.
      destruct (bstep s o); [discriminate|]. cbn in H. congruence.
    - cbn in H. injection H as ->. destruct IH as [h1 [o1 [h2 [st [-> [H1 H2]]]]]]; [easy|].
      exists h1, o1, (h2 ++ [o]), st. now rewrite <- app_assoc. }
  destruct G as [h1 [o [h2 [st [-> [H1 H2]]]]]].
  pose proof (inv_run _ _ H1) as I. pose proof (i_len _ _ I) as L.
  exists h1, o, h2, st. split; [reflexivity|]. split; [exact H1|]. split.
  { rewrite brun_app, H1; cbn. now rewrite H2. }
  rewrite <- L.
  assert (N : forall b, nth_error st b = None -> length st <= b) by (intros b; apply nth_error_None).
  destruct o; cbn [bstep] in H2;
    unfold create, clear_block, emit, add_cleanup_code, remove_cleanup_code, write_error_check,
      write_cleanup, write_error_return, set_error_return, emit in H2.
  1:{ destruct p as [q|]; [|discriminate]. destruct (Nat.ltb_spec q (length st)); [discriminate|].
      injection H2 as <-. left; split; [reflexivity|]. right; exists q, err; auto. }
  all: destruct (nth_error st b) as [k|] eqn:E; cbn in H2; try discriminate.
  all: try (injection H2 as <-; left; split; [reflexivity|]; left; exists b; split; [reflexivity|auto]; fail).
  destruct (existsb _ _); [discriminate|]. injection H2 as <-. right; split; eauto.
Qed.
End P.

(** Text of the branch. *)
Theorem error_branch_text : forall (l : list (item string)) s cond body,
  block_sink l = Ok s ->
  block_sink (l ++ [ICheck cond body]) =
  run s (OWrite ("if (" ++ cond ++ ") {") :: OIndent 4 :: map OWrite body ++ [OUnindent; OWrite "}"]).
Proof.
  intros l s cond body H. unfold block_sink in *. rewrite flat_map_app.
  assert (R : forall o1 o2 t, run t (o1 ++ o2) = bind (run t o1) (fun u => run u o2)).
  { induction o1 as [|o r IH]; intros; cbn; [reflexivity|]. destruct (step t o); cbn; [apply IH|reflexivity]. }
  rewrite R, H. cbn [bind flat_map item_ops]. now rewrite app_nil_r.
Qed.
