(** The invariant of programs with shared pointers. *)
From Verif.Model Require Import Py SharedPtr.
From Verif.Spec Require Import SharedPtrSpec.
From Verif.Proofs Require Import SharedPtrProofs.
From Coq Require Import Lia.
Open Scope list_scope.

Definition registered (s : state) : Prop :=
  forall a i, In (a, i) (s_registry s) -> exists w o x, nth_error (s_wraps s) i = Some w /\ w_alive w = true /\ w_obj w = Ptr (Some o) /\
    nth_error (s_objs s) o = Some x /\ o_addr x = a.
Definition unlisted (s : state) (i : nat) : Prop := forall a, ~ In (a, i) (s_registry s).
Record inv (made : list nat) (s : state) (ex : list (option nat)) : Prop := mk_inv {
  i_counted : counted s ex; i_placed : placed s; i_sane : sane s; i_registered : registered s;
  i_made : forall i, In i made -> i < length (s_wraps s) /\ unlisted s i }.

Lemma same_registered s s' : same_rest s s' -> registered s -> registered s'.
Proof.
  intros R Rg a i. pose proof R as (E1 & E2 & E3 & E4 & _). rewrite E1, E3. intros H. destruct (Rg a i H) as (w & o & x & Hw & Lw & Ow & Hx & Ax).
  exists w, o. assert (L : o < length (s_objs s')) by (rewrite E4; apply nth_error_Some; congruence). apply nth_error_Some in L.
  destruct (nth_error (s_objs s') o) as [x'|] eqn:Ex; [|congruence]. exists x'. repeat split; auto.
  pose proof (same_get s s' (Some o) R) as G. cbn in G. now rewrite Ex, Hx, Ax in G.
Qed.
Lemma same_inv made s s' ex ex' : same_rest s s' -> counted s' ex' -> inv made s ex -> inv made s' ex'.
Proof.
  intros R C [_ P S Rg M]. constructor; [assumption| | | |].
  - eapply same_placed; eassumption.
  - eapply same_sane; eassumption.
  - eapply same_registered; eassumption.
  - destruct R as (E1 & _ & E3 & _). unfold unlisted. rewrite E1, E3. exact M.
Qed.
Lemma inv_perm made s ex ex' : (forall o, occ o ex = occ o ex') -> inv made s ex -> inv made s ex'.
Proof. intros E [C P S Rg M]. constructor; auto. eapply counted_perm; eassumption. Qed.
Lemma inv_copy made p s ex : inv made s ex -> (forall o, p = Some o -> 0 < holders o s + occ o ex) ->
  exists s', copy_ptr p s = Some s' /\ inv made s' (p :: ex) /\ same_rest s s' /\ s_log s' = s_log s.
Proof. intros V A. destruct (copy_ok p s ex (i_counted _ _ _ V) A) as (s' & E & C & R & L). exists s'. split; [assumption|]. split; [eapply same_inv; eassumption|auto]. Qed.
Lemma inv_drop made p s ex : inv made s (p :: ex) -> exists s', drop_ptr p s = Some s' /\ inv made s' ex /\ same_rest s s'.
Proof. intros V. destruct (drop_ok p s ex (i_counted _ _ _ V)) as (s' & E & C & R & _). exists s'. split; [assumption|]. split; [eapply same_inv; eassumption|assumption]. Qed.
Lemma inv_drop_all made l s ex : inv made s (l ++ ex) -> exists s', drop_all l s = Some s' /\ inv made s' ex /\ same_rest s s'.
Proof. intros V. destruct (drop_all_ok l s ex (i_counted _ _ _ V)) as (s' & E & C & R). exists s'. split; [assumption|]. split; [eapply same_inv; eassumption|assumption]. Qed.
Lemma inv_copy_all made l s ex : inv made s ex -> (forall o, In (Some o) l -> 0 < holders o s + occ o ex) ->
  exists s', copy_all l s = Some s' /\ inv made s' (l ++ ex) /\ same_rest s s'.
Proof. intros V A. destruct (copy_all_ok l s ex (i_counted _ _ _ V) A) as (s' & E & C & R). exists s'. split; [assumption|]. split; [eapply same_inv; eassumption|assumption]. Qed.

(** ** New objects *)
Lemma place_ok s a : place s a <> 0 /\ forall o x, nth_error (s_objs s) o = Some x -> o_alive x = true -> o_addr x <> place s a.
Proof.
  unfold place. destruct (Nat.eqb a 0 || used s a) eqn:B.
  - split; [lia|]. intros o x H L. assert (o_addr x <= list_max (map o_addr (s_objs s))); [|lia].
    assert (F : Forall (fun k => k <= list_max (map o_addr (s_objs s))) (map o_addr (s_objs s))) by now apply list_max_le.
    rewrite Forall_forall in F. apply F. apply in_map. eapply nth_error_In; eassumption.
  - apply orb_false_elim in B as [B1 B2]. apply Nat.eqb_neq in B1. split; [assumption|]. intros o x H L E. unfold used in B2.
    assert (X : existsb (fun o => o_alive o && Nat.eqb (o_addr o) a) (s_objs s) = true); [|congruence].
    apply existsb_exists. exists x. split; [eapply nth_error_In; eassumption|]. rewrite L, E. cbn. apply Nat.eqb_refl.
Qed.
Lemma nth_app_last {A} (l : list A) x j y : nth_error (l ++ [x]) j = Some y -> nth_error l j = Some y \/ j = length l /\ y = x.
Proof.
  intros H. destruct (Nat.lt_ge_cases j (length l)) as [L|L].
  - rewrite nth_error_app1 in H by assumption. now left.
  - rewrite nth_error_app2 in H by assumption. destruct (j - length l) as [|k] eqn:K; cbn in H; [|destruct k; discriminate]. injection H as <-. right. split; [lia|reflexivity].
Qed.
Lemma inv_make made a s ex : inv made s ex -> forall s' o, make a s = (s', o) ->
  inv made s' (Some o :: ex) /\ s_wraps s' = s_wraps s /\ s_kept s' = s_kept s /\ s_registry s' = s_registry s /\ o = length (s_objs s) /\
  (forall j x, nth_error (s_objs s) j = Some x -> nth_error (s_objs s') j = Some x) /\ s_log s' = s_log s /\ length (s_objs s') = S (length (s_objs s)).
Proof.
  intros [(C1 & C2 & C3 & C4) [P1 P2] S Rg M] s' o [= <- <-]. destruct (place_ok s a) as [Q1 Q2].
  assert (Old : forall j x, nth_error (s_objs s) j = Some x -> nth_error (s_objs (add_obj s (mk_cobj (place s a) 1 true))) j = Some x).
  { intros j x H. cbn. rewrite nth_error_app1; [assumption|]. apply nth_error_Some. congruence. }
  assert (Oc : forall o', occ o' (Some (length (s_objs s)) :: ex) = (if Nat.eqb (length (s_objs s)) o' then 1 else 0) + occ o' ex) by (intros o'; now rewrite occ_cons).
  split; [|cbn [add_obj s_wraps s_kept s_registry s_log]; repeat (split; [reflexivity|]); split; [exact Old|split; [reflexivity|cbn; rewrite app_length; cbn; lia]]]. constructor.
  - split; [|split; [|split; [assumption|]]].
    + intros o' y Hy. rewrite Oc. unfold holders, wptrs in *. cbn [add_obj s_objs s_wraps s_kept] in *. apply nth_app_last in Hy. destruct Hy as [Hy|[-> ->]].
      * destruct (Nat.eqb_spec (length (s_objs s)) o') as [E|Ne]; [|exact (C1 o' y Hy)].
        assert (o' < length (s_objs s)) by (apply nth_error_Some; congruence). lia.
      * rewrite Nat.eqb_refl. cbn [o_count o_alive]. specialize (C2 (length (s_objs s)) (Nat.le_refl _)). split; [lia|reflexivity].
    + intros o' L. rewrite Oc. cbn [add_obj s_objs] in L. rewrite app_length in L. cbn in L. destruct (Nat.eqb_spec (length (s_objs s)) o'); [lia|].
      unfold holders, wptrs in *. cbn [add_obj s_wraps s_kept]. specialize (C2 o'). lia.
    + intros o'. cbn [add_obj s_log s_objs]. rewrite C4. split; intros (x & Hx & Lx).
      * exists x. split; [now apply Old|assumption].
      * apply nth_app_last in Hx. destruct Hx as [Hx|[-> ->]]; [eauto|discriminate].
  - split.
    + intros o' x Hx. cbn in Hx. apply nth_app_last in Hx. destruct Hx as [Hx|[-> ->]]; [eauto|exact Q1].
    + intros o1 o2 x1 x2 H1 H2 L1 L2 E. cbn in H1, H2. apply nth_app_last in H1, H2. destruct H1 as [H1|[-> ->]], H2 as [H2|[-> ->]]; cbn in *.
      * eauto.
      * elim (Q2 o1 x1 H1 L1). assumption.
      * elim (Q2 o2 x2 H2 L2). now symmetry.
      * reflexivity.
  - exact S.
  - intros b i H. destruct (Rg b i H) as (w & o' & x & Hw & Lw & Ow & Hx & Ax). exists w, o', x. repeat split; auto.
  - exact M.
Qed.

(** ** Wrappers *)
Lemma wptrs_set s i w' w : nth_error (s_wraps s) i = Some w -> forall o, occ o (wptrs (set_wrap s i w')) + one o (wptr w) = occ o (wptrs s) + one o (wptr w').
Proof.
  intros H o. unfold wptrs. cbn [set_wrap s_wraps]. assert (E : map wptr (replace (s_wraps s) i w') = replace (map wptr (s_wraps s)) i (wptr w')).
  { clear H. generalize (s_wraps s) as l. intros l. revert i. induction l as [|y l IH]; intros [|i]; cbn; [reflexivity|reflexivity|reflexivity|]. now rewrite IH. }
  rewrite E. apply occ_replace. now rewrite nth_error_map, H.
Qed.
Lemma counted_set s i w w' ex ex' : nth_error (s_wraps s) i = Some w ->
  (forall o, one o (wptr w') + occ o ex' = one o (wptr w) + occ o ex) -> counted s ex -> counted (set_wrap s i w') ex'.
Proof.
  intros H E (C1 & C2 & C3 & C4). assert (X : forall o, holders o (set_wrap s i w') + occ o ex' = holders o s + occ o ex).
  { intros o. unfold holders. cbn [set_wrap s_kept]. pose proof (wptrs_set s i w' w H o). specialize (E o). lia. }
  split; [|split; [|split; assumption]].
  - intros o x Hx. rewrite X. now apply C1.
  - intros o L. rewrite X. now apply C2.
Qed.
Lemma set_sane s i w w' : nth_error (s_wraps s) i = Some w -> sane s -> (w_alive w' = true -> w_obj w' <> Raw /\ 0 < w_refs w') -> sane (set_wrap s i w').
Proof.
  intros H S N j x Hx Lx. cbn in Hx. destruct (Nat.eq_dec j i) as [->|Ne].
  - rewrite (replace_same _ _ _ _ H) in Hx. injection Hx as <-. auto.
  - rewrite (replace_other _ _ _ _ Ne) in Hx. eauto.
Qed.
Lemma set_registered s i w w' : nth_error (s_wraps s) i = Some w -> registered s -> (w_alive w' = true /\ w_obj w' = w_obj w \/ unlisted s i) -> registered (set_wrap s i w').
Proof.
  intros H Rg N a j Hj. cbn [set_wrap s_registry s_wraps s_objs] in *. destruct (Rg a j Hj) as (x & o & y & Hx & Lx & Ox & Hy & Ay). destruct (Nat.eq_dec j i) as [->|Ne].
  - destruct N as [[N1 N2]|N]; [|now elim (N a)]. exists w', o, y. rewrite (replace_same _ _ _ _ H). split; [reflexivity|]. split; [assumption|]. split; [congruence|auto].
  - exists x, o, y. rewrite (replace_other _ _ _ _ Ne). auto.
Qed.
Lemma set_made s i w' made : (forall j, In j made -> j < length (s_wraps s) /\ unlisted s j) -> forall j, In j made -> j < length (s_wraps (set_wrap s i w')) /\ unlisted (set_wrap s i w') j.
Proof. intros M j H. cbn. rewrite replace_length. exact (M j H). Qed.

Lemma inv_move made i p s ex w old : inv made s (p :: ex) -> nth_error (s_wraps s) i = Some w -> w_alive w = true -> w_obj w = Ptr old -> unlisted s i ->
  exists s', move_to i p s = Some s' /\ inv made s' ex /\ same_rest (set_wrap s i (mk_wrap (Ptr p) (w_refs w) true)) s'.
Proof.
  intros [C P S Rg M] Hw Lw Ow Un. unfold move_to. rewrite Hw, Ow, Lw.
  assert (V : inv made (set_wrap s i (mk_wrap (Ptr p) (w_refs w) true)) (old :: ex)).
  { constructor; [| exact P | | | apply set_made, M].
    - eapply counted_set; [exact Hw| |exact C]. intros o. rewrite !occ_cons. unfold wptr. cbn [w_alive w_obj]. rewrite Lw, Ow. lia.
    - eapply set_sane; [exact Hw|exact S|]. cbn. intros _. split; [discriminate|]. now apply (S i w Hw).
    - eapply set_registered; [exact Hw|exact Rg|now right]. }
  destruct (inv_drop made old _ ex V) as (s' & -> & V' & R). exists s'. auto.
Qed.

Section Registry.
  Variable std_map : bool.
  Lemma find_in l a i : find_entry l a = Some i -> In (a, i) l.
  Proof. induction l as [|[b j] l IH]; cbn; [discriminate|]. destruct (Nat.eqb_spec b a) as [->|Ne]; [intros [= ->]; now left|auto]. Qed.
  Lemma erase_in l a b i : In (b, i) (erase l a) <-> In (b, i) l /\ b <> a.
  Proof. unfold erase. rewrite filter_In. cbn [fst]. rewrite negb_true_iff, Nat.eqb_neq. reflexivity. Qed.

  Lemma inv_incref made i s ex w : inv made s ex -> nth_error (s_wraps s) i = Some w -> w_alive w = true ->
    exists s', incref i s = Some s' /\ inv made s' ex /\ s' = set_wrap s i (mk_wrap (w_obj w) (S (w_refs w)) true).
  Proof.
    intros [C P S Rg M] Hw Lw. unfold incref. rewrite Hw. cbn [bind]. rewrite Lw. eexists. split; [reflexivity|]. split; [|reflexivity].
    constructor; [| exact P | | | apply set_made, M].
    - eapply counted_set; [exact Hw| |exact C]. intros o. unfold wptr. cbn [w_alive w_obj]. now rewrite Lw.
    - eapply set_sane; [exact Hw|exact S|]. cbn. intros _. split; [now apply (S i w Hw)|lia].
    - eapply set_registered; [exact Hw|exact Rg|left; auto].
  Qed.
  (** tp_dealloc *)
  Lemma inv_dealloc made i s ex w : (std_map = false -> s_registry s = []) -> inv made s ex -> nth_error (s_wraps s) i = Some w -> w_alive w = true ->
    exists s', dealloc std_map i s = Some s' /\ inv made s' ex /\ (forall b j, In (b, j) (s_registry s') <-> In (b, j) (s_registry s) /\ (std_map = true -> b <> match w_obj w with Ptr p => get p s | Raw => 0 end)) /\
      s_kept s' = s_kept s /\ length (s_wraps s') = length (s_wraps s) /\ (forall j, j <> i -> nth_error (s_wraps s') j = nth_error (s_wraps s) j) /\
      nth_error (s_wraps s') i = Some (mk_wrap Raw 0 false) /\ length (s_objs s') = length (s_objs s).
  Proof.
    intros Nr [C P S Rg M] Hw Lw. destruct (S i w Hw Lw) as [Nraw _]. unfold dealloc. rewrite Hw. cbn [bind]. destruct (w_obj w) as [|p] eqn:Ow; [congruence|].
    set (u := unregister std_map (get p s) s).
    assert (Ru : forall b j, In (b, j) (s_registry u) <-> In (b, j) (s_registry s) /\ (std_map = true -> b <> get p s)).
    { intros b j. unfold u, unregister. destruct std_map; cbn [set_registry s_registry].
      - rewrite erase_in. intuition.
      - intuition congruence. }
    assert (Us : s_objs u = s_objs s /\ s_wraps u = s_wraps s /\ s_kept u = s_kept s /\ s_log u = s_log s) by (unfold u, unregister; destruct std_map; auto).
    destruct Us as (U1 & U2 & U3 & U4).
    assert (Un : unlisted u i).
    { intros b Hb. apply Ru in Hb. destruct Hb as [Hb Nb]. destruct (Rg b i Hb) as (w' & o & x & Hw' & _ & Ow' & Hx & Ax). rewrite Hw in Hw'. injection Hw' as <-.
      rewrite Ow in Ow'. injection Ow' as ->. destruct std_map; [|rewrite (Nr eq_refl) in Hb; destruct Hb]. apply (Nb eq_refl). cbn. now rewrite Hx. }
    assert (Hu : nth_error (s_wraps u) i = Some w) by (now rewrite U2).
    assert (Vd : inv made (set_wrap u i (mk_wrap Raw 0 false)) (p :: ex)).
    { constructor.
      - eapply counted_set with (ex := ex); [exact Hu| |].
        + intros o. rewrite occ_cons. unfold wptr. cbn [w_alive]. rewrite Lw, Ow. cbn. lia.
        + destruct C as (C1 & C2 & C3 & C4). unfold counted, holders, wptrs. rewrite U1, U2, U3, U4. auto.
      - unfold placed. cbn [set_wrap s_objs]. rewrite U1. exact P.
      - eapply set_sane; [exact Hu| |discriminate]. unfold sane. rewrite U2. exact S.
      - eapply set_registered; [exact Hu| |now right]. intros b j Hb. apply Ru in Hb. destruct Hb as [Hb _]. rewrite U1, U2. now apply Rg.
      - apply set_made. intros j Hj. rewrite U2. destruct (M j Hj) as [M1 M2]. split; [assumption|]. intros b Hb. apply Ru in Hb. apply (M2 b). tauto. }
    (* dropping the pointer and changing the wrapper commute *)
    assert (Cm : forall q v, drop_ptr q (set_wrap u i v) = bind (drop_ptr q u) (fun s' => Some (set_wrap s' i v))).
    { intros [o|] v; [|reflexivity]. cbn. destruct (nth_error (s_objs u) o) as [x|]; [|reflexivity]. destruct (o_alive x); [|reflexivity]. destruct (o_count x) as [|[|n]]; reflexivity. }
    destruct (inv_drop made p _ ex Vd) as (s' & Ed & V' & R). rewrite Cm in Ed. apply bind_some in Ed. destruct Ed as (s1 & E1 & [= E2]). rewrite E1. cbn [bind]. rewrite E2.
    destruct R as (R1 & R2 & R3 & R4 & _). exists s'. split; [reflexivity|]. split; [assumption|]. rewrite R1, R2, R3, R4. cbn [set_wrap s_wraps s_kept s_registry s_objs]. rewrite U1, U2, U3, replace_length.
    split; [exact Ru|]. split; [reflexivity|]. split; [reflexivity|]. split; [intros j Ne; now apply replace_other|]. split; [now apply (replace_same _ _ _ w)|reflexivity].
  Qed.
End Registry.
