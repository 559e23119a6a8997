From Verif.Model Require Import Py PyState Mangle Errors Overloading Module.
From Verif.Spec Require Import OverloadSpec ModuleSpec.
From Verif.Proofs Require Import StrLemmas.
From Coq Require Import Lia.
Open Scope string_scope.
Open Scope list_scope.
Open Scope st_scope.

(** ** Updating a list *)
Lemma upd_length {A} (l : list A) i f : length (upd l i f) = length l.
Proof.
  unfold upd. rewrite app_length. rewrite <- (firstn_skipn i l) at 3. rewrite app_length. f_equal.
  destruct (skipn i l); reflexivity.
Qed.
Lemma upd_nth {A} (l : list A) i f j :
  nth_error (upd l i f) j = if Nat.eqb j i then option_map f (nth_error l i) else nth_error l j.
Proof.
  unfold upd. destruct (Nat.le_gt_cases (length l) i) as [H|H].
  - rewrite firstn_all2 by lia. rewrite skipn_all2 by lia. rewrite app_nil_r.
    destruct (Nat.eqb_spec j i) as [->|N]; [|reflexivity].
    apply nth_error_None in H. now rewrite H.
  - destruct (nth_error l i) as [x|] eqn:E; [|apply nth_error_None in E; lia].
    apply nth_error_split in E. destruct E as (a & b & -> & L). subst i.
    rewrite firstn_app, Nat.sub_diag, firstn_all, firstn_O, app_nil_r.
    rewrite skipn_app, Nat.sub_diag, skipn_all, skipn_O. cbn [app].
    destruct (Nat.eqb_spec j (length a)) as [->|N].
    + rewrite nth_error_app2, Nat.sub_diag by lia. reflexivity.
    + destruct (Nat.lt_ge_cases j (length a)).
      * rewrite !nth_error_app1 by lia. reflexivity.
      * rewrite !nth_error_app2 by lia. destruct (j - length a) eqn:E; [lia|reflexivity].
Qed.

(** ** Shape of the tree of modules *)
Record same_shape (a b : modul) : Prop := {
  sh_parent : m_parent a = m_parent b; sh_name : m_name a = m_name b; sh_ns : m_ns a = m_ns b;
  sh_prefix : m_prefix a = m_prefix b; sh_nsp : m_ns_prefix a = m_ns_prefix b }.
Lemma shape_refl a : same_shape a a.
Proof. split; reflexivity. Qed.
Lemma shape_trans a b c : same_shape a b -> same_shape b c -> same_shape a c.
Proof. intros [] []; split; congruence. Qed.

(** [grows a b]: the modules of [a] are still there, with the same shape and at least the same submodules. *)
Definition grows (a b : list modul) : Prop :=
  forall i m, nth_error a i = Some m -> exists m' l, nth_error b i = Some m' /\ same_shape m m' /\ m_submodules m' = m_submodules m ++ l.
Lemma grows_refl a : grows a a.
Proof. intros i m E. exists m, []. now rewrite app_nil_r. Qed.
Lemma grows_trans a b c : grows a b -> grows b c -> grows a c.
Proof.
  intros G H i m E. destruct (G _ _ E) as (m1 & l1 & E1 & S1 & U1). destruct (H _ _ E1) as (m2 & l2 & E2 & S2 & U2).
  exists m2, (l1 ++ l2). split; [assumption|]. split; [eapply shape_trans; eauto|]. now rewrite U2, U1, app_assoc.
Qed.
Lemma grows_length a b : grows a b -> length a <= length b.
Proof.
  intros G. destruct a as [|x a]; [cbn; lia|].
  destruct (nth_error (x :: a) (length a)) as [m|] eqn:E.
  - destruct (G _ _ E) as (m' & l & E' & _). assert (nth_error b (length a) <> None) as N by congruence.
    apply nth_error_Some in N. cbn [length]. lia.
  - apply nth_error_None in E. cbn in E. lia.
Qed.

Record wf (mods : list modul) : Prop := {
  wf_root : exists m, nth_error mods 0 = Some m /\ m_parent m = None;
  wf_only : forall i m, nth_error mods i = Some m -> m_parent m = None -> i = 0;
  wf_parent : forall i m j, nth_error mods i = Some m -> m_parent m = Some j ->
    j < i /\ exists mj, nth_error mods j = Some mj /\ In i (m_submodules mj);
  wf_sub : forall i m j, nth_error mods i = Some m -> In j (m_submodules m) ->
    exists mj, nth_error mods j = Some mj /\ m_parent mj = Some i;
  wf_nodup : forall i m, nth_error mods i = Some m -> NoDup (m_submodules m) }.

(** A change that keeps the shape of every module, and its submodules, keeps the tree. *)
Definition reshaped (a b : list modul) : Prop :=
  forall i, match nth_error a i, nth_error b i with
            | Some m, Some m' => same_shape m m' /\ m_submodules m' = m_submodules m
            | None, None => True
            | _, _ => False
            end.
Lemma reshaped_refl a : reshaped a a.
Proof. intros i. destruct (nth_error a i); auto using shape_refl. Qed.
Lemma reshaped_sym a b : reshaped a b -> reshaped b a.
Proof.
  intros R i. specialize (R i). destruct (nth_error a i), (nth_error b i); try tauto.
  destruct R as [[] ?]; split; [split|]; congruence.
Qed.
Lemma reshaped_trans a b c : reshaped a b -> reshaped b c -> reshaped a c.
Proof.
  intros R Q i. specialize (R i). specialize (Q i). destruct (nth_error a i), (nth_error b i), (nth_error c i); try tauto.
  destruct R, Q; split; [eapply shape_trans; eauto|congruence].
Qed.
Lemma reshaped_nth a b i m : reshaped a b -> nth_error a i = Some m ->
  exists m', nth_error b i = Some m' /\ same_shape m m' /\ m_submodules m' = m_submodules m.
Proof. intros R E. specialize (R i). rewrite E in R. destruct (nth_error b i); [|tauto]. eexists; split; [reflexivity|tauto]. Qed.
Lemma reshaped_grows a b : reshaped a b -> grows a b.
Proof. intros R i m E. destruct (reshaped_nth _ _ _ _ R E) as (m' & E' & S' & U). exists m', []. now rewrite app_nil_r. Qed.
Lemma reshaped_length a b : reshaped a b -> length a = length b.
Proof. intros R. pose proof (grows_length _ _ (reshaped_grows _ _ R)). pose proof (grows_length _ _ (reshaped_grows _ _ (reshaped_sym _ _ R))). lia. Qed.
Lemma reshaped_wf a b : reshaped a b -> wf a -> wf b.
Proof.
  intros R W. pose proof (reshaped_sym _ _ R) as Q. split.
  - destruct (wf_root _ W) as (m & E & P). destruct (reshaped_nth _ _ _ _ R E) as (m' & E' & [] & U). exists m'. split; congruence.
  - intros i m E P. destruct (reshaped_nth _ _ _ _ Q E) as (m' & E' & [] & U). eapply (wf_only _ W); eauto; congruence.
  - intros i m j E P. destruct (reshaped_nth _ _ _ _ Q E) as (m' & E' & [] & U).
    destruct (wf_parent _ W i m' j E') as (L & mj & Ej & I); [congruence|]. split; [assumption|].
    destruct (reshaped_nth _ _ _ _ R Ej) as (mj' & Ej' & _ & Uj). exists mj'. split; [assumption|]. now rewrite Uj.
  - intros i m j E I. destruct (reshaped_nth _ _ _ _ Q E) as (m' & E' & [] & U). rewrite <- U in I.
    destruct (wf_sub _ W i m' j E' I) as (mj & Ej & P). destruct (reshaped_nth _ _ _ _ R Ej) as (mj' & Ej' & [] & Uj).
    exists mj'. split; congruence.
  - intros i m E. destruct (reshaped_nth _ _ _ _ Q E) as (m' & E' & _ & U). rewrite <- U. eapply (wf_nodup _ W); eauto.
Qed.

(** [upd] with a function that keeps the shape. *)
Definition keeps (f : modul -> modul) : Prop := forall m, same_shape m (f m) /\ m_submodules (f m) = m_submodules m.
Lemma keeps_upd mods i f : keeps f -> reshaped mods (upd mods i f).
Proof.
  intros K j. rewrite upd_nth. destruct (Nat.eqb_spec j i) as [->|N].
  - destruct (nth_error mods i) as [m|]; cbn [option_map]; [apply K|exact Logic.I].
  - destruct (nth_error mods j); auto using shape_refl.
Qed.
Lemma keeps_dict (d : modul -> dict nat) : keeps (fun m => with_dict (d m) m).
Proof. intros m; split; [split|]; reflexivity. Qed.
Lemma keeps_functions l : keeps (with_functions l).
Proof. intros m; split; [split|]; reflexivity. Qed.
Lemma keeps_types l : keeps (with_types l).
Proof. intros m; split; [split|]; reflexivity. Qed.
Lemma keeps_transform l : keeps (with_transform l).
Proof. intros m; split; [split|]; reflexivity. Qed.

(** ** Containment *)
Lemma contains_le mods a i : wf mods -> contains mods a i -> a <= i.
Proof. intros W; induction 1 as [|a i m j E P _ IH]; [lia|]. destruct (wf_parent _ W _ _ _ E P). lia. Qed.
Lemma contains_valid mods a i : wf mods -> contains mods a i -> i < length mods -> a < length mods.
Proof. intros W H L. apply contains_le in H; [lia|assumption]. Qed.
Lemma enclosing_contains mods (W : wf mods) : forall fuel i a, i < fuel -> i < length mods ->
  (In a (enclosing fuel mods i) <-> contains mods a i).
Proof.
  induction fuel as [|fuel IH]; intros i a L V; [lia|]. cbn [enclosing In].
  destruct (nth_error mods i) as [m|] eqn:E; [|apply nth_error_None in E; lia].
  destruct (m_parent m) as [j|] eqn:P.
  - destruct (wf_parent _ W _ _ _ E P) as (Lj & mj & Ej & _).
    rewrite (IH j a) by lia. split.
    + intros [<-|H]; [constructor|]. eapply ct_parent; eauto.
    + intros H. inversion H as [|? ? m' j' E' P' H']; subst; [now left|]. right. rewrite E in E'. injection E' as <-.
      rewrite P in P'. now injection P' as <-.
  - split.
    + intros [<-|[]]. constructor.
    + intros H. inversion H as [|? ? m' j' E' P' H']; subst; [now left|]. congruence.
Qed.
Lemma chain_contains mods i a : wf mods -> i < length mods -> (In a (chain mods i) <-> contains mods a i).
Proof. intros W L. apply enclosing_contains; auto. Qed.

Lemma contains_grows mods mods' a i : wf mods -> grows mods mods' -> i < length mods -> (contains mods a i <-> contains mods' a i).
Proof.
  intros W G L. split; intros H.
  - induction H as [|a i m j E P _ IH]; [constructor|]. destruct (G _ _ E) as (m' & l & E' & Sh & _).
    eapply ct_parent; [exact E'|rewrite <- (sh_parent _ _ Sh); exact P|]. apply IH. destruct (wf_parent _ W _ _ _ E P). lia.
  - induction H as [|a i m j E P _ IH]; [constructor|].
    destruct (nth_error mods i) as [m0|] eqn:E0; [|apply nth_error_None in E0; lia].
    destruct (G _ _ E0) as (m' & l & E' & Sh & _). rewrite E in E'. injection E' as <-.
    rewrite <- (sh_parent _ _ Sh) in P. eapply ct_parent; [exact E0|exact P|]. apply IH. destruct (wf_parent _ W _ _ _ E0 P). lia.
Qed.

(** ** Registering names *)
Lemma lookup_set_in k v i w a k' : lookup a k' (set_in k v i w) =
  if (Nat.eqb a i && String.eqb k k' && (a <? length (w_mods w))%nat)%bool then Some v else lookup a k' w.
Proof.
  unfold lookup, set_in, upd_mod, set_mods. cbn [w_mods]. rewrite upd_nth.
  destruct (Nat.eqb_spec a i) as [->|N]; [|reflexivity]. cbn [andb].
  destruct (nth_error (w_mods w) i) as [m|] eqn:E; cbn [option_map].
  - assert (i < length (w_mods w)) as L by (apply nth_error_Some; congruence). apply Nat.ltb_lt in L. rewrite L, andb_true_r.
    destruct (String.eqb_spec k k') as [->|N].
    + cbn [m_dict with_dict]. apply dict_get_set_same.
    + cbn [m_dict with_dict]. now apply dict_get_set_other.
  - apply nth_error_None in E. apply Nat.ltb_ge in E. rewrite E, andb_false_r. reflexivity.
Qed.
Lemma set_in_reshaped k v i w : reshaped (w_mods w) (w_mods (set_in k v i w)).
Proof. apply keeps_upd, (keeps_dict (fun m => dict_set (m_dict m) k v)). Qed.

Definition in_nat (a : nat) (l : list nat) : bool := existsb (Nat.eqb a) l.
Lemma in_nat_In a l : in_nat a l = true <-> In a l.
Proof.
  unfold in_nat. rewrite existsb_exists. split.
  - intros (x & I & E). apply Nat.eqb_eq in E. now subst.
  - intros I. exists a. split; [assumption|apply Nat.eqb_refl].
Qed.
Lemma fold_set_in n v js : forall w,
  let w' := fold_left (fun w j => set_in n v j w) js w in
  reshaped (w_mods w) (w_mods w') /\
  (w_section w' = w_section w /\ w_includes w' = w_includes w /\ w_once w' = w_once w /\ w_log w' = w_log w) /\
  forall a k, lookup a k w' = if (in_nat a js && String.eqb n k && (a <? length (w_mods w))%nat)%bool then Some v else lookup a k w.
Proof.
  induction js as [|j js IH]; intros w; cbn [fold_left].
  - split; [apply reshaped_refl|]. split; [auto|]. intros a k. reflexivity.
  - destruct (IH (set_in n v j w)) as (R & (F1 & F2 & F3 & F4) & H). split; [|split].
    + eapply reshaped_trans; [apply set_in_reshaped|exact R].
    + rewrite F1, F2, F3, F4. repeat split; reflexivity.
    + intros a k. rewrite H, lookup_set_in. rewrite <- (reshaped_length _ _ (set_in_reshaped n v j w)).
      cbn [in_nat existsb]. fold (in_nat a js).
      destruct (Nat.eqb a j), (in_nat a js), (String.eqb n k), (a <? length (w_mods w))%nat; reflexivity.
Qed.

Lemma register_type_ok i name full v w : wf (w_mods w) -> i < length (w_mods w) ->
  exists w', register_type i name full v w = (w', Ok tt) /\ reshaped (w_mods w) (w_mods w') /\
  (w_section w' = w_section w /\ w_includes w' = w_includes w /\ w_once w' = w_once w /\ w_log w' = w_log w) /\
  forall a k, ((exists n, name = Some n /\ n <> "" /\ n = k /\ a = i) \/ (exists n, full = Some n /\ n <> "" /\ n = k /\ contains (w_mods w) a i) ->
                 lookup a k w' = Some v) /\
              (~ ((exists n, name = Some n /\ n <> "" /\ n = k /\ a = i) \/ (exists n, full = Some n /\ n <> "" /\ n = k /\ contains (w_mods w) a i)) ->
                 lookup a k w' = lookup a k w).
Proof.
  intros W L. unfold register_type.
  set (w1 := match name with Some n => if String.eqb n "" then w else set_in n v i w | None => w end).
  assert (H1 : reshaped (w_mods w) (w_mods w1) /\
     (w_section w1 = w_section w /\ w_includes w1 = w_includes w /\ w_once w1 = w_once w /\ w_log w1 = w_log w) /\
     forall a k, ((exists n, name = Some n /\ n <> "" /\ n = k /\ a = i) -> lookup a k w1 = Some v) /\
                 (~ (exists n, name = Some n /\ n <> "" /\ n = k /\ a = i) -> lookup a k w1 = lookup a k w)).
  { unfold w1. destruct name as [n|].
    - destruct (String.eqb_spec n "") as [->|N].
      + split; [apply reshaped_refl|]. split; [auto|]. intros a k. split; [|reflexivity]. intros (n & E & N & _). congruence.
      + split; [apply set_in_reshaped|]. split; [cbn; auto|]. intros a k. rewrite lookup_set_in. split.
        * intros (n' & E & _ & <- & ->). injection E as <-. rewrite Nat.eqb_refl, String.eqb_refl.
          apply Nat.ltb_lt in L. rewrite L. reflexivity.
        * intros H. destruct (Nat.eqb_spec a i) as [->|Na]; [|reflexivity]. cbn [andb].
          destruct (String.eqb_spec n k) as [->|Nk]; [|reflexivity]. exfalso. apply H. eauto 6.
    - split; [apply reshaped_refl|]. split; [auto|]. intros a k. split; [|reflexivity]. intros (n & E & _). congruence. }
  destruct H1 as (R1 & F1 & L1).
  destruct full as [n|].
  - destruct (String.eqb_spec n "") as [->|N].
    + eexists; split; [reflexivity|]. split; [exact R1|]. split; [exact F1|]. intros a k. destruct (L1 a k) as [A B]. split.
      * intros [H|(n & E & N & _)]; [auto|congruence].
      * intros H. apply B. tauto.
    + destruct (fold_set_in n v (chain (w_mods w) i) w1) as (R2 & (G1 & G2 & G3 & G4) & L2).
      eexists; split; [reflexivity|]. split; [eapply reshaped_trans; eauto|]. split.
      { destruct F1 as (A & B & C & D). repeat split; congruence. }
      intros a k. rewrite L2. rewrite <- (reshaped_length _ _ R1). split.
      * intros H. destruct ((in_nat a (chain (w_mods w) i) && String.eqb n k && (a <? length (w_mods w))%nat)%bool) eqn:E; [reflexivity|].
        destruct H as [H|(n' & E' & _ & <- & C)].
        -- apply L1. exact H.
        -- injection E' as <-. exfalso. apply (chain_contains _ _ _ W L) in C. pose proof C as C'. apply in_nat_In in C'. rewrite C', String.eqb_refl in E.
           cbn [andb] in E. apply Nat.ltb_ge in E. apply (chain_contains _ _ _ W L) in C. apply (contains_valid _ _ _ W C) in L. lia.
      * intros H. destruct ((in_nat a (chain (w_mods w) i) && String.eqb n k && (a <? length (w_mods w))%nat)%bool) eqn:E.
        -- exfalso. apply H. right. apply andb_prop in E as [E _]. apply andb_prop in E as [E K]. apply in_nat_In in E. apply String.eqb_eq in K.
           exists n. repeat split; auto. now apply (chain_contains _ _ _ W L).
        -- apply L1. tauto.
  - eexists; split; [reflexivity|]. split; [exact R1|]. split; [exact F1|]. intros a k. destruct (L1 a k) as [A B]. split.
    + intros [H|(n & E & _)]; [auto|congruence].
    + intros H. apply B. tauto.
Qed.
