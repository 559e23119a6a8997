(** Reference counts of wrappers, and what calls answer. *)
From Verif.Model Require Import Py SharedPtr.
From Verif.Spec Require Import SharedPtrSpec.
From Verif.Proofs Require Import SharedPtrProofs SharedPtrInv SharedPtrSteps SharedPtrTop.
From Coq Require Import Lia.
Open Scope list_scope.

Lemma copy_wraps p s s' : copy_ptr p s = Some s' -> s_wraps s' = s_wraps s.
Proof. destruct p as [i|]; cbn; [|now intros [= <-]]. destruct (nth_error _ i) as [o|]; [|discriminate]. destruct (o_alive o); [|discriminate]. now intros [= <-]. Qed.
Lemma drop_wraps p s s' : drop_ptr p s = Some s' -> s_wraps s' = s_wraps s.
Proof.
  destruct p as [i|]; cbn; [|now intros [= <-]]. destruct (nth_error _ i) as [o|]; [|discriminate]. destruct (o_alive o); [|discriminate].
  destruct (o_count o) as [|[|n]]; [discriminate| |]; now intros [= <-].
Qed.
Lemma copy_all_wraps l : forall s s', copy_all l s = Some s' -> s_wraps s' = s_wraps s.
Proof. induction l as [|p l IH]; cbn; intros s s' H; [now injection H as <-|]. apply bind_some in H. destruct H as (t & H & K). apply IH in K. rewrite K. now apply copy_wraps in H. Qed.
Lemma drop_all_wraps l : forall s s', drop_all l s = Some s' -> s_wraps s' = s_wraps s.
Proof. induction l as [|p l IH]; cbn; intros s s' H; [now injection H as <-|]. apply bind_some in H. destruct H as (t & H & K). apply IH in K. rewrite K. now apply drop_wraps in H. Qed.
Lemma convert_wraps l : forall s s' ps ok, convert l s = Some (s', ps, ok) -> s_wraps s' = s_wraps s.
Proof.
  induction l as [|x l IH]; cbn [convert]; intros s s' ps ok H; [now injection H as <-|]. apply bind_some in H. destruct H as (v & _ & H). destruct v as [p|]; [|now injection H as <-].
  apply bind_some in H. destruct H as (t & Hc & H). apply bind_some in H. destruct H as ([[t2 qs] k] & H & [= <- <- <-]). apply IH in H. rewrite H. now apply copy_wraps in Hc.
Qed.
Lemma cact_wraps args c s s' : run_cact args c s = Some s' -> s_wraps s' = s_wraps s.
Proof.
  destruct c as [k|a|h]; cbn [run_cact].
  - intros H. apply bind_some in H. destruct H as (t & H & [= <-]). now apply copy_wraps in H.
  - now intros [= <-].
  - intros H. now apply drop_wraps in H.
Qed.
Lemma cacts_wraps args l : forall s s', run_cacts args l s = Some s' -> s_wraps s' = s_wraps s.
Proof. induction l as [|c l IH]; cbn; intros s s' H; [now injection H as <-|]. apply bind_some in H. destruct H as (t & H & K). apply IH in K. rewrite K. now apply cact_wraps in H. Qed.
Lemma returned_wraps args r s s' p : returned args r s = Some (s', p) -> s_wraps s' = s_wraps s.
Proof.
  destruct r as [| |k|h|a]; cbn [returned]; try (now intros [= <- <-]).
  - intros H. apply bind_some in H. destruct H as (t & H & [= <- <-]). now apply copy_wraps in H.
  - intros H. apply bind_some in H. destruct H as (t & H & [= <- <-]). now apply copy_wraps in H.
Qed.
Lemma refs_eq s s' j : s_wraps s' = s_wraps s -> references s' j = references s j.
Proof. unfold references. now intros ->. Qed.
Lemma refs_set s i w w' j : nth_error (s_wraps s) i = Some w -> references (set_wrap s i w') j = if Nat.eqb i j then (if w_alive w' then w_refs w' else 0) else references s j.
Proof.
  intros H. unfold references. cbn [set_wrap s_wraps]. destruct (Nat.eqb_spec i j) as [<-|Ne]; [now rewrite (replace_same _ _ _ _ H)|]. rewrite replace_other by congruence. reflexivity.
Qed.
Lemma refs_add s w j : references (add_wrap s w) j = if Nat.eqb (length (s_wraps s)) j then (if w_alive w then w_refs w else 0) else references s j.
Proof.
  unfold references. cbn [add_wrap s_wraps]. destruct (Nat.eqb_spec (length (s_wraps s)) j) as [<-|Ne]; [rewrite nth_error_app2, Nat.sub_diag by lia; reflexivity|].
  destruct (Nat.lt_ge_cases j (length (s_wraps s))) as [L|L]; [now rewrite nth_error_app1|]. rewrite (proj2 (nth_error_None _ _)) by (rewrite app_length; cbn; lia).
  now rewrite (proj2 (nth_error_None _ _)) by lia.
Qed.
Lemma refs_beyond s j : length (s_wraps s) <= j -> references s j = 0.
Proof. intros L. unfold references. now rewrite (proj2 (nth_error_None _ _)). Qed.
Lemma move_refs i p s s' j : move_to i p s = Some s' -> references s' j = references s j.
Proof.
  unfold move_to. destruct (nth_error (s_wraps s) i) as [w|] eqn:Hw; [|discriminate]. destruct (w_obj w) as [|old]; [discriminate|]. intros H. apply drop_wraps in H.
  rewrite (refs_eq _ _ j H), (refs_set _ _ _ _ _ Hw). cbn. destruct (Nat.eqb_spec i j) as [<-|Ne]; [|reflexivity]. unfold references. now rewrite Hw.
Qed.

Section Refs.
  Variable std_map : bool.
  Lemma wrap_refs p s s' a j : wrap_result std_map p s = Some (s', a) -> references s' j = references s j + match a with PWrap i => if Nat.eqb i j then 1 else 0 | _ => 0 end.
  Proof.
    destruct p as [o|]; cbn [wrap_result]; [|intros [= <- <-]; lia]. destruct (if std_map then _ else _) as [i|].
    - intros H. apply bind_some in H. destruct H as (t & H & [= <- <-]). unfold incref in H. apply bind_some in H. destruct H as (w & Hw & H). destruct (w_alive w) eqn:Lw; [|discriminate]. injection H as <-.
      rewrite (refs_set _ _ _ _ _ Hw). cbn. destruct (Nat.eqb_spec i j) as [<-|Ne]; [|lia]. unfold references. rewrite Hw, Lw. lia.
    - change (allocate s) with (fst (allocate s), length (s_wraps s)). cbv zeta iota beta. rewrite allocate_ok. cbn [bind]. intros H. apply bind_some in H. destruct H as (t & H & [= <- <-]).
      unfold assign in H. apply bind_some in H. destruct H as (u & Hc & H). apply (move_refs _ _ _ _ j) in H.
      assert (E : forall x, references (register std_map x (length (s_wraps s)) t) j = references t j) by (unfold register; now destruct std_map).
      rewrite E, H, (refs_eq _ _ j (copy_wraps _ _ _ Hc)), refs_add. cbn. destruct (Nat.eqb_spec (length (s_wraps s)) j) as [<-|Ne]; [|lia]. now rewrite refs_beyond.
  Qed.
  Lemma call_refs args body r s s' a j : call std_map args body r s = Some (s', a) -> references s' j = references s j + match a with PWrap i => if Nat.eqb i j then 1 else 0 | _ => 0 end.
  Proof.
    unfold call. destruct (forallb parses args); [|intros [= <- <-]; lia]. intros H. apply bind_some in H. destruct H as ([[s1 ls] ok] & H1 & H). apply convert_wraps in H1. destruct ok.
    - apply bind_some in H. destruct H as (s2 & H2 & H). apply bind_some in H. destruct H as (s3 & H3 & H). apply bind_some in H. destruct H as ([s4 p] & H4 & H).
      apply bind_some in H. destruct H as (s5 & H5 & H). apply bind_some in H. destruct H as ([s6 b] & H6 & H). apply bind_some in H. destruct H as (s7 & H7 & H).
      apply bind_some in H. destruct H as (s8 & H8 & [= <- <-]). apply copy_all_wraps in H2. apply cacts_wraps in H3. apply returned_wraps in H4. apply drop_all_wraps in H5, H8. apply drop_wraps in H7.
      rewrite (refs_eq _ _ j H8), (refs_eq _ _ j H7). assert (E5 : references s5 j = references s j) by (apply refs_eq; congruence). rewrite <- E5.
      destruct r; try (apply (wrap_refs _ _ _ _ j) in H6; exact H6). injection H6 as <- <-. lia.
    - apply bind_some in H. destruct H as (s2 & H2 & [= <- <-]). apply drop_all_wraps in H2. rewrite (refs_eq _ _ j (eq_trans H2 H1)). lia.
  Qed.
  Lemma step_refs made s a s' r j : history std_map made s -> legal made s a -> step std_map a s = Some (s', r) -> references s' j = balance a r j (references s j).
  Proof.
    intros H L E. pose proof (history_good std_map made s H) as [V N]. destruct a as [|i b|i|i|args body q|body]; cbn [step legal] in *.
    - injection E as <- <-. unfold tp_new. cbn [fst balance]. rewrite refs_add. cbn. destruct (Nat.eqb_spec (length (s_wraps s)) j) as [<-|Ne]; [|lia]. now rewrite refs_beyond.
    - apply bind_some in E. destruct E as (t & E & [= <- <-]). unfold tp_init in E. cbn [make] in E. apply (move_refs _ _ _ _ j) in E. rewrite E. cbn. unfold references. cbn. lia.
    - apply bind_some in E. destruct E as (t & E & [= <- <-]). unfold incref in E. apply bind_some in E. destruct E as (w & Hw & E). destruct (w_alive w) eqn:Lw; [|discriminate]. injection E as <-.
      rewrite (refs_set _ _ _ _ _ Hw). cbn. destruct (Nat.eqb_spec i j) as [<-|Ne]; [|lia]. unfold references. rewrite Hw, Lw. lia.
    - apply bind_some in E. destruct E as (t & E & [= <- <-]). destruct L as (w & Hw & Lw). unfold decref in E. rewrite Hw in E. cbn [bind] in E. rewrite Lw in E. cbn [balance].
      destruct (i_sane _ _ _ V i w Hw Lw) as [_ Pw].
      assert (D : dealloc std_map i s = Some t -> w_refs w = 1 -> references t j = references s j - (if Nat.eqb i j then 1 else 0)).
      { intros D R1. destruct (inv_dealloc std_map made i s [] w N V Hw Lw) as (t' & Ed & _ & _ & _ & _ & W & Wi & _). rewrite D in Ed. injection Ed as <-. unfold references.
        destruct (Nat.eqb_spec i j) as [<-|Ne]; [rewrite Wi, Hw, Lw, R1; reflexivity|]. rewrite W by congruence. lia. }
      destruct (w_refs w) as [|[|n]] eqn:Rw; [lia|auto|]. injection E as <-. rewrite (refs_set _ _ _ _ _ Hw). cbn [w_alive w_refs]. destruct (Nat.eqb_spec i j) as [<-|Ne]; [|lia].
      unfold references. rewrite Hw, Lw, Rw. lia.
    - now apply (call_refs _ _ _ _ _ _ j) in E.
    - apply bind_some in E. destruct E as (t & E & [= <- <-]). apply cacts_wraps in E. cbn [balance]. rewrite (refs_eq _ _ j E). lia.
  Qed.
  Lemma live_refs made s j : history std_map made s -> live s j <-> 0 < references s j.
  Proof.
    intros H. pose proof (history_good std_map made s H) as [V _]. unfold live, references. split.
    - intros (w & Hw & Lw). rewrite Hw, Lw. now apply (i_sane _ _ _ V j w).
    - destruct (nth_error (s_wraps s) j) as [w|]; [|lia]. destruct (w_alive w) eqn:Lw; [eauto|lia].
  Qed.

  (** ** Calls *)
  Lemma takes_spec args : forallb parses args && forallb (fun x => match snd x with AOther => false | _ => true end) args = true <-> Forall takes args.
  Proof.
    induction args as [|[p a] l IH]; cbn [forallb]; [split; [constructor|reflexivity]|]. rewrite Forall_cons_iff, <- IH, !andb_true_iff. unfold parses, takes. cbn [fst snd].
    destruct a; intuition congruence.
  Qed.
  Lemma call_history made s args body r s' a : history std_map made s -> legal made s (Call args body r) -> call std_map args body r s = Some (s', a) ->
    (~ Forall takes args /\ a = PTypeError /\ s_kept s' = s_kept s /\ s_wraps s' = s_wraps s /\ s_registry s' = s_registry s /\ length (s_objs s') = length (s_objs s)) \/
    (Forall takes args /\ a <> PTypeError /\ exists locals s2 s3 s4 p, Forall2 (holds s) args locals /\ same_rest s s2 /\ run_cacts locals body s2 = Some s3 /\ returned locals r s3 = Some (s4, p) /\
      calm s s3 /\ calm s4 s' /\ s_kept s' = s_kept s4 /\ s_kept s4 = s_kept s3 /\
      match r with
      | CVoid => a = PNone
      | _ => match p with None => a = PNone | Some o => exists i, a = PWrap i /\ refers s' o i /\ (std_map = true -> find_entry (s_registry s') (get p s') = Some i) end
      end).
  Proof.
    intros H L E. destruct (call_ok std_map made args body r s (history_good _ _ _ H) L) as (s1 & b & E' & _ & _ & X). rewrite E in E'. injection E' as <- <-. destruct X as [(B & X)|X].
    - left. split; [|exact X]. intros T. apply takes_spec in T. congruence.
    - right. split; [|split; [|exact X]].
      + apply takes_spec. apply not_false_iff_true. intros B. destruct X as (ls & s2 & s3 & s4 & p & Hl & _ & _ & _ & _ & _ & _ & _ & Z).
        unfold call in E. destruct (forallb parses args) eqn:Pa.
        * cbn [andb] in B. clear - B Hl. induction Hl as [|[q x] y l l' Hx Hl IH]; cbn in B; [discriminate|]. apply andb_false_iff in B. destruct B as [B|B]; [|auto]. destruct x; try discriminate. destruct Hx.
        * injection E as <- <-. destruct r; try discriminate; destruct p; try discriminate; destruct Z as (i & Z & _); discriminate.
      + destruct X as (ls & s2 & s3 & s4 & p & _ & _ & _ & _ & _ & _ & _ & _ & Z). intros ->. destruct r; try discriminate; destruct p; try discriminate; destruct Z as (i & Z & _); discriminate.
  Qed.
End Refs.
