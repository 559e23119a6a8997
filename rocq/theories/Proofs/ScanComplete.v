(** Programs all of whose classes are registered. *)
From Coq Require Import List Arith Lia.
From Verif.Model Require Import Py ScanTypes.
From Verif.Spec Require Import ScanSpec.
From Verif.Proofs Require Import ScanProofs.
Import ListNotations.
Open Scope list_scope.

Lemma fine_mono K l : fine K l -> forall K' : nat -> Prop, (forall n, K n -> K' n) -> fine K' l.
Proof.
  induction 1 as [K l A B C IH]. intros K' M. constructor; [assumption| |].
  - intros c n Hc Hn. destruct (B c n Hc Hn) as [H|H]; [left; now apply M|now right].
  - intros c Hc. apply (IH c Hc). intros n [H|H]; [left; now apply M|now right].
Qed.
Section Complete.
Context (rank : nat -> nat).
Definition refs (c : cls) : list nat := c_bases c ++ c_targets c.
Definition deep (q : list (cls * nat)) : list nat := flat_map numbers (map fst q).
Record good_queue (K : nat -> Prop) (q : list (cls * nat)) : Prop := {
  gq_normal : forall c k, In (c, k) q -> c_ignored c = false /\ c_anonymous c = false /\ c_private c = false;
  gq_refs : forall c k n, In (c, k) q -> In n (refs c) -> K n \/ In n (queue_ids q);
  gq_nested : forall c k, In (c, k) q -> fine (fun n => K n \/ n = c_id c) (c_nested c);
  gq_ranks : forall c k n, In (c, k) q -> In n (refs c) -> In n (queue_ids q) -> rank n < rank (c_id c) <= 9;
  gq_deep : forall c k d scope outer n, In (c, k) q -> declared (c_nested c) (Some (c_id c)) d scope outer -> In n (refs d) -> In n (map c_id scope) -> rank n < rank (c_id d) <= 9;
  gq_counts : exists j a b, q = a ++ b /\ (forall x, In x a -> snd x = j) /\ (forall x, In x b -> snd x = j + 1);
  gq_rank : forall c k, In (c, k) q -> k <= rank (c_id c) }.
Fixpoint good (K : nat -> Prop) (ws : list work) : Prop :=
  match ws with
  | [] => True
  | WQueue _ q :: r => good_queue K q /\ good (fun n => K n \/ In n (deep q)) r
  | WConversions c :: r => (forall t, In t (c_targets c) -> K t) /\ good K r
  end.
Lemma good_queue_mono (K K' : nat -> Prop) q : (forall n, K n -> K' n) -> good_queue K q -> good_queue K' q.
Proof.
  intros M [A B C D F G H]. constructor; try assumption.
  - intros c k n Hc Hn. destruct (B c k n Hc Hn) as [X|X]; [left; now apply M|now right].
  - intros c k Hc. apply fine_mono with (fun n => K n \/ n = c_id c); [now apply (C c k)|]. intros n [X|X]; [left; now apply M|now right].
Qed.
Lemma good_mono ws : forall K K' : nat -> Prop, (forall n, K n -> K' n) -> good K ws -> good K' ws.
Proof.
  induction ws as [|[o q|c] r IH]; intros K K' M; cbn [good]; [auto| |].
  - intros [A B]. split; [now apply good_queue_mono with K|]. apply (IH (fun n => K n \/ In n (deep q))); [|assumption]. intros n [X|X]; [left; now apply M|now right].
  - intros [A B]. split; [auto|]. now apply (IH K).
Qed.
Lemma declared_numbers l o c scope outer : declared l o c scope outer -> In (c_id c) (flat_map numbers l).
Proof.
  induction 1 as [l o c Hc|l o d c scope outer Hd H IH]; apply in_flat_map.
  - exists c. split; [assumption|]. rewrite numbers_nested. now left.
  - exists d. split; [assumption|]. rewrite numbers_nested. now right.
Qed.
Lemma in_new l c k : In (c, k) (new_queue l) <-> k = 0 /\ In c l.
Proof.
  unfold new_queue. rewrite in_map_iff. split; [intros (d & H & Hi); injection H as <- <-; now split|]. intros [-> H]. now exists c.
Qed.
Lemma ids_new l : queue_ids (new_queue l) = map c_id l.
Proof. unfold queue_ids, new_queue. rewrite map_map. reflexivity. Qed.
Definition ranked (o : option nat) (l : list cls) : Prop :=
  forall c scope outer n, declared l o c scope outer -> In n (refs c) -> In n (map c_id scope) -> rank n < rank (c_id c) <= 9.
Lemma good_new K o l : fine K l -> ranked o l -> good_queue K (new_queue l).
Proof.
  intros F R. inversion_clear F as [? A B C]. constructor.
  - intros c k H. apply in_new in H. now apply A.
  - intros c k n H Hn. apply in_new in H. rewrite ids_new. now apply (B c n).
  - intros c k H. apply in_new in H. now apply C.
  - intros c k n H Hn Hi. apply in_new in H. rewrite ids_new in Hi. apply (R c l o n); [now constructor|assumption..].
  - intros c k d scope outer n H Hd Hn Hi. apply in_new in H. apply (R d scope outer n); [|assumption..]. now apply declared_inside with c.
  - exists 0, (new_queue l), []. rewrite app_nil_r. split; [reflexivity|]. split; [|intros x []]. intros [c k] H. now apply in_new in H.
  - intros c k H. apply in_new in H. destruct H as [-> _]. lia.
Qed.
Lemma ranked_nested K q c k : good_queue K q -> In (c, k) q -> ranked (Some (c_id c)) (c_nested c).
Proof. intros G H d scope outer n. now apply (gq_deep _ _ G c k). Qed.
Definition quiet (e : event) : Prop := match e with EMissingBase _ _ | EMissingTarget _ _ => False | _ => True end.
Definition inv2 (s : scan) : Prop := good (fun n => In n (s_registered s)) (s_work s) /\ Forall quiet (s_events s).

(** What the front class of a good queue meets. *)
Lemma front_look reg o c k q v : good_queue (fun n => In n reg) ((c, k) :: q) -> looked reg o (queue_ids q) c v ->
  v = Postpone /\ k + 1 <= rank (c_id c) <= 9 \/ v = Register /\ forall n, In n (refs c) -> In n reg.
Proof.
  intros G L. destruct (gq_normal _ _ G c k (or_introl eq_refl)) as (N1 & N2 & N3).
  assert (Self : ~ In (c_id c) (refs c)).
  { intro H. pose proof (gq_ranks _ _ G c k (c_id c) (or_introl eq_refl) H (or_introl eq_refl)). lia. }
  assert (Ref : forall n, In n (refs c) -> In n reg \/ In n (queue_ids q)).
  { intros n Hn. destruct (gq_refs _ _ G c k n (or_introl eq_refl) Hn) as [H|[H|H]]; [now left| |now right]. cbn [fst] in H. subst n. contradiction. }
  inversion L; subst; try congruence.
  - exfalso. destruct (Ref b) as [X|X]; [apply in_or_app; now left|contradiction..].
  - left. split; [reflexivity|]. destruct (gq_ranks _ _ G c k n (or_introl eq_refl) H (or_intror H1)) as [R1 R2]. split; [|assumption].
    unfold queue_ids in H1. apply in_map_iff in H1. destruct H1 as ((w & kw) & Hw & Hin). cbn [fst] in Hw. subst n.
    pose proof (gq_rank _ _ G w kw (or_intror Hin)) as Rw. destruct (gq_counts _ _ G) as (j & a & b & E & Ha & Hb).
    assert (k <= kw).
    { destruct a as [|x a]; cbn [app] in E.
      - subst b. pose proof (Hb (c, k) (or_introl eq_refl)). pose proof (Hb (w, kw) (or_intror Hin)). cbn [snd] in *. lia.
      - injection E as <- ->. pose proof (Ha (c, k) (or_introl eq_refl)). cbn [snd] in *. apply in_app_or in Hin. destruct Hin as [Hin|Hin]; [pose proof (Ha (w, kw) (or_intror Hin))|pose proof (Hb (w, kw) Hin)]; cbn [snd] in *; lia. }
    lia.
  - right. split; [reflexivity|]. intros n Hn. apply in_app_or in Hn. destruct Hn as [Hn|Hn]; [auto|]. destruct H1 as [H1|(t & T1 & T2 & T3)]; [auto|].
    exfalso. destruct (Ref t) as [X|X]; [apply in_or_app; now right|contradiction..].
Qed.
Lemma good_tail (K K' : nat -> Prop) c k q : good_queue K ((c, k) :: q) -> (forall n, K n -> K' n) -> K' (c_id c) -> good_queue K' q.
Proof.
  intros [A B C D F G H] M Hc. constructor.
  - intros d j Hd. apply (A d j). now right.
  - intros d j n Hd Hn. destruct (B d j n (or_intror Hd) Hn) as [X|[X|X]]; [left; now apply M|cbn [fst] in X; subst n; now left|now right].
  - intros d j Hd. apply fine_mono with (fun n => K n \/ n = c_id d); [apply (C d j); now right|]. intros n [X|X]; [left; now apply M|now right].
  - intros d j n Hd Hn Hi. apply (D d j n); [now right|assumption|now right].
  - intros d j e scope outer n Hd. apply (F d j). now right.
  - destruct G as (j & a & b & E & Ha & Hb). destruct a as [|x a]; cbn [app] in E.
    + subst b. exists (j + 1), q, []. rewrite app_nil_r. split; [reflexivity|]. split; [|intros x []]. intros x Hx. apply Hb. now right.
    + injection E as <- ->. exists j, a, b. split; [reflexivity|]. split; [|assumption]. intros x Hx. apply Ha. now right.
  - intros d j Hd. apply (H d j). now right.
Qed.
Lemma ids_snoc q c k j n : In n (queue_ids (q ++ [(c, j)])) <-> In n (queue_ids ((c, k) :: q)).
Proof. unfold queue_ids. rewrite map_app, in_app_iff. cbn [map fst In]. tauto. Qed.
Lemma deep_snoc q c k j n : In n (deep (q ++ [(c, j)])) <-> In n (deep ((c, k) :: q)).
Proof. unfold deep. rewrite map_app, flat_map_app. cbn [map fst flat_map]. rewrite app_nil_r, !in_app_iff. tauto. Qed.
Lemma good_postponed K c k q : good_queue K ((c, k) :: q) -> k + 1 <= rank (c_id c) -> good_queue K (q ++ [(c, k + 1)]).
Proof.
  intros [A B C D F G H] Hk.
  assert (Item : forall d j, In (d, j) (q ++ [(c, k + 1)]) -> exists j', In (d, j') ((c, k) :: q)).
  { intros d j Hd. apply in_app_or in Hd. destruct Hd as [Hd|[Hd|[]]]; [exists j; now right|]. injection Hd as <- <-. exists k. now left. }
  constructor.
  - intros d j Hd. destruct (Item d j Hd) as (j' & Hj). now apply (A d j').
  - intros d j n Hd Hn. destruct (Item d j Hd) as (j' & Hj). rewrite (ids_snoc q c k). now apply (B d j').
  - intros d j Hd. destruct (Item d j Hd) as (j' & Hj). now apply (C d j').
  - intros d j n Hd Hn Hi. destruct (Item d j Hd) as (j' & Hj). rewrite (ids_snoc q c k) in Hi. now apply (D d j').
  - intros d j e scope outer n Hd. destruct (Item d j Hd) as (j' & Hj). now apply (F d j').
  - destruct G as (j & a & b & E & Ha & Hb). destruct a as [|x a]; cbn [app] in E.
    + subst b. exists (j + 1), q, [(c, k + 1)]. split; [reflexivity|]. pose proof (Hb (c, k) (or_introl eq_refl)) as Hk'. cbn [snd] in Hk'. subst k. split.
      * intros x Hx. apply Hb. now right.
      * intros x [<-|[]]. reflexivity.
    + injection E as <- ->. pose proof (Ha (c, k) (or_introl eq_refl)) as Hk'. cbn [snd] in Hk'. subst k. exists j, a, (b ++ [(c, j + 1)]). split; [now rewrite app_assoc|]. split.
      * intros x Hx. apply Ha. now right.
      * intros x Hx. apply in_app_or in Hx. destruct Hx as [Hx|[<-|[]]]; [now apply Hb|reflexivity].
  - intros d j Hd. apply in_app_or in Hd. destruct Hd as [Hd|[Hd|[]]]; [apply (H d j); now right|]. injection Hd as <- <-. assumption.
Qed.
Lemma turn_inv2 s t : inv2 s -> turn s t -> inv2 t.
Proof.
  intros (G & Q) H. destruct H; cbn [s_events s_registered s_work good] in *; unfold inv2; cbn [s_events s_registered s_work].
  - destruct G as [_ G]. split; [|assumption]. apply good_mono with (fun n => In n reg \/ In n (deep [])); [|assumption]. intros n [X|[]]. assumption.
  - destruct G as [Gc G]. split; [assumption|]. apply Forall_app. split; [assumption|]. apply Forall_forall. intros e He. unfold conversions in He. apply in_map_iff in He.
    destruct He as (x & <- & Hx). apply Gc in Hx. apply mem_in in Hx. now rewrite Hx.
  - destruct G as [Gq G]. destruct (front_look _ _ _ _ _ _ Gq H) as [[X _]|[X _]]; discriminate.
  - destruct G as [Gq G]. split; [|assumption]. cbn [good]. destruct (front_look _ _ _ _ _ _ Gq H) as [[_ X]|[X _]]; [|discriminate].
    split; [apply good_postponed; [assumption|lia]|]. apply good_mono with (fun n => In n reg \/ In n (deep ((c, k) :: q))); [|assumption].
    intros n Hn. now rewrite (deep_snoc q c k).
  - destruct G as [Gq G]. destruct (front_look _ _ _ _ _ _ Gq H) as [[X _]|[_ X]]; [discriminate|].
    assert (M : forall n, In n reg -> In n (reg ++ [c_id c])) by (intros n Hn; apply in_or_app; now left).
    split; [|apply Forall_app; split; [assumption|repeat constructor]]. cbn [good].
    split; [|split; [|split]].
    + apply good_new with (Some (c_id c)).
      * apply fine_mono with (fun n => In n reg \/ n = c_id c); [apply (gq_nested _ _ Gq c k); now left|]. intros n [Y|Y]; [now apply M|subst n; apply in_or_app; right; now left].
      * apply ranked_nested with (fun n => In n reg) ((c, k) :: q) k; [assumption|now left].
    + intros n Hn. left. apply M. apply X. apply in_or_app. now right.
    + apply good_tail with (fun n => In n reg) c k; [assumption| |].
      * intros n Hn. left. now apply M.
      * left. apply in_or_app. right. now left.
    + apply good_mono with (fun n => In n reg \/ In n (deep ((c, k) :: q))); [|assumption]. intros n [Y|Y]; [left; left; now apply M|].
      unfold deep in *. rewrite map_fst_new. cbn [map fst flat_map] in Y. rewrite numbers_nested in Y. apply in_app_or in Y. cbn [In] in Y.
      destruct Y as [[Y|Y]|Y]; [left; left; subst n; apply in_or_app; right; now left|left; now right|now right].
Qed.
Lemma inv2_works s : inv2 s -> step s <> Failed.
Proof.
  intros (G & _) H. destruct s as [w reg es]. unfold step in H; cbn [s_work s_registered s_events] in *. destruct w as [|[o [|[c k] q]|c] r]; try discriminate.
  cbn [good] in G. destruct G as [G _]. pose proof (look_looked reg o (queue_ids q) c) as L. destruct (look reg o (queue_ids q) c) as [ds| |]; try discriminate.
  destruct (front_look _ _ _ _ _ _ G L) as [[_ X]|[X _]]; [|discriminate]. destruct (Nat.leb 10 (k + 1)) eqn:E; [|discriminate]. apply Nat.leb_le in E. lia.
Qed.
Lemma good_namespaces ns : forall K K' : nat -> Prop, fine_program K ns -> (forall n, K n -> K' n) -> (forall l, In l ns -> ranked None l) -> good K' (map (fun l => WQueue None (new_queue l)) ns).
Proof.
  induction ns as [|l r IH]; intros K K' F M R; cbn [map good]; [exact Logic.I|]. inversion_clear F as [|? ? ? F1 F2]. split.
  - apply good_new with None; [now apply fine_mono with K|]. apply R. now left.
  - apply (IH (fun n => K n \/ class_in l n)); [assumption| |intros m Hm; apply R; now right].
    intros n [X|X]; [left; now apply M|right]. destruct X as (c & scope & outer & Hd & <-). unfold deep. rewrite map_fst_new. now apply declared_numbers with None scope outer.
Qed.
Lemma initial_inv2 ns : fine_program (fun _ => False) ns -> shallow rank ns -> inv2 (initial ns).
Proof.
  intros F Sh. unfold inv2, initial; cbn [s_work s_registered s_events]. split; [|constructor]. apply good_namespaces with (fun _ => False); [assumption|intros n []|].
  intros l Hl c scope outer n Hd Hn Hi. now apply (Sh l c scope outer n).
Qed.
Lemma fine_program_in ns : forall K, fine_program K ns -> forall l, In l ns -> exists K', fine K' l.
Proof.
  induction ns as [|l r IH]; intros K F m Hm; [destruct Hm|]. inversion_clear F as [|? ? ? F1 F2]. destruct Hm as [<-|Hm]; [eauto|]. now apply (IH _ F2).
Qed.
Lemma accounted_wrapped es c : Forall quiet es -> accounted es c -> forall K l, fine K l -> In c l -> wrapped es c.
Proof.
  intros Q A. rewrite Forall_forall in Q. induction A as [c o He Hc Hn IH|c Hi|c o Ha He|c Hp|c b Hb He]; intros K l F Hl; inversion_clear F as [? F1 F2 F3]; destruct (F1 c Hl) as (N1 & N2 & N3); try congruence.
  - apply wrapped_intro with o; [assumption| |].
    + intros x Hx. destruct (Hc x Hx) as [H|H]; [assumption|]. destruct (Q _ H).
    + intros d Hd. apply (IH d Hd _ _ (F3 c Hl) Hd).
  - destruct (Q _ He).
Qed.
Lemma complete ns : fine_program (fun _ => False) ns -> shallow rank ns ->
  exists es, scanned ns es true /\ (forall l c, In l ns -> In c l -> wrapped es c) /\ (forall c n, ~ In (EMissingBase c n) es /\ ~ In (EMissingTarget c n) es).
Proof.
  intros F Sh. destruct (terminates (initial ns)) as (fuel & (es & b) & Hrun). destruct (run_reach _ _ _ _ Hrun) as (t & R & He & Hs).
  assert (J : inv2 t).
  { clear Hrun He Hs. revert t R. apply reach_ind'; [now apply initial_inv2|]. intros x y Hx Hy. apply turn_inv2 with x; [assumption|now apply step_turn]. }
  destruct b; [|destruct (inv2_works _ J Hs)]. destruct J as [_ Q]. rewrite He in Q. exists es. assert (Hsc : scanned ns es true) by now exists fuel.
  split; [assumption|]. split.
  - intros l c Hl Hc. destruct (fine_program_in _ _ F l Hl) as (K & FK). apply accounted_wrapped with K l; [assumption| |assumption|assumption]. now apply scanned_accounted with ns l.
  - rewrite Forall_forall in Q. intros c n. split; intro H; exact (Q _ H).
Qed.
End Complete.
Lemma run_mono fuel : forall s r, run fuel s = Some r -> forall more, run (fuel + more) s = Some r.
Proof.
  induction fuel as [|n IH]; intros s r H more; cbn [run] in H; [discriminate|]. cbn [Nat.add run]. destruct (step s); [now apply IH|assumption..].
Qed.
Lemma scanned_unique ns es b es' b' : scanned ns es b -> scanned ns es' b' -> es' = es /\ b' = b.
Proof.
  intros (f & H) (f' & H'). apply (run_mono _ _ _) with (more := f') in H. apply (run_mono _ _ _) with (more := f) in H'. rewrite Nat.add_comm in H'. rewrite H in H'. injection H' as -> ->. now split.
Qed.
