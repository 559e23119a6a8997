(** The resolution order. *)
From Verif.Model Require Import Py PyState Hierarchy.
From Verif.Spec Require Import HierarchySpec.
From Coq Require Import Lia.
Open Scope list_scope.

(** Parents come before their children. *)
Definition wf (w : hier) : Prop := forall i b, In b (bases w i) -> b < i.

Lemma sum_app a b : sum (a ++ b) = sum a + sum b.
Proof. induction a; cbn; lia. Qed.

Lemma ways_stable w (W : wf w) : forall i n m, i < n -> i < m -> ways n w i = ways m w i.
Proof.
  intros i. induction i as [i IH] using lt_wf_ind. intros n m Hn Hm.
  destruct n; [lia|]. destruct m; [lia|]. cbn [ways]. do 2 f_equal.
  apply map_ext_in. intros b Hb. pose proof (W _ _ Hb). apply IH; lia.
Qed.

Definition weight (w : hier) (i : nat) : nat := ways (S i) w i.
Lemma weight_eq w (W : wf w) i : weight w i = 1 + sum (map (weight w) (bases w i)).
Proof.
  unfold weight at 1. cbn [ways]. do 2 f_equal. apply map_ext_in. intros b Hb. pose proof (W _ _ Hb).
  unfold weight. apply ways_stable; auto; lia.
Qed.

Lemma sum_filter {A} (f : A -> nat) p l : sum (map f (filter p l)) <= sum (map f l).
Proof. induction l; cbn; [lia|]. destruct (p a); cbn; lia. Qed.

Lemma seen_true c l : seen c l = true <-> In c l.
Proof.
  unfold seen. rewrite existsb_exists. split.
  - intros (x & Hx & E). apply Nat.eqb_eq in E. now subst.
  - intros H. exists c. split; [assumption|apply Nat.eqb_refl].
Qed.
Lemma seen_false c l : seen c l = false <-> ~ In c l.
Proof. rewrite <- seen_true. destruct (seen c l); split; congruence. Qed.

(** The search without the set of visited classes. *)
Fixpoint plain (fuel : nat) (w : hier) (q : list nat) : list nat :=
  match q, fuel with
  | [], _ => []
  | _, O => []
  | c :: r, S f => c :: plain f w (r ++ bases w c)
  end.

Definition total (w : hier) (q : list nat) : nat := sum (map (weight w) q).

Lemma total_cons w (W : wf w) c q : total w (c :: q) = S (total w (q ++ bases w c)).
Proof. unfold total. cbn [map sum]. rewrite (weight_eq _ W), map_app, sum_app. lia. Qed.

(** [plain] goes level by level. *)
Lemma plain_app w (W : wf w) : forall n q f, total w q <= f -> length q = n ->
  forall r, total w (q ++ r) <= f -> exists f', plain f w (q ++ r) = q ++ plain f' w (r ++ flat_map (bases w) q) /\ total w (r ++ flat_map (bases w) q) <= f'.
Proof.
  induction n as [|n IH]; intros q f Hf Hn r Hr.
  - destruct q; [|discriminate]. exists f. cbn. rewrite app_nil_r. auto.
  - destruct q as [|c q]; [discriminate|]. cbn [app] in *. rewrite (total_cons _ W) in Hr.
    destruct f as [|f]; [lia|]. cbn [plain]. rewrite <- app_assoc.
    injection Hn as Hn.
    destruct (IH q f) with (r := r ++ bases w c) as (f' & E & L).
    + rewrite (total_cons _ W) in Hf. unfold total in *. rewrite map_app, sum_app in Hf. lia.
    + assumption.
    + rewrite app_assoc. lia.
    + exists f'. rewrite E. cbn [flat_map]. rewrite <- app_assoc in L. rewrite <- app_assoc. auto.
Qed.

Lemma plain_fuel w (W : wf w) : forall f q g, total w q <= f -> total w q <= g -> plain f w q = plain g w q.
Proof.
  induction f as [|f IH]; intros q g Hf Hg.
  - destruct q as [|c q]; [destruct g; reflexivity|]. rewrite (total_cons _ W) in Hf. lia.
  - destruct q as [|c q]; [destruct g; reflexivity|]. rewrite (total_cons _ W) in Hf, Hg.
    destruct g as [|g]; [lia|]. cbn [plain]. f_equal. apply IH; lia.
Qed.

Lemma plain_level w (W : wf w) q f : total w q <= f ->
  plain f w q = q ++ plain (total w (flat_map (bases w) q)) w (flat_map (bases w) q).
Proof.
  intros H. destruct (plain_app w W (length q) q f H eq_refl [] ) as (f' & E & L).
  - rewrite app_nil_r. assumption.
  - rewrite app_nil_r in E. rewrite E. f_equal. cbn [app] in *. apply plain_fuel; auto.
Qed.

Lemma level_bound w (W : wf w) i : forall n c, In c (level (bases w) i n) -> c + n <= i.
Proof.
  induction n; cbn [level]; intros c H.
  - destruct H as [<-|[]]. lia.
  - apply in_flat_map in H. destruct H as (x & Hx & Hc). apply IHn in Hx. apply W in Hc. lia.
Qed.

Lemma plain_levels w (W : wf w) i : forall k n, n + k = S i ->
  plain (total w (level (bases w) i n)) w (level (bases w) i n) = flat_map (level (bases w) i) (seq n k).
Proof.
  induction k; intros n H.
  - replace (level (bases w) i n) with (@nil nat); [reflexivity|].
    destruct (level (bases w) i n) as [|c r] eqn:E; [reflexivity|].
    assert (In c (level (bases w) i n)) by (rewrite E; now left). apply level_bound in H0; auto. lia.
  - rewrite (plain_level w W) by lia. cbn [seq flat_map]. f_equal.
    change (flat_map (bases w) (level (bases w) i n)) with (level (bases w) i (S n)). apply IHk. lia.
Qed.

(** ** The search with the set of visited classes *)
(** [q'] is [q] with extra elements, each in [s] or occurring before in [q]. *)
Inductive padded : list nat -> list nat -> list nat -> Prop :=
| pad_nil s : padded s [] []
| pad_same s x q q' : padded (x :: s) q q' -> padded s (x :: q) (x :: q')
| pad_skip s x q q' : In x s -> padded s q q' -> padded s q (x :: q').

Lemma padded_app s q q' : padded s q q' -> forall r r', padded (q ++ s) r r' -> padded s (q ++ r) (q' ++ r').
Proof.
  induction 1; intros r r' P; cbn [app] in *.
  - assumption.
  - apply pad_same. apply IHpadded. 
    assert (Weak : forall a b, (forall x, In x a -> In x b) -> forall r r', padded a r r' -> padded b r r').
    { clear. intros a b I r r' P. revert b I. induction P; intros b I.
      - constructor.
      - apply pad_same. apply IHP. intros y [->|Hy]; [now left|right; auto].
      - apply pad_skip; auto. }
    eapply Weak; [|exact P]. intros y [->|Hy]; apply in_or_app.
    + right. now left.
    + apply in_app_or in Hy. destruct Hy; [now left|right; now right].
  - apply pad_skip; auto.
Qed.
Lemma padded_weak a b : (forall x, In x a -> In x b) -> forall r r', padded a r r' -> padded b r r'.
Proof.
  intros I r r' P. revert b I. induction P; intros b I.
  - constructor.
  - apply pad_same. apply IHP. intros y [->|Hy]; [now left|right; auto].
  - apply pad_skip; auto.
Qed.
Lemma padded_skips s l : (forall x, In x l -> In x s) -> padded s [] l.
Proof. induction l; intros H; constructor; auto. - now apply H; left. - apply IHl. intros. now apply H; right. Qed.
Lemma padded_filter s v l : (forall x, In x v -> In x s) -> padded s (filter (fun b => negb (seen b v)) l) l.
Proof.
  revert s. induction l as [|x l IH]; intros s I; cbn; [constructor|].
  destruct (seen x v) eqn:E; cbn.
  - apply pad_skip; [|now apply IH]. apply I. now apply seen_true.
  - apply pad_same. apply IH. intros y Hy. right. auto.
Qed.

Definition closed (w : hier) (vis q : list nat) : Prop := forall x b, In x vis -> In b (bases w x) -> In b vis \/ In b q.

Lemma firsts_ext a b l : (forall x, In x a <-> In x b) -> firsts a l = firsts b l.
Proof.
  revert a b. induction l as [|x l IH]; intros a b E; cbn; [reflexivity|].
  change (existsb (Nat.eqb x) a) with (seen x a). change (existsb (Nat.eqb x) b) with (seen x b).
  assert (S : seen x a = seen x b).
  { destruct (seen x a) eqn:A; destruct (seen x b) eqn:B; try reflexivity.
    - apply seen_true in A. apply seen_false in B. apply E in A. contradiction.
    - apply seen_false in A. apply seen_true in B. apply E in B. contradiction. }
  rewrite S. destruct (seen x b); [auto|]. f_equal. apply IH. intros y. cbn. rewrite E. reflexivity.
Qed.

Lemma firsts_cons_in s x l : In x s -> firsts s (x :: l) = firsts s l.
Proof. intros H. cbn. change (existsb (Nat.eqb x) s) with (seen x s). apply seen_true in H. now rewrite H. Qed.
Lemma firsts_cons s x l l' : firsts (x :: s) l = firsts (x :: s) l' -> firsts s (x :: l) = firsts s (x :: l').
Proof.
  intros E. cbn. change (existsb (Nat.eqb x) s) with (seen x s). destruct (seen x s) eqn:S.
  - apply seen_true in S. rewrite <- (firsts_ext (x :: s) s l), <- (firsts_ext (x :: s) s l'); auto;
      intros y; cbn; (split; [intros [->|H]; auto|auto]).
  - now rewrite E.
Qed.

Lemma visit_plain w (W : wf w) : forall n q q' vis f, total w q' <= n -> total w q <= f -> padded vis q q' -> closed w vis q ->
  exists l, visit f w q vis = Ok l /\ firsts vis l = firsts vis (plain n w q') /\ length l <= length (plain n w q').
Proof.
  induction n as [|n IH]; intros q q' vis f Hn Hf P C.
  - destruct q' as [|x q']; [|rewrite (total_cons _ W) in Hn; lia]. inversion P; subst.
    exists []. split; [destruct f; reflexivity|]. split; [reflexivity|cbn; lia].
  - inversion P as [s|s x q1 q2 P'|s x q1 q2 Hx P']; subst.
    + exists []. split; [destruct f; reflexivity|]. split; [reflexivity|cbn; lia].
    + rewrite (total_cons _ W) in Hn. cbn [plain].
      destruct f as [|f].
      { rewrite (total_cons _ W) in Hf. lia. }
      cbn [visit].
      set (new := filter (fun b => negb (seen b (x :: vis))) (bases w x)).
      destruct (IH (q1 ++ new) (q2 ++ bases w x) (x :: vis) f) as (l & E & F & L).
      * lia.
      * rewrite (total_cons _ W) in Hf. unfold total in *. rewrite map_app, sum_app in *.
        pose proof (sum_filter (weight w) (fun b => negb (seen b (x :: vis))) (bases w x)). unfold new. lia.
      * apply padded_app; [assumption|]. apply padded_filter. intros y Hy. apply in_or_app. now right.
      * intros y b Hy Hb. destruct (seen b (x :: vis)) eqn:S; [left; now apply seen_true|].
        right. apply in_or_app. destruct Hy as [->|Hy'].
        -- right. apply filter_In. rewrite S. auto.
        -- destruct (C y b Hy' Hb) as [B|[->|B]]; [apply seen_false in S; elim S; now right|apply seen_false in S; elim S; now left|now left].
      * rewrite E. exists (x :: l). split; [reflexivity|]. split; [now apply firsts_cons|cbn; lia].
    + rewrite (total_cons _ W) in Hn. cbn [plain].
      destruct (IH q (q2 ++ bases w x) vis f) as (l & E & F & L).
      * lia.
      * assumption.
      * rewrite <- (app_nil_r q). apply padded_app; [assumption|]. apply padded_skips.
        intros b Hb. apply in_or_app. destruct (C x b Hx Hb); auto.
      * assumption.
      * exists l. split; [assumption|]. rewrite firsts_cons_in by assumption. split; [assumption|cbn; lia].
Qed.

Lemma mro_firsts w (W : wf w) i :
  exists l, get_mro w i = Ok l /\ firsts [] l = firsts [] (levels (bases w) i i) /\ length l <= length (levels (bases w) i i).
Proof.
  destruct (visit_plain w W (total w [i]) [i] [i] [] (weight w i)) as (l & E & F & L).
  - lia.
  - unfold total. cbn. lia.
  - apply pad_same. constructor.
  - intros x b [].
  - exists l. split; [exact E|]. pose proof (plain_levels w W i (S i) 0 eq_refl) as P. cbn [level] in P.
    rewrite P in F, L. auto.
Qed.

Lemma firsts_in s l : forall x, In x (firsts s l) <-> In x l /\ ~ In x s.
Proof.
  revert s. induction l as [|y l IH]; intros s x; cbn.
  - tauto.
  - change (existsb (Nat.eqb y) s) with (seen y s). destruct (seen y s) eqn:S.
    + apply seen_true in S. rewrite IH. split; [tauto|]. intros [[->|H] N]; [contradiction|tauto].
    + apply seen_false in S. cbn. rewrite IH. cbn. split.
      * intros [->|[H N]]; tauto.
      * intros [[->|H] N]; [now left|]. destruct (Nat.eq_dec y x); [now left|]. right. tauto.
Qed.

Lemma level_ancestor w i : forall n c, In c (level (bases w) i n) -> ancestor (bases w) i c.
Proof.
  intros n. assert (T : forall a b c, ancestor (bases w) a b -> In c (bases w b) -> ancestor (bases w) a c).
  { intros a b c A. induction A; intros HH; [eapply ancestor_up; [exact HH|constructor]|eapply ancestor_up; eauto]. }
  induction n; cbn [level]; intros c H.
  - destruct H as [<-|[]]. constructor.
  - apply in_flat_map in H. destruct H as (x & Hx & Hc). eapply T; eauto.
Qed.
Lemma ancestor_level w (W : wf w) i c : ancestor (bases w) i c -> exists n, n <= i /\ In c (level (bases w) i n).
Proof.
  assert (U : forall n i b, In b (bases w i) -> forall c, In c (level (bases w) b n) -> In c (level (bases w) i (S n))).
  { induction n; intros j b Hb c' H.
    - destruct H as [<-|[]]. cbn. rewrite app_nil_r. assumption.
    - cbn [level] in H. apply in_flat_map in H. destruct H as (x & Hx & Hc). cbn [level]. apply in_flat_map. exists x.
      split; [|assumption]. exact (IHn j b Hb x Hx). }
  induction 1 as [i|i b c Hb A IH].
  - exists 0. cbn. split; [lia|auto].
  - destruct IH as (n & Hn & H). exists (S n). pose proof (W _ _ Hb). split; [lia|]. eapply U; eauto.
Qed.

Lemma levels_ancestor w (W : wf w) i c : In c (levels (bases w) i i) <-> ancestor (bases w) i c.
Proof.
  unfold levels. rewrite in_flat_map. split.
  - intros (n & _ & H). eapply level_ancestor; eauto.
  - intros A. destruct (ancestor_level w W i c A) as (n & L & H). exists n. split; [apply in_seq; lia|assumption].
Qed.

Lemma mro_ancestor w (W : wf w) i l c : get_mro w i = Ok l -> (In c l <-> ancestor (bases w) i c).
Proof.
  intros G. destruct (mro_firsts w W i) as (l' & E & F & _). assert (l' = l) by congruence. subst l'.
  rewrite <- (levels_ancestor w W). pose proof (firsts_in [] l c) as A. pose proof (firsts_in [] (levels (bases w) i i) c) as B.
  rewrite F in A. cbn in *. tauto.
Qed.

Lemma mro_head w i l : get_mro w i = Ok l -> exists r, l = i :: r.
Proof.
  unfold get_mro. cbn [ways plus visit]. destruct (visit _ w _ _) as [r|e]; intros H; [|discriminate].
  injection H as <-. now exists r.
Qed.

(** Without shared ancestors nothing occurs twice. *)
Lemma firsts_nodup s l : NoDup l -> (forall x, In x l -> ~ In x s) -> firsts s l = l.
Proof.
  revert s. induction l as [|x l IH]; intros s N D; cbn; [reflexivity|].
  change (existsb (Nat.eqb x) s) with (seen x s). inversion N; subst.
  destruct (seen x s) eqn:S.
  - apply seen_true in S. elim (D x); [now left|assumption].
  - f_equal. apply IH; [assumption|]. intros y Hy [->|Hs]; [contradiction|]. elim (D y); [now right|assumption].
Qed.


Lemma firsts_length s l : length (firsts s l) <= length l.
Proof. revert s. induction l; intros s; cbn; [lia|]. destruct (existsb _ s); cbn; [specialize (IHl s)|specialize (IHl (a :: s))]; lia. Qed.
Lemma firsts_full s l : length (firsts s l) = length l -> firsts s l = l.
Proof.
  revert s. induction l as [|x l IH]; intros s; cbn; [reflexivity|]. destruct (existsb _ s); cbn; intros E.
  - pose proof (firsts_length s l). lia.
  - f_equal. apply IH. lia.
Qed.
Lemma mro_tree w (W : wf w) i : NoDup (levels (bases w) i i) -> get_mro w i = Ok (levels (bases w) i i).
Proof.
  intros N. destruct (mro_firsts w W i) as (l & E & F & L). rewrite E. f_equal.
  rewrite (firsts_nodup [] (levels (bases w) i i)) in F by (auto; intros ? ? []).
  rewrite <- F. symmetry. apply firsts_full. pose proof (firsts_length [] l). rewrite F in *. lia.
Qed.

Lemma is_subclass_ok w (W : wf w) i j : exists b, is_subclass w i j = Ok b /\ (b = true <-> ancestor (bases w) i j).
Proof.
  unfold is_subclass. destruct (mro_firsts w W i) as (l & E & _). rewrite E. eexists. split; [reflexivity|].
  change (existsb (Nat.eqb j) l) with (seen j l). rewrite seen_true. now apply mro_ancestor.
Qed.

(** A line of single inheritance is its own order. *)
Lemma line_levels w i l : line (bases w) i l -> forall n, level (bases w) i n = match nth_error l n with Some c => [c] | None => [] end.
Proof.
  induction 1 as [i P|i b l P L IH]; intros n.
  - induction n; cbn [level]; [reflexivity|]. rewrite IHn. destruct n; cbn; [now rewrite P|destruct n; reflexivity].
  - assert (U : forall n, level (bases w) i (S n) = level (bases w) b n).
    { induction n0; [cbn; now rewrite P|]. cbn [level] in *. now rewrite IHn0. }
    destruct n; [reflexivity|]. rewrite U, IH. reflexivity.
Qed.
Lemma line_length w (W : wf w) i l : line (bases w) i l -> length l <= S i.
Proof.
  induction 1 as [i P|i b l P L IH]; cbn; [lia|]. assert (b < i) by (apply W; rewrite P; now left). lia.
Qed.
Lemma line_sorted w (W : wf w) i l : line (bases w) i l -> NoDup l /\ forall c, In c l -> c <= i.
Proof.
  induction 1 as [i P|i b l P L [N B]]; cbn.
  - split; [repeat constructor; intros []|]. intros c [<-|[]]; lia.
  - assert (b < i) by (apply W; rewrite P; now left). split.
    + constructor; [|assumption]. intros H'. apply B in H'. lia.
    + intros c [<-|H']; [lia|]. apply B in H'. lia.
Qed.
Lemma flat_map_nth {A} (l : list A) : forall k n, length l <= n + k ->
  flat_map (fun m => match nth_error l m with Some c => [c] | None => [] end) (seq n k) = skipn n l.
Proof.
  induction k; intros n L; cbn [seq flat_map].
  - rewrite skipn_all2; [reflexivity|lia].
  - rewrite IHk by lia. clear. revert l. induction n; intros l; destruct l; cbn; try reflexivity.
    now rewrite <- IHn.
Qed.
Lemma mro_line w (W : wf w) i l : line (bases w) i l -> get_mro w i = Ok l.
Proof.
  intros L. assert (E : levels (bases w) i i = l).
  { unfold levels. rewrite (flat_map_ext _ _ (line_levels w i l L)). rewrite flat_map_nth; [reflexivity|].
    pose proof (line_length w W i l L). lia. }
  rewrite (mro_tree w W); [now rewrite E|]. rewrite E. now apply (line_sorted w W i).
Qed.
