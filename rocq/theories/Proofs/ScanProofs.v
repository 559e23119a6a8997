(** Registration order of the classes of header files. *)
From Coq Require Import List Arith Lia Permutation.
From Verif.Model Require Import Py ScanTypes.
From Verif.Spec Require Import ScanSpec.
Import ListNotations.
Open Scope list_scope.

Lemma mem_in n l : mem n l = true <-> In n l.
Proof.
  unfold mem. rewrite existsb_exists. split.
  - intros (x & Hx & He). apply Nat.eqb_eq in He. now subst.
  - intro H. exists n. split; [assumption|apply Nat.eqb_refl].
Qed.
Lemma mem_out n l : mem n l = false <-> ~ In n l.
Proof. destruct (mem n l) eqn:E; split; intro H; try congruence; try (now apply mem_in in E). intro K. apply mem_in in K. congruence. Qed.
Lemma first_missing_some reg l n : first_missing reg l = Some n -> In n l /\ ~ In n reg.
Proof. intro H. apply find_some in H. destruct H as [A B]. split; [assumption|]. apply mem_out. now destruct (mem n reg). Qed.
Lemma first_missing_none reg l : first_missing reg l = None -> forall n, In n l -> In n reg.
Proof. intros H n Hn. apply (find_none _ _ H) in Hn. apply mem_in. now destruct (mem n reg). Qed.

(** ** What a look decides *)
Inductive looked (reg : list nat) (o : option nat) (rest : list nat) (c : cls) : verdict -> Prop :=
| looked_ignored : c_ignored c = true -> looked reg o rest c (Drop [])
| looked_anonymous : c_anonymous c = true -> looked reg o rest c (Drop [EAnonymous (c_id c) o])
| looked_private : c_private c = true -> looked reg o rest c (Drop [])
| looked_base b : In b (c_bases c) -> ~ In b reg -> ~ In b rest -> looked reg o rest c (Drop [EMissingBase (c_id c) b])
| looked_postpone n : In n (c_bases c ++ c_targets c) -> ~ In n reg -> In n rest -> looked reg o rest c Postpone
| looked_register : c_ignored c = false /\ c_anonymous c = false /\ c_private c = false -> (forall b, In b (c_bases c) -> In b reg) ->
    ((forall t, In t (c_targets c) -> In t reg) \/ exists t, In t (c_targets c) /\ ~ In t reg /\ ~ In t rest) -> looked reg o rest c Register.
Lemma look_looked reg o rest c : looked reg o rest c (look reg o rest c).
Proof.
  unfold look. destruct (c_ignored c) eqn:Ei; [now constructor|]. destruct (c_anonymous c) eqn:Ea; [now constructor|].
  destruct (first_missing reg (c_bases c)) as [b|] eqn:Eb.
  - destruct (first_missing_some _ _ _ Eb) as [A B]. destruct (mem b rest) eqn:Em.
    + apply mem_in in Em. apply looked_postpone with b; [apply in_or_app; now left|assumption..].
    + apply mem_out in Em. now apply looked_base.
  - pose proof (first_missing_none _ _ Eb) as B. destruct (first_missing reg (c_targets c)) as [t|] eqn:Et.
    + destruct (first_missing_some _ _ _ Et) as [A C]. destruct (mem t rest) eqn:Em.
      * apply mem_in in Em. apply looked_postpone with t; [apply in_or_app; now right|assumption..].
      * apply mem_out in Em. destruct (c_private c) eqn:Ep; [now apply looked_private|]. apply looked_register; [now auto|assumption|]. right. now exists t.
    + destruct (c_private c) eqn:Ep; [now apply looked_private|]. apply looked_register; [now auto|assumption|]. left. now apply first_missing_none.
Qed.

(** ** Runs *)
Inductive reach (s : scan) : scan -> Prop :=
| reach_here : reach s s
| reach_step t u : reach s t -> step t = Running u -> reach s u.
Lemma reach_first s t u : step s = Running t -> reach t u -> reach s u.
Proof. intros H R. induction R; [apply reach_step with s; [constructor|assumption]|]. now apply reach_step with t0. Qed.
Lemma run_reach fuel : forall s es b, run fuel s = Some (es, b) -> exists t, reach s t /\ s_events t = es /\ step t = (if b then Finished else Failed).
Proof.
  induction fuel as [|n IH]; intros s es b H; cbn [run] in H; [discriminate|]. destruct (step s) as [s'| |] eqn:Es.
  - destruct (IH _ _ _ H) as (t & R & A & B). exists t. split; [now apply reach_first with s'|]. now split.
  - injection H as <- <-. exists s. split; [constructor|]. now split.
  - injection H as <- <-. exists s. split; [constructor|]. now split.
Qed.
Lemma reach_ind' (P : scan -> Prop) s : P s -> (forall t u, P t -> step t = Running u -> P u) -> forall t, reach s t -> P t.
Proof. intros H0 HS t R. induction R; [assumption|]. eauto. Qed.
Lemma finished_work s : step s = Finished -> s_work s = [].
Proof.
  unfold step. destruct (s_work s) as [|[o [|[c k] q]|c] r]; [reflexivity|discriminate| |discriminate].
  destruct (look _ _ _ _); [discriminate| |discriminate]. destruct (Nat.leb 10 (k + 1)); discriminate.
Qed.

(** The turns. *)
Inductive turn : scan -> scan -> Prop :=
| turn_empty o r reg es : turn (mk_scan (WQueue o [] :: r) reg es) (mk_scan r reg es)
| turn_conversions c r reg es : turn (mk_scan (WConversions c :: r) reg es) (mk_scan r reg (es ++ conversions reg c))
| turn_drop o c k q r reg es ds : looked reg o (queue_ids q) c (Drop ds) -> turn (mk_scan (WQueue o ((c, k) :: q) :: r) reg es) (mk_scan (WQueue o q :: r) reg (es ++ ds))
| turn_postpone o c k q r reg es : looked reg o (queue_ids q) c Postpone -> k + 1 < 10 ->
    turn (mk_scan (WQueue o ((c, k) :: q) :: r) reg es) (mk_scan (WQueue o (q ++ [(c, k + 1)]) :: r) reg es)
| turn_register o c k q r reg es : looked reg o (queue_ids q) c Register ->
    turn (mk_scan (WQueue o ((c, k) :: q) :: r) reg es)
      (mk_scan (WQueue (Some (c_id c)) (new_queue (c_nested c)) :: WConversions c :: WQueue o q :: r) (reg ++ [c_id c])
         (es ++ [ERegistered (c_id c) (c_bases c) o])).
Lemma step_turn s t : step s = Running t -> turn s t.
Proof.
  destruct s as [w reg es]. unfold step; cbn [s_work s_registered s_events]. destruct w as [|[o [|[c k] q]|c] r].
  - discriminate.
  - intro H; injection H as <-. constructor.
  - pose proof (look_looked reg o (queue_ids q) c) as L. destruct (look reg o (queue_ids q) c) as [ds| |]; intro H.
    + injection H as <-. now constructor.
    + destruct (Nat.leb 10 (k + 1)) eqn:E; [discriminate|]. injection H as <-. apply Nat.leb_gt in E. now constructor.
    + injection H as <-. now constructor.
  - intro H; injection H as <-. constructor.
Qed.

(** ** Termination *)
Fixpoint size (c : cls) : nat := match c with mk_cls _ _ _ _ _ _ nested => 13 + list_sum (map size nested) end.
Lemma size_nested c : size c = 13 + list_sum (map size (c_nested c)).
Proof. destruct c. reflexivity. Qed.
Definition item_weight (x : cls * nat) : nat := (10 - snd x) + 3 + list_sum (map size (c_nested (fst x))).
Definition weight (w : work) : nat := match w with WQueue _ q => 1 + list_sum (map item_weight q) | WConversions _ => 1 end.
Lemma list_sum_cons a l : list_sum (a :: l) = a + list_sum l.
Proof. reflexivity. Qed.
Lemma new_queue_weight l : list_sum (map item_weight (new_queue l)) = list_sum (map size l).
Proof.
  induction l as [|c l IH]; [reflexivity|]. change (new_queue (c :: l)) with ((c, 0) :: new_queue l). cbn [map]. rewrite !list_sum_cons, IH, size_nested.
  unfold item_weight. cbn [fst snd]. lia.
Qed.
Lemma turn_weight s t : turn s t -> list_sum (map weight (s_work t)) < list_sum (map weight (s_work s)).
Proof.
  assert (Hi : forall c k, item_weight (c, k) = (10 - k) + 3 + list_sum (map size (c_nested c))) by reflexivity.
  intro H. destruct H; cbn [s_work map]; rewrite ?list_sum_cons; cbn [weight]; rewrite ?map_app, ?list_sum_app; cbn [map];
    rewrite ?list_sum_cons, ?new_queue_weight, ?Hi; change (list_sum []) with 0; lia.
Qed.
Lemma terminates s : exists fuel r, run fuel s = Some r.
Proof.
  remember (list_sum (map weight (s_work s))) as n eqn:En. revert s En. induction n as [n IH] using lt_wf_ind. intros s ->.
  destruct (step s) as [t| |] eqn:Es.
  - pose proof (turn_weight _ _ (step_turn _ _ Es)) as L. destruct (IH _ L t eq_refl) as (f & r & Hr). exists (S f), r. cbn [run]. now rewrite Es.
  - exists 1. eexists. cbn [run]. rewrite Es. reflexivity.
  - exists 1. eexists. cbn [run]. rewrite Es. reflexivity.
Qed.

(** ** Safety *)
Section Safety.
Context (ns : list (list cls)).
Definition placed (c : cls) (o : option nat) : Prop := exists l scope, In l ns /\ declared l None c scope o.
Definition event_ok (pre : list event) (e : event) : Prop :=
  match e with
  | ERegistered i ps o => (exists c, placed c o /\ c_id c = i /\ c_bases c = ps /\ c_ignored c = false /\ c_anonymous c = false /\ c_private c = false) /\ (forall p, In p ps -> registered_in pre p) /\ (forall x, o = Some x -> registered_in pre x)
  | EMissingBase i b => (exists c o, placed c o /\ c_id c = i /\ In b (c_bases c)) /\ ~ registered_in pre b
  | EAnonymous i o => exists c, placed c o /\ c_id c = i /\ c_anonymous c = true
  | EConversion i t => (exists c o, placed c o /\ c_id c = i /\ In t (c_targets c)) /\ registered_in pre i /\ registered_in pre t
  | EMissingTarget i t => (exists c o, placed c o /\ c_id c = i /\ In t (c_targets c)) /\ registered_in pre i /\ ~ registered_in pre t
  end.
Inductive trace_ok : list event -> Prop :=
| trace_nil : trace_ok []
| trace_snoc es e : trace_ok es -> event_ok es e -> trace_ok (es ++ [e]).
Lemma trace_split es : trace_ok es -> forall pre e post, es = pre ++ e :: post -> event_ok pre e.
Proof.
  induction 1 as [|es e H IH He]; intros pre f post E; [now destruct pre|].
  destruct post as [|x post0] using rev_ind; [|clear IHpost0; rename post0 into post', x into z].
  - apply app_inj_tail in E. destruct E as [-> ->]. assumption.
  - change (pre ++ f :: post' ++ [z]) with (pre ++ (f :: post') ++ [z]) in E. rewrite app_assoc in E. apply app_inj_tail in E. destruct E as [-> ->]. now apply IH with post'.
Qed.

Lemma declared_nested l o c scope outer d : declared l o c scope outer -> In d (c_nested c) -> declared l o d (c_nested c) (Some (c_id c)).
Proof. intros H Hd. induction H; [apply declared_inside with c; [assumption|now constructor]|]. apply declared_inside with d0; [assumption|]. now apply IHdeclared. Qed.
Lemma placed_nested c o d : placed c o -> In d (c_nested c) -> placed d (Some (c_id c)).
Proof. intros (l & scope & Hl & Hd) H. exists l, (c_nested c). split; [assumption|]. now apply declared_nested with scope o. Qed.
Definition work_ok (reg : list nat) (w : work) : Prop :=
  match w with
  | WQueue o q => (forall x, o = Some x -> In x reg) /\ forall c k, In (c, k) q -> placed c o
  | WConversions c => In (c_id c) reg /\ exists o, placed c o
  end.
Definition inv (s : scan) : Prop :=
  trace_ok (s_events s) /\ (forall n, In n (s_registered s) <-> registered_in (s_events s) n) /\ Forall (work_ok (s_registered s)) (s_work s).
Lemma registered_app es fs n : registered_in (es ++ fs) n <-> registered_in es n \/ registered_in fs n.
Proof.
  unfold registered_in. split.
  - intros (ps & o & H). apply in_app_or in H. destruct H as [H|H]; [left|right]; now exists ps, o.
  - intros [(ps & o & H)|(ps & o & H)]; exists ps, o; apply in_or_app; auto.
Qed.
Lemma registered_one e n : registered_in [e] n <-> exists ps o, e = ERegistered n ps o.
Proof. unfold registered_in. split; intros (ps & o & H); exists ps, o; [destruct H as [H|[]]; assumption|now left]. Qed.
Lemma work_ok_mono reg reg' w : (forall n, In n reg -> In n reg') -> work_ok reg w -> work_ok reg' w.
Proof. intros H. destruct w; cbn [work_ok]; intros [A B]; split; auto. Qed.
Lemma conversions_trace es reg c : (forall n, In n reg <-> registered_in es n) -> trace_ok es -> In (c_id c) reg -> (exists o, placed c o) ->
  trace_ok (es ++ conversions reg c) /\ forall n, In n reg <-> registered_in (es ++ conversions reg c) n.
Proof.
  intros Hr Ht Hc (o & Ho). unfold conversions.
  enough (G : forall l, (forall t, In t l -> In t (c_targets c)) ->
    trace_ok (es ++ map (fun t => if mem t reg then EConversion (c_id c) t else EMissingTarget (c_id c) t) l) /\
    forall n, In n reg <-> registered_in (es ++ map (fun t => if mem t reg then EConversion (c_id c) t else EMissingTarget (c_id c) t) l) n) by (apply G; auto).
  intro l. induction l as [|t m IH] using rev_ind; intro Hsub.
  - cbn [map]. rewrite app_nil_r. now split.
  - rewrite map_app, app_assoc. cbn [map]. destruct IH as [A B]; [intros x Hx; apply Hsub; apply in_or_app; now left|].
    assert (Hin : In t (c_targets c)) by (apply Hsub; apply in_or_app; right; now left). split.
    + apply trace_snoc; [assumption|]. destruct (mem t reg) eqn:E; cbn [event_ok].
      * apply mem_in in E. split; [now exists c, o|]. split; now apply B.
      * apply mem_out in E. split; [now exists c, o|]. split; [now apply B|]. intro K. apply E. now apply B.
    + intro n. rewrite registered_app, registered_one, <- B. split; [now left|]. intros [H|(ps & x & H)]; [assumption|]. destruct (mem t reg); discriminate.
Qed.
Lemma turn_inv s t : inv s -> turn s t -> inv t.
Proof.
  intros (Ht & Hr & Hw) H. destruct H; cbn [s_events s_registered s_work] in *; unfold inv; cbn [s_events s_registered s_work].
  - inversion_clear Hw. split; [assumption|]. now split.
  - inversion_clear Hw as [|? ? AB C]; destruct AB as [A B]. destruct (conversions_trace _ _ _ Hr Ht A B) as [D F]. split; [assumption|]. now split.
  - inversion_clear Hw as [|? ? AB C]; destruct AB as [A B].
    assert (Hp : placed c o) by (apply (B c k); now left).
    assert (HW : Forall (work_ok reg) (WQueue o q :: r)).
    { constructor; [|assumption]. cbn [work_ok]. split; [assumption|]. intros d j Hd. apply (B d j). now right. }
    inversion H; subst.
    + rewrite app_nil_r. split; [assumption|]. now split.
    + split; [|split; [|assumption]].
      * apply trace_snoc; [assumption|]. cbn [event_ok]. exists c. auto.
      * intro n. rewrite registered_app, registered_one, <- Hr. split; [now left|]. intros [K|(ps & x & K)]; [assumption|discriminate].
    + rewrite app_nil_r. split; [assumption|]. now split.
    + split; [|split; [|assumption]].
      * apply trace_snoc; [assumption|]. cbn [event_ok]. split; [exists c, o; auto|]. intro K. apply Hr in K. contradiction.
      * intro n. rewrite registered_app, registered_one, <- Hr. split; [now left|]. intros [K|(ps & x & K)]; [assumption|discriminate].
  - inversion_clear Hw as [|? ? AB C]; destruct AB as [A B]. split; [assumption|]. split; [assumption|]. constructor; [|assumption]. cbn [work_ok]. split; [assumption|].
    intros d j Hd. apply in_app_or in Hd. destruct Hd as [Hd|[Hd|[]]]; [apply (B d j); now right|]. injection Hd as <- <-. apply (B c k). now left.
  - inversion_clear Hw as [|? ? AB C]; destruct AB as [A B]. assert (Hp : placed c o) by (apply (B c k); now left).
    assert (M : forall n, In n reg -> In n (reg ++ [c_id c])) by (intros; apply in_or_app; now left).
    inversion H as [| | | | |Hf Hb Ht']; subst. split; [|split].
    + apply trace_snoc; [assumption|]. cbn [event_ok]. split; [exists c; auto|]. split; [intros p Hi; apply Hr; now apply Hb|].
      intros x Hx. apply Hr. now apply A.
    + intro n. rewrite registered_app, registered_one, in_app_iff, <- Hr. cbn [In]. split.
      * intros [K|[K|[]]]; [now left|right]. subst. eauto.
      * intros [K|(ps & x & K)]; [now left|]. injection K as K _ _. right. now left.
    + constructor; [|constructor; [|constructor]].
      * cbn [work_ok]. split; [intros x Hx; injection Hx as <-; apply in_or_app; right; now left|]. intros d j Hd. unfold new_queue in Hd. apply in_map_iff in Hd.
        destruct Hd as (d' & Hd & Hi). injection Hd as <- <-. now apply placed_nested with o.
      * cbn [work_ok]. split; [apply in_or_app; right; now left|]. now exists o.
      * cbn [work_ok]. split; [auto|]. intros d j Hd. apply (B d j). now right.
      * apply Forall_forall. intros w Hin. rewrite Forall_forall in C. apply work_ok_mono with reg; auto.
Qed.
Lemma initial_inv : inv (initial ns).
Proof.
  unfold inv, initial; cbn [s_events s_registered s_work]. split; [constructor|]. split.
  - intro n. split; [intros []|]. intros (ps & o & []).
  - apply Forall_forall. intros w Hw. apply in_map_iff in Hw. destruct Hw as (l & <- & Hl). cbn [work_ok]. split; [discriminate|].
    intros c k Hc. unfold new_queue in Hc. apply in_map_iff in Hc. destruct Hc as (c' & Hc & Hi). injection Hc as <- <-. exists l, l. split; [assumption|]. now constructor.
Qed.
Lemma reach_inv t : reach (initial ns) t -> inv t.
Proof. apply reach_ind'; [apply initial_inv|]. intros a b Ha Hs. apply turn_inv with a; [assumption|]. now apply step_turn. Qed.
Lemma scanned_ok es b : scanned ns es b -> forall pre e post, es = pre ++ e :: post -> event_ok pre e.
Proof. intros (f & H). destruct (run_reach _ _ _ _ H) as (t & R & <- & _). apply trace_split. exact (proj1 (reach_inv _ R)). Qed.

(** ** At most once *)
Definition pending (w : work) : list nat := match w with WQueue _ q => flat_map numbers (map fst q) | WConversions _ => [] end.
Definition all_pending (s : scan) : list nat := s_registered s ++ flat_map pending (s_work s).
Definition registrations (es : list event) : list nat := flat_map (fun e => match e with ERegistered i _ _ => [i] | _ => [] end) es.
Lemma numbers_nested c : numbers c = c_id c :: flat_map numbers (c_nested c).
Proof. destruct c. reflexivity. Qed.
Lemma map_fst_new l : map fst (new_queue l) = l.
Proof. unfold new_queue. rewrite map_map. cbn [fst]. apply map_id. Qed.
Lemma registrations_conversions reg c : registrations (conversions reg c) = [].
Proof. unfold conversions, registrations. induction (c_targets c) as [|t l IH]; [reflexivity|]. cbn [map flat_map]. destruct (mem t reg); exact IH. Qed.
Lemma nodup_right {A} (a b : list A) : NoDup (a ++ b) -> NoDup b.
Proof. induction a as [|x a IH]; [auto|]. cbn [app]. intro H. inversion_clear H. auto. Qed.
Lemma nodup_left {A} (a b : list A) : NoDup (a ++ b) -> NoDup a.
Proof. induction a as [|x a IH]; [constructor|]. cbn [app]. intro H. inversion_clear H. constructor; [|auto]. intro K. apply H0. apply in_or_app. now left. Qed.
Lemma nodup_sub_mid {A} (a b d : list A) : NoDup (a ++ b ++ d) -> NoDup (a ++ d).
Proof.
  intro H. induction a as [|x a IH]; cbn [app] in *; [now apply nodup_right in H|]. inversion_clear H. constructor; [|now apply IH].
  intro K. apply H0. apply in_app_or in K. apply in_or_app. destruct K as [K|K]; [now left|right]. apply in_or_app. now right.
Qed.
Lemma turn_once s t : turn s t -> NoDup (all_pending s) /\ s_registered s = registrations (s_events s) -> NoDup (all_pending t) /\ s_registered t = registrations (s_events t).
Proof.
  intros H [Hn He]. unfold all_pending in *. destruct H; cbn [s_events s_registered s_work flat_map pending map fst app] in *.
  - now split.
  - split; [assumption|]. unfold registrations. rewrite flat_map_app. fold (registrations es). fold (registrations (conversions reg c)). now rewrite registrations_conversions, app_nil_r.
  - split.
    + rewrite <- app_assoc in Hn. now apply nodup_sub_mid in Hn.
    + unfold registrations. rewrite flat_map_app. fold (registrations es). rewrite <- He. inversion H; subst; cbn [flat_map app]; now rewrite app_nil_r.
  - split; [|assumption]. rewrite map_app, flat_map_app. cbn [map fst flat_map]. rewrite app_nil_r. refine (Permutation_NoDup _ Hn).
    apply Permutation_app_head. apply Permutation_app_tail. apply Permutation_app_comm.
  - split.
    + rewrite map_fst_new. rewrite numbers_nested in Hn. cbn [app] in Hn. rewrite <- !app_assoc in *. cbn [app]. exact Hn.
    + unfold registrations. rewrite flat_map_app. fold (registrations es). rewrite <- He. reflexivity.
Qed.
Lemma initial_once : NoDup (all_numbers ns) -> NoDup (all_pending (initial ns)) /\ s_registered (initial ns) = registrations (s_events (initial ns)).
Proof.
  intro H. split; [|reflexivity]. unfold all_pending, initial; cbn [s_registered s_work app]. unfold all_numbers in H.
  replace (flat_map pending (map (fun l => WQueue None (new_queue l)) ns)) with (flat_map (flat_map numbers) ns); [assumption|].
  clear H. induction ns as [|l r IH]; [reflexivity|]. cbn [map flat_map pending]. now rewrite map_fst_new, IH.
Qed.
Lemma scanned_once es b : NoDup (all_numbers ns) -> scanned ns es b -> NoDup (registrations es).
Proof.
  intros Hn (f & H). destruct (run_reach _ _ _ _ H) as (t & R & <- & _).
  assert (K : NoDup (all_pending t) /\ s_registered t = registrations (s_events t)).
  { clear H. revert t R. apply reach_ind'; [now apply initial_once|]. intros a b' Ha Hs. apply turn_once with a; [now apply step_turn|assumption]. }
  destruct K as [K1 K2]. rewrite <- K2. unfold all_pending in K1. now apply nodup_left in K1.
Qed.

(** ** Every class is accounted for *)
Inductive acc (s : scan) : cls -> Prop :=
| acc_pending o c k q : In (WQueue o q) (s_work s) -> In (c, k) q -> acc s c
| acc_registered c o :
    In (ERegistered (c_id c) (c_bases c) o) (s_events s) ->
    (In (WConversions c) (s_work s) \/ forall t, In t (c_targets c) -> In (EConversion (c_id c) t) (s_events s) \/ In (EMissingTarget (c_id c) t) (s_events s)) ->
    (forall d, In d (c_nested c) -> acc s d) -> acc s c
| acc_ignored c : c_ignored c = true -> acc s c
| acc_anonymous c o : c_anonymous c = true -> In (EAnonymous (c_id c) o) (s_events s) -> acc s c
| acc_private c : c_private c = true -> acc s c
| acc_base c b : In b (c_bases c) -> In (EMissingBase (c_id c) b) (s_events s) -> acc s c.
Lemma turn_events s t e : turn s t -> In e (s_events s) -> In e (s_events t).
Proof. intros H He. destruct H; cbn [s_events] in *; try assumption; apply in_or_app; now left. Qed.
Lemma turn_pending s t o c k q : turn s t -> In (WQueue o q) (s_work s) -> In (c, k) q -> acc t c.
Proof.
  intros H Hw Hq. destruct H; cbn [s_work In] in Hw.
  - destruct Hw as [Hw|Hw]; [injection Hw as <- <-; destruct Hq|]. now apply acc_pending with o k q.
  - destruct Hw as [Hw|Hw]; [discriminate|]. now apply acc_pending with o k q.
  - destruct Hw as [Hw|Hw]; [|apply acc_pending with o k q; [now right|assumption]]. injection Hw as <- <-. destruct Hq as [Hq|Hq]; [|apply acc_pending with o0 k q0; [now left|assumption]].
    injection Hq as -> ->. inversion H; subst.
    + now apply acc_ignored.
    + apply acc_anonymous with o0; [assumption|]. cbn [s_events]. apply in_or_app. right. now left.
    + now apply acc_private.
    + apply acc_base with b; [assumption|]. cbn [s_events]. apply in_or_app. right. now left.
  - destruct Hw as [Hw|Hw]; [|apply acc_pending with o k q; [now right|assumption]]. injection Hw as <- <-. destruct Hq as [Hq|Hq].
    + injection Hq as -> ->. apply acc_pending with o0 (k + 1) (q0 ++ [(c, k + 1)]); [now left|]. apply in_or_app. right. now left.
    + apply acc_pending with o0 k (q0 ++ [(c0, k0 + 1)]); [now left|]. apply in_or_app. now left.
  - destruct Hw as [Hw|Hw]; [|apply acc_pending with o k q; [now do 3 right|assumption]]. injection Hw as <- <-. destruct Hq as [Hq|Hq].
    + injection Hq as -> ->. apply acc_registered with o0.
      * cbn [s_events]. apply in_or_app. right. now left.
      * left. cbn [s_work]. right. now left.
      * intros d Hd. apply acc_pending with (Some (c_id c)) 0 (new_queue (c_nested c)); [now left|]. unfold new_queue. apply in_map_iff. now exists d.
    + apply acc_pending with o0 k q0; [do 2 right; now left|assumption].
Qed.
Lemma turn_conversion s t c : turn s t -> In (WConversions c) (s_work s) ->
  In (WConversions c) (s_work t) \/ forall x, In x (c_targets c) -> In (EConversion (c_id c) x) (s_events t) \/ In (EMissingTarget (c_id c) x) (s_events t).
Proof.
  intros H Hw. destruct H; cbn [s_work In] in Hw; destruct Hw as [Hw|Hw]; try discriminate.
  - now left.
  - injection Hw as ->. right. intros x Hx. cbn [s_events]. assert (Hin : In (if mem x reg then EConversion (c_id c) x else EMissingTarget (c_id c) x) (es ++ conversions reg c)).
    { apply in_or_app. right. unfold conversions. apply in_map_iff. now exists x. } destruct (mem x reg); auto.
  - now left.
  - left. now right.
  - left. now right.
  - left. now do 3 right.
Qed.
Lemma turn_acc s t c : turn s t -> acc s c -> acc t c.
Proof.
  intros H A. induction A as [o c k q Hw Hq|c o He Hc Hn IH|c Hi|c o Ha He|c Hp|c b Hb He].
  - now apply turn_pending with s o k q.
  - apply acc_registered with o; [now apply turn_events with s| |assumption]. destruct Hc as [Hc|Hc]; [now apply turn_conversion with s|].
    right. intros x Hx. destruct (Hc x Hx) as [K|K]; [left|right]; now apply turn_events with s.
  - now apply acc_ignored.
  - apply acc_anonymous with o; [assumption|]. now apply turn_events with s.
  - now apply acc_private.
  - apply acc_base with b; [assumption|]. now apply turn_events with s.
Qed.
Lemma acc_final s c : s_work s = [] -> acc s c -> accounted (s_events s) c.
Proof.
  intros H A. induction A as [o c k q Hw Hq|c o He Hc Hn IH|c Hi|c o Ha He|c Hp|c b Hb He].
  - rewrite H in Hw. destruct Hw.
  - apply accounted_registered with o; [assumption| |assumption]. destruct Hc as [Hc|Hc]; [|assumption]. rewrite H in Hc. destruct Hc.
  - now apply accounted_ignored.
  - now apply accounted_anonymous with o.
  - now apply accounted_private.
  - now apply accounted_base with b.
Qed.
Lemma reach_acc t l c : reach (initial ns) t -> In l ns -> In c l -> acc t c.
Proof.
  intros R Hl Hc. revert t R. apply reach_ind'.
  - apply acc_pending with None 0 (new_queue l).
    + unfold initial; cbn [s_work]. apply in_map_iff. now exists l.
    + unfold new_queue. apply in_map_iff. now exists c.
  - intros a b Ha Hs. apply turn_acc with a; [now apply step_turn|assumption].
Qed.
Lemma scanned_accounted es l c : scanned ns es true -> In l ns -> In c l -> accounted es c.
Proof.
  intros (f & H) Hl Hc. destruct (run_reach _ _ _ _ H) as (t & R & <- & Hs). apply acc_final; [now apply finished_work|]. now apply reach_acc with l.
Qed.
End Safety.
