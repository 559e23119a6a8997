(** Free functions: order, annotations, calls *)
From Coq Require Import Lia Permutation Sorted.
From Verif.Model Require Import Py Annotations FunctionScan.
From Verif.Spec Require Import AnnotationSpec FunctionScanSpec.
From Verif.Proofs Require Import StrLemmas AnnotationProofs FunctionTextProofs.
Open Scope list_scope.
Open Scope string_scope.

(** ** Order *)
Lemma compare_refl s : String.compare s s = Eq.
Proof. pose proof (String.compare_antisym s s) as X. destruct (String.compare s s); [reflexivity|discriminate X|discriminate X]. Qed.
Lemma key_le_iff f g : key_le f g = true <-> in_order f g.
Proof.
  unfold key_le, in_order, String.leb. destruct (String.compare (f_name f) (f_name g)) eqn:E.
  - apply String.compare_eq_iff in E. rewrite E. destruct (String.compare (f_decl f) (f_decl g)); split; try discriminate; try reflexivity; intros H; try (right; split; [reflexivity|discriminate]).
    destruct H as [H|(_ & H)]; [discriminate|congruence].
  - split; [now left|reflexivity].
  - split; [discriminate|]. intros [H|(H & _)]; [discriminate|]. rewrite H, compare_refl in E. discriminate.
Qed.
Lemma in_order_total f g : key_le f g = false -> in_order g f.
Proof.
  unfold key_le, in_order, String.leb. rewrite (String.compare_antisym (f_name f)). destruct (String.compare (f_name g) (f_name f)) eqn:E; cbn [CompOpp]; intros H.
  - right. split; [now apply String.compare_eq_iff|]. rewrite String.compare_antisym. destruct (String.compare (f_decl f) (f_decl g)); cbn; congruence.
  - now left.
  - discriminate.
Qed.
Lemma insert_in x y l : In y (insert x l) <-> y = x \/ In y l.
Proof.
  induction l as [|z l IH]; cbn [insert]; [cbn; intuition|]. destruct (key_le x z); cbn [In]; [intuition|]. rewrite IH. intuition.
Qed.
Lemma insert_sorted x l : Sorted in_order l -> Sorted in_order (insert x l).
Proof.
  induction 1 as [|y l S IH H]; cbn [insert]; [repeat constructor|]. destruct (key_le x y) eqn:E.
  - constructor; [constructor; assumption|]. constructor. now apply key_le_iff.
  - constructor; [exact IH|]. destruct l as [|z l]; cbn [insert]; [constructor; now apply in_order_total|].
    destruct (key_le x z); constructor; [now apply in_order_total|now inversion H].
Qed.
Definition same_key (k : string * string) (f : function) : bool := String.eqb (fst k) (f_name f) && String.eqb (snd k) (f_decl f).
Lemma key_le_refl f g : f_name f = f_name g -> f_decl f = f_decl g -> key_le f g = true.
Proof.
  intros A B. apply key_le_iff. right. split; [exact A|]. rewrite B. intros H. pose proof (String.compare_antisym (f_decl g) (f_decl g)) as X. rewrite H in X. discriminate X.
Qed.
Lemma insert_filter k x l : filter (same_key k) (insert x l) = filter (same_key k) (x :: l).
Proof.
  induction l as [|y l IH]; cbn [insert]; [reflexivity|]. destruct (key_le x y) eqn:E; [reflexivity|].
  cbn [filter]. cbn [filter] in IH. rewrite IH. destruct (same_key k x) eqn:X, (same_key k y) eqn:Y; try reflexivity. exfalso.
  unfold same_key in X, Y. apply Bool.andb_true_iff in X, Y. destruct X as (X1 & X2), Y as (Y1 & Y2). apply String.eqb_eq in X1, X2, Y1, Y2. rewrite key_le_refl in E; congruence.
Qed.
Definition shown (f : function) : bool := match strip_prefix "__" (f_name f) with Some _ => false | None => true end.
Lemma shown_iff f : shown f = true <-> ~ hidden f.
Proof.
  unfold shown, hidden. destruct (strip_prefix "__" (f_name f)) as [r|] eqn:E.
  - apply strip_prefix_iff in E. split; [discriminate|]. intros H. elim H. eauto.
  - split; [|reflexivity]. intros _ (r & H). now apply (strip_prefix_none _ _ E) in H.
Qed.
Lemma sort_in l f : In f (fold_right insert [] l) <-> In f l.
Proof. induction l as [|x l IH]; cbn [fold_right]; [tauto|]. rewrite insert_in, IH. cbn. intuition. Qed.
Lemma sort_sorted l : Sorted in_order (fold_right insert [] l).
Proof. induction l as [|x l IH]; cbn [fold_right]; [constructor|]. now apply insert_sorted. Qed.
Lemma sort_filter k l : filter (same_key k) (fold_right insert [] l) = filter (same_key k) l.
Proof. induction l as [|x l IH]; cbn [fold_right]; [reflexivity|]. rewrite insert_filter. cbn [filter]. now rewrite IH. Qed.
Lemma scanned_ordered fs : ordered fs (scanned fs).
Proof.
  unfold ordered, scanned. fold shown. split; [|split; [|split]].
  - intros f H. apply sort_in, filter_In in H. now apply shown_iff.
  - intros f H N. apply sort_in, filter_In. split; [exact H|now apply shown_iff].
  - apply sort_sorted.
  - intros k N. fold (same_key k). rewrite sort_filter. clear - N. induction fs as [|f fs IH]; cbn [filter]; [reflexivity|]. destruct (same_key k f) eqn:K.
    + assert (S : shown f = true). { apply shown_iff. intros (r & H). apply N. exists r. unfold same_key in K. apply Bool.andb_true_iff in K. destruct K as (K & _). apply String.eqb_eq in K. congruence. }
      rewrite S. cbn [filter]. rewrite K. now rewrite IH.
    + destruct (shown f); [cbn [filter]; rewrite K|]; exact IH.
Qed.

(** ** Dicts *)
Lemma dict_get_none {V} (d : dict V) k : dict_get d k = None <-> forall v, ~ In (k, v) d.
Proof.
  induction d as [|[k' v'] d IH]; cbn [dict_get In]; [split; [intros _ v []|reflexivity]|]. destruct (String.eqb_spec k k') as [->|N].
  - split; [discriminate|]. intros H. elim (H v'). now left.
  - rewrite IH. split; intros H v; [intros [E|I]; [congruence|exact (H v I)]|]. intros I. apply (H v). now right.
Qed.
Lemma dict_set_updated d k v : updated k v d (dict_set d k v).
Proof. induction d as [|[k' v'] d IH]; cbn [dict_set]; [constructor|]. destruct (String.eqb_spec k k') as [->|N]; constructor; [congruence|exact IH]. Qed.
Lemma updated_fun k v d d' : updated k v d d' -> d' = dict_set d k v.
Proof.
  induction 1; cbn [dict_set]; [reflexivity|now rewrite String.eqb_refl|]. match goal with |- context [String.eqb ?a ?b] => destruct (String.eqb_spec a b); [congruence|] end. now f_equal.
Qed.
Lemma set_new (d : notes) k v : (forall x, ~ In (k, x) d) -> dict_set d k v = (d ++ [(k, v)])%list.
Proof.
  induction d as [|[k' v'] d IH]; intros N; cbn [dict_set app]; [reflexivity|]. destruct (String.eqb_spec k k') as [->|]; [elim (N v'); now left|]. f_equal. apply IH. intros x H. apply (N x). now right.
Qed.
Lemma preset_iff k v d d' : preset k v d d' <-> d' = setdefault k v d.
Proof.
  unfold preset, setdefault. destruct (dict_get d k) as [x|] eqn:E.
  - assert (I : exists x, In (k, x) d). { clear - E. induction d as [|[k' v'] d IH]; cbn in E; [discriminate|]. destruct (String.eqb_spec k k') as [->|]; [exists v'; now left|]. destruct (IH E) as (y & H). exists y. now right. }
    split; [intros [(_ & H)|(N & _)]; [exact H|contradiction]|intros ->; now left].
  - pose proof (proj1 (dict_get_none _ _) E) as N. rewrite set_new by exact N. split; [intros [((y & H) & _)|(_ & H)]; [elim (N y H)|exact H]|intros ->; right; split; [intros (y & H); exact (N y H)|reflexivity]].
Qed.
Lemma notes_iff f p d : parameter_notes f p d <-> d = notes_of f p.
Proof.
  unfold parameter_notes, notes_of. destruct (dict_get (f_param_notes f) p); split.
  - intros [H|(H & _)]; congruence.
  - intros ->. now left.
  - intros [H|(_ & H)]; congruence.
  - intros ->. now right.
Qed.
Lemma get_iff {V} (d : dict (option V)) k v : NoDup (map fst d) -> (get d k = Some v <-> In (k, Some v) d).
Proof.
  intros N. rewrite <- (dict_get_in d k (Some v) N). unfold get. destruct (dict_get d k) as [[?|]|]; split; congruence.
Qed.
Lemma get_none {V} (d : dict (option V)) k : NoDup (map fst d) -> (get d k = None <-> forall v, ~ In (k, Some v) d).
Proof.
  intros N. split.
  - intros E v H. apply get_iff in H; [congruence|exact N].
  - intros H. destruct (get d k) as [v|] eqn:E; [|reflexivity]. apply get_iff in E; [|exact N]. elim (H v E).
Qed.
Lemma true_text_some v : true_text v = true <-> exists s, s <> "" /\ v = Some s.
Proof.
  unfold true_text. destruct v as [s|]; [|split; [discriminate|intros (s & _ & H); discriminate]]. destruct (String.eqb_spec s "") as [->|N]; split; try discriminate; try reflexivity; eauto.
  intros (s & N & [= <-]). congruence.
Qed.
Lemma lower_spells s w : lower s = w -> spells s w.
Proof.
  revert w. induction s as [|c s IH]; intros w <-; [reflexivity|]. unfold spells. cbn. rewrite small_lower. f_equal. apply IH. reflexivity.
Qed.
Lemma parse_boolean_iff v b : parse_boolean v = Ok b <-> exists s, v = Some s /\ boolean s b.
Proof.
  split.
  - destruct v as [s|]; cbn [parse_boolean]; [|discriminate]. intros H. exists s. split; [reflexivity|]. cbn [existsb] in H. rewrite !Bool.orb_false_r in H.
    destruct (String.eqb_spec (lower s) "false") as [E|]; cbn [orb] in H; [injection H as <-; left; now apply lower_spells|].
    destruct (String.eqb_spec (lower s) "off") as [E|]; [injection H as <-; right; now apply lower_spells|].
    destruct (String.eqb_spec (lower s) "true") as [E|]; cbn [orb] in H; [injection H as <-; left; now apply lower_spells|].
    destruct (String.eqb_spec (lower s) "on") as [E|]; [injection H as <-; right; now apply lower_spells|discriminate].
  - intros (s & -> & B). now apply boolean_parse.
Qed.

Section Scan.
  Context {R P : Type} (lookup_return : string -> notes -> res R) (lookup_parameter : string -> string -> notes -> option string -> res P)
          (known_return : R -> bool) (known_parameter : P -> bool) (find_class : string -> res string)
          (exceptions_of : option string -> res (list string)).
  Local Notation read := (read exceptions_of).
  Local Notation directive := (directive exceptions_of).

  (** What the annotations say, in order. *)
  Definition value_in (l : notes) (n : string) (before : option string) : option string := match dict_get l n with Some v => v | None => before end.
  Definition strange_names (l : notes) : list string := map fst (filter (fun x => negb (existsb (String.eqb (fst x)) understood)) l).
  Definition read_right (l : notes) (d d' : directives) : Prop :=
    v_method d' = value_in l "as_method" (v_method d) /\ v_class d' = value_in l "of_class" (v_class d) /\ v_name d' = value_in l "name" (v_name d) /\
    v_ignore d' = (match dict_get l "ignore" with Some _ => true | None => v_ignore d end) /\
    (match dict_get l "unblock_threads" with Some v => exists b, parse_boolean v = Ok b /\ v_unblock d' = Some b | None => v_unblock d' = v_unblock d end) /\
    (match dict_get l "throw" with Some v => exists x, exceptions_of v = Ok x /\ v_throw d' = Some x | None => v_throw d' = v_throw d end) /\
    v_warned d' = (v_warned d ++ strange_names l)%list.
  Local Ltac one n k := destruct (String.eqb_spec n k) as [->|].
  Lemma directive_right n v d d1 : directive n v d = Ok d1 -> read_right [(n, v)] d d1.
  Proof.
    unfold directive, read_right, value_in, strange_names. intros H. cbn [dict_get filter map fst].
    one n "as_method"; [injection H as <-; cbn; rewrite app_nil_r; repeat split|].
    one n "of_class"; [injection H as <-; cbn; rewrite app_nil_r; repeat split|].
    one n "name"; [injection H as <-; cbn; rewrite app_nil_r; repeat split|].
    one n "ignore"; [injection H as <-; cbn; rewrite app_nil_r; repeat split|].
    one n "is_constructor_of"; [injection H as <-; cbn; rewrite app_nil_r; repeat split|].
    one n "pygen_comment"; [injection H as <-; cbn; rewrite app_nil_r; repeat split|].
    one n "template_instance_names"; [injection H as <-; cbn; rewrite app_nil_r; repeat split|].
    one n "unblock_threads". { destruct (parse_boolean v) as [b|e] eqn:B; cbn [bind] in H; [|discriminate]. injection H as <-. cbn. rewrite app_nil_r. repeat split. exists b. split; [exact B|reflexivity]. }
    one n "throw". { destruct (exceptions_of v) as [b|e] eqn:B; cbn [bind] in H; [|discriminate]. injection H as <-. cbn. rewrite app_nil_r. repeat split. exists b. split; [exact B|reflexivity]. }
    injection H as <-. unfold understood. cbn [existsb].
    repeat match goal with N : n <> ?k |- _ => rewrite (proj2 (String.eqb_neq n k) N); let M := fresh in assert (M : k <> n) by congruence; try rewrite (proj2 (String.eqb_neq k n) M); clear M N end.
    cbn. repeat split.
  Qed.
  Lemma read_ok l : NoDup (map fst l) -> forall d d', read l d = Ok d' -> read_right l d d'.
  Proof.
    induction l as [|[n v] l IH]; intros N d d'; cbn [FunctionScan.read].
    - intros [= <-]. unfold read_right, strange_names. cbn. rewrite app_nil_r. repeat split.
    - cbn [map fst] in N. inversion N as [|? ? N1 N2]; subst. destruct (directive n v d) as [d1|e] eqn:E; cbn [bind]; [|discriminate]. intros H. apply IH in H; [|exact N2]. apply directive_right in E.
      assert (G : dict_get l n = None). { apply dict_get_none. intros x X. apply N1. change n with (fst (n, x)). now apply in_map. }
      unfold read_right, value_in in *. destruct E as (E1 & E2 & E3 & E4 & E5 & E6 & E7), H as (H1 & H2 & H3 & H4 & H5 & H6 & H7). cbn [dict_get] in *.
      assert (Q : forall k, (if String.eqb k n then Some v else dict_get l k) = match dict_get l k with Some x => Some x | None => if String.eqb k n then Some v else None end).
      { intros k. destruct (String.eqb_spec k n) as [->|]; [now rewrite G|]. now destruct (dict_get l k). }
      rewrite !Q. split; [|split; [|split; [|split; [|split; [|split]]]]].
      + rewrite H1, E1. now destruct (dict_get l "as_method").
      + rewrite H2, E2. now destruct (dict_get l "of_class").
      + rewrite H3, E3. now destruct (dict_get l "name").
      + rewrite H4, E4. now destruct (dict_get l "ignore").
      + destruct (dict_get l "unblock_threads"); [exact H5|]. rewrite H5. exact E5.
      + destruct (dict_get l "throw"); [exact H6|]. rewrite H6. exact E6.
      + rewrite H7, E7, <- app_assoc. f_equal. unfold strange_names. cbn [filter]. destruct (negb _); reflexivity.
  Qed.
  Lemma read_total l : (forall v, In ("unblock_threads", v) l -> exists s b, v = Some s /\ boolean s b) -> (forall v, In ("throw", v) l -> exists x, exceptions_of v = Ok x) ->
    forall d, exists d', read l d = Ok d'.
  Proof.
    induction l as [|[n v] l IH]; intros A B d; cbn [FunctionScan.read]; [eauto|].
    assert (D : exists d1, directive n v d = Ok d1).
    { unfold directive. repeat match goal with |- context [String.eqb n ?k] => destruct (String.eqb_spec n k) as [->|]; [eauto|] end.
      all: try (destruct (A v ltac:(now left)) as (s & b & -> & Q); rewrite (boolean_parse _ _ Q); cbn [bind]; eauto).
      all: try (destruct (B v ltac:(now left)) as (x & ->); cbn [bind]; eauto). eauto. }
    destruct D as (d1 & ->). cbn [bind]. apply IH; intros u U; [apply A|apply B]; now right.
  Qed.
  Lemma read_readable l d d' : read l d = Ok d' -> (forall v, In ("unblock_threads", v) l -> exists s b, v = Some s /\ boolean s b) /\ (forall v, In ("throw", v) l -> exists x, exceptions_of v = Ok x).
  Proof.
    revert d. induction l as [|[n v] l IH]; intros d; cbn [FunctionScan.read]; [intros _; split; intros v []|]. destruct (directive n v d) as [d1|] eqn:E; cbn [bind]; [|discriminate]. intros H. destruct (IH _ H) as (A & B).
    split; intros u [Q|U]; [|exact (A u U)| |exact (B u U)]; injection Q as -> ->; unfold directive in E; cbn in E.
    - destruct (parse_boolean u) as [b|] eqn:X; [|discriminate]. apply parse_boolean_iff in X. destruct X as (s & -> & X). eauto.
    - destruct (exceptions_of u) as [x|]; [eauto|discriminate].
  Qed.
End Scan.
