(** Executing initialisation code. *)
From Verif.Model Require Import Py Import.
From Verif.Spec Require Import ImportSpec.
From Verif.Proofs Require Import StrLemmas.
From Coq Require Import Lia.
Open Scope string_scope.
Open Scope list_scope.

Lemma run_app step a b r : run step (a ++ b) r = match run step a r with Imported r' => run step b r' | o => o end.
Proof. revert r. induction a as [|s a IH]; intros r; cbn; [reflexivity|]. destruct (step s r); auto. Qed.
Lemma tid_eqb_spec a b : reflect (a = b) (tid_eqb a b).
Proof. destruct a as [i|i], b as [j|j]; cbn; try (constructor; congruence); destruct (Nat.eqb_spec i j); constructor; congruence. Qed.

Lemma prefix_split p : forall s, String.prefix p s = true -> exists y, s = (p ++ y)%string.
Proof.
  induction p as [|a p IH]; intros s H; [exists s; reflexivity|]. destruct s as [|b s]; [discriminate|]. cbn in H. destruct (Ascii.ascii_dec a b) as [->|]; [|discriminate]. destruct (IH s H) as [y ->]. exists y. reflexivity.
Qed.
Lemma prefix_app p y : String.prefix p (p ++ y) = true.
Proof. induction p as [|a p IH]; [now destruct y|]. cbn. destruct (Ascii.ascii_dec a a); [exact IH|congruence]. Qed.
Lemma split_named_some s : forall x, split_named s = Some x -> exists y, s = (x ++ " named " ++ y)%string.
Proof.
  induction s as [|a s IH]; [discriminate|]. intros x. cbn [split_named]. destruct (String.prefix " named " (String a s)) eqn:P.
  - intros [= <-]. apply prefix_split in P. exact P.
  - destruct (split_named s) as [y|]; [|discriminate]. intros [= <-]. destruct (IH y eq_refl) as [z ->]. exists z. reflexivity.
Qed.
Lemma split_named_none a b : split_named (a ++ " named " ++ b) <> None.
Proof.
  induction a as [|c a IH].
  { assert (P : String.prefix " named " (" named " ++ b) = true) by apply prefix_app. change (split_named (String " " ("named " ++ b)) <> None). cbn [split_named].
    change (String " " ("named " ++ b)) with (" named " ++ b)%string. rewrite P. discriminate. }
  change (split_named (String c (a ++ " named " ++ b)) <> None). cbn [split_named].
  destruct (String.prefix " named " (String c (a ++ " named " ++ b))); [discriminate|]. destruct (split_named (a ++ " named " ++ b)); [discriminate|congruence].
Qed.
Lemma names_import s mn : names_module s mn -> import_module s = mn.
Proof.
  unfold import_module. destruct 1 as [s H|a b H].
  - destruct (split_named s) as [x|] eqn:E; [|reflexivity]. destruct (split_named_some s x E) as [y Y]. exfalso. exact (H x y Y).
  - destruct (split_named (a ++ " named " ++ b)) as [x|] eqn:E; [|destruct (split_named_none a b E)]. destruct (split_named_some _ x E) as [y Y]. exact (H x y Y).
Qed.
Section Exec.
  Variable decls : list decl.
  Variable const : string -> option Z.
  Variable external : string -> option (string -> bool).
  Notation exec := (exec decls external).
  Notation declared := (declared decls).
  Notation code := (module_code decls const).

  (** ** The code as one list *)
  Definition expand (f : nat -> list stmt) (s : stmt) : list stmt := match s with SCall m k n => f k ++ [SAdd m n (XModule k)] | _ => [s] end.
  Fixpoint flat (fuel m : nat) : list stmt :=
    match fuel with O => [] | S f => flat_map (expand (flat f)) (code m) end.

  Lemma numbered_in k d : In (k, d) (numbered decls) <-> declared k d.
  Proof.
    unfold numbered, declared. assert (X : forall l b, In (k, d) (combine (seq b (length l)) l) <-> b <= k /\ nth_error l (k - b) = Some d).
    { induction l as [|x l IH]; intros b; cbn [length seq combine].
      - split; [intros []|]. intros [_ H]. destruct (k - b); discriminate.
      - cbn [In]. rewrite IH. split.
        + intros [[= <- <-]|[L H]]; [split; [lia|now rewrite Nat.sub_diag]|]. split; [lia|]. replace (k - b) with (S (k - S b)) by lia. exact H.
        + intros [L H]. destruct (Nat.eq_dec k b) as [->|Ne]; [left; rewrite Nat.sub_diag in H; cbn in H; congruence|]. right. split; [lia|]. replace (k - b) with (S (k - S b)) in H by lia. exact H. }
    rewrite X. rewrite Nat.sub_0_r. intuition lia.
  Qed.
  Lemma numbered_split l1 k d l2 : numbered decls = l1 ++ (k, d) :: l2 -> forall j e, In (j, e) l1 <-> declared j e /\ j < k.
  Proof.
    unfold numbered. assert (X : forall l b, combine (seq b (length l)) l = l1 ++ (k, d) :: l2 -> forall j e, In (j, e) l1 <-> In (j, e) (combine (seq b (length l)) l) /\ j < k).
    { intros l b E j e. assert (Sorted : forall (l : list decl) b l1 k d l2, combine (seq b (length l)) l = l1 ++ (k, d) :: l2 -> (forall j e, In (j, e) l1 -> j < k) /\ (forall j e, In (j, e) l2 -> k < j)).
      { clear. induction l as [|x l IH]; intros b l1 k d l2 E; [destruct l1; discriminate|]. cbn [length seq combine] in E.
        assert (Ge : forall j e, In (j, e) (combine (seq (S b) (length l)) l) -> b < j).
        { intros j e H. apply in_combine_l in H. apply in_seq in H. lia. }
        destruct l1 as [|[y1 y2] l1]; cbn in E.
        - injection E as -> -> E2. split; [intros j e []|]. rewrite <- E2. eauto.
        - injection E as <- <- E2. destruct (IH _ _ _ _ _ E2) as [A B]. split; [|exact B]. intros j e [[= <- <-]|H]; [|eauto]. apply (Ge k d). rewrite E2. apply in_elt. }
      destruct (Sorted _ _ _ _ _ _ E) as [A B]. rewrite E. split.
      - intros H. split; [apply in_or_app; now left|eauto].
      - intros [H L]. apply in_app_iff in H. destruct H as [H|[[= <- <-]|H]]; [assumption|lia|]. apply B in H. lia. }
    intros E j e. rewrite (X decls 0 E j e). rewrite <- (numbered_in j e). reflexivity.
  Qed.


  (** ** The code of a module *)
  Definition item_code (k : nat) (d : decl) : list stmt :=
    match d with
    | DModule _ _ _ => []
    | DFunction m n => [SAdd m n (XFunction k)]
    | DClass m c => class_code k m c
    | DContainer m n o => container_code k m n o
    | DException m n o p s => exception_code k m n o p s
    | DTypedef m c a => [SAdd m a (XType (Cls c))]
    | DEnum m vs p ns o i => enum_code const m (enum_exprs decls m vs p ns o) o i
    end.
  Definition home_of (d : decl) : option nat :=
    match d with
    | DModule _ _ _ => None
    | DFunction m _ | DClass m _ | DContainer m _ _ | DException m _ _ _ _ | DTypedef m _ _ | DEnum m _ _ _ _ _ => Some m
    end.
  Lemma home_spec k m : home decls k m <-> exists d, declared k d /\ home_of d = Some m.
  Proof. clear const external. unfold home. split; intros (d & H & E); exists d; (split; [exact H|]); destruct d; cbn in *; congruence || tauto. Qed.
  Definition own (m : nat) : list stmt :=
    flat_map (functions_code m) (numbered decls) ++
    flat_map (classes_code m true) (numbered decls) ++ flat_map (classes_code m false) (numbered decls) ++
    flat_map (containers_code m) (numbered decls) ++ flat_map (exceptions_code m) (numbered decls) ++
    flat_map (typedefs_code m) (numbered decls) ++ flat_map (enums_code decls const m) (numbered decls).
  Lemma code_own m : code m = own m ++ flat_map (submodules_code m) (numbered decls).
  Proof. unfold module_code, own. now rewrite <- !app_assoc. Qed.
  Definition plain (s : stmt) : Prop := match s with SCall _ _ _ => False | _ => True end.
  Lemma attach_plain m o n x : plain (attach m o n x).
  Proof. destruct o; exact Logic.I. Qed.
  Lemma item_plain k d : Forall plain (item_code k d).
  Proof.
    destruct d as [p n x|m n|m c|m n o|m n o p s|m c a|m vs p ns o i]; cbn [item_code]; repeat constructor; try apply attach_plain.
    - unfold class_code. destruct (c_import c); [repeat constructor|]. repeat (apply Forall_app; split).
      + induction (c_capsules c); cbn; repeat constructor; assumption.
      + destruct (c_static c); repeat constructor.
      + destruct (c_bases c); repeat constructor.
      + repeat constructor. apply attach_plain.
      + destruct (c_iter c); repeat constructor.
    - unfold exception_code. destruct s; repeat constructor. apply attach_plain.
    - unfold enum_code. destruct i; [constructor|]. induction (enum_exprs _ _ _ _ _ _); cbn; constructor; [apply attach_plain|assumption].
  Qed.
  Lemma own_in m s : In s (own m) <-> exists k d, declared k d /\ home_of d = Some m /\ In s (item_code k d).
  Proof.
    unfold own. rewrite !in_app_iff, !in_flat_map. split.
    - intros H. repeat (destruct H as [H|H]); destruct H as ([k d] & Hn & H); apply numbered_in in Hn; exists k, d; (split; [exact Hn|]); destruct d as [p n x|m' n|m' c|m' n o|m' n o p t|m' c a|m' vs p ns o i];
        cbn [functions_code classes_code containers_code exceptions_code typedefs_code enums_code snd fst home_of item_code] in *; try contradiction;
        (destruct (Nat.eqb_spec m' m) as [->|]; cbn [andb] in H; [|contradiction]; try (split; [reflexivity|exact H]));
        (split; [reflexivity|]); destruct (c_import c); cbn [Bool.eqb] in H; try contradiction; exact H.
    - intros (k & d & Hk & Hm & H). apply numbered_in in Hk. destruct d as [p n x|m' n|m' c|m' n o|m' n o p t|m' c a|m' vs p ns o i]; cbn in Hm; [discriminate| | | | | | ]; injection Hm as ->.
      + left. exists (k, DFunction m n). split; [exact Hk|]. cbn [functions_code snd fst]. now rewrite Nat.eqb_refl.
      + destruct (c_import c) eqn:Ci.
        * right. left. exists (k, DClass m c). split; [exact Hk|]. cbn [classes_code snd fst]. now rewrite Nat.eqb_refl, Ci.
        * right. right. left. exists (k, DClass m c). split; [exact Hk|]. cbn [classes_code snd fst]. now rewrite Nat.eqb_refl, Ci.
      + do 3 right. left. exists (k, DContainer m n o). split; [exact Hk|]. cbn [containers_code snd fst]. now rewrite Nat.eqb_refl.
      + do 4 right. left. exists (k, DException m n o p t). split; [exact Hk|]. cbn [exceptions_code snd fst]. now rewrite Nat.eqb_refl.
      + do 5 right. left. exists (k, DTypedef m c a). split; [exact Hk|]. cbn [typedefs_code snd fst]. now rewrite Nat.eqb_refl.
      + do 6 right. exists (k, DEnum m vs p ns o i). split; [exact Hk|]. cbn [enums_code snd fst]. now rewrite Nat.eqb_refl.
  Qed.
  Lemma expand_plain f l : Forall plain l -> flat_map (expand f) l = l.
  Proof. induction 1 as [|s l Hs Hl IH]; [reflexivity|]. cbn [flat_map]. rewrite IH. destruct s; try reflexivity. destruct Hs. Qed.
  Lemma own_plain m : Forall plain (own m).
  Proof. apply Forall_forall. intros s H. apply own_in in H. destruct H as (k & d & _ & _ & H). exact (proj1 (Forall_forall _ _) (item_plain k d) s H). Qed.
  (** The submodules, each with its registration. *)
  Definition sub_flat (f : nat) (m : nat) (x : nat * decl) : list stmt :=
    match snd x with DModule (Some m') n _ => if Nat.eqb m' m then flat f (fst x) ++ [SAdd m n (XModule (fst x))] else [] | _ => [] end.
  Lemma flat_eq f m : flat (S f) m = own m ++ flat_map (sub_flat f m) (numbered decls).
  Proof.
    cbn [flat]. rewrite code_own, flat_map_app, (expand_plain _ _ (own_plain m)). f_equal. induction (numbered decls) as [|[k d] l IH]; [reflexivity|]. cbn [flat_map]. rewrite flat_map_app, IH. f_equal.
    unfold submodules_code, sub_flat. cbn [snd fst]. destruct d as [[p|] n x| | | | | |]; try reflexivity. destruct (Nat.eqb p m); [|reflexivity]. cbn [flat_map expand]. now rewrite app_nil_r.
  Qed.

  Hypothesis Wf : well_formed decls.
  Lemma parent_lt b p : parent decls b p -> p < b /\ b < length decls.
  Proof. intros (n & x & H). destruct Wf as [_ W]. pose proof (W b _ H) as [L _]. split; [exact L|]. apply nth_error_Some. unfold declared, ImportSpec.declared in H. congruence. Qed.
  Lemma init_flat f : forall m r, length decls <= f + m -> m < length decls -> init decls const external f m r = run exec (flat f m) r.
  Proof.
    induction f as [|f IH]; intros m r L Lm; [lia|]. cbn [init flat].
    assert (Sub : forall m' k n, In (SCall m' k n) (code m) -> parent decls k m).
    { intros m' k n H. rewrite code_own in H. apply in_app_iff in H. destruct H as [H|H].
      - exfalso. exact (proj1 (Forall_forall _ _) (own_plain m) _ H).
      - apply in_flat_map in H. destruct H as ([j d] & Hj & H). apply numbered_in in Hj. unfold submodules_code in H. cbn [snd fst] in H. destruct d as [[p|] n' x| | | | | |]; try contradiction.
        destruct (Nat.eqb_spec p m) as [->|]; [|contradiction]. destruct H as [[= <- <- <-]|[]]. exists n', x. exact Hj. }
    revert r Sub. induction (code m) as [|s l IHl]; intros r Sub; [reflexivity|]. cbn [run flat_map]. rewrite run_app.
    assert (E : run exec (expand (flat f) s) r = match s with SCall m' k n => match init decls const external f k r with Imported r' => Imported (add_to r' m' n (XModule k)) | o => o end | _ => exec s r end).
    { destruct s as [?|?|?|?|?|?|?|m' k n]; cbn [expand run]; try (destruct (exec _ r); reflexivity). rewrite run_app. destruct (parent_lt k m) as [A B]; [eapply Sub; left; reflexivity|].
      rewrite (IH k r) by lia. destruct (run exec (flat f k) r); reflexivity. }
    rewrite E. match goal with |- match ?x with _ => _ end = _ => destruct x as [r'| |] end; [|reflexivity|reflexivity]. apply IHl. intros; eapply Sub; right; eassumption.
  Qed.
End Exec.
