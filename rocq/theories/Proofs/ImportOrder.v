(** An import succeeds when what is referred to comes first. *)
From Verif.Model Require Import Py Import.
From Verif.Spec Require Import ImportSpec.
From Verif.Proofs Require Import StrLemmas ImportProofs ImportContents.
From Coq Require Import Lia.
Open Scope string_scope.
Open Scope list_scope.

Section Order.
  Variable decls : list decl.
  Variable const : string -> option Z.
  Variable external : string -> option (string -> bool).
  Notation exec := (exec decls external).
  Notation declared := (declared decls).
  Notation flat := (flat decls const).
  Notation numbered := (numbered decls).

  (** ** The order in which declarations are initialised *)
  Definition item (x : nat * decl) : list stmt :=
    match snd x with DModule (Some m) n _ => [SAdd m n (XModule (fst x))] | d => item_code decls const (fst x) d end.
  Definition here (m : nat) (q : decl -> bool) (x : nat * decl) : bool := q (snd x) && match home_of (snd x) with Some m' => Nat.eqb m' m | None => false end.
  Definition is_function (d : decl) : bool := match d with DFunction _ _ => true | _ => false end.
  Definition is_own (i : bool) (d : decl) : bool := match d with DClass _ c => Bool.eqb i (match c_import c with Some _ => true | None => false end) | _ => false end.
  Definition is_typedef (d : decl) : bool := match d with DTypedef _ _ _ => true | _ => false end.
  Definition is_enum (d : decl) : bool := match d with DEnum _ _ _ _ _ _ => true | _ => false end.
  Definition own_order (m : nat) : list (nat * decl) :=
    filter (here m is_function) numbered ++ filter (here m (is_own true)) numbered ++ filter (here m (is_own false)) numbered ++
    filter (here m is_container) numbered ++ filter (here m is_exception) numbered ++ filter (here m is_typedef) numbered ++ filter (here m is_enum) numbered.
  Section Sub.
    Variable rec : nat -> list (nat * decl).
    Variable m : nat.
    Definition sub_order (x : nat * decl) : list (nat * decl) :=
      match snd x with DModule (Some m') _ _ => if Nat.eqb m' m then rec (fst x) ++ [x] else [] | _ => [] end.
  End Sub.
  Fixpoint order (f m : nat) : list (nat * decl) :=
    match f with O => [] | S f => own_order m ++ flat_map (sub_order (order f) m) numbered end.

  Lemma select (g : nat * decl -> list stmt) (q : nat * decl -> bool) l : (forall x, g x = if q x then item x else (@nil stmt)) -> flat_map g l = flat_map item (filter q l).
  Proof. intros H. induction l as [|x l IH]; [reflexivity|]. cbn [flat_map filter]. rewrite H, IH. destruct (q x); reflexivity. Qed.
  Lemma flat_order f : forall m, flat f m = flat_map item (order f m).
  Proof.
    induction f as [|f IH]; intros m; [reflexivity|]. rewrite flat_eq. cbn [order]. rewrite flat_map_app. f_equal.
    - unfold own, own_order. rewrite !flat_map_app.
      repeat (f_equal; [apply select; intros [k d]; destruct d as [p n x|m' n|m' c|m' n o|m' n o p t|m' c a|m' vs p ns o i]; unfold here, item; cbn [functions_code classes_code containers_code exceptions_code snd fst is_function is_own is_container is_exception is_typedef home_of andb item_code typedefs_code]; try reflexivity;
        (destruct (Nat.eqb_spec m' m) as [->|]; rewrite ?andb_true_r, ?andb_false_r; cbn [andb]; try reflexivity)|]).
      apply select; intros [k d]; destruct d as [p n x|m' n|m' c|m' n o|m' n o p t|m' c a|m' vs p ns o i]; unfold here, item; cbn [enums_code snd fst is_enum home_of andb item_code]; try reflexivity; destruct (Nat.eqb_spec m' m) as [->|]; reflexivity.
    - induction numbered as [|[k d] l IHl]; [reflexivity|]. cbn [flat_map]. rewrite flat_map_app, <- IHl. f_equal. unfold sub_flat, sub_order. cbn [snd fst].
      destruct d as [[p|] n x| | | | | |]; try reflexivity. destruct (Nat.eqb_spec p m) as [->|]; [|reflexivity]. rewrite flat_map_app, IH. reflexivity.
  Qed.

  (** ** What an initialisation needs *)
  Definition requires (d : decl) (o : nat) : Prop :=
    match d with
    | DClass _ c => c_import c = None /\ (c_outer c = Some o \/ In o (c_bases c))
    | DContainer _ _ u => u = Some o
    | DException _ _ u p false => u = Some o \/ p = Some o
    | DEnum _ _ _ _ u false => u = Some o
    | _ => False
    end.
  Section Safe.
  Variable requires : decl -> nat -> Prop.
  Inductive safe_for : (nat -> Prop) -> list (nat * decl) -> Prop :=
  | safe_nil D : safe_for D []
  | safe_cons (D : nat -> Prop) k d l : declared k d -> (forall o, requires d o -> D o) -> safe_for (fun j : nat => D j \/ j = k) l -> safe_for D ((k, d) :: l).
  Lemma safe_more (D D' : nat -> Prop) l : (forall k, D k -> D' k) -> safe_for D l -> safe_for D' l.
  Proof. intros H S. revert D' H. induction S as [|D k d l Dc R S IH]; intros D' H; constructor; auto. apply IH. intros j [X|X]; auto. Qed.
  Lemma safe_app D a b : safe_for D a -> safe_for (fun j => D j \/ In j (map fst a)) b -> safe_for D (a ++ b).
  Proof.
    intros S. revert b. induction S as [|D k d l Dc R S IH]; intros b; cbn [app map fst].
    - apply safe_more. intros j [H|[]]. exact H.
    - intros Sb. constructor; auto. apply IH. eapply safe_more; [|exact Sb]. cbn. intros j [H|[H|H]]; auto.
  Qed.
  (** Declarations selected in order *)
  Lemma safe_filter (D : nat -> Prop) q : (forall k d, declared k d -> q (k, d) = true -> forall o, requires d o -> D o \/ exists e, declared o e /\ o < k /\ q (o, e) = true) -> safe_for D (filter q numbered).
  Proof.
    intros H. assert (X : forall l1 l2, numbered = l1 ++ l2 -> safe_for (fun j => D j \/ In j (map fst (filter q l1))) (filter q l2)).
    { intros l1 l2. revert l1. induction l2 as [|[k d] l2 IH]; intros l1 E; [constructor|]. pose proof (numbered_split decls l1 k d l2 E) as Sp.
      assert (Dk : declared k d) by (apply (numbered_in decls); rewrite E; apply in_elt).
      specialize (IH (l1 ++ [(k, d)])). rewrite <- app_assoc in IH. specialize (IH E). cbn [filter]. destruct (q (k, d)) eqn:Q.
      - constructor; [exact Dk| |].
        + intros o Ro. destruct (H k d Dk Q o Ro) as [Ho|(e & He & Lt & Qo)]; [now left|]. right. apply in_map_iff. exists (o, e). split; [reflexivity|]. apply filter_In. split; [|exact Qo]. now apply Sp.
        + eapply safe_more; [|exact IH]. cbn. intros j. rewrite filter_app, map_app, in_app_iff. cbn [filter]. rewrite Q. cbn. intuition.
      - eapply safe_more; [|exact IH]. cbn. intros j. rewrite filter_app, map_app, in_app_iff. cbn [filter]. rewrite Q. cbn. intuition. }
    specialize (X [] numbered eq_refl). eapply safe_more; [|exact X]. cbn. intuition.
  Qed.
  End Safe.
  Notation safe := (safe_for requires).

  Hypothesis Wf : well_formed decls.
  Hypothesis Ord : in_order decls.
  Lemma requires_before k d o : declared k d -> requires d o -> (nested_in decls k o \/ refers_to decls k o) /\ o < k /\ exists e, declared o e /\ ((exists m c, e = DClass m c) \/ is_exception d = true /\ is_exception e = true).
  Proof.
    intros H Ro. pose proof (proj2 Wf k d H) as W. destruct d as [p n x|m n|m c|m n u|m n u p t|m c a|m vs p ns u i]; cbn in Ro; try contradiction.
    - destruct Ro as [Ci [Ho|Ho]]; destruct W as (_ & _ & Wo & Wb).
      + split; [left; left; eauto|]. destruct (Wo o Ho) as (Lt & m' & c' & He). split; [exact Lt|]. exists (DClass m' c'). eauto.
      + split; [right; left; eauto|]. destruct (Wb o Ho) as (Lt & m' & c' & He). split; [exact Lt|]. exists (DClass m' c'). eauto.
    - subst u. destruct W as (_ & _ & Wo). split; [left; right; left; eauto|]. destruct (Wo o eq_refl) as (Lt & m' & c' & He). split; [exact Lt|]. exists (DClass m' c'). eauto.
    - destruct t; [contradiction|]. destruct W as (_ & _ & Wo & Wp). destruct Ro as [->| ->].
      + split; [left; right; right; eauto|]. destruct (Wo o eq_refl) as (Lt & m' & c' & He). split; [exact Lt|]. exists (DClass m' c'). eauto.
      + split; [right; right; left; eauto|]. destruct (Wp o eq_refl) as (Lt & m' & n' & u' & p' & s' & He). split; [exact Lt|]. exists (DException m' n' u' p' s'). split; [exact He|]. right. auto.
    - destruct i; [contradiction|]. subst u. destruct W as (_ & _ & Wo). split; [right; right; right; eauto 10|]. destruct (Wo o eq_refl) as (Lt & m' & c' & He). split; [exact Lt|]. exists (DClass m' c'). eauto.
  Qed.
  Definition past (m : nat) (k : nat) : Prop := exists a, home decls k a /\ (encloses decls a m \/ earlier_branch decls a m).
  Lemma requires_where k d o m : declared k d -> home_of d = Some m -> requires d o -> past m o \/ home decls o m.
  Proof.
    intros H Hm Ro. destruct (requires_before k d o H Ro) as (R & _ & e & He & Ce). assert (Ha : exists a, home decls o a).
    { destruct Ce as [(m' & c & ->)|(_ & X)]; [exists m', (DClass m' c); auto|]. destruct e; try discriminate. eexists. eexists. split; [exact He|reflexivity]. }
    destruct Ha as [a Ha]. assert (Hk : home decls k m) by (apply home_spec; eauto). destruct Ord as (O1 & O2 & _). destruct R as [R|R].
    - destruct (O1 k o a m R Ha Hk) as [->|B]; [now right|]. left. exists a. auto.
    - destruct (O2 k o a m R Ha Hk) as [->|B]; [now right|]. left. exists a. auto.
  Qed.
  Lemma here_spec m q k d : here m q (k, d) = true <-> q d = true /\ home_of d = Some m.
  Proof.
    unfold here. cbn [snd]. rewrite andb_true_iff. destruct (home_of d) as [m'|]; [|split; intros [_ X]; discriminate]. rewrite Nat.eqb_eq. split; intros [A B]; split; congruence.
  Qed.
  Lemma in_here m q k d : declared k d -> q d = true -> home_of d = Some m -> In k (map fst (filter (here m q) numbered)).
  Proof. intros H Q Hm. apply in_map_iff. exists (k, d). split; [reflexivity|]. apply filter_In. split; [now apply numbered_in|]. now apply here_spec. Qed.
  Lemma home_dec o m e : declared o e -> home decls o m -> home_of e = Some m.
  Proof. intros H Ho. apply home_spec in Ho. destruct Ho as (e' & He' & X). unfold declared, ImportSpec.declared in *. congruence. Qed.
  Lemma safe_own (D : nat -> Prop) m : (forall k, past m k -> D k) -> safe D (own_order m).
  Proof.
    intros Past. unfold own_order.
    assert (Free : forall D q, (forall d o, q d = true -> ~ requires d o) -> safe D (filter (here m q) numbered)).
    { intros D' q N. apply safe_filter. intros k d H Q o Ro. apply here_spec in Q. destruct (N d o (proj1 Q) Ro). }
    apply safe_app; [apply Free; intros [] o; cbn; congruence|].
    apply safe_app; [apply Free; intros [] o; cbn; try congruence; destruct (c_import c); cbn; try discriminate; intros _ [X _]; discriminate|].
    assert (Classes : forall o e (k : nat), declared o e -> home decls o m -> (exists m' c, e = DClass m' c) ->
              In o (map fst (filter (here m (is_own true)) numbered)) \/ here m (is_own false) (o, e) = true).
    { intros o e k He Ho (m' & c & ->). pose proof (home_dec _ _ _ He Ho) as X. destruct (c_import c) eqn:Ci.
      - left. eapply in_here; [exact He|cbn; now rewrite Ci|exact X].
      - right. apply here_spec. split; [cbn; now rewrite Ci|exact X]. }
    assert (Later : forall (D' : nat -> Prop) q, (forall k, D k -> D' k) -> (forall o, In o (map fst (filter (here m (is_own true)) numbered)) -> D' o) -> (forall o, In o (map fst (filter (here m (is_own false)) numbered)) -> D' o) ->
              (forall d, q d = true -> is_exception d = true -> forall e, is_exception e = true -> q e = true) -> safe D' (filter (here m q) numbered)).
    { intros D' q H0 H1 H2 Ex. apply safe_filter. intros k d H Q o Ro. apply here_spec in Q. destruct Q as [Q Hm]. destruct (requires_before k d o H Ro) as (_ & Lt & e & He & Ce).
      destruct (requires_where k d o m H Hm Ro) as [P|P]; [left; auto|]. destruct Ce as [Ce|[X Y]].
      - left. destruct (Classes o e 0 He P Ce) as [Y|Y]; [auto|]. apply H2. apply in_map_iff. exists (o, e). split; [reflexivity|]. apply filter_In. split; [now apply numbered_in|exact Y].
      - right. exists e. split; [exact He|]. split; [exact Lt|]. apply here_spec. split; [eapply Ex; eassumption|]. eapply home_dec; eassumption. }
    apply safe_app.
    { apply safe_filter. intros k d H Q o Ro. apply here_spec in Q. destruct Q as [Q Hm]. destruct (requires_before k d o H Ro) as (_ & Lt & e & He & Ce). destruct (requires_where k d o m H Hm Ro) as [P|P]; [left; auto|].
      destruct Ce as [Ce|[X Y]]; [|destruct d; discriminate]. destruct (Classes o e 0 He P Ce) as [Y|Y]; [left; auto|]. right. eauto. }
    apply safe_app; [apply Later; cbn; auto; intros [] ? ?; discriminate|].
    apply safe_app; [apply Later; cbn; auto|].
    apply safe_app; [apply Later; cbn; auto 10; intros [] ? ?; discriminate|].
    apply Later; cbn; auto 10; intros [] ? ?; discriminate.
  Qed.

  (** All declarations of a module and its submodules are initialised. *)
  Lemma order_own m k : home decls k m -> In k (map fst (own_order m)).
  Proof.
    intros H. apply home_spec in H. destruct H as (d & H & Hm). unfold own_order. rewrite !map_app, !in_app_iff.
    destruct d as [p n x|m' n|m' c|m' n u|m' n u p t|m' c a|m' vs p ns u i]; [discriminate| | | | | |].
    - left. eapply in_here; [exact H|reflexivity|exact Hm].
    - right. destruct (c_import c) eqn:Ci; [left|right; left]; (eapply in_here; [exact H|cbn; now rewrite Ci|exact Hm]).
    - do 3 right. left. eapply in_here; [exact H|reflexivity|exact Hm].
    - do 4 right. left. eapply in_here; [exact H|reflexivity|exact Hm].
    - do 5 right. left. eapply in_here; [exact H|reflexivity|exact Hm].
    - do 6 right. eapply in_here; [exact H|reflexivity|exact Hm].
  Qed.
  Lemma order_all f : forall m m' k, under decls m m' -> home decls k m' -> length decls <= f + m -> In k (map fst (order f m)).
  Proof.
    induction f as [|f IH]; intros m m' k U H L.
    { exfalso. assert (Le : m <= m') by (clear - U Wf; induction U as [|b p P U IHU]; [lia|]; destruct (parent_lt decls Wf b p P); lia).
      apply home_spec in H. destruct H as (d & H & Hm). assert (m' < k) by (pose proof (proj2 Wf k d H) as W; destruct d; try discriminate; cbn in Hm; injection Hm as <-; intuition).
      assert (k < length decls) by (apply nth_error_Some; unfold declared, ImportSpec.declared in H; congruence). lia. }
    cbn [order]. rewrite map_app, in_app_iff. apply under_down in U. destruct U as [->|(c & (n & x & C) & D)]; [left; now apply order_own|]. right.
    assert (P : parent decls c m) by (exists n, x; exact C). destruct (parent_lt decls Wf c m P).
    assert (X : In k (map fst (order f c))) by (eapply IH; [exact D|exact H|lia]). apply in_map_iff in X. destruct X as ([k' e] & <- & X). apply in_map_iff. exists (k', e). split; [reflexivity|].
    apply in_flat_map. exists (c, DModule (Some m) n x). split; [now apply numbered_in|]. unfold sub_order. cbn [snd fst]. rewrite Nat.eqb_refl. apply in_or_app. now left.
  Qed.
  Lemma parent_fun b p p' : parent decls b p -> parent decls b p' -> p = p'.
  Proof. intros (n & x & H) (n' & x' & H'). unfold declared, ImportSpec.declared in *. congruence. Qed.
  Lemma under_up a b p : under decls a b -> parent decls b p -> a = b \/ under decls a p.
  Proof. intros U P. destruct U as [|b p' P' U]; [now left|]. right. now rewrite (parent_fun _ _ _ P P'). Qed.
  Lemma safe_order f : forall m (D : nat -> Prop), length decls <= f + m -> (forall k, past m k -> D k) -> safe D (order f m).
  Proof.
    induction f as [|f IH]; intros m D L Past; [constructor|]. cbn [order]. apply safe_app; [now apply safe_own|].
    assert (X : forall l1 l2, numbered = l1 ++ l2 -> safe (fun j => (D j \/ In j (map fst (own_order m))) \/ In j (map fst (flat_map (sub_order (order f) m) l1))) (flat_map (sub_order (order f) m) l2)).
    { intros l1 l2. revert l1. induction l2 as [|[k d] l2 IHl]; intros l1 E; [constructor|]. pose proof (numbered_split decls l1 k d l2 E) as Sp.
      assert (Dk : declared k d) by (apply (numbered_in decls); rewrite E; apply in_elt).
      specialize (IHl (l1 ++ [(k, d)])). rewrite <- app_assoc in IHl. specialize (IHl E). cbn [flat_map]. apply safe_app.
      - unfold sub_order. cbn [snd fst]. destruct d as [[p|] n x| | | | | |]; try constructor. destruct (Nat.eqb_spec p m) as [->|]; [|constructor].
        assert (P : parent decls k m) by (exists n, x; exact Dk). destruct (parent_lt decls Wf k m P). apply safe_app; [|constructor; [exact Dk|intros o []|constructor]]. apply IH; [lia|].
        intros j (a & Ha & [[Ne U]|(p & c & c' & C & C' & Lt & Uc & Uc')]).
        + destruct (under_up _ _ _ U P) as [->|U']; [congruence|]. left. destruct (Nat.eq_dec a m) as [->|Nm]; [right; now apply order_own|]. left. apply Past. exists a. split; [exact Ha|]. left. split; auto.
        + destruct (under_up _ _ _ Uc' P) as [->|U'].
          * rewrite (parent_fun _ _ _ C' P) in C. right. destruct (parent_lt decls Wf c m C). assert (Y : In j (map fst (order f c))) by (eapply order_all; [exact Uc|exact Ha|lia]).
            apply in_map_iff in Y. destruct Y as ([j' e] & <- & Y). apply in_map_iff. exists (j', e). split; [reflexivity|]. destruct C as (nc & xc & C). apply in_flat_map.
            exists (c, DModule (Some m) nc xc). split; [apply Sp; auto|]. unfold sub_order. cbn [snd fst]. rewrite Nat.eqb_refl. apply in_or_app. now left.
          * left. left. apply Past. exists a. split; [exact Ha|]. right. exists p, c, c'. auto.
      - eapply safe_more; [|exact IHl]. cbn. intros j. rewrite flat_map_app, map_app, in_app_iff. cbn [flat_map]. rewrite app_nil_r. intuition. }
    specialize (X [] numbered eq_refl). eapply safe_more; [|exact X]. cbn. intuition.
  Qed.

  (** ** Running initialisation code that is safe *)
  Hypothesis Ext : found_elsewhere decls external.
  Definition bases_of (k : nat) : list nat := match nth_error decls k with Some (DClass _ c) => match c_import c with None => c_bases c | Some _ => [] end | _ => [] end.
  Record fits (D : nat -> Prop) (r : rt) : Prop := mk_fits {
    f_ready : forall k m c, declared k (DClass m c) -> D k -> is_ready r k = true;
    f_type : forall k y, r_type r (Cls k) = Some y -> t_bases y = bases_of k;
    f_bases : forall k, r_bases r k = [] \/ r_bases r k = bases_of k;
    f_exc : forall k m n u p, declared k (DException m n u p false) -> D k -> r_exc r k = Some p }.
  Lemma fits_add D r m n x : fits D r -> fits D (add_to r m n x).
  Proof. intros [A B C E]. constructor; auto. Qed.
  Lemma fits_dict D r k y n x : fits D r -> r_type r (Cls k) = Some y -> fits D (set_type r (Cls k) (mk_ty (t_bases y) (dict_set (t_dict y) n x))).
  Proof.
    intros [A B C E] Y. constructor; auto.
    - intros j m c Hj Dj. specialize (A j m c Hj Dj). unfold is_ready in *. cbn. destruct (Nat.eqb k j); [reflexivity|exact A].
    - intros j z. cbn. destruct (Nat.eqb_spec k j) as [<-|]; [|apply B]. intros [= <-]. cbn. now apply B.
  Qed.
  Lemma fits_type D r k : fits D r -> fits D (set_type r (Cls k) (mk_ty (bases_of k) [])).
  Proof.
    intros [A B C E]. constructor; auto.
    - intros j m c Hj Dj. specialize (A j m c Hj Dj). unfold is_ready in *. cbn. destruct (Nat.eqb k j); [reflexivity|exact A].
    - intros j z. cbn. destruct (Nat.eqb_spec k j) as [<-|]; [|apply B]. now intros [= <-].
  Qed.
  Lemma fits_iter D r k y : fits D r -> fits D (set_type r (Iter k) y).
  Proof. intros [A B C E]. constructor; auto. Qed.
  Lemma fits_bases D r k : fits D r -> fits D (set_bases r k (bases_of k)).
  Proof. intros [A B C E]. constructor; auto. intros j. cbn. destruct (Nat.eqb_spec k j) as [<-|]; [now right|apply C]. Qed.
  Lemma fits_more D r k d : fits D r -> declared k d -> (forall m c, d = DClass m c -> is_ready r k = true) -> (forall m n u p, d = DException m n u p false -> r_exc r k = Some p) -> fits (fun j => D j \/ j = k) r.
  Proof.
    intros [A B C E] H Hc He. constructor; auto.
    - intros j m c Hj [Dj| ->]; [eauto|]. apply (Hc m c). unfold declared, ImportSpec.declared in *. congruence.
    - intros j m n u p Hj [Dj| ->]; [eauto|]. apply (He m n u p). unfold declared, ImportSpec.declared in *. congruence.
  Qed.
  Lemma attach_runs D r m u n x : fits D r -> (forall o, u = Some o -> is_ready r o = true) -> exists r', exec (attach m u n x) r = Imported r' /\ fits D r' /\ (forall k, is_ready r k = true -> is_ready r' k = true) /\ r_exc r' = r_exc r.
  Proof.
    intros F U. destruct u as [o|]; cbn [attach Import.exec]; [|exists (add_to r m n x); split; [reflexivity|]; split; [now apply fits_add|auto]].
    specialize (U o eq_refl). unfold is_ready in U. destruct (r_type r (Cls o)) as [y|] eqn:Y; [|discriminate]. eexists. split; [reflexivity|]. split; [now apply fits_dict|]. split; [|reflexivity].
    intros k H. unfold is_ready in *. cbn. destruct (Nat.eqb o k); [reflexivity|exact H].
  Qed.
  Lemma ready_runs D r k : fits D r -> (forall b, In b (bases_of k) -> is_ready r b = true) -> r_bases r k = bases_of k -> exists r', ready decls (S (length decls)) k r = Imported r' /\ fits D r' /\ (forall j, is_ready r j = true -> is_ready r' j = true) /\ r_exc r' = r_exc r /\ is_ready r' k = true.
  Proof.
    intros F Rb Eb. assert (Goal_ : exists r', Imported (set_type r (Cls k) (mk_ty (bases_of k) [])) = Imported r' /\ fits D r' /\ (forall j, is_ready r j = true -> is_ready r' j = true) /\ r_exc r' = r_exc r /\ is_ready r' k = true).
    { eexists. split; [reflexivity|]. split; [now apply fits_type|]. split; [|split; [reflexivity|unfold is_ready; cbn; now rewrite Nat.eqb_refl]]. intros j H. unfold is_ready in *. cbn. destruct (Nat.eqb k j); [reflexivity|exact H]. }
    cbn [ready]. destruct (is_ready r k) eqn:Rk; [exists r; auto|]. rewrite Eb. pose proof (root_lt decls Wf) as Ln. destruct (bases_of k) as [|b rest]; [exact Goal_|].
    rewrite (Rb b (or_introl eq_refl)), andb_false_r. destruct (length decls) as [|n]; [lia|]. cbn [ready]. rewrite (Rb b (or_introl eq_refl)).
    replace (forallb (is_ready r) rest) with true; [exact Goal_|]. symmetry. apply forallb_forall. intros j Hj. apply Rb. now right.
  Qed.
  Lemma adds_run D m (l : list string) : forall r, fits D r -> exists r', run exec (map (fun n => SAdd m n (XCapsule n)) l) r = Imported r' /\ fits D r' /\ (forall k, is_ready r k = true -> is_ready r' k = true).
  Proof.
    induction l as [|n l IH]; intros r F; cbn [map run Import.exec]; [exists r; auto|]. destruct (IH (add_to r m n (XCapsule n))) as (r' & R & F' & M); [now apply fits_add|]. exists r'. auto.
  Qed.
  Lemma values_run D m u l : forall r, fits D r -> (forall o, u = Some o -> is_ready r o = true) -> exists r', run exec (map (fun x => attach m u (fst x) (XInt (as_long const (snd x)))) l) r = Imported r' /\ fits D r'.
  Proof.
    induction l as [|e l IH]; intros r F U; cbn [map run]; [eauto|]. destruct (attach_runs D r m u (fst e) (XInt (as_long const (snd e))) F U) as (r1 & -> & F1 & M & _). apply IH; auto.
  Qed.
  Lemma item_runs D r k d : fits D r -> declared k d -> (forall o, requires d o -> D o) -> exists r', run exec (item (k, d)) r = Imported r' /\ fits (fun j => D j \/ j = k) r'.
  Proof.
    intros F H Rq. assert (Rdy : forall o, requires d o -> (exists m c, declared o (DClass m c)) -> is_ready r o = true) by (intros o Ro (m & c & Ho); eapply f_ready; eauto).
    pose proof (proj2 Wf k d H) as W. unfold item. cbn [snd fst].
    destruct d as [[p|] n x|m n|m c|m n u|m n u p t|m c a|m vs p ns u i]; cbn [item_code].
    - eexists. split; [reflexivity|]. eapply fits_more; [apply fits_add; exact F|exact H|discriminate|discriminate].
    - eexists. split; [reflexivity|]. eapply fits_more; [exact F|exact H|discriminate|discriminate].
    - eexists. split; [reflexivity|]. eapply fits_more; [apply fits_add; exact F|exact H|discriminate|discriminate].
    - destruct W as (_ & _ & Wo & Wb). unfold class_code. destruct (c_import c) as [s|] eqn:Ci.
      + destruct (Ext k m c s H Ci) as (mn & has & Nm & He & Hh). cbn [run Import.exec]. rewrite (names_import s mn Nm), He. change (class_name c) with (python_name c). rewrite Hh. cbn [andb]. assert (Bk : bases_of k = []) by (unfold bases_of; unfold declared, ImportSpec.declared in H; now rewrite H, Ci).
        destruct (is_ready r k) eqn:Rk; cbn [negb].
        * eexists. split; [reflexivity|]. eapply fits_more; [exact F|exact H|auto|discriminate].
        * eexists. split; [reflexivity|]. eapply fits_more; [rewrite <- Bk; apply fits_type; exact F|exact H| |discriminate]. intros; unfold is_ready; cbn; now rewrite Nat.eqb_refl.
      + assert (Bk : bases_of k = c_bases c) by (unfold bases_of; unfold declared, ImportSpec.declared in H; now rewrite H, Ci).
        assert (Rb : forall b, In b (c_bases c) -> is_ready r b = true) by (intros b Hb; apply Rdy; [cbn; auto|]; destruct (Wb b Hb) as (_ & m' & c' & X); eauto).
        assert (Ro : forall o, c_outer c = Some o -> is_ready r o = true) by (intros o Ho; apply Rdy; [cbn; auto|]; destruct (Wo o Ho) as (_ & m' & c' & X); eauto).
        rewrite run_app. destruct (adds_run D m (c_capsules c) r F) as (r1 & -> & F1 & M1). rewrite run_app.
        assert (E2 : run exec (if c_static c then [SMeta k (hd_error (c_bases c))] else []) r1 = Imported r1).
        { destruct (c_static c); [|reflexivity]. cbn [run Import.exec]. destruct (c_bases c) as [|b l]; cbn [hd_error]; [reflexivity|]. rewrite (M1 b); [reflexivity|]. apply Rb. now left. }
        rewrite E2, run_app. assert (E3 : exists r2, run exec (match c_bases c with [] => [] | l => [SBases k l] end) r1 = Imported r2 /\ fits D r2 /\ r_type r2 = r_type r1 /\ r_bases r2 k = bases_of k).
        { rewrite Bk. destruct (c_bases c) as [|b l] eqn:Cb.
          - exists r1. split; [reflexivity|]. split; [exact F1|]. split; [reflexivity|]. destruct (f_bases _ _ F1 k) as [X|X]; congruence.
          - cbn [run Import.exec]. replace (forallb (fun b => negb (imported_class decls b) || is_ready r1 b) (b :: l)) with true by (symmetry; apply forallb_forall; intros j Hj; rewrite (M1 j) by (now apply Rb); apply orb_true_r).
            rewrite orb_true_r. eexists. split; [reflexivity|]. split; [rewrite <- Bk; now apply fits_bases|]. split; [reflexivity|]. cbn. now rewrite Nat.eqb_refl. }
        destruct E3 as (r2 & -> & F2 & T2 & B2). assert (M2 : forall j, is_ready r j = true -> is_ready r2 j = true) by (intros j Hj; unfold is_ready; rewrite T2; now apply M1).
        rewrite run_app. cbn [run Import.exec]. destruct (ready_runs D r2 k F2) as (r3 & -> & F3 & M3 & _ & K3); [rewrite Bk; auto|exact B2|].
        destruct (attach_runs D r3 m (c_outer c) (class_name c) (XType (Cls k)) F3) as (r4 & -> & F4 & M4 & _); [auto|].
        destruct (c_iter c); cbn [run Import.exec].
        * eexists. split; [reflexivity|]. eapply fits_more; [apply fits_add, fits_iter; exact F4|exact H| |discriminate]. intros. unfold is_ready. cbn. specialize (M4 k K3). exact M4.
        * eexists. split; [reflexivity|]. eapply fits_more; [exact F4|exact H|auto|discriminate].
    - unfold container_code. destruct W as (_ & _ & Wo). assert (Ro : forall o, u = Some o -> is_ready r o = true) by (intros o Ho; apply Rdy; [exact Ho|]; destruct (Wo o Ho) as (_ & m' & c' & X); eauto).
      assert (Bk : bases_of k = []) by (unfold bases_of; unfold declared, ImportSpec.declared in H; now rewrite H).
      cbn [run Import.exec]. destruct (ready_runs D r k F) as (r3 & -> & F3 & M3 & _ & K3); [rewrite Bk; intros b []|destruct (f_bases _ _ F k) as [X|X]; congruence|].
      destruct (attach_runs D (set_type r3 (Iter k) (mk_ty [] [])) m u n (XType (Cls k))) as (r4 & -> & F4 & M4 & _); [now apply fits_iter| |].
      { intros o Ho. unfold is_ready. cbn. exact (M3 o (Ro o Ho)). }
      destruct (attach_runs D r4 m u (n ++ "Iter") (XType (Iter k))) as (r5 & -> & F5 & M5 & _); [exact F4| |].
      { intros o Ho. apply M4. unfold is_ready. cbn. exact (M3 o (Ro o Ho)). }
      eexists. split; [reflexivity|]. eapply fits_more; [exact F5|exact H|discriminate|discriminate].
    - unfold exception_code. destruct t; [eexists; split; [reflexivity|]; eapply fits_more; [exact F|exact H|discriminate|discriminate]|]. destruct W as (_ & _ & Wo & Wp).
      assert (Ro : forall o, u = Some o -> is_ready r o = true) by (intros o Ho; apply Rdy; [cbn; auto|]; destruct (Wo o Ho) as (_ & m' & c' & X); eauto).
      assert (E1 : exec (SNewException k p) r = Imported (set_exc r k p)).
      { destruct p as [p|]; [|reflexivity]. cbn [Import.exec]. destruct (Wp p eq_refl) as (_ & m' & n' & u' & p' & s' & Hp). assert (Sp : standard_exception decls p = s') by (unfold standard_exception; unfold declared, ImportSpec.declared in Hp; now rewrite Hp).
        rewrite Sp. destruct s'; [reflexivity|]. rewrite (f_exc _ _ F p _ _ _ _ Hp); [reflexivity|]. apply Rq. cbn. auto. }
      assert (F1 : fits D (set_exc r k p)).
      { destruct F as [A B C E]. constructor; auto. intros j m' n' u' p' Hj Dj. cbn. destruct (Nat.eqb_spec k j) as [<-|]; [|eauto]. unfold declared, ImportSpec.declared in *. congruence. }
      cbn [run]. rewrite E1. destruct (attach_runs D (set_exc r k p) m u n (XException k) F1) as (r4 & -> & F4 & M4 & X4); [exact Ro|]. eexists. split; [reflexivity|].
      eapply fits_more; [exact F4|exact H|discriminate|]. intros m' n' u' p' [= <- <- <- <-]. rewrite X4. cbn. now rewrite Nat.eqb_refl.
    - eexists. split; [reflexivity|]. eapply fits_more; [apply fits_add; exact F|exact H|discriminate|discriminate].
    - unfold enum_code. destruct i; [eexists; split; [reflexivity|]; eapply fits_more; [exact F|exact H|discriminate|discriminate]|]. destruct W as (_ & _ & Wo).
      destruct (values_run D m u (enum_exprs decls m vs p ns u) r F) as (r' & -> & F'); [intros o Ho; apply Rdy; [exact Ho|]; destruct (Wo o Ho) as (_ & m' & c' & X); eauto|].
      eexists. split; [reflexivity|]. eapply fits_more; [exact F'|exact H|discriminate|discriminate].
  Qed.
  Lemma safe_runs D l : safe D l -> forall r, fits D r -> exists r', run exec (flat_map item l) r = Imported r' /\ fits (fun j => D j \/ In j (map fst l)) r'.
  Proof.
    induction 1 as [D|D k d l H R S IH]; intros r F; cbn [flat_map map fst].
    - exists r. split; [reflexivity|]. destruct F as [A B C E]. constructor; auto; [intros k m c Hk [Dk|[]]; eauto|intros k m n u p Hk [Dk|[]]; eauto].
    - rewrite run_app. destruct (item_runs D r k d F H R) as (r1 & -> & F1). destruct (IH r1 F1) as (r2 & -> & F2). exists r2. split; [reflexivity|]. destruct F2 as [A B C E]. constructor; auto.
      + intros j m c Hj [Dj|[->|Hl]]; eauto.
      + intros j m n u p Hj [Dj|[->|Hl]]; eauto.
  Qed.
  Lemma imports_well : exists r, import decls const external = Imported r /\
    (forall k m c, declared k (DClass m c) -> c_import c = None -> exists y, r_type r (Cls k) = Some y /\ t_bases y = c_bases c) /\
    (forall k m c s, declared k (DClass m c) -> c_import c = Some s -> is_ready r k = true) /\
    (forall k m n u p, declared k (DException m n u p false) -> r_exc r k = Some p).
  Proof.
    assert (Sf : safe (fun _ => False) (order (length decls) 0)).
    { apply safe_order; [lia|]. intros k (a & _ & [[Ne U]|(p & c & c' & C & C' & Lt & Uc & Uc')]).
      - inversion U as [|? p P]; [congruence|]. destruct (parent_lt decls Wf 0 p P). lia.
      - assert (X : forall a b, under decls a b -> a <= b) by (induction 1 as [|b q P U IHU]; [lia|]; destruct (parent_lt decls Wf b q P); lia). apply X in Uc'. destruct (parent_lt decls Wf c' p C'). lia. }
    destruct (safe_runs _ _ Sf rt_start) as (r & R & F).
    { constructor; cbn; auto; try (intros; contradiction); try (intros; discriminate). }
    exists r. rewrite (import_flat decls const external Wf), flat_order. split; [exact R|].
    assert (All : forall k m, home decls k m -> False \/ In k (map fst (order (length decls) 0))).
    { intros k m Hk. right. eapply order_all; [apply root_under; [exact Wf|]|exact Hk|lia]. apply home_spec in Hk. destruct Hk as (d & H & Hm). pose proof (proj2 Wf k d H) as W. destruct d; try discriminate; cbn in Hm; injection Hm as <-; intuition. }
    split; [|split].
    - intros k m c Hk Ci. assert (Rd : is_ready r k = true) by (eapply f_ready; [exact F|exact Hk|]; eapply (All k m); eexists; split; [exact Hk|reflexivity]).
      unfold is_ready in Rd. destruct (r_type r (Cls k)) as [y|] eqn:Y; [|discriminate]. exists y. split; [reflexivity|]. rewrite (f_type _ _ F k y Y). unfold bases_of. unfold declared, ImportSpec.declared in Hk. now rewrite Hk, Ci.
    - intros k m c s Hk Ci. eapply f_ready; [exact F|exact Hk|]. eapply (All k m). eexists; split; [exact Hk|reflexivity].
    - intros k m n u p Hk. eapply f_exc; [exact F|exact Hk|]. eapply (All k m). eexists; split; [exact Hk|reflexivity].
  Qed.
End Order.
