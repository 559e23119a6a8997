(** Generating getters, setters and tables. *)
From Verif.Model Require Import Py Attributes.
From Verif.Spec Require Import AttributeSpec.
From Verif.Proofs Require Import StrLemmas.
From Coq Require Import Lia.
Open Scope string_scope.
Open Scope list_scope.

(** ** Declarations *)
Definition accept (d : adecl) : bool := match d_const d, d_setter d with true, Some _ => false | _, _ => true end.
Lemma accept_spec d : accept d = true <-> acceptable d.
Proof.
  unfold accept, acceptable. destruct d as [k n v [] g [s|] x|k n v [] g [s|] x gt st|k n v []]; cbn; split; intros H; try reflexivity; try discriminate; try (intros [A B]; congruence); exfalso; apply H; split; congruence.
Qed.
Lemma set_value_other v i e j : i <> j -> set_value v i e j = v j.
Proof. intros N. unfold set_value. destruct (Nat.eqb_spec i j); congruence. Qed.
Lemma set_value_same v i e : set_value v i e i = Some e.
Proof. unfold set_value. now rewrite Nat.eqb_refl. Qed.
Lemma declare_values s d : s_values (fst (declare s d)) (d_vt d) = Some (getter_value d) /\ forall j, j <> d_vt d -> s_values (fst (declare s d)) j = s_values s j.
Proof.
  unfold declare. destruct d as [k n v [] g [x|] c|k n v [] g [x|] c gt st|k n v []]; cbn [d_const d_setter d_vt s_values fst]; (split; [apply set_value_same|]); intros j N; rewrite !set_value_other; congruence.
Qed.
Lemma declare_entries s d : s_entries (fst (declare s d)) = s_entries s ++ (if accept d then [d] else []) /\ snd (declare s d) = (if accept d then Ok tt else Err AssertionError).
Proof. unfold declare, accept. destruct (d_const d), (d_setter d); cbn; rewrite ?app_nil_r; auto. Qed.
Lemma declare_all_spec ds : forall s, s_entries (fst (declare_all ds s)) = s_entries s ++ filter accept ds /\
  snd (declare_all ds s) = map (fun d => if accept d then Ok tt else Err AssertionError) ds /\
  (forall j, ~ In j (map d_vt ds) -> s_values (fst (declare_all ds s)) j = s_values s j) /\
  (NoDup (map d_vt ds) -> forall d, In d ds -> s_values (fst (declare_all ds s)) (d_vt d) = Some (getter_value d)).
Proof.
  induction ds as [|d ds IH]; intros s; cbn [declare_all].
  - cbn. rewrite app_nil_r. repeat split; auto. intros _ d [].
  - destruct (declare_values s d) as [A B]. destruct (declare_entries s d) as [C D]. destruct (declare s d) as [s1 a]. cbn [fst snd] in *. destruct (IH s1) as (X1 & X2 & X3 & X4). destruct (declare_all ds s1) as [s2 l]. cbn [fst snd] in *. repeat split.
    + rewrite X1, C, <- app_assoc. cbn [filter]. destruct (accept d); reflexivity.
    + cbn [map]. now rewrite X2, D.
    + intros j N. cbn in N. rewrite X3, B; auto.
    + cbn [map]. intros N. inversion_clear N as [|? ? N1 N2]. intros e [<-|He]; [now rewrite X3|auto].
Qed.

Section Gen.
  Variable pystruct : nat -> string.
  Variables get_fails set_fails : nat -> option pyexc.
  Variable handler : option bool.
  Notation get_name := (get_name pystruct).
  Notation set_name := (set_name pystruct).
  Notation get_error := (get_error get_fails).

  Definition ideal_target (d : adecl) : ctarget :=
    match d with
    | AInstance _ n _ _ _ None _ | ACustom _ n _ _ _ None _ _ _ => TAssign (EMember n)
    | AInstance _ _ _ _ _ (Some m) _ => TMethod m
    | ACustom k _ _ _ _ (Some f) _ _ st => TFunction k f st
    | AStatic k n _ _ => TAssign (EStaticMember k n)
    end.
  Definition getters_of (d : adecl) : list (string * cfun) := match get_error (d_vt d) with None => [(get_name d, CGet (d_class d) (d_vt d) (d_static d) (getter_value d))] | Some _ => [] end.
  Definition setters_of (d : adecl) : list (string * cfun) :=
    if d_const d then [] else match set_fails (d_vt d) with None => [(set_name d, CSet (d_class d) (d_vt d) (d_static d) (ideal_target d))] | Some _ => [] end.
  Definition functions_of (d : adecl) := getters_of d ++ setters_of d.
  Definition row_of (d : adecl) : row :=
    mk_row (shown_name d) (match get_error (d_vt d) with None => Some (get_name d) | Some _ => None end)
      (if d_const d then None else match set_fails (d_vt d) with None => Some (set_name d) | Some _ => None end).
  Definition skippable (o : option pyexc) : Prop := match o with None => True | Some e => handled handler e = Ok tt end.

  Lemma getter_spec s d s' n : g_values s (d_vt d) = Some (getter_value d) -> generate_getter pystruct get_fails handler s d = Ok (s', n) ->
    g_values s' = g_values s /\ g_funs s' = g_funs s ++ getters_of d /\ n = w_get (row_of d) /\ skippable (get_error (d_vt d)).
  Proof.
    intros V. unfold generate_getter, getters_of, row_of. cbn [w_get]. rewrite V. destruct (get_error (d_vt d)) as [e|].
    - cbn [skippable]. destruct (handled handler e) as [[]|] eqn:H; cbn; [|discriminate]. intros [= <- <-]. rewrite app_nil_r. auto.
    - intros [= <- <-]. cbn. auto.
  Qed.
  Lemma getter_ok s d : skippable (get_error (d_vt d)) -> exists x, generate_getter pystruct get_fails handler s d = Ok x.
  Proof. unfold generate_getter. destruct (get_error (d_vt d)) as [e|]; cbn [skippable]; [intros ->; cbn; eauto|eauto]. Qed.
  Lemma setter_spec s d s' n : d_const d = false -> g_values s (d_vt d) = Some (getter_value d) -> generate_setter pystruct set_fails handler s d = Ok (s', n) ->
    (forall j, j <> d_vt d -> g_values s' j = g_values s j) /\ g_funs s' = g_funs s ++ setters_of d /\ n = w_set (row_of d) /\ skippable (set_fails (d_vt d)).
  Proof.
    intros C V. unfold generate_setter, setters_of, row_of. cbn [w_set]. rewrite C.
    assert (O : forall j, j <> d_vt d -> setter_values s d j = g_values s j).
    { intros j N. destruct d as [k m v c g [x|] cu|k m v c g [x|] cu gt st|k m v c]; cbn in *; try reflexivity; apply set_value_other; congruence. }
    assert (Tg : setter_target (setter_values s d) d = ideal_target d).
    { destruct d as [k m v c g [x|] cu|k m v c g [x|] cu gt st|k m v c]; cbn in *; try reflexivity; try (now rewrite set_value_same). now rewrite V. }
    rewrite Tg. destruct (set_fails (d_vt d)) as [e|].
    - cbn [skippable]. destruct (handled handler e) as [[]|] eqn:H; cbn; [|discriminate]. intros [= <- <-]. rewrite app_nil_r. auto.
    - intros [= <- <-]. cbn. auto.
  Qed.
  Lemma setter_ok s d : skippable (set_fails (d_vt d)) -> exists x, generate_setter pystruct set_fails handler s d = Ok x.
  Proof. unfold generate_setter. destruct (set_fails (d_vt d)) as [e|]; cbn [skippable]; [intros ->; cbn; eauto|eauto]. Qed.

  Definition agree (s : gstate) (ds : list adecl) : Prop := forall d, In d ds -> g_values s (d_vt d) = Some (getter_value d).
  Definition can (d : adecl) : Prop := skippable (get_error (d_vt d)) /\ (d_const d = false -> skippable (set_fails (d_vt d))).
  Lemma existsb_in n l : existsb (String.eqb n) l = true <-> In n l.
  Proof. rewrite existsb_exists. split; [intros (x & H & E); apply String.eqb_eq in E; now subst|]. intros H. exists n. split; [assumption|apply String.eqb_refl]. Qed.

  Lemma entries_spec : forall ds s seen s' rows, NoDup (map d_vt ds) -> agree s ds ->
    generate_entries pystruct get_fails set_fails handler s seen ds = Ok (s', rows) ->
    g_funs s' = g_funs s ++ flat_map functions_of ds /\ rows = map row_of ds /\ (forall j, ~ In j (map d_vt ds) -> g_values s' j = g_values s j) /\
    NoDup (map d_name ds) /\ (forall d, In d ds -> ~ In (d_name d) seen) /\ (forall d, In d ds -> can d).
  Proof.
    induction ds as [|d ds IH]; intros s seen s' rows N A E.
    - cbn in E. injection E as <- <-. cbn. rewrite app_nil_r. split; [reflexivity|]. split; [reflexivity|]. split; [auto|]. split; [constructor|]. split; intros d [].
    - cbn [generate_entries] in E. destruct (generate_getter _ _ _ s d) as [[s1 n1]|] eqn:G; [|discriminate].
      destruct (getter_spec s d s1 n1 (A d (or_introl eq_refl)) G) as (G1 & G2 & G3 & G4). cbn [bind fst snd] in E.
      inversion_clear N as [|? ? N1 N2].
      assert (Y : exists s2 n2, (if d_const d then Ok (s1, None) else generate_setter pystruct set_fails handler s1 d) = Ok (s2, n2) /\
        (forall j, j <> d_vt d -> g_values s2 j = g_values s1 j) /\ g_funs s2 = g_funs s1 ++ setters_of d /\ n2 = w_set (row_of d) /\ (d_const d = false -> skippable (set_fails (d_vt d)))).
      { destruct (d_const d) eqn:C.
        - exists s1, None. unfold setters_of, row_of. cbn [w_set]. rewrite C, app_nil_r. repeat split; auto. discriminate.
        - destruct (generate_setter pystruct set_fails handler s1 d) as [[s2 n2]|] eqn:H; [|discriminate]. exists s2, n2. split; [reflexivity|].
          destruct (setter_spec s1 d s2 n2 C) as (S1 & S2 & S3 & S4); [rewrite G1; apply A; now left|assumption|]. auto. }
      destruct Y as (s2 & n2 & Y & S1 & S2 & S3 & S4). rewrite Y in E. cbn [bind fst snd] in E.
      destruct (existsb (String.eqb (d_name d)) seen) eqn:X; [discriminate|].
      destruct (generate_entries _ _ _ _ s2 (d_name d :: seen) ds) as [[s3 rs]|] eqn:R; [|discriminate]. cbn [bind fst snd] in E. injection E as <- <-.
      assert (A2 : agree s2 ds).
      { intros e He. rewrite S1; [rewrite G1; apply A; now right|]. intros Eq. apply N1. rewrite <- Eq. now apply in_map. }
      destruct (IH s2 _ s3 rs N2 A2 R) as (R1 & R2 & R3 & R4 & R5 & R6). split; [|split; [|split; [|split; [|split]]]].
      + rewrite R1, S2, G2. cbn [flat_map]. unfold functions_of. now rewrite <- !app_assoc.
      + cbn [map]. rewrite R2. f_equal. unfold row_of in *. cbn in *. now rewrite G3, S3.
      + intros j Hj. cbn in Hj. rewrite R3, S1, G1; auto.
      + cbn [map]. constructor; [|assumption]. intros H. apply in_map_iff in H. destruct H as (e & Ee & He). apply (R5 e He). left. auto.
      + intros e [<-|He]; [|intros H; apply (R5 e He); now right]. intros H. apply existsb_in in H. congruence.
      + intros e [<-|He]; [split; assumption|now apply R6].
  Qed.
  Lemma entries_ok : forall ds s seen, NoDup (map d_vt ds) -> agree s ds -> (forall d, In d ds -> can d) -> NoDup (map d_name ds) -> (forall d, In d ds -> ~ In (d_name d) seen) ->
    exists x, generate_entries pystruct get_fails set_fails handler s seen ds = Ok x.
  Proof.
    induction ds as [|d ds IH]; intros s seen N A C D Sn; [cbn; eauto|]. cbn [generate_entries].
    destruct (C d (or_introl eq_refl)) as [C1 C2]. destruct (getter_ok s d C1) as [[s1 n1] G]. rewrite G. cbn [bind fst snd].
    destruct (getter_spec s d s1 n1 (A d (or_introl eq_refl)) G) as (G1 & _ & _ & _). inversion_clear N as [|? ? N1 N2]. cbn [map] in D. inversion_clear D as [|? ? D1 D2].
    assert (Y : exists s2 n2, (if d_const d then Ok (s1, None) else generate_setter pystruct set_fails handler s1 d) = Ok (s2, n2) /\ (forall j, j <> d_vt d -> g_values s2 j = g_values s1 j)).
    { destruct (d_const d) eqn:K; [eauto|]. destruct (setter_ok s1 d (C2 eq_refl)) as [[s2 n2] H]. exists s2, n2. split; [assumption|]. eapply setter_spec; [eassumption| |eassumption]. rewrite G1. apply A. now left. }
    destruct Y as (s2 & n2 & -> & S1). cbn [bind fst snd]. destruct (existsb (String.eqb (d_name d)) seen) eqn:X; [apply existsb_in in X; exfalso; exact (Sn d (or_introl eq_refl) X)|].
    destruct (IH s2 (d_name d :: seen)) as [z ->]; auto.
    - intros e He. rewrite S1; [rewrite G1; apply A; now right|]. intros Eq. apply N1. rewrite <- Eq. now apply in_map.
    - intros e He. apply C. now right.
    - intros e He [H|H]; [apply D1; rewrite H; now apply in_map|]. apply (Sn e); [now right|assumption].
    - cbn [bind]. eauto.
  Qed.

  (** ** All classes *)
  Lemma nodup_filter {A B} (f : A -> B) p l : NoDup (map f l) -> NoDup (map f (filter p l)).
  Proof.
    induction l as [|x l IH]; cbn; [auto|]. intros N. inversion_clear N as [|? ? N1 N2]. destruct (p x); cbn; [|auto]. constructor; [|auto].
    intros H. apply N1. apply in_map_iff in H. destruct H as (y & E & H). apply filter_In in H. rewrite <- E. apply in_map, H.
  Qed.
  Lemma nodup_inj {A B} (f : A -> B) l x y : NoDup (map f l) -> In x l -> In y l -> f x = f y -> x = y.
  Proof.
    induction l as [|z l IH]; [intros _ []|]. cbn. intros N. inversion_clear N as [|? ? N1 N2]. intros [<-|Hx] [<-|Hy] E; auto.
    - exfalso. apply N1. rewrite E. now apply in_map.
    - exfalso. apply N1. rewrite <- E. now apply in_map.
  Qed.
  Lemma of_class_spec k st d : of_class k st d = true <-> d_class d = k /\ d_static d = st.
  Proof. unfold of_class. rewrite andb_true_iff, Nat.eqb_eq, Bool.eqb_true_iff. reflexivity. Qed.

  Variable entries : list adecl.
  Hypothesis N : NoDup (map d_vt entries).
  Definition mine (k : nat) : list adecl := filter (of_class k false) entries ++ filter (of_class k true) entries.
  Lemma in_mine k d : In d (mine k) <-> In d entries /\ d_class d = k.
  Proof. clear N get_fails set_fails handler pystruct. unfold mine. rewrite in_app_iff, !filter_In, !of_class_spec. destruct (d_static d); intuition congruence. Qed.
  Lemma not_other k b j : (exists d, In d entries /\ d_vt d = j /\ ~ of_class k b d = true) -> ~ In j (map d_vt (filter (of_class k b) entries)).
  Proof. intros (d & Hd & E & No) H. apply in_map_iff in H. destruct H as (e & Ee & He). apply filter_In in He. destruct He as [He P]. apply No. replace d with e; [assumption|]. apply (nodup_inj d_vt entries); congruence || assumption. Qed.

  Lemma class_spec k s s' t : agree s (mine k) -> generate_class pystruct get_fails set_fails handler s entries k = Ok (s', t) ->
    g_funs s' = g_funs s ++ flat_map functions_of (mine k) /\ t = mk_tables (map row_of (filter (of_class k false) entries)) (map row_of (filter (of_class k true) entries)) /\
    (forall d, In d entries -> d_class d <> k -> g_values s' (d_vt d) = g_values s (d_vt d)) /\
    NoDup (map d_name (filter (of_class k false) entries)) /\ NoDup (map d_name (filter (of_class k true) entries)) /\ (forall d, In d (mine k) -> can d).
  Proof.
    intros A. unfold generate_class. destruct (generate_entries _ _ _ _ s [] _) as [[s1 r1]|] eqn:E1; [|discriminate]. cbn [bind fst snd].
    destruct (fun A => entries_spec (filter (of_class k false) entries) s [] s1 r1 (nodup_filter _ _ _ N) A E1) as (X1 & X2 & X3 & X4 & _ & X6).
    { intros d Hd. apply A. unfold mine. apply in_or_app. now left. }
    destruct (generate_entries _ _ _ _ s1 [] _) as [[s2 r2]|] eqn:E2; [|discriminate]. cbn [bind fst snd]. intros [= <- <-].
    destruct (fun A => entries_spec (filter (of_class k true) entries) s1 [] s2 r2 (nodup_filter _ _ _ N) A E2) as (Y1 & Y2 & Y3 & Y4 & _ & Y6).
    { intros d Hd. rewrite X3.
      - apply A. unfold mine. apply in_or_app. now right.
      - apply filter_In in Hd. destruct Hd as [Hd P]. apply not_other. exists d. split; [assumption|]. split; [reflexivity|]. rewrite of_class_spec in *. intuition congruence. }
    split; [|split; [|split; [|split; [|split]]]]; auto.
    - rewrite Y1, X1. unfold mine. now rewrite flat_map_app, app_assoc.
    - now rewrite X2, Y2.
    - intros d Hd Nk. rewrite Y3, X3; [reflexivity| |]; apply not_other; exists d; rewrite of_class_spec; intuition congruence.
    - intros d H. unfold mine in H. apply in_app_iff in H. destruct H as [H|H]; [now apply X6|now apply Y6].
  Qed.
  Lemma class_ok k s : agree s (mine k) -> (forall d, In d (mine k) -> can d) -> NoDup (map d_name (filter (of_class k false) entries)) -> NoDup (map d_name (filter (of_class k true) entries)) ->
    exists x, generate_class pystruct get_fails set_fails handler s entries k = Ok x.
  Proof.
    intros A C D1 D2. unfold generate_class.
    assert (M : forall b d, In d (filter (of_class k b) entries) -> In d (mine k)). { intros [] d H; unfold mine; apply in_or_app; auto. }
    assert (A1 : agree s (filter (of_class k false) entries)) by (intros d H; apply A, (M _ _ H)).
    destruct (entries_ok (filter (of_class k false) entries) s [] (nodup_filter _ _ _ N) A1) as [[s1 r1] E1]; auto.
    { intros d H. apply C, (M _ _ H). }
    rewrite E1. cbn [bind fst snd]. destruct (entries_spec _ s [] s1 r1 (nodup_filter _ _ _ N) A1 E1) as (_ & _ & X3 & _).
    assert (A2 : agree s1 (filter (of_class k true) entries)).
    { intros d Hd. rewrite X3; [apply A, (M _ _ Hd)|]. apply filter_In in Hd. destruct Hd as [Hd P]. apply not_other. exists d. split; [assumption|]. split; [reflexivity|]. rewrite of_class_spec in *. intuition congruence. }
    destruct (entries_ok (filter (of_class k true) entries) s1 [] (nodup_filter _ _ _ N) A2) as [[s2 r2] E2]; auto.
    { intros d H. apply C, (M _ _ H). }
    rewrite E2. cbn. eauto.
  Qed.
  Definition ideal_tables (k : nat) : tables := mk_tables (map row_of (filter (of_class k false) entries)) (map row_of (filter (of_class k true) entries)).
  Definition class_names (k : nat) : Prop := NoDup (map d_name (filter (of_class k false) entries)) /\ NoDup (map d_name (filter (of_class k true) entries)).
  Lemma classes_spec : forall order s s' ts, NoDup order -> (forall k, In k order -> agree s (mine k)) ->
    generate_classes pystruct get_fails set_fails handler s entries order = Ok (s', ts) ->
    g_funs s' = g_funs s ++ flat_map functions_of (flat_map mine order) /\ ts = map (fun k => (k, ideal_tables k)) order /\
    forall k, In k order -> class_names k /\ forall d, In d (mine k) -> can d.
  Proof.
    induction order as [|k order IH]; intros s s' ts No A E; cbn [generate_classes] in E.
    - injection E as <- <-. cbn. rewrite app_nil_r. split; [reflexivity|]. split; [reflexivity|]. intros k [].
    - destruct (generate_class _ _ _ _ s entries k) as [[s1 t]|] eqn:G; [|discriminate]. cbn [bind fst snd] in E.
      destruct (class_spec k s s1 t (A k (or_introl eq_refl)) G) as (C1 & C2 & C3 & C4 & C5 & C6).
      destruct (generate_classes _ _ _ _ s1 entries order) as [[s2 r]|] eqn:R; [|discriminate]. cbn [bind fst snd] in E. injection E as <- <-.
      inversion_clear No as [|? ? N1 N2]. destruct (IH s1 s2 r N2) as (R1 & R2 & R3); [|assumption|].
      { intros j Hj d Hd. pose proof Hd as Hd'. apply in_mine in Hd'. destruct Hd' as [He Ec]. rewrite C3; [apply (A j (or_intror Hj) d Hd)|assumption|]. intros Eq. apply N1. congruence. }
      split; [|split].
      + rewrite R1, C1. cbn [flat_map]. now rewrite flat_map_app, app_assoc.
      + cbn [map]. rewrite R2, C2. reflexivity.
      + intros j [<-|Hj]; [split; [split|]; assumption|now apply R3].
  Qed.
  Lemma classes_ok : forall order s, NoDup order -> (forall k, In k order -> agree s (mine k)) -> (forall k, In k order -> class_names k /\ forall d, In d (mine k) -> can d) ->
    exists x, generate_classes pystruct get_fails set_fails handler s entries order = Ok x.
  Proof.
    induction order as [|k order IH]; intros s No A C; cbn [generate_classes]; [eauto|].
    destruct (C k (or_introl eq_refl)) as [[D1 D2] Ck]. destruct (class_ok k s (A k (or_introl eq_refl)) Ck D1 D2) as [[s1 t] G]. rewrite G. cbn [bind fst snd].
    destruct (class_spec k s s1 t (A k (or_introl eq_refl)) G) as (_ & _ & C3 & _). inversion_clear No as [|? ? N1 N2].
    destruct (IH s1 N2) as [z ->]; [| |cbn; eauto].
    - intros j Hj d Hd. pose proof Hd as Hd'. apply in_mine in Hd'. destruct Hd' as [He Ec]. rewrite C3; [apply (A j (or_intror Hj) d Hd)|assumption|]. intros Eq. apply N1. congruence.
    - intros j Hj. apply C. now right.
  Qed.
End Gen.
