(** Attributes at run time. *)
From Verif.Model Require Import Py Attributes MethodTable.
From Verif.Spec Require Import AttributeSpec.
From Verif.Proofs Require Import StrLemmas AttributeProofs TableLookup.
From Coq Require Import Lia.
Open Scope string_scope.
Open Scope list_scope.

(** ** The order of the types *)
Section Mro.
  Variable parents : nat -> list nat.
  Hypothesis W : ordered parents.
  Lemma attr_mro_fuel : forall i f g, i < f -> i < g -> attr_mro parents f i = attr_mro parents g i.
  Proof.
    induction i as [i IH] using lt_wf_ind. intros f g Hf Hg. destruct f as [|f]; [lia|]. destruct g as [|g]; [lia|]. cbn [attr_mro].
    pose proof (W i) as Wi. destruct (parents i) as [|b [|b' bs]]; [reflexivity| |].
    - specialize (Wi b (or_introl eq_refl)). rewrite (IH b Wi f g) by lia. reflexivity.
    - assert (E : map (attr_mro parents f) (b :: b' :: bs) = map (attr_mro parents g) (b :: b' :: bs)).
      { apply map_ext_in. intros x Hx. specialize (Wi x Hx). apply IH; lia. }
      now rewrite E.
  Qed.
  Lemma mro_single i b : parents i = [b] -> mro parents i = option_map (cons i) (mro parents b).
  Proof.
    intros E. unfold mro at 1. cbn [attr_mro]. rewrite E. f_equal. apply attr_mro_fuel; [|lia].
    apply (W i). rewrite E. now left.
  Qed.
  Lemma mro_head i l : mro parents i = Some l -> exists r, l = i :: r.
  Proof.
    unfold mro. cbn [attr_mro]. destruct (parents i) as [|b [|b' bs]].
    - intros [= <-]. eauto.
    - destruct (attr_mro parents i b); [|discriminate]. intros [= <-]. eauto.
    - destruct (gather _); [|discriminate]. destruct (merge _ _); [|discriminate]. intros [= <-]. eauto.
  Qed.
  Lemma mro_ancestors : forall i l, mro parents i = Some l -> forall c, In c l <-> ancestor parents i c.
  Proof.
    induction i as [i IH] using lt_wf_ind. intros l E c. destruct (parents i) as [|b [|b' bs]] eqn:B.
    - unfold mro in E. cbn [attr_mro] in E. rewrite B in E. injection E as <-. cbn. split.
      + intros [<-|[]]. constructor.
      + intros A. inversion A as [|? x ? Hx]; subst; [now left|]. rewrite B in Hx. destruct Hx.
    - rewrite (mro_single i b B) in E. destruct (mro parents b) as [r|] eqn:T; [|discriminate]. injection E as <-.
      assert (Lb : b < i) by (apply (W i); rewrite B; now left). specialize (IH b Lb r T c). cbn. rewrite IH. split.
      + intros [<-|A]; [constructor|]. eapply ancestor_up; [rewrite B; now left|assumption].
      + intros A. inversion A as [|? x ? Hx]; subst; [now left|]. rewrite B in Hx. destruct Hx as [<-|[]]. now right.
    - unfold mro in E. cbn [attr_mro] in E. rewrite B in E. destruct (gather _) as [ls|] eqn:G; [|discriminate].
      destruct (merge _ _) as [r|] eqn:M; [|discriminate]. injection E as <-. apply gather_some in G.
      assert (Each : forall x, In x (b :: b' :: bs) -> exists lx, In lx ls /\ mro parents x = Some lx).
      { intros x Hx. assert (Lx : x < i) by (apply (W i); now rewrite B). apply (in_map (attr_mro parents i)) in Hx. rewrite G in Hx.
        apply in_map_iff in Hx. destruct Hx as (lx & Ex & Hl). exists lx. split; [assumption|]. rewrite Ex. apply attr_mro_fuel; lia. }
      assert (Back : forall lx, In lx ls -> exists x, In x (b :: b' :: bs) /\ mro parents x = Some lx).
      { intros lx Hl. assert (H : In (Some lx) (map (attr_mro parents i) (b :: b' :: bs))) by (rewrite G; now apply in_map).
        apply in_map_iff in H. destruct H as (x & Ex & Hx). assert (Lx : x < i) by (apply (W i); now rewrite B). exists x. split; [assumption|].
        rewrite <- Ex. apply attr_mro_fuel; lia. }
      cbn [In]. rewrite (merge_in _ _ _ M c). split.
      + intros [<-|(l & Hl & Hc)]; [constructor|]. apply in_app_iff in Hl. destruct Hl as [Hl|[<-|[]]].
        * destruct (Back l Hl) as (x & Hx & T). assert (Lx : x < i) by (apply (W i); now rewrite B).
          eapply ancestor_up; [rewrite B; exact Hx|]. now apply (IH x Lx l T).
        * eapply ancestor_up; [rewrite B; exact Hc|constructor].
      + intros A. inversion A as [|? x ? Hx Ax]; subst; [now left|]. right. rewrite B in Hx. destruct (Each x Hx) as (lx & Hl & T).
        assert (Lx : x < i) by (apply (W i); now rewrite B). exists lx. split; [apply in_app_iff; now left|]. now apply (IH x Lx lx T).
  Qed.
  Lemma line_fuel : forall i f g, i < f -> i < g -> line parents f i = line parents g i.
  Proof.
    induction i as [i IH] using lt_wf_ind. intros f g Hf Hg. destruct f as [|f]; [lia|]. destruct g as [|g]; [lia|]. cbn [line]. f_equal.
    pose proof (W i) as Wi. destruct (parents i) as [|b bs]; [reflexivity|]. specialize (Wi b (or_introl eq_refl)). apply IH; lia.
  Qed.
  Lemma line_first i l k : first_parents parents i l k -> exists r, meta_line parents i = l ++ k :: r.
  Proof.
    induction 1 as [i|i b r l k E F IH].
    - unfold meta_line. cbn [line]. cbn [app]. eauto.
    - destruct IH as [r' IH]. exists r'. unfold meta_line. cbn [line]. rewrite E. cbn [app]. f_equal. rewrite <- IH. apply line_fuel; [|lia]. apply W. rewrite E. now left.
  Qed.
  Lemma line_reached : forall i k, In k (meta_line parents i) -> first_line parents i k.
  Proof.
    induction i as [i IH] using lt_wf_ind. intros k H. unfold meta_line in H. cbn [line] in H. destruct H as [<-|H]; [exists []; constructor|].
    destruct (parents i) as [|b bs] eqn:E; [destruct H|]. assert (L : b < i) by (apply W; rewrite E; now left). destruct (IH b L k) as [l F].
    - unfold meta_line. rewrite (line_fuel b (S b) i); [assumption|lia|assumption].
    - exists (i :: l). econstructor; eassumption.
  Qed.
  Lemma same_address_spec i k : same_address parents i k = true <-> first_line parents i k.
  Proof.
    unfold same_address. change (line parents (S i) i) with (meta_line parents i). rewrite existsb_exists. split.
    - intros (x & H & E). apply Nat.eqb_eq in E. subst. now apply line_reached.
    - intros [l F]. destruct (line_first i l k F) as [r ->]. exists k. split; [apply in_elt|apply Nat.eqb_refl].
  Qed.
  Lemma first_occurrence (k : nat) l : In k l -> exists l1 l2, l = l1 ++ k :: l2 /\ ~ In k l1.
  Proof.
    induction l as [|x l IH]; [intros []|]. destruct (Nat.eq_dec x k) as [->|Ne]; [intros _; exists [], l; auto|]. intros [H|H]; [congruence|].
    destruct (IH H) as (l1 & l2 & -> & No). exists (x :: l1), l2. split; [reflexivity|]. intros [X|X]; auto.
  Qed.
  Lemma nearest_order decls methods i n k order : nearest decls parents methods i n k -> mro parents i = Some order ->
    exists l1 l2, order = l1 ++ k :: l2 /\ forall j, In j l1 -> ~ offers decls methods j n.
  Proof.
    intros [(l & F & Ok)|(A & Only)] E.
    - revert order E. induction F as [i|i b r l k B F IH]; intros order E.
      + destruct (mro_head i order E) as [r ->]. exists [], r. split; [reflexivity|intros j []].
      + destruct (Ok i (or_introl eq_refl)) as [L No]. assert (r = []) as -> by (rewrite B in L; destruct r; [reflexivity|discriminate]).
        rewrite (mro_single i b B) in E. destruct (mro parents b) as [ob|]; [|discriminate]. injection E as <-.
        destruct (IH (fun j H => Ok j (or_intror H)) ob eq_refl) as (l1 & l2 & -> & Q). exists (i :: l1), l2. split; [reflexivity|]. intros j [<-|H]; auto.
    - destruct (first_occurrence k order) as (l1 & l2 & -> & No); [apply (mro_ancestors i order E); exact A|]. exists l1, l2. split; [reflexivity|]. intros j H O. apply No. replace k with j; [assumption|]. apply Only; [|assumption].
      apply (mro_ancestors i _ E). apply in_or_app. now left.
  Qed.
End Mro.

(** ** Strings *)
Lemma sapp_split p : forall a q b, (p ++ a = q ++ b)%string -> (exists r, q = (p ++ r)%string /\ a = (r ++ b)%string) \/ (exists r, p = (q ++ r)%string /\ b = (r ++ a)%string).
Proof.
  induction p as [|c p IH]; intros a q b E; cbn in E; [left; exists q; auto|]. destruct q as [|d q]; cbn in E; [right; exists (String c p); auto|].
  injection E as -> E. destruct (IH a q b E) as [(r & -> & ->)|(r & -> & ->)]; [left|right]; exists r; auto.
Qed.
Lemma sapp_cancel p a b : (p ++ a = p ++ b)%string -> a = b.
Proof. induction p; cbn; [auto|]. intros [= E]. auto. Qed.
Definition infix (x : string) : Prop := x = "__get_" \/ x = "__set_".
Lemma sapp_nil (s : string) : (s ++ "")%string = s.
Proof. induction s; cbn; congruence. Qed.
Lemma infix_ambiguous p x n q y m : infix x -> infix y -> (p ++ x ++ n = q ++ y ++ m)%string -> p = q \/ (exists r, q = (p ++ "__" ++ r)%string) \/ (exists r, p = (q ++ "__" ++ r)%string).
Proof.
  assert (X : forall x n y m r, infix x -> infix y -> (x ++ n = r ++ y ++ m)%string -> r = "" \/ exists r', r = ("__" ++ r')%string).
  { intros x0 n0 y0 m0 r [->| ->] [->| ->] E; destruct r as [|c [|d r]]; auto; cbn in E; injection E; intros; subst; try discriminate; right; exists r; reflexivity. }
  intros Hx Hy E. destruct (sapp_split _ _ _ _ E) as [(r & -> & E')|(r & -> & E')].
  - destruct (X _ _ _ _ _ Hx Hy E') as [->|[r' ->]]; [left; now rewrite sapp_nil|right; left; eauto].
  - destruct (X _ _ _ _ _ Hy Hx E') as [->|[r' ->]]; [left; now rewrite sapp_nil|right; right; eauto].
Qed.

Lemma shown_python d : shown_name d = python_name d.
Proof. unfold shown_name. destruct d as [k n v c g s [[|a x]|]|k n v c g s [[|a x]|] gt st|k n v c]; reflexivity. Qed.
Lemma class_of_d d : class_of d = d_class d. Proof. destruct d; reflexivity. Qed.
Lemma type_of_d d : type_of d = d_vt d. Proof. destruct d; reflexivity. Qed.
Lemma name_of_d d : cpp_name_of d = d_name d. Proof. destruct d; reflexivity. Qed.
Lemma static_of_d d : is_static d <-> d_static d = true. Proof. destruct d; cbn; intuition discriminate. Qed.
Lemma read_only_d d : read_only d <-> d_const d = true. Proof. destruct d; cbn; reflexivity. Qed.
Lemma distinct_nodup l : distinct l = true <-> NoDup l.
Proof.
  induction l as [|x l IH]; cbn; [split; [constructor|reflexivity]|]. rewrite andb_true_iff, negb_true_iff, IH. split.
  - intros [H N]. constructor; [|assumption]. intros I0. apply existsb_in in I0. congruence.
  - intros N. inversion_clear N as [|? ? N1 N2]. split; [|assumption]. destruct (existsb (String.eqb x) l) eqn:E; [|reflexivity]. apply existsb_in in E. contradiction.
Qed.
Lemma find_named {A} (l : list (string * A)) n x : NoDup (map fst l) -> In (n, x) l -> find (fun y => String.eqb (fst y) n) l = Some (n, x).
Proof.
  induction l as [|[m y] l IH]; [intros _ []|]. cbn [map fst find]. intros N. inversion_clear N as [|? ? N1 N2]. intros [[= -> ->]|H]; [now rewrite String.eqb_refl|].
  destruct (String.eqb_spec m n) as [->|]; [|auto]. exfalso. apply N1. change n with (fst (n, x)). now apply in_map.
Qed.

Section Run.
  Variables (decls : list adecl) (order : list nat) (pystruct : nat -> string) (get_fails set_fails : nat -> option pyexc) (handler : option bool).
  Variables (funs : list (string * cfun)) (tabs : list (nat * tables)).
  Hypothesis U : unshared decls.
  Hypothesis NO : NoDup order.
  Notation entries := (filter accept decls).
  Notation functions_of := (functions_of pystruct get_fails set_fails).
  Notation row_of := (row_of pystruct get_fails set_fails).
  Lemma unshared_vt : NoDup (map d_vt entries).
  Proof. apply nodup_filter. unfold unshared in U. rewrite (map_ext d_vt type_of); [exact U|]. intros d. symmetry. apply type_of_d. Qed.
  Lemma initial_agree k : agree (mk_gstate (s_values (fst (declare_all decls no_attrs))) []) (mine entries k).
  Proof.
    intros d H. apply in_mine in H. destruct H as [H _]. apply filter_In in H. destruct (declare_all_spec decls no_attrs) as (_ & _ & _ & V). cbn [g_values]. apply V; [|apply H].
    unfold unshared in U. rewrite (map_ext d_vt type_of); [exact U|]. intros e. symmetry. apply type_of_d.
  Qed.
  Lemma generated : generate pystruct get_fails set_fails handler decls order = Ok (funs, tabs) ->
    funs = flat_map functions_of (flat_map (mine entries) order) /\ tabs = map (fun k => (k, ideal_tables pystruct get_fails set_fails entries k)) order /\
    forall k, In k order -> class_names entries k /\ forall d, In d (mine entries k) -> can get_fails set_fails handler d.
  Proof.
    unfold generate. destruct (declare_all_spec decls no_attrs) as (E & _ & _ & _). cbn [s_entries no_attrs app] in E. rewrite E.
    destruct (generate_classes _ _ _ _ _ _ order) as [[s' ts]|] eqn:G; [|discriminate]. cbn [bind fst snd]. intros [= <- <-].
    destruct (classes_spec _ _ _ _ _ unshared_vt order _ s' ts NO (fun k _ => initial_agree k) G) as (X1 & X2 & X3). cbn [g_funs app] in X1. auto.
  Qed.
  Lemma generates : (forall k, In k order -> class_names entries k /\ forall d, In d (mine entries k) -> can get_fails set_fails handler d) ->
    exists x, generate pystruct get_fails set_fails handler decls order = Ok x.
  Proof.
    intros C. unfold generate. destruct (declare_all_spec decls no_attrs) as (E & _ & _ & _). cbn [s_entries no_attrs app] in E. rewrite E.
    destruct (classes_ok pystruct get_fails set_fails handler entries unshared_vt order _ NO (fun k _ => initial_agree k) C) as [z ->]. cbn. eauto.
  Qed.

  Hypothesis G : generate pystruct get_fails set_fails handler decls order = Ok (funs, tabs).
  Lemma tables_found k : In k order -> tables_of tabs k = ideal_tables pystruct get_fails set_fails entries k.
  Proof.
    intros H. destruct (generated G) as (_ & -> & _). unfold tables_of. clear - H. induction order as [|j o IH]; [destruct H|]. cbn [map find fst]. destruct (Nat.eqb_spec j k) as [->|Ne]; [reflexivity|]. destruct H as [H|H]; [congruence|auto].
  Qed.
  Lemma tables_missing k : ~ In k order -> tables_of tabs k = mk_tables [] [].
  Proof.
    intros H. destruct (generated G) as (_ & -> & _). unfold tables_of. clear - H. induction order as [|j o IH]; [reflexivity|]. cbn [map find fst]. destruct (Nat.eqb_spec j k) as [->|Ne]; [elim H; now left|]. apply IH. intros X. apply H. now right.
  Qed.
  Lemma row_none k n st : (forall d, In d decls -> acceptable d -> d_static d = st -> class_of d = k -> python_name d <> n) -> row_named (if st then t_static (tables_of tabs k) else t_instance (tables_of tabs k)) n = None.
  Proof.
    intros H. destruct (in_dec Nat.eq_dec k order) as [I0|I0]; [|rewrite (tables_missing k I0); destruct st; reflexivity]. rewrite (tables_found k I0).
    assert (X : row_named (map row_of (filter (of_class k st) entries)) n = None).
    { unfold row_named. destruct (find _ _) as [w|] eqn:F; [|reflexivity]. apply find_some in F. destruct F as [F E]. apply in_map_iff in F. destruct F as (d & <- & F). apply filter_In in F. destruct F as [F C]. apply filter_In in F. destruct F as [F A].
      apply of_class_spec in C. cbn in E. apply String.eqb_eq in E. rewrite shown_python in E. exfalso. apply (H d F); [now apply accept_spec|apply C|rewrite class_of_d; apply C|exact E]. }
    destruct st; exact X.
  Qed.
  Lemma row_first k n st d before after : In k order -> decls = before ++ d :: after -> acceptable d -> d_static d = st -> class_of d = k -> python_name d = n ->
    (forall e, In e before -> acceptable e -> d_static e = st -> class_of e = k -> python_name e <> n) ->
    row_named (if st then t_static (tables_of tabs k) else t_instance (tables_of tabs k)) n = Some (row_of d).
  Proof.
    intros K Ed Ac St Cl Nm B. rewrite (tables_found k K).
    assert (X : row_named (map row_of (filter (of_class k st) entries)) n = Some (row_of d)).
    { rewrite Ed, !filter_app. cbn [filter]. rewrite (proj2 (accept_spec d) Ac). cbn [filter]. assert (C : of_class k st d = true) by (apply of_class_spec; rewrite <- class_of_d; auto). rewrite C. rewrite map_app. unfold row_named.
      assert (Nb : find (fun w => String.eqb (w_name w) n) (map row_of (filter (of_class k st) (filter accept before))) = None).
      { destruct (find _ _) as [w|] eqn:F; [|reflexivity]. apply find_some in F. destruct F as [F E]. apply in_map_iff in F. destruct F as (e & <- & F). apply filter_In in F. destruct F as [F C']. apply filter_In in F. destruct F as [F A].
        apply of_class_spec in C'. cbn in E. apply String.eqb_eq in E. rewrite shown_python in E. exfalso. apply (B e F); [now apply accept_spec|apply C'|rewrite class_of_d; apply C'|exact E]. }
      assert (Fapp : forall (l1 l2 : list row) f, find f l1 = None -> find f (l1 ++ l2) = find f l2). { induction l1 as [|a l1 IH]; cbn; [auto|]. intros l2 f. destruct (f a); [discriminate|apply IH]. }
      rewrite (Fapp _ _ _ Nb). cbn [map find w_name AttributeProofs.row_of]. rewrite shown_python, Nm, String.eqb_refl. reflexivity. }
    destruct st; exact X.
  Qed.
  Lemma static_unique d : In d decls -> acceptable d -> d_static d = true -> In (class_of d) order ->
    exists before after, decls = before ++ d :: after /\ forall e, In e before -> acceptable e -> d_static e = true -> class_of e = class_of d -> python_name e <> python_name d.
  Proof.
    intros H A S0 K. destruct (in_split _ _ H) as (before & after & E). exists before, after. split; [exact E|]. intros e He Ae Se Ce Ne.
    destruct (generated G) as (_ & _ & X). destruct (X _ K) as [[_ D] _]. rewrite E, !filter_app in D. cbn [filter] in D. rewrite (proj2 (accept_spec d) A) in D. cbn [filter] in D.
    assert (C : of_class (class_of d) true d = true). { apply of_class_spec. split; [symmetry; apply class_of_d|assumption]. }
    rewrite C, map_app in D. cbn [map] in D. apply NoDup_remove_2 in D. apply D. apply in_or_app. left.
    assert (Nm : d_name d = d_name e). { destruct d; try discriminate S0. destruct e; try discriminate Se. cbn in *. congruence. }
    rewrite Nm. apply in_map. apply (proj2 (filter_In _ _ _)). split; [apply filter_In; split; [assumption|now apply accept_spec]|]. apply of_class_spec. rewrite <- class_of_d. auto.
  Qed.

  Hypothesis Comp : compiles funs = true.
  Lemma function_found d x : In d decls -> acceptable d -> In (class_of d) order -> In x (functions_of d) -> function_named funs (fst x) = Some (snd x).
  Proof.
    intros H A K F. unfold compiles in Comp. apply andb_true_iff in Comp. destruct Comp as [D _]. apply distinct_nodup in D. destruct x as [n f]. cbn [fst snd]. unfold function_named. rewrite (find_named funs n f); [reflexivity|assumption|].
    destruct (generated G) as (-> & _ & _). apply in_flat_map. exists d. split; [|assumption]. apply in_flat_map. exists (class_of d). split; [assumption|]. apply in_mine. split; [|symmetry; apply class_of_d]. apply filter_In. split; [assumption|now apply accept_spec].
  Qed.

  Context {St Val Py Obj : Type}.
  Variable P : program St Val Py Obj.
  Variable parents : nat -> list nat.
  Variable methods : nat -> list string.
  Hypothesis W : ordered parents.
  Notation get_error := (get_error get_fails).

  Lemma get_row_spec d i o s : In d decls -> acceptable d -> In (class_of d) order -> (is_static d \/ first_line parents i (class_of d)) ->
    match get_fails (type_of d) with
    | None => reads P d o s (get_row P parents funs i o (row_of d) s)
    | Some _ => get_row P parents funs i o (row_of d) s = Raised AttributeError
    end.
  Proof.
    intros H A K F. unfold get_row. cbn [w_get AttributeProofs.row_of]. rewrite type_of_d. unfold Attributes.get_error. destruct (get_fails (d_vt d)) as [e|] eqn:GF.
    - destruct e; reflexivity.
    - assert (X : function_named funs (get_name pystruct d) = Some (CGet (d_class d) (d_vt d) (d_static d) (getter_value d))).
      { apply (function_found d (get_name pystruct d, CGet (d_class d) (d_vt d) (d_static d) (getter_value d)) H A K). unfold AttributeProofs.functions_of, getters_of, Attributes.get_error. rewrite GF. now left. }
      rewrite X. cbn [call_getter]. unfold reads. change (type_of d) with (d_vt d).
      assert (SA : is_static d \/ same_address parents i (class_of d) = true) by (destruct F as [F|F]; [now left|right; now apply (same_address_spec parents W)]).
      destruct d as [k n v c [g|] x cu|k n v c g x cu gt st|k n v c]; cbn in SA |- *; try (destruct SA as [[]|SA]; rewrite SA); try reflexivity.
      + destruct (method_get P o k g s); reflexivity.
      + destruct (function_get P o k g gt s); reflexivity.
  Qed.
  Lemma set_row_spec d i o x s : In d decls -> acceptable d -> In (class_of d) order -> (is_static d \/ first_line parents i (class_of d)) -> ~ read_only d ->
    match set_fails (type_of d) with
    | None => writes P d o x s (set_row P parents funs i o (row_of d) (Some x) s)
    | Some _ => set_row P parents funs i o (row_of d) (Some x) s = Raised AttributeError
    end.
  Proof.
    intros H A K F R. unfold set_row. cbn [w_set AttributeProofs.row_of]. rewrite type_of_d. assert (C : d_const d = false) by (rewrite read_only_d in R; destruct (d_const d); congruence). rewrite C. destruct (set_fails (d_vt d)) as [e|] eqn:GF; [reflexivity|].
    assert (X : function_named funs (set_name pystruct d) = Some (CSet (d_class d) (d_vt d) (d_static d) (ideal_target d))).
    { apply (function_found d (set_name pystruct d, CSet (d_class d) (d_vt d) (d_static d) (ideal_target d)) H A K). unfold AttributeProofs.functions_of. apply in_or_app. right. unfold setters_of. rewrite C, GF. now left. }
    rewrite X. cbn [call_setter]. unfold writes. change (type_of d) with (d_vt d). destruct (of_py P (d_vt d) x) as [v|]; [|reflexivity].
    assert (SA : is_static d \/ same_address parents i (class_of d) = true) by (destruct F as [F|F]; [now left|right; now apply (same_address_spec parents W)]).
    destruct d as [k n vt c g [m|] cu|k n vt c g [m|] cu gt st|k n vt c]; cbn in SA |- *; try (destruct SA as [[]|SA]; rewrite SA); reflexivity.
  Qed.
  Lemma set_row_const d i o x s : read_only d -> set_row P parents funs i o (row_of d) x s = Raised AttributeError.
  Proof. intros R. apply read_only_d in R. unfold set_row. cbn [w_set AttributeProofs.row_of]. now rewrite R. Qed.

  Lemma found_in_types d n l1 l2 : the_attribute decls methods d n -> In (class_of d) order -> (forall j, In j l1 -> ~ offers decls methods j n) -> find_in_types methods tabs (l1 ++ class_of d :: l2) n = Some (Some (row_of d)).
  Proof.
    intros (Ns & A & Nm & NM & before & after & E & B) K Q. induction l1 as [|j l1 IH]; cbn [app find_in_types].
    - destruct (existsb (String.eqb n) (methods (class_of d))) eqn:X; [apply existsb_in in X; contradiction|].
      pose proof (row_first (class_of d) n false d before after K E A) as R. cbv iota in R. rewrite R; auto.
      + destruct (d_static d) eqn:X2; [|reflexivity]. elim Ns. now apply static_of_d.
      + intros e He Ae Se. apply B; auto. rewrite static_of_d. congruence.
    - assert (NoJ := Q j (or_introl eq_refl)). destruct (existsb (String.eqb n) (methods j)) eqn:X; [apply existsb_in in X; elim NoJ; now left|].
      pose proof (row_none j n false) as R. cbv iota in R. rewrite R; [apply IH; intros; apply Q; now right|].
      intros e He Ae Se Ce Ne. apply NoJ. right. exists e. rewrite static_of_d. repeat split; auto. congruence.
  Qed.
  Lemma found_in_metatypes d n l1 l2 : the_static decls d n -> In (class_of d) order -> (forall j, In j l1 -> ~ a_static decls j n) -> find_in_metatypes tabs (l1 ++ class_of d :: l2) n = Some (row_of d).
  Proof.
    intros (Ss & A & Nm & H) K Q. assert (Sd := proj1 (static_of_d d) Ss). induction l1 as [|j l1 IH]; cbn [app find_in_metatypes].
    - destruct (static_unique d H A Sd K) as (before & after & E & B). pose proof (row_first (class_of d) n true d before after K E A) as R. cbv iota in R. rewrite R; auto. intros e He Ae Se Ce. rewrite <- Nm. auto.
    - pose proof (row_none j n true) as R. cbv iota in R. rewrite R; [apply IH; intros; apply Q; now right|].
      intros e He Ae Se Ce Ne. apply (Q j (or_introl eq_refl)). exists e. rewrite static_of_d. repeat split; auto.
  Qed.
  Lemma not_in_types n l : (forall j, In j l -> ~ offers decls methods j n) -> find_in_types methods tabs l n = None.
  Proof.
    induction l as [|j l IH]; [reflexivity|]. intros Q. cbn. assert (NoJ := Q j (or_introl eq_refl)). destruct (existsb (String.eqb n) (methods j)) eqn:X; [apply existsb_in in X; elim NoJ; now left|].
    pose proof (row_none j n false) as R. cbv iota in R. rewrite R; [apply IH; intros; apply Q; now right|].
    intros e He Ae Se Ce Ne. apply NoJ. right. exists e. rewrite static_of_d. repeat split; auto. congruence.
  Qed.
  Lemma with_row_found d n i k0 : nearest decls parents methods i n (class_of d) -> the_attribute decls methods d n -> In (class_of d) order -> mro parents i <> None ->
    with_row (St := St) (Py := Py) parents methods tabs i n k0 = k0 (row_of d).
  Proof.
    intros Nr Th K M. unfold with_row. destruct (mro parents i) as [l|] eqn:E; [|congruence]. destruct (nearest_order parents W decls methods i n (class_of d) l Nr E) as (l1 & l2 & -> & Q). now rewrite (found_in_types d n l1 l2 Th K Q).
  Qed.
End Run.

(** ** Names of functions *)
Section Names.
  Variables (decls : list adecl) (order : list nat) (pystruct : nat -> string) (get_fails set_fails : nat -> option pyexc).
  Hypothesis U : unshared decls.
  Hypothesis NO : NoDup order.
  Hypothesis D : distinct_names decls.
  Hypothesis A : unambiguous pystruct order.
  Notation entries := (filter accept decls).
  Notation functions_of := (functions_of pystruct get_fails set_fails).
  Lemma function_name d x : In x (functions_of d) -> exists i, infix i /\ fst x = ("_wrap_" ++ pystruct (class_of d) ++ i ++ cpp_name_of d)%string.
  Proof.
    rewrite class_of_d, name_of_d. unfold AttributeProofs.functions_of, getters_of, setters_of. intros H. apply in_app_iff in H. destruct H as [H|H].
    - destruct (get_error _ _); [destruct H|]. destruct H as [<-|[]]. exists "__get_". split; [now left|reflexivity].
    - destruct (d_const d); [destruct H|]. destruct (set_fails _); [destruct H|]. destruct H as [<-|[]]. exists "__set_". split; [now right|reflexivity].
  Qed.
  Lemma same_infix i n j m : infix i -> infix j -> (i ++ n = j ++ m)%string -> n = m.
  Proof. intros [->| ->] [->| ->] E; cbn in E; congruence. Qed.
  Lemma names_apart d e x : In d decls -> In e decls -> acceptable d -> acceptable e -> In (class_of d) order -> In (class_of e) order -> d <> e ->
    In x (map fst (functions_of d)) -> In x (map fst (functions_of e)) -> False.
  Proof.
    intros Hd He Ad Ae Kd Ke Ne Hx Hy. apply in_map_iff in Hx. destruct Hx as (x1 & <- & Hx). apply in_map_iff in Hy. destruct Hy as (x2 & E12 & Hy).
    destruct (function_name d x1 Hx) as (i & Ii & E1). destruct (function_name e x2 Hy) as (j & Ij & E2). rewrite E1, E2 in E12. apply sapp_cancel in E12.
    assert (Cl : class_of e = class_of d).
    { destruct (Nat.eq_dec (class_of e) (class_of d)) as [X|X]; [assumption|]. exfalso. destruct (A _ _ Ke Kd X) as [A1 A2]. destruct (A _ _ Kd Ke (fun Y => X (eq_sym Y))) as [B1 B2].
      destruct (infix_ambiguous _ _ _ _ _ _ Ij Ii E12) as [Q|[[r Q]|[r Q]]]; [congruence|exact (A2 r Q)|exact (B2 r Q)]. }
    rewrite Cl in E12. apply sapp_cancel in E12. apply same_infix in E12; [|assumption|assumption].
    destruct (in_split _ _ Hd) as (l1 & l2 & E). rewrite E in He. apply in_app_iff in He. destruct He as [He|[He|He]]; [|congruence|].
    - destruct (in_split _ _ He) as (l3 & l4 & E'). apply (D l3 e l4 d l2); auto. rewrite E, E'. now rewrite <- app_assoc.
    - destruct (in_split _ _ He) as (l3 & l4 & E'). apply (D l1 d l3 e l4); auto. rewrite E, E'. reflexivity.
  Qed.
  Lemma nodup_flat {B} (f : adecl -> list B) l : NoDup l -> (forall d, In d l -> NoDup (f d)) -> (forall d e x, In d l -> In e l -> d <> e -> In x (f d) -> In x (f e) -> False) -> NoDup (flat_map f l).
  Proof.
    induction l as [|d l IH]; intros N F X; [constructor|]. cbn. inversion_clear N as [|? ? N1 N2].
    assert (Y : NoDup (flat_map f l)). { apply IH; auto. - intros; apply F; now right. - intros a b x Ha Hb. apply X; now right. }
    assert (Z : forall x, In x (f d) -> ~ In x (flat_map f l)). { intros x Hx H. apply in_flat_map in H. destruct H as (e & He & H). apply (X d e x); auto; [now left|now right|]. intros ->. contradiction. }
    pose proof (F d (or_introl eq_refl)) as Fd. clear - Fd Y Z. induction (f d) as [|b bs IH]; [assumption|]. cbn. inversion_clear Fd as [|? ? F1 F2]. constructor.
    - rewrite in_app_iff. intros [H|H]; [contradiction|]. apply (Z b); [now left|assumption].
    - apply IH; auto. intros x Hx. apply Z. now right.
  Qed.
  Lemma nodup_mine : NoDup (flat_map (mine entries) order).
  Proof.
    assert (Ne : NoDup entries). { apply (NoDup_map_inv d_vt). apply unshared_vt. exact U. }
    clear D A. induction order as [|k o IH]; [constructor|]. cbn. inversion_clear NO as [|? ? N1 N2].
    assert (M : NoDup (mine entries k)).
    { unfold mine. assert (X : forall b, NoDup (filter (of_class k b) entries)) by (intros b; now apply NoDup_filter). pose proof (X false) as X1. pose proof (X true) as X2.
      assert (Z : forall x, In x (filter (of_class k false) entries) -> ~ In x (filter (of_class k true) entries)). { intros x H1 H2. apply filter_In in H1, H2. rewrite !of_class_spec in *. intuition congruence. }
      clear - X1 X2 Z. induction (filter (of_class k false) entries) as [|b bs IH]; [assumption|]. cbn. inversion_clear X1 as [|? ? F1 F2]. constructor.
      - rewrite in_app_iff. intros [H|H]; [contradiction|]. apply (Z b); [now left|assumption].
      - apply IH; auto. intros x Hx. apply Z. now right. }
    specialize (IH N2). assert (Z : forall x, In x (mine entries k) -> ~ In x (flat_map (mine entries) o)). { intros x H1 H2. apply in_flat_map in H2. destruct H2 as (j & Hj & H2). apply in_mine in H1, H2. apply N1. replace k with j; [assumption|]. intuition congruence. }
    clear - IH M Z. induction (mine entries k) as [|b bs IHb]; [assumption|]. cbn. inversion_clear M as [|? ? F1 F2]. constructor.
    - rewrite in_app_iff. intros [H|H]; [contradiction|]. apply (Z b); [now left|assumption].
    - apply IHb; auto. intros x Hx. apply Z. now right.
  Qed.
  Lemma map_flat_map {X Y Z : Type} (g : Y -> Z) (f : X -> list Y) l : map g (flat_map f l) = flat_map (fun x => map g (f x)) l.
  Proof. induction l; cbn; [reflexivity|]. now rewrite map_app, IHl. Qed.
  Lemma in_all d : In d (flat_map (mine entries) order) -> In d decls /\ acceptable d /\ In (class_of d) order.
  Proof. intros H. apply in_flat_map in H. destruct H as (k & Hk & H). apply in_mine in H. destruct H as [H C]. apply filter_In in H. rewrite accept_spec in H. rewrite class_of_d, C. intuition. Qed.
  Lemma all_compile : compiles (flat_map functions_of (flat_map (mine entries) order)) = true.
  Proof.
    unfold compiles. apply andb_true_iff. split.
    - apply distinct_nodup. rewrite map_flat_map. apply nodup_flat.
      + apply nodup_mine.
      + intros d _. unfold AttributeProofs.functions_of, getters_of, setters_of. destruct (get_error _ _); destruct (d_const d); try destruct (set_fails _); cbn; repeat constructor; auto.
        intros [E|[]]. unfold set_name, get_name in E. injection E as E. apply sapp_cancel in E. discriminate.
      + intros d e x Hd He Ne. destruct (in_all d Hd) as (D1 & D2 & D3), (in_all e He) as (E1 & E2 & E3). apply names_apart; auto.
    - apply forallb_forall. intros x H. apply in_flat_map in H. destruct H as (d & _ & H). unfold AttributeProofs.functions_of, getters_of, setters_of in H. apply in_app_iff in H. destruct H as [H|H].
      + destruct (get_error _ _); [destruct H|]. destruct H as [<-|[]]. destruct d as [k n v c [g|] s0 cu|k n v c g s0 cu gt st|k n v c]; reflexivity.
      + destruct (d_const d); [destruct H|]. destruct (set_fails _); [destruct H|]. destruct H as [<-|[]]. destruct d as [k n v c g [m|] cu|k n v c g [m|] cu gt st|k n v c]; reflexivity.
  Qed.
  Lemma names_in_class k : class_names entries k.
  Proof.
    assert (X : forall b, NoDup (map d_name (filter (of_class k b) entries))).
    { intros b. assert (Y : forall l1 l, decls = l1 ++ l -> NoDup (map d_name (filter (of_class k b) (filter accept l)))).
      { intros l1 l. revert l1. induction l as [|d l IH]; intros l1 E; [constructor|]. cbn [filter]. specialize (IH (l1 ++ [d])). rewrite <- app_assoc in IH. specialize (IH E).
        destruct (accept d) eqn:Ad; [|assumption]. cbn [filter]. destruct (of_class k b d) eqn:Cd; [|assumption]. cbn [map]. constructor; [|assumption].
        intros H. apply in_map_iff in H. destruct H as (e & Ee & He). apply filter_In in He. destruct He as [He Ce]. apply filter_In in He. destruct He as [He Ae]. destruct (in_split _ _ He) as (l2 & l3 & ->).
        apply (D l1 d l2 e l3 E); [now apply accept_spec|now apply accept_spec| |change (d_name d = d_name e); congruence]. change (d_class d = d_class e). apply of_class_spec in Cd, Ce. intuition congruence. }
      exact (Y [] decls eq_refl). }
    split; apply X.
  Qed.
End Names.
