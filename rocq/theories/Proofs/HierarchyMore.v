(** More about helper classes: hooks, methods that cannot be wrapped, which constructors are generated. *)
From Verif.Model Require Import Py PyState Hierarchy.
From Verif.Spec Require Import HierarchySpec.
From Verif.Proofs Require Import HierarchyProofs PureProofs PureScript AbstractProofs HelperProofs HierarchyTop.
From Coq Require Import Lia.
Open Scope list_scope.
Open Scope st_scope.

(** ** A field only some calls touch *)
Section Field.
  Context {F : Type} (field : cls -> F).
  Definition fields (w : hier) : list F := map field w.
  Definition leaves (f : cls -> cls) : Prop := forall k, field (f k) = field k.
  Definition steady {A} (m : st hier A) : Prop := forall w, fields (fst (m w)) = fields w.

  Lemma fields_change w i f : leaves f -> fields (change w i f) = fields w.
  Proof. intros L. unfold fields. revert i. induction w as [|k w IH]; intros [|i]; cbn; auto; f_equal; auto. Qed.
  Lemma steady_ret {A} (x : A) : steady (ret x). Proof. intros w. reflexivity. Qed.
  Lemma steady_raise {A} e : steady (@raise hier A e). Proof. intros w. reflexivity. Qed.
  Lemma steady_get i : steady (get_cls i). Proof. intros w. unfold get_cls. destruct (nth_error w i); reflexivity. Qed.
  Lemma steady_update i f : leaves f -> steady (update i f).
  Proof. intros L w. cbn. now apply fields_change. Qed.
  Lemma steady_mro i : steady (mro_classes i). Proof. intros w. reflexivity. Qed.
  Lemma steady_bind {A B} (m : st hier A) (k : A -> st hier B) : steady m -> (forall x, steady (k x)) -> steady (sbind m k).
  Proof.
    intros M K w. unfold sbind. specialize (M w). destruct (m w) as [w1 [x|e]]; cbn [fst] in *; [rewrite K|]; assumption.
  Qed.
  Lemma steady_try {A} (m : st hier A) h : steady m -> (forall e, steady (h e)) -> steady (try_except m h).
  Proof.
    intros M H w. unfold try_except. specialize (M w). destruct (m w) as [w1 [x|e]]; cbn [fst] in *; [assumption|]. now rewrite H.
  Qed.
End Field.

Ltac steadily :=
  repeat first
    [ apply steady_bind; [|intros ?] | apply steady_ret | apply steady_raise | apply steady_get | apply steady_mro
    | apply steady_try; [|intros ?] | apply steady_update; intros ?; reflexivity
    | match goal with |- steady _ (match ?x with _ => _ end) => destruct x end
    | match goal with |- steady _ (if ?x then _ else _) => destruct x end ].

(** ** Hooks *)
Lemma all_hooks_rev l : all_hooks l = flat_map k_hooks (rev l).
Proof.
  unfold all_hooks. assert (H : forall l acc, fold_left (fun acc k => k_hooks k ++ acc) l acc = flat_map k_hooks (rev l) ++ acc).
  { clear l. induction l as [|k l IH]; intros acc; cbn; [reflexivity|]. rewrite IH, flat_map_app, <- app_assoc. cbn. now rewrite app_nil_r. }
  rewrite H. apply app_nil_r.
Qed.

Lemma steady_helper {F} (field : cls -> F) : (forall b, leaves field (with_helper b)) -> forall i, steady field (get_helper_class i).
Proof. intros L i. unfold get_helper_class. steadily. now apply steady_update. Qed.
Lemma steady_add {F} (field : cls -> F) : (forall b, leaves field (with_helper b)) -> (forall b, leaves field (with_pure b)) ->
  (forall b, leaves field (with_disabled b)) -> forall i b m, steady field (add_to_helper i b m).
Proof. intros A B C i b m. unfold add_to_helper. steadily; try (now apply steady_helper); now apply steady_update. Qed.
Lemma steady_pure {F} (field : cls -> F) : (forall b, leaves field (with_pure b)) -> forall i, steady field (have_pure_virtual_methods i).
Proof. intros A i. unfold have_pure_virtual_methods. steadily. now apply steady_update. Qed.

Section Run.
  Variables (dn ds : bool) (ok : method -> bool).
  Notation step := (run_hcall dn ds ok).
  Notation script := (hscript dn ds ok).

  Lemma steady_forward {F} (field : cls -> F) : (forall b, leaves field (with_helper b)) -> (forall b, leaves field (with_pure b)) ->
    (forall b, leaves field (with_disabled b)) -> (forall b, leaves field (with_cannot b)) -> forall i, steady field (generate_forward ok i).
  Proof.
    intros A B C D i. unfold generate_forward. apply steady_bind; [apply steady_get|intros k]. apply steady_bind.
    - destruct (k_helper k); [|apply steady_ret]. apply steady_bind; [apply steady_mro|intros l].
      destruct (helper_proxies _ _); [destruct (hp_cannot _)|]; repeat (apply steady_bind; [|intros ?]); try apply steady_ret; now apply steady_update.
    - intros a. apply steady_bind; [now apply steady_pure|intros b]. apply steady_bind; [apply steady_get|intros k'].
      apply steady_bind; [|intros ?; apply steady_ret]. destruct (_ && _); [now apply steady_update|apply steady_ret].
  Qed.

  Definition hook_of (c : hcall) (i : nat) : list nat := match c with HHook j n => if Nat.eqb j i then [n] else [] | _ => [] end.
  Definition hooks_at (w : hier) (i : nat) : list nat := match nth_error (fields k_hooks w) i with Some l => l | None => [] end.

  Lemma hooks_steady A (m : st hier A) w i : steady k_hooks m -> hooks_at (fst (m w)) i = hooks_at w i.
  Proof. intros S. unfold hooks_at. now rewrite S. Qed.

  Lemma step_hooks c w i : hooks_at (fst (step c w)) i = hooks_at w i ++ match snd (step c w) with Ok _ => hook_of c i | Err _ => [] end.
  Proof.
    assert (St : forall A (m : st hier A), steady k_hooks m -> hook_of c i = [] ->
      hooks_at (fst (m w)) i = hooks_at w i ++ match snd (step c w) with Ok _ => hook_of c i | Err _ => [] end).
    { intros A m S E. rewrite E, hooks_steady by assumption. destruct (snd (step c w)); now rewrite app_nil_r. }
    assert (Lh : forall b, leaves k_hooks (with_helper b)) by (intros b k; reflexivity).
    assert (Lp : forall b, leaves k_hooks (with_pure b)) by (intros b k; reflexivity).
    assert (Ld : forall b, leaves k_hooks (with_disabled b)) by (intros b k; reflexivity).
    assert (Lc : forall b, leaves k_hooks (with_cannot b)) by (intros b k; reflexivity).
    assert (Lm : forall b, leaves k_hooks (with_methods b)) by (intros b k; reflexivity).
    assert (Ln : forall b, leaves k_hooks (with_nonpublic b)) by (intros b k; reflexivity).
    assert (Ly : forall b, leaves k_hooks (with_dummy b)) by (intros b k; reflexivity).
    assert (Obj : forall j m, steady k_hooks (add_method_obj j m)).
    { intros j m. unfold add_method_obj. apply steady_bind; [apply steady_get|intros k]. apply steady_bind.
      - destruct (_ && _); [apply steady_bind; [now apply steady_helper|intros ?; apply steady_ret]|].
        destruct (is_public _); now apply steady_update.
      - intros _. destruct (mt_virtual m); [now apply steady_add|apply steady_ret]. }
    destruct c as [d|j d|j n|j n|j n|j n|j b|j s|j|j|j v]; cbn [run_hcall].
    - (* a new class *)
      change (hook_of (HClass d) i) with (@nil nat).
      assert (E : hooks_at (fst ((i0 <~ new_class dn ds d ;; ret (RClass i0)) w)) i = hooks_at w i).
      { unfold sbind. assert (N : hooks_at (fst (new_class dn ds d w)) i = hooks_at w i).
        { unfold new_class. destruct (cd_parents d) as [[|p l]|]; [reflexivity| |];
          (destruct (forallb _ _); [|reflexivity]; destruct (memory_policy _ _ _); [|reflexivity];
           destruct (subclassing _ _ _ _ _); [|reflexivity]; cbn [fst]; unfold hooks_at, fields; rewrite map_app;
           destruct (Nat.lt_ge_cases i (length (map k_hooks w))) as [L|L];
           [now rewrite nth_error_app1 by assumption|rewrite nth_error_app2 by assumption; rewrite (proj2 (nth_error_None (map k_hooks w) i) L);
            cbn [map]; destruct (i - length (map k_hooks w)) as [|[|n]]; reflexivity]). }
        destruct (new_class dn ds d w) as [w1 [x|e]]; exact N. }
      rewrite E. destruct (snd _); now rewrite app_nil_r.
    - apply (St hanswer); [|reflexivity]. apply steady_bind; [|intros ?; apply steady_ret]. unfold add_method. destruct (md_wrappable d).
      + apply steady_bind; [apply Obj|intros ?; apply steady_ret].
      + apply steady_bind; [|intros ?; apply steady_ret]. destruct (md_virtual d) as [[|]|]; try apply steady_ret.
        apply steady_bind; [apply steady_get|intros k]. apply steady_bind; [now apply steady_update|intros ?]. now apply steady_add.
    - apply (St hanswer); [|reflexivity]. apply steady_bind; [apply Obj|intros ?; apply steady_ret].
    - cbn [hook_of]. destruct (nth_error w j) as [k|] eqn:K.
      + rewrite (sbind_ok _ _ _ _ _ (get_cls_ok _ _ _ K)). cbn. unfold hooks_at, fields. rewrite !nth_error_map, change_nth.
        rewrite (Nat.eqb_sym j i). destruct (Nat.eqb_spec i j) as [->|N]; [rewrite K; reflexivity|]. destruct (nth_error w i); cbn [option_map]; rewrite app_nil_r; reflexivity.
      + unfold sbind, get_cls. rewrite K. cbn. now rewrite app_nil_r.
    - apply (St hanswer); [|reflexivity]. steadily.
    - apply (St hanswer); [|reflexivity]. steadily.
    - apply (St hanswer); [|reflexivity]. steadily.
    - apply (St hanswer); [|reflexivity]. steadily.
    - apply (St hanswer); [|reflexivity]. apply steady_bind; [now apply steady_pure|intros ?; apply steady_ret].
    - apply (St hanswer); [|reflexivity]. apply steady_bind; [now apply steady_forward|intros ?; apply steady_ret].
    - apply (St hanswer); [|reflexivity]. apply steady_bind; [|intros ?; apply steady_ret]. unfold generate_constructor, get_construct_name.
      pose proof (steady_pure k_hooks Lp j) as Sp.
      steadily; assumption.
  Qed.

  Lemma script_hooks cs : forall w i, hooks_at (fst (script cs w)) i = hooks_at w i ++ declared_hooks (snd (script cs w)) i.
  Proof.
    induction cs as [|c cs IH]; intros w i; cbn [hscript fst snd declared_hooks]; [now rewrite app_nil_r|].
    rewrite IH, step_hooks, <- app_assoc. f_equal. destruct (snd (step c w)) as [a|e].
    - destruct c; cbn [hook_of]; try reflexivity. destruct (Nat.eqb i0 i); reflexivity.
    - destruct c; reflexivity.
  Qed.

  Lemma hooks_ok cs i l k : let w := fst (script cs []) in let answers := snd (script cs []) in
    nth_error w i = Some k -> k_helper k <> None -> get_mro w i = Ok l ->
    exists a, snd (generate_forward ok i w) = Ok (a, flat_map (declared_hooks answers) (rev l)).
  Proof.
    intros w answers K H G. assert (W : wf w) by apply final_wf.
    assert (Hh : all_hooks (classes w l) = flat_map (declared_hooks answers) (rev l)).
    { rewrite all_hooks_rev. unfold classes. assert (V : forall c, In c l -> nth_error w c <> None).
      { intros c Hc. apply nth_error_Some. eapply mro_valid; eauto. apply nth_error_Some. congruence. }
      clear G. induction l as [|c l IH]; [reflexivity|]. cbn [flat_map rev]. rewrite rev_app_distr, !flat_map_app, IH by (intros; apply V; now right).
      f_equal. destruct (nth_error w c) as [kc|] eqn:Kc; [|now elim (V c (or_introl eq_refl))]. cbn. rewrite app_nil_r.
      assert (E : hooks_at w c = k_hooks kc) by (unfold hooks_at, fields; now rewrite nth_error_map, Kc).
      rewrite <- E. unfold w. rewrite script_hooks. cbn. unfold hooks_at. cbn. destruct c; cbn; now rewrite app_nil_r. }
    unfold generate_forward. rewrite (sbind_ok _ _ _ _ _ (get_cls_ok _ _ _ K)). destruct (k_helper k) as [h|] eqn:Hk; [|congruence].
    match goal with |- context [sbind ?m _ w] => assert (First : exists f a, m w = (change w i f, Ok (a, all_hooks (classes w l))) /\ forall k0, k_bases (f k0) = k_bases k0) end.
    { unfold mro_classes, sbind. rewrite G. destruct (helper_proxies ok _); [destruct (hp_cannot _)|];
      unfold update, modify, ret; rewrite ?change_compose; eexists _, _; split; reflexivity. }
    destruct First as (f & a & E & B). rewrite (sbind_ok _ _ _ _ _ E).
    assert (W1 : wf (change w i f)) by now apply wf_change.
    assert (V1 : valid (change w i f) i = true) by (unfold valid; rewrite change_length; apply (nth_valid w i k K)).
    rewrite (sbind_ok _ _ _ _ _ (have_pure_ok _ W1 i V1)).
    assert (K2 : nth_error (change (change w i f) i (with_pure (Some (answer (change w i f) i)))) i = Some (with_pure (Some (answer (change w i f) i)) (f k)))
      by (now rewrite !change_nth, Nat.eqb_refl, K).
    rewrite (sbind_ok _ _ _ _ _ (get_cls_ok _ _ _ K2)). exists a. rewrite <- Hh. destruct (_ && _); reflexivity.
  Qed.

  (** ** Methods that cannot be wrapped *)
  Definition given_up (w : hier) (i : nat) : Prop :=
    exists k, nth_error w i = Some k /\ k_helper k = None /\ (k_disabled k = true \/ k_subclassing k = false \/ k_singleton k = true).

  Lemma given_up_not_allowed w (W : wf w) i k : nth_error w i = Some k -> k_helper k = None ->
    (k_disabled k = true \/ k_subclassing k = false \/ k_singleton k = true) -> allowed w i k = false.
  Proof.
    intros K H [D|[S|S]]; unfold allowed.
    - destruct (enabled w i) eqn:E; [|reflexivity]. rewrite enabled_spec in E by assumption.
      specialize (E i k (ancestor_self _ _) K). congruence.
    - rewrite S. now rewrite andb_false_r.
    - rewrite S, H. now rewrite andb_false_r.
  Qed.

  Lemma helper_unadded d k : k_helper (method_added false d k) = k_helper k /\ k_disabled (method_added false d k) = k_disabled k.
  Proof.
    unfold method_added, obj_added, helped. destruct (md_wrappable d).
    - destruct (mt_virtual _); [|destruct (protected_plain _); [auto|]];
      destruct (settings_adding (method_of d) k) as (_ & _ & _ & A & B); cbn; auto.
    - destruct (md_virtual d) as [[|]|]; auto.
  Qed.

  Lemma step_given_up c w (W : wf w) i : (forall j b, c <> HDisable j b) -> given_up w i -> given_up (fst (step c w)) i.
  Proof.
    intros ND (k & K & H & D).
    assert (Quiet : forall j f, k_helper (f k) = None -> k_disabled (f k) = k_disabled k \/ k_disabled (f k) = true ->
      k_subclassing (f k) = k_subclassing k -> k_singleton (f k) = k_singleton k -> given_up (change w j f) i).
    { intros j f A1 A2 A3 A4. unfold given_up. rewrite change_nth, K. destruct (Nat.eqb i j); cbn [option_map]; [|exists k; auto].
      exists (f k). split; [reflexivity|]. split; [assumption|]. rewrite A3, A4. destruct A2 as [-> | ->]; tauto. }
    assert (FW : forall j, c = HForward j -> given_up (fst (step c w)) i).
    { intros j ->. destruct (Nat.eq_dec i j) as [<-|N].
      - destruct (mro_ok w W i) as (l & G). destruct (forward_exact ok w W i k l K G) as (f & a & hooks & E & Fk & Fa).
        cbn [run_hcall]. rewrite (sbind_ok _ _ _ _ _ E). cbn [fst ret].
        assert (Hn : k_helper (f k) = None) by (destruct a as [ps|]; [destruct Fa as (h & X & _); congruence|assumption]).
        destruct (Fk k) as (_ & _ & _ & F4 & F5 & F6). unfold given_up. rewrite change_nth, Nat.eqb_refl, K. exists (f k).
        split; [reflexivity|]. split; [assumption|]. rewrite F4, F5. tauto.
      - pose proof (step_exactly dn ds ok w W (HForward j)) as E. remember (fst (step (HForward j) w)) as w' eqn:Ew. clear Ew.
        remember (HForward j) as c' eqn:Ec. destruct E as [c|d k0 H0 A0 D0|j' d k0 K0|j' n k0 K0|j' f k0 K0 Fk|j' b|c j' f T Qf]; try discriminate Ec.
        + exists k; auto.
        + injection Ec as ->. unfold given_up. rewrite change_nth. apply Nat.eqb_neq in N. rewrite N. exists k; auto.
        + subst c. injection T as <-. destruct (Qf k) as (Q1 & _ & _ & Q2 & Q3 & Q4 & _). apply Quiet; auto; congruence. }
    pose proof (step_exactly dn ds ok w W c) as E. remember (fst (step c w)) as w' eqn:Ew.
    destruct E as [c|d k0 H0 A0 D0|j d k0 K0|j n k0 K0|j f k0 K0 Fk|j b|c j f T Qf].
    - exists k; auto.
    - exists k. split; auto. rewrite nth_error_app1; [assumption|]. apply nth_error_Some. congruence.
    - destruct (Nat.eq_dec i j) as [<-|N].
      + assert (k0 = k) by congruence. subst k0. rewrite (given_up_not_allowed w W i k K H D).
        destruct (helper_unadded d k) as [U1 U2]. destruct (method_added_settings false d k) as (M1 & M2 & _).
        apply Quiet; [congruence|now left|assumption|assumption].
      + unfold given_up. rewrite change_nth. apply Nat.eqb_neq in N. rewrite N. exists k; auto.
    - destruct (settings_adding (mk_method n [] false false false Public true) k) as (S1 & S2 & _ & S4 & S5). apply Quiet; auto; congruence.
    - eapply FW. reflexivity.
    - now elim (ND j b).
    - destruct (Qf k) as (Q1 & _ & _ & Q2 & Q3 & Q4 & _). apply Quiet; auto; congruence.
  Qed.

  Lemma script_given_up i cs : forall w, wf w -> given_up w i -> (forall j b, ~ In (HDisable j b) cs) -> given_up (fst (script cs w)) i.
  Proof.
    induction cs as [|c cs IH]; intros w W G ND; cbn; [assumption|]. apply IH.
    - eapply effect_wf; [exact W|]. now apply step_effect.
    - apply step_given_up; auto. intros j b ->. apply (ND j b). now left.
    - intros j b X. apply (ND j b). now right.
  Qed.

  Lemma good_nil i : good [] i. Proof. intros k K. destruct i; discriminate. Qed.

  Lemma unwrapped_ok pre post i d : let cs := pre ++ HMethod i d :: post in
    let w1 := fst (script pre []) in let w := fst (script cs []) in
    (forall j b, ~ In (HDisable j b) cs) -> ~ In (HForward i) pre ->
    (forall j k, ancestor (declared_parents (snd (script pre []))) i j -> nth_error w1 j = Some k -> k_disabled k = false) ->
    i < length w1 -> md_wrappable d = false -> md_virtual d = Some true -> md_pure d = true ->
    (forall x, declares_wrapped (snd (script pre [])) i x -> mt_virtual x = true -> signature x <> signature (method_of d)) ->
    snd (step (HForward i) w) = Ok (RProxies None).
  Proof.
    intros cs w1 w ND NF AD L Wd Vd Pd DS.
    assert (W1 : wf w1) by apply final_wf. assert (W : wf w) by apply final_wf.
    destruct (nth_error w1 i) as [k|] eqn:K; [|apply nth_error_None in K; lia].
    assert (En : enabled w1 i = true).
    { apply enabled_spec; [assumption|]. intros c kc A Kc. apply (AD c kc); [|assumption].
      apply (ancestor_ext _ _ (parents_ok dn ds ok pre)). exact A. }
    assert (G : good w1 i).
    { apply script_good; [apply wf_nil|apply good_nil| |assumption]. intros j b X. apply (ND j b). unfold cs. apply in_or_app. now left. }
    destruct (G k K) as (G1 & G2 & G3).
    set (w2 := fst (step (HMethod i d) w1)).
    assert (W2 : wf w2) by (eapply effect_wf; [exact W1|now apply step_effect]).
    assert (U : given_up w2 i).
    { unfold w2. cbn [run_hcall]. rewrite (sbind_ok _ _ _ _ _ (add_method_exact w1 W1 i k d K)). cbn [fst ret].
      unfold given_up. rewrite change_nth, Nat.eqb_refl, K. eexists. split; [reflexivity|].
      destruct (allowed w1 i k) eqn:A.
      - unfold method_added. rewrite Wd, Vd. unfold helped. set (k' := with_dummy _ k).
        assert (X : add_virtual_method true (method_of d) (helper_of k') = mk_helper (hp_virtuals (helper_of k')) true).
        { unfold add_virtual_method. destruct (existsb _ _) eqn:Ex; [exfalso|].
          - apply existsb_exists in Ex. destruct Ex as (p & Ip & Mp). apply matches_eq in Mp.
            change (helper_of k') with (helper_of k) in Ip. unfold helper_of in Ip. destruct (k_helper k) as [h|] eqn:Hk; [|destruct Ip].
            destruct (G1 h eq_refl p Ip) as [I1 V1]. apply (DS p); auto. apply wrapped_declared; [assumption|].
            unfold wrapped_methods. fold w1. now rewrite K.
          - cbn [method_of mt_pure]. now rewrite Pd. }
        rewrite X. cbn. auto.
      - destruct (helper_unadded d k) as [U1 U2]. destruct (method_added_settings false d k) as (M1 & M2 & _). rewrite U1, M1, M2.
        assert (N : k_subclassing k = false \/ k_singleton k = true).
        { unfold allowed in A. rewrite En in A. cbn [andb] in A. destruct (k_subclassing k); [|now left]. cbn [andb] in A.
          destruct (k_singleton k); [now right|discriminate]. }
        split; [now apply G3|tauto]. }
    assert (Ew : w = fst (script post w2)).
    { unfold w, cs. rewrite script_app. reflexivity. }
    assert (Uw : given_up w i).
    { rewrite Ew. apply script_given_up; auto. intros j b X. apply (ND j b). unfold cs. apply in_or_app. right. now right. }
    destruct Uw as (kw & Kw & Hw & _). destruct (mro_ok w W i) as (l & Gl).
    destruct (forward_exact ok w W i kw l Kw Gl) as (f & a & hooks & E & _ & Fa).
    cbn [run_hcall]. rewrite (sbind_ok _ _ _ _ _ E). cbn. destruct a as [ps|]; [destruct Fa as (h & X & _); congruence|reflexivity].
  Qed.

  (** ** Which constructors are generated *)
  Definition cannot_at (w : hier) (i : nat) : string := match nth_error (fields k_cannot w) i with Some l => l | None => "" end.

  Lemma step_cannot c w (W : wf w) i : (forall s, c = HCannot i s -> s = "") -> c <> HForward i -> cannot_at w i = "" ->
    cannot_at (fst (step c w)) i = "".
  Proof.
    intros NC NF C0.
    assert (St : forall A (m : st hier A), steady k_cannot m -> cannot_at (fst (m w)) i = "").
    { intros A m S. unfold cannot_at. now rewrite S. }
    assert (Lh : forall b, leaves k_cannot (with_helper b)) by (intros b k; reflexivity).
    assert (Lp : forall b, leaves k_cannot (with_pure b)) by (intros b k; reflexivity).
    assert (Ld : forall b, leaves k_cannot (with_disabled b)) by (intros b k; reflexivity).
    assert (Lm : forall b, leaves k_cannot (with_methods b)) by (intros b k; reflexivity).
    assert (Ln : forall b, leaves k_cannot (with_nonpublic b)) by (intros b k; reflexivity).
    assert (Ly : forall b, leaves k_cannot (with_dummy b)) by (intros b k; reflexivity).
    assert (Obj : forall j m, steady k_cannot (add_method_obj j m)).
    { intros j m. unfold add_method_obj. apply steady_bind; [apply steady_get|intros k]. apply steady_bind.
      - destruct (_ && _); [apply steady_bind; [now apply steady_helper|intros ?; apply steady_ret]|].
        destruct (is_public _); now apply steady_update.
      - intros _. destruct (mt_virtual m); [now apply steady_add|apply steady_ret]. }
    assert (Other : forall j f, i <> j -> cannot_at (change w j f) i = "").
    { intros j f N. unfold cannot_at, fields in *. rewrite nth_error_map in *. rewrite change_nth. apply Nat.eqb_neq in N. now rewrite N. }
    destruct c as [d|j d|j n|j n|j n|j n|j b|j s|j|j|j v]; cbn [run_hcall].
    - unfold sbind. assert (N : cannot_at (fst (new_class dn ds d w)) i = "").
      { unfold new_class. destruct (cd_parents d) as [[|p l]|]; [assumption| |];
        (destruct (forallb _ _); [|assumption]; destruct (memory_policy _ _ _); [|assumption];
         destruct (subclassing _ _ _ _ _); [|assumption]; cbn [fst]; unfold cannot_at, fields in *; rewrite map_app;
         destruct (Nat.lt_ge_cases i (length (map k_cannot w))) as [L|L];
         [now rewrite nth_error_app1 by assumption|rewrite nth_error_app2 by assumption;
          cbn [map]; destruct (i - length (map k_cannot w)) as [|[|n]]; reflexivity]). }
      destruct (new_class dn ds d w) as [w1 [x|e]]; exact N.
    - apply (St hanswer). apply steady_bind; [|intros ?; apply steady_ret]. unfold add_method. destruct (md_wrappable d).
      + apply steady_bind; [apply Obj|intros ?; apply steady_ret].
      + apply steady_bind; [|intros ?; apply steady_ret]. destruct (md_virtual d) as [[|]|]; try apply steady_ret.
        apply steady_bind; [apply steady_get|intros k]. apply steady_bind; [now apply steady_update|intros ?]. now apply steady_add.
    - apply (St hanswer). apply steady_bind; [apply Obj|intros ?; apply steady_ret].
    - apply (St hanswer). steadily.
    - apply (St hanswer). steadily.
    - apply (St hanswer). steadily.
    - apply (St hanswer). steadily.
    - destruct (nth_error w j) as [k|] eqn:K.
      + rewrite (sbind_ok _ _ _ _ _ (get_cls_ok _ _ _ K)). cbn. destruct (Nat.eq_dec i j) as [<-|N]; [|now apply Other].
        unfold cannot_at, fields. rewrite nth_error_map, change_nth, Nat.eqb_refl, K. cbn. now apply NC.
      + unfold sbind, get_cls. rewrite K. assumption.
    - apply (St hanswer). apply steady_bind; [now apply steady_pure|intros ?; apply steady_ret].
    - destruct (nth_error w j) as [k|] eqn:K.
      + destruct (mro_ok w W j) as (l & G). destruct (forward_exact ok w W j k l K G) as (f & a & hooks & E & _).
        rewrite (sbind_ok _ _ _ _ _ E). cbn [fst ret]. apply Other. intros ->. now apply NF.
      + unfold generate_forward, sbind at 1 2, get_cls. rewrite K. assumption.
    - apply (St hanswer). apply steady_bind; [|intros ?; apply steady_ret]. unfold generate_constructor, get_construct_name.
      pose proof (steady_pure k_cannot Lp j) as Sp. steadily; assumption.
  Qed.

  Lemma script_cannot i cs : forall w, wf w -> cannot_at w i = "" -> (forall s, In (HCannot i s) cs -> s = "") -> ~ In (HForward i) cs ->
    cannot_at (fst (script cs w)) i = "".
  Proof.
    induction cs as [|c cs IH]; intros w W G NC NF; cbn; [assumption|]. apply IH.
    - eapply effect_wf; [exact W|]. now apply step_effect.
    - apply step_cannot; auto; [intros s ->; apply NC; now left|intros ->; apply NF; now left].
    - intros s X. apply NC. now right.
    - intros X. apply NF. now right.
  Qed.

  Lemma enabled_ok pre i o : let cs := pre ++ [HForward i] in
    let w1 := fst (script pre []) in let w := fst (script cs []) in let answers := snd (script cs []) in
    i < length w1 -> snd (step (HForward i) w1) = Ok (RProxies o) ->
    (forall s, In (HCannot i s) pre -> s = "") -> ~ In (HForward i) pre ->
    timely (declared_parents answers) cs i -> forall l, get_mro w i = Ok l -> (forall c, In c l -> consistent (declares answers) c) ->
    exists k, nth_error w i = Some k /\ (constructors_enabled k = true <-> o <> None \/ ~ abstract (declares answers) l).
  Proof.
    intros cs w1 w answers L R NC NF T l G C.
    assert (W1 : wf w1) by apply final_wf.
    destruct (nth_error w1 i) as [k|] eqn:K; [|apply nth_error_None in K; lia].
    assert (Ew : w = fst (step (HForward i) w1)).
    { unfold w, cs. rewrite script_app. reflexivity. }
    assert (C0 : k_cannot k = "").
    { assert (X : cannot_at w1 i = "") by (apply script_cannot; auto; [apply wf_nil|destruct i; reflexivity]).
      unfold cannot_at, fields in X. now rewrite nth_error_map, K in X. }
    assert (Lw : i < length w) by (rewrite Ew, step_length; [assumption|assumption|discriminate]).
    assert (A : answer w i = true <-> abstract (declares answers) l).
    { apply answer_spec; auto. eapply timely_ext; [|exact T]. intros n. symmetry. apply parents_ok. }
    destruct (mro_ok w1 W1 i) as (l1 & G1).
    cbn [run_hcall] in Ew, R. revert Ew R. unfold generate_forward. rewrite (sbind_ok _ _ _ _ _ K) || idtac.
    assert (First : exists f a hooks, match k_helper k with
         | None => ret (None, [])
         | Some h =>
             l <~ mro_classes i ;;
             let h' := inherit_virtuals h (tl l) in
             match helper_proxies ok h', hp_cannot h' with
             | Some proxies, false => update i (with_helper (Some h')) ;~ ret (Some proxies, all_hooks l)
             | _, _ => update i (with_helper None) ;~ update i (with_disabled true) ;~ ret (None, all_hooks l)
             end
         end w1 = (change w1 i f, Ok (a, hooks)) /\ (forall k0, k_bases (f k0) = k_bases k0 /\ k_cannot (f k0) = k_cannot k0) /\
         match a with Some _ => exists h, k_helper (f k) = Some h /\ hp_cannot h = false | None => k_helper (f k) = None end).
    { destruct (k_helper k) as [h|] eqn:Hk.
      - unfold mro_classes, sbind. rewrite G1. destruct (helper_proxies ok _); [destruct (hp_cannot _) eqn:HC|];
        unfold update, modify, ret; rewrite ?change_compose; eexists _, _, _; (split; [reflexivity|]); (split; [intros k0; split; reflexivity|]).
        + reflexivity.
        + eexists. split; [reflexivity|assumption].
        + reflexivity.
      - exists (fun k => k), None, []. split; [unfold ret; f_equal; symmetry; now apply change_id|]. split; [auto|assumption]. }
    destruct First as (f & a & hooks & E & Fb & Fa). intros Ew R.
    assert (Full : exists b, w = change (change w1 i f) i (fun k0 => (if b && match k_helper (f k) with None => true | Some _ => false end then with_cannot "have pure virtual methods but no helper class" else fun x => x) (with_pure (Some b) k0)) /\ o = a).
    { assert (W2 : wf (change w1 i f)) by (apply wf_change; [intros k0; apply Fb|assumption]).
      assert (V2 : valid (change w1 i f) i = true) by (unfold valid; rewrite change_length; apply (nth_valid w1 i k K)).
      set (b := answer (change w1 i f) i).
      assert (K2 : nth_error (change (change w1 i f) i (with_pure (Some b))) i = Some (with_pure (Some b) (f k)))
        by (now rewrite !change_nth, Nat.eqb_refl, K).
      assert (X : generate_forward ok i w1 = (change (change w1 i f) i (fun k0 => (if b && match k_helper (f k) with None => true | Some _ => false end then with_cannot "have pure virtual methods but no helper class" else fun x => x) (with_pure (Some b) k0)), Ok (a, hooks))).
      { unfold generate_forward. rewrite (sbind_ok _ _ _ _ _ (get_cls_ok _ _ _ K)). rewrite (sbind_ok _ _ _ _ _ E).
        rewrite (sbind_ok _ _ _ _ _ (have_pure_ok _ W2 i V2)). fold b. rewrite (sbind_ok _ _ _ _ _ (get_cls_ok _ _ _ K2)).
        change (k_helper (with_pure (Some b) (f k))) with (k_helper (f k)).
        destruct (b && _); unfold sbind, update, modify, ret; rewrite ?change_compose; reflexivity. }
      exists b. fold (generate_forward ok i) in Ew, R. rewrite (sbind_ok _ _ _ _ _ X) in Ew, R. cbn in Ew, R. split; [exact Ew|congruence]. }
    destruct Full as (b & Ef & ->). rewrite change_compose in Ef. clear Ew R E.
    assert (Kw : nth_error w i = Some ((if b && match k_helper (f k) with None => true | Some _ => false end then with_cannot "have pure virtual methods but no helper class" else fun x => x) (with_pure (Some b) (f k)))).
    { rewrite Ef, change_nth, Nat.eqb_refl, K. reflexivity. }
    eexists. split; [exact Kw|].
    assert (Ab : b = true <-> abstract (declares answers) l).
    { rewrite <- A. unfold answer. rewrite Kw. destruct (b && _); cbn; tauto. }
    destruct (Fb k) as [_ Fc]. rewrite C0 in Fc. rewrite <- Ab. unfold constructors_enabled. destruct a as [ps|].
    - destruct Fa as (h & Fh & Fn). rewrite Fh. destruct b; cbn; rewrite Fc, ?Fh, ?Fn; cbn; split; intros; auto; left; discriminate.
    - rewrite Fa. destruct b; cbn; rewrite ?Fc, ?Fa; cbn; split; intros X; auto; try discriminate; destruct X as [X|X]; congruence.
  Qed.
End Run.
