(** C07 for whole wrappers. *)
From Coq Require Import Lia.
From Verif.Model Require Import Py CodeSink Decls CodeBlock Params PyArgs MiniC ForwardWrapper WrapperCall.
From Verif.Spec Require Import ParamSpec ArgSpec WrapperSpec HandlerSpec BodySpec.
From Verif.Proofs Require Import BlockProofs ParamProofs ArgProofs WrapperProofs WrapperBody GenProofs.
Open Scope list_scope.

Lemma kw_len (items : list pitem) kw : map p_name items = map Some kw -> length kw = length items.
Proof. intros H. apply (f_equal (@length _)) in H. rewrite !map_length in H. auto. Qed.

Theorem call_ok (V W : Type) (conv : string -> V -> option W) c s kw args kwargs :
  generate_body c (init_state c) = Ok s ->
  let items := parse_order (parse_calls (early_calls c)) in
  (forall i, In i items -> p_template i <> ""%string /\ p_template i <> "|"%string) ->
  map p_name items = map Some kw -> NoDup kw -> NoDup (map fst kwargs) ->
  forall r,
  python_call conv s items args kwargs = Some r <->
  acceptable (length (filter (fun i => negb (p_optional i)) items)) kw args kwargs /\
  bound conv (map p_template items) kw args kwargs r.
Proof.
  intros H items Ht Hn Hk Hd r.
  destruct (flags_ok _ _ H) as [req [opt [Wo F]]]; [intros i Hi; now apply Ht|]. fold items in Wo, F. cbv zeta in F.
  assert (HP : plain_templates items) by (apply Forall_forall; intros i Hi; now apply Ht).
  assert (LR : length (filter (fun i => negb (p_optional i)) items) = length req).
  { destruct Wo as [-> [H1 H2]]. rewrite filter_app, app_length.
    assert (E1 : filter (fun i => negb (p_optional i)) req = req).
    { clear - H1. induction H1 as [|x l Hx _ IH]; cbn; [reflexivity|]. rewrite Hx. cbn. now f_equal. }
    assert (E2 : filter (fun i => negb (p_optional i)) opt = []).
    { clear - H2. induction H2 as [|x l Hx _ IH]; cbn; [reflexivity|]. now rewrite Hx. }
    rewrite E1, E2. cbn. lia. }
  rewrite LR. pose proof (template_ok _ _ _ Wo) as T.
  pose proof (kw_len _ _ Hn) as LK. destruct (keywords_ok items) as [K1 [K2 K3]].
  unfold python_call.
  destruct F as [[Ei [_ [Ef Eb]]]|[[Hor [_ [Hu [Ef Eb]]]]|[_ [kw' [Hkw [Ef [v [d [d' [_ Eb]]]]]]]]]]; rewrite Ef.
  - (* METH_NOARGS *)
    cbn [call_by_flags existsb String.eqb Ascii.eqb Bool.eqb orb]. unfold parse_code. rewrite Eb.
    rewrite Ei in *. cbn [map length] in *. destruct kw; [|discriminate LK].
    destruct Wo as [Wo _]. symmetry in Wo. apply app_eq_nil in Wo as [-> ->]. cbn [length].
    unfold call_by_flags. cbn. split.
    + destruct args; [|discriminate]. destruct kwargs; [|discriminate]. intros [= <-]. split.
      * split; [cbn; lia|]. split; [intros k []|intros i Hi; inversion Hi].
      * split; [reflexivity|]. intros i Hi. inversion Hi.
    + intros [[A1 [A2 _]] [B1 _]]. destruct args; [|cbn in A1; lia]. destruct kwargs as [|[k x] kr].
      * destruct r; [reflexivity|discriminate].
      * exfalso. destruct (A2 k) as [i [_ Hi]]; [now left|]. destruct i; discriminate.
  - (* METH_VARARGS: only when there are no parameters *)
    assert (Ei : items = []).
    { destruct items as [|i ri]; [reflexivity|]. exfalso. inversion Hu; subst. destruct kw; [discriminate|].
      cbn in Hn. congruence. }
    rewrite Ei in *. cbn [map length] in *. destruct kw; [|discriminate LK].
    destruct Wo as [Wo _]. symmetry in Wo. apply app_eq_nil in Wo as [-> ->]. cbn [length].
    unfold call_by_flags. cbn [existsb String.eqb Ascii.eqb Bool.eqb orb]. unfold parse_code. rewrite Eb. cbn.
    split.
    + destruct kwargs; [|discriminate]. unfold parse_tuple_only. cbn. destruct args; [|discriminate]. cbn. intros [= <-]. split.
      * split; [cbn; lia|]. split; [intros k []|intros i Hi; inversion Hi].
      * split; [reflexivity|]. intros i Hi. inversion Hi.
    + intros [[A1 [A2 _]] [B1 _]]. destruct args; [|cbn in A1; lia]. destruct kwargs as [|[k x] kr].
      * destruct r; [reflexivity|discriminate].
      * exfalso. destruct (A2 k) as [i [_ Hi]]; [now left|]. destruct i; discriminate.
  - (* METH_VARARGS | METH_KEYWORDS *)
    assert (Ekw : kw' = kw).
    { destruct Hkw as [[-> [_ Hu]]|[_ Hx]].
      - destruct items as [|i ri]; [destruct kw; [reflexivity|discriminate]|].
        inversion Hu; subst. destruct kw; [discriminate|]. cbn in Hn. congruence.
      - rewrite Hn in Hx. clear - Hx. revert kw' Hx. induction kw as [|x t IH]; intros [|y u] E; try discriminate; [reflexivity|].
        cbn in E. injection E as -> E. f_equal. auto. }
    unfold call_by_flags. cbn [existsb String.eqb Ascii.eqb Bool.eqb orb]. unfold parse_code. rewrite Eb.
    cbn [f_text py_frag]. rewrite T.
    assert (GK : get_keywords items = Ok (match items with [] => None | _ => Some kw end)).
    { destruct items as [|i ri] eqn:EI; [reflexivity|]. apply K1. split; [discriminate|exact Hn]. }
    rewrite GK.
    assert (Pre : forall x, String.prefix "!PyArg_ParseTupleAndKeywords(" ("!" ++ "PyArg_ParseTupleAndKeywords" ++ "(" ++ x)%string = true).
    { intros x. cbn. now destruct x. }
    rewrite Pre. 
    replace (match match items with [] => None | _ => Some kw end with Some l => l | None => [] end) with kw.
    2:{ destruct items; [|reflexivity]. destruct kw; [reflexivity|discriminate]. }
    eapply binding; eauto.
Qed.
