(** The code of each parameter only touches its own variables: running the code of all the parameters is running each on its
    part of the variables. *)
From Verif.Model Require Import Py CodeBlock Params IntHandlers Utf8 BasicHandlers.
From Coq Require Import ZArith Lia.
Open Scope list_scope.
Local Open Scope Z_scope.

Lemma NoDup_app_iff' {A} (l m : list A) : NoDup (l ++ m) <-> NoDup l /\ NoDup m /\ forall x, In x l -> ~ In x m.
Proof.
  induction l as [|a l IH]; cbn [app].
  - split; [intros H; repeat split; [constructor|exact H|intros x []]|intros (_ & H & _); exact H].
  - split.
    + intros H. inversion H as [|? ? H1 H2]; subst. apply IH in H2 as (H2 & H3 & H4). repeat split; [|exact H3|].
      * constructor; [|exact H2]. intros I. apply H1. apply in_or_app. left. exact I.
      * intros x [<-|I]; [|apply H4; exact I]. intros I. apply H1. apply in_or_app. right. exact I.
    + intros (H1 & H2 & H3). inversion H1 as [|? ? H4 H5]; subst. constructor.
      * intros I. apply in_app_or in I as [I|I]; [contradiction|]. apply (H3 a); [left; reflexivity|exact I].
      * apply IH. repeat split; [exact H5|exact H2|]. intros x I. apply H3. right. exact I.
Qed.

Section Frame.
  Context {N : numerics} {p : platform} {eval : ctyp -> string -> cval N}.
  Notation cenv := (cenv N).
  Notation st := (st N).
  Notation phase := (phase N).
  Notation mk := (mk_st N).

  Definition dom (e : cenv) : list string := map fst e.
  Lemma dom_app a b : dom (a ++ b) = dom a ++ dom b.
  Proof. apply map_app. Qed.
  Definition apart (a e : cenv) : Prop := forall n, In n (dom e) -> ~ In n (dom a).
  Lemma lookup_skip a e n : ~ In n (dom a) -> lookup N (a ++ e) n = lookup N e n.
  Proof.
    induction a as [|[k v] a IH]; intros H; [reflexivity|]. cbn [app lookup]. destruct (String.eqb_spec k n) as [->|D].
    - exfalso. apply H. left. reflexivity.
    - apply IH. intros I. apply H. right. exact I.
  Qed.
  Lemma lookup_left e b n : In n (dom e) -> lookup N (e ++ b) n = lookup N e n.
  Proof.
    induction e as [|[k v] e IH]; intros H; [destruct H|]. cbn [app lookup]. destruct (String.eqb_spec k n) as [->|D]; [reflexivity|].
    apply IH. destruct H as [H|H]; [contradiction|exact H].
  Qed.
  Lemma lookup_mid a e b n : In n (dom e) -> ~ In n (dom a) -> lookup N (a ++ e ++ b) n = lookup N e n.
  Proof. intros H A. rewrite lookup_skip by exact A. apply lookup_left. exact H. Qed.
  Lemma assign_skip a e n v : ~ In n (dom a) -> assign N (a ++ e) n v = a ++ assign N e n v.
  Proof.
    induction a as [|[k [t u]] a IH]; intros H; [reflexivity|]. cbn [app assign]. destruct (String.eqb_spec k n) as [->|D].
    - exfalso. apply H. left. reflexivity.
    - f_equal. apply IH. intros I. apply H. right. exact I.
  Qed.
  Lemma assign_left e b n v : In n (dom e) -> assign N (e ++ b) n v = assign N e n v ++ b.
  Proof.
    induction e as [|[k [t u]] e IH]; intros H; [destruct H|]. cbn [app assign]. destruct (String.eqb_spec k n) as [->|D]; [reflexivity|].
    cbn [app]. f_equal. apply IH. destruct H as [H|H]; [contradiction|exact H].
  Qed.
  Lemma assign_mid a e b n v : In n (dom e) -> ~ In n (dom a) -> assign N (a ++ e ++ b) n v = a ++ assign N e n v ++ b.
  Proof. intros H A. rewrite assign_skip by exact A. rewrite assign_left by exact H. reflexivity. Qed.
  Lemma dom_assign e n v : dom (assign N e n v) = dom e.
  Proof. induction e as [|[k [t u]] e IH]; [reflexivity|]. cbn [assign]. destruct (String.eqb k n); [reflexivity|]. cbn. f_equal. exact IH. Qed.

  (** ** Statements *)
  Definition lift (a b : cenv) (ph : phase) : phase :=
    match ph with
    | Go _ s => Go _ (mk (a ++ s_env _ s ++ b) (s_pending _ s) (s_log _ s))
    | Stop _ s e => Stop _ (mk (a ++ s_env _ s ++ b) (s_pending _ s) (s_log _ s)) e
    | Crash _ => Crash _
    end.
  Definition keeps (e : cenv) (ph : phase) : Prop :=
    match ph with Go _ s | Stop _ s _ => dom (s_env _ s) = dom e | Crash _ => True end.
  Definition within (vars : list string) (e : cenv) : Prop := forall n, In n vars -> In n (dom e).

  Fixpoint exp_vars (x : cexp) : list string :=
    match x with
    | EVar v | EIsTrue v => [v]
    | EString q n => [q; n]
    | EDefault _ => []
    | EIf v a b => v :: exp_vars a ++ exp_vars b
    end.
  Lemma frame_exp t a e b x : apart a e -> within (exp_vars x) e -> run_exp N eval t x (a ++ e ++ b) = run_exp N eval t x e.
  Proof.
    intros A. induction x as [v|q n|v|d|v x1 IH1 x2 IH2]; intros W; cbn [run_exp].
    - rewrite lookup_mid; [reflexivity|apply W; left; reflexivity|apply A; apply W; left; reflexivity].
    - rewrite (lookup_mid a e b q); [|apply W; left; reflexivity|apply A; apply W; left; reflexivity].
      rewrite (lookup_mid a e b n); [reflexivity|apply W; right; left; reflexivity|apply A; apply W; right; left; reflexivity].
    - rewrite lookup_mid; [reflexivity|apply W; left; reflexivity|apply A; apply W; left; reflexivity].
    - reflexivity.
    - rewrite lookup_mid; [|apply W; left; reflexivity|apply A; apply W; left; reflexivity].
      rewrite IH1 by (intros n I; apply W; right; apply in_or_app; left; exact I).
      rewrite IH2 by (intros n I; apply W; right; apply in_or_app; right; exact I). reflexivity.
  Qed.
  Lemma frame_check a e b cs : apart a e -> within (map (fun c => fst (fst c)) cs) e ->
    check_values N (a ++ e ++ b) cs = check_values N e cs.
  Proof.
    intros A. induction cs as [|c cs IH]; intros W; [reflexivity|]. cbn [check_values]. unfold check_value.
    rewrite lookup_mid; [|apply W; left; reflexivity|apply A; apply W; left; reflexivity].
    rewrite IH by (intros n I; apply W; right; exact I). reflexivity.
  Qed.
  Definition stm_vars (x : cstm) : list string :=
    match x with
    | SSet v e => v :: exp_vars e
    | SCheck cs => map (fun c => fst (fst c)) cs
    | SIncref v => [v]
    end.
  Lemma frame_stm x a e b pd lg : apart a e -> within (stm_vars x) e ->
    run_stm N eval x (mk (a ++ e ++ b) pd lg) = lift a b (run_stm N eval x (mk e pd lg)).
  Proof.
    intros A W. destruct x as [v x|cs|v]; cbn [run_stm stm_vars s_env s_pending s_log] in *.
    - rewrite lookup_mid; [|apply W; left; reflexivity|apply A; apply W; left; reflexivity].
      destruct (lookup N e v) as [[t u]|]; [|reflexivity]. rewrite frame_exp; [|exact A|intros n I; apply W; right; exact I].
      destruct (run_exp N eval t x e) as [[c pend]|]; [|reflexivity]. destruct (coerce N t c) as [c'|]; [|reflexivity].
      cbn [lift s_env s_pending s_log]. rewrite assign_mid; [reflexivity|apply W; left; reflexivity|apply A; apply W; left; reflexivity].
    - rewrite frame_check by assumption. destruct (check_values N e cs) as [[|]|]; reflexivity.
    - rewrite lookup_mid; [|apply W; left; reflexivity|apply A; apply W; left; reflexivity].
      destruct (lookup N e v) as [[t [ | | | | | |n| |[o|] | ]]|]; reflexivity.
  Qed.
  Lemma keeps_stm x e pd lg : keeps e (run_stm N eval x (mk e pd lg)).
  Proof.
    destruct x as [v x|cs|v]; cbn [run_stm s_env s_pending s_log].
    - destruct (lookup N e v) as [[t u]|]; [|exact I]. destruct (run_exp N eval t x e) as [[c pend]|]; [|exact I]. destruct (coerce N t c) as [c'|]; [|exact I].
      cbn [keeps s_env]. apply dom_assign.
    - destruct (check_values N e cs) as [[|]|]; cbn [keeps s_env]; reflexivity || exact I.
    - destruct (lookup N e v) as [[t [ | | | | | |n| |[o|] | ]]|]; cbn [keeps s_env]; reflexivity || exact I.
  Qed.

  Lemma frame_store n k v a e b pd lg : apart a e -> In n (dom e) ->
    store_at N (mk (a ++ e ++ b) pd lg) n k v = lift a b (store_at N (mk e pd lg) n k v).
  Proof.
    intros A I. unfold store_at. cbn [s_env]. rewrite lookup_mid by (try exact I; apply A; exact I).
    destruct (lookup N e n) as [[t u]|]; [|reflexivity]. destruct (fits_in N t v k); [|reflexivity]. destruct (coerce N t v) as [w|]; [|reflexivity].
    unfold set_env. cbn [lift s_env s_pending s_log]. rewrite assign_mid by (try exact I; apply A; exact I). reflexivity.
  Qed.
  Lemma keeps_store n k v e pd lg : keeps e (store_at N (mk e pd lg) n k v).
  Proof.
    unfold store_at. cbn [s_env]. destruct (lookup N e n) as [[t u]|]; [|exact I]. destruct (fits_in N t v k); [|exact I]. destruct (coerce N t v) as [w|]; [|exact I].
    unfold set_env. cbn [keeps s_env]. apply dom_assign.
  Qed.
  Lemma frame_value u vars v a e b pd lg : apart a e -> within vars e ->
    parse_value N p u vars v (mk (a ++ e ++ b) pd lg) = lift a b (parse_value N p u vars v (mk e pd lg)).
  Proof.
    intros A W. destruct vars as [|n [|m [|k r]]]; try reflexivity.
    - assert (I : In n (dom e)) by (apply W; left; reflexivity). cbn [parse_value].
      destruct (existsb (String.eqb u) int_units).
      { destruct (parse_unit p u (as_int N v)); [apply frame_store; assumption|reflexivity|reflexivity]. }
      destruct (String.eqb u "d"). { destruct (as_double N v); [apply frame_store; assumption|reflexivity]. }
      destruct (String.eqb u "f"). { destruct (as_double N v); [apply frame_store; assumption|reflexivity]. }
      destruct (String.eqb u "c"). { destruct v as [| | | |[|c [|c2 l]]| | |]; try reflexivity. apply frame_store; assumption. }
      destruct (String.eqb u "s"). { destruct v as [| | |l| | | |]; try reflexivity. destruct (encode l) as [bs|]; [|reflexivity]. destruct (has_nul bs); [reflexivity|]. apply frame_store; assumption. }
      destruct (String.eqb u "O"); [|reflexivity]. apply frame_store; assumption.
    - assert (I : In n (dom e)) by (apply W; left; reflexivity). assert (J : In m (dom e)) by (apply W; right; left; reflexivity). cbn [parse_value].
      destruct (String.eqb u "s#"); [|reflexivity]. cbv zeta.
      assert (K : forall bs, then_ N (store_at N (mk (a ++ e ++ b) pd lg) n 0 (VCStr N (Some bs))) (fun s => store_at N s m 0 (VLen N (Z.of_nat (length bs)))) =
                 lift a b (then_ N (store_at N (mk e pd lg) n 0 (VCStr N (Some bs))) (fun s => store_at N s m 0 (VLen N (Z.of_nat (length bs)))))).
      { intros bs. rewrite frame_store by assumption. assert (Q := keeps_store n 0 (VCStr N (Some bs)) e pd lg).
        destruct (store_at N (mk e pd lg) n 0 (VCStr N (Some bs))) as [[e' pd' lg']|s x|]; cbn [lift then_ s_env s_pending s_log]; [|reflexivity|reflexivity].
        cbn [keeps s_env] in Q. apply frame_store; [intros y Hy; apply A; rewrite <- Q; exact Hy|rewrite Q; exact J]. }
      destruct v as [| | |l|l| | |]; try reflexivity; [destruct (encode l) as [bs|]; [|reflexivity]|]; apply K.
  Qed.
  Lemma keeps_value u vars v e pd lg : keeps e (parse_value N p u vars v (mk e pd lg)).
  Proof.
    destruct vars as [|n [|m [|k r]]]; try exact I; cbn [parse_value].
    - destruct (existsb (String.eqb u) int_units).
      { destruct (parse_unit p u (as_int N v)); [apply keeps_store|reflexivity|exact I]. }
      destruct (String.eqb u "d"). { destruct (as_double N v); [apply keeps_store|reflexivity]. }
      destruct (String.eqb u "f"). { destruct (as_double N v); [apply keeps_store|reflexivity]. }
      destruct (String.eqb u "c"). { destruct v as [| | | |[|c [|c2 l]]| | |]; try reflexivity. apply keeps_store. }
      destruct (String.eqb u "s"). { destruct v as [| | |l| | | |]; try reflexivity. destruct (encode l) as [bs|]; [|reflexivity]. destruct (has_nul bs); [reflexivity|]. apply keeps_store. }
      destruct (String.eqb u "O"); [|exact I]. apply keeps_store.
    - destruct (String.eqb u "s#"); [|exact I]. cbv zeta.
      assert (K : forall bs, keeps e (then_ N (store_at N (mk e pd lg) n 0 (VCStr N (Some bs))) (fun s => store_at N s m 0 (VLen N (Z.of_nat (length bs)))))).
      { intros bs. assert (Q := keeps_store n 0 (VCStr N (Some bs)) e pd lg).
        destruct (store_at N (mk e pd lg) n 0 (VCStr N (Some bs))) as [[e' pd' lg']|s x|]; cbn [then_]; [|exact Q|exact I].
        cbn [keeps s_env] in Q. assert (Q' := keeps_store m 0 (VLen N (Z.of_nat (length bs))) e' pd' lg'). unfold keeps in *. destruct (store_at N (mk e' pd' lg') m 0 _); congruence || exact I. }
      destruct v as [| | |l|l| | |]; try reflexivity; [destruct (encode l) as [bs|]; [|reflexivity]|]; apply K.
  Qed.
  Definition parse_item (ea : pent * option (pyv N)) (s : st) : phase := parse_entry N p (fst ea) (snd ea) s.
  Definition item_vars (ea : pent * option (pyv N)) : list string := pe_vars (fst ea).
  Lemma frame_item x a e b pd lg : apart a e -> within (item_vars x) e ->
    parse_item x (mk (a ++ e ++ b) pd lg) = lift a b (parse_item x (mk e pd lg)).
  Proof.
    intros A W. destruct x as [x [v|]]; unfold parse_item, parse_entry; cbn [fst snd]; [apply frame_value; assumption|].
    destruct (pe_optional x); reflexivity.
  Qed.
  Lemma keeps_item x e pd lg : keeps e (parse_item x (mk e pd lg)).
  Proof. destruct x as [x [v|]]; unfold parse_item, parse_entry; cbn [fst snd]; [apply keeps_value|]. destruct (pe_optional x); reflexivity. Qed.

  (** ** Sequences *)
  Section Seq.
    Context {I : Type} (step : I -> st -> phase) (vars : I -> list string).
    Hypothesis frame : forall x a e b pd lg, apart a e -> within (vars x) e -> step x (mk (a ++ e ++ b) pd lg) = lift a b (step x (mk e pd lg)).
    Hypothesis keep : forall x e pd lg, keeps e (step x (mk e pd lg)).
    Fixpoint run_seq (l : list I) (s : st) : phase :=
      match l with [] => Go _ s | x :: r => then_ N (step x s) (run_seq r) end.
    Lemma run_seq_app l1 : forall l2 s, run_seq (l1 ++ l2) s = then_ N (run_seq l1 s) (run_seq l2).
    Proof.
      induction l1 as [|x l1 IH]; intros l2 s; [reflexivity|]. cbn [app run_seq]. destruct (step x s) as [s'|s' y|]; cbn [then_]; [apply IH|reflexivity|reflexivity].
    Qed.
    Definition all_vars (l : list I) : list string := flat_map vars l.
    Lemma frame_seq a b l : forall e pd lg, apart a e -> within (all_vars l) e ->
      run_seq l (mk (a ++ e ++ b) pd lg) = lift a b (run_seq l (mk e pd lg)).
    Proof.
      induction l as [|x l IH]; intros e pd lg A W; [reflexivity|]. cbn [run_seq].
      rewrite frame; [|exact A|intros n H; apply W; apply in_or_app; left; exact H]. assert (K := keep x e pd lg).
      destruct (step x (mk e pd lg)) as [[e' pd' lg']|s y|]; cbn [lift then_ s_env s_pending s_log]; [|reflexivity|reflexivity].
      cbn [keeps s_env] in K. apply IH; [intros n H; apply A; rewrite <- K; exact H|].
      intros n H. rewrite K. apply W. apply in_or_app. right. exact H.
    Qed.
    Lemma keeps_seq l : forall e pd lg, keeps e (run_seq l (mk e pd lg)).
    Proof.
      induction l as [|x l IH]; intros e pd lg; [reflexivity|]. cbn [run_seq]. assert (K := keep x e pd lg).
      destruct (step x (mk e pd lg)) as [[e' pd' lg']|s y|]; cbn [then_]; [|exact K|exact Logic.I]. cbn [keeps s_env] in K.
      assert (K' := IH e' pd' lg'). unfold keeps in *. destruct (run_seq l (mk e' pd' lg')); congruence || exact Logic.I.
    Qed.

    (** One part: its statements, its variables before and after, the events. *)
    Record part : Type := mk_part { pt_items : list I; pt_before : cenv; pt_after : cenv; pt_pend : bool; pt_events : list (event N) }.
    Definition goes (q : part) : Prop :=
      within (all_vars (pt_items q)) (pt_before q) /\
      forall pd lg, run_seq (pt_items q) (mk (pt_before q) pd lg) = Go _ (mk (pt_after q) (pd || pt_pend q) (lg ++ pt_events q)).
    Definition before_of (l : list part) : cenv := flat_map pt_before l.
    Definition after_of (l : list part) : cenv := flat_map pt_after l.
    Lemma goes_dom q : goes q -> dom (pt_after q) = dom (pt_before q).
    Proof. intros [_ G]. assert (K := keeps_seq (pt_items q) (pt_before q) false []). rewrite G in K. exact K. Qed.
    Lemma goes_all l : Forall goes l -> forall a b pd lg, NoDup (dom (a ++ before_of l)) ->
      run_seq (flat_map pt_items l) (mk (a ++ before_of l ++ b) pd lg) = Go _ (mk (a ++ after_of l ++ b) (pd || existsb pt_pend l) (lg ++ flat_map pt_events l)).
    Proof.
      induction 1 as [|q l G H IH]; intros a b pd lg D; [cbn; rewrite app_nil_r, orb_false_r; reflexivity|].
      cbn [flat_map before_of after_of existsb]. fold (before_of l) (after_of l). rewrite run_seq_app, <- app_assoc.
      assert (A : apart a (pt_before q)).
      { intros n I1 I2. change (before_of (q :: l)) with (pt_before q ++ before_of l) in D. rewrite !dom_app in D.
        apply (proj1 (NoDup_app_iff' _ _)) in D. destruct D as (_ & _ & D). apply (D n I2). apply in_or_app. left. exact I1. }
      rewrite frame_seq; [|exact A|apply (proj1 G)]. rewrite (proj2 G). cbn [lift then_ s_env s_pending s_log].
      rewrite app_assoc. rewrite IH.
      - rewrite <- !app_assoc, orb_assoc. reflexivity.
      - rewrite dom_app, dom_app, (goes_dom q G), <- dom_app, <- dom_app, <- app_assoc. exact D.
    Qed.
    (** The first part that fails stops the sequence. *)
    Definition stops (items : list I) (e : cenv) (evs : list (event N)) (x : perr) : Prop :=
      within (all_vars items) e /\ forall pd lg, exists e' pd', run_seq items (mk e pd lg) = Stop _ (mk e' pd' (lg ++ evs)) x.
    Lemma stops_at l items e evs x : Forall goes l -> stops items e evs x -> forall a b rest pd lg, NoDup (dom (a ++ before_of l ++ e)) ->
      exists e' pd', run_seq (flat_map pt_items l ++ items ++ rest) (mk (a ++ before_of l ++ e ++ b) pd lg) = Stop _ (mk e' pd' (lg ++ flat_map pt_events l ++ evs)) x.
    Proof.
      intros G [W S] a b rest pd lg D.
      assert (D1 : NoDup (dom (a ++ before_of l))). { rewrite app_assoc, dom_app in D. apply (proj1 (NoDup_app_iff' _ _)) in D. apply D. }
      rewrite run_seq_app, (goes_all l G a (e ++ b) pd lg D1). cbn [then_]. rewrite run_seq_app.
      assert (E : dom (a ++ after_of l) = dom (a ++ before_of l)).
      { rewrite !dom_app. f_equal. clear - G keep. induction G as [|q l Q H IH]; [reflexivity|]. cbn [after_of before_of flat_map]. rewrite !dom_app. f_equal; [apply goes_dom; exact Q|exact IH]. }
      rewrite app_assoc. rewrite frame_seq; [|intros n I1 I2; rewrite E in I2; rewrite app_assoc, dom_app in D; apply (proj1 (NoDup_app_iff' _ _)) in D; destruct D as (_ & _ & D); exact (D n I2 I1)|exact W].
      destruct (S (pd || existsb pt_pend l) (lg ++ flat_map pt_events l)) as (e' & pd' & ->). cbn [lift then_ s_env s_pending s_log]. rewrite (app_assoc lg). eexists _, _. reflexivity.
    Qed.
  End Seq.
  Lemma run_stms_seq l s : run_stms N eval l s = run_seq (run_stm N eval) l s.
  Proof. revert s. induction l as [|x l IH]; intros s; [reflexivity|]. cbn [run_stms run_seq]. destruct (run_stm N eval x s); cbn [then_]; [apply IH|reflexivity|reflexivity]. Qed.
  Lemma run_parse_seq l : forall args s, length l = length args -> run_parse N p l args s = run_seq parse_item (combine l args) s.
  Proof.
    induction l as [|x l IH]; intros [|a args] s L; try discriminate; [reflexivity|]. cbn [run_parse combine run_seq]. unfold parse_item at 1. cbn [fst snd].
    destruct (parse_entry N p x a s); cbn [then_]; [apply IH; injection L; auto|reflexivity|reflexivity].
  Qed.

  (** ** Arguments and results *)
  Definition arg_vars (x : carg) : list string := match x with AValue e => exp_vars e | ARef v | AAddr v => [v] end.
  Lemma frame_arg t x a e b : apart a e -> within (arg_vars x) e -> pass_arg N eval t x (a ++ e ++ b) = pass_arg N eval t x e.
  Proof.
    intros A W. destruct x as [x|v|v]; cbn [pass_arg]; [rewrite frame_exp by assumption; reflexivity| |];
      (rewrite lookup_mid; [reflexivity|apply W; left; reflexivity|apply A; apply W; left; reflexivity]).
  Qed.
  (** Each parameter passes one argument, from its own variables. *)
  Record pass : Type := mk_pass { ps_arg : carg; ps_type : ctyp; ps_env : cenv; ps_value : cval N }.
  Definition passes (q : pass) : Prop := within (arg_vars (ps_arg q)) (ps_env q) /\ pass_arg N eval (ps_type q) (ps_arg q) (ps_env q) = Some (ps_value q).
  Lemma pass_all_parts l : Forall passes l -> forall a b, NoDup (dom (a ++ flat_map ps_env l)) ->
    pass_args N eval (map ps_arg l) (map ps_type l) (a ++ flat_map ps_env l ++ b) = Some (map ps_value l).
  Proof.
    induction 1 as [|q l [W G] H IH]; intros a b D; [reflexivity|]. cbn [map pass_args flat_map]. rewrite <- app_assoc.
    assert (A : apart a (ps_env q)).
    { intros n I1 I2. cbn [flat_map] in D. rewrite !dom_app in D. apply (proj1 (NoDup_app_iff' _ _)) in D. destruct D as (_ & _ & D). apply (D n I2). apply in_or_app. left. exact I1. }
    rewrite frame_arg by assumption. rewrite G. rewrite app_assoc. rewrite IH; [reflexivity|]. rewrite <- app_assoc. exact D.
  Qed.
  Record leave : Type := mk_leave { lv_arg : carg; lv_out : cval N; lv_before : cenv; lv_after : cenv }.
  Definition leaves (q : leave) : Prop := within (arg_vars (lv_arg q)) (lv_before q) /\ leave_args N [lv_arg q] [lv_out q] (lv_before q) = Some (lv_after q).
  Lemma leaves_dom q : leaves q -> dom (lv_after q) = dom (lv_before q).
  Proof.
    intros [_ G]. destruct (lv_arg q); cbn [leave_args] in G; [congruence| |]; destruct (lookup N (lv_before q) v) as [[t u]|]; try discriminate;
      destruct (coerce N t (lv_out q)); try discriminate; injection G as <-; apply dom_assign.
  Qed.
  Lemma leave_all_parts l : Forall leaves l -> forall a b, NoDup (dom (a ++ flat_map lv_before l)) ->
    leave_args N (map lv_arg l) (map lv_out l) (a ++ flat_map lv_before l ++ b) = Some (a ++ flat_map lv_after l ++ b).
  Proof.
    induction 1 as [|q l L H IH]; intros a b D; [reflexivity|]. cbn [map flat_map]. rewrite <- !app_assoc.
    assert (A : apart a (lv_before q)).
    { intros n I1 I2. cbn [flat_map] in D. rewrite !dom_app in D. apply (proj1 (NoDup_app_iff' _ _)) in D. destruct D as (_ & _ & D). apply (D n I2). apply in_or_app. left. exact I1. }
    assert (R : leave_args N (map lv_arg l) (map lv_out l) ((a ++ lv_after q) ++ flat_map lv_before l ++ b) = Some ((a ++ lv_after q) ++ flat_map lv_after l ++ b)).
    { apply IH. rewrite dom_app, (dom_app a), (leaves_dom q L), <- !dom_app, <- app_assoc. exact D. }
    rewrite <- !app_assoc in R. destruct L as [W G]. unfold arg_vars in W. destruct (lv_arg q) as [x|v|v]; cbn [leave_args] in G |- *.
    - injection G as G. rewrite G. exact R.
    - assert (I : In v (dom (lv_before q))) by (apply W; left; reflexivity). rewrite lookup_mid by (try exact I; apply A; exact I).
      destruct (lookup N (lv_before q) v) as [[t u]|]; [|discriminate]. destruct (coerce N t (lv_out q)) as [w|]; [|discriminate]. injection G as G.
      rewrite assign_mid by (try exact I; apply A; exact I). rewrite G. exact R.
    - assert (I : In v (dom (lv_before q))) by (apply W; left; reflexivity). rewrite lookup_mid by (try exact I; apply A; exact I).
      destruct (lookup N (lv_before q) v) as [[t u]|]; [|discriminate]. destruct (coerce N t (lv_out q)) as [w|]; [|discriminate]. injection G as G.
      rewrite assign_mid by (try exact I; apply A; exact I). rewrite G. exact R.
  Qed.
  Definition bent_var (b : bent) : string := match be_exp b with BInt x => bexpr_var x | BVar v | BBytes v | BTruth v | BChar v => v end.
  Lemma frame_build x a e b : apart a e -> In (bent_var x) (dom e) -> build_unit N p x (a ++ e ++ b) = build_unit N p x e.
  Proof.
    intros A I. unfold build_unit, bent_var in *. destruct (be_exp x); (rewrite lookup_mid; [reflexivity|exact I|apply A; exact I]).
  Qed.
End Frame.
