(** A whole call of a wrapper. *)
From Verif.Model Require Import Py Decls CodeBlock Params IntHandlers Utf8 WrapperCall BasicHandlers.
From Verif.Spec Require Import IntSpec BasicSpec.
From Verif.Proofs Require Import Utf8Proofs IntProofs IntTop IntBack BasicFrame BasicLocal BasicInts BasicNames.
From Coq Require Import ZArith Lia.
Open Scope string_scope.
Open Scope list_scope.
Local Open Scope Z_scope.

Lemma before_nul_c l : before_nul l = c_string l.
Proof.
  induction l as [|b r IH]; [reflexivity|]. cbn [c_string]. destruct b as [|q|q]; cbn [before_nul Z.eqb]; [reflexivity| |]; now rewrite IH.
Qed.
Section Top.
  Context {N : numerics} {p : platform} {eval : ctyp -> string -> cval N}.
  Notation cenv := (cenv N).
  Notation mk := (mk_st N).
  Notation arg := (option (option (pyv N))).

  (** ** Exclusive outcomes *)
  Lemma refused_not_reaches x a e c pd : arg_refused p x a e -> ~ reaches p eval (x, Some a) c pd.
  Proof.
    intros R [[G _]|[[K (v & E & T)] _]]; cbn [fst snd] in *.
    - unfold gets, arg_arrives in G. unfold arg_refused in R. cbn [fst snd] in *. destruct a as [v|].
      + destruct (kind_of x); cbn [arrives refused] in *; try contradiction.
        * destruct G as (z & y & IZ & AC & _). destruct R as [[NI _]|(z' & IZ' & NA & _)]; [exact (NI _ IZ)|]. rewrite (integer_unique _ _ _ IZ' IZ) in NA. contradiction.
        * destruct G as (d & NM & _). destruct R as [[[NF NI] _]|(z & IZ & OI & _)]; destruct NM as [->|(z' & IZ' & OI')].
          -- exact (NF d eq_refl). -- exact (NI _ IZ'). -- destruct IZ as [E|(b & E & _)]; discriminate E. -- rewrite (integer_unique _ _ _ IZ IZ') in OI. congruence.
        * destruct G as (d & NM & _). destruct R as [[[NF NI] _]|(z & IZ & OI & _)]; destruct NM as [->|(z' & IZ' & OI')].
          -- exact (NF d eq_refl). -- exact (NI _ IZ'). -- destruct IZ as [E|(b & E & _)]; discriminate E. -- rewrite (integer_unique _ _ _ IZ IZ') in OI. congruence.
        * destruct G as (s & b & -> & EN & NZ & _). destruct R as [[NS _]|(s' & [= <-] & [X|X] & _)]; [exact (NS s eq_refl)|congruence|contradiction].
        * destruct G as (b & -> & _). destruct R as [R _]. exact (R b eq_refl).
        * destruct R as [[NS _]|(s' & -> & X & _)]; destruct G as [(s & b & E & EN & _)|(b & E & _)]; subst.
          -- exact (proj1 (NS s) eq_refl). -- exact (proj2 (NS b) eq_refl). -- congruence. -- discriminate.
      + destruct R as [R _]. destruct G as (d & E & _). congruence.
    - injection E as ->. unfold arg_refused in R. rewrite K in R. exact R.
  Qed.
  Lemma range_not_reaches x a c pd : arg_out_of_range p x a -> ~ reaches p eval (x, Some a) c pd.
  Proof.
    intros R [[G _]|[[K (v & E & T)] _]]; cbn [fst snd] in *.
    - unfold gets, arg_arrives, arg_out_of_range in *. cbn [fst snd] in *. destruct a as [v|]; [|destruct R]. destruct (kind_of x); try destruct R as (z & IZ & NA & _); try contradiction.
      destruct G as (z' & y & IZ' & AC & _). rewrite (integer_unique _ _ _ IZ' IZ) in AC. contradiction.
    - injection E as ->. unfold arg_out_of_range in R. rewrite K in R. exact R.
  Qed.
  Lemma refused_not_range x (a : option (pyv N)) e : arg_refused p x a e -> ~ arg_out_of_range p x a.
  Proof.
    unfold arg_refused, arg_out_of_range. destruct a as [v|]; [|intros _ []]. destruct (kind_of x); cbn [refused out_of_range]; try tauto.
    intros [[NI _]|(z & IZ & NA & PE & _)] (z' & IZ' & _ & PE'); [exact (NI _ IZ')|]. rewrite (integer_unique _ _ _ IZ' IZ) in PE'. congruence.
  Qed.
  Lemma refused_unique x (a : option (pyv N)) e e' : arg_refused p x a e -> arg_refused p x a e' -> e = e'.
  Proof.
    unfold arg_refused. destruct a as [v|]; [|intros [_ ->] [_ ->]; reflexivity]. destruct (kind_of x); cbn [refused]; try contradiction.
    - intros [[N1 ->]|(z & I1 & _ & _ & ->)] [[N2 ->]|(z' & I2 & _ & _ & ->)]; try reflexivity; exfalso; [exact (N1 _ I2)|exact (N2 _ I1)].
    - intros [[N1 ->]|(z & I1 & _ & ->)] [[N2 ->]|(z' & I2 & _ & ->)]; try reflexivity; exfalso; [exact (proj2 N1 _ I2)|exact (proj2 N2 _ I1)].
    - intros [[N1 ->]|(z & I1 & _ & ->)] [[N2 ->]|(z' & I2 & _ & ->)]; try reflexivity; exfalso; [exact (proj2 N1 _ I2)|exact (proj2 N2 _ I1)].
    - intros [[N1 ->]|(s & I1 & _ & ->)] [[N2 ->]|(s' & I2 & _ & ->)]; try reflexivity; exfalso; [exact (N1 _ I2)|exact (N2 _ I1)].
    - intros [_ ->] [_ ->]. reflexivity.
    - intros [[N1 ->]|(s & I1 & _ & ->)] [[N2 ->]|(s' & I2 & _ & ->)]; try reflexivity; exfalso; [exact (proj1 (N1 _) I2)|exact (proj1 (N2 _) I1)].
  Qed.
  Lemma reaches_unique xa c pd c' pd' : valid_platform p -> reaches p eval xa c pd -> reaches p eval xa c' pd' -> c = c' /\ pd = pd'.
  Proof.
    intros V. destruct xa as [x a]. unfold reaches, untold, gets. cbn [fst snd].
    intros [[G ->]|[[K (v & -> & T)] [-> ->]]] [[G' ->]|[[K' (v' & E' & T')] [-> ->]]].
    - split; [|reflexivity]. destruct a as [[v|]|]; cbn [arg_arrives] in *; [| |congruence].
      + destruct (kind_of x) eqn:KO; cbn [arrives] in *.
        * destruct G as (z & y & I1 & _ & W1 & ->), G' as (z' & y' & I2 & _ & W2 & ->). rewrite (integer_unique _ _ _ I2 I1) in W2. f_equal. eapply wrapped_unique; [apply bits_pos; exact V|exact W1|exact W2].
        * destruct G as (b & T & ->), G' as (b' & T' & ->). congruence.
        * destruct G as (d & M & ->), G' as (d' & M' & ->). f_equal. destruct M as [M|(z & I1 & O1)], M' as [M'|(z' & I2 & O2)].
          -- congruence. -- rewrite M in I2. destruct I2 as [E|(b & E & _)]; discriminate E. -- rewrite M' in I1. destruct I1 as [E|(b & E & _)]; discriminate E. -- rewrite (integer_unique _ _ _ I2 I1) in O2. congruence.
        * destruct G as (d & M & ->), G' as (d' & M' & ->). do 2 f_equal. destruct M as [M|(z & I1 & O1)], M' as [M'|(z' & I2 & O2)].
          -- congruence. -- rewrite M in I2. destruct I2 as [E|(b & E & _)]; discriminate E. -- rewrite M' in I1. destruct I1 as [E|(b & E & _)]; discriminate E. -- rewrite (integer_unique _ _ _ I2 I1) in O2. congruence.
        * destruct G as (s & b & -> & E1 & _ & ->), G' as (s' & b' & [= <-] & E2 & _ & ->). congruence.
        * destruct G as (b & -> & ->), G' as (b' & [= <-] & ->). reflexivity.
        * destruct G as [(s & b & -> & E1 & ->)|(b & -> & ->)], G' as [(s' & b' & E & E2 & ->)|(b' & E & ->)]; try discriminate E; injection E as <-; congruence.
        * congruence.
      + destruct G as (d & D1 & F1), G' as (d' & D2 & F2). rewrite D1 in D2. injection D2 as <-. destruct (kind_of x); cbn [default_is] in *.
        * destruct F1 as (z & E1 & _ & ->), F2 as (z' & E2 & _ & ->). specialize (E1 sint). specialize (E2 sint). congruence.
        * destruct F1 as (z & E1 & ->), F2 as (z' & E2 & ->). congruence.
        * destruct F1 as (z & E1 & ->), F2 as (z' & E2 & ->). congruence.
        * destruct F1 as (z & E1 & ->), F2 as (z' & E2 & ->). congruence.
        * destruct F1 as [[-> ->]|(ND & o & E1 & ->)], F2 as [[E ->]|(ND' & o' & E2 & ->)]; congruence.
        * destruct F1 as (z & E1 & ->), F2 as (z' & E2 & ->). congruence.
        * destruct F1 as (z & E1 & ->), F2 as (z' & E2 & ->). congruence.
        * contradiction.
    - exfalso. rewrite E' in G. cbn [arg_arrives] in G. rewrite K' in G. destruct G as (b & T & _). congruence.
    - exfalso. cbn [arg_arrives] in G'. rewrite K in G'. destruct G' as (b & T' & _). congruence.
    - split; reflexivity.
  Qed.

  Lemma reaches_receivable xa c pd : valid_platform p -> (bp_in (fst xa) = true <-> snd xa <> None) -> reaches p eval xa c pd -> receivable p (fst xa) c.
  Proof.
    intros V. destruct xa as [x a]. unfold reaches, untold, gets, receivable. cbn [fst snd]. intros IA [[G _]|[[K _] [-> _]]].
    - destruct a as [[v|]|]; cbn [arg_arrives] in G; [left|left|right; split; [destruct (bp_in x); [exfalso; apply IA; reflexivity|reflexivity]|exact G]].
      + destruct (kind_of x); cbn [arrives typed] in *.
        * destruct G as (z & y & _ & _ & W & ->). exists y. split; [reflexivity|]. exact (proj1 W).
        * destruct G as (b & _ & ->). eexists. reflexivity.
        * destruct G as (b & _ & ->). eexists. reflexivity.
        * destruct G as (b & _ & ->). eexists. reflexivity.
        * destruct G as (s & b & _ & _ & _ & ->). eexists. reflexivity.
        * destruct G as (b & _ & ->). eexists. reflexivity.
        * destruct G as [(s & b & _ & _ & ->)|(b & _ & ->)]; eexists; reflexivity.
        * eexists. exact G.
      + destruct G as (d & _ & F). destruct (kind_of x); cbn [default_is typed] in *.
        * destruct F as (z & _ & R & ->). eexists. split; [reflexivity|exact R].
        * destruct F as (b & _ & ->). eexists. reflexivity.
        * destruct F as (b & _ & ->). eexists. reflexivity.
        * destruct F as (b & _ & ->). eexists. reflexivity.
        * destruct F as [[_ ->]|(_ & o & _ & ->)]; eexists; reflexivity.
        * destruct F as (b & _ & ->). eexists. reflexivity.
        * destruct F as (b & _ & ->). eexists. reflexivity.
        * contradiction.
    - left. rewrite K. eexists. reflexivity.
  Qed.

  (** ** The parameters of a call *)
  Record case : Type := mk_case { k_x : bparam; k_ns : list string; k_a : arg; k_E0 : cenv; k_pe : list pent; k_sts : list cstm; k_ca : carg; k_bs : list (bent * bool); k_T : ctyp }.
  Definition case_ok (k : case) : Prop :=
    (forall e pd lg, run_decls N p eval (declared_as (k_x k) (k_ns k)) (mk e pd lg) = Go _ (mk (e ++ k_E0 k) pd (lg ++ created (k_x k)))) /\
    dom (k_E0 k) = k_ns k /\
    parses (code (k_x k) (k_ns k)) = k_pe k /\ length (k_pe k) = (if bp_in (k_x k) then 1%nat else 0%nat) /\ befores (code (k_x k) (k_ns k)) = k_sts k /\
    calls (code (k_x k) (k_ns k)) = [k_ca k] /\ builds (code (k_x k) (k_ns k)) = k_bs k /\ length (k_bs k) = (if bp_out (k_x k) then 1%nat else 0%nat) /\
    resolve p (value_type_of (k_x k)) = Some (k_T k) /\ (bp_in (k_x k) = true <-> k_a k <> None) /\
    fate (p := p) (eval := eval) (k_x k) (k_a k) (k_E0 k) (k_pe k) (k_sts k) (k_ca k) (k_bs k) (k_T k).
  Lemma deal_in ps : forall args, Forall (fun xa : bparam * arg => bp_in (fst xa) = true <-> snd xa <> None) (deal ps args).
  Proof.
    induction ps as [|x ps IH]; intros args; [constructor|]. cbn [deal]. destruct (bp_in x) eqn:B.
    - destruct args as [|a args]; constructor; try apply IH; cbn [fst snd]; rewrite B; split; discriminate || reflexivity.
    - constructor; [|apply IH]. cbn [fst snd]. rewrite B. split; [discriminate|intros H; contradiction].
  Qed.
  Lemma deal_fst ps : forall args : list (option (pyv N)), map fst (deal ps args) = ps.
  Proof. induction ps as [|x ps IH]; intros args; [reflexivity|]. cbn [deal]. destruct (bp_in x); [destruct args|]; cbn [map fst]; rewrite IH; reflexivity. Qed.
  Lemma deal_args ps : forall args : list (option (pyv N)), length args = inputs ps -> flat_map (fun xa => arg_list (snd xa)) (deal ps args) = args.
  Proof.
    unfold inputs. induction ps as [|x ps IH]; intros args L; [destruct args; [reflexivity|discriminate]|]. cbn [deal filter] in *. destruct (bp_in x).
    - destruct args as [|a args]; [discriminate|]. cbn [flat_map snd arg_list app]. rewrite IH; [reflexivity|]. injection L as L. exact L.
    - cbn [flat_map snd arg_list app]. apply IH. exact L.
  Qed.
  Lemma make_cases l : forall d : list (bparam * arg), map fst d = map fst l -> valid_platform p ->
    Forall (fun xa : bparam * arg => bp_in (fst xa) = true <-> snd xa <> None) d ->
    Forall sound_param (map fst l) -> Forall (sane_default p eval) (map fst l) ->
    Forall (fun xn => length (snd xn) = length (wants (fst xn))) l -> Forall (fun xn => NoDup (snd xn)) l ->
    exists ks, Forall case_ok ks /\ map (fun k => (k_x k, k_ns k)) ks = l /\ map (fun k => (k_x k, k_a k)) ks = d.
  Proof.
    induction l as [|[x ns] l IH]; intros [|[x' a] d] M V FD FS FE FL FN; try discriminate; [exists []; repeat split; constructor|].
    cbn [map fst] in *. injection M as -> M. inversion FD; inversion FS; inversion FE; inversion FL; inversion FN; subst. cbn [fst snd] in *.
    destruct (IH d) as (ks & K1 & K2 & K3); try assumption.
    assert (LO : local (p := p) (eval := eval) x ns a) by (eapply handler_local; eauto).
    destruct LO as (E0 & pe & sts & ca & bs & T & LO). exists (mk_case x ns a E0 pe sts ca bs T :: ks). split; [|split; [cbn [map]; rewrite K2; reflexivity|cbn [map]; rewrite K3; reflexivity]].
    constructor; [|exact K1]. unfold case_ok. cbn [k_x k_ns k_a k_E0 k_pe k_sts k_ca k_bs k_T]. tauto.
  Qed.
  Lemma run_decls_app a : forall b s, run_decls N p eval (a ++ b) s = then_ N (run_decls N p eval a s) (run_decls N p eval b).
  Proof.
    induction a as [|[[t n] i] a IH]; intros b s; [reflexivity|]. cbn [app run_decls]. destruct (resolve p t) as [ct|]; [|reflexivity]. destruct (BasicHandlers.initial N eval ct i); [|reflexivity]. apply IH.
  Qed.
  Lemma decls_all ks : Forall case_ok ks -> forall e pd lg, run_decls N p eval (flat_map (fun k => declared_as (k_x k) (k_ns k)) ks) (mk e pd lg) =
    Go _ (mk (e ++ flat_map k_E0 ks) pd (lg ++ flat_map (fun k => created (k_x k)) ks)).
  Proof.
    induction 1 as [|k ks K H IH]; intros e pd lg; [cbn; rewrite !app_nil_r; reflexivity|]. cbn [flat_map]. rewrite run_decls_app, (proj1 K). cbn [then_]. rewrite IH, !app_assoc. reflexivity.
  Qed.
  Lemma combine_flat ks : Forall case_ok ks -> combine (flat_map k_pe ks) (flat_map (fun k => arg_list (k_a k)) ks) = flat_map (fun k => combine (k_pe k) (arg_list (k_a k))) ks.
  Proof.
    induction 1 as [|k ks K H IH]; [reflexivity|]. cbn [flat_map]. rewrite <- IH. destruct K as (_ & _ & _ & L & _ & _ & _ & _ & _ & IA & _).
    destruct (k_a k) as [a|]; cbn [arg_list].
    - assert (B : bp_in (k_x k) = true) by (apply IA; discriminate). rewrite B in L. destruct (k_pe k) as [|e [|]]; try discriminate. reflexivity.
    - assert (B : bp_in (k_x k) = false) by (destruct (bp_in (k_x k)); [exfalso; apply IA; reflexivity|reflexivity]). rewrite B in L. destruct (k_pe k); [|discriminate]. reflexivity.
  Qed.

  (** ** The phases *)
  Definition k_xa (k : case) : bparam * arg := (k_x k, k_a k).
  Definition refuses (k : case) (e : perr) : Prop := exists v, k_a k = Some v /\ arg_refused p (k_x k) v e.
  Definition ranges (k : case) : Prop := exists v, k_a k = Some v /\ arg_out_of_range p (k_x k) v.
  Definition parse_part (k : case) (E1 : cenv) := mk_part (combine (k_pe k) (arg_list (k_a k))) (k_E0 k) E1 false [].
  Definition parse_goes (ke : case * cenv) : Prop := goes (parse_item (p := p)) item_vars (parse_part (fst ke) (snd ke)).
  Definition second (ke : case * cenv) : Prop :=
    let (k, E1) := ke in
    (ranges k /\ stops (run_stm N eval) stm_vars (k_sts k) E1 [] ValueErr) \/
    exists E2 c pend, goes (run_stm N eval) stm_vars (mk_part (k_sts k) E1 E2 pend (taken (k_xa k))) /\ reaches p eval (k_xa k) c pend /\
      passes (eval := eval) (mk_pass (k_ca k) (k_T k) E2 c) /\
      forall out, (by_reference (bp_handler (k_x k)) = true -> typed p (kind_of (k_x k)) out) ->
        exists E3, leaves (mk_leave (k_ca k) out E2 E3) /\
          (bp_out (k_x k) = true -> exists b, k_bs k = [(b, false)] /\ build_unit N p b E3 = Some (shown out, []) /\ In (bent_var b) (dom E3)).
  Lemma first_phase ks : Forall case_ok ks ->
    (exists kes k e rest, ks = map fst kes ++ k :: rest /\ Forall parse_goes kes /\ Forall second kes /\ refuses k e /\
       stops (parse_item (p := p)) item_vars (combine (k_pe k) (arg_list (k_a k))) (k_E0 k) [] e) \/
    exists kes, ks = map fst kes /\ Forall parse_goes kes /\ Forall second kes.
  Proof.
    induction 1 as [|k ks K H IH]; [right; exists []; repeat split; constructor|].
    destruct K as (_ & _ & _ & _ & _ & _ & _ & _ & _ & _ & F). destruct F as [(v & e & A & R & S)|(E1 & G & F)].
    - left. exists [], k, e, ks. split; [reflexivity|]. split; [constructor|]. split; [constructor|]. split; [exists v; split; assumption|exact S].
    - assert (S2 : second (k, E1)). { destruct F as [(v & A & R & S)|F]; [left; split; [exists v; split; assumption|exact S]|right; exact F]. }
      destruct IH as [(kes & k' & e & rest & E & PG & SG & R)|(kes & E & PG & SG)].
      + left. exists ((k, E1) :: kes), k', e, rest. split; [cbn; rewrite E; reflexivity|]. split; [constructor; assumption|]. split; [constructor; assumption|exact R].
      + right. exists ((k, E1) :: kes). split; [cbn; rewrite E; reflexivity|]. split; constructor; assumption.
  Qed.
  (** A parameter that gets through both. *)
  Record done : Type := mk_done { d_k : case; d_E1 : cenv; d_E2 : cenv; d_c : cval N; d_pend : bool }.
  Definition d_part (d : done) := mk_part (k_sts (d_k d)) (d_E1 d) (d_E2 d) (d_pend d) (taken (k_xa (d_k d))).
  Definition done_ok (d : done) : Prop :=
    goes (run_stm N eval) stm_vars (d_part d) /\ reaches p eval (k_xa (d_k d)) (d_c d) (d_pend d) /\
    passes (eval := eval) (mk_pass (k_ca (d_k d)) (k_T (d_k d)) (d_E2 d) (d_c d)) /\
    forall out, (by_reference (bp_handler (k_x (d_k d))) = true -> typed p (kind_of (k_x (d_k d))) out) ->
      exists E3, leaves (mk_leave (k_ca (d_k d)) out (d_E2 d) E3) /\
        (bp_out (k_x (d_k d)) = true -> exists b, k_bs (d_k d) = [(b, false)] /\ build_unit N p b E3 = Some (shown out, []) /\ In (bent_var b) (dom E3)).
  Lemma second_phase kes : Forall second kes ->
    (exists ds k E1 rest, kes = map (fun d => (d_k d, d_E1 d)) ds ++ (k, E1) :: rest /\ Forall done_ok ds /\ ranges k /\ stops (run_stm N eval) stm_vars (k_sts k) E1 [] ValueErr) \/
    exists ds, kes = map (fun d => (d_k d, d_E1 d)) ds /\ Forall done_ok ds.
  Proof.
    induction 1 as [|[k E1] kes K H IH]; [right; exists []; repeat split; constructor|].
    destruct K as [[R S]|(E2 & c & pend & G & RC & P & O)].
    - left. exists [], k, E1, kes. split; [reflexivity|]. split; [constructor|]. split; assumption.
    - assert (D : done_ok (mk_done k E1 E2 c pend)) by (split; [exact G|]; split; [exact RC|]; split; [exact P|exact O]).
      destruct IH as [(ds & k' & E1' & rest & E & DS & R)|(ds & E & DS)].
      + left. exists (mk_done k E1 E2 c pend :: ds), k', E1', rest. split; [cbn; rewrite E; reflexivity|]. split; [constructor; assumption|exact R].
      + right. exists (mk_done k E1 E2 c pend :: ds). split; [cbn; rewrite E; reflexivity|]. constructor; assumption.
  Qed.

  (** ** The wrapper *)
  Lemma parses_app a b : parses (a ++ b) = parses a ++ parses b. Proof. apply flat_map_app. Qed.
  Lemma befores_app a b : befores (a ++ b) = befores a ++ befores b. Proof. apply flat_map_app. Qed.
  Lemma calls_app a b : calls (a ++ b) = calls a ++ calls b. Proof. apply flat_map_app. Qed.
  Lemma builds_app a b : builds (a ++ b) = builds a ++ builds b. Proof. apply flat_map_app. Qed.
  Definition pairs (ks : list case) : list (bparam * list string) := map (fun k => (k_x k, k_ns k)) ks.
  Definition whole_code (ks : list case) : list bstm := flat_map (fun xn => code (fst xn) (snd xn)) (pairs ks).
  Lemma wrapper_parts ks : Forall case_ok ks ->
    parses (whole_code ks) = flat_map k_pe ks /\ befores (whole_code ks) = flat_map k_sts ks /\ calls (whole_code ks) = map k_ca ks /\
    builds (whole_code ks) = flat_map k_bs ks.
  Proof.
    induction 1 as [|k ks K H IH]; [repeat split|]. destruct IH as (I1 & I2 & I3 & I4). destruct K as (_ & _ & K1 & _ & K2 & K3 & K4 & _).
    unfold whole_code, pairs in *. cbn [map flat_map fst snd]. rewrite parses_app, befores_app, calls_app, builds_app, I1, I2, I3, I4, K1, K2, K3, K4. repeat split.
  Qed.
  Lemma add_builds l : (forall b pre, In (b, pre) (builds l) -> pre = false) -> forall acc, fold_left add_build l acc = acc ++ map fst (builds l).
  Proof.
    induction l as [|s l IH]; intros H acc; [cbn; rewrite app_nil_r; reflexivity|]. cbn [fold_left]. rewrite IH.
    - destruct s as [e|s|a|e pre]; cbn [add_build builds flat_map app]; try reflexivity. assert (pre = false) as -> by (apply (H e pre); left; reflexivity). rewrite <- app_assoc. reflexivity.
    - intros b pre I. apply (H b pre). cbn [builds flat_map]. apply in_or_app. right. exact I.
  Qed.
  Lemma resolve_all ks : Forall case_ok ks -> all_types (map (fun x => resolve p (value_type_of x)) (map k_x ks)) = Some (map k_T ks).
  Proof. induction 1 as [|k ks K H IH]; [reflexivity|]. cbn [map all_types]. destruct K as (_ & _ & _ & _ & _ & _ & _ & _ & K & _). rewrite K, IH. reflexivity. Qed.

  (** ** The return value *)
  Definition return_slot (r : breturn) (t : ctyp) : Prop := exists n, retval_type r = Some n /\ resolve p n = Some t.
  Lemma initial_none t : exists v, BasicHandlers.initial N eval t None = Some v.
  Proof. destruct t; eexists; reflexivity. Qed.
  Definition retval_decls (r : breturn) : list (string * string * option string) := match retval_type r with Some t => [(t, "retval", None)] | None => [] end.
  (** The variable for the return value. *)
  Lemma return_declared r : known_return r -> exists Er, dom Er = retval_names r /\
    (forall pd lg, run_decls N p eval (retval_decls r) (mk [] pd lg) = Go _ (mk Er pd lg)) /\
    (r = RVoid -> Er = []) /\ (r <> RVoid -> exists t v n, Er = [("retval", (t, v))] /\ retval_type r = Some n /\ resolve p n = Some t).
  Proof.
    intros RC. destruct r as [|h ct| | | | | | | |owned].
    1: { exists []. repeat split; try reflexivity. intros X. contradiction. }
    1: { cbn in RC. assert (RT := return_type_ok p h ct RC). exists [("retval", (TInt (return_type p h), VJunk N))]. split; [reflexivity|]. split.
         - intros pd lg. cbn [retval_decls retval_type run_decls]. unfold resolve. rewrite RT. cbn [BasicHandlers.initial s_env s_pending s_log app]. rewrite app_nil_r. reflexivity.
         - split; [discriminate|]. intros _. eexists _, _, ct. split; [reflexivity|]. split; [reflexivity|]. unfold resolve. rewrite RT. reflexivity. }
    all: match goal with |- exists Er, dom Er = retval_names ?r /\ _ =>
           match eval cbn in (retval_type r) with Some ?t => match eval cbn in (find_other t other_types) with Some ?T =>
             match eval cbn in (BasicHandlers.initial N eval T None) with Some ?v => exists [("retval", (T, v))] end end end end.
    all: split; [reflexivity|]; split; [intros pd lg; cbn -[app]; rewrite app_nil_r; reflexivity|]; split; [discriminate|]; intros _; eexists _, _, _; repeat split; reflexivity.
  Qed.
  Lemma return_built r c t n v : valid_platform p -> known_return r -> typed_return (N := N) p r (Some c) -> retval_type r = Some n -> resolve p n = Some t ->
    coerce N t c = Some c /\
    exists b, return_code r = [BBuild b (negb (comes_last r))] /\ bent_var b = "retval" /\
      build_unit N p b (assign N [("retval", (t, v))] "retval" c) = Some (shown c, borrowed r (Some c)).
  Proof.
    intros V RC TR RN RT. cbn [assign]. rewrite String.eqb_refl. destruct r as [|h ct| | | | | | | |owned]; [destruct TR|..].
    1: { destruct c; try (destruct TR; fail). destruct TR as [IC RZ]. cbn [retval_type] in RN. injection RN as <-. unfold resolve in RT. rewrite (return_type_ok p h ct IC) in RT. injection RT as <-.
         split; [cbn [coerce]; rewrite wrap_id; [reflexivity| |exact RZ]; apply (return_bits p h V)|].
         assert (Q := function_returns_ok p h ct z V IC RZ). unfold function_returns, built in Q. rewrite (return_type_ok p h ct IC) in Q.
         destruct h; cbn [return_to_python] in Q; eexists; (split; [reflexivity|]); (split; [reflexivity|]); unfold build_unit; cbn [be_exp be_unit bexpr_var lookup]; rewrite String.eqb_refl, Q; reflexivity. }
    all: destruct c; try (destruct TR; fail); cbn [retval_type] in RN; injection RN as <-; injection RT as <-; (split; [reflexivity|]); eexists; (split; [reflexivity|]); (split; [reflexivity|]);
      unfold build_unit; cbn [be_exp be_unit lookup]; rewrite String.eqb_refl; cbn [String.eqb Ascii.eqb Bool.eqb orb].
    - reflexivity.
    - reflexivity.
    - reflexivity.
    - reflexivity.
    - destruct o as [l|]; cbn [shown borrowed]; [unfold text; rewrite before_nul_c; destruct (decode (c_string l)); reflexivity|reflexivity].
    - cbn [shown borrowed]. unfold text. destruct (decode l); reflexivity.
    - cbn [shown borrowed]. unfold text. destruct (decode l); reflexivity.
    - destruct owned, o as [w|]; reflexivity.
  Qed.

  (** ** After the call *)
  Definition shows (d : done) (lv : leave (N := N)) : Prop :=
    bp_out (k_x (d_k d)) = true -> exists b, k_bs (d_k d) = [(b, false)] /\ build_unit N p b (lv_after lv) = Some (shown (lv_out lv), []) /\ In (bent_var b) (dom (lv_after lv)).
  Lemma leave_list ds : Forall done_ok ds -> forall outs, typed_outs p (map (fun d => k_x (d_k d)) ds) outs ->
    exists lvs, Forall leaves lvs /\ map lv_arg lvs = map (fun d => k_ca (d_k d)) ds /\ map lv_out lvs = outs /\ map lv_before lvs = map d_E2 ds /\ Forall2 shows ds lvs.
  Proof.
    unfold typed_outs. induction 1 as [|d ds D H IH]; intros outs T; inversion T as [|x c l l' T1 T2]; subst; [exists []; repeat split; constructor|].
    destruct (IH _ T2) as (lvs & L1 & L2 & L3 & L4 & L5). destruct D as (_ & _ & _ & O). destruct (O c T1) as (E3 & L & B).
    exists (mk_leave (k_ca (d_k d)) c (d_E2 d) E3 :: lvs). repeat split; cbn [map lv_arg lv_out lv_before]; try (f_equal; assumption); constructor; assumption.
  Qed.
  Lemma build_units_app l1 : forall l2 e, build_units N p (l1 ++ l2) e =
    match build_units N p l1 e with
    | None => None
    | Some (inr x, ev) => Some (inr x, ev)
    | Some (inl vs, ev) => match build_units N p l2 e with
                           | None => None
                           | Some (inl vs', ev') => Some (inl (vs ++ vs'), ev ++ ev')
                           | Some (inr x, ev') => Some (inr x, ev ++ ev')
                           end
    end.
  Proof.
    induction l1 as [|b l1 IH]; intros l2 e; [cbn; destruct (build_units N p l2 e) as [[[vs|x] ev]|]; reflexivity|]. cbn [app build_units].
    destruct (build_unit N p b e) as [[[v|x] ev]|]; try reflexivity. rewrite IH.
    destruct (build_units N p l1 e) as [[[vs|x] ev1]|]; try reflexivity. destruct (build_units N p l2 e) as [[[vs'|x'] ev2]|]; try reflexivity; rewrite app_assoc; reflexivity.
  Qed.
  Lemma collect_app (l1 l2 : list (pyv N + perr)) : collect (l1 ++ l2) =
    match collect l1 with inr x => inr x | inl vs => match collect l2 with inl vs' => inl (vs ++ vs') | inr x => inr x end end.
  Proof.
    induction l1 as [|[v|x] l1 IH]; cbn [app collect]; [destruct (collect l2); reflexivity| |reflexivity]. rewrite IH. destruct (collect l1); [|reflexivity]. destruct (collect l2); reflexivity.
  Qed.
  Lemma build_outs ds lvs : Forall case_ok (map d_k ds) -> Forall leaves lvs -> Forall2 shows ds lvs -> forall a b, NoDup (dom (a ++ flat_map lv_after lvs)) ->
    build_units N p (map fst (flat_map (fun d => k_bs (d_k d)) ds)) (a ++ flat_map lv_after lvs ++ b) =
      Some (collect (out_values (map (fun d => k_x (d_k d)) ds) (map lv_out lvs)), []).
  Proof.
    intros CK LV S. revert CK LV. induction S as [|d lv ds lvs S H IH]; intros CK LV a b D; [reflexivity|].
    cbn [map] in CK. inversion CK as [|? ? C1 C2]; subst. inversion LV as [|? ? L1 L2]; subst. cbn [flat_map map]. rewrite map_app, build_units_app.
    assert (A : apart a (lv_after lv)).
    { intros n I1 I2. cbn [flat_map] in D. rewrite !dom_app in D. apply (proj1 (NoDup_app_iff' _ _)) in D. destruct D as (_ & _ & D). apply (D n I2). apply in_or_app. left. exact I1. }
    assert (R := IH C2 L2 (a ++ lv_after lv) b). rewrite <- !app_assoc in R. cbn [flat_map] in D. specialize (R D). rewrite <- app_assoc. rewrite R.
    unfold out_values. cbn [combine flat_map fst snd]. fold (out_values (map (fun d => k_x (d_k d)) ds) (map lv_out lvs)).
    destruct C1 as (_ & _ & _ & _ & _ & _ & _ & LB & _). unfold shows in S. destruct (bp_out (k_x (d_k d))).
    - destruct (S eq_refl) as (b0 & EB & BU & IN). rewrite EB. cbn [map fst build_units]. rewrite frame_build by assumption. rewrite BU. cbn [app collect].
      destruct (shown (lv_out lv)) as [v|x]; cbn [collect]; [|reflexivity]. destruct (collect _) as [vs|x]; reflexivity.
    - destruct (k_bs (d_k d)); [|discriminate]. cbn [map build_units app]. destruct (collect _) as [vs|x]; reflexivity.
  Qed.
  Lemma final_conclude pd l : collect l = collect l -> 
    match collect l with inr x => Raises N x | inl vs => conclude N pd (inl (py_build_value (PNone N) (PTuple N) vs)) end = concluded pd (final l).
  Proof. intros _. unfold final. destruct (collect l) as [[|v [|w vs]]|x]; cbn [conclude concluded]; destruct pd; reflexivity. Qed.

  Lemma no_prepend ds lvs : Forall case_ok (map d_k ds) -> Forall2 shows ds lvs -> forall b pre, In (b, pre) (flat_map (fun d => k_bs (d_k d)) ds) -> pre = false.
  Proof.
    intros CK S b pre I. apply in_flat_map in I as (d & ID & I).
    assert (X : exists lv, shows d lv). { clear - S ID. induction S as [|d' lv ds lvs S H IH]; [destruct ID|]. destruct ID as [->|ID]; [exists lv; exact S|apply IH; exact ID]. }
    destruct X as (lv & X). rewrite Forall_forall in CK. assert (C1 := CK (d_k d) (in_map d_k _ _ ID)). destruct C1 as (_ & _ & _ & _ & _ & _ & _ & LB & _).
    unfold shows in X. destruct (bp_out (k_x (d_k d))).
    - destruct (X eq_refl) as (b0 & E & _). rewrite E in I. destruct I as [[= _ <-]|[]]. reflexivity.
    - destruct (k_bs (d_k d)); [destruct I|discriminate].
  Qed.
  Lemma after_all r ds Er pd lg f : valid_platform p -> known_return r -> Forall case_ok (map d_k ds) -> Forall done_ok ds ->
    NoDup (dom (Er ++ flat_map d_E2 ds)) ->
    (r = RVoid -> Er = []) -> (r <> RVoid -> exists t v n, Er = [("retval", (t, v))] /\ retval_type r = Some n /\ resolve p n = Some t) ->
    let cs := map d_c ds in let ps := map (fun d => k_x (d_k d)) ds in
    typed_return p r (fst (f cs)) -> typed_outs p ps (snd (f cs)) ->
    after_call N p (wrapper_of r (pairs (map d_k ds))) cs f (mk (Er ++ flat_map d_E2 ds) pd lg) =
      mk_result N (Some cs) (concluded pd (final (returned_values r ps (f cs)))) (lg ++ borrowed r (fst (f cs))).
  Proof.
    intros V RC CK DK D RV RN cs ps TR TO. unfold after_call. destruct (f cs) as [ret outs]. cbn [fst snd] in *. cbn [s_env s_pending s_log].
    destruct (leave_list ds DK outs TO) as (lvs & L1 & L2 & L3 & L4 & L5).
    destruct (wrapper_parts _ CK) as (_ & _ & WC & WB). assert (WC' : wr_call (wrapper_of r (pairs (map d_k ds))) = map lv_arg lvs).
    { cbn [wrapper_of wr_call]. change (calls (whole_code (map d_k ds)) = map lv_arg lvs). rewrite WC, map_map. symmetry. exact L2. }
    rewrite WC'. rewrite <- L3 at 1.
    assert (FE : flat_map d_E2 ds = flat_map lv_before lvs) by (rewrite (flat_map_concat_map d_E2), (flat_map_concat_map lv_before); f_equal; symmetry; exact L4). rewrite FE in D |- *.
    assert (LA := leave_all_parts lvs L1 Er [] D). rewrite !app_nil_r in LA. rewrite LA.
    assert (D' : NoDup (dom (Er ++ flat_map lv_after lvs))).
    { rewrite dom_app in D |- *. assert (E : dom (flat_map lv_after lvs) = dom (flat_map lv_before lvs)); [|rewrite E; exact D].
      clear - L1. induction L1 as [|lv lvs L H IH]; [reflexivity|]. cbn [flat_map]. rewrite !dom_app, IH, (leaves_dom _ L). reflexivity. }
    assert (WB' : builds (whole_code (map d_k ds)) = flat_map (fun d => k_bs (d_k d)) ds).
    { rewrite WB. clear. induction ds as [|d ds IH]; [reflexivity|]. cbn [map flat_map]. rewrite IH. reflexivity. }
    assert (NP := no_prepend ds lvs CK L5). rewrite <- WB' in NP.
    assert (BO := fun a => build_outs ds lvs CK L1 L5 a []). rewrite app_nil_r in BO. rewrite <- WB', L3 in BO. fold ps in BO.
    destruct ret as [c|].
    - assert (RNV : r <> RVoid) by (intros ->; destruct TR). destruct (RN RNV) as (t & v & n & -> & RT & RS).
      cbn [app lookup]. rewrite String.eqb_refl.
      destruct (return_built r c t n v V RC TR RT RS) as (CO & b & RB & BV & BU). rewrite CO. cbn [assign]. rewrite String.eqb_refl. cbn [assign] in BU. rewrite String.eqb_refl in BU.
      assert (AR : ~ In "retval" (dom (flat_map lv_after lvs))) by (cbn [app dom map fst] in D'; inversion D'; assumption).
      assert (BR : forall rest, build_units N p (b :: rest) (("retval", (t, c)) :: flat_map lv_after lvs) =
                match shown c with inr x => Some (inr x, borrowed r (Some c)) | inl w => match build_units N p rest (("retval", (t, c)) :: flat_map lv_after lvs) with
                  None => None | Some (inl vs, ev') => Some (inl (w :: vs), borrowed r (Some c) ++ ev') | Some (inr x, ev') => Some (inr x, borrowed r (Some c) ++ ev') end end).
      { intros rest. cbn [build_units]. assert (Q := frame_build (p := p) b [] [("retval", (t, c))] (flat_map lv_after lvs)). cbn [app] in Q. rewrite Q; [|intros m _ []|left; symmetry; exact BV]. rewrite BU.
        destruct (shown c); reflexivity. }
      assert (BOs : build_units N p (map fst (builds (whole_code (map d_k ds)))) (("retval", (t, c)) :: flat_map lv_after lvs) = Some (collect (out_values ps outs), [])).
      { apply (BO [("retval", (t, c))]). exact D'. }
      cbn [wrapper_of wr_build]. change (flat_map (fun xn => code (fst xn) (snd xn)) (pairs (map d_k ds))) with (whole_code (map d_k ds)).
      rewrite fold_left_app, (add_builds _ NP). rewrite RB. cbn [app fold_left add_build]. unfold returned_values. cbn [fst snd].
      destruct (comes_last r) eqn:CL; cbn [negb].
      + rewrite build_units_app, BOs. assert (NB : borrowed r (Some c) = []) by (destruct r; try discriminate CL; reflexivity).
        rewrite <- final_conclude by reflexivity. rewrite collect_app. destruct (collect (out_values ps outs)) as [vs|x]; [|rewrite NB; reflexivity].
        rewrite BR. cbn [build_units collect]. rewrite NB. destruct (shown c) as [w|x]; reflexivity.
      + rewrite BR, BOs. rewrite <- final_conclude by reflexivity. cbn [app collect]. destruct (shown c) as [w|x]; [|reflexivity].
        destruct (collect (out_values ps outs)) as [vs|x]; rewrite app_nil_r; reflexivity.
    - destruct r; try (destruct TR; fail). rewrite (RV eq_refl) in *. cbn [app] in *.
      cbn [wrapper_of wr_build]. change (flat_map (fun xn => code (fst xn) (snd xn)) (pairs (map d_k ds))) with (whole_code (map d_k ds)).
      cbn [return_code]. rewrite app_nil_r, (add_builds _ NP). cbn [app]. assert (B := BO [] D'). cbn [app] in B. rewrite B.
      unfold returned_values. cbn [fst snd comes_last app borrowed]. rewrite <- final_conclude by reflexivity. destruct (collect (out_values ps outs)); rewrite app_nil_r; reflexivity.
  Qed.

  (** ** The whole call *)
  Lemma map_flat {A B C} (f : A -> B) (g : B -> list C) l : flat_map g (map f l) = flat_map (fun x => g (f x)) l.
  Proof. induction l as [|x l IH]; [reflexivity|]. cbn [map flat_map]. rewrite IH. reflexivity. Qed.
  Lemma flat_nil {A B} (f : A -> list B) l : (forall x, f x = []) -> flat_map f l = [].
  Proof. intros H. induction l as [|x l IH]; [reflexivity|]. cbn [flat_map]. rewrite H, IH. reflexivity. Qed.
  Lemma exists_none {A} (f : A -> bool) l : (forall x, f x = false) -> existsb f l = false.
  Proof. intros H. induction l as [|x l IH]; [reflexivity|]. cbn [existsb]. rewrite H, IH. reflexivity. Qed.
  Definition kparts (kes : list (case * cenv)) := map (fun ke => parse_part (fst ke) (snd ke)) kes.
  Lemma kparts_items kes : flat_map pt_items (kparts kes) = flat_map (fun k => combine (k_pe k) (arg_list (k_a k))) (map fst kes).
  Proof. unfold kparts. rewrite !map_flat. reflexivity. Qed.
  Lemma kparts_before kes : before_of (kparts kes) = flat_map k_E0 (map fst kes).
  Proof. unfold kparts, before_of. rewrite !map_flat. reflexivity. Qed.
  Lemma kparts_after kes : after_of (kparts kes) = flat_map snd kes.
  Proof. unfold kparts, after_of. rewrite !map_flat. reflexivity. Qed.
  Lemma kparts_events kes : flat_map pt_events (kparts kes) = [].
  Proof. unfold kparts. rewrite !map_flat. apply flat_nil. reflexivity. Qed.
  Lemma kparts_pend kes : existsb pt_pend (kparts kes) = false.
  Proof. unfold kparts. induction kes as [|k kes IH]; [reflexivity|]. exact IH. Qed.
  Lemma parts_dom {I} (run : I -> st N -> phase N) vars
     (keep : forall x e pd lg, keeps e (run x (mk e pd lg))) l : Forall (goes run vars) l -> dom (after_of l) = dom (before_of (I := I) l).
  Proof.
    induction 1 as [|q l Q H IH]; [reflexivity|]. change (dom (pt_after q ++ after_of l) = dom (pt_before q ++ before_of l)). rewrite !dom_app. f_equal; [|exact IH].
    eapply goes_dom; eassumption.
  Qed.

  Definition not_refused (xa : bparam * arg) : Prop := forall a e, snd xa = Some a -> ~ arg_refused p (fst xa) a e.
  Definition in_bounds (xa : bparam * arg) : Prop := forall a, snd xa = Some a -> ~ arg_out_of_range p (fst xa) a.
  Inductive verdict (r : breturn) (ps : list bparam) (f : cppfun N) (d : list (bparam * arg)) : result N -> Prop :=
  | VRefused d1 x a d2 e : d = d1 ++ (x, Some a) :: d2 -> Forall not_refused d1 -> arg_refused p x a e ->
      verdict r ps f d (mk_result N None (Raises N e) (flat_map created ps))
  | VRange d1 x a d2 : d = d1 ++ (x, Some a) :: d2 -> Forall not_refused d -> Forall in_bounds d1 -> arg_out_of_range p x a ->
      verdict r ps f d (mk_result N None (Raises N ValueErr) (flat_map created ps ++ flat_map taken d1))
  | VCalled cps : Forall2 (fun xa cp => reaches p eval xa (fst cp) (snd cp)) d cps ->
      verdict r ps f d (mk_result N (Some (map fst cps)) (concluded (existsb snd cps) (final (returned_values r ps (f (map fst cps)))))
                                  (flat_map created ps ++ flat_map taken d ++ borrowed r (fst (f (map fst cps))))).

  Lemma second_not_refused ke : second ke -> not_refused (k_xa (fst ke)).
  Proof.
    destruct ke as [k E1]. intros [[(v & A & R) _]|(E2 & c & pd & _ & R & _)] a e X F; cbn [fst snd k_xa] in *.
    - rewrite A in X. injection X as <-. exact (refused_not_range _ _ _ F R).
    - unfold k_xa in R. rewrite X in R. exact (refused_not_reaches _ _ _ _ _ F R).
  Qed.
  Lemma done_bounds d : done_ok d -> in_bounds (k_xa (d_k d)).
  Proof. intros (_ & R & _) a X F. cbn [fst snd k_xa] in *. unfold k_xa in R. rewrite X in R. exact (range_not_reaches _ _ _ _ F R). Qed.

  Theorem call_verdict r ps f args : valid_platform p -> length args = inputs ps -> Forall sound_param ps -> Forall (sane_default p eval) ps ->
    known_return r -> clear_names r ps -> typed_function p r ps f ->
    exists res, call_wrapped N p eval r ps f args = Ok res /\ verdict r ps f (deal ps args) res.
  Proof.
    intros V LN FS FD KR CN TF.
    destruct (generate_names r ps KR) as (l & GE & ML & LL & ND).
    { eapply Forall_impl; [|exact FS]. intros x (S & _). exact S. }
    { exact CN. }
    destruct (make_cases l (deal ps args)) as (ks & K1 & K2 & K3); try assumption.
    { rewrite deal_fst, ML. reflexivity. } { apply deal_in. } { rewrite ML. exact FS. } { rewrite ML. exact FD. }
    { apply NoDup_app_iff' in ND as (_ & ND & _). clear - ND. induction l as [|xn l IH]; constructor.
      - cbn [flat_map] in ND. apply NoDup_app_iff' in ND. apply ND.
      - apply IH. cbn [flat_map] in ND. apply NoDup_app_iff' in ND. apply ND. }
    unfold call_wrapped. rewrite GE. eexists. split; [reflexivity|].
    assert (PK : l = pairs ks) by (symmetry; exact K2). clear K2. subst l.
    assert (XP : map k_x ks = ps). { rewrite <- ML. unfold pairs. rewrite map_map. reflexivity. }
    assert (XD : map k_xa ks = deal ps args) by exact K3.
    destruct (wrapper_parts ks K1) as (W1 & W2 & W3 & _).
    destruct (return_declared r KR) as (Er & DE & RD & RV & RN).
    unfold run_wrapper.
    assert (RDe : run_decls N p eval (wr_decls (wrapper_of r (pairs ks))) (mk [] false []) = Go N (mk (Er ++ flat_map k_E0 ks) false (flat_map created ps))).
    { cbn [wrapper_of wr_decls]. fold (retval_decls r). rewrite run_decls_app, RD. cbn [then_]. unfold pairs. rewrite map_flat. cbn [fst snd].
      rewrite decls_all by exact K1. rewrite <- XP, map_flat. reflexivity. }
    rewrite RDe. cbn [then_].
    assert (DM : dom (flat_map k_E0 ks) = flat_map k_ns ks).
    { clear - K1. induction K1 as [|k ks K H IH]; [reflexivity|]. cbn [flat_map]. rewrite dom_app, IH. destruct K as (_ & K & _). rewrite K. reflexivity. }
    assert (ND0 : NoDup (dom (Er ++ flat_map k_E0 ks))).
    { rewrite dom_app, DE, DM. unfold pairs in ND. rewrite map_flat in ND. exact ND. }
    assert (AR : flat_map (fun k => arg_list (k_a k)) ks = args).
    { rewrite <- (deal_args ps args LN), <- XD, map_flat. reflexivity. }
    change (wr_parse (wrapper_of r (pairs ks))) with (parses (whole_code ks)). change (wr_before (wrapper_of r (pairs ks))) with (befores (whole_code ks)).
    rewrite W1, W2.
    assert (LP : length (flat_map k_pe ks) = length args).
    { rewrite <- AR. clear - K1. induction K1 as [|k ks K H IH]; [reflexivity|]. cbn [flat_map]. rewrite !app_length, IH. f_equal.
      destruct K as (_ & _ & _ & L & _ & _ & _ & _ & _ & IA & _). rewrite L. destruct (k_a k) as [a|]; cbn [arg_list length].
      - assert (B : bp_in (k_x k) = true) by (apply IA; discriminate). rewrite B. reflexivity.
      - assert (B : bp_in (k_x k) = false) by (destruct (bp_in (k_x k)); [exfalso; apply IA; reflexivity|reflexivity]). rewrite B. reflexivity. }
    rewrite run_parse_seq by exact LP.
    assert (CF : combine (flat_map k_pe ks) args = flat_map (fun k => combine (k_pe k) (arg_list (k_a k))) ks).
    { etransitivity; [apply f_equal; symmetry; exact AR|]. apply combine_flat. exact K1. }
    rewrite CF.
    destruct (first_phase ks K1) as [(kes & k & e & rest & EK & PG & SG & (a & KA & RF) & ST)|(kes & EK & PG & SG)].
    - assert (G : Forall (goes (parse_item (p := p)) item_vars) (kparts kes)). { apply Forall_map. exact PG. }
      assert (IT : flat_map (fun k => combine (k_pe k) (arg_list (k_a k))) ks =
                   flat_map pt_items (kparts kes) ++ combine (k_pe k) (arg_list (k_a k)) ++ flat_map (fun k => combine (k_pe k) (arg_list (k_a k))) rest).
      { rewrite kparts_items, EK, flat_map_app. reflexivity. }
      assert (EV : flat_map k_E0 ks = before_of (kparts kes) ++ k_E0 k ++ flat_map k_E0 rest). { rewrite kparts_before, EK, flat_map_app. reflexivity. }
      rewrite IT, EV. rewrite EV in ND0.
      destruct (stops_at (parse_item (p := p)) item_vars (fun x a e b pd lg => frame_item x a e b pd lg) (fun x e pd lg => keeps_item x e pd lg)
                  (kparts kes) _ _ _ _ G ST Er (flat_map k_E0 rest) (flat_map (fun k => combine (k_pe k) (arg_list (k_a k))) rest) false (flat_map created ps)) as (e' & pd' & SA).
      { clear - ND0. rewrite !app_assoc in *. rewrite dom_app in ND0. apply NoDup_app_iff' in ND0. apply ND0. }
      rewrite SA. cbn [then_ s_log]. rewrite kparts_events. cbn [app]. rewrite app_nil_r.
      apply VRefused with (d1 := map k_xa (map fst kes)) (x := k_x k) (a := a) (d2 := map k_xa rest).
      + rewrite <- XD, EK, map_app. cbn [map]. unfold k_xa at 2. rewrite KA. reflexivity.
      + rewrite map_map. apply Forall_map. eapply Forall_impl; [|exact SG]. intros ke S. apply second_not_refused. exact S.
      + exact RF.
    - assert (G : Forall (goes (parse_item (p := p)) item_vars) (kparts kes)). { apply Forall_map. exact PG. }
      assert (IT : flat_map (fun k => combine (k_pe k) (arg_list (k_a k))) ks = flat_map pt_items (kparts kes)). { rewrite kparts_items, EK. reflexivity. }
      assert (EV : flat_map k_E0 ks = before_of (kparts kes)). { rewrite kparts_before, EK. reflexivity. }
      rewrite IT, EV. rewrite EV in ND0.
      assert (GA := goes_all (parse_item (p := p)) item_vars (fun x a e b pd lg => frame_item x a e b pd lg) (fun x e pd lg => keeps_item x e pd lg)
                  (kparts kes) G Er [] false (flat_map created ps) ND0). rewrite !app_nil_r in GA. rewrite GA. clear GA. cbn [then_].
      rewrite kparts_events, kparts_pend, kparts_after, app_nil_r. cbn [orb]. rewrite run_stms_seq.
      assert (ND1 : NoDup (dom (Er ++ flat_map snd kes))).
      { rewrite dom_app in ND0 |- *. rewrite <- kparts_after, (parts_dom _ _ (fun x e pd lg => keeps_item x e pd lg) _ G). exact ND0. }
      assert (NR : Forall not_refused (deal ps args)).
      { rewrite <- XD, EK, map_map. apply Forall_map. eapply Forall_impl; [|exact SG]. intros ke S. apply second_not_refused. exact S. }
      destruct (second_phase kes SG) as [(ds & k & E1 & rest & ED & DK & (a & KA & RG) & ST)|(ds & ED & DK)].
      + assert (GD : Forall (goes (run_stm N eval) stm_vars) (map d_part ds)). { apply Forall_map. eapply Forall_impl; [|exact DK]. intros d (D & _). exact D. }
        assert (S1 : flat_map k_sts ks = flat_map pt_items (map d_part ds) ++ k_sts k ++ flat_map (fun ke => k_sts (fst ke)) rest).
        { rewrite EK, ED, !map_app, flat_map_app, !map_map. cbn [map flat_map fst]. rewrite !map_flat. reflexivity. }
        assert (S2 : flat_map snd kes = before_of (map d_part ds) ++ E1 ++ flat_map snd rest).
        { rewrite ED, flat_map_app. cbn [flat_map snd]. unfold before_of. rewrite !map_flat. reflexivity. }
        rewrite S1, S2. rewrite S2 in ND1.
        destruct (stops_at (run_stm N eval) stm_vars (fun x a e b pd lg => frame_stm x a e b pd lg) (fun x e pd lg => keeps_stm x e pd lg)
                    (map d_part ds) _ _ _ _ GD ST Er (flat_map snd rest) (flat_map (fun ke => k_sts (fst ke)) rest) false (flat_map created ps)) as (e' & pd' & SA).
        { clear - ND1. rewrite !app_assoc in *. rewrite dom_app in ND1. apply NoDup_app_iff' in ND1. apply ND1. }
        rewrite SA. cbn [s_log]. rewrite app_nil_r.
        assert (TK : flat_map pt_events (map d_part ds) = flat_map taken (map (fun d => k_xa (d_k d)) ds)) by (rewrite !map_flat; reflexivity). rewrite TK.
        apply VRange with (x := k_x k) (a := a) (d2 := map (fun ke => k_xa (fst ke)) rest).
        * rewrite <- XD, EK, ED, !map_app, !map_map. cbn [map fst]. unfold k_xa at 2. rewrite KA. reflexivity.
        * exact NR.
        * apply Forall_map. eapply Forall_impl; [|exact DK]. intros d D. apply done_bounds. exact D.
        * exact RG.
      + assert (GD : Forall (goes (run_stm N eval) stm_vars) (map d_part ds)). { apply Forall_map. eapply Forall_impl; [|exact DK]. intros d (D & _). exact D. }
        assert (EKD : ks = map d_k ds) by (rewrite EK, ED, map_map; reflexivity).
        assert (S1 : flat_map k_sts ks = flat_map pt_items (map d_part ds)). { rewrite EKD, !map_flat. reflexivity. }
        assert (S2 : flat_map snd kes = before_of (map d_part ds)). { rewrite ED. unfold before_of. rewrite !map_flat. reflexivity. }
        rewrite S1, S2. rewrite S2 in ND1.
        assert (GA := goes_all (run_stm N eval) stm_vars (fun x a e b pd lg => frame_stm x a e b pd lg) (fun x e pd lg => keeps_stm x e pd lg)
                  (map d_part ds) GD Er [] false (flat_map created ps) ND1). rewrite !app_nil_r in GA. rewrite GA. clear GA. cbn [orb].
        assert (A2 : after_of (map d_part ds) = flat_map d_E2 ds) by (unfold after_of; rewrite map_flat; reflexivity).
        assert (ND2 : NoDup (dom (Er ++ flat_map d_E2 ds))).
        { rewrite dom_app in ND1 |- *. rewrite <- A2, (parts_dom _ _ (fun x e pd lg => keeps_stm x e pd lg) _ GD). exact ND1. }
        rewrite A2.
        assert (TK : flat_map pt_events (map d_part ds) = flat_map taken (deal ps args)). { rewrite <- XD, EKD, map_map, !map_flat. reflexivity. }
        assert (PD : existsb pt_pend (map d_part ds) = existsb snd (map (fun d => (d_c d, d_pend d)) ds)).
        { clear. induction ds as [|d ds IH]; [reflexivity|]. cbn [map existsb]. rewrite IH. reflexivity. }
        rewrite TK, PD. assert (RA := resolve_all ks K1). rewrite XP in RA. rewrite RA. cbn [s_env s_pending s_log].
        assert (PA : pass_args N eval (wr_call (wrapper_of r (pairs ks))) (map k_T ks) (Er ++ flat_map d_E2 ds) = Some (map d_c ds)).
        { cbn [wrapper_of wr_call]. change (flat_map (fun xn => code (fst xn) (snd xn)) (pairs ks)) with (whole_code ks). rewrite W3, EKD, !map_map.
          set (qs := map (fun d => mk_pass (k_ca (d_k d)) (k_T (d_k d)) (d_E2 d) (d_c d)) ds).
          assert (Q := pass_all_parts (eval := eval) qs). assert (QF : Forall (passes (eval := eval)) qs).
          { apply Forall_map. eapply Forall_impl; [|exact DK]. intros d (_ & _ & D & _). exact D. }
          specialize (Q QF Er []). rewrite app_nil_r in Q. unfold qs in Q. rewrite map_flat, !map_map in Q. cbn [ps_arg ps_type ps_env ps_value] in Q. apply Q. exact ND2. }
        rewrite PA.
        set (cps := map (fun d => (d_c d, d_pend d)) ds).
        assert (CS : map d_c ds = map fst cps) by (unfold cps; rewrite map_map; reflexivity).
        assert (PS : ps = map (fun d => k_x (d_k d)) ds) by (rewrite <- XP, EKD, map_map; reflexivity).
        assert (LC : Forall2 (receivable p) ps (map d_c ds)).
        { rewrite PS. rewrite EKD in K1. clear - DK V K1. induction DK as [|d ds D H IH]; cbn [map]; [constructor|]. cbn [map] in K1. inversion K1 as [|? ? C1 C2]; subst. constructor; [|exact (IH C2)].
          destruct C1 as (_ & _ & _ & _ & _ & _ & _ & _ & _ & IA & _). exact (reaches_receivable (k_xa (d_k d)) _ _ V IA (proj1 (proj2 D))). }
        destruct (TF _ LC) as [TR TO].
        assert (AF := after_all r ds Er (existsb snd cps) (flat_map created ps ++ flat_map taken (deal ps args)) f V KR). rewrite <- EKD in AF. cbv zeta in AF. rewrite <- PS in AF.
        rewrite AF; try assumption. rewrite CS, <- app_assoc. apply VCalled.
        rewrite <- XD, EKD, map_map. unfold cps. clear - DK. induction DK as [|d ds D H IH]; constructor; [|exact IH]. exact (proj1 (proj2 D)).
  Qed.

  Lemma split_unique {A} (P Q : A -> Prop) l1 l1' x x' l2 l2' : (forall a, P a -> Q a -> False) ->
    l1 ++ x :: l2 = l1' ++ x' :: l2' -> Forall P l1 -> Forall P l1' -> Q x -> Q x' -> l1 = l1' /\ x = x' /\ l2 = l2'.
  Proof.
    intros X. revert l1'. induction l1 as [|a l1 IH]; intros [|a' l1'] E F F' H H'; cbn [app] in E.
    - injection E as -> ->. auto.
    - injection E as -> _. inversion F'; subst. destruct (X a'); assumption.
    - injection E as <- _. inversion F; subst. destruct (X a); assumption.
    - injection E as -> E. inversion F; inversion F'; subst. destruct (IH _ E) as (-> & -> & ->); auto.
  Qed.
  Lemma parsed_all (d : list (bparam * arg)) : parsed p d -> Forall not_refused d.
  Proof. intros H. apply Forall_forall. intros [x a] I a' e E. cbn [fst snd] in *. subst a. apply H. exact I. Qed.
  Lemma inside_all (d : list (bparam * arg)) : inside p d -> Forall in_bounds d.
  Proof. intros H. apply Forall_forall. intros [x a] I a' E. cbn [fst snd] in *. subst a. apply H. exact I. Qed.
  Lemma all_parsed (d : list (bparam * arg)) : Forall not_refused d -> parsed p d.
  Proof. intros H x a e I. rewrite Forall_forall in H. exact (H _ I a e eq_refl). Qed.
  Lemma all_inside (d : list (bparam * arg)) : Forall in_bounds d -> inside p d.
  Proof. intros H x a I. rewrite Forall_forall in H. exact (H _ I a eq_refl). Qed.
  Lemma reached_split (d1 d2 : list (bparam * arg)) xa cps : Forall2 (fun xa cp => reaches p eval xa (fst cp) (snd cp)) (d1 ++ xa :: d2) cps -> exists c pd, reaches p eval xa c pd.
  Proof. intros F. apply Forall2_app_inv_l in F as (l1 & l2 & _ & F & _). inversion F; subst. eexists _, _. eassumption. Qed.

  Theorem call_refused r ps f args d1 x a d2 e : wrappable p eval r ps -> typed_function p r ps f -> length args = inputs ps ->
    deal ps args = d1 ++ (x, Some a) :: d2 -> parsed p d1 -> arg_refused p x a e ->
    call_wrapped N p eval r ps f args = Ok (mk_result N None (Raises N e) (flat_map created ps)).
  Proof.
    intros (V & FS & FD & KR & CN) TF L E P R. destruct (call_verdict r ps f args V L FS FD KR CN TF) as (res & -> & X). f_equal.
    inversion X as [d1' x' a' d2' e' E' P' R'|d1' x' a' d2' E' P' I' R'|cps F]; subst res.
    - destruct (split_unique not_refused (fun xa => exists b e, snd xa = Some b /\ arg_refused p (fst xa) b e) d1 d1' (x, Some a) (x', Some a') d2 d2') as (_ & Q & _).
      + intros xa NR (b & e0 & E0 & R0). exact (NR b e0 E0 R0). + congruence. + apply parsed_all. exact P. + exact P'. + exists a, e. auto. + exists a', e'. auto.
      + injection Q as -> ->. rewrite (refused_unique _ _ _ _ R R'). reflexivity.
    - exfalso. rewrite E in P'. apply Forall_app in P' as [_ P']. inversion P' as [|? ? H]; subst. exact (H a e eq_refl R).
    - exfalso. rewrite E in F. destruct (reached_split _ _ _ _ F) as (c & pd & RC). exact (refused_not_reaches _ _ _ _ _ R RC).
  Qed.
  Theorem call_out_of_range r ps f args d1 x a d2 : wrappable p eval r ps -> typed_function p r ps f -> length args = inputs ps ->
    deal ps args = d1 ++ (x, Some a) :: d2 -> parsed p (deal ps args) -> inside p d1 -> arg_out_of_range p x a ->
    call_wrapped N p eval r ps f args = Ok (mk_result N None (Raises N ValueErr) (flat_map created ps ++ flat_map taken d1)).
  Proof.
    intros (V & FS & FD & KR & CN) TF L E P I R. destruct (call_verdict r ps f args V L FS FD KR CN TF) as (res & -> & X). f_equal.
    inversion X as [d1' x' a' d2' e' E' P' R'|d1' x' a' d2' E' P' I' R'|cps F]; subst res.
    - exfalso. apply (P x' a' e'); [rewrite E'; apply in_or_app; right; left; reflexivity|exact R'].
    - destruct (split_unique in_bounds (fun xa => exists b, snd xa = Some b /\ arg_out_of_range p (fst xa) b) d1 d1' (x, Some a) (x', Some a') d2 d2') as (-> & _).
      + intros xa NR (b & E0 & R0). exact (NR b E0 R0). + congruence. + apply inside_all. exact I. + exact I'. + exists a. auto. + exists a'. auto.
      + reflexivity.
    - exfalso. rewrite E in F. destruct (reached_split _ _ _ _ F) as (c & pd & RC). exact (range_not_reaches _ _ _ _ R RC).
  Qed.
  Theorem call_reaches r ps f args cps : wrappable p eval r ps -> typed_function p r ps f -> length args = inputs ps ->
    Forall2 (fun xa cp => reaches p eval xa (fst cp) (snd cp)) (deal ps args) cps ->
    call_wrapped N p eval r ps f args = Ok (mk_result N (Some (map fst cps)) (concluded (existsb snd cps) (final (returned_values r ps (f (map fst cps)))))
                                  (flat_map created ps ++ flat_map taken (deal ps args) ++ borrowed r (fst (f (map fst cps))))).
  Proof.
    intros (V & FS & FD & KR & CN) TF L F. destruct (call_verdict r ps f args V L FS FD KR CN TF) as (res & -> & X).
    inversion X as [d1' x' a' d2' e' E' P' R'|d1' x' a' d2' E' P' I' R'|cps' F']; subst res.
    - exfalso. rewrite E' in F. destruct (reached_split _ _ _ _ F) as (c & pd & RC). exact (refused_not_reaches _ _ _ _ _ R' RC).
    - exfalso. rewrite E' in F. destruct (reached_split _ _ _ _ F) as (c & pd & RC). exact (range_not_reaches _ _ _ _ R' RC).
    - assert (cps = cps') as ->; [|reflexivity]. clear - F F' V. revert cps' F'. induction F as [|xa [c pd] d cps R F IH]; intros cps' F'; inversion F' as [|? [c' pd'] ? ? R' F1]; subst; [reflexivity|].
      cbn [fst snd] in *. destruct (reaches_unique _ _ _ _ _ V R R') as [-> ->]. f_equal. apply IH. assumption.
  Qed.
  Lemma gets_reaches (d : list (bparam * arg)) cs : Forall2 (gets p eval) d cs -> Forall2 (fun xa cp => reaches p eval xa (fst cp) (snd cp)) d (map (fun c => (c, false)) cs).
  Proof. induction 1; cbn [map]; constructor; [left; split; [assumption|reflexivity]|assumption]. Qed.
  Lemma no_pending (cs : list (cval N)) : existsb snd (map (fun c => (c, false)) cs) = false.
  Proof. induction cs; [reflexivity|]. assumption. Qed.
  Theorem call_gets r ps f args cs : wrappable p eval r ps -> typed_function p r ps f -> length args = inputs ps -> Forall2 (gets p eval) (deal ps args) cs ->
    call_wrapped N p eval r ps f args = Ok (mk_result N (Some cs) (final (returned_values r ps (f cs)))
                                  (flat_map created ps ++ flat_map taken (deal ps args) ++ borrowed r (fst (f cs)))).
  Proof.
    intros W TF L G. rewrite (call_reaches r ps f args (map (fun c => (c, false)) cs) W TF L (gets_reaches _ _ G)).
    rewrite map_map. cbn [fst]. rewrite map_id, no_pending. unfold concluded. destruct (final _); reflexivity.
  Qed.
  Theorem call_only r ps f args res cs : wrappable p eval r ps -> typed_function p r ps f -> length args = inputs ps ->
    call_wrapped N p eval r ps f args = Ok res -> re_called N res = Some cs ->
    Forall2 (fun xa c => gets p eval xa c \/ (untold xa /\ c = VBool N true)) (deal ps args) cs.
  Proof.
    intros (V & FS & FD & KR & CN) TF L C RC. destruct (call_verdict r ps f args V L FS FD KR CN TF) as (res' & E & X). rewrite E in C. injection C as <-.
    inversion X as [d1' x' a' d2' e' E' P' R'|d1' x' a' d2' E' P' I' R'|cps F]; subst res'; cbn [re_called] in RC; try discriminate. injection RC as <-.
    clear - F. induction F as [|xa cp d cps R F IH]; cbn [map]; constructor; [|exact IH]. destruct R as [[G _]|[U [-> _]]]; [left; exact G|right; split; [exact U|reflexivity]].
  Qed.
  Theorem call_defined r ps f args : wrappable p eval r ps -> typed_function p r ps f -> length args = inputs ps ->
    exists res, call_wrapped N p eval r ps f args = Ok res /\ re_answer N res <> Undef N.
  Proof.
    intros (V & FS & FD & KR & CN) TF L. destruct (call_verdict r ps f args V L FS FD KR CN TF) as (res & E & X). exists res. split; [exact E|].
    inversion X; subst res; cbn [re_answer]; try discriminate. unfold concluded, final. destruct (collect _) as [[|v [|w l]]|]; try discriminate; destruct (existsb _ _); discriminate.
  Qed.
  Theorem call_untold r ps f args cps : wrappable p eval r ps -> typed_function p r ps f -> length args = inputs ps ->
    Forall2 (fun xa cp => (gets p eval xa (fst cp) /\ snd cp = false) \/ (untold xa /\ fst cp = VBool N true /\ snd cp = true)) (deal ps args) cps -> existsb snd cps = true ->
    exists res, call_wrapped N p eval r ps f args = Ok res /\ re_called N res = Some (map fst cps) /\ forall v, re_answer N res <> Returns N v.
  Proof.
    intros W TF L F E. eexists. split; [apply call_reaches; try eassumption; exact F|]. cbn [re_called re_answer]. split; [reflexivity|]. intros v. rewrite E. unfold concluded. destruct (final _); discriminate.
  Qed.
  Lemma nothing_created ps : (forall x, In x ps -> bp_handler x <> HPyObject true /\ bp_handler x <> HStdStringPtr true) -> flat_map (created (N := N)) ps = [].
  Proof.
    induction ps as [|x ps IH]; intros H; [reflexivity|]. cbn [flat_map]. rewrite IH by (intros y I; apply H; right; exact I). rewrite app_nil_r.
    destruct (H x (or_introl eq_refl)) as [_ X]. unfold created. destruct (bp_handler x) as [ | | | | | | | | | | | | | |[|]|]; try reflexivity. contradiction.
  Qed.
  Lemma nothing_taken (d : list (bparam * arg)) : (forall xa, In xa d -> bp_handler (fst xa) <> HPyObject true) -> flat_map taken d = [].
  Proof.
    induction d as [|[x a] d IH]; intros H; [reflexivity|]. cbn [flat_map]. rewrite IH by (intros y I; apply H; right; exact I). rewrite app_nil_r.
    assert (X := H _ (or_introl eq_refl)). unfold taken. cbn [fst snd] in *. destruct (bp_handler x) as [ | | | | | | | | | | | | | | |[|]]; try reflexivity. contradiction.
  Qed.
  Theorem call_nothing r ps f args : wrappable p eval r ps -> typed_function p r ps f -> length args = inputs ps ->
    (forall x, In x ps -> bp_handler x <> HPyObject true /\ bp_handler x <> HStdStringPtr true) -> r <> RPyObject false ->
    exists res, call_wrapped N p eval r ps f args = Ok res /\ re_log N res = [].
  Proof.
    intros (V & FS & FD & KR & CN) TF L H HR. destruct (call_verdict r ps f args V L FS FD KR CN TF) as (res & E & X). exists res. split; [exact E|].
    assert (HD : forall xa : bparam * arg, In xa (deal ps args) -> bp_handler (fst xa) <> HPyObject true).
    { intros xa I. apply H. rewrite <- (deal_fst ps args). apply in_map. exact I. }
    inversion X as [d1' x' a' d2' e' E' P' R'|d1' x' a' d2' E' P' I' R'|cps F]; subst res; cbn [re_log]; rewrite nothing_created by exact H; [reflexivity| |].
    - apply nothing_taken. intros xa I. apply HD. rewrite E'. apply in_or_app. left. exact I.
    - rewrite nothing_taken by exact HD. unfold borrowed. destruct r as [| | | | | | | | |[|]]; try reflexivity. contradiction.
  Qed.
End Top.
