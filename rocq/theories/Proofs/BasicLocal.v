(** The code of one parameter, on its own variables. *)
From Verif.Model Require Import Py CodeBlock Params IntHandlers Utf8 BasicHandlers.
From Verif.Spec Require Import IntSpec BasicSpec.
From Verif.Proofs Require Import Utf8Proofs IntProofs IntTop IntBack BasicFrame.
From Coq Require Import ZArith Lia.
Open Scope string_scope.
Open Scope list_scope.
Local Open Scope Z_scope.

Definition builds (l : list bstm) : list (bent * bool) := flat_map (fun s => match s with BBuild e pre => [(e, pre)] | _ => [] end) l.
Definition arg_list {A} (a : option (option A)) : list (option A) := match a with Some a => [a] | None => [] end.

Section Local.
  Context {N : numerics} {p : platform} {eval : ctyp -> string -> cval N}.
  Notation cenv := (cenv N).
  Notation mk := (mk_st N).

  (** What happens to the argument of a parameter. *)
  Definition fate (x : bparam) (a : option (option (pyv N))) (E0 : cenv) (pe : list pent) (sts : list cstm) (ca : carg) (bs : list (bent * bool)) (T : ctyp) : Prop :=
    (exists v e, a = Some v /\ arg_refused p x v e /\ stops (parse_item (p := p)) item_vars (combine pe (arg_list a)) E0 [] e) \/
    exists E1, goes (parse_item (p := p)) item_vars (mk_part (combine pe (arg_list a)) E0 E1 false []) /\
      ((exists v, a = Some v /\ arg_out_of_range p x v /\ stops (run_stm N eval) stm_vars sts E1 [] ValueErr) \/
       exists E2 c pend, goes (run_stm N eval) stm_vars (mk_part sts E1 E2 pend (taken (x, a))) /\ reaches p eval (x, a) c pend /\
         passes (eval := eval) (mk_pass ca T E2 c) /\
         forall out, (by_reference (bp_handler x) = true -> typed p (kind_of x) out) ->
           exists E3, leaves (mk_leave ca out E2 E3) /\
             (bp_out x = true -> exists b, bs = [(b, false)] /\ build_unit N p b E3 = Some (shown out, []) /\ In (bent_var b) (dom E3))).
  Definition local (x : bparam) (ns : list string) (a : option (option (pyv N))) : Prop :=
    exists E0 pe sts ca bs T,
      (forall e pd lg, run_decls N p eval (declared_as x ns) (mk e pd lg) = Go _ (mk (e ++ E0) pd (lg ++ created x))) /\
      dom E0 = ns /\
      parses (code x ns) = pe /\ length pe = (if bp_in x then 1%nat else 0%nat) /\ befores (code x ns) = sts /\ calls (code x ns) = [ca] /\
      builds (code x ns) = bs /\ length bs = (if bp_out x then 1%nat else 0%nat) /\
      resolve p (value_type_of x) = Some T /\
      fate x a E0 pe sts ca bs T.

  Lemma eqb_false n m : n <> m -> String.eqb n m = false.
  Proof. apply String.eqb_neq. Qed.
  (** Running a single step. *)
  Lemma go_one {I} (step : I -> st N -> phase N) vars x E0 E1 pend evs : BasicFrame.within (vars x) E0 ->
    (forall pd lg, step x (mk E0 pd lg) = Go _ (mk E1 (pd || pend) (lg ++ evs))) -> goes step vars (mk_part [x] E0 E1 pend evs).
  Proof.
    intros W H. split; cbn [pt_items pt_before pt_after pt_pend pt_events]; [unfold all_vars; cbn [flat_map]; rewrite app_nil_r; exact W|].
    intros pd lg. cbn [run_seq]. rewrite H. reflexivity.
  Qed.
  Lemma go_none {I} (step : I -> st N -> phase N) vars E0 : goes step vars (mk_part [] E0 E0 false []).
  Proof. split; [intros n []|]. intros pd lg. cbn. rewrite orb_false_r, app_nil_r. reflexivity. Qed.
  Lemma stop_one {I} (step : I -> st N -> phase N) vars x E0 e : BasicFrame.within (vars x) E0 ->
    (forall pd lg, step x (mk E0 pd lg) = Stop _ (mk E0 pd lg) e) -> stops step vars [x] E0 [] e.
  Proof.
    intros W H. split; [unfold all_vars; cbn [flat_map]; rewrite app_nil_r; exact W|]. intros pd lg. exists E0, pd. cbn [run_seq]. rewrite H, app_nil_r. reflexivity.
  Qed.
End Local.

(** Looking up variables in small environments. *)
Ltac names_in := intros ? ?; cbn in *; tauto.
Ltac look := repeat (progress (cbn [lookup assign fst snd dom map app s_env s_pending s_log set_env coerce fits_in is_null andb orb]; rewrite ?String.eqb_refl;
  repeat match goal with H : String.eqb ?a ?b = false |- context [String.eqb ?a ?b] => rewrite H end)).
Ltac step1 := intros pd lg; rewrite ?orb_false_r, ?app_nil_r.

Section Cases.
  Context {N : numerics} {p : platform} {eval : ctyp -> string -> cval N}.
  Notation local := (@local N p eval).
  Notation mk := (mk_st N).
  Lemma as_double_cases v : (exists d, number v d /\ as_double N v = inl d) \/
    (exists e, ((not_a_number v /\ e = TypeErr) \/ (exists z, integer v z /\ of_int N z = None /\ e = OverflowErr)) /\ as_double N v = inr e).
  Proof.
    destruct v as [z|b|d|l|l| |l|i t]; cbn [as_double];
      try (right; exists TypeErr; split; [left; split; [split; [intros; discriminate|]|reflexivity]; intros z [E|(b & E & _)]; discriminate|reflexivity]).
    - destruct (of_int N z) as [d|] eqn:O; [left; exists d|right; exists OverflowErr].
      + split; [|reflexivity]. right. exists z. split; [left; reflexivity|exact O].
      + split; [|reflexivity]. right. exists z. split; [left; reflexivity|]. split; [exact O|reflexivity].
    - destruct (of_int N (b2z b)) as [d|] eqn:O; [left; exists d|right; exists OverflowErr].
      + split; [|reflexivity]. right. exists (b2z b). split; [right; exists b; split; reflexivity|exact O].
      + split; [|reflexivity]. right. exists (b2z b). split; [right; exists b; split; reflexivity|]. split; [exact O|reflexivity].
    - left. exists d. split; [left; reflexivity|reflexivity].
  Qed.


  Lemma nil_out (c : bool) : (if c then [] else []) = @nil (bent * bool). Proof. destruct c; reflexivity. Qed.
  (** A parameter with a single variable, which is parsed and passed. *)
  Lemma one_var x n T u (conv : pyv N -> (cval N + perr)%type) ct init v0 opt sts ca b a :
    declared_as x [n] = [(ct, n, init)] -> resolve p ct = Some T -> BasicHandlers.initial N eval T init = Some v0 -> T <> TNewString -> created (N := N) x = [] ->
    parses (code x [n]) = (if bp_in x then [pents x u [n] opt] else []) -> befores (code x [n]) = sts -> calls (code x [n]) = [ca] -> arg_vars ca = [n] ->
    builds (code x [n]) = (if bp_out x then [(b, false)] else []) -> resolve p (value_type_of x) = Some T ->
    (forall v w pd lg, parse_value N p u [n] v (mk [(n, (T, w))] pd lg) =
       match conv v with inl c => Go _ (mk [(n, (T, c))] pd lg) | inr e => Stop _ (mk [(n, (T, w))] pd lg) e end) ->
    (forall v, match conv v with inl c => arrives p (kind_of x) v c | inr e => refused p (kind_of x) v e end) ->
    (if opt then exists d, bp_default x = Some d /\ default_is p eval (kind_of x) d v0 else bp_in x = true -> bp_default x = None) ->
    (bp_in x = false -> v0 = blank (kind_of x)) ->
    (bp_in x = true <-> a <> None) ->
    let can c := (exists v, conv v = inl c) \/ (opt = true /\ c = v0) \/ (bp_in x = false /\ c = v0) in
    (forall c, can c -> pass_arg N eval T ca [(n, (T, c))] = Some c) ->
    (forall c out, (by_reference (bp_handler x) = true -> typed p (kind_of x) out) -> exists c', leave_args N [ca] [out] [(n, (T, c))] = Some [(n, (T, c'))] /\
       (bp_out x = true -> build_unit N p b [(n, (T, c'))] = Some (shown out, []) /\ bent_var b = n)) ->
    (forall c, ((exists v, a = Some (Some v) /\ conv v = inl c) \/ (a = Some None /\ opt = true) \/ a = None) -> goes (run_stm N eval) stm_vars (mk_part sts [(n, (T, c))] [(n, (T, c))] false (taken (x, a)))) ->
    local x [n] a.
  Proof.
    intros HD HR HI HT HC HP HB HCa HV HBu HRv HPV HCo HO HBl IA can HPA HL HS.
    exists [(n, (T, v0))]. eexists _, _, _, _, T.
    split. { intros e pd lg. rewrite HD. cbn [run_decls]. rewrite HR, HI, HC. destruct T; cbn [s_env s_pending s_log]; rewrite ?app_nil_r; try reflexivity. contradiction. }
    split; [reflexivity|]. split; [exact HP|]. split; [destruct (bp_in x); reflexivity|]. split; [exact HB|]. split; [exact HCa|].
    split; [exact HBu|]. split; [destruct (bp_out x); reflexivity|]. split; [exact HRv|].
    assert (Rest' : forall c, can c -> ((exists v, a = Some (Some v) /\ conv v = inl c) \/ (a = Some None /\ opt = true) \/ a = None) -> gets p eval (x, a) c ->
      exists E2 c0 pend, goes (run_stm N eval) stm_vars (mk_part sts [(n, (T, c))] E2 pend (taken (x, a))) /\ reaches p eval (x, a) c0 pend /\
         passes (eval := eval) (mk_pass ca T E2 c0) /\
         forall out, (by_reference (bp_handler x) = true -> typed p (kind_of x) out) ->
           exists E3, leaves (mk_leave ca out E2 E3) /\
             (bp_out x = true -> exists b0, (if bp_out x then [(b, false)] else []) = [(b0, false)] /\ build_unit N p b0 E3 = Some (shown out, []) /\ In (bent_var b0) (dom E3))).
    { intros c K A G. exists [(n, (T, c))], c, false. split; [apply HS; exact A|]. split; [left; split; [exact G|reflexivity]|].
      split; [split; [cbn [ps_arg ps_env]; rewrite HV; names_in|apply HPA; exact K]|].
      intros out TO. destruct (HL c out TO) as (c' & L & B). exists [(n, (T, c'))]. split; [split; [cbn [lv_arg lv_before]; rewrite HV; names_in|exact L]|].
      intros O. rewrite O. exists b. destruct (B O) as [B1 B2]. split; [reflexivity|]. split; [exact B1|]. rewrite B2. left. reflexivity. }
    unfold fate. destruct a as [a|].
    - assert (HI' : bp_in x = true) by (apply IA; discriminate). rewrite HI'. cbn [arg_list combine]. destruct a as [v|].
      + assert (Q := HCo v). destruct (conv v) as [c|e] eqn:K.
        * right. exists [(n, (T, c))]. split.
          { apply go_one; [names_in|]. step1. unfold parse_item, parse_entry. cbn [fst snd pents pe_unit pe_vars]. rewrite HPV, K. reflexivity. }
          right. apply Rest'; [left; exists v; exact K|left; exists v; split; [reflexivity|exact K]|exact Q].
        * left. exists (Some v), e. split; [reflexivity|]. split; [exact Q|]. apply stop_one; [names_in|]. step1. unfold parse_item, parse_entry. cbn [fst snd pents pe_unit pe_vars]. rewrite HPV, K. reflexivity.
      + destruct opt.
        * right. exists [(n, (T, v0))]. split; [apply go_one; [names_in|]; step1; reflexivity|].
          right. apply Rest'; [right; left; split; reflexivity|right; left; split; reflexivity|]. exact HO.
        * left. exists None, TypeErr. split; [reflexivity|]. split; [split; [apply HO; exact HI'|reflexivity]|]. apply stop_one; [names_in|]. step1. reflexivity.
    - assert (HI' : bp_in x = false) by (destruct (bp_in x); [exfalso; apply IA; reflexivity|reflexivity]). rewrite HI'. cbn [arg_list combine].
      right. exists [(n, (T, v0))]. split; [apply go_none|]. right. apply Rest'; [right; right; split; [exact HI'|reflexivity]|right; right; reflexivity|]. apply HBl. exact HI'.
  Qed.

  Definition to_double (v : pyv N) : (cval N + perr)%type := match as_double N v with inl d => inl (VDouble _ d) | inr e => inr e end.
  Definition to_single (v : pyv N) : (cval N + perr)%type := match as_double N v with inl d => inl (VSingle _ (narrow N d)) | inr e => inr e end.
  Definition to_char (v : pyv N) : (cval N + perr)%type := match v with PBytes _ [c] => inl (VChar _ c) | _ => inr TypeErr end.
  Definition to_cstr (v : pyv N) : (cval N + perr)%type :=
    match v with
    | PStr _ l => match encode l with Some b => if has_nul b then inr ValueErr else inl (VCStr _ (Some b)) | None => inr ValueErr end
    | _ => inr TypeErr
    end.
  Definition to_object (v : pyv N) : (cval N + perr)%type := inl (VObject _ (Some v)).

  Lemma parse_double n v w pd lg : parse_value N p "d" [n] v (mk [(n, (TDouble, w))] pd lg) =
    match to_double v with inl c => Go _ (mk [(n, (TDouble, c))] pd lg) | inr e => Stop _ (mk [(n, (TDouble, w))] pd lg) e end.
  Proof. unfold to_double. cbn -[lookup as_double]. destruct (as_double N v); [|reflexivity]. unfold store_at. look. reflexivity. Qed.
  Lemma parse_single n v w pd lg : parse_value N p "f" [n] v (mk [(n, (TSingle, w))] pd lg) =
    match to_single v with inl c => Go _ (mk [(n, (TSingle, c))] pd lg) | inr e => Stop _ (mk [(n, (TSingle, w))] pd lg) e end.
  Proof. unfold to_single. cbn -[lookup as_double]. destruct (as_double N v); [|reflexivity]. unfold store_at. look. reflexivity. Qed.
  Lemma parse_char n v w pd lg : parse_value N p "c" [n] v (mk [(n, (TChar, w))] pd lg) =
    match to_char v with inl c => Go _ (mk [(n, (TChar, c))] pd lg) | inr e => Stop _ (mk [(n, (TChar, w))] pd lg) e end.
  Proof. unfold to_char. destruct v as [| | | |[|c [|c2 l]]| | |]; try reflexivity. cbn -[lookup]. unfold store_at. look. reflexivity. Qed.
  Lemma parse_cstr n v w pd lg : parse_value N p "s" [n] v (mk [(n, (TCStr, w))] pd lg) =
    match to_cstr v with inl c => Go _ (mk [(n, (TCStr, c))] pd lg) | inr e => Stop _ (mk [(n, (TCStr, w))] pd lg) e end.
  Proof.
    unfold to_cstr. destruct v as [| | |l| | | |]; try reflexivity. cbn -[lookup encode has_nul]. destruct (encode l) as [b|]; [|reflexivity].
    destruct (has_nul b); [reflexivity|]. unfold store_at. look. reflexivity.
  Qed.
  Lemma parse_object n v w pd lg : parse_value N p "O" [n] v (mk [(n, (TObject, w))] pd lg) =
    match to_object v with inl c => Go _ (mk [(n, (TObject, c))] pd lg) | inr e => Stop _ (mk [(n, (TObject, w))] pd lg) e end.
  Proof. unfold to_object. cbn -[lookup]. unfold store_at. look. reflexivity. Qed.

  Lemma double_arrives v : match to_double v with inl c => arrives p KDouble v c | inr e => refused p KDouble v e end.
  Proof. unfold to_double. destruct (as_double_cases v) as [(d & H & ->)|(e & H & ->)]; [exists d; split; [exact H|reflexivity]|exact H]. Qed.
  Lemma single_arrives v : match to_single v with inl c => arrives p KFloat v c | inr e => refused p KFloat v e end.
  Proof. unfold to_single. destruct (as_double_cases v) as [(d & H & ->)|(e & H & ->)]; [exists d; split; [exact H|reflexivity]|exact H]. Qed.
  Lemma char_arrives v : match to_char v with inl c => arrives p KChar v c | inr e => refused p KChar v e end.
  Proof. unfold to_char. destruct v as [| | | |[|c [|c2 l]]| | |]; try (split; [intros; discriminate|reflexivity]). exists c. split; reflexivity. Qed.
  Lemma nul_iff s : existsb (Z.eqb 0) s = true <-> In 0 s.
  Proof. rewrite existsb_exists. split; [intros (y & I & E); apply Z.eqb_eq in E; subst; exact I|intros I; exists 0; split; [exact I|reflexivity]]. Qed.
  Lemma cstr_arrives v : match to_cstr v with inl c => arrives p KCString v c | inr e => refused p KCString v e end.
  Proof.
    unfold to_cstr. destruct v as [| | |l| | | |]; try (left; split; [intros; discriminate|reflexivity]).
    destruct (encode l) as [b|] eqn:E; [|right; exists l; split; [reflexivity|]; split; [left; exact E|reflexivity]].
    assert (Q := encode_nul l b E). rewrite Q. destruct (existsb (Z.eqb 0) l) eqn:X.
    - right. exists l. split; [reflexivity|]. split; [right; apply nul_iff; exact X|reflexivity].
    - exists l, b. split; [reflexivity|]. split; [exact E|]. split; [|reflexivity]. intros I. apply nul_iff in I. congruence.
  Qed.
  Lemma object_arrives v : match to_object v with inl c => arrives p KObject v c | inr e => refused p KObject v e end.
  Proof. reflexivity. Qed.

  Definition is_local (h : bhandler) : Prop := forall x ns a, bp_handler x = h -> sound_param x -> sane_default p eval x -> length ns = length (wants x) -> NoDup ns ->
    (bp_in x = true <-> a <> None) -> local x ns a.
  Ltac prep := intros [h ct nm df inp out] ns a; cbn [bp_handler bp_in]; intros -> (C & D1 & D2 & D3) SD L ND IA; cbn [bp_handler bp_ctype bp_in bp_out bp_default] in *.
  Ltac one_way := let E := fresh in
    match goal with D2 : ?o = true \/ _ -> _ |- _ => assert (E : o = false) by (destruct o; [exfalso; exact (D2 (or_introl eq_refl))|reflexivity]); rewrite E in *; clear E end;
    match goal with D1 : ?i = true \/ false = true |- _ => assert (E : i = true) by (destruct D1; congruence); rewrite E in *; clear E end.
  Ltac no_default := let E := fresh in
    match goal with D3 : forall d, ?df = Some d -> _ |- _ => assert (E : df = None) by (destruct df as [d|]; [exfalso; exact (proj1 (D3 d eq_refl))|reflexivity]); rewrite E in *; clear E end.
  Ltac is_name C := cbn in C; repeat (destruct C as [<-|C]; [|]); try destruct C.
  Ltac one := match goal with L : length ?ns = _ |- _ => destruct ns as [|n [|]]; try discriminate end.
  Ltac by_value := let O := fresh in intros ?c [(?v & O)|[[_ ->]|[? ?]]]; try congruence.

  Lemma double_local : is_local HDouble.
  Proof.
    prep. one_way. one. is_name C.
    assert (I0 : exists v0, BasicHandlers.initial N eval TDouble df = Some v0 /\ forall d, df = Some d -> (exists y, v0 = VDouble _ y) /\ default_is p eval KDouble d v0).
    { destruct df as [d|]; cbn [BasicHandlers.initial]; [|exists (VJunk N); split; [reflexivity|discriminate]].
      destruct (SD d eq_refl) as (c & y & E & ->). rewrite E. eexists. split; [reflexivity|]. intros d' [= <-]. split; [exists y; reflexivity|]. exists y. split; [exact E|reflexivity]. }
    destruct I0 as (v0 & I0 & I1).
    apply (one_var _ n TDouble "d" to_double "double" df v0 (given df) [] (AValue (EVar n)) {| be_unit := ""; be_exp := BVar n |}); try reflexivity; try discriminate; try assumption.
    - destruct df as [d|]; [|reflexivity]. cbn. destruct (D3 d eq_refl) as [_ NE]. apply String.eqb_neq in NE. rewrite NE. reflexivity.
    - apply parse_double.
    - apply double_arrives.
    - destruct df as [d|]; cbn [given]; [|reflexivity]. exists d. split; [reflexivity|]. apply (I1 d eq_refl).
    - intros c [(v & O)|[[O ->]|[? ?]]]; [unfold to_double in O; destruct (as_double N v); [injection O as <-|discriminate]| |discriminate]; cbn [pass_arg bp_default run_exp]; look; [reflexivity|].
      destruct df as [d|]; [|discriminate]. destruct (I1 d eq_refl) as [(y & ->) _]. reflexivity.
    - intros c o _. exists c. split; [reflexivity|discriminate].
    - intros c _. apply go_none.
  Qed.
  Lemma float_local : is_local HFloat.
  Proof.
    prep. one_way. no_default. one. is_name C.
    apply (one_var _ n TSingle "f" to_single "float" None (VJunk N) false [] (AValue (EVar n)) {| be_unit := ""; be_exp := BVar n |}); try reflexivity; try discriminate; try assumption.
    - apply parse_single.
    - apply single_arrives.
    - intros c [(v & O)|[[O ->]|[? ?]]]; [unfold to_single in O; destruct (as_double N v); [injection O as <-|discriminate]|discriminate|discriminate]; cbn [pass_arg bp_default run_exp]; look; reflexivity.
    - intros c o _. exists c. split; [reflexivity|discriminate].
    - intros c _. apply go_none.
  Qed.
  Lemma char_local : is_local HChar.
  Proof.
    prep. one_way. one. is_name C.
    assert (I0 : exists v0, BasicHandlers.initial N eval TChar df = Some v0 /\ forall d, df = Some d -> (exists y, v0 = VChar _ y) /\ default_is p eval KChar d v0).
    { destruct df as [d|]; cbn [BasicHandlers.initial]; [|exists (VJunk N); split; [reflexivity|discriminate]].
      destruct (SD d eq_refl) as (c & y & E & ->). rewrite E. eexists. split; [reflexivity|]. intros d' [= <-]. split; [exists y; reflexivity|]. exists y. split; [exact E|reflexivity]. }
    destruct I0 as (v0 & I0 & I1).
    apply (one_var _ n TChar "c" to_char "char" df v0 (given df) [] (AValue (EVar n)) {| be_unit := ""; be_exp := BVar n |}); try reflexivity; try discriminate; try assumption.
    - apply parse_char.
    - apply char_arrives.
    - destruct df as [d|]; cbn [given]; [|reflexivity]. exists d. split; [reflexivity|]. apply (I1 d eq_refl).
    - intros c [(v & O)|[[O ->]|[? ?]]]; [unfold to_char in O; destruct v as [| | | |[|c0 [|c2 l]]| | |]; try discriminate; injection O as <-| |discriminate]; cbn [pass_arg bp_default run_exp]; look; [reflexivity|].
      destruct df as [d|]; [|discriminate]. destruct (I1 d eq_refl) as [(y & ->) _]. reflexivity.
    - intros c o _. exists c. split; [reflexivity|discriminate].
    - intros c _. apply go_none.
  Qed.
  Lemma cstring_local : is_local HCString.
  Proof.
    prep. one_way. one.
    assert (I0 : exists v0, BasicHandlers.initial N eval TCStr df = Some v0 /\ forall d, df = Some d -> (exists y, v0 = VCStr _ y) /\ default_is p eval KCString d v0).
    { destruct df as [d|]; cbn [BasicHandlers.initial]; [|exists (VJunk N); split; [reflexivity|discriminate]].
      destruct (SD d eq_refl) as (c & [[-> ->]|(NN & y & E & ->)]).
      - eexists. split; [reflexivity|]. intros d' [= <-]. split; [eexists; reflexivity|]. left. split; reflexivity.
      - apply String.eqb_neq in NN as NN'. rewrite NN', E. eexists. split; [reflexivity|]. intros d' [= <-]. split; [exists y; reflexivity|]. right. split; [exact NN|]. exists y. split; [exact E|reflexivity]. }
    destruct I0 as (v0 & I0 & I1).
    apply (one_var _ n TCStr "s" to_cstr ct df v0 (given df) [] (AValue (EVar n)) {| be_unit := ""; be_exp := BVar n |}); try reflexivity; try discriminate; try assumption.
    - is_name C; reflexivity.
    - is_name C; reflexivity.
    - apply parse_cstr.
    - apply cstr_arrives.
    - destruct df as [d|]; cbn [given]; [|reflexivity]. exists d. split; [reflexivity|]. apply (I1 d eq_refl).
    - intros c [(v & O)|[[O ->]|[? ?]]]; [|destruct df as [d|]; [|discriminate]; destruct (I1 d eq_refl) as [(y & ->) _]; cbn [pass_arg bp_default run_exp]; look; reflexivity|discriminate].
      unfold to_cstr in O. destruct v as [| | |l| | | |]; try discriminate. destruct (encode l) as [b|]; [|discriminate]. destruct (has_nul b); [discriminate|]. injection O as <-. cbn [pass_arg bp_default run_exp]. look. reflexivity.
    - intros c o _. exists c. split; [reflexivity|discriminate].
    - intros c _. apply go_none.
  Qed.
  Lemma object_local t : is_local (HPyObject t).
  Proof.
    prep. one_way. no_default. one.
    apply (one_var _ n TObject "O" to_object ct None (VJunk N) false (if t then [SIncref n] else []) (AValue (EVar n)) {| be_unit := ""; be_exp := BVar n |});
      try reflexivity; try discriminate; try assumption; try (destruct t; reflexivity); try (is_name C; reflexivity).
    - apply parse_object.
    - intros c [(v & O)|[[O ->]|[? ?]]]; [injection O as <-|discriminate|discriminate]; cbn [pass_arg bp_default run_exp]; look; reflexivity.
    - intros c o _. exists c. split; [reflexivity|discriminate].
    - intros c A. destruct t; [|unfold taken; cbn [fst bp_handler]; apply go_none].
      destruct A as [(v & -> & [= <-])|[[_ ?]| ->]]; [|discriminate|exfalso; apply IA; reflexivity].
      apply go_one; [names_in|]. step1. cbn [run_stm]. look. reflexivity.
  Qed.
  (** Pointers and references to floating point numbers. *)
  Ltac two_var T u conv ct ca b := apply (one_var _ _ T u conv ct None (VJunk N) false [] ca b); try reflexivity; try discriminate; try assumption.
  Ltac ref_arg := intros c [(v & O)|[[O ->]|[? ->]]]; [unfold to_double, to_single in O; destruct (as_double N v); [injection O as <-|discriminate]|discriminate|]; cbn [pass_arg]; look; reflexivity.
  Ltac ref_out := intros c o TO; destruct (TO eq_refl) as (d & ->); cbn [leave_args]; look; eexists; split; [reflexivity|]; intros _; split; [|reflexivity]; cbn; look; reflexivity.
  Lemma doubleptr_local : is_local HDoublePtr.
  Proof.
    prep. no_default. one. is_name C. two_var TDouble "d" to_double "double" (AAddr n) {| be_unit := "d"; be_exp := BVar n |}.
    - destruct inp, out; reflexivity. - destruct inp, out; reflexivity. - destruct inp, out; reflexivity. - destruct inp, out; reflexivity.
    - apply parse_double. - apply double_arrives. - ref_arg. - ref_out. - intros c _. apply go_none.
  Qed.
  Lemma doubleref_local : is_local HDoubleRef.
  Proof.
    prep. no_default. one. is_name C. two_var TDouble "d" to_double "double" (ARef n) {| be_unit := "d"; be_exp := BVar n |}.
    - destruct inp, out; reflexivity. - destruct inp, out; reflexivity. - destruct inp, out; reflexivity. - destruct inp, out; reflexivity.
    - apply parse_double. - apply double_arrives. - ref_arg. - ref_out. - intros c _. apply go_none.
  Qed.
  Lemma floatptr_local : is_local HFloatPtr.
  Proof.
    prep. no_default. one. is_name C. two_var TSingle "f" to_single "float" (AAddr n) {| be_unit := "f"; be_exp := BVar n |}.
    - destruct inp, out; reflexivity. - destruct inp, out; reflexivity. - destruct inp, out; reflexivity. - destruct inp, out; reflexivity.
    - apply parse_single. - apply single_arrives. - ref_arg. - ref_out. - intros c _. apply go_none.
  Qed.
  Lemma floatref_local : is_local HFloatRef.
  Proof.
    prep. no_default. one. two_var TSingle "f" to_single "float" (ARef n) {| be_unit := "f"; be_exp := BVar n |}.
    - is_name C; reflexivity.
    - destruct inp, out; reflexivity. - destruct inp, out; reflexivity. - destruct inp, out; reflexivity. - destruct inp, out; reflexivity.
    - apply parse_single. - apply single_arrives. - ref_arg. - ref_out. - intros c _. apply go_none.
  Qed.

  Ltac pass_it := split; [cbn [ps_arg ps_env arg_vars exp_vars]; names_in|]; cbn [ps_arg ps_env ps_type ps_value pass_arg bp_default run_exp]; look; reflexivity.
  Ltac arrived := left; split; [|reflexivity].
  Lemma bool_local : is_local HBool.
  Proof.
    prep. one_way. destruct ns as [|n [|py [|]]]; try discriminate. is_name C.
    assert (NE1 : String.eqb n py = false) by (apply String.eqb_neq; intros ->; inversion ND; subst; cbn in *; tauto).
    assert (NE2 : String.eqb py n = false) by (rewrite String.eqb_sym; exact NE1).
    destruct a as [a|]; [|exfalso; apply IA; reflexivity].
    pose (v0 := match df with Some _ => VObject _ None | None => VJunk N end).
    exists [(n, (TBool, VJunk N)); (py, (TObject, v0))]. eexists _, _, _, _, TBool.
    split. { intros e pd lg. unfold v0. destruct df; cbn -[app]; rewrite <- !app_assoc; reflexivity. }
    split; [reflexivity|]. split; [reflexivity|]. split; [reflexivity|]. split; [reflexivity|]. split; [reflexivity|]. split; [reflexivity|]. split; [reflexivity|]. split; [reflexivity|].
    assert (Rest : forall e c pend, goes (run_stm N eval) stm_vars
              (mk_part [SSet n (match df with Some t => if nonempty_default df then EIf py (EIsTrue py) (EDefault t) else EIsTrue py | None => EIsTrue py end)]
                 e [(n, (TBool, VBool _ c)); (py, (TObject, match e with [_; (_, (_, o))] => o | _ => VJunk N end))] pend []) ->
              dom e = [n; py] -> reaches p eval (mk_bparam HBool "bool" nm df true false, Some a) (VBool _ c) pend ->
              exists E2 c pend, goes (run_stm N eval) stm_vars
                 (mk_part [SSet n (match df with Some t => if nonempty_default df then EIf py (EIsTrue py) (EDefault t) else EIsTrue py | None => EIsTrue py end)] e E2 pend []) /\
                reaches p eval (mk_bparam HBool "bool" nm df true false, Some a) c pend /\ passes (eval := eval) (mk_pass (AValue (EVar n)) TBool E2 c) /\
                (forall o : cval N, (by_reference HBool = true -> typed p KBool o) -> exists E3, leaves (mk_leave (AValue (EVar n)) o E2 E3) /\
                  (false = true -> exists b : bent, @nil (bent * bool) = [(b, false)] /\ build_unit N p b E3 = Some (shown o, []) /\ In (bent_var b) (dom E3)))).
    { intros e c pend G DE R. eexists _, _, pend. split; [exact G|]. split; [exact R|]. split; [pass_it|]. intros o _. eexists. split; [split; [names_in|reflexivity]|discriminate]. }
    unfold fate. change (taken _) with (@nil (event N)). destruct a as [v|].
    - right. exists [(n, (TBool, VJunk N)); (py, (TObject, VObject _ (Some v)))]. split.
      { apply go_one; [names_in|]. step1. cbn -[lookup assign]. unfold store_at. look. reflexivity. }
      right. destruct (truth N v) as [b|] eqn:TV.
      + apply (Rest _ b false); [|reflexivity|arrived; exists b; split; [exact TV|reflexivity]].
        apply go_one; [destruct df as [d|]; [cbn [nonempty_default]; destruct (String.eqb d "")|]; names_in|]. step1. cbn [run_stm].
        destruct df as [d|]; [cbn [nonempty_default]; destruct (String.eqb d ""); cbn [negb]|]; look; cbn [bp_default run_exp]; look; cbn [bp_default run_exp]; look; rewrite TV; look; rewrite ?orb_false_r; reflexivity.
      + apply (Rest _ true true); [|reflexivity|right; split; [split; [reflexivity|exists v; split; [reflexivity|exact TV]]|split; reflexivity]].
        apply go_one; [destruct df as [d|]; [cbn [nonempty_default]; destruct (String.eqb d "")|]; names_in|]. step1. cbn [run_stm].
        destruct df as [d|]; [cbn [nonempty_default]; destruct (String.eqb d ""); cbn [negb]|]; look; cbn [bp_default run_exp]; look; cbn [bp_default run_exp]; look; rewrite TV; look; reflexivity.
    - destruct df as [d|].
      + destruct (D3 d eq_refl) as [_ NE]. destruct (SD d eq_refl) as (c & b & EB & ->).
        right. eexists. split; [apply go_one; [names_in|]; step1; reflexivity|].
        right. apply (Rest _ b false); [|reflexivity|arrived; exists d; split; [reflexivity|]; exists b; split; [exact EB|reflexivity]].
        apply String.eqb_neq in NE. cbn [nonempty_default]. rewrite NE. cbn [negb].
        apply go_one; [names_in|]. step1. unfold v0. cbn [run_stm]. look. cbn [bp_default run_exp]. look. cbn [bp_default run_exp]. rewrite EB. look. rewrite ?orb_false_r. reflexivity.
      + left. exists None, TypeErr. split; [reflexivity|]. split; [split; reflexivity|]. apply stop_one; [names_in|]. step1. reflexivity.
  Qed.

  (** Pointers and references to bools. *)
  Lemma boolref_local (hd : bhandler) (mkarg : string -> carg) : (hd = HBoolPtr /\ mkarg = AAddr) \/ (hd = HBoolRef /\ mkarg = ARef) -> is_local hd.
  Proof.
    intros HM. prep. assert (DF : df = None) by (destruct df as [d|]; [exfalso; destruct (D3 d eq_refl) as [X _]; destruct HM as [[-> _]|[-> _]]; exact X|reflexivity]). subst df.
    assert (CT : wants (mk_bparam hd ct nm None inp out) = (("bool", nm, None) :: if inp then [("PyObject*", ("py_" ++ nm)%string, None)] else [])) by (destruct HM as [[-> _]|[-> _]]; reflexivity).
    assert (VT : resolve p (value_type_of (mk_bparam hd ct nm None inp out)) = Some TBool) by (destruct HM as [[-> _]|[-> _]]; reflexivity).
    assert (KB : kind_of (mk_bparam hd ct nm None inp out) = KBool) by (destruct HM as [[-> _]|[-> _]]; reflexivity).
    assert (CR : created (N := N) (mk_bparam hd ct nm None inp out) = []) by (destruct HM as [[-> _]|[-> _]]; reflexivity).
    assert (TK : taken (mk_bparam hd ct nm None inp out, a) = []) by (destruct HM as [[-> _]|[-> _]]; reflexivity).
    rewrite CT in L.
    assert (Rest : forall n E c, mkarg n = AAddr n \/ mkarg n = ARef n -> lookup N E n = Some (TBool, c) -> In n (dom E) -> (c = VJunk N \/ exists b, c = VBool _ b) ->
      passes (eval := eval) (mk_pass (mkarg n) TBool E c) /\
      (forall o, (by_reference hd = true -> typed p KBool o) -> exists E3, leaves (mk_leave (mkarg n) o E E3) /\
         (out = true -> exists b, (if out then [({| be_unit := "N"; be_exp := BTruth n |}, false)] else []) = [(b, false)] /\ build_unit N p b E3 = Some (shown o, []) /\ In (bent_var b) (dom E3)))).
    { intros n E c MA LK IN CC. split.
      - split; cbn [ps_arg ps_env ps_type ps_value]; [destruct MA as [-> | ->]; intros y [<-|[]]; exact IN|].
        destruct MA as [-> | ->]; cbn [pass_arg]; rewrite LK; destruct CC as [->|(b & ->)]; reflexivity.
      - intros o TO. assert (BR : by_reference hd = true) by (destruct HM as [[-> _]|[-> _]]; reflexivity). destruct (TO BR) as (b & ->).
        exists (assign N E n (VBool _ b)). split.
        + split; cbn [lv_arg lv_before]; [destruct MA as [-> | ->]; intros y [<-|[]]; exact IN|]. destruct MA as [-> | ->]; cbn [leave_args lv_out lv_after]; rewrite LK; reflexivity.
        + intros ->. eexists. split; [reflexivity|]. split; [|cbn [bent_var be_exp]; rewrite dom_assign; exact IN].
          cbn [build_unit be_exp be_unit]. assert (LA : lookup N (assign N E n (VBool N b)) n = Some (TBool, VBool N b)).
          { clear - LK. revert LK. induction E as [|[k [t u]] E IH]; [discriminate|]. cbn [lookup assign]. destruct (String.eqb k n) eqn:KN; [intros [= -> _]; cbn [lookup]; rewrite KN; reflexivity|].
            intros H. cbn [lookup]. rewrite KN. apply IH. exact H. }
          unfold build_unit. cbn [be_exp be_unit]. rewrite LA. reflexivity. }
    assert (MA : forall n, mkarg n = AAddr n \/ mkarg n = ARef n) by (intros n; destruct HM as [[_ ->]|[_ ->]]; [left|right]; reflexivity).
    assert (CD : code (mk_bparam hd ct nm None inp out) ns = match ns with n :: py =>
              BCall (mkarg n) :: (if inp then match py with [py] => [BParse (pents (mk_bparam hd ct nm None inp out) "O" [py] false); BCode (SSet n (EIsTrue py))] | _ => [] end else [])
               ++ (if out then [BBuild {| be_unit := "N"; be_exp := BTruth n |} false] else []) | [] => [] end) by (destruct HM as [[-> ->]|[-> ->]]; destruct ns; reflexivity).
    unfold local, fate. rewrite CD, VT, KB, CR, TK. cbn [bp_in bp_out bp_handler]. clear CD.
    destruct inp.
    - destruct ns as [|n [|py [|]]]; try discriminate.
      assert (NE1 : String.eqb n py = false) by (apply String.eqb_neq; intros ->; inversion ND; subst; cbn in *; tauto).
      assert (NE2 : String.eqb py n = false) by (rewrite String.eqb_sym; exact NE1).
      destruct a as [a|]; [|exfalso; apply IA; reflexivity].
      exists [(n, (TBool, VJunk N)); (py, (TObject, VJunk N))]. exists [pents (mk_bparam hd ct nm None true out) "O" [py] false], [SSet n (EIsTrue py)], (mkarg n), (if out then [({| be_unit := "N"; be_exp := BTruth n |}, false)] else []), TBool.
      split. { intros e pd lg. unfold declared_as. rewrite CT. cbn -[app]. rewrite <- !app_assoc. reflexivity. }
      split; [reflexivity|]. split; [destruct out; reflexivity|]. split; [reflexivity|]. split; [destruct out; reflexivity|]. split; [destruct out; reflexivity|]. split; [destruct out; reflexivity|]. split; [destruct out; reflexivity|]. split; [reflexivity|].
      cbn [arg_list combine]. destruct a as [v|].
      + right. exists [(n, (TBool, VJunk N)); (py, (TObject, VObject _ (Some v)))]. split.
        { apply go_one; [names_in|]. step1. cbn -[lookup assign]. unfold store_at. look. reflexivity. }
        right. destruct (truth N v) as [b|] eqn:TV.
        * exists [(n, (TBool, VBool _ b)); (py, (TObject, VObject _ (Some v)))], (VBool _ b), false.
          split. { apply go_one; [names_in|]. step1. cbn [run_stm]. look. cbn [bp_default run_exp]. look. rewrite TV. look. rewrite ?orb_false_r. reflexivity. }
          split. { left. split; [|reflexivity]. unfold gets, arg_arrives. cbn [fst snd]. rewrite KB. exists b. split; [exact TV|reflexivity]. }
          apply Rest; [apply MA|look; reflexivity|left; reflexivity|right; exists b; reflexivity].
        * exists [(n, (TBool, VBool _ true)); (py, (TObject, VObject _ (Some v)))], (VBool _ true), true.
          split. { apply go_one; [names_in|]. step1. cbn [run_stm]. look. cbn [bp_default run_exp]. look. rewrite TV. look. reflexivity. }
          split. { right. split; [|split; reflexivity]. split; [exact KB|]. exists v. split; [reflexivity|exact TV]. }
          apply Rest; [apply MA|look; reflexivity|left; reflexivity|right; exists true; reflexivity].
      + left. exists None, TypeErr. split; [reflexivity|]. split; [split; reflexivity|]. apply stop_one; [names_in|]. step1. reflexivity.
    - destruct ns as [|n [|]]; try discriminate. destruct a as [a|]; [exfalso; assert (X : false = true) by (apply IA; discriminate); discriminate|].
      exists [(n, (TBool, VJunk N))]. exists [], [], (mkarg n), (if out then [({| be_unit := "N"; be_exp := BTruth n |}, false)] else []), TBool.
      split. { intros e pd lg. unfold declared_as. rewrite CT. cbn -[app]. reflexivity. }
      split; [reflexivity|]. split; [destruct out; reflexivity|]. split; [reflexivity|]. split; [destruct out; reflexivity|]. split; [destruct out; reflexivity|]. split; [destruct out; reflexivity|]. split; [destruct out; reflexivity|]. split; [reflexivity|].
      right. eexists. split; [apply go_none|]. right. eexists _, (VJunk N), false. split; [apply go_none|].
      split. { left. split; [|reflexivity]. unfold gets. cbn [fst snd]. rewrite KB. reflexivity. }
      apply Rest; [apply MA|look; reflexivity|left; reflexivity|left; reflexivity].
  Qed.

  (** Strings. *)
  Definition to_bytes (v : pyv N) : (list Z + perr)%type :=
    match v with
    | PStr _ l => match encode l with Some b => inl b | None => inr ValueErr end
    | PBytes _ b => inl b
    | _ => inr TypeErr
    end.
  Lemma bytes_arrive v : match to_bytes v with inl b => arrives p KString v (VString _ b) | inr e => refused p KString v e end.
  Proof.
    destruct v as [| | |l|l| | |]; cbn [to_bytes]; try (left; split; [intros; split; discriminate|reflexivity]).
    - destruct (encode l) as [b|] eqn:E; [left; exists l, b; repeat split; assumption|right; exists l; repeat split; assumption].
    - right. exists l. split; reflexivity.
  Qed.
  Lemma parse_bytes n m v E pd lg w1 w2 : lookup N E n = Some (TCStr, w1) -> lookup N E m = Some (TLen, w2) -> String.eqb n m = false ->
    parse_value N p "s#" [n; m] v (mk E pd lg) =
    match to_bytes v with
    | inl b => Go _ (mk (assign N (assign N E n (VCStr _ (Some b))) m (VLen _ (Z.of_nat (length b)))) pd lg)
    | inr e => Stop _ (mk E pd lg) e
    end.
  Proof.
    intros L1 L2 NM.
    assert (K : forall b, then_ N (store_at N (mk E pd lg) n 0 (VCStr N (Some b))) (fun s => store_at N s m 0 (VLen N (Z.of_nat (length b)))) =
      Go _ (mk (assign N (assign N E n (VCStr _ (Some b))) m (VLen _ (Z.of_nat (length b)))) pd lg)).
    { intros b. unfold store_at at 1. cbn [s_env]. rewrite L1. cbn [fits_in coerce then_]. unfold store_at, set_env. cbn [s_env].
      assert (L3 : lookup N (assign N E n (VCStr N (Some b))) m = Some (TLen, w2)).
      { revert L2. clear - NM. induction E as [|[k [t u]] E IH]; [discriminate|]. cbn [lookup assign]. destruct (String.eqb k n) eqn:KN.
        - apply String.eqb_eq in KN. subst k. rewrite NM. intros H. cbn [lookup]. rewrite NM. exact H.
        - cbn [lookup]. destruct (String.eqb k m); [auto|apply IH]. }
      rewrite L3. reflexivity. }
    destruct v as [| | |l|l| | |]; try reflexivity; cbn [to_bytes]; [|exact (K l)].
    destruct (encode l) as [b|] eqn:EL; [|cbn -[encode]; rewrite EL; reflexivity]. cbn -[store_at encode]. rewrite EL. exact (K b).
  Qed.

  Lemma whole (b : list Z) : (0 <=? Z.of_nat (length b)) && (Z.of_nat (length b) <=? Z.of_nat (length b)) = true /\ firstn (Z.to_nat (Z.of_nat (length b))) b = b.
  Proof. split; [apply andb_true_iff; split; apply Z.leb_le; lia|]. rewrite Nat2Z.id. apply firstn_all. Qed.
  Ltac apart_names := match goal with ND : NoDup [?n; ?m; ?k] |- _ =>
      assert (NE1 : String.eqb n m = false) by (apply String.eqb_neq; intros ->; inversion ND; subst; cbn in *; tauto);
      assert (NE2 : String.eqb m n = false) by (rewrite String.eqb_sym; exact NE1);
      assert (NE3 : String.eqb n k = false) by (apply String.eqb_neq; intros ->; inversion ND; subst; cbn in *; tauto);
      assert (NE4 : String.eqb k n = false) by (rewrite String.eqb_sym; exact NE3);
      assert (NE5 : String.eqb m k = false) by (apply String.eqb_neq; intros ->; inversion ND as [|? ? ? X]; subst; inversion X; subst; cbn in *; tauto);
      assert (NE6 : String.eqb k m = false) by (rewrite String.eqb_sym; exact NE5)
    | ND : NoDup [?n; ?m] |- _ =>
      assert (NE1 : String.eqb n m = false) by (apply String.eqb_neq; intros ->; inversion ND; subst; cbn in *; tauto);
      assert (NE2 : String.eqb m n = false) by (rewrite String.eqb_sym; exact NE1)
    end.
  Lemma string_local : is_local HStdString.
  Proof.
    prep. one_way. destruct ns as [|n [|m [|]]]; try discriminate. is_name C. apart_names.
    destruct a as [a|]; [|exfalso; apply IA; reflexivity].
    pose (v0 := match df with Some _ => VCStr _ None | None => VJunk N end).
    exists [(n, (TCStr, v0)); (m, (TLen, VJunk N))]. eexists _, _, _, _, TString.
    split. { intros e pd lg. unfold v0. destruct df; cbn -[app]; rewrite <- !app_assoc; reflexivity. }
    split; [reflexivity|]. split; [reflexivity|]. split; [reflexivity|]. split; [reflexivity|]. split; [reflexivity|]. split; [reflexivity|]. split; [reflexivity|]. split; [reflexivity|].
    unfold fate. change (taken _) with (@nil (event N)). cbn [arg_list combine]. destruct a as [v|].
    - assert (Q := bytes_arrive v). destruct (to_bytes v) as [b|e] eqn:TB.
      + right. exists [(n, (TCStr, VCStr _ (Some b))); (m, (TLen, VLen _ (Z.of_nat (length b))))]. split.
        { apply go_one; [names_in|]. step1. unfold parse_item, parse_entry. cbn [fst snd pents pe_unit pe_vars].
          erewrite parse_bytes; [|look; reflexivity|look; reflexivity|exact NE1]. rewrite TB. look. rewrite ?orb_false_r. reflexivity. }
        right. destruct (whole b) as [W1 W2]. eexists _, (VString _ b), false. split; [apply go_none|]. split; [arrived; exact Q|]. split.
        { split; [cbn [ps_arg ps_env arg_vars exp_vars]; destruct df; names_in|]. cbn [ps_arg ps_env ps_type ps_value pass_arg].
          destruct df as [d|]; cbn [bp_default run_exp]; look; cbn [bp_default run_exp]; look; rewrite ?W1, ?W2; reflexivity. }
        intros o _. eexists. split; [split; [destruct df; names_in|reflexivity]|discriminate].
      + left. exists (Some v), e. split; [reflexivity|]. split; [exact Q|]. apply stop_one; [names_in|]. step1. unfold parse_item, parse_entry. cbn [fst snd pents pe_unit pe_vars].
        erewrite parse_bytes; [|look; reflexivity|look; reflexivity|exact NE1]. rewrite TB. reflexivity.
    - destruct df as [d|].
      + destruct (SD d eq_refl) as (c & l & EL & ->). right. eexists. split; [apply go_one; [names_in|]; step1; reflexivity|].
        right. eexists _, (VString _ l), false. split; [apply go_none|]. split; [arrived; exists d; split; [reflexivity|]; exists l; split; [exact EL|reflexivity]|]. split.
        { split; [names_in|]. unfold v0. cbn [ps_arg ps_env ps_type ps_value pass_arg bp_default run_exp]. look. cbn [bp_default run_exp]. rewrite EL. reflexivity. }
        intros o _. eexists. split; [split; [names_in|reflexivity]|discriminate].
      + left. exists None, TypeErr. split; [reflexivity|]. split; [split; reflexivity|]. apply stop_one; [names_in|]. step1. reflexivity.
  Qed.
  Lemma text_shown l : match decode l with Some s => Some (inl (PStr N s), []) | None => Some (inr ValueErr, []) end = Some (shown (VString N l), @nil (event N)).
  Proof. cbn [shown]. unfold text. destruct (decode l); reflexivity. Qed.
  (** The common part of references and pointers to strings. *)
  Lemma string_rest n m k T ca v0 v1 c out : (T = TString \/ T = TNewString) -> (ca = ARef k \/ ca = AAddr k) -> String.eqb n k = false -> String.eqb m k = false ->
    let E := [(n, (TCStr, v0)); (m, (TLen, v1)); (k, (T, VString N c))] in
    passes (eval := eval) (mk_pass ca TString E (VString N c)) /\
    forall o, (true = true -> typed p KString o) -> exists E3, leaves (mk_leave ca o E E3) /\
      (out = true -> exists b, (if out : bool then [({| be_unit := "s#"; be_exp := BBytes k |}, false)] else []) = [(b, false)] /\ build_unit N p b E3 = Some (shown o, []) /\ In (bent_var b) (dom E3)).
  Proof.
    intros HT HC NE3 NE5. cbv zeta. split.
    - split; [destruct HC as [-> | ->]; cbn [ps_arg ps_env arg_vars]; names_in|]. cbn [ps_arg ps_env ps_type ps_value]. destruct HC as [-> | ->]; cbn [pass_arg]; look; destruct HT as [-> | ->]; reflexivity.
    - intros o TO. destruct (TO eq_refl) as (l & ->). eexists. split.
      + split; [destruct HC as [-> | ->]; cbn [lv_arg lv_before arg_vars]; names_in|]. cbn [lv_arg lv_before lv_out lv_after]. destruct HC as [-> | ->]; cbn [leave_args]; look; destruct HT as [-> | ->]; reflexivity.
      + intros ->. eexists. split; [reflexivity|]. split; [|cbn; tauto]. unfold build_unit. cbn [be_exp be_unit]. look. cbn [String.eqb Ascii.eqb Bool.eqb]. apply text_shown.
  Qed.
  Lemma stringref_local : is_local HStdStringRef.
  Proof.
    prep. destruct ns as [|n [|m [|k [|]]]]; try discriminate. is_name C. apart_names.
    exists [(n, (TCStr, VCStr N None)); (m, (TLen, VJunk N)); (k, (TString, VString N []))].
    exists (if inp then [pents (mk_bparam HStdStringRef "std::string&" nm df inp out) "s#" [n; m] (given df)] else []),
      (if inp then [SSet k (match df with None => EString n m | Some t => EIf n (EString n m) (EDefault t) end)] else []), (ARef k),
      (if out then [({| be_unit := "s#"; be_exp := BBytes k |}, false)] else []), TString.
    split. { intros e pd lg. cbn -[app]. rewrite <- !app_assoc. reflexivity. }
    split; [reflexivity|]. do 7 (split; [destruct inp, out; reflexivity|]).
    assert (Rest := fun v0 v1 c => string_rest n m k TString (ARef k) v0 v1 c out (or_introl eq_refl) (or_introl eq_refl) NE3 NE5). cbv zeta in Rest.
    unfold fate. cbn [bp_handler bp_out]. change (taken _) with (@nil (event N)). change (by_reference _) with true. change (kind_of _) with KString.
    destruct a as [a|].
    - assert (inp = true) as -> by (apply IA; discriminate). cbn [arg_list combine]. destruct a as [v|].
      + assert (Q := bytes_arrive v). destruct (to_bytes v) as [b|e] eqn:TB.
        * right. exists [(n, (TCStr, VCStr _ (Some b))); (m, (TLen, VLen _ (Z.of_nat (length b)))); (k, (TString, VString N []))]. split.
          { apply go_one; [names_in|]. step1. unfold parse_item, parse_entry. cbn [fst snd pents pe_unit pe_vars].
            erewrite parse_bytes; [|look; reflexivity|look; reflexivity|exact NE1]. rewrite TB. look. rewrite ?orb_false_r. reflexivity. }
          right. destruct (whole b) as [W1 W2]. eexists _, (VString _ b), false. split; [|split; [arrived; exact Q|apply Rest]].
          apply go_one; [destruct df; names_in|]. step1. cbn [run_stm]. look. destruct df as [d|]; cbn [bp_default run_exp]; look; cbn [bp_default run_exp]; look; rewrite ?W1, ?W2; look; rewrite ?orb_false_r; reflexivity.
        * left. exists (Some v), e. split; [reflexivity|]. split; [exact Q|]. apply stop_one; [names_in|]. step1. unfold parse_item, parse_entry. cbn [fst snd pents pe_unit pe_vars].
          erewrite parse_bytes; [|look; reflexivity|look; reflexivity|exact NE1]. rewrite TB. reflexivity.
      + destruct df as [d|].
        * destruct (SD d eq_refl) as (c & l & EL & ->). right. eexists. split; [apply go_one; [names_in|]; step1; reflexivity|].
          right. eexists _, (VString _ l), false. split; [|split; [arrived; exists d; split; [reflexivity|]; exists l; split; [exact EL|reflexivity]|apply Rest]].
          apply go_one; [names_in|]. step1. cbn [run_stm]. look. cbn [bp_default run_exp]. look. cbn [bp_default run_exp]. rewrite EL. look. rewrite ?orb_false_r. reflexivity.
        * left. exists None, TypeErr. split; [reflexivity|]. split; [split; reflexivity|]. apply stop_one; [names_in|]. step1. reflexivity.
    - assert (inp = false) as -> by (destruct inp; [exfalso; apply IA; reflexivity|reflexivity]). cbn [arg_list combine].
      right. eexists. split; [apply go_none|]. right. eexists _, (VString N []), false. split; [apply go_none|]. split; [arrived; reflexivity|]. apply Rest.
  Qed.
  Lemma stringptr_local t : is_local (HStdStringPtr t).
  Proof.
    prep. no_default. destruct ns as [|n [|m [|k [|]]]]; try discriminate. is_name C. apart_names.
    pose (T := if t then TNewString else TString).
    exists [(n, (TCStr, VJunk N)); (m, (TLen, VJunk N)); (k, (T, VString N []))].
    exists (if inp then [pents (mk_bparam (HStdStringPtr t) "std::string*" nm None inp out) "s#" [n; m] false] else []),
      (if inp then [SSet k (EString n m)] else []), (AAddr k),
      (if out then [({| be_unit := "s#"; be_exp := BBytes k |}, false)] else []), TString.
    split. { intros e pd lg. unfold T. destruct t; cbn -[app]; rewrite <- !app_assoc; reflexivity. }
    split; [reflexivity|]. do 7 (split; [destruct inp, out; reflexivity|]).
    assert (HT : T = TString \/ T = TNewString) by (unfold T; destruct t; [right|left]; reflexivity).
    assert (CO : forall l, coerce N T (VString N l) = Some (VString N l)) by (intros l; destruct HT as [-> | ->]; reflexivity).
    assert (Rest := fun v0 v1 c => string_rest n m k T (AAddr k) v0 v1 c out HT (or_intror eq_refl) NE3 NE5). cbv zeta in Rest.
    unfold fate. cbn [bp_handler bp_out]. change (taken _) with (@nil (event N)). change (by_reference _) with true. change (kind_of _) with KString.
    destruct a as [a|].
    - assert (inp = true) as -> by (apply IA; discriminate). cbn [arg_list combine]. destruct a as [v|].
      + assert (Q := bytes_arrive v). destruct (to_bytes v) as [b|e] eqn:TB.
        * right. exists [(n, (TCStr, VCStr _ (Some b))); (m, (TLen, VLen _ (Z.of_nat (length b)))); (k, (T, VString N []))]. split.
          { apply go_one; [names_in|]. step1. unfold parse_item, parse_entry. cbn [fst snd pents pe_unit pe_vars].
            erewrite parse_bytes; [|look; reflexivity|look; reflexivity|exact NE1]. rewrite TB. look. rewrite ?orb_false_r. reflexivity. }
          right. destruct (whole b) as [W1 W2]. eexists _, (VString _ b), false. split; [|split; [arrived; exact Q|apply Rest]].
          apply go_one; [names_in|]. step1. cbn [run_stm]. look. cbn [bp_default run_exp]. look. rewrite W1, W2, CO. look. rewrite ?orb_false_r. reflexivity.
        * left. exists (Some v), e. split; [reflexivity|]. split; [exact Q|]. apply stop_one; [names_in|]. step1. unfold parse_item, parse_entry. cbn [fst snd pents pe_unit pe_vars].
          erewrite parse_bytes; [|look; reflexivity|look; reflexivity|exact NE1]. rewrite TB. reflexivity.
      + left. exists None, TypeErr. split; [reflexivity|]. split; [split; reflexivity|]. apply stop_one; [names_in|]. step1. reflexivity.
    - assert (inp = false) as -> by (destruct inp; [exfalso; apply IA; reflexivity|reflexivity]). cbn [arg_list combine].
      right. eexists. split; [apply go_none|]. right. eexists _, (VString N []), false. split; [apply go_none|]. split; [arrived; reflexivity|]. apply Rest.
  Qed.
End Cases.
