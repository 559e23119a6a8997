(** The integer parameters, on their own variable; all the handlers. *)
From Verif.Model Require Import Py CodeBlock Params IntHandlers Utf8 BasicHandlers.
From Verif.Spec Require Import IntSpec BasicSpec.
From Verif.Proofs Require Import Utf8Proofs IntProofs IntTop IntBack BasicFrame BasicLocal.
From Coq Require Import ZArith Lia.
Open Scope string_scope.
Open Scope list_scope.
Local Open Scope Z_scope.

Section Ints.
  Context {N : numerics} {p : platform} {eval : ctyp -> string -> cval N}.
  Notation local := (@local N p eval).
  Notation is_local := (@is_local N p eval).
  Notation mk := (mk_st N).

  Lemma int_declares x h n : bp_handler x = HInt h -> In (bp_ctype x) (param_ctypes h) ->
    exists t, declared_as x [n] = [(t, n, init_text (mk_param h (bp_ctype x) n (bp_default x)))] /\ resolve p t = Some (TInt (s_var (shape_of p h))).
  Proof.
    destruct x as [h' ct nm df inp out]. cbn [bp_handler bp_ctype bp_default]. intros -> C.
    destruct h; cbn [param_ctypes In] in C; repeat (destruct C as [C|C]; [rewrite <- C; destruct inp, out; (eexists; split; reflexivity)|]); destruct C.
  Qed.
  Definition mk_arg (how : passing) (n : string) : carg := match how with ByValue => AValue (EVar n) | ByReference => ARef n | ByAddress => AAddr n end.
  Lemma int_code x h n : bp_handler x = HInt h -> (bidirectional h = true \/ (bp_in x = true /\ bp_out x = false)) ->
    parses (code x [n]) = (if bp_in x then [pents x (s_unit (shape_of p h)) [n] (is_optional (mk_param h (bp_ctype x) n (bp_default x)))] else []) /\
    befores (code x [n]) = (match s_checks (shape_of p h) with [] => [] | cs => [SCheck (named_checks n cs)] end) /\
    calls (code x [n]) = [mk_arg (param_passing h) n] /\
    builds (code x [n]) = (if bp_out x then [({| be_unit := s_unit (shape_of p h); be_exp := BInt (Var n) |}, false)] else []).
  Proof.
    destruct x as [h' ct nm df inp out]. cbn [bp_handler bp_ctype bp_default bp_in bp_out]. intros ->.
    destruct h; (intros [D|[-> ->]]; [first [discriminate D|destruct inp, out; repeat split; reflexivity]|repeat split; reflexivity]).
  Qed.
  Lemma int_unit h : existsb (String.eqb (s_unit (shape_of p h))) int_units = true.
  Proof. destruct h; reflexivity. Qed.
  Lemma parse_int h n v w pd lg : parse_value N p (s_unit (shape_of p h)) [n] v (mk [(n, (TInt (s_var (shape_of p h)), w))] pd lg) =
    match parse_unit p (s_unit (shape_of p h)) (as_int N v) with
    | Stored t z => if bits (s_var (shape_of p h)) =? bits t then Go _ (mk [(n, (TInt (s_var (shape_of p h)), VInt N (wrap (s_var (shape_of p h)) z)))] pd lg) else Crash _
    | Failed e => Stop _ (mk [(n, (TInt (s_var (shape_of p h)), w))] pd lg) (of_argerr e)
    | BadUnit => Crash _
    end.
  Proof.
    unfold parse_value. rewrite int_unit. destruct (parse_unit p (s_unit (shape_of p h)) (as_int N v)) as [t z|e|]; try reflexivity. unfold store_at. look.
    destruct (bits (s_var (shape_of p h)) =? bits t); reflexivity.
  Qed.
  Lemma overflow_only u z e : valid_platform p -> parse_unit p u (PyInt z) = Failed e -> e = OverflowE.
  Proof.
    intros V. rewrite unit_ok by exact V. unfold unit_result.
    repeat match goal with |- context [if ?c then _ else _] => destruct c end; congruence.
  Qed.
  Lemma checks_same n t z cs : check_values N [(n, (TInt t, VInt N z))] (named_checks n cs) = check_any [(n, (t, Some z))] (named_checks n cs).
  Proof.
    induction cs as [|c cs IH]; [reflexivity|]. cbn [named_checks map check_values check_any]. unfold check_value at 1, check_one at 1. cbn [fst snd lookup get]. rewrite String.eqb_refl.
    destruct (constant (snd c)) as [y|]; [|reflexivity]. destruct (compare (fst c) z y); [reflexivity|exact IH].
  Qed.
  Lemma ref_type h : param_passing h <> ByValue -> s_var (shape_of p h) = param_type p h.
  Proof. destruct h; cbn [param_passing]; intros H; first [reflexivity|exfalso; apply H; reflexivity]. Qed.
  Lemma as_int_cases v : (exists z, integer v z /\ as_int N v = PyInt z) \/ ((forall z, ~ integer v z) /\ as_int N v = PyOther).
  Proof.
    destruct v as [z|b|d|l|l| |l|i t]; cbn [as_int]; try (right; split; [intros z [E|(b & E & _)]; discriminate|reflexivity]); left.
    - exists z. split; [left; reflexivity|reflexivity].
    - exists (b2z b). split; [right; exists b; split; reflexivity|reflexivity].
  Qed.
  Lemma integer_unique (v : pyv N) z y : integer v z -> integer v y -> z = y.
  Proof. intros [E1|(b & E1 & ->)] [E2|(b' & E2 & ->)]; rewrite E1 in E2; try discriminate E2; injection E2 as ->; reflexivity. Qed.

  Lemma int_local h : valid_platform p -> is_local (HInt h).
  Proof.
    intros V x ns a HH (C & D1 & D2 & D3) SD L ND IA.
    rewrite HH in C, D2, D3. cbn [basic_ctypes two_way honours_default] in C, D2, D3.
    destruct (int_declares x h "" HH C) as (t0 & W0 & _). assert (LN : length (wants x) = 1%nat).
    { clear - HH C. destruct x as [h' ct nm df inp out]. cbn [bp_handler bp_ctype] in *. rewrite HH. unfold wants. cbn [bp_handler]. unfold int_wants. cbn [bp_ctype bp_name bp_default bp_in bp_out].
      destruct h, inp, out; reflexivity. }
    rewrite LN in L. destruct ns as [|n [|]]; try discriminate. clear LN t0 W0.
    destruct (int_declares x h n HH C) as (t & HD & HR).
    assert (DI : bidirectional h = true \/ (bp_in x = true /\ bp_out x = false)).
    { destruct (bidirectional h); [left; reflexivity|right]. assert (bp_out x = false) by (destruct (bp_out x); [exfalso; discriminate (D2 (or_introl eq_refl))|reflexivity]). split; [|assumption]. destruct D1; congruence. }
    destruct (int_code x h n HH DI) as (HP & HB & HC & HBu).
    pose (pa := mk_param h (bp_ctype x) n (bp_default x)). assert (DE : declared pa) by exact C.
    assert (KO : kind_of x = KInt h) by (unfold kind_of; rewrite HH; reflexivity).
    assert (VT : resolve p (value_type_of x) = Some (TInt (param_type p h))).
    { unfold value_type_of. rewrite HH. unfold resolve. assert (Q := value_type_ok p pa DE). cbn [pa pa_handler pa_ctype] in Q. rewrite Q. reflexivity. }
    assert (CR : created (N := N) x = []) by (unfold created; rewrite HH; reflexivity).
    assert (TK : taken (x, a) = []) by (unfold taken; cbn [fst]; rewrite HH; reflexivity).
    set (sv := s_var (shape_of p h)) in *. set (T := param_type p h) in *.
    destruct (sizes p h V) as [SZ1 SZ2]. fold sv T in SZ1, SZ2.
    (* the default value *)
    assert (I0 : exists v0, BasicHandlers.initial N eval (TInt sv) (init_text pa) = Some v0 /\
              ((bp_default x = None /\ is_optional pa = false /\ v0 = VJunk N) \/
               exists d z, bp_default x = Some d /\ is_optional pa = true /\ default_is p eval (KInt h) d (VInt N z) /\ in_range T z /\ v0 = VInt N z)).
    { destruct (bp_default x) as [d|] eqn:DX.
      - destruct (D3 d eq_refl) as [AD NE]. destruct (SD d DX) as (c & DF). rewrite KO in DF. destruct DF as (z & EZ & RZ & ->).
        assert (KD : keeps_default h = true) by (clear - AD; destruct AD as [AD|AD]; destruct h; try discriminate AD; try destruct AD; reflexivity).
        assert (IT : init_text pa = Some d) by (unfold init_text, pa; cbn [pa_handler pa_default]; rewrite KD; reflexivity).
        assert (IO : is_optional pa = true) by (unfold is_optional, pa; cbn [pa_handler pa_default]; rewrite KD; cbn [nonempty_default]; apply String.eqb_neq in NE; rewrite NE; reflexivity).
        exists (VInt N z). split.
        + rewrite IT. unfold BasicHandlers.initial. rewrite EZ. cbn [coerce]. rewrite wrap_id; [reflexivity|lia|]. apply shape_range; assumption.
        + right. exists d, z. split; [reflexivity|]. split; [exact IO|]. split; [exists z; repeat split; try assumption; apply RZ|]. split; [exact RZ|reflexivity].
      - assert (IT : init_text pa = None) by (unfold init_text, pa; cbn [pa_handler pa_default]; destruct (keeps_default h); [reflexivity|destruct h; reflexivity]).
        exists (VJunk N). split; [rewrite IT; reflexivity|]. left. split; [reflexivity|]. split; [|reflexivity].
        unfold is_optional, pa. cbn [pa_handler pa_default nonempty_default]. apply andb_false_r. }
    destruct I0 as (v0 & HI & HO).
    exists [(n, (TInt sv, v0))]. eexists _, _, _, _, (TInt T).
    split. { intros e pd lg. rewrite HD. cbn [run_decls]. rewrite HR. fold pa. rewrite HI, CR. cbn [s_env s_pending s_log]. reflexivity. }
    split; [reflexivity|]. split; [exact HP|]. split; [destruct (bp_in x); reflexivity|]. split; [exact HB|]. split; [exact HC|].
    split; [exact HBu|]. split; [destruct (bp_out x); reflexivity|]. split; [exact VT|].
    (* passing, and what C++ leaves *)
    assert (Rest : forall w, w = VJunk N \/ (exists z, w = VInt N z) -> (w = VJunk N -> param_passing h <> ByValue) ->
      passes (eval := eval) (mk_pass (mk_arg (param_passing h) n) (TInt T) [(n, (TInt sv, w))] (match w with VInt _ z => VInt N (wrap T z) | _ => VJunk N end)) /\
      forall out, (by_reference (bp_handler x) = true -> typed p (kind_of x) out) ->
        exists E3, leaves (mk_leave (mk_arg (param_passing h) n) out [(n, (TInt sv, w))] E3) /\
          (bp_out x = true -> exists b, (if bp_out x then [({| be_unit := s_unit (shape_of p h); be_exp := BInt (Var n) |}, false)] else []) = [(b, false)] /\ build_unit N p b E3 = Some (shown out, []) /\ In (bent_var b) (dom E3))).
    { intros w WW WJ. split.
      - split; cbn [ps_arg ps_env ps_type ps_value]; [destruct (param_passing h); names_in|].
        destruct (param_passing h) eqn:PP; cbn [mk_arg pass_arg run_exp]; look.
        + destruct WW as [->|(z & ->)]; [exfalso; apply WJ; reflexivity|]. reflexivity.
        + cbn [same_layout]. rewrite SZ2. destruct WW as [->|(z & ->)]; reflexivity.
        + cbn [same_layout]. rewrite SZ2. destruct WW as [->|(z & ->)]; reflexivity.
      - intros out TO. assert (BI : bp_out x = true -> bidirectional h = true) by (intros O; destruct DI as [DI|[_ DI]]; [exact DI|congruence]).
        rewrite HH, KO in TO. cbn [by_reference typed] in TO.
        destruct (param_passing h) eqn:PP.
        + eexists. split; [split; [names_in|reflexivity]|]. intros O. exfalso. apply BI in O. clear - O PP. destruct h; discriminate.
        + destruct (TO eq_refl) as (z & -> & RZ). fold T in RZ. assert (ST : sv = T) by (apply ref_type; rewrite PP; discriminate).
          exists [(n, (TInt sv, VInt N z))]. split.
          * split; [names_in|]. cbn [mk_arg lv_arg lv_out lv_before lv_after leave_args]. look. rewrite ST, wrap_id; [reflexivity|lia|exact RZ].
          * intros O. rewrite O. eexists. split; [reflexivity|]. split; [|cbn; tauto]. unfold build_unit. cbn [be_exp be_unit bexpr_var]. look.
            assert (Q := output_parameter_ok p h (bp_ctype x) z V C (BI O) RZ). unfold output_parameter, built in Q.
            assert (Q2 := value_type_ok p pa DE). cbn [pa pa_handler pa_ctype] in Q2. rewrite Q2 in Q. rewrite ST. fold T in Q.
            assert (Q3 : build_one p T z (s_unit (shape_of p h)) (Var n) = Passed z) by (clear - Q O BI; specialize (BI O); destruct h; try discriminate BI; exact Q).
            rewrite Q3. reflexivity.
        + destruct (TO eq_refl) as (z & -> & RZ). fold T in RZ. assert (ST : sv = T) by (apply ref_type; rewrite PP; discriminate).
          exists [(n, (TInt sv, VInt N z))]. split.
          * split; [names_in|]. cbn [mk_arg lv_arg lv_out lv_before lv_after leave_args]. look. rewrite ST, wrap_id; [reflexivity|lia|exact RZ].
          * intros O. rewrite O. eexists. split; [reflexivity|]. split; [|cbn; tauto]. unfold build_unit. cbn [be_exp be_unit bexpr_var]. look.
            assert (Q := output_parameter_ok p h (bp_ctype x) z V C (BI O) RZ). unfold output_parameter, built in Q.
            assert (Q2 := value_type_ok p pa DE). cbn [pa pa_handler pa_ctype] in Q2. rewrite Q2 in Q. rewrite ST. fold T in Q.
            assert (Q3 : build_one p T z (s_unit (shape_of p h)) (Var n) = Passed z) by (clear - Q O BI; specialize (BI O); destruct h; try discriminate BI; exact Q).
            rewrite Q3. reflexivity. }
    (* the range check *)
    assert (Checks : forall y, check_any [(n, (sv, Some y))] (named_checks n (s_checks (shape_of p h))) = Some false ->
      goes (run_stm N eval) stm_vars (mk_part (match s_checks (shape_of p h) with [] => [] | cs => [SCheck (named_checks n cs)] end) [(n, (TInt sv, VInt N y))] [(n, (TInt sv, VInt N y))] false [])).
    { intros y Q. destruct (s_checks (shape_of p h)) as [|c cs] eqn:CS; [apply go_none|]. apply go_one.
      - intros m I. cbn [stm_vars] in I. apply in_map_iff in I as (q & <- & I). unfold named_checks in I. apply in_map_iff in I as (q' & <- & I). left. reflexivity.
      - step1. unfold run_stm. cbn [s_env]. rewrite checks_same, Q. rewrite ?orb_false_r, ?app_nil_r. reflexivity. }
    unfold fate. rewrite TK. destruct a as [a|].
    - assert (HIn : bp_in x = true) by (apply IA; discriminate). rewrite HIn. cbn [arg_list combine]. fold pa. destruct a as [v|].
      + destruct (as_int_cases v) as [(z & IZ & AZ)|[NI AZ]].
        * assert (SP := single_ok p (fun _ => 0) pa z V). cbn [pa pa_handler] in SP. fold T in SP.
          unfold single, parse_slot, IntProofs.initial in SP. cbn [pa_handler pa_name fst snd pa] in SP. fold sv in SP.
          destruct (parse_unit p (s_unit (shape_of p h)) (PyInt z)) as [st y|e|] eqn:PU.
          -- destruct (bits sv =? bits st) eqn:BS; [|destruct SP as [(_ & y' & _ & X)|(_ & X)]; discriminate X].
             cbn [obind] in SP. right. exists [(n, (TInt sv, VInt N (wrap sv y)))]. split.
             { apply go_one; [names_in|]. step1. unfold parse_item, parse_entry. cbn [fst snd pents pe_unit pe_vars]. unfold sv. rewrite parse_int, AZ, PU. fold sv. rewrite BS, ?orb_false_r. reflexivity. }
             unfold check_slot in SP. cbn [pa_name pa_handler pa fst snd obind] in SP.
             assert (CA : exists r, check_any [(n, (sv, Some (wrap sv y)))] (named_checks n (s_checks (shape_of p h))) = r) by (eexists; reflexivity). destruct CA as (r & CA).
             match type of SP with context [match ?q with _ => _ end] => change q with (check_any [(n, (sv, Some (wrap sv y)))] (named_checks n (s_checks (shape_of p h)))) in SP end.
             rewrite CA in SP. destruct r as [[|]|].
             ++ cbn [obind] in SP. destruct SP as [(_ & y' & _ & X)|(NA & X)]; [discriminate X|]. left. exists (Some v). split; [reflexivity|].
                split; [unfold arg_out_of_range; rewrite KO; exists z; split; [exact IZ|]; split; [exact NA|]; congruence|].
                destruct (s_checks (shape_of p h)) as [|c cs] eqn:CS; [discriminate CA|]. apply stop_one.
                ** intros m I. cbn [stm_vars] in I. apply in_map_iff in I as (q & <- & I). unfold named_checks in I. apply in_map_iff in I as (q' & <- & I). left. reflexivity.
                ** step1. unfold run_stm. cbn [s_env]. rewrite checks_same, CA. reflexivity.
             ++ cbn [obind] in SP. unfold pass_slot in SP. cbn [fst snd pa_handler pa] in SP. fold T in SP. rewrite SZ2 in SP. cbn [obind] in SP.
                destruct SP as [(AC & y' & WR & X)|(_ & X)]; [|discriminate X]. injection X as X. right.
                exists [(n, (TInt sv, VInt N (wrap sv y)))], (VInt N (wrap T (wrap sv y))), false. split; [apply Checks; exact CA|].
                split. { left. split; [|reflexivity]. unfold gets, arg_arrives. cbn [fst snd]. rewrite KO. exists z, y'. split; [exact IZ|]. split; [exact AC|]. split; [exact WR|]. rewrite X. reflexivity. }
                apply (Rest (VInt N (wrap sv y))); [right; eexists; reflexivity|discriminate].
             ++ cbn [obind] in SP. destruct SP as [(_ & y' & _ & X)|(_ & X)]; discriminate X.
          -- cbn [obind] in SP. destruct SP as [(_ & y' & _ & X)|(NA & X)]; [discriminate X|]. assert (EO := overflow_only _ _ _ V PU). subst e.
             left. exists (Some v), OverflowErr. split; [reflexivity|].
             split; [unfold arg_refused; rewrite KO; right; exists z; split; [exact IZ|]; split; [exact NA|]; split; congruence|].
             apply stop_one; [names_in|]. step1. unfold parse_item, parse_entry. cbn [fst snd pents pe_unit pe_vars]. unfold sv. rewrite parse_int, AZ, PU. reflexivity.
          -- cbn [obind] in SP. destruct SP as [(_ & y' & _ & X)|(_ & X)]; discriminate X.
        * left. exists (Some v), TypeErr. split; [reflexivity|]. split; [unfold arg_refused; rewrite KO; left; split; [exact NI|reflexivity]|].
          apply stop_one; [names_in|]. step1. unfold parse_item, parse_entry. cbn [fst snd pents pe_unit pe_vars]. unfold sv. rewrite parse_int, AZ. reflexivity.
      + destruct HO as [(DN & IO & ->)|(d & z & DX & IO & DF & RZ & ->)].
        * left. exists None, TypeErr. split; [reflexivity|]. split; [split; [exact DN|reflexivity]|]. apply stop_one; [names_in|]. step1. unfold parse_item, parse_entry. cbn [fst snd pents pe_optional]. rewrite IO. reflexivity.
        * right. exists [(n, (TInt sv, VInt N z))]. split; [apply go_one; [names_in|]; step1; unfold parse_item, parse_entry; cbn [fst snd pents pe_optional]; rewrite IO, ?orb_false_r; reflexivity|].
          right. exists [(n, (TInt sv, VInt N z))], (VInt N z), false. split.
          { apply Checks. assert (CK := check_range p pa z V RZ). unfold check_slot in CK. cbn [pa pa_name pa_handler] in CK. fold sv in CK.
            destruct (check_any _ _) as [[|]|]; first [reflexivity|discriminate CK]. }
          split. { left. split; [|reflexivity]. exists d. split; [exact DX|]. cbn [fst snd]. rewrite KO. exact DF. }
          assert (RR := Rest (VInt N z) (or_intror (ex_intro _ z eq_refl)) ltac:(discriminate)). cbv beta iota in RR. rewrite wrap_id in RR; [exact RR|lia|exact RZ].
    - assert (HIn : bp_in x = false) by (destruct (bp_in x); [exfalso; apply IA; reflexivity|reflexivity]). rewrite HIn. cbn [arg_list combine].
      assert (BI : bidirectional h = true) by (destruct DI as [DI|[DI _]]; [exact DI|congruence]).
      assert (NV : param_passing h <> ByValue) by (clear - BI; destruct h; discriminate).
      assert (CS : s_checks (shape_of p h) = []) by (clear - BI; destruct h; first [discriminate BI|reflexivity]).
      right. eexists. split; [apply go_none|]. right. rewrite CS.
      destruct HO as [(DN & IO & ->)|(d & z & DX & IO & DF & RZ & ->)].
      + eexists _, (VJunk N), false. split; [apply go_none|]. split; [left; split; [|reflexivity]; unfold gets; cbn [fst snd]; rewrite KO; reflexivity|].
        apply (Rest (VJunk N)); [left; reflexivity|intros _; exact NV].
      + exfalso. destruct (D3 d DX) as [AD _]. clear - AD BI. destruct AD as [AD|AD]; destruct h; try discriminate AD; try destruct AD; discriminate BI.
  Qed.

  Theorem handler_local h : valid_platform p -> is_local h.
  Proof.
    intros V. destruct h.
    - apply int_local. exact V.
    - apply bool_local.
    - apply (boolref_local HBoolPtr AAddr). left. split; reflexivity.
    - apply (boolref_local HBoolRef ARef). right. split; reflexivity.
    - apply double_local. - apply doubleptr_local. - apply doubleref_local. - apply float_local. - apply floatptr_local. - apply floatref_local.
    - apply cstring_local. - apply char_local. - apply string_local. - apply stringref_local. - apply stringptr_local. - apply object_local.
  Qed.
End Ints.
