From Verif.Model Require Import Py CodeBlock Params MiniC ForwardWrapper IntHandlers.
From Verif.Spec Require Import HandlerSpec IntSpec.
From Verif.Proofs Require Import IntProofs.
From Coq Require Import ZArith Lia.
Open Scope string_scope.
Open Scope list_scope.
Local Open Scope Z_scope.

Lemma param_ok p eval x z : valid_platform p -> declared x ->
  converts (param_accepts p (pa_handler x)) (param_type p (pa_handler x)) (param_error (pa_handler x)) (fun y => [y]) (call_function p eval [x] [Some (PyInt z)]) z.
Proof. intros V D. rewrite call_single by exact D. apply single_ok. exact V. Qed.
Lemma param_other p eval x : declared x -> call_function p eval [x] [Some PyOther] = Rejected TypeE.
Proof. intros D. rewrite call_single by exact D. reflexivity. Qed.
Lemma param_missing p eval x : declared x -> pa_default x = None -> call_function p eval [x] [None] = Rejected TypeE.
Proof.
  intros D N. rewrite call_single by exact D. unfold single, parse_slot, is_optional. rewrite N. cbn [nonempty_default]. rewrite andb_false_r. reflexivity.
Qed.
Lemma shape_range p h z : valid_platform p -> in_range (param_type p h) z -> in_range (s_var (shape_of p h)) z.
Proof.
  intros [[V|V] [W|W]]; destruct h; cbn [shape_of s_var]; intros R; try exact R;
    unfold in_range, lowest, highest in *; cbn [param_type is_signed bits sint ullong] in *; rewrite ?W in R; cbn in *; lia.
Qed.
Lemma check_range p x z : valid_platform p -> in_range (param_type p (pa_handler x)) z -> check_slot p x (s_var (shape_of p (pa_handler x)), Some z) = Passed tt.
Proof.
  intros V R. unfold check_slot. destruct (pa_handler x) eqn:H; cbn [shape_of s_checks s_var]; try reflexivity;
    cbn [param_type] in R; unfold in_range, lowest, highest in R; cbn [is_signed bits] in R.
  all: change (2 ^ (16 - 1)) with 32768 in R || change (2 ^ 16) with 65536 in R || change (2 ^ (8 - 1)) with 128 in R || change (2 ^ 8) with 256 in R.
  - rewrite (check_greater _ _ _ _ 65535) by reflexivity. destruct (Z.ltb_spec 65535 z); [lia|reflexivity].
  - rewrite (check_greater _ _ _ _ 32767) by reflexivity. destruct (Z.ltb_spec 32767 z); [lia|reflexivity].
  - rewrite (check_greater _ _ _ _ 255) by reflexivity. destruct (Z.ltb_spec 255 z); [lia|reflexivity].
  - rewrite (check_greater _ _ _ _ 127) by reflexivity. destruct (Z.ltb_spec 127 z); [lia|reflexivity].
Qed.
Lemma default_ok p eval x z : valid_platform p -> declared x -> allows_default (pa_handler x) -> given_default eval x z -> in_range (param_type p (pa_handler x)) z ->
  call_function p eval [x] [None] = Passed [z].
Proof.
  intros V D A (s & N & S' & E') R. rewrite call_single by exact D.
  assert (K : keeps_default (pa_handler x) = true). { destruct A as [A|A]; destruct (pa_handler x); cbn in *; try reflexivity; try discriminate; destruct A. }
  unfold single, parse_slot, is_optional. rewrite K, N. cbn [nonempty_default andb]. apply String.eqb_neq in S'. rewrite S'. cbn [negb obind].
  assert (R' := shape_range p _ z V R). destruct (sizes p (pa_handler x) V) as [S1 S2].
  assert (I' : initial p eval x = (s_var (shape_of p (pa_handler x)), Some z)).
  { unfold initial, init_text. rewrite K, N, E'. rewrite wrap_id; [reflexivity|lia|exact R']. }
  rewrite I', (check_range p x z V R). cbn [obind]. unfold pass_slot. cbn [fst snd]. rewrite S2. cbn [obind]. rewrite wrap_id by (try lia; exact R). reflexivity.
Qed.

(** ** Several parameters *)
Definition good (p : platform) (x : param) (a : option pyvalue) (s : slot) : Prop :=
  (exists e, parse_slot p x a s = Rejected e /\ e <> ValueE) \/
  exists s', parse_slot p x a s = Passed s' /\
    (check_slot p x s' = Rejected ValueE \/ check_slot p x s' = Passed tt /\ exists z, pass_slot p x s' = Passed z).
Lemma slot_good p x t z : valid_platform p -> t = s_var (shape_of p (pa_handler x)) ->
  check_slot p x (t, Some z) = Rejected ValueE \/ check_slot p x (t, Some z) = Passed tt /\ exists y, pass_slot p x (t, Some z) = Passed y.
Proof.
  intros V ->. destruct (sizes p (pa_handler x) V) as [S1 S2].
  assert (P : exists y, pass_slot p x (s_var (shape_of p (pa_handler x)), Some z) = Passed y).
  { unfold pass_slot. cbn [fst snd]. rewrite S2. eexists. reflexivity. }
  unfold check_slot. destruct (pa_handler x) eqn:H; cbn [shape_of s_checks]; try (right; split; [reflexivity|exact P]);
    erewrite check_greater by reflexivity;
    (match goal with |- context [?k <? z] => destruct (k <? z) end; [left; reflexivity|right; split; [reflexivity|exact P]]).
Qed.
Lemma initial_good p eval x a : valid_platform p -> good p x a (initial p eval x).
Proof.
  intros V. unfold good. destruct a as [[z|]|].
  - unfold parse_slot. rewrite (unit_ok p _ z V).
    assert (U : forall st y, bits (s_var (shape_of p (pa_handler x))) = bits st -> exists s',
      (if bits (fst (initial p eval x)) =? bits st then Passed (fst (initial p eval x), Some (wrap (fst (initial p eval x)) y)) else Undefined) = Passed s' /\
      (check_slot p x s' = Rejected ValueE \/ check_slot p x s' = Passed tt /\ exists z0, pass_slot p x s' = Passed z0)).
    { intros st y B. eexists. cbn [initial fst]. apply Z.eqb_eq in B. rewrite B. split; [reflexivity|]. apply slot_good; [exact V|reflexivity]. }
    assert (Q : (exists e, unit_result p (s_unit (shape_of p (pa_handler x))) z = Failed e /\ e <> ValueE) \/
                exists st y, unit_result p (s_unit (shape_of p (pa_handler x))) z = Stored st y /\ bits (s_var (shape_of p (pa_handler x))) = bits st).
    { destruct (pa_handler x); cbn [shape_of s_unit s_var param_type]; unfold unit_result; cbn [String.eqb Ascii.eqb Bool.eqb];
        first [right; eexists; eexists; split; reflexivity
              |match goal with |- context [if ?b then Stored _ _ else _] => destruct b end; [right; eexists; eexists; split; reflexivity|left; eexists; split; [reflexivity|discriminate]]]. }
    destruct Q as [(e & Q & N)|(st & y & Q & B)]; rewrite Q.
    + left. exists e. split; [reflexivity|exact N].
    + right. exact (U st y B).
  - left. exists TypeE. split; [reflexivity|discriminate].
  - unfold parse_slot. destruct (is_optional x) eqn:O; [|left; exists TypeE; split; [reflexivity|discriminate]].
    right. exists (initial p eval x). split; [reflexivity|]. unfold is_optional in O. apply andb_true_iff in O as [K N].
    unfold initial at 1 2 3. unfold init_text. rewrite K. destruct (pa_default x) as [d|]; [|discriminate]. apply slot_good; [exact V|reflexivity].
Qed.

Lemma combine_slots p eval : valid_platform p -> forall ps args, Forall declared ps -> length ps = length args ->
  let run := parse_slots p (map (fun x => (x, initial p eval x)) ps) args in
  match run with
  | Passed l => parse_failure (alone p eval ps args) = None /\ obind (check_slots p l) (fun _ => pass_slots p l) = together (alone p eval ps args) /\
                (together (alone p eval ps args) = Rejected ValueE /\ check_slots p l = Rejected ValueE \/ check_slots p l = Passed tt /\ exists zs, pass_slots p l = Passed zs)
  | Rejected e => parse_failure (alone p eval ps args) = Some e
  | Undefined => False
  end.
Proof.
  intros V. induction ps as [|x ps IH]; intros [|a args] D L; cbn [length] in L; try discriminate.
  - cbn. split; [reflexivity|]. split; [reflexivity|]. right. split; [reflexivity|]. exists []. reflexivity.
  - inversion D as [|? ? D1 D2]; subst. specialize (IH args D2 ltac:(lia)). cbv zeta in *. cbn [map parse_slots alone]. rewrite call_single by exact D1. unfold single.
    destruct (initial_good p eval x a V) as [(e & P & N)|(s' & P & C)]; rewrite P; cbn [obind].
    + destruct e; [reflexivity|reflexivity|congruence].
    + destruct (parse_slots p (map (fun x0 => (x0, initial p eval x0)) ps) args) as [l|e|]; cbn [obind]; [|destruct C as [C|(C & z & Z')]; rewrite C; cbn [obind]; [exact IH|rewrite Z'; cbn [obind]; exact IH]|exact IH].
      destruct IH as (I1 & I2 & I3). cbn [check_slots pass_slots]. destruct C as [C|(C & z & Z')]; rewrite C; cbn [obind].
      * cbn [parse_failure together obind]. split; [exact I1|]. split; [reflexivity|]. left. split; reflexivity.
      * rewrite Z'. cbn [obind parse_failure together]. split; [exact I1|]. rewrite <- I2. destruct I3 as [[I3 I4]|(I3 & zs & I4)].
        -- rewrite I4. cbn [obind]. split; [reflexivity|]. left. split; reflexivity.
        -- rewrite I3. cbn [obind]. rewrite I4. cbn [obind app]. split; [reflexivity|]. right. split; [reflexivity|]. exists (z :: zs). reflexivity.
Qed.
Lemma combined_ok p eval ps args : valid_platform p -> Forall declared ps -> NoDup (map pa_name ps) -> length ps = length args ->
  call_function p eval ps args = combined (alone p eval ps args).
Proof.
  intros V D N L. rewrite call_slots by assumption. assert (H := combine_slots p eval V ps args D L). cbv zeta in H. unfold combined.
  destruct (parse_slots p _ args) as [l|e|]; cbn [obind]; [|rewrite H; reflexivity|destruct H]. destruct H as (H1 & H2 & _). rewrite H1. exact H2.
Qed.

(** ** Return values *)
Lemma return_type_ok p h c : In c (return_ctypes h) -> c_type p c = Some (return_type p h).
Proof. destruct h; cbn [return_ctypes In]; intros I'; repeat (destruct I' as [<-|I']; [reflexivity|]); destruct I'. Qed.
Lemma return_bits p h : valid_platform p -> 0 < bits (return_type p h) <= 64.
Proof. intros [[V|V] [W|W]]; destruct h; cbn [return_type bits]; rewrite ?V, ?W; lia. Qed.

Lemma return_direct_masked p h c st z : valid_platform p -> In c (return_ctypes h) -> bits (return_type p h) = bits st ->
  (exists u, return_to_c h "retval" "tmp" = [IParse u "retval" false true] /\ parse_unit p u (PyInt z) = Stored st (wrap st z)) ->
  override_returns p (fun _ => 0) h c (PyInt z) = Passed (wrap (return_type p h) z).
Proof.
  intros V I' B (u & C & P). unfold override_returns. rewrite (return_type_ok p h c I'), C. cbn [declare_all obind parse_all parse_one].
  rewrite P. unfold store. cbn [get]. rewrite String.eqb_refl. assert (B' := B). apply Z.eqb_eq in B'. rewrite B'. cbn [obind put]. rewrite String.eqb_refl.
  change (Passed (wrap (return_type p h) (wrap st z)) = Passed (wrap (return_type p h) z)). f_equal. apply wrap_wrap. rewrite <- B. assert (X := return_bits p h V). lia.
Qed.
Lemma return_direct_ranged p h c st z (b : bool) : valid_platform p -> In c (return_ctypes h) -> bits (return_type p h) = bits st ->
  (exists u, return_to_c h "retval" "tmp" = [IParse u "retval" false true] /\ parse_unit p u (PyInt z) = if b then Stored st z else Failed OverflowE) ->
  override_returns p (fun _ => 0) h c (PyInt z) = if b then Passed (wrap (return_type p h) z) else Rejected OverflowE.
Proof.
  intros V I' B (u & C & P). unfold override_returns. rewrite (return_type_ok p h c I'), C. cbn [declare_all obind parse_all parse_one].
  rewrite P. destruct b; [|reflexivity]. unfold store. cbn [get]. rewrite String.eqb_refl. assert (B' := B). apply Z.eqb_eq in B'. rewrite B'. cbn [obind put]. rewrite String.eqb_refl.
  reflexivity.
Qed.
Lemma return_via p h c cs z (f : bool) : valid_platform p -> In c (return_ctypes h) -> bits (return_type p h) <= 32 ->
  return_to_c h "retval" "tmp" = [IDeclare "int" "tmp" None; IParse "i" "tmp" false true; ICheck After cs; IStore "retval" "tmp"] ->
  (fits_int z = true -> check_any [("retval", (return_type p h, None)); ("tmp", (sint, Some z))] cs = Some f) ->
  override_returns p (fun _ => 0) h c (PyInt z) = if fits_int z then if f then Rejected ValueE else Passed (wrap (return_type p h) z) else Rejected OverflowE.
Proof.
  intros V I' B C K. unfold override_returns. rewrite (return_type_ok p h c I'), C. cbn [declare_all]. change (c_type p "int") with (Some sint).
  cbn [declare_all obind parse_all parse_one app].
  assert (P : parse_unit p "i" (PyInt z) = if fits_int z then Stored sint z else Failed OverflowE).
  { replace (fits_int z) with ((-2147483648 <=? z) && (z <=? 2147483647)); [exact (unit_ok p "i" z V)|].
    unfold fits_int, int_min. change (2 ^ 31) with 2147483648. f_equal. destruct (Z.ltb_spec z 2147483648), (Z.leb_spec z 2147483647); lia. }
  rewrite P. destruct (fits_int z) eqn:F; [|reflexivity].
  assert (W : wrap sint z = z).
  { apply wrap_id; [reflexivity|]. unfold fits_int, int_min in F. apply andb_true_iff in F as [F1 F2]. rewrite Z.leb_le in F1. rewrite Z.ltb_lt in F2.
    unfold in_range, lowest, highest, sint. cbn [is_signed bits]. change (2 ^ (32 - 1)) with (2 ^ 31). lia. }
  unfold store. cbn [get String.eqb Ascii.eqb Bool.eqb bits sint]. change (32 =? 32) with true. cbn [obind put String.eqb Ascii.eqb Bool.eqb]. rewrite W. cbn [check_all]. rewrite K by reflexivity.
  destruct f; reflexivity.
Qed.
Definition spec2 (p : platform) (h : return_handler) (o : outcome Z) (z : Z) : Prop :=
  converts (return_accepts p h) (return_type p h) (return_error h) (fun y => y) o z.
Lemma rspec_masked p h z : valid_platform p -> return_accepts p h z -> spec2 p h (Passed (wrap (return_type p h) z)) z.
Proof. intros V A. left. split; [exact A|]. exists (wrap (return_type p h) z). split; [apply wrap_wrapped; assert (X := return_bits p h V); lia|reflexivity]. Qed.
Lemma rspec_ranged p h z (b : bool) : valid_platform p -> (b = true <-> return_accepts p h z) -> return_error h z = OverflowE ->
  spec2 p h (if b then Passed (wrap (return_type p h) z) else Rejected OverflowE) z.
Proof.
  intros V A E'. destruct b.
  - apply rspec_masked; [exact V|]. apply A. reflexivity.
  - right. split; [|rewrite E'; reflexivity]. intros H. apply A in H. discriminate.
Qed.
Lemma rspec_via p h z (f : bool) : valid_platform p -> (return_accepts p h z <-> fits_int z = true /\ f = false) -> return_error h z = (if fits_int z then ValueE else OverflowE) ->
  spec2 p h (if fits_int z then if f then Rejected ValueE else Passed (wrap (return_type p h) z) else Rejected OverflowE) z.
Proof.
  intros V A E'. destruct (fits_int z) eqn:F; [destruct f|].
  - right. split; [rewrite A; intros [_ X]; discriminate|rewrite E'; reflexivity].
  - apply rspec_masked; [exact V|]. apply A. split; reflexivity.
  - right. split; [rewrite A; intros [X _]; discriminate|rewrite E'; reflexivity].
Qed.
Lemma fits_int_iff z : fits_int z = true <-> -2147483648 <= z < 2147483648.
Proof. unfold fits_int, int_min. change (2 ^ 31) with 2147483648. rewrite andb_true_iff, Z.leb_le, Z.ltb_lt. lia. Qed.
Lemma check_up s t z c k : constant c = Some k -> check_any [("retval", s); ("tmp", (t, Some z))] [("tmp", Greater, c)] = Some (k <? z).
Proof.
  intros K. cbn [check_any]. unfold check_one. cbn [fst snd get String.eqb Ascii.eqb Bool.eqb]. rewrite K. cbn [compare]. destruct (k <? z); reflexivity.
Qed.
Lemma check_both s t z c k d m : constant c = Some k -> constant d = Some m ->
  check_any [("retval", s); ("tmp", (t, Some z))] [("tmp", Greater, c); ("tmp", Less, d)] = Some ((k <? z) || (z <? m)).
Proof.
  intros K M. cbn [check_any]. unfold check_one. cbn [fst snd get String.eqb Ascii.eqb Bool.eqb]. rewrite K, M. cbn [compare].
  destruct (k <? z); [reflexivity|]. destruct (z <? m); reflexivity.
Qed.
Ltac direct u := eexists; split; [reflexivity|exact (unit_ok _ u _ ltac:(eassumption))].
Lemma return_ok p h c z : valid_platform p -> In c (return_ctypes h) -> spec2 p h (override_returns p (fun _ => 0) h c (PyInt z)) z.
Proof.
  intros V I'. destruct h.
  - rewrite (return_direct_ranged p _ c sint z _ V I' eq_refl ltac:(direct "i")). apply rspec_ranged; [exact V| |reflexivity]. rewrite interval.
    unfold return_accepts, in_range, lowest, highest. cbn [return_type is_signed bits]. change (2 ^ (32 - 1)) with 2147483648. lia.
  - rewrite (return_direct_masked p _ c uint z V I' eq_refl ltac:(direct "I")). apply rspec_masked; [exact V|exact I].
  - rewrite (return_via p UInt16Return c [("tmp", Greater, "0xffff")] z (65535 <? z) V I' ltac:(cbn; lia) eq_refl).
    2: { intros _. apply check_up. reflexivity. }
    apply rspec_via; [exact V| |reflexivity]. rewrite fits_int_iff, Z.ltb_ge. unfold return_accepts, int_min. change (2 ^ 31) with 2147483648. lia.
  - rewrite (return_via p Int16Return c [("tmp", Greater, "32767"); ("tmp", Less, "-32768")] z ((32767 <? z) || (z <? -32768)) V I' ltac:(cbn; lia) eq_refl).
    2: { intros _. apply check_both; reflexivity. }
    apply rspec_via; [exact V| |reflexivity]. rewrite fits_int_iff, orb_false_iff, !Z.ltb_ge. unfold return_accepts, in_range, lowest, highest. cbn [return_type is_signed bits].
    change (2 ^ (16 - 1)) with 32768. lia.
  - rewrite (return_via p UInt8Return c [("tmp", Greater, "0xff")] z (255 <? z) V I' ltac:(cbn; lia) eq_refl).
    2: { intros _. apply check_up. reflexivity. }
    apply rspec_via; [exact V| |reflexivity]. rewrite fits_int_iff, Z.ltb_ge. unfold return_accepts, int_min. change (2 ^ 31) with 2147483648. lia.
  - rewrite (return_via p Int8Return c [("tmp", Greater, "128"); ("tmp", Less, "-127")] z ((128 <? z) || (z <? -127)) V I' ltac:(cbn; lia) eq_refl).
    2: { intros _. apply check_both; reflexivity. }
    apply rspec_via; [exact V| |reflexivity]. rewrite fits_int_iff, orb_false_iff, !Z.ltb_ge. unfold return_accepts. lia.
  - rewrite (return_direct_masked p _ c ullong z V I' eq_refl ltac:(direct "K")). apply rspec_masked; [exact V|exact I].
  - rewrite (return_direct_masked p _ c (ulong p) z V I' eq_refl ltac:(direct "k")). apply rspec_masked; [exact V|exact I].
  - rewrite (return_direct_ranged p _ c (slong p) z _ V I' eq_refl ltac:(direct "l")). apply rspec_ranged; [exact V|apply fits_range|reflexivity].
  - assert (R : override_returns p (fun _ => 0) SizeTReturn c (PyInt z) = Passed (wrap (return_type p SizeTReturn) z)).
    { unfold override_returns. rewrite (return_type_ok p SizeTReturn c I'). unfold return_to_c. cbn [declare_all]. change (c_type p "unsigned PY_LONG_LONG") with (Some ullong).
      cbn [declare_all obind parse_all parse_one app]. rewrite (unit_ok p "K" z V). unfold unit_result. cbn [String.eqb Ascii.eqb Bool.eqb].
      unfold store. cbn [get String.eqb Ascii.eqb Bool.eqb bits ullong]. change (64 =? 64) with true. cbn [obind put String.eqb Ascii.eqb Bool.eqb check_all store_all get value_of].
      f_equal. assert (X := return_bits p SizeTReturn V). rewrite wrap_wrap by (cbn [bits ullong]; lia). apply wrap_wrap. cbn [bits ullong]. lia. }
    rewrite R. apply rspec_masked; [exact V|exact I].
  - rewrite (return_direct_ranged p _ c sllong z _ V I' eq_refl ltac:(direct "L")). apply rspec_ranged; [exact V|apply fits_range|reflexivity].
Qed.
Lemma return_other p h c : In c (return_ctypes h) -> override_returns p (fun _ => 0) h c PyOther = Rejected TypeE.
Proof. intros I'. unfold override_returns. rewrite (return_type_ok p h c I'). destruct h; reflexivity. Qed.
