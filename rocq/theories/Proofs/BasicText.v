(** Text, and functions that return what they were given. *)
From Verif.Model Require Import Py IntHandlers Utf8 BasicHandlers.
From Verif.Spec Require Import IntSpec BasicSpec.
From Verif.Proofs Require Import Utf8Proofs BasicTop.
From Coq Require Import ZArith Lia.
Open Scope string_scope.
Open Scope list_scope.
Local Open Scope Z_scope.

Theorem text_facts : (forall s, (exists b, encode s = Some b) <-> Forall (fun c => 0 <= c <= 0x10FFFF /\ ~ 0xD800 <= c <= 0xDFFF) s) /\
  (forall s b, encode s = Some b <-> decode b = Some s) /\ (forall s b, encode s = Some b -> Forall (fun x => 0 <= x < 256) b) /\
  (forall s, Forall (fun c => 0 <= c < 128) s -> encode s = Some s) /\
  (forall s s' b b', encode s = Some b -> encode s' = Some b' -> encode (s ++ s') = Some (b ++ b')).
Proof.
  split; [|split; [|split; [|split]]].
  - intros s. split.
    + intros (b & E). apply Forall_forall. intros c I. assert (~ (c < 0 \/ 0xD800 <= c <= 0xDFFF \/ 0x10FFFF < c)); [|lia].
      intros H. assert (X : encode s = None) by (apply encode_surrogate; exists c; split; assumption). congruence.
    + intros F. destruct (encode s) as [b|] eqn:E; [eexists; reflexivity|]. apply encode_surrogate in E as (c & I & H). rewrite Forall_forall in F. specialize (F c I). lia.
  - intros s b. split; [apply decode_encode|apply encode_decode].
  - apply encode_bytes.
  - induction 1 as [|c s H F IH]; [reflexivity|]. cbn [encode]. rewrite IH. unfold encode_one.
    destruct (Z.ltb_spec c 0); [lia|]. destruct (Z.leb_spec c 127); [reflexivity|lia].
  - induction s as [|c s IH]; intros s' b b' E E'; cbn [encode app] in *.
    + apply some_inj in E. subst b. exact E'.
    + destruct (encode_one c) as [x|]; [|discriminate]. destruct (encode s) as [y|]; [|discriminate]. apply some_inj in E. subst b. rewrite (IH s' y b' eq_refl E'), app_assoc. reflexivity.
Qed.

Section Echo.
  Context {N : numerics} (p : platform) (eval : ctyp -> string -> cval N).
  (** The function returns its argument. *)
  Definition first_of (cs : list (cval N)) : option (cval N) * list (cval N) := (match cs with c :: _ => Some c | [] => None end, cs).
  Lemma echo_call r x v c w : valid_platform p -> sound_param x -> bp_in x = true -> bp_out x = false -> bp_default x = None -> by_reference (bp_handler x) = false ->
    known_return r -> clear_names r [x] ->
    (forall c : cval N, receivable p x c -> typed_return p r (Some c)) -> arrives p (kind_of x) v c -> shown c = inl w -> created (N := N) x = [] ->
    call_wrapped N p eval r [x] first_of [Some v] = Ok (mk_result N (Some [c]) (Returns N w) (taken (x, Some (Some v)) ++ borrowed r (Some c))).
  Proof.
    intros V SP BI BO BD BR KR CN TR AR SH CR.
    assert (DL : deal [x] [Some v] = [(x, Some (Some v))]) by (cbn [deal]; rewrite BI; reflexivity).
    rewrite (call_gets r [x] first_of [Some v] [c]).
    - rewrite DL. cbn [flat_map]. rewrite CR. cbn [app first_of fst]. rewrite app_nil_r. do 2 f_equal. unfold final, returned_values, out_values, first_of. cbn [fst snd combine flat_map]. rewrite BO. cbn [app].
      destruct (comes_last r); cbn [app collect]; rewrite SH; reflexivity.
    - split; [exact V|]. split; [constructor; [exact SP|constructor]|]. split; [|split; assumption]. constructor; [|constructor]. intros d E. congruence.
    - intros cs F. inversion F as [|? c0 ? l R F']; subst. inversion F'; subst. unfold first_of. cbn [fst snd]. split; [apply TR; exact R|].
      constructor; [|constructor]. intros H. congruence.
    - unfold inputs. cbn [filter]. rewrite BI. reflexivity.
    - rewrite DL. constructor; [|constructor]. exact AR.
  Qed.

  Lemma echo_text name s b r : valid_platform p -> encode s = Some b -> r = RStdString \/ r = RStdStringRef ->
    let x := mk_bparam HStdString "std::string" name None true false in clear_names r [x] ->
    call_wrapped N p eval r [x] first_of [Some (PStr N s)] = Ok (mk_result N (Some [VString N b]) (Returns N (PStr N s)) []).
  Proof.
    intros V E R x CN. rewrite (echo_call r x (PStr N s) (VString N b) (PStr N s)); try assumption; try reflexivity.
    - destruct R as [->| ->]; reflexivity.
    - (split; [left; reflexivity|]; split; [left; reflexivity|]; split; [intros [H|H]; discriminate H|]; intros d0 E0; discriminate E0).
    - destruct R as [->| ->]; exact Logic.I.
    - intros c [(l & ->)|[H _]]; [|discriminate H]. destruct R as [->| ->]; exact Logic.I.
    - left. exists s, b. repeat split; exact E.
    - cbn [shown]. unfold text. rewrite (decode_encode _ _ E). reflexivity.
  Qed.
  Lemma echo_cstring name s b : valid_platform p -> encode s = Some b -> ~ In 0 s ->
    let x := mk_bparam HCString "char *" name None true false in clear_names RCString [x] ->
    call_wrapped N p eval RCString [x] first_of [Some (PStr N s)] = Ok (mk_result N (Some [VCStr N (Some b)]) (Returns N (PStr N s)) []).
  Proof.
    intros V E NZ x CN. rewrite (echo_call RCString x (PStr N s) (VCStr N (Some b)) (PStr N s)); try assumption; try reflexivity.
    - (split; [right; left; reflexivity|]; split; [left; reflexivity|]; split; [intros [H|H]; discriminate H|]; intros d0 E0; discriminate E0).
    - intros c [(l & ->)|[H _]]; [|discriminate H]. exact Logic.I.
    - exists s, b. repeat split; assumption.
    - cbn [shown]. unfold text. rewrite before_nul_c, c_string_no_nul; [rewrite (decode_encode _ _ E); reflexivity|]. rewrite (encode_nul _ _ E).
      destruct (existsb (Z.eqb 0) s) eqn:X; [|reflexivity]. apply existsb_exists in X as (z & IZ & EZ). apply Z.eqb_eq in EZ. subst z. contradiction.
  Qed.
  Ltac side := (split; [left; reflexivity|]; split; [left; reflexivity|]; split; [intros [H|H]; discriminate H|]; intros d0 E0; discriminate E0).
  Lemma echo_double name d : valid_platform p -> let x := mk_bparam HDouble "double" name None true false in clear_names RDouble [x] ->
    call_wrapped N p eval RDouble [x] first_of [Some (PFloat N d)] = Ok (mk_result N (Some [VDouble N d]) (Returns N (PFloat N d)) []).
  Proof.
    intros V x CN. rewrite (echo_call RDouble x (PFloat N d) (VDouble N d) (PFloat N d)); try assumption; try reflexivity; [side| |].
    - intros c [(l & ->)|[H _]]; [|discriminate H]. exact Logic.I.
    - exists d. split; [left|]; reflexivity.
  Qed.
  Lemma echo_float name d : valid_platform p -> let x := mk_bparam HFloat "float" name None true false in clear_names RFloat [x] ->
    call_wrapped N p eval RFloat [x] first_of [Some (PFloat N d)] = Ok (mk_result N (Some [VSingle N (narrow N d)]) (Returns N (PFloat N (widen N (narrow N d)))) []).
  Proof.
    intros V x CN. rewrite (echo_call RFloat x (PFloat N d) (VSingle N (narrow N d)) (PFloat N (widen N (narrow N d)))); try assumption; try reflexivity; [side| |].
    - intros c [(l & ->)|[H _]]; [|discriminate H]. exact Logic.I.
    - exists d. split; [left|]; reflexivity.
  Qed.
  Lemma echo_bool name v b : valid_platform p -> truth N v = Some b -> let x := mk_bparam HBool "bool" name None true false in clear_names RBool [x] ->
    call_wrapped N p eval RBool [x] first_of [Some v] = Ok (mk_result N (Some [VBool N b]) (Returns N (PBool N b)) []).
  Proof.
    intros V T x CN. rewrite (echo_call RBool x v (VBool N b) (PBool N b)); try assumption; try reflexivity; [side| |].
    - intros c [(l & ->)|[H _]]; [|discriminate H]. exact Logic.I.
    - exists b. split; [exact T|reflexivity].
  Qed.
  Lemma echo_char name a : valid_platform p -> 0 <= a < 256 -> let x := mk_bparam HChar "char" name None true false in clear_names RChar [x] ->
    call_wrapped N p eval RChar [x] first_of [Some (PBytes N [a])] = Ok (mk_result N (Some [VChar N a]) (Returns N (PBytes N [a])) []).
  Proof.
    intros V R x CN. rewrite (echo_call RChar x (PBytes N [a]) (VChar N a) (PBytes N [a])); try assumption; try reflexivity; [side| | |].
    - intros c [(l & ->)|[H _]]; [|discriminate H]. exact Logic.I.
    - exists a. split; reflexivity.
    - cbn [shown]. rewrite Z.mod_small by exact R. reflexivity.
  Qed.
  Lemma echo_object name v owned : valid_platform p -> let x := mk_bparam (HPyObject false) "PyObject*" name None true false in clear_names (RPyObject owned) [x] ->
    call_wrapped N p eval (RPyObject owned) [x] first_of [Some v] = Ok (mk_result N (Some [VObject N (Some v)]) (Returns N v) (if owned then [] else [EvIncref N v])).
  Proof.
    intros V x CN. rewrite (echo_call (RPyObject owned) x v (VObject N (Some v)) v); try assumption; try reflexivity; [side|].
    intros c [(l & ->)|[H _]]; [|discriminate H]. exact Logic.I.
  Qed.
End Echo.
