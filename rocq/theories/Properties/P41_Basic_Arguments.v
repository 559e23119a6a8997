(** C41: arguments of the basic types. *)
From Verif.Model Require Import Py IntHandlers Utf8 BasicHandlers.
From Verif.Spec Require Import IntSpec BasicSpec.
From Verif.Proofs Require BasicTop Utf8Proofs.
From Coq Require Import ZArith Lia.
Open Scope string_scope.
Open Scope list_scope.
Local Open Scope Z_scope.

(** Every argument that has a C++ value arrives as that value, in the order of the parameters. *)
Theorem C41_arrive : forall (N : numerics) (p : platform) (eval : ctyp -> string -> cval N) r ps f args cs,
  wrappable p eval r ps -> typed_function p r ps f -> length args = inputs ps ->
  Forall2 (gets p eval) (deal ps args) cs ->
  exists res, call_wrapped N p eval r ps f args = Ok res /\ re_called N res = Some cs.
Proof. intros N p eval r ps f args cs W T L G. eexists. split; [exact (BasicTop.call_gets r ps f args cs W T L G)|reflexivity]. Qed.
Print Assumptions C41_arrive.

(** C++ is called with nothing else: each argument it receives is the value of what was given, except that an object whose
    truth cannot be told arrives as true. *)
Theorem C41_only : forall (N : numerics) (p : platform) (eval : ctyp -> string -> cval N) r ps f args res cs,
  wrappable p eval r ps -> typed_function p r ps f -> length args = inputs ps ->
  call_wrapped N p eval r ps f args = Ok res -> re_called N res = Some cs ->
  Forall2 (fun xa c => gets p eval xa c \/ (untold xa /\ c = VBool N true)) (deal ps args) cs.
Proof. intros N p eval r ps f args res cs. exact (BasicTop.call_only r ps f args res cs). Qed.
Print Assumptions C41_only.

(** The first argument refused by the parser decides the exception, and C++ is not called. *)
Theorem C41_refused : forall (N : numerics) (p : platform) (eval : ctyp -> string -> cval N) r ps f args d1 x a d2 e,
  wrappable p eval r ps -> typed_function p r ps f -> length args = inputs ps ->
  deal ps args = d1 ++ (x, Some a) :: d2 -> parsed p d1 -> arg_refused p x a e ->
  exists res, call_wrapped N p eval r ps f args = Ok res /\ re_called N res = None /\ re_answer N res = Raises N e.
Proof. intros N p eval r ps f args d1 x a d2 e W T L D P R. eexists. split; [exact (BasicTop.call_refused r ps f args d1 x a d2 e W T L D P R)|]. split; reflexivity. Qed.
Print Assumptions C41_refused.

(** When all are parsed, the first one out of the range its handler checks raises ValueError, and C++ is not called. *)
Theorem C41_out_of_range : forall (N : numerics) (p : platform) (eval : ctyp -> string -> cval N) r ps f args d1 x a d2,
  wrappable p eval r ps -> typed_function p r ps f -> length args = inputs ps ->
  deal ps args = d1 ++ (x, Some a) :: d2 -> parsed p (deal ps args) -> inside p d1 -> arg_out_of_range p x a ->
  exists res, call_wrapped N p eval r ps f args = Ok res /\ re_called N res = None /\ re_answer N res = Raises N ValueErr.
Proof. intros N p eval r ps f args d1 x a d2 W T L D P I R. eexists. split; [exact (BasicTop.call_out_of_range r ps f args d1 x a d2 W T L D P I R)|]. split; reflexivity. Qed.
Print Assumptions C41_out_of_range.

(** Whatever the arguments are, the wrapper is generated, and the call returns a value or raises: nothing undefined happens. *)
Theorem C41_defined : forall (N : numerics) (p : platform) (eval : ctyp -> string -> cval N) r ps f args,
  wrappable p eval r ps -> typed_function p r ps f -> length args = inputs ps ->
  exists res, call_wrapped N p eval r ps f args = Ok res /\ re_answer N res <> Undef N.
Proof. intros N p eval r ps f args. exact (BasicTop.call_defined r ps f args). Qed.
Print Assumptions C41_defined.

(** ** An example: int f(std::string name, bool flag = true, unsigned char level, int &count). *)
Definition exN : numerics := mk_numerics Z Z (fun d => d mod 1000) (fun f => f) (fun z => if Z.abs z <? 2 ^ 60 then Some z else None) (fun d => negb (d =? 0)).
Definition linux : platform := mk_platform 64 64.
Definition ex_eval (t : ctyp) (d : string) : cval exN :=
  match t with TInt _ => VInt exN 7 | TBool => VBool exN true | TDouble => VDouble exN 7 | TSingle => VSingle exN 7 | TChar => VChar exN 55
             | TCStr => VCStr exN (Some [55]) | TString => VString exN [55] | _ => VJunk exN end.
Definition ex_params : list bparam :=
  [mk_bparam HStdString "std::string" "name" None true false; mk_bparam HBool "bool" "flag" (Some "true") true false;
   mk_bparam (HInt UInt8Param) "unsigned char" "level" None true false; mk_bparam (HInt IntRefParam) "int&" "count" None true true].
Definition ex_ret : breturn := RInt IntReturn "int".
Definition ex_fun (cs : list (cval exN)) : option (cval exN) * list (cval exN) :=
  match cs with
  | [VString _ l; b; v; VInt _ n] => (Some (VInt exN 5), [VString exN l; b; v; VInt exN (-1)])
  | _ => (Some (VInt exN 0), [VJunk exN; VJunk exN; VJunk exN; VInt exN 0])
  end.
Definition ex_args : list (option (pyv exN)) := [Some (PStr exN [233]); None; Some (PInt exN 200); Some (PBool exN true)].
Ltac sound := split; [cbn; tauto|]; split; [cbn; tauto|]; split; [cbn; intros [H|H]; first [discriminate H|tauto|reflexivity]|]; intros d E; first [discriminate E|injection E as <-; split; [cbn; tauto|discriminate]].
Example ex_wrappable : wrappable linux ex_eval ex_ret ex_params.
Proof.
  split; [split; right; reflexivity|]. split.
  - repeat (constructor; [sound|]); constructor.
  - split.
    + repeat constructor; intros d E; try discriminate E. injection E as <-. exists (VBool exN true). cbn. exists true. split; reflexivity.
    + split; [left; reflexivity|]. left. cbn. repeat constructor; cbn; intuition discriminate.
Qed.
Example ex_typed : typed_function linux ex_ret ex_params ex_fun.
Proof.
  assert (Z0 : forall z, z = 5 \/ z = 0 \/ z = -1 -> in_range sint z) by (intros z H; unfold in_range, lowest; cbn; lia).
  assert (D : typed_return linux ex_ret (Some (VInt exN 0)) /\ typed_outs linux ex_params [VJunk exN; VJunk exN; VJunk exN; VInt exN 0]).
  { split; [split; [left; reflexivity|apply Z0; auto]|]. repeat constructor; cbn; try discriminate. intros _. exists 0. split; [reflexivity|apply Z0; auto]. }
  intros cs _. unfold ex_fun. destruct cs as [|[] [|b [|v [|[] [|]]]]]; try exact D.
  split; [split; [left; reflexivity|apply Z0; auto]|]. repeat constructor; cbn; try discriminate. intros _. exists (-1). split; [reflexivity|apply Z0; auto].
Qed.
Example ex_arrive : Forall2 (gets linux ex_eval) (deal ex_params ex_args) [VString exN [195; 169]; VBool exN true; VInt exN 200; VInt exN 1].
Proof.
  constructor; [|constructor; [|constructor; [|constructor; [|constructor]]]]; cbn.
  - left. exists [233], [195; 169]. repeat split; reflexivity.
  - exists "true". split; [reflexivity|]. exists true. split; reflexivity.
  - exists 200, 200. split; [left; reflexivity|]. split; [unfold param_accepts; cbn; lia|]. split; [|reflexivity]. split; [unfold in_range, lowest; cbn; lia|]. exists 0. reflexivity.
  - exists 1, 1. split; [right; exists true; split; reflexivity|]. split; [unfold param_accepts, in_range, lowest; cbn; lia|]. split; [|reflexivity].
    split; [unfold in_range, lowest; cbn; lia|]. exists 0. reflexivity.
Qed.
Example ex_call : call_wrapped exN linux ex_eval ex_ret ex_params ex_fun ex_args =
  Ok (mk_result exN (Some [VString exN [195; 169]; VBool exN true; VInt exN 200; VInt exN 1]) (Returns exN (PTuple exN [PInt exN 5; PInt exN (-1)])) []).
Proof. reflexivity. Qed.
(** 256 for an unsigned char is only noticed once "x" was refused for the int reference. *)
Example ex_refuse :
  call_wrapped exN linux ex_eval ex_ret ex_params ex_fun [Some (PBytes exN [255]); None; Some (PInt exN 256); Some (PStr exN [120])] = Ok (mk_result exN None (Raises exN TypeErr) []) /\
  call_wrapped exN linux ex_eval ex_ret ex_params ex_fun [Some (PBytes exN [255]); None; Some (PInt exN 256); Some (PInt exN 1)] = Ok (mk_result exN None (Raises exN ValueErr) []) /\
  call_wrapped exN linux ex_eval ex_ret ex_params ex_fun [Some (PStr exN [55296]); None; None; None] = Ok (mk_result exN None (Raises exN ValueErr) []).
Proof. repeat split; reflexivity. Qed.

(** ** What does not hold *)
(** An exception raised while the truth of an argument is asked for does not prevent the call: C++ is called with true, and the
    call then raises something else (SystemError, or the exception of a result that cannot be converted). *)
Theorem C41_truth_refuted : forall (N : numerics) (p : platform) (eval : ctyp -> string -> cval N) r ps f args cps,
  wrappable p eval r ps -> typed_function p r ps f -> length args = inputs ps ->
  Forall2 (fun xa cp => (gets p eval xa (fst cp) /\ snd cp = false) \/ (untold xa /\ fst cp = VBool N true /\ snd cp = true)) (deal ps args) cps -> existsb snd cps = true ->
  exists res, call_wrapped N p eval r ps f args = Ok res /\ re_called N res = Some (map fst cps) /\ forall v, re_answer N res <> Returns N v.
Proof. intros N p eval r ps f args cps. exact (BasicTop.call_untold r ps f args cps). Qed.
Print Assumptions C41_truth_refuted.
Example ex_truth : let ps := [mk_bparam HBool "bool" "x" None true false] in let f := fun cs : list (cval exN) => (None, cs) in
  call_wrapped exN linux ex_eval RVoid ps f [Some (PObj exN 3 None)] = Ok (mk_result exN (Some [VBool exN true]) (Raises exN SystemErr) []).
Proof. reflexivity. Qed.

(** The default value of a float parameter is ignored: the argument cannot be left out. *)
Theorem C41_float_default_refuted : forall d, let ps := [mk_bparam HFloat "float" "x" (Some d) true false] in
  forall f, call_wrapped exN linux ex_eval RVoid ps f [None] = Ok (mk_result exN None (Raises exN TypeErr) []).
Proof. reflexivity. Qed.

(** Parameters whose names differ from those of other variables only by digits at the end clash: the wrapper then declares
    two variables of the same name.  Here std::string x and int x_len, x_len2. *)
Definition clash : list bparam :=
  [mk_bparam HStdString "std::string" "x" None true false; mk_bparam (HInt IntParam) "int" "x_len" None true false; mk_bparam (HInt IntParam) "int" "x_len2" None true false].
Theorem C41_names_refuted : Forall sound_param clash /\ NoDup (map bp_name clash) /\
  exists w, generate RVoid clash = Ok w /\ ~ NoDup (map (fun d => snd (fst d)) (wr_decls w)).
Proof.
  split; [repeat (constructor; [sound|]); constructor|]. split; [repeat constructor; cbn; intuition discriminate|].
  eexists. split; [reflexivity|]. cbn. intros D. inversion D as [|? ? _ D1]. inversion D1 as [|? ? _ D2]. inversion D2 as [|? ? X _]. apply X. left. reflexivity.
Qed.
