(** C43: references to Python objects and strings created for C++, parameters and results of the basic types. *)
From Verif.Model Require Import Py IntHandlers Utf8 BasicHandlers.
From Verif.Spec Require Import IntSpec BasicSpec.
From Verif.Proofs Require BasicTop.
From Coq Require Import ZArith Lia.
Open Scope string_scope.
Open Scope list_scope.
Local Open Scope Z_scope.

(** A call takes one reference to each object given for a parameter whose ownership goes to C++, one to an object returned
    that stays C++'s, and no other; it creates one string for each std::string pointer whose ownership goes to C++. *)
Theorem C43_taken : forall (N : numerics) (p : platform) (eval : ctyp -> string -> cval N) r ps f args cs,
  wrappable p eval r ps -> typed_function p r ps f -> length args = inputs ps -> Forall2 (gets p eval) (deal ps args) cs ->
  exists res, call_wrapped N p eval r ps f args = Ok res /\
    re_log N res = flat_map created ps ++ flat_map taken (deal ps args) ++ borrowed r (fst (f cs)).
Proof. intros N p eval r ps f args cs W T L G. eexists. split; [exact (BasicTop.call_gets r ps f args cs W T L G)|reflexivity]. Qed.
Print Assumptions C43_taken.

(** A call refused while the arguments are parsed takes no reference. *)
Theorem C43_refused : forall (N : numerics) (p : platform) (eval : ctyp -> string -> cval N) r ps f args d1 x a d2 e,
  wrappable p eval r ps -> typed_function p r ps f -> length args = inputs ps ->
  deal ps args = d1 ++ (x, Some a) :: d2 -> parsed p d1 -> arg_refused p x a e ->
  exists res, call_wrapped N p eval r ps f args = Ok res /\ forall v, ~ In (EvIncref N v) (re_log N res).
Proof.
  intros N p eval r ps f args d1 x a d2 e W T L D P R. eexists. split; [exact (BasicTop.call_refused r ps f args d1 x a d2 e W T L D P R)|].
  intros v I. cbn in I. apply in_flat_map in I as (y & _ & I). unfold created in I. destruct (bp_handler y) as [ | | | | | | | | | | | | | |[|]|]; cbn in I; intuition discriminate.
Qed.
Print Assumptions C43_refused.

(** If no parameter gives an object or a string away and no borrowed object is returned, nothing is taken or created, whatever
    the outcome is. *)
Theorem C43_nothing : forall (N : numerics) (p : platform) (eval : ctyp -> string -> cval N) r ps f args,
  wrappable p eval r ps -> typed_function p r ps f -> length args = inputs ps ->
  (forall x, In x ps -> bp_handler x <> HPyObject true /\ bp_handler x <> HStdStringPtr true) -> r <> RPyObject false ->
  exists res, call_wrapped N p eval r ps f args = Ok res /\ re_log N res = [].
Proof. intros N p eval r ps f args. exact (BasicTop.call_nothing r ps f args). Qed.
Print Assumptions C43_nothing.

(** ** Examples *)
Definition exN : numerics := mk_numerics Z Z (fun d => d mod 1000) (fun f => f) (fun z => if Z.abs z <? 2 ^ 60 then Some z else None) (fun d => negb (d =? 0)).
Definition linux : platform := mk_platform 64 64.
Definition ex_eval (t : ctyp) (d : string) : cval exN := VJunk exN.
Ltac sound := split; [cbn; tauto|]; split; [cbn; tauto|]; split; [cbn; intros [H|H]; first [discriminate H|tauto|reflexivity]|]; intros d E; first [discriminate E|injection E as <-; split; [cbn; tauto|discriminate]].
Definition gives : list bparam :=
  [mk_bparam (HPyObject true) "PyObject*" "kept" None true false; mk_bparam (HPyObject false) "PyObject*" "seen" None true false;
   mk_bparam (HStdStringPtr true) "std::string*" "text" None true false; mk_bparam (HInt UInt8Param) "unsigned char" "n" None true false].
Definition ex_fun (cs : list (cval exN)) : option (cval exN) * list (cval exN) := (Some (VObject exN (Some (PNone exN))), [VJunk exN; VJunk exN; VString exN []; VJunk exN]).
Example ex_wrappable : wrappable linux ex_eval (RPyObject false) gives.
Proof.
  split; [split; right; reflexivity|]. split; [repeat (constructor; [sound|]); constructor|].
  split; [repeat constructor; intros d E; discriminate E|]. split; [exact Logic.I|]. left. cbn. repeat constructor; cbn; intuition discriminate.
Qed.
Example ex_typed : typed_function linux (RPyObject false) gives ex_fun.
Proof. intros cs _. split; [exact Logic.I|]. repeat constructor; cbn; try discriminate. intros _. eexists. reflexivity. Qed.
Example ex_call : call_wrapped exN linux ex_eval (RPyObject false) gives ex_fun [Some (PObj exN 1 None); Some (PObj exN 2 None); Some (PStr exN [65]); Some (PInt exN 3)] =
  Ok (mk_result exN (Some [VObject exN (Some (PObj exN 1 None)); VObject exN (Some (PObj exN 2 None)); VString exN [65]; VInt exN 3]) (Returns exN (PNone exN))
        [EvNew exN; EvIncref exN (PObj exN 1 None); EvIncref exN (PNone exN)]).
Proof. reflexivity. Qed.

(** ** What does not hold *)
(** A reference taken for C++ is not given back when a later argument is out of range and C++ is never called. *)
Theorem C43_range_refuted :
  call_wrapped exN linux ex_eval (RPyObject false) gives ex_fun [Some (PObj exN 1 None); Some (PObj exN 2 None); Some (PStr exN [65]); Some (PInt exN 256)] =
  Ok (mk_result exN None (Raises exN ValueErr) [EvNew exN; EvIncref exN (PObj exN 1 None)]).
Proof. reflexivity. Qed.
(** In general: whatever was taken for the parameters before the one out of range stays taken. *)
Theorem C43_leak_refuted : forall (N : numerics) (p : platform) (eval : ctyp -> string -> cval N) r ps f args d1 x a d2,
  wrappable p eval r ps -> typed_function p r ps f -> length args = inputs ps ->
  deal ps args = d1 ++ (x, Some a) :: d2 -> parsed p (deal ps args) -> inside p d1 -> arg_out_of_range p x a ->
  exists res, call_wrapped N p eval r ps f args = Ok res /\ re_called N res = None /\ re_log N res = flat_map created ps ++ flat_map taken d1.
Proof. intros N p eval r ps f args d1 x a d2 W T L D P I R. eexists. split; [exact (BasicTop.call_out_of_range r ps f args d1 x a d2 W T L D P I R)|]. split; reflexivity. Qed.
Print Assumptions C43_leak_refuted.
(** The string for a std::string pointer is created before the arguments are parsed, and never deleted when one is refused. *)
Theorem C43_string_refuted :
  call_wrapped exN linux ex_eval RVoid [mk_bparam (HStdStringPtr true) "std::string*" "text" None true false] (fun cs => (None, cs)) [Some (PInt exN 1)] =
  Ok (mk_result exN None (Raises exN TypeErr) [EvNew exN]).
Proof. reflexivity. Qed.
