(** C42: results of the basic types. *)
From Verif.Model Require Import Py IntHandlers Utf8 BasicHandlers.
From Verif.Spec Require Import IntSpec BasicSpec.
From Verif.Proofs Require BasicTop BasicText Utf8Proofs.
From Coq Require Import ZArith Lia.
Open Scope string_scope.
Open Scope list_scope.
Local Open Scope Z_scope.

(** What Python gets: the return value and what C++ left in the output parameters, converted; None, the value or a tuple; or
    the exception of the first that cannot be converted. *)
Theorem C42_results : forall (N : numerics) (p : platform) (eval : ctyp -> string -> cval N) r ps f args cs,
  wrappable p eval r ps -> typed_function p r ps f -> length args = inputs ps ->
  Forall2 (gets p eval) (deal ps args) cs ->
  exists res, call_wrapped N p eval r ps f args = Ok res /\ re_answer N res = final (returned_values r ps (f cs)).
Proof. intros N p eval r ps f args cs W T L G. eexists. split; [exact (BasicTop.call_gets r ps f args cs W T L G)|reflexivity]. Qed.
Print Assumptions C42_results.

(** Text: exactly the strings of Unicode scalar values have an encoding, it consists of bytes, it is the only one, and it is
    the text itself for ASCII. *)
Theorem C42_text : (forall s, (exists b, encode s = Some b) <-> Forall (fun c => 0 <= c <= 0x10FFFF /\ ~ 0xD800 <= c <= 0xDFFF) s) /\
  (forall s b, encode s = Some b <-> decode b = Some s) /\ (forall s b, encode s = Some b -> Forall (fun x => 0 <= x < 256) b) /\
  (forall s, Forall (fun c => 0 <= c < 128) s -> encode s = Some s) /\
  (forall s s' b b', encode s = Some b -> encode s' = Some b' -> encode (s ++ s') = Some (b ++ b')).
Proof. exact BasicText.text_facts. Qed.
Print Assumptions C42_text.

(** A C++ function that returns what it was given gives back to Python what it was called with: any text (also with NUL
    characters, unless it is a C string), any double, any char; the truth value of an object; and what a float keeps of a
    double. *)
Theorem C42_echo : forall (N : numerics) (p : platform) (eval : ctyp -> string -> cval N) name, valid_platform p ->
  let param h t := mk_bparam h t name None true false in
  let echo (cs : list (cval N)) := (match cs with c :: _ => Some c | [] => None end, cs) in
  let answers r x v w := clear_names r [x] -> exists c, call_wrapped N p eval r [x] echo [Some v] = Ok (mk_result N (Some [c]) (Returns N w) []) in
  (forall s b, encode s = Some b -> answers RStdString (param HStdString "std::string") (PStr N s) (PStr N s)) /\
  (forall s b, encode s = Some b -> answers RStdStringRef (param HStdString "std::string") (PStr N s) (PStr N s)) /\
  (forall s b, encode s = Some b -> ~ In 0 s -> answers RCString (param HCString "char *") (PStr N s) (PStr N s)) /\
  (forall d, answers RDouble (param HDouble "double") (PFloat N d) (PFloat N d)) /\
  (forall d, answers RFloat (param HFloat "float") (PFloat N d) (PFloat N (widen N (narrow N d)))) /\
  (forall v b, truth N v = Some b -> answers RBool (param HBool "bool") v (PBool N b)) /\
  (forall a, 0 <= a < 256 -> answers RChar (param HChar "char") (PBytes N [a]) (PBytes N [a])) /\
  (forall v, answers (RPyObject true) (param (HPyObject false) "PyObject*") v v).
Proof.
  intros N p eval name V param echo answers. repeat split; intros; intros CN; eexists.
  - exact (BasicText.echo_text p eval name s b RStdString V H (or_introl eq_refl) CN).
  - exact (BasicText.echo_text p eval name s b RStdStringRef V H (or_intror eq_refl) CN).
  - exact (BasicText.echo_cstring p eval name s b V H H0 CN).
  - exact (BasicText.echo_double p eval name d V CN).
  - exact (BasicText.echo_float p eval name d V CN).
  - exact (BasicText.echo_bool p eval name v b V H CN).
  - exact (BasicText.echo_char p eval name a V H CN).
  - exact (BasicText.echo_object p eval name v true V CN).
Qed.
Print Assumptions C42_echo.

(** ** Examples *)
Definition exN : numerics := mk_numerics Z Z (fun d => d mod 1000) (fun f => f) (fun z => if Z.abs z <? 2 ^ 60 then Some z else None) (fun d => negb (d =? 0)).
Definition linux : platform := mk_platform 64 64.
Definition ex_eval (t : ctyp) (d : string) : cval exN := VJunk exN.
Definition two_outs : list bparam := [mk_bparam HDoubleRef "double&" "x" None false true; mk_bparam HStdStringRef "std::string&" "name" None true true].
Definition ex_fun (ret : cval exN) (cs : list (cval exN)) : option (cval exN) * list (cval exN) := (Some ret, [VDouble exN 3; VString exN [195; 169; 0]]).
Ltac sound := split; [cbn; tauto|]; split; [cbn; tauto|]; split; [cbn; intros [H|H]; first [discriminate H|tauto|reflexivity]|]; intros d E; first [discriminate E|injection E as <-; split; [cbn; tauto|discriminate]].
Example ex_wrappable : wrappable linux ex_eval RBool two_outs.
Proof.
  split; [split; right; reflexivity|]. split.
  - repeat (constructor; [sound|]); constructor.
  - split; [repeat constructor; intros d E; discriminate E|]. split; [exact Logic.I|]. left. cbn. repeat constructor; cbn; intuition discriminate.
Qed.
Example ex_typed : typed_function linux RBool two_outs (ex_fun (VBool exN true)).
Proof. intros cs _. split; [exact Logic.I|]. repeat constructor; intros _; eexists; reflexivity. Qed.
Example ex_gets : Forall2 (gets linux ex_eval) (deal two_outs [Some (PStr exN [65])]) [VJunk exN; VString exN [65]].
Proof. constructor; [reflexivity|constructor; [|constructor]]. left. exists [65], [65]. repeat split. Qed.
Example ex_call : call_wrapped exN linux ex_eval RBool two_outs (ex_fun (VBool exN true)) [Some (PStr exN [65])] =
  Ok (mk_result exN (Some [VJunk exN; VString exN [65]]) (Returns exN (PTuple exN [PBool exN true; PFloat exN 3; PStr exN [233; 0]])) []).
Proof. reflexivity. Qed.
Example ex_clear : clear_names RStdString [mk_bparam HStdString "std::string" "name" None true false].
Proof. left. cbn. repeat constructor; cbn; intuition discriminate. Qed.
(** Bytes that are no text raise UnicodeDecodeError, after the call. *)
Example ex_bytes : call_wrapped exN linux ex_eval RStdString [mk_bparam HStdString "std::string" "name" None true false]
    (fun cs => (match cs with c :: _ => Some c | [] => None end, cs)) [Some (PBytes exN [255])] =
  Ok (mk_result exN (Some [VString exN [255]]) (Raises exN ValueErr) []).
Proof. reflexivity. Qed.

(** ** What does not hold *)
(** A char or C string returned does not come before the output parameters. *)
Theorem C42_order_refuted :
  call_wrapped exN linux ex_eval RChar two_outs (ex_fun (VChar exN 66)) [Some (PStr exN [65])] =
    Ok (mk_result exN (Some [VJunk exN; VString exN [65]]) (Returns exN (PTuple exN [PFloat exN 3; PStr exN [233; 0]; PBytes exN [66]])) []) /\
  call_wrapped exN linux ex_eval RCString two_outs (ex_fun (VCStr exN None)) [Some (PStr exN [65])] =
    Ok (mk_result exN (Some [VJunk exN; VString exN [65]]) (Returns exN (PTuple exN [PFloat exN 3; PStr exN [233; 0]; PNone exN])) []).
Proof. split; reflexivity. Qed.
