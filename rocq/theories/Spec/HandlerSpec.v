(** The discipline type handlers must follow for wrapper bodies to release what they acquire. *)
From Coq Require Import String List.
From Verif.Model Require Import Py CodeBlock Params MiniC ForwardWrapper.
From Verif.Spec Require Import WrapperSpec.
Import ListNotations.
Open Scope list_scope.

(** Code that only computes: no acquisition, release, return or lock operation. *)
Definition plain (a : act) : Prop :=
  match a with APy _ | ACpp _ | ALocal _ => True | _ => False end.
Definition plain_frag (f : frag) : Prop := Forall plain (f_acts f) /\ Forall plain (f_pass f).
Definition plain_opt (o : option frag) : Prop := match o with Some f => plain_frag f | None => True end.

(** Code that releases [r], or acquires [r], or acquires [r] when the check passes. *)
Definition releases (r : nat) (f : frag) : Prop := exists l, f_acts f = ARelease r :: l /\ Forall plain l.
Definition acquires (r : nat) (f : frag) : Prop := exists l, f_acts f = l ++ [AAcquire r] /\ Forall plain l.
Definition acquires_on_pass (r : nat) (f : frag) : Prop := Forall plain (f_acts f) /\ f_pass f = [AAcquire r].

Definition harmless (a : hact) : Prop :=
  match a with
  | XDeclare _ _ _ _ | XReserve _ | XIndent _ _ | XUnindent _ | XParse _ _ | XBuild _ _ | XCallParam _ => True
  | XCode _ f => plain_frag f
  | XIf _ c body => plain_frag c /\ Forall plain_frag body
  | XCheck _ c fail => plain_frag c /\ plain_opt fail
  | XErrorReturn _ | XCleanup _ _ | XCancel _ _ => False
  end.

(** Each acquisition is followed at once by the registration of its release on the same block. *)
Inductive disciplined : list hact -> Prop :=
| d_nil : disciplined []
| d_harmless : forall a l, harmless a -> disciplined l -> disciplined (a :: l)
| d_acquire : forall w f r cl l, acquires r f -> releases r cl -> disciplined l ->
    disciplined (XCode w f :: XCleanup w cl :: l)
| d_check_acquire : forall w c fail r cl l, acquires_on_pass r c -> plain_opt fail -> releases r cl ->
    disciplined l -> disciplined (XCheck w c fail :: XCleanup w cl :: l).

(** No before-call cleanup is registered after an after-call check has been written. *)
Definition no_late_cleanup (l : list hact) : Prop :=
  forall l1 c f l2, l = l1 ++ XCheck After c f :: l2 -> forall g, ~ In (XCleanup Before g) l2.

(** A statement that returns and does nothing else of interest. *)
Definition returns (f : frag) : Prop := exists l w, f_acts f = l ++ [AReturn w] /\ Forall plain l.

(** Everything a wrapper's handlers do, in generation order. *)
Definition handler_calls (c : config) : list hact :=
  flat_map h_acts (c_params c) ++ c_precall c ++
  match c_return c with Some h => h_acts h | None => [] end ++ c_postcall c.

Record well_behaved (c : config) : Prop := {
  wb_params : Forall (fun h => disciplined (h_acts h)) (c_params c);
  wb_precall : disciplined (c_precall c);
  wb_return : forall h, c_return c = Some h -> disciplined (h_acts h);
  wb_postcall : disciplined (c_postcall c);
  wb_late : no_late_cleanup (handler_calls c);
  wb_parse_error : returns (c_parse_error c);
  wb_error : returns (c_error c);
  wb_call : Forall plain (c_call_acts c);
  wb_throw : Forall (fun e => plain_frag (snd e)) (c_throw c) }.

(** Does a handler write to (or register a cleanup on) the before-call block? *)
Definition touches_before (a : hact) : Prop :=
  match a with
  | XCode Before _ | XIndent Before _ | XUnindent Before | XIf Before _ _ | XCheck Before _ _
  | XErrorReturn Before | XCleanup Before _ | XCancel Before _ => True
  | _ => False
  end.

(** The code fragments passed by a handler to the wrapper. *)
Definition fragments (a : hact) : list frag :=
  match a with
  | XCode _ f | XCleanup _ f => [f]
  | XIf _ c b => c :: b
  | XCheck _ c f => c :: opt_list f
  | _ => []
  end.

(** No handler manipulates the interpreter lock. *)
Definition lock_free_config (c : config) : Prop :=
  Forall (fun a => Forall calm_frag (fragments a)) (handler_calls c) /\ calm_frag (c_parse_error c) /\ calm_frag (c_error c).

Definition is_try (i : item frag) : Prop := match i with ITry _ _ => True | _ => False end.

(** ** Reverse wrappers *)
(** Code that neither takes nor releases the interpreter lock. *)
Definition no_gil (f : frag) : Prop :=
  ~ In (AAcquire gil) (f_acts f ++ f_pass f) /\ ~ In (ARelease gil) (f_acts f ++ f_pass f).
Definition no_gil_calls (l : list hact) : Prop := Forall (fun a => Forall no_gil (fragments a)) l.

(** A return statement that does not use Python. *)
Definition cpp_return (f : frag) : Prop := exists l w, f_acts f = l ++ [AReturn w] /\ Forall cpp_only l.
