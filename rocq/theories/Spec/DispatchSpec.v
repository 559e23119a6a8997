(** Overload dispatch: what is called, what is returned, and what happens to the exceptions of failed attempts. *)
From Verif.Model Require Import Py CodeBlock MiniC ForwardWrapper Aggregator.
From Verif.Spec Require Import HandlerSpec BodySpec.
Open Scope list_scope.

Section Events.
  Context {V : Type}.
  Definition calls (l : list (event V)) : list string := flat_map (fun e => match e with ECalled n => [n] | _ => [] end) l.
  Definition saved (l : list (event V)) : list V := flat_map (fun e => match e with ESaved v => [v] | _ => [] end) l.
  Definition dropped (l : list (event V)) : list V := flat_map (fun e => match e with EDropped v => [v] | _ => [] end) l.
  Definition lists (l : list (event V)) : nat * nat :=
    (length (filter (fun e => match e with ENewList => true | _ => false end) l),
     length (filter (fun e => match e with EDropList => true | _ => false end) l)).
End Events.

(** A run of a delegate as its caller sees it: a parse error if it fetched the pending exception. *)
Definition act_eqb (a b : act) : bool :=
  match a, b with APy x, APy y => String.eqb x y | ACpp x, ACpp y => String.eqb x y | _, _ => false end.
Definition seen {V} (t : list act) (exc : V) (value pending : option V) : attempt V :=
  if existsb (act_eqb fetch) t then Rejected (Some exc) else Completed value pending.

(** The wrapper of a delegate: parse errors are fetched, other errors are not; the handlers' code neither fetches
    exceptions nor makes the wrapped call itself, and their code before the call does not return by itself. *)
Section Delegate.
  Variable mark : string.   (* identifies the wrapped C++ call *)
  Definition quiet (a : act) : Prop := a <> fetch /\ a <> ACpp mark.
  Definition quiet_frag (f : frag) : Prop := Forall quiet (f_acts f) /\ Forall quiet (f_pass f).
  Definition soft (a : act) : Prop := quiet a /\ is_return a = false.
  Definition soft_frag (f : frag) : Prop := Forall soft (f_acts f) /\ Forall soft (f_pass f).
  Definition on_before (a : hact) : bool :=
    match a with
    | XCode Before _ | XIf Before _ _ | XCheck Before _ _ | XCleanup Before _ => true
    | _ => false
    end.
  Definition delegate_call (a : hact) : Prop :=
    Forall (if on_before a then soft_frag else quiet_frag) (fragments a).

  Record delegate (value : string) (c : config) : Prop := {
    dl_parse_error : c_parse_error c = fetch_return value;
    dl_error : quiet_frag (c_error c);
    dl_handlers : Forall delegate_call (handler_calls c);
    dl_late : Forall (fun a => ~ touches_before a) (late_calls c);
    dl_throw : Forall (fun e => quiet_frag (snd e)) (c_throw c);
    dl_call : exists a b, c_call_acts c = a ++ ACpp mark :: b /\ Forall soft a /\ Forall quiet b /\ (forall x, ~ In (ACpp x) a) }.
End Delegate.

(** One delegate of an aggregator with one run of it: [tr_trace] are the actions it performs. *)
Record trial (V : Type) : Type := mk_trial {
  tr_name : string;
  tr_mark : string;                     (* its wrapped C++ call *)
  tr_trace : list act;
  tr_exc : V; tr_value : option V; tr_pending : option V }.
Arguments tr_name {V}. Arguments tr_mark {V}. Arguments tr_trace {V}. Arguments tr_exc {V}. Arguments tr_value {V}. Arguments tr_pending {V}.
(** Its actions are those of some run of the generated wrapper. *)
Definition generated {V} (value : string) (x : trial V) : Prop :=
  exists c s ch, delegate (tr_mark x) value c /\ generate_body c (init_state c) = Ok s /\ tr_trace x = fst (exec ch 0 (body s)).
Definition makes_call {V} (x : trial V) : Prop := In (ACpp (tr_mark x)) (tr_trace x).
