(** * Specification of object lifetimes (properties C21-C24)

    What the Python program, the C++ library and the garbage collector are
    allowed to do ([allowed]), the histories they produce ([reach]), and the
    vocabulary in which the properties are stated.  Nothing here mentions the
    code generators. *)
From Coq Require Import List Arith Bool.
From Verif.Model Require Import Ownership.
Import ListNotations.

(** ** Vocabulary *)
Definition object (s : state) (a : addr) (o : cobj) : Prop := get (s_objs s) a = Some o.
Definition exists_at (s : state) (a : addr) : Prop := exists o, object s a o.
Definition free_address (s : state) (a : addr) : Prop := get (s_objs s) a = None.
Definition wrapper (s : state) (w : wid) (r : wrap) : Prop := get (s_wraps s) w = Some r.
Definition alive (s : state) (w : wid) : Prop := exists r, wrapper s w r /\ w_st r = Live.
Definition gone (s : state) (w : wid) : Prop := exists r, wrapper s w r /\ w_st r = Dead.
(** The Python program itself holds a reference to [w]. *)
Definition held (s : state) (w : wid) : Prop :=
  exists r, wrapper s w r /\ w_st r = Live /\ 1 <= w_ext r.
Definition registered (s : state) (a : addr) (w : wid) : Prop := get (s_reg s) a = Some w.
(** A destructor call is under way or pending. *)
Definition doomed (s : state) (a : addr) : Prop := In (KDelete a) (s_todo s).
(** Nothing is pending: the last operation has run to its end. *)
Definition quiet (s : state) : Prop := s_todo s = [].

Definition frame_addr (f : frame) : addr := match f with FVirt _ _ a => a | FTmp _ a => a end.
Definition frame_wrap (f : frame) : wid := match f with FVirt w _ _ => w | FTmp w _ => w end.
(** The object at [a] is lent to a Python override that is still running. *)
Definition in_call (s : state) (a : addr) : Prop := In a (map frame_addr (s_calls s)).
Definition wrapper_in_call (s : state) (w : wid) : Prop := In w (map frame_wrap (s_calls s)).

(** Does this wrapper own the C++ object it points to (it will delete it)?
    A lent pointer ([w_tmp]) is not owned; [FreeFunctionPolicy] and reference
    counting ignore the "not owned" flag. *)
Definition owns (cf : conf) (r : wrap) : bool :=
  negb (w_tmp r) && match c_policy cf with PNone => w_owned r | _ => true end.
Definition owner_of (cf : conf) (r : wrap) (a : addr) : bool :=
  owns cf r && match w_obj r with Some b => b =? a | None => false end.

(** Number of wrappers with a property. *)
Definition count_wraps (p : wrap -> bool) (s : state) : nat :=
  length (filter (fun x => match x with Some r => p r | None => false end) (s_wraps s)).
Definition owners (cf : conf) (s : state) (a : addr) : nat := count_wraps (fun r => owner_of cf r a) s.

(** A live wrapper that points to the object at [a] and was not merely lent it. *)
Definition live_holder (a : addr) (r : wrap) : bool :=
  match w_st r with Live => negb (w_tmp r) && match w_obj r with Some b => b =? a | None => false end | _ => false end.

(** References to [w] that tp_traverse of the garbage wrappers can report. *)
Definition reported (cf : conf) (s : state) (w : wid) : nat :=
  list_sum (map (fun x => match x with
                          | Some r => count_occ Nat.eq_dec (w_wards r) w
                          | None => 0 end) (s_wraps s))
  + (if visits_self cf s w then 1 else 0).

(** ** The contract *)

(** Settings under which nothing is deliberately left undeleted. *)
Definition deletes (cf : conf) : Prop :=
  c_singleton cf = false /\ (c_policy cf = PNone -> c_public_dtor cf = true).

(** If the object is a Python-derived instance, its wrapper already points to it. *)
Definition self_points (s : state) (a : addr) (o : cobj) : Prop :=
  forall w, o_self o = Some w -> exists r, wrapper s w r /\ w_obj r = Some a.

(** A C++ function returns a pointer or reference with options [p] to the object [o] at [v]. *)
Definition return_ok (cf : conf) (strict : bool) (s : state) (p : ropts) (v fresh : addr) : Prop :=
  exists o, object s v o /\
  if is_rc cf then
    1 <= o_rc o /\ r_free p = false
    /\ (if r_owns p then 1 <= o_cpp o /\ ~ in_call s v else r_manages p = true)
  else if r_owns p then
    (** C++ really owned it and gives it away *)
    1 <= o_cpp o /\ ~ in_call s v /\ r_free p = false
    /\ (strict = true -> get (s_reg s) v = None)
  else
    (** a Python-derived instance owned by C++ must not come back through a
        handler that does not take ownership *)
    self_points s v o
    /\ (if r_ref p || negb (r_manages p)
        then c_policy cf = PNone /\ r_free p = false
        else c_copyable cf = true /\ free_address s fresh)
    /\ (r_free p = true -> 1 <= o_cpp o /\ ~ in_call s v /\ o_helper o = false).

Definition allowed (cf : conf) (strict : bool) (s : state) (ev : event) : Prop :=
  match ev with
  | EvCppNew a => free_address s a
  | EvCppRelease a => exists o, object s a o /\ 1 <= o_cpp o /\ ~ in_call s a
  | EvCppRef a => is_rc cf = true /\ exists o, object s a o /\ 1 <= o_rc o
  | EvNew _ => True
  | EvInit w a =>
      free_address s a /\
      exists r, wrapper s w r /\ w_st r = Live /\ 1 <= w_ext r /\ w_virgin r = true
  | EvCopy w a =>
      c_copyable cf = true /\ free_address s a /\
      exists r b o, wrapper s w r /\ w_st r = Live /\ w_obj r = Some b /\ object s b o
  | EvReturn (RPtr _) None _ => True
  | EvReturn _ None _ => False
  | EvReturn RValue (Some _) a => c_copyable cf = true /\ free_address s a
  | EvReturn (RRef p) (Some v) a =>
      if r_ref p || r_owns p || negb (r_manages p)
      then return_ok cf strict s (ROpts (r_owns p) (r_ref p) (r_manages p) false) v a
      else c_copyable cf = true /\ free_address s a /\ exists_at s v
  | EvReturn (RPtr p) (Some v) a => return_ok cf strict s p v a
  | EvArg AValue v a => c_copyable cf = true /\ free_address s a /\ exists_at s v
  | EvArg (APtr true) v a =>
      exists o, object s v o /\ 1 <= o_cpp o /\ ~ in_call s v
      /\ (strict = true -> get (s_reg s) v = None /\ (is_rc cf = true -> o_helper o = false))
  | EvArg (APtr false) v a =>
      exists o, object s v o /\
      if is_rc cf then 1 <= o_rc o
      else self_points s v o /\ c_copyable cf = true /\ free_address s a
  | EvPass w false => held s w
  | EvPass w true =>
      exists r, wrapper s w r /\ w_st r = Live /\ w_tmp r = false /\
      if is_rc cf then w_obj r <> None
      else (** only what the wrapper owns can be transferred *)
        (w_obj r <> None -> owns cf r = true) /\ ~ wrapper_in_call s w
  | EvPassNone => False
  | EvGiveBack w a =>
      exists r b o, wrapper s w r /\ w_st r = Live /\ w_tmp r = false
      /\ w_obj r = Some b /\ object s b o /\
      if is_rc cf then True
      else if c_copyable cf then free_address s a
      else owns cf r = true /\ ~ wrapper_in_call s w /\ get (s_reg s) b <> Some w
  | EvRef w => alive s w
  | EvDrop w => held s w
  | EvWard c w => c_subclassing cf = true /\ held s c /\ held s w
  | EvGcClear w =>
      (** all references to [w] are reported by tp_traverse, so the collector
          may find it unreachable *)
      c_subclassing cf = true
      /\ (exists r, wrapper s w r /\ w_st r = Live /\ w_refs r = reported cf s w
          /\ (visits_self cf s w = true ->
              (is_rc cf = true -> c_peekref cf = true)
              /\ exists b o, w_obj r = Some b /\ object s b o /\ o_self o = Some w))
      /\ (forall a, ~ registered s a w)
  | EvVirtBegin a =>
      exists o w r, object s a o /\ o_self o = Some w /\ wrapper s w r /\ ~ doomed s a
      /\ (1 <= o_cpp o \/ w_obj r = Some a)
  | EvTmpBegin a => exists o, object s a o /\ 1 <= o_cpp o
  | EvEnd b => s_calls s <> [] /\ free_address s b
  end.

(** The program can act when nothing is pending, and - re-entrantly - when a
    C++ destructor is about to run, provided the collector is not in the middle
    of clearing some wrapper (a slot function of a wrapper that is still alive
    is a tp_clear called by the collector). *)
Definition may_run (s : state) : Prop :=
  s_todo s = []
  \/ ((exists a rest, s_todo s = KDelete a :: rest)
      /\ forall w i c, In (KCode w (i :: c)) (s_todo s) -> ~ alive s w).

(** All histories that respect the contract.  [strict] additionally excludes
    the ways of losing an object described in [return_ok]. *)
Inductive reach (cf : conf) (strict : bool) : state -> Prop :=
| reach_start : reach cf strict start
| reach_event s ev s' :
    reach cf strict s -> may_run s -> allowed cf strict s ev ->
    step_event cf ev s = Ok s' -> reach cf strict s'
| reach_tick s s' :
    reach cf strict s -> tick cf s = Ok s' -> reach cf strict s'.

(** Pending work carried out, without new events. *)
Inductive ticks (cf : conf) : state -> state -> Prop :=
| ticks_refl s : ticks cf s s
| ticks_step s s' s'' : tick cf s = Ok s' -> ticks cf s' s'' -> ticks cf s s''.

(** What happened between two states: events and steps of pending work. *)
Inductive label := LEvent (ev : event) | LTick.
Inductive history (cf : conf) (strict : bool) : state -> list label -> state -> Prop :=
| history_nil s : history cf strict s [] s
| history_event s ev s1 ls s2 :
    may_run s -> allowed cf strict s ev -> step_event cf ev s = Ok s1 ->
    history cf strict s1 ls s2 -> history cf strict s (LEvent ev :: ls) s2
| history_tick s s1 ls s2 :
    tick cf s = Ok s1 -> history cf strict s1 ls s2 -> history cf strict s (LTick :: ls) s2.

(** As [history], with a condition on every state on the way. *)
Inductive along (cf : conf) (strict : bool) (P : state -> Prop) : state -> list label -> state -> Prop :=
| along_nil s : P s -> along cf strict P s [] s
| along_event s ev s1 ls s2 :
    P s -> may_run s -> allowed cf strict s ev -> step_event cf ev s = Ok s1 ->
    along cf strict P s1 ls s2 -> along cf strict P s (LEvent ev :: ls) s2
| along_tick s s1 ls s2 :
    P s -> tick cf s = Ok s1 -> along cf strict P s1 ls s2 -> along cf strict P s (LTick :: ls) s2.

(** [c] keeps [w], or an object equal to it, in its list of wards. *)
Definition guards (cf : conf) (s : state) (c w : wid) : Prop :=
  exists rc, wrapper s c rc /\ (In w (w_wards rc) \/ exists x, In x (w_wards rc) /\ c_same cf x w = true).

(** The events by which C++ gives up a share of the object at [a]: it deletes
    it or drops a reference, or declares that Python takes it over. *)
Definition gives_up (ev : event) (a : addr) : Prop :=
  match ev with
  | EvCppRelease b => b = a
  | EvReturn (RRef p) (Some v) _ => v = a /\ r_owns p = true
  | EvReturn (RPtr p) (Some v) _ => v = a /\ (r_owns p = true \/ r_free p = true)
  | EvArg (APtr true) v _ => v = a
  | _ => False
  end.

(** No slot function (tp_dealloc, tp_clear) of [c] is running. *)
Definition idle (s : state) (c : wid) : Prop := forall i d, ~ In (KCode c (i :: d)) (s_todo s).

(** The state after a list of labels. *)
Fixpoint play (cf : conf) (ls : list label) (s : state) : res state :=
  match ls with
  | [] => Ok s
  | LEvent ev :: t => match step_event cf ev s with Ok s' => play cf t s' | Fault f => Fault f end
  | LTick :: t => match tick cf s with Ok s' => play cf t s' | Fault f => Fault f end
  end.

(** An object nobody will ever delete. *)
Definition orphan (cf : conf) (s : state) (a : addr) : Prop :=
  exists o, object s a o /\ o_cpp o = 0 /\ owners cf s a = 0 /\ quiet s.
