(** What becomes of declarations and generated functions when something goes wrong. *)
From Verif.Model Require Import Py PyState Errors Overloading Module.
From Verif.Spec Require Import OverloadSpec.
Open Scope string_scope.
Open Scope list_scope.

(** What is wrong with one parameter or return value specification, if anything, and whether it is an error of the type (about
    which the error handler may be asked) rather than a malformed specification. *)
Definition looked_up {V} (r : res V) : option (pyexc * bool) := match r with Ok _ => None | Err e => Some (e, true) end.
Definition problem {V} (make : list string -> list (string * string) -> res V) (retval : bool) (s : spec V) : option (pyexc * bool) :=
  match s with
  | SObject _ => None
  | STuple args kw =>
      let n := length args + match kw with Some _ => 1 | None => 0 end in
      if Nat.ltb n (if retval then 1 else 2) then Some (AssertionError, false)
      else looked_up (make args match kw with Some k => k | None => [] end)
  | SString t => if retval then looked_up (make [t] []) else Some (TypeError, false)
  | SOther => Some (TypeError, false)
  end.
Fixpoint first_some {A} (l : list (option A)) : option A :=
  match l with [] => None | Some a :: _ => Some a | None :: r => first_some r end.
(** The return value is looked at first, then the parameters in order. *)
Definition function_problem {V} make (d : fdecl V) : option (pyexc * bool) :=
  first_some (problem make true (fd_retval d) :: map (problem make false) (fd_params d)).
Definition type_problem {V} make (t : tdecl V) : option (pyexc * bool) := first_some (map (problem make true) (td_specs t)).

(** The policy for an error [e] of the wrapper [id] which the handler may ([ask]) or may not be asked about: the calls of the
    handler and the exception that results. *)
Definition policy_of (p : policy) (id : nat) (e : pyexc) (ask : bool) : list (nat * pyexc) * pyexc :=
  match p with
  | Some h => if ask then ([(id, e)], match h id e with Ok true => SkipWrapper | Ok false => e | Err e' => e' end) else ([], e)
  | None => ([], e)
  end.
Definition declaration_error (e : pyexc) : bool :=
  match e with TypeConfigurationError | NotSupportedError | TypeLookupError => true | _ => false end.

(** A declaration that has no effect: it failed, or it is a function or type that was skipped. *)
Definition no_effect {V} (x : call V * res answer) : bool :=
  match x with
  | (_, Err _) => true
  | (CFunctionC _ _, Ok RNone) | (CType _ _, Ok RNone) => true
  | _ => false
  end.

(** * Generation *)

(** What goes wrong when the only wrapper of a name is generated, and for whom: wrappers that go through the overloading interface
    are generated on behalf of the whole set, then once more as one of its functions. *)
Definition sole_problem (set : nat) (w : fwrapper) : option (nat * pyexc) :=
  match fw_body w (fw_forced w) with
  | Err e => Some (if fw_needs_interface w then set else fw_id w, e)
  | Ok _ => if fw_needs_interface w then match fw_body w true with Err e => Some (fw_id w, e) | Ok _ => None end else None
  end.
(** The wrappers of one name that can be generated; several wrappers are all made to take keyword arguments. *)
Inductive kept (set : nat) : list fwrapper -> list fwrapper -> Prop :=
| kp_one : forall w, sole_problem set w = None -> kept set [w] [w]
| kp_one_not : forall w x, sole_problem set w = Some x -> kept set [w] []
| kp_many : forall ws ks, length ws <> 1 -> survive None ws ks -> kept set ws (map force ks).
(** The handler accepts the errors of all of them. *)
Definition accepted (h : handler) (f : fset) : Prop :=
  match fs_wrappers f with
  | [w] => forall id e, sole_problem (fs_id f) w = Some (id, e) -> In e [TypeConfigurationError; CodeGenerationError; NotSupportedError] /\ h id e = Ok true
  | ws => accepts h ws
  end.
Definition one_section (f : fset) : Prop := forall a b, In a (fs_wrappers f) -> In b (fs_wrappers f) -> fw_section a = fw_section b.

(** The same module, without the wrappers that cannot be generated. *)
Inductive pruned_sets : list fset -> list fset -> Prop :=
| pr_nil : pruned_sets [] []
| pr_keep : forall f ks l l', kept (fs_id f) (fs_wrappers f) ks -> ks <> [] -> pruned_sets l l' ->
    pruned_sets (f :: l) (mk_fset (fs_name f) (fs_id f) ks :: l')
| pr_drop : forall f l l', kept (fs_id f) (fs_wrappers f) [] -> pruned_sets l l' -> pruned_sets (f :: l) l'.
Definition pruned_module (m m' : modul) : Prop :=
  exists l, m' = with_functions l m /\ pruned_sets (m_functions m) l.
Definition pruned (w w' : world) : Prop :=
  Forall2 pruned_module (w_mods w) (w_mods w') /\ w_section w = w_section w' /\ w_includes w = w_includes w' /\ w_once w = w_once w'.

(** The output, without empty lines and the includes of the common header at the start of each file. *)
Definition essential_piece (x : sink * piece) : bool :=
  match snd x with PBlank | PCommonHeader | PChunk CBlank => false | _ => true end.
Definition essential (o : list (sink * piece)) : list (sink * piece) := filter essential_piece o.

(** An error that is offered to the handler and not accepted comes out: the same one, or one raised by the handler. *)
Definition generation_error (e : pyexc) : bool :=
  match e with TypeConfigurationError | CodeGenerationError | NotSupportedError => true | _ => false end.
Definition escapes (p : policy) (id : nat) (e0 e : pyexc) : Prop :=
  match p with
  | None => e = e0
  | Some h => if generation_error e0 then (h id e0 = Ok false /\ e = e0) \/ h id e0 = Err e else e = e0
  end.
(** The error [e] comes out of generating the functions of one name, before the handler is asked on behalf of the set. *)
Inductive comes_out (p : policy) (f : fset) : pyexc -> Prop :=
| co_set : forall w e, fs_wrappers f = [w] -> fw_needs_interface w = true -> fw_body w (fw_forced w) = Err e -> comes_out p f e
| co_sole : forall w e0 e, fs_wrappers f = [w] -> sole_problem (fs_id f) w = Some (fw_id w, e0) -> escapes p (fw_id w) e0 e -> comes_out p f e
| co_many : forall w e, length (fs_wrappers f) <> 1 -> In w (fs_wrappers f) -> rejects p w e -> comes_out p f e.

(** The handler was asked about the error [e] of [id] and agreed to drop it. *)
Definition agreed (h : handler) (log : list (nat * pyexc)) (id : nat) (e : pyexc) : Prop :=
  In (id, e) log /\ generation_error e = true /\ h id e = Ok true.
(** The handler does not raise SkipWrapper itself. *)
Definition honest (h : handler) : Prop := forall id e, h id e <> Err SkipWrapper.
(** SkipWrapper is for declarations: generating a function body does not raise it. *)
Definition no_skips (f : fset) : Prop := forall w b, In w (fs_wrappers f) -> fw_body w b <> Err SkipWrapper.
(** Modules below module [i]. *)
Inductive below (mods : list modul) : nat -> nat -> Prop :=
| bl_self : forall i, below mods i i
| bl_sub : forall i m j k, nth_error mods i = Some m -> In j (m_submodules m) -> below mods j k -> below mods i k.
