(** Which overloads survive, and what is generated for them. *)
From Verif.Model Require Import Py Errors Overloading.
Open Scope string_scope.
Open Scope list_scope.

Definition same_flags (a b : list string) : Prop := forall x, In x a <-> In x b.

(** [survive fl ws ks]: going through [ws] in order, [fl] being the flags of the first one that could be generated,
    [ks] are those that can be generated and have the same flags as the first. *)
Inductive survive : option (list string) -> list fwrapper -> list fwrapper -> Prop :=
| sv_nil : forall fl, survive fl [] []
| sv_fail : forall fl w e ws ks, fw_body w true = Err e -> survive fl ws ks -> survive fl (w :: ws) ks
| sv_first : forall w f ws ks, fw_body w true = Ok f -> survive (Some f) ws ks -> survive None (w :: ws) (w :: ks)
| sv_same : forall w f g ws ks, fw_body w true = Ok f -> same_flags f g -> survive (Some g) ws ks ->
    survive (Some g) (w :: ws) (w :: ks)
| sv_differs : forall w f g ws ks, fw_body w true = Ok f -> ~ same_flags f g -> survive (Some g) ws ks ->
    survive (Some g) (w :: ws) ks.

(** The calls of the error handler: a wrapper that fails is reported with its error and then as skipped; one with
    other flags as skipped. *)
Inductive reports : option (list string) -> list fwrapper -> list (nat * pyexc) -> Prop :=
| rp_nil : forall fl, reports fl [] []
| rp_fail : forall fl w e ws l, fw_body w true = Err e -> reports fl ws l ->
    reports fl (w :: ws) ((fw_id w, e) :: (fw_id w, SkipWrapper) :: l)
| rp_first : forall w f ws l, fw_body w true = Ok f -> reports (Some f) ws l -> reports None (w :: ws) l
| rp_same : forall w f g ws l, fw_body w true = Ok f -> same_flags f g -> reports (Some g) ws l ->
    reports (Some g) (w :: ws) l
| rp_differs : forall w f g ws l, fw_body w true = Ok f -> ~ same_flags f g -> reports (Some g) ws l ->
    reports (Some g) (w :: ws) ((fw_id w, SkipWrapper) :: l).

(** The handler accepts every error of these wrappers. *)
Definition accepts (h : handler) (ws : list fwrapper) : Prop :=
  forall w, In w ws ->
    (forall e, fw_body w true = Err e -> In e [TypeConfigurationError; CodeGenerationError; NotSupportedError] /\ h (fw_id w) e = Ok true) /\
    exists b, h (fw_id w) SkipWrapper = Ok b.

(** The C functions generated for surviving overloads with a common base name: numbered from [n], except those that bring their own
    name along. *)
Fixpoint numbered (base : string) (n : nat) (ks : list fwrapper) : list (nat * string) :=
  match ks with
  | [] => []
  | w :: r => (fw_id w, match fw_own w with Some own => own | None => (base ++ "__" ++ decimal (N.of_nat n))%string end) :: numbered base (S n) r
  end.
Definition no_blank (c : chunk) : bool := match c with CBlank => false | _ => true end.
Definition functions_of (ks : list fwrapper) (kw : bool) : list chunk :=
  match ks with
  | [] => []
  | w :: r =>
      if match r with [] => negb (fw_needs_interface w) | _ => false end
      then [CFunction (fw_id w) (fw_base w) false]
      else map (fun x => CFunction (fst x) (snd x) true) (numbered (fw_base w) 0 ks) ++
           [CAggregator (fw_base w) (map snd (numbered (fw_base w) 0 ks)) kw]
  end.

(** Why dropping a wrapper can abort the whole normalisation. *)
Definition rejects (p : policy) (w : fwrapper) (e : pyexc) : Prop :=
  match p with
  | None => fw_body w true = Err e \/ e = AttributeError
  | Some h => (fw_body w true = Err e /\ e <> SkipWrapper /\
               (~ In e [TypeConfigurationError; CodeGenerationError; NotSupportedError] \/ h (fw_id w) e = Ok false)) \/
              exists e', (fw_body w true = Err e' \/ e' = SkipWrapper) /\ h (fw_id w) e' = Err e
  end.

(** A recording state: the calls of the error handler and the text written. *)
Record record : Type := mk_record { rec_log : list (nat * pyexc); rec_out : list chunk }.
Definition rec_note (w : nat) (e : pyexc) (r : record) : record := mk_record (rec_log r ++ [(w, e)]) (rec_out r).
Definition rec_write (c : chunk) (r : record) : record := mk_record (rec_log r) (rec_out r ++ [c]).

(** The docstring of an overload set: the only one given, if any; two different ones are in conflict. *)
Definition common_doc (ks : list fwrapper) (d : option string) : Prop :=
  match d with
  | None => forall w, In w ks -> fw_doc w = None
  | Some t => (exists w, In w ks /\ fw_doc w = Some t) /\ forall w, In w ks -> fw_doc w = None \/ fw_doc w = Some t
  end.
Definition doc_conflict (ks : list fwrapper) : Prop :=
  exists a b s t, In a ks /\ In b ks /\ fw_doc a = Some s /\ fw_doc b = Some t /\ s <> t.
(** One wrapper generated on its own rather than through an aggregator. *)
Definition alone (ks : list fwrapper) : Prop := exists w, ks = [w] /\ fw_needs_interface w = false.
(** A sub-list, in the same order. *)
Inductive in_order {A} : list A -> list A -> Prop :=
| io_nil : forall l, in_order [] l
| io_take : forall x k l, in_order k l -> in_order (x :: k) (x :: l)
| io_drop : forall x k l, in_order k l -> in_order k (x :: l).
