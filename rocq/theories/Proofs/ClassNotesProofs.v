(** Annotations of classes *)
From Coq Require Import Lia.
From Verif.Model Require Import Py Annotations ClassNotes.
From Verif.Spec Require Import AnnotationSpec ClassNotesSpec.
From Verif.Proofs Require Import AnnotationProofs FunctionScanProofs.
Open Scope list_scope.
Open Scope string_scope.

Lemma dict_set_get {V} (d : dict V) k v K : dict_get (dict_set d k v) K = if String.eqb K k then Some v else dict_get d K.
Proof.
  induction d as [|[k' v'] d IH]; cbn [dict_set dict_get]; [reflexivity|]. destruct (String.eqb_spec k k') as [->|N]; cbn [dict_get].
  - destruct (String.eqb_spec K k'); reflexivity.
  - rewrite IH. destruct (String.eqb_spec K k'); [subst; destruct (String.eqb_spec k' k); [congruence|reflexivity]|reflexivity].
Qed.
Lemma setdefault_get k v d K : dict_get (setdefault k v d) K = match dict_get d K with Some x => Some x | None => if String.eqb K k then Some v else None end.
Proof.
  unfold setdefault. destruct (dict_get d k) as [y|] eqn:E.
  - destruct (dict_get d K) eqn:Q; [reflexivity|]. destruct (String.eqb_spec K k); [congruence|reflexivity].
  - rewrite dict_set_get. destruct (String.eqb_spec K k) as [->|]; [now rewrite E|]. now destruct (dict_get d K).
Qed.

(** What one annotation gives. *)
Definition yes (k : string) (v : option string) : option (string * kvalue) := match parse_boolean v with Ok b => Some (k, KBool b) | Err _ => None end.
Definition gift (l : notes) (n : string) (v : option string) : option (string * kvalue) :=
  if String.eqb n "allow_subclassing" then yes n v
  else if String.eqb n "is_singleton" then yes n v
  else if String.eqb n "automatic_type_narrowing" then yes n v
  else if String.eqb n "incref_method" then Some ("memory_policy", KPolicy (Methods v (get l "decref_method") (get l "peekref_method")))
  else if String.eqb n "incref_function" then Some ("memory_policy", KPolicy (Functions v (get l "decref_function")))
  else if String.eqb n "free_function" then Some ("memory_policy", KPolicy (Free v))
  else if String.eqb n "python_name" then Some ("custom_name", KText v)
  else if String.eqb n "custom_name" then Some ("custom_name", KText v)
  else if String.eqb n "import_from_module" then Some ("import_from_module", KText v) else None.
Definition add (g : option (string * kvalue)) (d : kwargs) : kwargs := match g with Some (k, x) => setdefault k x d | None => d end.
Local Ltac cases n := repeat match goal with |- context [String.eqb n ?k] => destruct (String.eqb_spec n k) as [->|]; [|] end.
Definition one_complaint (n : string) : list complaint :=
  if String.eqb n "python_name" then [Deprecated] else if existsb (String.eqb n) understood then [] else [Ignored n].
Lemma note_right l n v r r' : class_note l n v r = Ok r' ->
  r_kwargs r' = add (gift l n v) (r_kwargs r) /\ r_warned r' = (r_warned r ++ one_complaint n)%list /\ r_exception r' = (r_exception r || String.eqb n "exception")%bool.
Proof.
  unfold class_note, gift, one_complaint. cbn [existsb understood]. intros H.
  destruct (in_dec string_dec n ("python_name" :: understood)) as [I|O].
  - cbn in I. repeat (destruct I as [<-|I]; [cbn in H |- *; unfold yes; try (destruct (parse_boolean v); cbn [bind] in H; [|discriminate]); injection H as <-; cbn; rewrite ?app_nil_r, ?Bool.orb_false_r, ?Bool.orb_true_r; auto|]). destruct I.
  - assert (N : forall k, In k ("python_name" :: understood) -> String.eqb n k = false) by (intros k K; apply String.eqb_neq; intros ->; contradiction).
    cbn [In understood] in N.
    repeat match type of H with context [String.eqb n ?k] => rewrite (N k) in H by (cbn; tauto) end.
    repeat match goal with |- context [String.eqb n ?k] => rewrite (N k) by (cbn; tauto) end.
    injection H as <-. cbn. rewrite Bool.orb_false_r. auto.
Qed.
Lemma note_total l n v r : (In n yes_or_no -> exists s b, v = Some s /\ boolean s b) -> exists r', class_note l n v r = Ok r'.
Proof.
  intros H. unfold class_note. destruct (in_dec string_dec n yes_or_no) as [I|O].
  - destruct (H I) as (s & b & -> & B). apply boolean_parse in B. rewrite B. cbn [bind]. repeat match goal with |- context [String.eqb n ?k] => destruct (String.eqb n k); [eauto|] end. eauto.
  - assert (N : forall k, In k yes_or_no -> String.eqb n k = false) by (intros k K; apply String.eqb_neq; intros ->; contradiction).
    rewrite (N "allow_subclassing"), (N "is_singleton"), (N "automatic_type_narrowing") by (cbn; tauto). repeat match goal with |- context [String.eqb n ?k] => destruct (String.eqb n k); [eauto|] end. eauto.
Qed.
Lemma note_readable l n v r r' : class_note l n v r = Ok r' -> In n yes_or_no -> exists s b, v = Some s /\ boolean s b.
Proof.
  intros H I. assert (B : exists b, parse_boolean v = Ok b).
  { cbn in I. repeat (destruct I as [<-|I]; [cbn in H; destruct (parse_boolean v); [eauto|discriminate]|]). destruct I. }
  destruct B as (b & B). apply parse_boolean_iff in B. destruct B as (s & -> & B). eauto.
Qed.
Fixpoint gifts (l rest : notes) (K : string) : option kvalue :=
  match rest with
  | [] => None
  | (n, v) :: t => match gift l n v with Some (k, x) => if String.eqb K k then Some x else gifts l t K | None => gifts l t K end
  end.
Lemma notes_right l : forall rest r r', class_notes l rest r = Ok r' ->
  (forall K, dict_get (r_kwargs r') K = match dict_get (r_kwargs r) K with Some x => Some x | None => gifts l rest K end) /\
  r_warned r' = (r_warned r ++ flat_map (fun x => one_complaint (fst x)) rest)%list /\
  r_exception r' = (r_exception r || existsb (fun x => String.eqb (fst x) "exception") rest)%bool /\ readable rest.
Proof.
  induction rest as [|[n v] t IH]; intros r r'; cbn [class_notes].
  - intros [= <-]. cbn. rewrite app_nil_r, Bool.orb_false_r. split; [intros K; now destruct (dict_get (r_kwargs r) K)|]. repeat split. intros n v [].
  - destruct (class_note l n v r) as [r1|] eqn:E; cbn [bind]; [|discriminate]. intros H. apply IH in H. destruct H as (A & B & C & D). pose proof (note_readable _ _ _ _ _ E) as Rd. apply note_right in E. destruct E as (E1 & E2 & E3).
    split; [|split; [|split]].
    + intros K. rewrite A, E1. cbn [gifts]. unfold add. destruct (gift l n v) as [[k x]|]; [|reflexivity]. rewrite setdefault_get. destruct (dict_get (r_kwargs r) K); [reflexivity|]. now destruct (String.eqb K k).
    + rewrite B, E2. cbn [flat_map fst]. now rewrite app_assoc.
    + rewrite C, E3. cbn [existsb fst]. now rewrite Bool.orb_assoc.
    + intros m u [Q|Q]; [injection Q as <- <-; exact Rd|exact (D m u Q)].
Qed.
Lemma notes_total l : forall rest r, readable rest -> exists r', class_notes l rest r = Ok r'.
Proof.
  induction rest as [|[n v] t IH]; intros r Rd; cbn [class_notes]; [eauto|]. destruct (note_total l n v r (Rd n v (or_introl eq_refl))) as (r1 & ->). cbn [bind]. apply IH. intros m u Q. apply Rd. now right.
Qed.

(** The annotations a keyword argument comes from. *)
Definition sources (K : string) : list string :=
  if String.eqb K "allow_subclassing" then ["allow_subclassing"] else if String.eqb K "is_singleton" then ["is_singleton"]
  else if String.eqb K "automatic_type_narrowing" then ["automatic_type_narrowing"] else if String.eqb K "memory_policy" then policies
  else if String.eqb K "custom_name" then ["custom_name"; "python_name"] else if String.eqb K "import_from_module" then ["import_from_module"] else [].
Lemma gift_source l n v K x : gift l n v = Some (K, x) -> In n (sources K).
Proof.
  unfold gift, yes. repeat match goal with |- context [String.eqb n ?k] => destruct (String.eqb_spec n k) as [->|] end; try (destruct (parse_boolean v)); intros [= <- <-]; cbn; tauto.
Qed.
Lemma source_gift l n v K : (In n yes_or_no -> exists s b, v = Some s /\ boolean s b) -> In n (sources K) -> exists x, gift l n v = Some (K, x).
Proof.
  intros Rd. unfold sources.
  repeat match goal with |- context [String.eqb K ?k] => destruct (String.eqb_spec K k) as [->|] end; cbn [In policies]; intros H; repeat (destruct H as [<-|H]; [|]); try contradiction;
    try (destruct Rd as (s & b & -> & B); [cbn; tauto|]; apply boolean_parse in B; exists (KBool b); unfold gift, yes; cbn [String.eqb Ascii.eqb Bool.eqb]; rewrite B; reflexivity); (eexists; reflexivity).
Qed.
Lemma gifts_iff l K x : forall rest, readable rest -> (gifts l rest K = Some x <-> exists n v, first_of rest (sources K) n v /\ gift l n v = Some (K, x)).
Proof.
  induction rest as [|[n v] t IH]; intros Rd; cbn [gifts].
  - split; [discriminate|]. intros (n & v & (a & b & E & _) & _). destruct a; discriminate.
  - assert (Rt : readable t) by (intros m u Q; apply Rd; now right). pose proof (Rd n v (or_introl eq_refl)) as Rn.
    assert (Skip : ~ In n (sources K) -> (gifts l t K = Some x <-> exists n0 v0, first_of ((n, v) :: t) (sources K) n0 v0 /\ gift l n0 v0 = Some (K, x))).
    { intros O. rewrite (IH Rt). split; intros (m & u & (a & b & E & I & F) & G); exists m, u; (split; [|exact G]).
      - exists ((n, v) :: a), b. split; [now rewrite E|]. split; [exact I|]. intros p q [Q|Q]; [now injection Q as <- <-|exact (F p q Q)].
      - destruct a as [|y a]; [injection E as -> -> _; contradiction|]. injection E as <- ->. exists a, b. split; [reflexivity|]. split; [exact I|]. intros p q Q. apply (F p q). now right. }
    destruct (in_dec string_dec n (sources K)) as [I|O].
    + destruct (source_gift l n v K Rn I) as (y & Y). rewrite Y, String.eqb_refl. split.
      * intros [= ->]. exists n, v. split; [|exact Y]. exists [], t. repeat split; [exact I|intros p q []].
      * intros (m & u & (a & b & E & J & F) & G). destruct a as [|z a]; [injection E as <- <- _; congruence|]. injection E as <- _. elim (F n v (or_introl eq_refl) I).
    + destruct (gift l n v) as [[k y]|] eqn:G; [|exact (Skip O)]. destruct (String.eqb_spec K k) as [<-|]; [apply gift_source in G; contradiction|exact (Skip O)].
Qed.
Lemma first_get l n v : first_of l [n] n v <-> dict_get l n = Some v.
Proof.
  induction l as [|[m u] l IH]; cbn [dict_get].
  - split; [intros (a & b & E & _); destruct a; discriminate|discriminate].
  - destruct (String.eqb_spec n m) as [->|N].
    + split.
      * intros (a & b & E & _ & F). destruct a as [|y a]; [injection E as -> _; reflexivity|]. injection E as <- _. elim (F m u (or_introl eq_refl)). now left.
      * intros [= ->]. exists [], l. repeat split; [now left|intros p q []].
    + rewrite <- IH. split; intros (a & b & E & I & F).
      * destruct a as [|y a]; [injection E as -> _; congruence|]. injection E as <- ->. exists a, b. repeat split; [exact I|]. intros p q Q. apply (F p q). now right.
      * exists ((m, u) :: a), b. split; [now rewrite E|]. split; [exact I|]. intros p q [Q|Q]; [injection Q as <- <-; intros [X|[]]; congruence|exact (F p q Q)].
Qed.
Lemma text_get l n t : text l n t <-> t = get l n.
Proof.
  unfold text, annotated, get. rewrite first_get. destruct (dict_get l n) as [v|] eqn:E.
  - split; [intros [H|(H & _)]; [congruence|]|intros ->; now left]. elim H. apply first_get in E. destruct E as (a & b & -> & _). exists v. apply in_or_app. right. now left.
  - pose proof (proj1 (dict_get_none _ _) E) as X. split; [intros [H|(_ & ->)]; congruence|intros ->; right; split; [intros (v & H); exact (X v H)|reflexivity]].
Qed.
