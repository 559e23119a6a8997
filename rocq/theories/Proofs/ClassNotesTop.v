(** Annotations of classes: keyword arguments, complaints, exceptions *)
From Coq Require Import Lia.
From Verif.Model Require Import Py Annotations ClassNotes.
From Verif.Spec Require Import AnnotationSpec ClassNotesSpec.
From Verif.Proofs Require Import AnnotationProofs FunctionScanProofs ClassNotesProofs.
Open Scope list_scope.
Open Scope string_scope.

Definition extra (f : class_facts) (K : string) : option kvalue :=
  if c_defined f then
    if String.eqb K "allow_subclassing" && (c_virtual f && negb (c_bases f)) then Some (KBool true)
    else if String.eqb K "destructor_visibility" then match c_destructor f with Some "public" => None | des => Some (KText des) end else None
  else None.
Lemma public_dec (d : option string) : {d = Some "public"} + {d <> Some "public"}.
Proof. decide equality. apply string_dec. Defined.
Lemma public_put f r : match c_destructor f with Some "public" => r | des => put "destructor_visibility" (KText des) r end =
  if public_dec (c_destructor f) then r else put "destructor_visibility" (KText (c_destructor f)) r.
Proof.
  destruct (public_dec (c_destructor f)) as [->|N]; [reflexivity|]. destruct (c_destructor f) as [s|]; [|reflexivity].
  destruct (string_dec s "public") as [->|M]; [congruence|]. clear N.
  do 7 (destruct s as [|[[] [] [] [] [] [] [] []] s]; try reflexivity). congruence.
Qed.
Lemma public_text f : match c_destructor f with Some "public" => None | des => Some (KText des) end =
  if public_dec (c_destructor f) then None else Some (KText (c_destructor f)).
Proof.
  destruct (public_dec (c_destructor f)) as [->|N]; [reflexivity|]. destruct (c_destructor f) as [s|]; [|reflexivity].
  destruct (string_dec s "public") as [->|M]; [congruence|]. clear N.
  do 7 (destruct s as [|[[] [] [] [] [] [] [] []] s]; try reflexivity). congruence.
Qed.
Lemma apply_right f l kw r : apply_class_annotations f l kw = Ok r ->
  (forall K, dict_get (r_kwargs r) K = match dict_get kw K with Some x => Some x | None => match gifts l l K with Some x => Some x | None => extra f K end end) /\
  r_warned r = flat_map (fun x => one_complaint (fst x)) l /\ r_exception r = existsb (fun x => String.eqb (fst x) "exception") l /\ readable l.
Proof.
  unfold apply_class_annotations, extra. destruct (class_notes l l (mk_result kw [] false)) as [r0|] eqn:E; cbn [bind]; [|discriminate].
  apply notes_right in E. cbn [r_kwargs r_warned r_exception app orb] in E. destruct E as (A & B & C & D). cbv zeta. rewrite public_put.
  destruct (c_defined f).
  2:{ intros [= <-]. split; [|auto]. intros K. rewrite A. destruct (dict_get kw K); [reflexivity|]. now destruct (gifts l l K). }
  intros [= <-]. split; [|destruct (public_dec (c_destructor f)), (c_virtual f && negb (c_bases f)); cbn; auto].
  intros K. rewrite ?public_text. unfold put. destruct (public_dec (c_destructor f)), (c_virtual f && negb (c_bases f)); cbn [r_kwargs]; rewrite ?setdefault_get, A; destruct (dict_get kw K); try reflexivity; destruct (gifts l l K); try reflexivity;
    destruct (String.eqb_spec K "allow_subclassing") as [->|]; cbn; try reflexivity; now destruct (String.eqb K "destructor_visibility").
Qed.
Lemma apply_total f l kw : readable l -> exists r, apply_class_annotations f l kw = Ok r.
Proof. intros Rd. unfold apply_class_annotations. destruct (notes_total l l (mk_result kw [] false) Rd) as (r & ->). cbn [bind]. destruct (c_defined f); eauto. Qed.

Lemma bool_first l n b : says_boolean l n b -> exists v, first_of l [n] n v /\ parse_boolean v = Ok b.
Proof. intros (s & F & B). exists (Some s). split; [exact F|now apply boolean_parse]. Qed.
Lemma first_annotated l names : (exists n v, first_of l names n v) <-> exists n, In n names /\ annotated l n.
Proof.
  split.
  - intros (n & v & a & b & -> & I & _). exists n. split; [exact I|]. exists v. apply in_or_app. right. now left.
  - intros (n & I & v & H). induction l as [|[m u] l IH]; [destruct H|]. destruct (in_dec string_dec m names) as [J|O].
    + exists m, u, [], l. repeat split; [exact J|intros p q []].
    + destruct H as [H|H]; [injection H as -> ->; contradiction|]. destruct (IH H) as (p & q & a & b & E & J & F). exists p, q, ((m, u) :: a), b. split; [now rewrite E|]. split; [exact J|].
      intros x y [Q|Q]; [now injection Q as <- <-|exact (F x y Q)].
Qed.
Lemma no_gift l K : readable l -> gifts l l K = None -> forall n, In n (sources K) -> ~ annotated l n.
Proof.
  intros Rd G n I A. destruct (proj2 (first_annotated l (sources K))) as (m & v & F); [eauto|].
  assert (Q : exists x, gift l m v = Some (K, x)). { destruct F as (a & b & -> & J & _). apply source_gift; [|exact J]. intros Y. apply (Rd m v); [apply in_or_app; right; now left|exact Y]. }
  destruct Q as (x & Q). assert (X : gifts l l K = Some x) by (apply gifts_iff; [exact Rd|eauto]). congruence.
Qed.
Lemma says_gifts f l K x : readable l -> (says f l K x <-> gifts l l K = Some x \/ gifts l l K = None /\ extra f K = Some x).
Proof.
  intros Rd. split.
  - intros S. destruct S as [b S|N D V B|b S|b S|i d p F A B|i d F A|y F|n v F|v F|D N].
    + left. apply gifts_iff; [exact Rd|]. destruct (bool_first _ _ _ S) as (v & F & E). exists "allow_subclassing", v. split; [exact F|]. unfold gift, yes. cbn [String.eqb Ascii.eqb Bool.eqb]. now rewrite E.
    + right. split; [|unfold extra; now rewrite D, V, B]. destruct (gifts l l "allow_subclassing") as [y|] eqn:E; [|reflexivity]. apply gifts_iff in E; [|exact Rd]. destruct E as (n & v & F & _).
      elim N. destruct (proj1 (first_annotated l ["allow_subclassing"])) as (m & [<-|[]] & A); [exists n, v; exact F|exact A].
    + left. apply gifts_iff; [exact Rd|]. destruct (bool_first _ _ _ S) as (v & F & E). exists "is_singleton", v. split; [exact F|]. unfold gift, yes. cbn [String.eqb Ascii.eqb Bool.eqb]. now rewrite E.
    + left. apply gifts_iff; [exact Rd|]. destruct (bool_first _ _ _ S) as (v & F & E). exists "automatic_type_narrowing", v. split; [exact F|]. unfold gift, yes. cbn [String.eqb Ascii.eqb Bool.eqb]. now rewrite E.
    + left. apply gifts_iff; [exact Rd|]. apply text_get in A, B. subst. exists "incref_method", i. split; [exact F|reflexivity].
    + left. apply gifts_iff; [exact Rd|]. apply text_get in A. subst. exists "incref_function", i. split; [exact F|reflexivity].
    + left. apply gifts_iff; [exact Rd|]. exists "free_function", y. split; [exact F|reflexivity].
    + left. apply gifts_iff; [exact Rd|]. exists n, v. split; [exact F|]. destruct F as (_ & _ & _ & [<-|[<-|[]]] & _); reflexivity.
    + left. apply gifts_iff; [exact Rd|]. exists "import_from_module", v. split; [exact F|reflexivity].
    + right. split.
      * destruct (gifts l l "destructor_visibility") as [y|] eqn:E; [|reflexivity]. apply gifts_iff in E; [|exact Rd]. destruct E as (n & v & (_ & _ & _ & [] & _) & _).
      * unfold extra. rewrite D, public_text. cbn. destruct (public_dec (c_destructor f)); [contradiction|reflexivity].
  - intros [G|(G & E)].
    + apply gifts_iff in G; [|exact Rd]. destruct G as (n & v & F & G).
      assert (I : In n (sources K)) by (destruct F as (_ & _ & _ & I & _); exact I).
      assert (Rn : In n yes_or_no -> exists s b, v = Some s /\ boolean s b). { intros Y. apply (Rd n v); [|exact Y]. destruct F as (a & b & -> & _). apply in_or_app. right. now left. }
      unfold sources in F, I.
      Local Ltac bool_case Rn G F := destruct Rn as (s & b & -> & B); [cbn; tauto|]; unfold gift, yes in G; cbn [String.eqb Ascii.eqb Bool.eqb] in G; rewrite (boolean_parse _ _ B) in G; injection G as <-; constructor; exists s; split; assumption.
      repeat match type of F with context [String.eqb K ?k] => destruct (String.eqb_spec K k) as [->|] end; try (now destruct I).
      * destruct I as [<-|[]]. bool_case Rn G F.
      * destruct I as [<-|[]]. bool_case Rn G F.
      * destruct I as [<-|[]]. bool_case Rn G F.
      * destruct I as [<-|[<-|[<-|[]]]]; injection G as <-; [apply SMethods|apply SFunctions|apply SFree]; try exact F; now apply text_get.
      * destruct I as [<-|[<-|[]]]; injection G as <-; eapply SName; exact F.
      * destruct I as [<-|[]]; injection G as <-. apply SImport. exact F.
    + unfold extra in E. destruct (c_defined f) eqn:D; [|discriminate]. rewrite public_text in E. destruct (String.eqb_spec K "allow_subclassing") as [->|N]; cbn [andb] in E.
      * destruct (c_virtual f) eqn:V, (c_bases f) eqn:B; cbn in E; try discriminate. injection E as <-. apply SVirtual; try assumption. apply (no_gift l _ Rd G). now left.
      * destruct (String.eqb_spec K "destructor_visibility") as [->|]; [|discriminate]. destruct (public_dec (c_destructor f)) as [|Q]; [discriminate|]. injection E as <-. now apply SDestructor.
Qed.
Lemma complains_right l : complains l (flat_map (fun x => one_complaint (fst x)) l).
Proof.
  induction l as [|[n v] l IH]; cbn [flat_map fst]; [constructor|]. unfold one_complaint at 1. destruct (String.eqb_spec n "python_name") as [->|N]; [now constructor|].
  destruct (existsb (String.eqb n) understood) eqn:E; cbn [app].
  - apply existsb_exists in E. destruct E as (m & I & E). apply String.eqb_eq in E. subst m. now constructor.
  - apply CStrange; [|exact N|exact IH]. intros I. assert (X : existsb (String.eqb n) understood = true) by (apply existsb_exists; exists n; split; [exact I|apply String.eqb_refl]). congruence.
Qed.
Lemma complains_fun l c : complains l c -> forall c', complains l c' -> c = c'.
Proof.
  assert (P : ~ In "python_name" understood) by (cbn; intuition discriminate).
  induction 1 as [|v l c C IH|n v l c I C IH|n v l c O N C IH]; intros c' H; inversion H; subst; try congruence; try contradiction; try (f_equal; now apply IH); now apply IH.
Qed.
Lemma exception_right l : existsb (fun x : string * option string => String.eqb (fst x) "exception") l = true <-> annotated l "exception".
Proof.
  rewrite existsb_exists. split.
  - intros ([n v] & I & E). cbn in E. apply String.eqb_eq in E. subst. exists v. exact I.
  - intros (v & I). exists ("exception", v). split; [exact I|reflexivity].
Qed.
Lemma apply_iff f l kw : (exists r, apply_class_annotations f l kw = Ok r) <-> readable l.
Proof. split; [intros (r & H); now apply apply_right in H|apply apply_total]. Qed.
Lemma apply_sound f l kw r : apply_class_annotations f l kw = Ok r ->
  (forall K x, dict_get (r_kwargs r) K = Some x <-> dict_get kw K = Some x \/ dict_get kw K = None /\ says f l K x) /\
  complains l (r_warned r) /\ (r_exception r = true <-> annotated l "exception").
Proof.
  intros H. apply apply_right in H. destruct H as (A & B & C & D). split; [|split; [rewrite B; apply complains_right|rewrite C; apply exception_right]].
  intros K x. rewrite A. rewrite (says_gifts f l K x D). destruct (dict_get kw K) as [y|]; [split; [now left|intros [H|(H & _)]; [exact H|discriminate]]|].
  destruct (gifts l l K) as [y|]; split.
  - intros H. right. auto.
  - intros [H|(_ & [H|(H & _)])]; [discriminate|exact H|discriminate].
  - intros H. right. auto.
  - intros [H|(_ & [H|(_ & H)])]; [discriminate|discriminate|exact H].
Qed.
Lemma says_fun f l K x y : readable l -> says f l K x -> says f l K y -> x = y.
Proof. intros Rd A B. apply says_gifts in A, B; try exact Rd. destruct A as [A|(A & A')], B as [B|(B & B')]; congruence. Qed.
Lemma apply_unknown f l n v kw r r' : ~ In n understood -> n <> "python_name" ->
  apply_class_annotations f l kw = Ok r -> apply_class_annotations f (l ++ [(n, v)])%list kw = Ok r' ->
  (forall K, dict_get (r_kwargs r') K = dict_get (r_kwargs r) K) /\ r_warned r' = (r_warned r ++ [Ignored n])%list /\ r_exception r' = r_exception r.
Proof.
  intros O N H H'. apply apply_right in H, H'. destruct H as (A & B & C & D), H' as (A' & B' & C' & D').
  assert (Z : forall k, In k ("python_name" :: understood) -> String.eqb n k = false) by (intros k K; apply String.eqb_neq; intros ->; destruct K; [congruence|contradiction]).
  cbn [In understood] in Z.
  assert (Y : forall k, In k ("python_name" :: understood) -> String.eqb k n = false) by (intros k K; rewrite String.eqb_sym; now apply Z).
  assert (G : forall m, m <> n -> get (l ++ [(n, v)])%list m = get l m).
  { intros m M. unfold get. replace (dict_get (l ++ [(n, v)])%list m) with (dict_get l m); [reflexivity|]. clear - M. induction l as [|[a b] t IH]; cbn.
    - now rewrite (proj2 (String.eqb_neq m n) M).
    - now destruct (String.eqb m a). }
  assert (X : forall m u, gift (l ++ [(n, v)])%list m u = gift l m u).
  { intros m u. unfold gift. rewrite !G; [reflexivity|apply String.eqb_neq, Y; cbn; tauto..]. }
  assert (U : forall m u, m = n -> gift l m u = None).
  { intros m u ->. unfold gift. repeat match goal with |- context [String.eqb n ?k] => rewrite (Z k) by (cbn; tauto) end. reflexivity. }
  assert (W : forall K, gifts (l ++ [(n, v)])%list (l ++ [(n, v)])%list K = gifts l l K).
  { intros K. assert (Q : forall t, gifts (l ++ [(n, v)])%list (t ++ [(n, v)])%list K = gifts l t K).
    { induction t as [|[m u] t IH]; cbn [app gifts]; rewrite X; [now rewrite U|]. rewrite IH. reflexivity. }
    apply Q. }
  split; [intros K; now rewrite A, A', W|]. split.
  - rewrite B, B', flat_map_app. cbn [flat_map fst]. rewrite app_nil_r. f_equal. unfold one_complaint. rewrite (Z "python_name") by now left.
    destruct (existsb (String.eqb n) understood) eqn:E; [|reflexivity]. apply existsb_exists in E. destruct E as (m & I & E). apply String.eqb_eq in E. subst. contradiction.
  - rewrite C, C', existsb_app. cbn [existsb fst]. rewrite (Z "exception") by (cbn; tauto). now rewrite !Bool.orb_false_r.
Qed.
