(** Names, template arguments and mappings *)
From Coq Require Import Lia.
From Verif.Model Require Import Py Annotations FunctionScan.
From Verif.Spec Require Import AnnotationSpec FunctionScanSpec.
From Verif.Proofs Require Import StrLemmas AnnotationProofs.
Open Scope list_scope.
Open Scope string_scope.

Lemma strip_prefix_iff p : forall s r, strip_prefix p s = Some r <-> s = p ++ r.
Proof.
  induction p as [|a p IH]; intros s r; cbn [strip_prefix append]; [split; congruence|]. destruct s as [|b s]; [split; discriminate|].
  destruct (Ascii.eqb_spec a b) as [->|N]; [rewrite IH; split; [now intros ->|now intros [= ->]]|split; [discriminate|congruence]].
Qed.
Lemma strip_prefix_none p s : strip_prefix p s = None -> forall r, s <> p ++ r.
Proof. intros E r H. apply strip_prefix_iff in H. congruence. Qed.
Lemma after_sound name : forall s r, after name s = Some r -> comes_after name s r.
Proof.
  induction s as [|c t IH]; intros r; cbn [after].
  - destruct (strip_prefix name "") as [x|] eqn:E; [|discriminate]. intros [= ->]. apply strip_prefix_iff in E. exists "". split; [exact E|]. cbn. lia.
  - destruct (strip_prefix name (String c t)) as [x|] eqn:E.
    + intros [= ->]. apply strip_prefix_iff in E. exists "". split; [exact E|]. cbn. lia.
    + intros H. destruct (IH _ H) as (b & -> & M). exists (String c b). split; [reflexivity|]. intros a b' E'. destruct a as [|x a]; [now apply strip_prefix_none with (r := b') in E|].
      cbn [append] in E'. injection E' as -> E'. cbn [String.length]. specialize (M _ _ E'). lia.
Qed.
Lemma after_complete name : forall s before r, s = before ++ name ++ r -> exists r', after name s = Some r'.
Proof.
  induction s as [|c t IH]; intros b r E; cbn [after].
  - destruct b; [|discriminate]. cbn in E. symmetry in E. destruct name; [|discriminate]. exists "". reflexivity.
  - destruct (strip_prefix name (String c t)) as [x|] eqn:E'; [eauto|]. destruct b as [|x b]; [now apply strip_prefix_none with (r := r) in E'|].
    injection E as -> E. apply (IH _ _ E).
Qed.
Lemma comes_after_fun name s r r' : comes_after name s r -> comes_after name s r' -> r = r'.
Proof.
  intros (b & E & M) (b' & E' & M'). pose proof (M _ _ E') as L. pose proof (M' _ _ E) as L'. assert (X : String.length b = String.length b') by lia. rewrite E in E'. clear - X E'.
  revert b' X E'. induction b as [|c b IH]; intros [|c' b'] X E; try discriminate X; cbn [append] in E.
  - apply app_inv_head_s in E. exact E.
  - injection E as -> E. injection X as X. apply (IH b'); assumption.
Qed.
Lemma after_iff name s r : after name s = Some r <-> comes_after name s r.
Proof.
  split; [apply after_sound|]. intros H. destruct H as (b & E & M) eqn:Q. destruct (after_complete name s b r E) as (r' & E'). rewrite E'. f_equal. apply after_sound in E'.
  symmetry. eapply comes_after_fun; [|exact E']. exists b. split; assumption.
Qed.

Lemma check_iff s : check_template s = true <-> an_instance s.
Proof.
  induction s as [|c s IH]; cbn [check_template].
  - split; [discriminate|]. intros ([|] & r & E & _); discriminate.
  - destruct (Ascii.eqb_spec c " ") as [->|N].
    + rewrite IH. split.
      * intros (b & r & -> & A). exists (String " " b), r. split; [reflexivity|]. intros c [<-|H]; [reflexivity|exact (A c H)].
      * intros (b & r & E & A). destruct b as [|x b]; [discriminate|]. injection E as <- ->. exists b, r. split; [reflexivity|]. intros c H. apply A. right. exact H.
    + split.
      * intros E. apply Ascii.eqb_eq in E. subst. exists "", s. split; [reflexivity|]. intros c [].
      * intros (b & r & E & A). destruct b as [|x b]; [injection E as -> ->; reflexivity|]. injection E as <- ->. elim N. apply A. left. reflexivity.
Qed.

(** [n] closing brackets between balanced texts *)
Fixpoint closes (n : nat) (t : string) : Prop :=
  match n with O => balanced t | S m => exists a b, t = a ++ ">" ++ b /\ balanced a /\ closes m b end.
Lemma closes_char n c t : c <> "<"%char -> c <> ">"%char -> closes n t -> closes n (String c t).
Proof.
  intros A B. destruct n; cbn [closes]; [now constructor|]. intros (a & b & -> & X & Y). exists (String c a), b. repeat split; [|exact Y]. now constructor.
Qed.
Lemma argument_text_sound : forall s n t, argument_text n s = Some t -> closes n t /\ exists r, s = t ++ ">" ++ r.
Proof.
  induction s as [|c s IH]; intros n t; cbn [argument_text]; [discriminate|].
  destruct (Ascii.eqb_spec c "<") as [->|N1].
  - destruct (argument_text (S n) s) as [u|] eqn:E; [|discriminate]. intros [= <-]. destruct (IH _ _ E) as ((a & b & -> & X & Y) & r & ->). split; [|exists r; reflexivity].
    destruct n as [|n]; cbn [closes] in Y |- *; [exact (BPair _ _ X Y)|]. destruct Y as (a' & b' & -> & Z & W). exists ("<" ++ a ++ ">" ++ a'), b'.
    repeat split; [|exact (BPair _ _ X Z)|exact W]. cbn [append]. now rewrite !app_assoc_s.
  - destruct (Ascii.eqb_spec c ">") as [->|N2].
    + destruct n as [|n]; [intros [= <-]; split; [constructor|exists s; reflexivity]|]. destruct (argument_text n s) as [u|] eqn:E; [|discriminate]. intros [= <-].
      destruct (IH _ _ E) as (X & r & ->). split; [exists "", u; repeat split; [constructor|exact X]|exists r; reflexivity].
    + destruct (argument_text n s) as [u|] eqn:E; [|discriminate]. intros [= <-]. destruct (IH _ _ E) as (X & r & ->). split; [now apply closes_char|exists r; reflexivity].
Qed.
Lemma argument_text_balanced t : balanced t -> forall n s, argument_text n (t ++ s) = option_map (append t) (argument_text n s).
Proof.
  induction 1 as [|c t A B H IH|a b X IHa Y IHb]; intros n s.
  - cbn [append]. now destruct (argument_text n s).
  - cbn [append argument_text]. rewrite (proj2 (Ascii.eqb_neq c "<") A), (proj2 (Ascii.eqb_neq c ">") B), IH. now destruct (argument_text n s).
  - cbn [append argument_text Ascii.eqb]. change (argument_text (S n) ((a ++ String ">" b) ++ s)) with (argument_text (S n) ((a ++ String ">" b) ++ s)).
    cbn. rewrite app_assoc_s, IHa. cbn [append argument_text]. cbn. rewrite IHb. destruct (argument_text n s); cbn; [|reflexivity]. now rewrite app_assoc_s.
Qed.
Lemma argument_text_iff s t : argument_text 0 s = Some t <-> balanced t /\ exists r, s = t ++ ">" ++ r.
Proof.
  split; [apply argument_text_sound|]. intros (B & r & ->). rewrite argument_text_balanced by exact B. cbn. now rewrite app_nil_r_s.
Qed.
Lemma pieces_iff c s l : pieces c s l <-> split_char c s = l.
Proof.
  split.
  - intros (N & H & ->). apply split_char_unique; [exact N| |reflexivity]. apply Forall_forall. exact H.
  - intros <-. repeat split; [apply split_char_nonempty| |symmetry; apply split_char_join]. apply Forall_forall. exact (split_char_no_sep c s).
Qed.
Lemma get_template_arg_iff s : check_template s = true -> forall targs, get_template_arg s = targs <-> instance_arguments s targs.
Proof.
  intros C. assert (T : forall text, instance_text s text <-> exists u, (fix skip s := match s with EmptyString => None | String c r => if Ascii.eqb c " " then skip r else Some r end) s = Some u /\ argument_text 0 u = Some text).
  { clear - C. induction s as [|c s IH]; cbn [check_template] in C; [discriminate|]. intros text. destruct (Ascii.eqb_spec c " ") as [->|N].
    - rewrite <- IH by exact C. split.
      + intros (b & r & E & A & B). destruct b as [|x b]; [discriminate|]. injection E as <- ->. exists b, r. repeat split; [|exact B]. intros c H. apply A. right. exact H.
      + intros (b & r & -> & A & B). exists (String " " b), r. repeat split; [|exact B]. intros c [<-|H]; [reflexivity|exact (A c H)].
    - apply Ascii.eqb_eq in C. subst c. split.
      + intros (b & r & E & A & B). destruct b as [|x b]; [|injection E as <- _; assert (X : "<"%char = " "%char) by (apply A; left; reflexivity); discriminate X]. cbn [append] in E. injection E as ->. eexists. split; [reflexivity|].
        apply argument_text_iff. split; [exact B|exists r; reflexivity].
      + intros (u & [= <-] & H). apply argument_text_iff in H. destruct H as (B & r & ->). exists "", r. repeat split; [intros c []|exact B]. }
  assert (G : get_template_arg s = match (fix skip s := match s with EmptyString => None | String c r => if Ascii.eqb c " " then skip r else Some r end) s with Some u => option_map (split_char ",") (argument_text 0 u) | None => None end).
  { clear. induction s as [|c s IH]; cbn [get_template_arg]; [reflexivity|]. destruct (Ascii.eqb c " "); [exact IH|reflexivity]. }
  rewrite G. destruct ((fix skip s := match s with EmptyString => None | String c r => if Ascii.eqb c " " then skip r else Some r end) s) as [u|].
  2:{ intros [l|]; split; try discriminate; try reflexivity.
      - intros (t & H & _). apply T in H. destruct H as (u & X & _). discriminate.
      - intros _ t H. apply T in H. destruct H as (u & X & _). discriminate. }
  destruct (argument_text 0 u) as [t|] eqn:E; cbn [option_map]; intros [l|]; split; try discriminate.
  - intros [= <-]. exists t. split; [apply T; eauto|now apply pieces_iff].
  - intros (t' & H & Q). apply T in H. destruct H as (u' & [= <-] & H). rewrite E in H. injection H as ->. apply pieces_iff in Q. now rewrite Q.
  - intros H. elim (H t). apply T. eauto.
  - intros (t' & H & Q). apply T in H. destruct H as (u' & [= <-] & H). congruence.
  - intros _ t H. apply T in H. destruct H as (u' & [= <-] & H). congruence.
  - reflexivity.
Qed.

(** ** Mappings *)
Lemma inside_cons p c s : inside p s -> inside p (String c s).
Proof. intros (a & b & ->). exists (String c a), b. reflexivity. Qed.
Lemma split_arrow_nonempty s : split_arrow s <> [].
Proof.
  destruct s as [|c s]; cbn [split_arrow]; [discriminate|]. destruct s as [|d t]; [cbn; discriminate|]. destruct (Ascii.eqb c "=" && Ascii.eqb d ">"); [discriminate|].
  destruct (split_arrow (String d t)); discriminate.
Qed.
Lemma split_arrow_step c r : (forall t, String c r <> "=>" ++ t) ->
  split_arrow (String c r) = match split_arrow r with [] => [String c ""] | x :: l => String c x :: l end.
Proof.
  intros H. cbn [split_arrow]. destruct r as [|d t]; [reflexivity|]. destruct (Ascii.eqb_spec c "=") as [->|]; [|reflexivity]. destruct (Ascii.eqb_spec d ">") as [->|]; [|reflexivity].
  elim (H t). reflexivity.
Qed.
Lemma inside_step c r : inside "=>" (String c r) -> (exists t, String c r = "=>" ++ t) \/ inside "=>" r.
Proof. intros (a & b & E). destruct a as [|x a]; [left; exists b; exact E|]. injection E as <- ->. right. exists a, b. reflexivity. Qed.
Lemma split_arrow_none s : ~ inside "=>" s -> split_arrow s = [s].
Proof.
  induction s as [|c s IH]; intros N; [reflexivity|]. rewrite split_arrow_step; [|intros t E; apply N; exists "", t; exact E]. rewrite IH; [reflexivity|].
  intros H. apply N, inside_cons, H.
Qed.
Lemma split_arrow_app x z : ~ inside "=>" x -> split_arrow (x ++ "=>" ++ z) = x :: split_arrow z.
Proof.
  induction x as [|c x IH]; intros N; [reflexivity|]. cbn [append]. rewrite split_arrow_step.
  - cbn [append] in IH. rewrite IH; [reflexivity|]. intros H. apply N, inside_cons, H.
  - intros t E. destruct x as [|d x]; [cbn in E; injection E as _ E; discriminate|]. cbn [append] in E. injection E as -> -> _. apply N. exists "", x. reflexivity.
Qed.
Lemma split_arrow_sound : forall n s, (String.length s <= n)%nat -> forall x l, split_arrow s = x :: l ->
  ~ inside "=>" x /\ match l with [] => s = x | _ => exists z, s = x ++ "=>" ++ z /\ split_arrow z = l end.
Proof.
  assert (E0 : ~ inside "=>" "") by (intros ([|] & b & E); discriminate).
  induction n as [|n IH]; intros s L x l.
  - destruct s; [|cbn in L; lia]. cbn. intros [= <- <-]. split; [exact E0|reflexivity].
  - destruct s as [|c r]; [cbn; intros [= <- <-]; split; [exact E0|reflexivity]|]. destruct (strip_prefix "=>" (String c r)) as [t|] eqn:E.
    + apply strip_prefix_iff in E. rewrite E. cbn [append split_arrow]. intros [= <- <-]. split; [exact E0|]. pose proof (split_arrow_nonempty t). destruct (split_arrow t) eqn:Q; [congruence|].
      exists t. split; [reflexivity|exact Q].
    + pose proof (strip_prefix_none _ _ E) as N. rewrite split_arrow_step by exact N. cbn [String.length] in L. destruct (split_arrow r) as [|y m] eqn:Q; [now apply split_arrow_nonempty in Q|].
      intros [= <- <-]. destruct (IH r ltac:(lia) _ _ Q) as (A & B). split.
      * intros I. apply inside_step in I. destruct I as [(t & X)|I]; [|exact (A I)]. destruct y as [|d y]; [discriminate|]. cbn [append] in X. injection X as -> -> <-.
        destruct m; [subst r|destruct B as (z & -> & _)]; (eapply N; reflexivity).
      * destruct m; [now subst|]. destruct B as (z & -> & B). exists z. split; [reflexivity|exact B].
Qed.
Lemma split_arrow_two s a b : split_arrow s = [a; b] <-> s = a ++ "=>" ++ b /\ ~ inside "=>" a /\ ~ inside "=>" b.
Proof.
  split.
  - intros E. destruct (split_arrow_sound _ s (le_n _) _ _ E) as (A & z & -> & Q). destruct (split_arrow_sound _ z (le_n _) _ _ Q) as (B & ->). auto.
  - intros (-> & A & B). rewrite split_arrow_app by exact A. now rewrite split_arrow_none.
Qed.
Lemma same_list_iff : forall a b, same_list a b = true <-> a = b.
Proof.
  induction a as [|x a IH]; intros [|y b]; cbn [same_list]; try (split; (reflexivity || discriminate)). rewrite Bool.andb_true_iff, String.eqb_eq, IH. split; [intros (-> & ->); reflexivity|intros [= -> ->]; auto].
Qed.
Lemma same_types_iff targs l : same_types targs l = true <-> targs = Some l.
Proof. destruct targs as [x|]; cbn [same_types]; [rewrite same_list_iff; split; congruence|split; discriminate]. Qed.
Lemma instance_name_iff targs l n : instance_name targs l = Ok n <-> mapped targs l n.
Proof.
  split.
  - revert n. induction l as [|m l IH]; intros n; cbn [instance_name]; [intros [= <-]; constructor|]. destruct (split_arrow m) as [|a [|b [|? ?]]] eqn:E; try discriminate.
    apply split_arrow_two in E. destruct E as (-> & A & B). destruct (same_types targs (split_char "," a)) eqn:S.
    + intros [= <-]. apply same_types_iff in S. apply (MThis targs a b _ _ A B (proj2 (pieces_iff _ _ _) eq_refl) S).
    + intros H. apply (MLater targs a b _ _ _ A B (proj2 (pieces_iff _ _ _) eq_refl)); [|exact (IH _ H)]. intros X. apply same_types_iff in X. congruence.
  - induction 1 as [|types name ty r A B Q S|types name ty r n A B Q S M IH]; cbn [instance_name]; [reflexivity| |].
    + rewrite (proj2 (split_arrow_two _ types name)) by auto. apply pieces_iff in Q. rewrite Q, (proj2 (same_types_iff _ _) S). reflexivity.
    + rewrite (proj2 (split_arrow_two _ types name)) by auto. apply pieces_iff in Q. rewrite Q. destruct (same_types targs ty) eqn:X; [apply same_types_iff in X; contradiction|exact IH].
Qed.
