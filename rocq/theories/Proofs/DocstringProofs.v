(** Docstrings. *)
From Verif.Model Require Import Py Docstring.
From Verif.Spec Require Import DocstringSpec.
From Coq Require Import Permutation Sorted Lia.
Open Scope list_scope.
Open Scope string_scope.

Lemma app_assoc_s (a b c : string) : (a ++ b) ++ c = a ++ b ++ c.
Proof. induction a; cbn; congruence. Qed.
Lemma app_nil_s (a : string) : a ++ "" = a.
Proof. induction a; cbn; congruence. Qed.
Lemma escaped_app a b : escaped (a ++ b) = escaped a ++ escaped b.
Proof. induction a as [|c a IH]; [reflexivity|]. cbn. rewrite IH. now rewrite app_assoc_s. Qed.
Lemma plain_tail c s : plain (String c s) -> plain s.
Proof. intros P x H. apply P. now right. Qed.
Lemma escaped_plain s : plain s -> escaped s = s.
Proof.
  induction s as [|c s IH]; intros P; [reflexivity|]. cbn [escaped]. destruct (P c (or_introl eq_refl)) as (A & B & C & _). rewrite (IH (plain_tail _ _ P)).
  apply Ascii.eqb_neq in A, B, C. rewrite A, B, C. reflexivity.
Qed.
Lemma plain_app a b : plain a -> plain b -> plain (a ++ b).
Proof. intros A B. induction a as [|c a IH]; [exact B|]. intros x [<-|H]; [apply A; now left|]. exact (IH (plain_tail _ _ A) x H). Qed.
Lemma plain_no_nul s : plain s -> no_nul s.
Proof. intros P H. now apply P in H. Qed.
Lemma list_app_s a b : list_ascii_of_string (a ++ b) = (list_ascii_of_string a ++ list_ascii_of_string b)%list.
Proof. induction a; cbn; congruence. Qed.
Lemma no_nul_app a b : no_nul a -> no_nul b -> no_nul (a ++ b).
Proof. unfold no_nul. rewrite list_app_s, in_app_iff. tauto. Qed.

Lemma literal_escaped t r : literal LNormal (escaped t ++ r) = option_map (fun x => (t ++ fst x, snd x)) (literal LNormal r).
Proof.
  induction t as [|c t IH].
  - cbn. destruct (literal LNormal r) as [[v w]|]; reflexivity.
  - cbn [escaped]. destruct (Ascii.eqb_spec c """") as [->|A]; [|destruct (Ascii.eqb_spec c "\") as [->|B]; [|destruct (Ascii.eqb_spec c newline) as [->|C]]].
    + rewrite app_assoc_s. cbn -[literal]. cbn [literal]. cbn -[literal append escaped]. rewrite IH. destruct (literal LNormal r) as [[v w]|]; reflexivity.
    + rewrite app_assoc_s. cbn -[literal]. cbn [literal]. cbn -[literal append escaped]. rewrite IH. destruct (literal LNormal r) as [[v w]|]; reflexivity.
    + rewrite app_assoc_s. cbn -[literal]. cbn [literal]. cbn -[literal append escaped]. rewrite IH. destruct (literal LNormal r) as [[v w]|]; reflexivity.
    + cbn [append literal]. apply Ascii.eqb_neq in A, B. rewrite A, B. assert (C' : Ascii.eqb c nl_char = false) by (apply Ascii.eqb_neq; exact C). rewrite C'. rewrite IH. destruct (literal LNormal r) as [[v w]|]; reflexivity.
Qed.
Lemma c_string_id s : no_nul s -> c_string s = s.
Proof.
  induction s as [|c s IH]; intros N; [reflexivity|]. cbn [c_string]. destruct (Ascii.eqb_spec c (ascii_of_nat 0)) as [->|A]; [elim N; now left|]. f_equal. apply IH. intros H. apply N. now right.
Qed.
Lemma compiled_escaped t : no_nul t -> compiled (in_quotes (escaped t)) = Some (Some t).
Proof.
  intros N. unfold compiled. assert (E : String.eqb (in_quotes (escaped t)) "NULL" = false) by reflexivity. rewrite E. unfold in_quotes at 2. cbn [literals]. rewrite literal_escaped. cbn. rewrite app_nil_s, (c_string_id t N). reflexivity.
Qed.

(** ** Signatures *)
Lemma after_prefix_spec p : forall s r, after_prefix p s = Some r -> s = p ++ r.
Proof.
  induction p as [|a p IH]; intros s r; cbn; [now intros [= ->]|]. destruct s as [|b s]; [discriminate|]. destruct (Ascii.eqb_spec a b) as [->|]; [|discriminate]. intros H. now rewrite (IH s r H).
Qed.
Lemma skip_spec s : forall r, skip_signature s = Some r -> exists a, s = a ++ end_marker ++ r.
Proof.
  induction s as [|c s IH]; intros r H; [discriminate|]. cbn [skip_signature] in H. destruct (after_prefix end_marker (String c s)) as [x|] eqn:E.
  - injection H as ->. exists "". exact (after_prefix_spec _ _ _ E).
  - destruct s as [|d s]; [discriminate|]. destruct (_ && _); [discriminate|]. destruct (IH r H) as [a A]. exists (String c a). cbn [append]. now rewrite <- A.
Qed.
Lemma without_none name t : ~ has_signature name t -> without_signature name t = t.
Proof.
  intros N. unfold without_signature. destruct (after_prefix (name ++ "(") t) as [rest|] eqn:E; [|reflexivity]. apply after_prefix_spec in E.
  destruct (skip_signature ("(" ++ rest)) as [d|] eqn:K; [|reflexivity]. exfalso. apply skip_spec in K. destruct K as [a A]. destruct a as [|c a]; [discriminate A|]. cbn in A. injection A as <- A. apply N.
  exists a, d. rewrite E, app_assoc_s. cbn [append]. f_equal. now rewrite A.
Qed.
Lemma doc_of_text name t : ~ has_signature name t -> doc_of name (Some t) = text t.
Proof. intros N. unfold doc_of, text. rewrite (without_none name t N). reflexivity. Qed.

(** ** Lines *)
Definition no_newline (s : string) : Prop := ~ In nl_char (list_ascii_of_string s).
Lemma plain_no_newline s : plain s -> no_newline s.
Proof. intros P H. now apply P in H. Qed.
Lemma lines_nonempty s : split_char nl_char s <> [].
Proof. destruct s as [|c s]; cbn [split_char]; [discriminate|]. destruct (Ascii.eqb c nl_char); [discriminate|]. destruct (split_char nl_char s); discriminate. Qed.
Lemma lines_cons p r : no_newline p -> split_char nl_char (p ++ nl ++ r) = p :: split_char nl_char r.
Proof.
  induction p as [|c p IH]; intros N; [reflexivity|]. cbn [append split_char]. destruct (Ascii.eqb_spec c nl_char) as [->|]; [elim N; now left|]. rewrite IH; [reflexivity|]. intros H. apply N. now right.
Qed.
Lemma lines_one p : no_newline p -> split_char nl_char p = [p].
Proof.
  induction p as [|c p IH]; intros N; [reflexivity|]. cbn [split_char]. destruct (Ascii.eqb_spec c nl_char) as [->|]; [elim N; now left|]. rewrite IH; [reflexivity|]. intros H. apply N. now right.
Qed.
Lemma lines_later a b l : In l (split_char nl_char b) -> In l (split_char nl_char (a ++ nl ++ b)).
Proof.
  intros H. induction a as [|c a IH]; [right; exact H|]. cbn [append split_char]. destruct (Ascii.eqb c nl_char); [right; exact IH|].
  assert (X : exists y ys, split_char nl_char (a ++ nl ++ b) = y :: ys /\ In l ys).
  { clear - H. induction a as [|d a IH]; [exists "", (split_char nl_char b); split; [reflexivity|exact H]|]. cbn [append split_char]. destruct IH as (y & ys & E & I0). rewrite E. destruct (Ascii.eqb d nl_char); [exists "", (y :: ys); split; [reflexivity|now right]|exists (String d y), ys; auto]. }
  destruct X as (y & ys & -> & I0). now right.
Qed.
Lemma signature_line name t : has_signature name t -> In "--" (split_char nl_char t).
Proof.
  intros (a & b & ->). replace (name ++ "(" ++ a ++ ")" ++ nl ++ "--" ++ nl ++ nl ++ b) with ((name ++ "(" ++ a ++ ")") ++ nl ++ "--" ++ nl ++ nl ++ b) by (now rewrite !app_assoc_s).
  apply lines_later. rewrite (lines_cons "--"); [now left|]. intros X. vm_compute in X. intuition discriminate.
Qed.
Lemma lines_separated l : (forall x, In x l -> no_newline x) -> forall x, In x (split_char nl_char (separated nl l)) -> In x l \/ x = "".
Proof.
  induction l as [|y l IH]; intros N x H; [cbn in H; intuition|]. cbn [separated] in H. destruct l as [|z l].
  - rewrite lines_one in H; [|apply N; now left]. left. exact H.
  - rewrite lines_cons in H; [|apply N; now left]. destruct H as [<-|H]; [left; now left|]. destruct (IH (fun x H => N x (or_intror H)) x H); [left; now right|now right].
Qed.
Lemma joined_separated sep l : joined sep l = separated sep l.
Proof. induction l as [|x l IH]; [reflexivity|]. cbn [joined separated]. destruct l; [reflexivity|]. now rewrite IH. Qed.
Lemma separated_plain sep l : plain sep -> (forall x, In x l -> plain x) -> plain (separated sep l).
Proof.
  intros S0. induction l as [|x [|y l] IH]; intros H; [intros c []|apply H; now left|]. cbn [separated] in *. apply plain_app; [apply H; now left|]. apply plain_app; [exact S0|]. apply IH. intros z Hz. apply H. now right.
Qed.
Lemma separated_no_nul sep l : no_nul sep -> (forall x, In x l -> no_nul x) -> no_nul (separated sep l).
Proof.
  intros S0. induction l as [|x [|y l] IH]; intros H; [intros []|apply H; now left|]. cbn [separated] in *. apply no_nul_app; [apply H; now left|]. apply no_nul_app; [exact S0|]. apply IH. intros z Hz. apply H. now right.
Qed.
Lemma separated_escaped l : (forall x, In x l -> plain x) -> escaped (separated nl l) = separated backslash_n l.
Proof.
  induction l as [|x [|y l] IH]; intros H; [reflexivity|apply escaped_plain, H; now left|]. cbn [separated] in *. rewrite !escaped_app, IH by (intros z Hz; apply H; now right). rewrite (escaped_plain x) by (apply H; now left). reflexivity.
Qed.
Ltac plains := repeat (apply plain_app); try assumption; try (intros ? X; cbn in X; intuition (subst; discriminate)).
Lemma type_line_plain (p : string * string) : plain (fst p) -> plain (snd p) -> plain ("type: " ++ fst p ++ ": " ++ snd p).
Proof. intros A B. plains. Qed.
Lemma not_dashes_paren a b c : a ++ "(" ++ b ++ c <> "--".
Proof. intros E. assert (X : In "("%char (list_ascii_of_string "--")) by (rewrite <- E, !list_app_s; apply in_or_app; right; now left). cbn in X. intuition discriminate. Qed.

Lemma generated_escaped name f : plain name -> (forall p, In p (f_params f) -> plain (fst p) /\ plain (snd p)) -> generate_docstring name f = escaped (described name (f_params f)).
Proof.
  intros Pn Pp. unfold generate_docstring, described. rewrite !joined_separated.
  assert (P1 : plain (separated ", " (map fst (f_params f)))). { apply separated_plain; [plains|]. intros x H. apply in_map_iff in H. destruct H as (p & <- & H). now apply Pp. }
  assert (P2 : forall x, In x (map (fun p => "type: " ++ fst p ++ ": " ++ snd p) (f_params f)) -> plain x). { intros x H. apply in_map_iff in H. destruct H as (p & <- & H). destruct (Pp p H). now apply type_line_plain. }
  rewrite !escaped_app, (separated_escaped _ P2), (escaped_plain name Pn), (escaped_plain _ P1). cbn [escaped]. rewrite !app_assoc_s. reflexivity.
Qed.
Lemma described_no_nul name ps : plain name -> (forall p, In p ps -> plain (fst p) /\ plain (snd p)) -> no_nul (described name ps).
Proof.
  intros Pn Pp. unfold described. repeat apply no_nul_app; try (intros X; cbn in X; intuition discriminate).
  - now apply plain_no_nul.
  - apply plain_no_nul, separated_plain; [plains|]. intros x H. apply in_map_iff in H. destruct H as (p & <- & H). now apply Pp.
  - apply separated_no_nul; [intros X; cbn in X; intuition discriminate|]. intros x H. apply in_map_iff in H. destruct H as (p & <- & H). destruct (Pp p H). now apply plain_no_nul, type_line_plain.
Qed.
Lemma described_no_signature n name ps : plain name -> (forall p, In p ps -> plain (fst p) /\ plain (snd p)) -> ~ has_signature n (described name ps).
Proof.
  intros Pn Pp H. apply signature_line in H. unfold described in H.
  assert (P1 : plain (name ++ "(" ++ separated ", " (map fst ps) ++ ")")). { plains. apply separated_plain; [plains|]. intros x X. apply in_map_iff in X. destruct X as (p & <- & X). now apply Pp. }
  replace (name ++ "(" ++ separated ", " (map fst ps) ++ ")" ++ nl ++ nl ++ separated nl (map (fun p => "type: " ++ fst p ++ ": " ++ snd p) ps))
    with ((name ++ "(" ++ separated ", " (map fst ps) ++ ")") ++ nl ++ "" ++ nl ++ separated nl (map (fun p => "type: " ++ fst p ++ ": " ++ snd p) ps)) in H by (now rewrite !app_assoc_s).
  rewrite lines_cons in H by (now apply plain_no_newline). rewrite lines_cons in H by (intros []). destruct H as [H|[H|H]]; [now apply not_dashes_paren in H|discriminate|].
  apply lines_separated in H.
  - destruct H as [H|H]; [|discriminate]. apply in_map_iff in H. destruct H as (p & H & _). discriminate.
  - intros x X. apply in_map_iff in X. destruct X as (p & <- & X). destruct (Pp p X). now apply plain_no_newline, type_line_plain.
Qed.

(** ** Overloads *)
Lemma given_in l d : In d (given l) <-> exists f, In f l /\ f_doc f = Some d.
Proof.
  induction l as [|f l IH]; cbn [given]; [split; [intros []|intros (f & [] & _)]|]. destruct (f_doc f) as [x|] eqn:E.
  - destruct (existsb (String.eqb x) (given l)) eqn:X.
    + rewrite IH. split; [intros (g & H & D); exists g; split; [now right|assumption]|]. intros (g & [<-|H] & D); [|eauto]. rewrite E in D. injection D as ->. apply existsb_exists in X. destruct X as (y & H & Y). apply String.eqb_eq in Y. subst y. now apply IH.
    + cbn [In]. rewrite IH. split.
      * intros [<-|(g & H & D)]; [exists f; split; [now left|assumption]|exists g; split; [now right|assumption]].
      * intros (g & [<-|H] & D); [left; congruence|right; eauto].
  - rewrite IH. split; [intros (g & H & D); exists g; split; [now right|assumption]|]. intros (g & [<-|H] & D); [congruence|eauto].
Qed.
Lemma given_nodup l : NoDup (given l).
Proof.
  induction l as [|f l IH]; cbn [given]; [constructor|]. destruct (f_doc f) as [x|]; [|assumption]. destruct (existsb (String.eqb x) (given l)) eqn:X; [assumption|]. constructor; [|assumption].
  intros H. assert (E : existsb (String.eqb x) (given l) = true) by (apply existsb_exists; exists x; split; [assumption|apply String.eqb_refl]). congruence.
Qed.
Lemma given_none l : (forall f, In f l -> f_doc f = None) -> given l = [].
Proof. intros H. destruct (given l) as [|d r] eqn:E; [reflexivity|]. assert (X : In d (given l)) by (rewrite E; now left). apply given_in in X. destruct X as (f & Hf & D). rewrite (H f Hf) in D. discriminate. Qed.
Lemma given_one l d : (exists f, In f l /\ f_doc f = Some d) -> (forall f e, In f l -> f_doc f = Some e -> e = d) -> given l = [d].
Proof.
  intros H1 H2. apply given_in in H1. assert (A : forall x, In x (given l) -> x = d) by (intros x X; apply given_in in X; destruct X as (f & Hf & D); eauto). pose proof (given_nodup l) as N.
  destruct (given l) as [|x [|y r]]; [destruct H1|f_equal; apply A; now left|]. exfalso. inversion_clear N as [|? ? N1 N2]. apply N1. left. rewrite (A x), (A y); auto; cbn; auto.
Qed.
Lemma given_two l d e : (exists f, In f l /\ f_doc f = Some d) -> (exists f, In f l /\ f_doc f = Some e) -> d <> e -> exists x y r, given l = x :: y :: r.
Proof. intros H1 H2 N. apply given_in in H1, H2. destruct (given l) as [|x [|y r]]; [destruct H1| |eauto]. cbn in H1, H2. exfalso. intuition congruence. Qed.

(** ** Sorting *)
Lemma insert_perm x l : Permutation (x :: l) (insert x l).
Proof. induction l as [|y l IH]; cbn; [reflexivity|]. destruct (Nat.leb _ _); [reflexivity|]. rewrite perm_swap. now constructor. Qed.
Lemma insert_sorted x l : StronglySorted (fun a b => String.length b <= String.length a) l -> StronglySorted (fun a b => String.length b <= String.length a) (insert x l).
Proof.
  induction l as [|y l IH]; cbn; intros S0; [repeat constructor|]. inversion_clear S0 as [|? ? S1 S2]. destruct (Nat.leb_spec (String.length y) (String.length x)).
  - constructor; [now constructor|]. constructor; [assumption|]. rewrite Forall_forall in *. intros z Hz. specialize (S2 z Hz). cbn in *. lia.
  - constructor; [now apply IH|]. rewrite Forall_forall in *. intros z Hz. apply (Permutation_in _ (Permutation_sym (insert_perm x l))) in Hz. destruct Hz as [<-|Hz]; [cbn; lia|auto].
Qed.
Lemma insert_stable x l n : StronglySorted (fun a b => String.length b <= String.length a) l ->
  filter (fun y => Nat.eqb (String.length y) n) (insert x l) = filter (fun y => Nat.eqb (String.length y) n) (x :: l).
Proof.
  induction l as [|y l IH]; intros S0; [reflexivity|]. cbn [insert]. destruct (Nat.leb_spec (String.length y) (String.length x)) as [L|L]; [reflexivity|]. inversion_clear S0 as [|? ? S1 S2]. cbn [filter] in *. rewrite (IH S1).
  destruct (Nat.eqb_spec (String.length y) n), (Nat.eqb_spec (String.length x) n); try reflexivity. lia.
Qed.
Lemma longest_first_spec l : by_length l (longest_first l).
Proof.
  induction l as [|x l (P & S0 & F)]; cbn [longest_first]; [repeat split; constructor|]. split; [|split].
  - rewrite <- insert_perm. now constructor.
  - now apply insert_sorted.
  - intros n. rewrite insert_stable by assumption. cbn [filter]. now rewrite F.
Qed.
Lemma plain_no_signature name d : plain d -> ~ has_signature name d.
Proof. intros P (a & b & E). apply plain_no_newline in P. apply P. rewrite E, !list_app_s. do 3 (apply in_or_app; right). apply in_or_app. right. now left. Qed.
