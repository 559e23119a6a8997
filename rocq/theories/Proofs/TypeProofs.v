(** C12, C13: spelling and meaning of type names. *)
From Verif.Model Require Import Py Tokenizer CType.
From Verif.Spec Require Import TypeSpec.
From Verif.Proofs Require Import LexProofs ReorderProofs ParseProofs.
From Coq Require Import Lia.
Open Scope string_scope.
Open Scope list_scope.

(** *** C12 *)
Definition good (t : token) : Prop := reads_back t /\ strip_scope t = t.

Lemma gt_good : good gt_token.
Proof.
  split; [|reflexivity]. exists ">"%char, "". split; [reflexivity|]. split; [reflexivity|]. intros q rest Q _.
  stops Q ltac:(reflexivity).
Qed.

Lemma namestr_strip n : namestr (String ":" (String ":" n)) -> namestr n.
Proof. intros H. inversion H as [|c m V X E|m X E]; subst; [discriminate V|exact X]. Qed.

Lemma strip_id t : (forall r, t_name t <> String ":" (String ":" r)) -> strip_scope t = t.
Proof.
  intros H. unfold strip_scope. destruct (t_name t) as [|a [|b r]] eqn:E; try reflexivity.
  destruct (Ascii.eqb_spec a ":"%char) as [->|]; [|reflexivity]. destruct (Ascii.eqb_spec b ":"%char) as [->|]; [|reflexivity].
  exfalso. now apply (H r).
Qed.

Lemma lexed_good c r t rest : is_space c = false -> lex1 c r = Ok (Some t, rest) -> clean_name (t_name t) -> good (strip_scope t).
Proof.
  intros S H C. destruct (lex1_reads_back _ _ _ _ H S) as [[T [N [d [n [E D]]]]]|[T [R X]]].
  - destruct t as [ty nm]. cbn in T, N, E, C. subst ty.
    destruct D as [[V G]| ->].
    + rewrite strip_id.
      * split; [apply name_reads_back; [exact N|now exists d, n]|].
        apply strip_id. intros r' Y. cbn in Y. rewrite E in Y. injection Y as -> _. discriminate V.
      * intros r' Y. cbn in Y. rewrite E in Y. injection Y as -> _. discriminate V.
    + rewrite E in N. inversion N as [|? ? V|m M Em]; subst; [discriminate V|].
      destruct (C m eq_refl) as [d [r' [-> [V D]]]]. cbn. split.
      * apply name_reads_back; [exact M|now exists d, r'].
      * apply strip_id. intros r2 Y. cbn in Y. injection Y as -> _. discriminate V.
  - rewrite strip_id by exact X. split; [exact R|]. now apply strip_id.
Qed.

Lemma parse_good s l : scopes_clean s -> parse_type s = Ok l -> shape good l /\ reorder_modifiers l = l.
Proof.
  intros C H. unfold parse_type in H. destruct (get_tokens (s ++ nl)) as [ts|] eqn:E; [|discriminate]. cbn in H.
  unfold parse_tokens in H. destruct (parse_rec (2 * weight ts + 2) [] ts) as [[[l' last] r]|] eqn:EP; [|discriminate]. cbn in H.
  destruct last; [discriminate|]. injection H as <-.
  destruct (parse_shape good gt_good (2 * weight ts + 2)) as [A _].
  destruct (A [] ts l' None r) as [X [Y _]]; [| constructor|exact EP|auto].
  apply Forall_forall. intros t I. destruct (tokens_lexed _ _ _ E I) as [c [r0 [rest [S L]]]].
  apply (lexed_good _ _ _ _ S L). intros r1 N. apply (C ts t r1 E I N).
Qed.

Lemma reparse_ok s l : scopes_clean s -> parse_type s = Ok l -> parse_type (str_ctype l) = Ok l.
Proof.
  intros C H. destruct (parse_good _ _ C H) as [A B]. apply (reparse good); [intros t G; apply G|intros t G; apply G|exact A|exact B].
Qed.

Lemma normalize_idempotent s t : scopes_clean s -> normalize_type_string s = Ok t -> normalize_type_string t = Ok t.
Proof.
  intros C H. unfold normalize_type_string in *. destruct (parse_type s) as [l|] eqn:E; [|discriminate]. cbn [bind] in H.
  assert (t = str_ctype l) as -> by congruence. rewrite (reparse_ok _ _ C E). reflexivity.
Qed.

(** Named scopes are clean. *)
Lemma scan_name_max s : forall n q r, scan_name s = (n, String q r) -> is_valid_ident q = false.
Proof.
  assert (G : forall k s, String.length s <= k -> forall n q r, scan_name s = (n, String q r) -> is_valid_ident q = false).
  { induction k as [|k IH]; intros t L n q r H.
    - destruct t; [discriminate|cbn in L; lia].
    - destruct t as [|c [|d t]]; [discriminate| |rewrite scan_name_eq in H].
      + cbn in H. destruct (is_valid_ident c) eqn:V; [discriminate|]. injection H as <- <- <-. exact V.
      + cbn in L. destruct (Ascii.eqb c ":" && Ascii.eqb d ":").
        * destruct (scan_name t) as [a b] eqn:Et. apply (IH t ltac:(lia) a q r). rewrite Et. congruence.
        * destruct (is_valid_ident c) eqn:V.
          -- destruct (scan_name (String d t)) as [a b] eqn:Et. apply (IH (String d t) ltac:(cbn; lia) a q r). rewrite Et. congruence.
          -- injection H as <- <- <-. exact V. }
  intros n q r. now apply (G (String.length s)).
Qed.

Lemma skip_line_suffix s : exists a, s = (a ++ skip_line s)%string.
Proof.
  induction s as [|c s [a IH]]; [now exists ""|]. cbn [skip_line]. destruct (Ascii.eqb c nl_char); [now exists ""|].
  exists (String c a). cbn. now rewrite <- IH.
Qed.

Lemma lex1_suffix c r o rest : lex1 c r = Ok (o, rest) -> exists a, String c r = (a ++ rest)%string.
Proof.
  unfold lex1. intros H.
  destruct ((is_valid_ident c && negb (is_digit c)) || (Ascii.eqb c ":" && head_is ":" r)).
  { destruct (scan_name (String c r)) as [n rr] eqn:Es. destruct rr as [|q rr]; [discriminate|].
    destruct (Ascii.eqb q "'"); [discriminate|]. apply scan_name_ns in Es. destruct Es as [_ Es].
    assert (rest = String q rr) as -> by congruence. now exists n. }
  destruct (Ascii.eqb c "/" && match r with EmptyString => true | String _ _ => false end); [discriminate|].
  destruct (Ascii.eqb c "/" && head_is "/" r).
  { assert (rest = skip_line r) as -> by congruence. destruct (skip_line_suffix r) as [a E]. exists (String c a). cbn. now rewrite <- E. }
  destruct (Ascii.eqb c "/" && head_is "*" r); [discriminate|].
  destruct (mem_char c ":+-<>&|*=").
  { destruct r as [|d r]; [discriminate|].
    destruct (Ascii.eqb d c || Ascii.eqb c "-" && Ascii.eqb d ">" || Ascii.eqb d "="); injection H as <- <-;
      [now exists (String c (ch d))|now exists (ch c)]. }
  destruct (mem_char c "()[]{}~!?^%;/.,").
  { destruct (Ascii.eqb c ".").
    - destruct r as [|d r]; [discriminate|]. destruct (is_digit d).
      + destruct (span is_int_or_float r) as [ds rs] eqn:Es. destruct rs as [|q rs]; [discriminate|].
        destruct (take_suffix ["l"; "f"] (String q rs)) as [su rest'] eqn:Et. assert (rest = rest') as -> by congruence.
        apply span_spec in Es. destruct Es as [-> _]. apply take_suffix_app in Et. rewrite Et.
        exists (String c (String d (ds ++ su))). cbn. now rewrite sapp_assoc.
      + injection H as <- <-. now exists (ch c).
    - injection H as <- <-. now exists (ch c). }
  destruct (is_digit c) eqn:Ed.
  { destruct (Ascii.eqb c "0" && match r with EmptyString => true | String _ _ => false end); [discriminate|].
    assert (G : forall ds rs, (exists d', String c r = (d' ++ rs)%string) ->
      match rs with
      | EmptyString => Err IndexError
      | String _ _ => let (su, rest') := take_suffix ["ull"; "ll"; "ul"; "l"; "f"; "u"] rs in
                      Ok (Some (mk_tok CONSTANT (ds ++ su)), rest')
      end = Ok (o, rest) -> exists a, String c r = (a ++ rest)%string).
    { intros ds rs [d' X] Y. destruct rs as [|q rs]; [discriminate|].
      destruct (take_suffix _ (String q rs)) as [su rest'] eqn:Et. assert (rest = rest') as -> by congruence.
      apply take_suffix_app in Et. rewrite X, Et. exists (d' ++ su)%string. now rewrite sapp_assoc. }
    destruct r as [|d r].
    - destruct (span is_int_or_float2 (String c "")) as [ds rs] eqn:Es. apply span_spec in Es. destruct Es as [Es _].
      apply (G _ _ (ex_intro _ ds Es) H).
    - destruct (Ascii.eqb c "0" && (Ascii.eqb d "x" || Ascii.eqb d "X")).
      + destruct (span is_hex_digit r) as [a b] eqn:Es. apply span_spec in Es. destruct Es as [-> _].
        apply (G (String c (String d a)) b); [|exact H]. now exists (String c (String d a)).
      + destruct (span is_int_or_float2 (String c (String d r))) as [ds rs] eqn:Es. apply span_spec in Es. destruct Es as [Es _].
        apply (G _ _ (ex_intro _ ds Es) H). }
  destruct (mem_char c """'#\"); discriminate.
Qed.

Lemma tokens_occur s l t : get_tokens s = Ok l -> In t l ->
  exists a c r rest, s = (a ++ String c r)%string /\ is_space c = false /\ lex1 c r = Ok (Some t, rest).
Proof.
  unfold get_tokens. generalize (S (String.length s)). intros f. revert s l.
  induction f as [|f IH]; intros s l H I; [discriminate|]. cbn in H. destruct s as [|c r]; [injection H as <-; destruct I|].
  destruct (is_space c) eqn:Es.
  - destruct (IH r l H I) as [a [c' [r' [rest [E X]]]]]. exists (String c a), c', r', rest. split; [cbn; now rewrite E|exact X].
  - destruct (lex1 c r) as [[o rest]|] eqn:E; [|discriminate]. cbn in H.
    destruct (get_tokens_fuel f rest) as [l'|] eqn:El; [|discriminate]. injection H as <-.
    assert (REC : In t l' -> exists a c0 r0 rest0, String c r = (a ++ String c0 r0)%string /\ is_space c0 = false /\ lex1 c0 r0 = Ok (Some t, rest0)).
    { intros J. destruct (IH rest l' El J) as [a [c' [r' [rest' [E' X]]]]]. destruct (lex1_suffix _ _ _ _ E) as [b B].
      exists (b ++ a)%string, c', r', rest'. split; [|exact X]. now rewrite B, E', sapp_assoc. }
    destruct o as [u|]; [|now apply REC]. destruct I as [<-|I]; [|now apply REC].
    exists "", c, r, rest. split; [reflexivity|auto].
Qed.

Lemma app_nl_inv s a q r : (s ++ nl = a ++ String q r)%string -> exists b, (String q r = b ++ nl)%string /\ s = (a ++ b)%string.
Proof.
  revert a. induction s as [|c s IH]; intros a H; cbn in H.
  - destruct a as [|x a]; cbn in H; [exists ""; rewrite <- H; auto|]. injection H as _ H. destruct a; discriminate.
  - destruct a as [|x a]; cbn in H.
    + exists (String c s). rewrite <- H. auto.
    + injection H as <- H. destruct (IH _ H) as [b [E ->]]. exists b. auto.
Qed.

Lemma named_clean s : scopes_named s -> scopes_clean s.
Proof.
  intros H ts t r E I N. destruct (tokens_occur _ _ _ E I) as [a [c [r0 [rest [ES [SP L]]]]]].
  assert (X : exists q rr, String c r0 = (t_name t ++ String q rr)%string /\ is_valid_ident q = false).
  { pose proof (lex1_reads_back _ _ _ _ L SP) as [_|[_ [_ X]]]; [|exfalso; now apply (X r)].
    unfold lex1 in L. destruct ((is_valid_ident c && negb (is_digit c)) || (Ascii.eqb c ":" && head_is ":" r0)) eqn:E1.
    - destruct (scan_name (String c r0)) as [n rr] eqn:Es. destruct rr as [|q rr]; [discriminate|].
      destruct (Ascii.eqb q "'"); [discriminate|]. injection L as <- <-. exists q, rr. cbn.
      split; [now apply scan_name_ns in Es|now apply scan_name_max in Es].
    - exfalso. destruct (lex1_reads_back c r0 t rest) as [[T _]|[_ [_ Y]]]; [unfold lex1; now rewrite E1|exact SP| |now apply (Y r)].
      (* every other branch makes a token of another kind *)
      clear - L T.
      repeat match type of L with
      | context [if ?b then _ else _] => destruct b
      | context [let (_, _) := ?b in _] => destruct b
      | context [match ?b with EmptyString => _ | String _ _ => _ end] => destruct b
      end; try discriminate L; injection L as <- _; discriminate T. }
  destruct X as [q [rr [X V]]]. rewrite X, N in ES. 
  change (a ++ ("::" ++ r) ++ String q rr)%string with (a ++ (("::" ++ r) ++ String q rr))%string in ES.
  rewrite <- sapp_assoc in ES. apply app_nl_inv in ES. destruct ES as [b [EB ES]].
  rewrite sapp_assoc in ES. change (("::" ++ r) ++ b)%string with ("::" ++ (r ++ b))%string in ES.
  destruct (H _ _ ES) as [d [r' [D ID]]]. destruct r as [|d' r].
  - exfalso. cbn in D. subst b. cbn in EB. injection EB as -> _. destruct ID as [ID _]. congruence.
  - cbn in D. injection D as -> _. exists d, r. auto.
Qed.

(** Respacing. *)
Lemma lexed_reads_back c r t rest : is_space c = false -> lex1 c r = Ok (Some t, rest) -> reads_back t.
Proof.
  intros S H. destruct (lex1_reads_back _ _ _ _ H S) as [[T [N [d [n [E D]]]]]|[_ [R _]]]; [|exact R].
  destruct t as [ty nm]. cbn in T, N, E. subst ty. destruct D as [[V G]| ->].
  - apply name_reads_back; [exact N|now exists d, n].
  - subst nm. inversion N as [|? ? V|m M Em]; subst; [discriminate V|].
    exists ":"%char, (String ":" m). split; [reflexivity|]. split; [reflexivity|].
    intros q rest2 Q _. unfold lex1. cbn [append]. change (head_is ":" (String ":" (m ++ String q rest2))) with true.
    change (Ascii.eqb ":" ":") with true. rewrite orb_true_r.
    change (String ":" (String ":" (m ++ String q rest2))) with (String ":" (String ":" m) ++ String q rest2)%string.
    rewrite scan_name_app by assumption. destruct (stop_facts q Q) as [_ [_ [X _]]]. now rewrite X.
Qed.

Lemma tokens_blanks w s : blanks w -> get_tokens (w ++ s) = get_tokens s.
Proof.
  unfold blanks. induction w as [|c w IH]; cbn [append forall_char]; [reflexivity|]. intros H. apply andb_prop in H. destruct H as [A B].
  rewrite tokens_blank by exact A. now apply IH.
Qed.

Lemma respaced_tokens ts : Forall reads_back ts -> forall s, respaced (map t_name ts) s -> get_tokens (s ++ nl) = Ok ts.
Proof.
  induction 1 as [|t ts Ht _ IH]; intros s H; cbn in H; inversion H as [w B|w n ns s' B R F]; subst.
  - rewrite tokens_blanks by exact B. reflexivity.
  - rewrite !sapp_assoc. rewrite tokens_blanks by exact B.
    assert (Q : exists q r, (s' ++ nl)%string = String q r /\ is_space q = true).
    { destruct ts as [|t2 ts].
      - inversion R as [w2 B2|]; subst. destruct s' as [|q r]; [now exists nl_char, ""|].
        exists q, (r ++ nl)%string. split; [reflexivity|]. unfold blanks in B2. cbn in B2. now apply andb_prop in B2.
      - destruct (F ltac:(discriminate)) as [q [r [-> Q]]]. exists q, (r ++ nl)%string. auto. }
    destruct Q as [q [r [EQ Q]]]. destruct Ht as [c [r0 [N [S L]]]]. rewrite EQ.
    rewrite (tokens_reads_back t c q r r0 N S).
    + rewrite <- EQ, (IH _ R). reflexivity.
    + apply L; [now left|]. intros _ ->. discriminate Q.
Qed.

Lemma respaced_parse s s' ts : get_tokens (s ++ nl) = Ok ts -> respaced (map t_name ts) s' -> parse_type s' = parse_type s.
Proof.
  intros H R. unfold parse_type. rewrite H, (respaced_tokens ts); [reflexivity| |exact R].
  apply Forall_forall. intros t I. destruct (tokens_lexed _ _ _ H I) as [c [r [rest [S L]]]]. now apply (lexed_reads_back c r t rest).
Qed.
Lemma respaced_same s s' ts : get_tokens (s ++ nl) = Ok ts -> respaced (map t_name ts) s' ->
  normalize_type_string s' = normalize_type_string s.
Proof. intros H R. unfold normalize_type_string. now rewrite (respaced_parse _ _ _ H R). Qed.

Lemma parse_type_no_fuel s : parse_type s <> Err OutOfFuel.
Proof.
  unfold parse_type. pose proof (get_tokens_fuel_ok (S (String.length (s ++ nl))) (s ++ nl) ltac:(lia)) as A.
  fold (get_tokens (s ++ nl)) in A. destruct (get_tokens (s ++ nl)) as [ts|]; cbn; [apply parse_tokens_fuel|congruence].
Qed.
