(** Tokens of the tokenizer read back from their text. *)
From Verif.Model Require Import Py Tokenizer.
From Coq Require Import Lia.
Open Scope string_scope.
Open Scope list_scope.

Definition stop (q : ascii) : Prop := is_space q = true \/ q = "<"%char \/ q = ","%char.

Lemma stop_cases q : stop q -> In q (["<"; ","] ++ map ascii_of_nat [9; 10; 11; 12; 13; 28; 29; 30; 31; 32; 133; 160])%char.
Proof.
  intros [H|[-> | ->]]; [|cbn; auto|cbn; auto]. apply in_or_app. right.
  destruct q as [[] [] [] [] [] [] [] []]; vm_compute in H; try discriminate H; vm_compute; auto 15.
Qed.

Ltac stops Q tac := apply stop_cases in Q; cbn [app map] in Q; repeat (destruct Q as [<-|Q]; [tac|]); destruct Q.

Lemma sapp_assoc (a b c : string) : ((a ++ b) ++ c = a ++ (b ++ c))%string.
Proof. induction a; cbn; congruence. Qed.
Lemma sapp_nil (a : string) : (a ++ "" = a)%string.
Proof. induction a; cbn; congruence. Qed.

Lemma mem_char_In c s : mem_char c s = true -> In c (list_ascii_of_string s).
Proof.
  induction s as [|d s IH]; cbn; [discriminate|]. intros H. apply orb_prop in H. destruct H as [H|H].
  - apply Ascii.eqb_eq in H. now left.
  - right. now apply IH.
Qed.

Lemma digit_cases c : is_digit c = true ->
  In c ["0"; "1"; "2"; "3"; "4"; "5"; "6"; "7"; "8"; "9"]%char.
Proof.
  destruct c as [[] [] [] [] [] [] [] []]; vm_compute; intros H; try discriminate H; auto 12.
Qed.

(** Spans. *)
Lemma span_spec p s : forall a b, span p s = (a, b) ->
  s = (a ++ b)%string /\ forall_char p a = true /\ match b with String c _ => p c = false | EmptyString => True end.
Proof.
  induction s as [|c s IH]; intros a b H; cbn in H.
  - injection H as <- <-. auto.
  - destruct (p c) eqn:E.
    + destruct (span p s) as [x y] eqn:Es. injection H as <- <-. destruct (IH _ _ eq_refl) as [A [B C]].
      cbn. rewrite E. split; [now rewrite <- A|auto].
    + injection H as <- <-. cbn. auto.
Qed.

Lemma span_app p a b : forall_char p a = true -> match b with String c _ => p c = false | EmptyString => True end ->
  span p (a ++ b) = (a, b).
Proof.
  intros H HB. induction a as [|c a IH]; cbn in *.
  - destruct b; cbn; [reflexivity|]. now rewrite HB.
  - apply andb_prop in H. destruct H as [Hc Ha]. rewrite Hc, (IH Ha). reflexivity.
Qed.

(** Names. *)
Inductive namestr : string -> Prop :=
| ns_nil : namestr ""
| ns_ident c n : is_valid_ident c = true -> namestr n -> namestr (String c n)
| ns_colons n : namestr n -> namestr (String ":" (String ":" n)).

Lemma scan_name_eq c d t : scan_name (String c (String d t)) =
  if Ascii.eqb c ":" && Ascii.eqb d ":" then let (a, b) := scan_name t in (String c (String d a), b)
  else if is_valid_ident c then let (a, b) := scan_name (String d t) in (String c a, b)
  else ("", String c (String d t)).
Proof. reflexivity. Qed.

Lemma scan_name_ns s : forall n r, scan_name s = (n, r) -> namestr n /\ s = (n ++ r)%string.
Proof.
  assert (G : forall k s, String.length s <= k -> forall n r, scan_name s = (n, r) -> namestr n /\ s = (n ++ r)%string).
  { induction k as [|k IH]; intros t L n r H.
    - destruct t; [|cbn in L; lia]. cbn in H. injection H as <- <-. split; [constructor|reflexivity].
    - destruct t as [|c [|d t]]; [cbn in H|cbn in H|rewrite scan_name_eq in H].
      + injection H as <- <-. split; [constructor|reflexivity].
      + destruct (is_valid_ident c) eqn:E; injection H as <- <-; split; repeat constructor; assumption.
      + destruct (Ascii.eqb c ":" && Ascii.eqb d ":") eqn:E.
        * apply andb_prop in E. destruct E as [E1 E2]. apply Ascii.eqb_eq in E1, E2. subst c d.
          destruct (scan_name t) as [a b] eqn:Et. injection H as <- <-.
          destruct (IH t ltac:(cbn in L; lia) _ _ Et) as [A ->]. split; [now constructor|reflexivity].
        * destruct (is_valid_ident c) eqn:Ev.
          -- destruct (scan_name (String d t)) as [a b] eqn:Et. injection H as <- <-.
             destruct (IH (String d t) ltac:(cbn in L |- *; lia) _ _ Et) as [A ->]. split; [now constructor|reflexivity].
          -- injection H as <- <-. split; [constructor|reflexivity]. }
  intros n r. now apply (G (String.length s)).
Qed.

Lemma scan_name_cons c s : Ascii.eqb c ":" = false ->
  scan_name (String c s) = if is_valid_ident c then let (a, b) := scan_name s in (String c a, b) else ("", String c s).
Proof. intros H. destruct s as [|d s]; cbn [scan_name]; [|rewrite H]; reflexivity. Qed.

Lemma colon_not_valid c : is_valid_ident c = true -> Ascii.eqb c ":" = false.
Proof. intros H. destruct (Ascii.eqb_spec c ":"%char) as [->|]; [discriminate H|reflexivity]. Qed.

Lemma stop_facts q : stop q -> is_valid_ident q = false /\ Ascii.eqb q ":" = false /\ Ascii.eqb q "'" = false /\
  is_hex_digit q = false /\ is_int_or_float q = false /\ is_int_or_float2 q = false /\ is_digit q = false /\ lower_char q = q.
Proof. intros Q. stops Q ltac:(vm_compute; auto 10). Qed.

Lemma scan_name_app n q rest : namestr n -> stop q -> scan_name (n ++ String q rest) = (n, String q rest).
Proof.
  intros H Q. destruct (stop_facts q Q) as [V [C _]]. induction H as [|c n Hc _ IH|n _ IH].
  - cbn [append]. rewrite scan_name_cons by exact C. now rewrite V.
  - cbn [append]. rewrite scan_name_cons by now apply colon_not_valid. now rewrite Hc, IH.
  - cbn [append]. cbn [scan_name Ascii.eqb Bool.eqb andb]. now rewrite IH.
Qed.

(** Suffixes. *)
Lemma lower_prefix_spec x : forall s y r, lower_prefix x s = Some (y, r) ->
  s = (y ++ r)%string /\ forall r', lower_prefix x (y ++ r') = Some (y, r').
Proof.
  induction x as [|a x IH]; intros s y r H; cbn in H.
  - injection H as <- <-. auto.
  - destruct s as [|c s]; [discriminate|]. destruct (Ascii.eqb a (lower_char c)) eqn:E; [|discriminate].
    destruct (lower_prefix x s) as [[u v]|] eqn:El; [|discriminate]. injection H as <- <-.
    destruct (IH _ _ _ El) as [-> B]. split; [reflexivity|]. intros r'. cbn. now rewrite E, B.
Qed.

Lemma lower_prefix_stop x q r : mem_char (lower_char q) x = false -> forall y r',
  lower_prefix x (y ++ String q r') <> None -> lower_prefix x (y ++ r) <> None.
Proof.
  induction x as [|a x IH]; intros M y r' H; [discriminate|].
  cbn in M. apply orb_false_elim in M. destruct M as [M1 M2].
  destruct y as [|c y]; cbn in H |- *.
  - rewrite Ascii.eqb_sym in M1. rewrite M1 in H. congruence.
  - destruct (Ascii.eqb a (lower_char c)); [|exact H].
    specialize (IH M2 y r'). destruct (lower_prefix x (y ++ String q r')) as [[]|] eqn:E1; [|congruence].
    destruct (lower_prefix x (y ++ r)) as [[]|] eqn:E2; [discriminate|]. exfalso. apply IH; congruence.
Qed.

Lemma take_suffix_spec l q : Forall (fun x => mem_char (lower_char q) x = false) l ->
  forall s su r, take_suffix l s = (su, r) ->
  s = (su ++ r)%string /\ forall r', take_suffix l (su ++ String q r') = (su, String q r').
Proof.
  intros F s su r H.
  assert (G : s = (su ++ r)%string).
  { clear F. induction l as [|x l IH]; cbn in H; [now injection H as <- <-|].
    destruct (lower_prefix x s) as [[u v]|] eqn:E; [|now apply IH]. injection H as <- <-. now apply lower_prefix_spec in E. }
  split; [exact G|]. intros r'. subst s. induction F as [|x l Hx _ IH]; cbn in H |- *.
  - destruct su as [|c su]; [reflexivity|]. apply pair_equal_spec in H. destruct H as [X _]. discriminate X.
  - destruct (lower_prefix x (su ++ r)) as [[u v]|] eqn:E.
    + injection H as <- <-. apply lower_prefix_spec in E. destruct E as [_ E]. now rewrite E.
    + rewrite (IH H). destruct (lower_prefix x (su ++ String q r')) eqn:E2; [|reflexivity].
      exfalso. refine (lower_prefix_stop x q r Hx su r' _ E). now rewrite E2.
Qed.

Lemma suffixes_ok q : stop q ->
  Forall (fun x => mem_char (lower_char q) x = false) ["ull"; "ll"; "ul"; "l"; "f"; "u"] /\
  Forall (fun x => mem_char (lower_char q) x = false) ["l"; "f"].
Proof. intros Q. stops Q ltac:(split; repeat constructor). Qed.

(** What is read back. *)
Definition reads_back (t : token) : Prop :=
  exists c r0, t_name t = String c r0 /\ is_space c = false /\
  forall q rest, stop q -> (t_name t = "<" -> q <> "<"%char) ->
    lex1 c (r0 ++ String q rest) = Ok (Some t, String q rest).

(** A leading double colon is followed by an identifier. *)
Definition clean_name (n : string) : Prop :=
  forall r, n = String ":" (String ":" r) ->
    exists d r', r = String d r' /\ is_valid_ident d = true /\ is_digit d = false.

Lemma name_reads_back n : namestr n -> (exists d r', n = String d r' /\ is_valid_ident d = true /\ is_digit d = false) ->
  reads_back (mk_tok NAME n).
Proof.
  intros H [d [r' [-> [V D]]]]. exists d, r'. split; [reflexivity|]. split.
  - destruct (is_space d) eqn:E; [|reflexivity]. revert E V. clear. destruct d as [[] [] [] [] [] [] [] []]; vm_compute; discriminate.
  - intros q rest Q _. unfold lex1. rewrite V, D. cbn [andb negb orb].
    change (String d (r' ++ String q rest)) with (String d r' ++ String q rest)%string.
    rewrite scan_name_app by assumption. destruct (stop_facts q Q) as [_ [_ [X _]]]. now rewrite X.
Qed.

Lemma head_notp p su q r : (forall c s, su = String c s -> p c = false) -> p q = false ->
  match (su ++ String q r)%string with String c _ => p c = false | EmptyString => True end.
Proof. intros A B. destruct su as [|c s]; cbn; [exact B|now apply (A c s)]. Qed.

Lemma digits_reads_back p (ds su : string) q rest :
  forall_char p ds = true -> (forall c s, su = String c s -> p c = false) -> p q = false ->
  span p ((ds ++ su) ++ String q rest) = (ds, (su ++ String q rest)%string).
Proof. intros A B C. rewrite sapp_assoc. apply span_app; [exact A|]. now apply head_notp. Qed.

Lemma not_name_digit c r : is_digit c = true ->
  (is_valid_ident c && negb (is_digit c)) || (Ascii.eqb c ":" && head_is ":" r) = false.
Proof. intros H. rewrite H, andb_false_r. cbn. destruct (Ascii.eqb_spec c ":"%char) as [->|]; [discriminate H|reflexivity]. Qed.

Lemma digit_not_slash c : is_digit c = true -> Ascii.eqb c "/" = false /\ mem_char c ":+-<>&|*=" = false /\
  mem_char c "()[]{}~!?^%;/.," = false /\ is_space c = false.
Proof.
  intros H. apply digit_cases in H. repeat (destruct H as [<-|H]; [vm_compute; auto|]). destruct H.
Qed.

Lemma lex1_reads_back c r t rest : lex1 c r = Ok (Some t, rest) -> is_space c = false ->
  (t_type t = NAME /\ namestr (t_name t) /\ exists d n, t_name t = String d n /\ (is_valid_ident d = true /\ is_digit d = false \/ d = ":"%char)) \/
  (t_type t <> NAME /\ reads_back t /\ (forall n, t_name t <> String ":" (String ":" n))).
Proof.
  intros H SP. unfold lex1 in H.
  destruct ((is_valid_ident c && negb (is_digit c)) || (Ascii.eqb c ":" && head_is ":" r)) eqn:E1.
  { left. destruct (scan_name (String c r)) as [n rr] eqn:Es. destruct rr as [|q rr]; [discriminate|].
    destruct (Ascii.eqb q "'"); [discriminate|]. injection H as <- <-. cbn.
    pose proof (scan_name_ns _ _ _ Es) as [A B]. split; [reflexivity|]. split; [exact A|].
    destruct n as [|d n].
    - exfalso. cbn in B. injection B as <- <-. apply orb_prop in E1. destruct E1 as [E1|E1].
      + apply andb_prop in E1. destruct E1 as [E1 _]. rewrite scan_name_cons in Es by now apply colon_not_valid.
        rewrite E1 in Es. destruct (scan_name r). discriminate.
      + apply andb_prop in E1. destruct E1 as [E1 E2]. apply Ascii.eqb_eq in E1. subst c. destruct r as [|d r]; [discriminate|].
        unfold head_is in E2. apply Ascii.eqb_eq in E2. subst d. cbn in Es. destruct (scan_name r); discriminate.
    - cbn in B. injection B as <- B. exists c, n. split; [reflexivity|]. apply orb_prop in E1. destruct E1 as [E1|E1].
      + apply andb_prop in E1. destruct E1 as [E1 E2]. apply negb_true_iff in E2. now left.
      + apply andb_prop in E1. destruct E1 as [E1 _]. apply Ascii.eqb_eq in E1. now right. }
  right.
  destruct (Ascii.eqb c "/" && match r with EmptyString => true | String _ _ => false end) eqn:E2; [discriminate|].
  destruct (Ascii.eqb c "/" && head_is "/" r) eqn:E3; [discriminate|].
  destruct (Ascii.eqb c "/" && head_is "*" r) eqn:E4; [discriminate|].
  destruct (mem_char c ":+-<>&|*=") eqn:E5.
  { destruct r as [|d r]; [discriminate|].
    apply mem_char_In in E5. cbn in E5.
    destruct (Ascii.eqb d c || Ascii.eqb c "-" && Ascii.eqb d ">" || Ascii.eqb d "=") eqn:E6; injection H as <- <-; cbn [t_type t_name].
    - assert (D : d = c \/ (c = "-"%char /\ d = ">"%char) \/ d = "="%char).
      { apply orb_prop in E6. destruct E6 as [E6|E6].
        - apply orb_prop in E6. destruct E6 as [E6|E6].
          + left. now apply Ascii.eqb_eq.
          + apply andb_prop in E6. destruct E6 as [X Y]. right; left. split; now apply Ascii.eqb_eq.
        - right; right. now apply Ascii.eqb_eq. }
      split; [discriminate|]. split.
      + exists c, (ch d). split; [reflexivity|]. split; [exact SP|]. intros q rest Q N. clear - D E5 Q E1.
        destruct D as [->|[[-> ->]| ->]].
        * repeat (destruct E5 as [<-|E5]; [try discriminate E1; stops Q ltac:(reflexivity)|]). destruct E5.
        * reflexivity.
        * repeat (destruct E5 as [<-|E5]; [stops Q ltac:(reflexivity)|]). destruct E5.
      + intros n X. injection X as -> -> _. discriminate E1.
    - split; [discriminate|]. split; [|discriminate].
      exists c, "". split; [reflexivity|]. split; [exact SP|]. intros q rest Q N. clear - E5 Q N.
      repeat (destruct E5 as [<-|E5]; [stops Q ltac:(try reflexivity; exfalso; now apply N)|]). destruct E5. }
  destruct (mem_char c "()[]{}~!?^%;/.,") eqn:E6.
  { destruct (Ascii.eqb c ".") eqn:E7.
    - apply Ascii.eqb_eq in E7. subst c. destruct r as [|d r]; [discriminate|]. destruct (is_digit d) eqn:Ed.
      + destruct (span is_int_or_float r) as [ds rs] eqn:Es. destruct rs as [|q0 rs]; [discriminate|].
        destruct (take_suffix ["l"; "f"] (String q0 rs)) as [su rest'] eqn:Et. injection H as <- <-. cbn [t_type t_name].
        split; [discriminate|]. split; [|discriminate]. exists "."%char, (String d (ds ++ su)). split; [reflexivity|]. split; [reflexivity|].
        intros q rest2 Q _. apply span_spec in Es. destruct Es as [_ [Fd Nd]].
        destruct (suffixes_ok q Q) as [_ S2]. destruct (take_suffix_spec _ q S2 _ _ _ Et) as [X T].
        unfold lex1. cbn [append]. change (is_valid_ident ".") with false. cbn -[take_suffix span is_digit append].
        rewrite Ed.
        assert (PQ : is_int_or_float q = false) by now apply stop_facts.
        rewrite (digits_reads_back is_int_or_float ds su q rest2 Fd) by
          (try exact PQ; intros c0 s0 ->; cbn in X; injection X as <- _; exact Nd).
        rewrite T. destruct su; reflexivity.
      + injection H as <- <-. cbn. split; [discriminate|]. split; [|discriminate].
        exists "."%char, "". split; [reflexivity|]. split; [reflexivity|]. intros q rest Q _.
        stops Q ltac:(reflexivity).
    - injection H as <- <-. cbn. split; [discriminate|]. split; [|discriminate].
      exists c, "". split; [reflexivity|]. split; [exact SP|]. intros q rest Q _. apply mem_char_In in E6. cbn in E6. clear - E6 E7 Q.
      repeat (destruct E6 as [<-|E6]; [try discriminate E7; stops Q ltac:(reflexivity)|]). destruct E6. }
  destruct (is_digit c) eqn:Ed.
  { destruct (Ascii.eqb c "0" && match r with EmptyString => true | String _ _ => false end) eqn:E7; [discriminate|].
    destruct (digit_not_slash c Ed) as [D1 [D2 [D3 D4]]].
    assert (PRE : forall q rest r0, 
      (let (ds, rs) :=
        match (r0 ++ String q rest)%string with
        | String d r' =>
            if Ascii.eqb c "0" && (Ascii.eqb d "x" || Ascii.eqb d "X")
            then let (a, b) := span is_hex_digit r' in (String c (String d a), b)
            else span is_int_or_float2 (String c (r0 ++ String q rest))
        | EmptyString => span is_int_or_float2 (String c (r0 ++ String q rest))
        end in
      match rs with
      | EmptyString => Err IndexError
      | _ => let (su, rest') := take_suffix ["ull"; "ll"; "ul"; "l"; "f"; "u"]%string rs in
             Ok (Some (mk_tok CONSTANT (ds ++ su)), rest')
      end) = lex1 c (r0 ++ String q rest)).
    { intros q rs0 r0. unfold lex1. rewrite not_name_digit by exact Ed. rewrite D1, D2, D3, Ed. cbn [andb].
      destruct (r0 ++ String q rs0)%string eqn:X; [destruct r0; discriminate X|]. rewrite andb_false_r. reflexivity. }
    destruct r as [|d r].
    - destruct (span is_int_or_float2 (String c "")) as [ds rs] eqn:Es. 
      apply span_spec in Es. destruct Es as [X [Y Z]]. destruct rs as [|q0 rs]; [discriminate|].
      exfalso. destruct ds as [|c1 ds]; cbn in X; injection X as <- X.
      + clear - Ed Z. apply digit_cases in Ed. repeat (destruct Ed as [<-|Ed]; [discriminate Z|]). destruct Ed.
      + destruct ds; discriminate X.
    - destruct (Ascii.eqb c "0" && (Ascii.eqb d "x" || Ascii.eqb d "X")) eqn:E8.
      + destruct (span is_hex_digit r) as [ds rs] eqn:Es. destruct rs as [|q0 rs]; [discriminate|].
        destruct (take_suffix ["ull"; "ll"; "ul"; "l"; "f"; "u"] (String q0 rs)) as [su rest'] eqn:Et.
        injection H as <- <-. cbn [t_type t_name]. split; [discriminate|]. split.
        2:{ intros n X. cbn in X. injection X as -> _. discriminate Ed. }
        exists c, (String d ds ++ su)%string. split; [reflexivity|]. split; [exact SP|].
        intros q rest2 Q _. rewrite <- PRE. cbn [append]. rewrite E8.
        apply span_spec in Es. destruct Es as [_ [Fd Nd]].
        destruct (suffixes_ok q Q) as [S1 _]. destruct (take_suffix_spec _ q S1 _ _ _ Et) as [X T].
        rewrite (digits_reads_back is_hex_digit ds su q rest2 Fd);
          [|intros c0 s0 ->; cbn in X; injection X as <- _; exact Nd|now apply stop_facts].
        rewrite T. destruct su; reflexivity.
      + destruct (span is_int_or_float2 (String c (String d r))) as [ds rs] eqn:Es. destruct rs as [|q0 rs]; [discriminate|].
        destruct (take_suffix ["ull"; "ll"; "ul"; "l"; "f"; "u"] (String q0 rs)) as [su rest'] eqn:Et.
        injection H as <- <-. cbn [t_type t_name]. split; [discriminate|].
        apply span_spec in Es. destruct Es as [SE [Fd Nd]].
        destruct ds as [|c1 ds].
        { exfalso. cbn in SE. injection SE as <- <-. clear - Ed Nd. apply digit_cases in Ed.
          repeat (destruct Ed as [<-|Ed]; [discriminate Nd|]). destruct Ed. }
        cbn in SE. injection SE as <- SE. split.
        2:{ intros n X. cbn in X. injection X as -> _. discriminate Ed. }
        exists c, (ds ++ su)%string. split; [reflexivity|]. split; [exact SP|].
        intros q rest2 Q _. rewrite <- PRE.
        destruct (suffixes_ok q Q) as [S1 _]. destruct (take_suffix_spec _ q S1 _ _ _ Et) as [X T].
        assert (NX : match ((ds ++ su) ++ String q rest2)%string with
                     | String d0 _ => Ascii.eqb c "0" && (Ascii.eqb d0 "x" || Ascii.eqb d0 "X") = false
                     | EmptyString => True end).
        { destruct ds as [|d1 ds]; cbn.
          - destruct su as [|d1 su]; cbn.
            + stops Q ltac:(now rewrite andb_false_r).
            + cbn in X. injection X as -> _. cbn in SE. injection SE as -> _. exact E8.
          - cbn in SE. injection SE as -> _. exact E8. }
        destruct ((ds ++ su) ++ String q rest2)%string as [|d0 s0] eqn:E9; [destruct ds; [destruct su|]; discriminate E9|].
        rewrite NX, <- E9.
        change (String c ((ds ++ su) ++ String q rest2)) with ((String c ds ++ su) ++ String q rest2)%string.
        rewrite (digits_reads_back is_int_or_float2 (String c ds) su q rest2 Fd);
          [|intros c0 s1 ->; cbn in X; injection X as <- _; exact Nd|now apply stop_facts].
        rewrite T. destruct su; reflexivity. }
  destruct (mem_char c """'#\"); discriminate.
Qed.

(** The main loop. *)
Lemma skip_line_length s : String.length (skip_line s) <= String.length s.
Proof. induction s as [|c s IH]; cbn [skip_line String.length]; [lia|]. destruct (Ascii.eqb c nl_char); cbn [String.length]; lia. Qed.

Lemma slength_app (a b : string) : String.length (a ++ b) = String.length a + String.length b.
Proof. induction a; cbn; congruence. Qed.

Lemma take_suffix_app l : forall s su r, take_suffix l s = (su, r) -> s = (su ++ r)%string.
Proof.
  induction l as [|x l IH]; intros s su r H; cbn in H; [now injection H as <- <-|].
  destruct (lower_prefix x s) as [[u v]|] eqn:E; [|now apply IH]. injection H as <- <-. now apply lower_prefix_spec in E.
Qed.

Lemma lex1_progress c r o rest : lex1 c r = Ok (o, rest) -> String.length rest <= String.length r.
Proof.
  unfold lex1. intros H.
  destruct ((is_valid_ident c && negb (is_digit c)) || (Ascii.eqb c ":" && head_is ":" r)) eqn:E1.
  { assert (L : match scan_name (String c r) with (n, r') => n <> "" end).
    { apply orb_prop in E1. destruct E1 as [E1|E1]; apply andb_prop in E1; destruct E1 as [E1 E2].
      - rewrite scan_name_cons by now apply colon_not_valid. rewrite E1. destruct (scan_name r). discriminate.
      - apply Ascii.eqb_eq in E1. subst c. destruct r as [|d r]; [discriminate|]. unfold head_is in E2. apply Ascii.eqb_eq in E2. subst d.
        cbn. destruct (scan_name r). discriminate. }
    destruct (scan_name (String c r)) as [n rr] eqn:Es. destruct rr as [|q rr]; [discriminate|].
    destruct (Ascii.eqb q "'"); [discriminate|]. apply scan_name_ns in Es. destruct Es as [_ Es].
    assert (rest = String q rr) as -> by congruence. apply (f_equal String.length) in Es. rewrite slength_app in Es.
    destruct n; [congruence|]. cbn in Es |- *. lia. }
  destruct (Ascii.eqb c "/" && match r with EmptyString => true | String _ _ => false end); [discriminate|].
  destruct (Ascii.eqb c "/" && head_is "/" r).
  { assert (rest = skip_line r) as -> by congruence. apply skip_line_length. }
  destruct (Ascii.eqb c "/" && head_is "*" r); [discriminate|].
  destruct (mem_char c ":+-<>&|*=").
  { destruct r as [|d r]; [discriminate|].
    destruct (Ascii.eqb d c || Ascii.eqb c "-" && Ascii.eqb d ">" || Ascii.eqb d "="); injection H as <- <-; cbn; lia. }
  destruct (mem_char c "()[]{}~!?^%;/.,").
  { destruct (Ascii.eqb c ".").
    - destruct r as [|d r]; [discriminate|]. destruct (is_digit d).
      + destruct (span is_int_or_float r) as [ds rs] eqn:Es. destruct rs as [|q rs]; [discriminate|].
        destruct (take_suffix ["l"; "f"] (String q rs)) as [su rest'] eqn:Et. assert (rest = rest') as -> by congruence.
        apply span_spec in Es. destruct Es as [Es _]. apply take_suffix_app in Et.
        apply (f_equal String.length) in Es, Et. rewrite slength_app in Es, Et. cbn [String.length] in *. lia.
      + injection H as <- <-. lia.
    - injection H as <- <-. lia. }
  destruct (is_digit c) eqn:Ed.
  { destruct (Ascii.eqb c "0" && match r with EmptyString => true | String _ _ => false end); [discriminate|].
    assert (G : forall ds rs, (exists d', String c r = (String c d' ++ rs)%string /\ ds = String c d') ->
      match rs with
      | EmptyString => Err IndexError
      | String _ _ => let (su, rest') := take_suffix ["ull"; "ll"; "ul"; "l"; "f"; "u"] rs in
                      Ok (Some (mk_tok CONSTANT (ds ++ su)), rest')
      end = Ok (o, rest) -> String.length rest <= String.length r).
    { intros ds rs [d' [X _]] Y. destruct rs as [|q rs]; [discriminate|].
      destruct (take_suffix _ (String q rs)) as [su rest'] eqn:Et. assert (rest = rest') as -> by congruence.
      apply take_suffix_app in Et. apply (f_equal String.length) in X, Et. rewrite slength_app in X, Et. cbn [String.length] in *. lia. }
    assert (D2 : forall s ds rs, span is_int_or_float2 (String c s) = (ds, rs) -> exists d', String c s = (String c d' ++ rs)%string /\ ds = String c d').
    { intros s ds rs X. cbn in X. assert (is_int_or_float2 c = true) as V.
      { clear - Ed. apply digit_cases in Ed. repeat (destruct Ed as [<-|Ed]; [reflexivity|]). destruct Ed. }
      rewrite V in X. destruct (span is_int_or_float2 s) as [a b] eqn:Es. injection X as <- <-.
      apply span_spec in Es. destruct Es as [-> _]. now exists a. }
    destruct r as [|d r].
    - destruct (span is_int_or_float2 (String c "")) as [ds rs] eqn:Es. exact (G _ _ (D2 _ _ _ Es) H).
    - destruct (Ascii.eqb c "0" && (Ascii.eqb d "x" || Ascii.eqb d "X")).
      + destruct (span is_hex_digit r) as [a b] eqn:Es. apply span_spec in Es. destruct Es as [-> _].
        apply (G (String c (String d a)) b); [|exact H]. exists (String d a). auto.
      + destruct (span is_int_or_float2 (String c (String d r))) as [ds rs] eqn:Es. exact (G _ _ (D2 _ _ _ Es) H). }
  destruct (mem_char c """'#\"); discriminate.
Qed.

Lemma fuel_irrelevant : forall f1 f2 s, String.length s < f1 -> String.length s < f2 ->
  get_tokens_fuel f1 s = get_tokens_fuel f2 s.
Proof.
  induction f1 as [|f1 IH]; intros f2 s L1 L2; [lia|]. destruct f2 as [|f2]; [lia|].
  destruct s as [|c r]; [reflexivity|]. cbn [get_tokens_fuel]. cbn [String.length] in *.
  destruct (is_space c); [apply IH; lia|].
  destruct (lex1 c r) as [[o rest]|] eqn:E; [|reflexivity]. cbn. rewrite (IH f2); [reflexivity| |];
    apply lex1_progress in E; lia.
Qed.

Lemma tokens_blank c r : is_space c = true -> get_tokens (String c r) = get_tokens r.
Proof. intros H. unfold get_tokens. cbn [String.length]. remember (S (String.length r)) as k. cbn. now rewrite H. Qed.

Lemma tokens_lex c r o rest : is_space c = false -> lex1 c r = Ok (o, rest) ->
  get_tokens (String c r) = bind (get_tokens rest) (fun l => Ok (match o with Some t => t :: l | None => l end)).
Proof.
  intros H E. unfold get_tokens at 1. cbn [String.length]. remember (S (String.length r)) as k. cbn. rewrite H, E. cbn.
  unfold get_tokens. rewrite (fuel_irrelevant k (S (String.length rest))); [reflexivity|apply lex1_progress in E; lia|lia].
Qed.

Lemma lex1_no_fuel c r : lex1 c r <> Err OutOfFuel.
Proof.
  unfold lex1.
  repeat match goal with
  | |- context [if ?b then _ else _] => destruct b
  | |- context [let (_, _) := ?b in _] => destruct b
  | |- context [match ?b with EmptyString => _ | String _ _ => _ end] => destruct b
  | |- _ => discriminate
  end.
Qed.

Lemma get_tokens_fuel_ok : forall f s, String.length s < f -> get_tokens_fuel f s <> Err OutOfFuel.
Proof.
  induction f as [|f IH]; intros s L; [lia|]. destruct s as [|c r]; cbn; [discriminate|]. cbn in L.
  destruct (is_space c); [apply IH; lia|].
  destruct (lex1 c r) as [[o rest]|e] eqn:E; cbn.
  - pose proof (lex1_progress _ _ _ _ E). specialize (IH rest ltac:(lia)).
    destruct (get_tokens_fuel f rest); [discriminate|]. cbn. exact IH.
  - pose proof (lex1_no_fuel c r). rewrite E in H. congruence.
Qed.

Lemma tokens_lexed s l t : get_tokens s = Ok l -> In t l ->
  exists c r rest, is_space c = false /\ lex1 c r = Ok (Some t, rest).
Proof.
  unfold get_tokens. generalize (S (String.length s)). intros f. revert s l.
  induction f as [|f IH]; intros s l H I; [discriminate|]. cbn in H. destruct s as [|c r]; [injection H as <-; destruct I|].
  destruct (is_space c) eqn:Es; [now apply (IH r l)|].
  destruct (lex1 c r) as [[o rest]|] eqn:E; [|discriminate]. cbn in H.
  destruct (get_tokens_fuel f rest) as [l'|] eqn:El; [|discriminate]. injection H as <-.
  destruct o as [u|].
  - destruct I as [<-|I]; [now exists c, r, rest|]. now apply (IH rest l').
  - now apply (IH rest l').
Qed.

Lemma tokens_reads_back (t : token) c q rest r0 : t_name t = String c r0 -> is_space c = false ->
  (lex1 c (r0 ++ String q rest) = Ok (Some t, String q rest)) ->
  get_tokens (t_name t ++ String q rest) = bind (get_tokens (String q rest)) (fun l => Ok (t :: l)).
Proof. intros N S E. rewrite N. cbn [append]. now rewrite (tokens_lex _ _ _ _ S E). Qed.
