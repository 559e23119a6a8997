(** C13, C14: reordering preserves meaning, traits describe the outermost level. *)
From Verif.Model Require Import Py Tokenizer CType.
From Verif.Spec Require Import TypeSpec.
From Verif.Proofs Require Import LexProofs ReorderProofs ParseProofs TypeProofs.
From Coq Require Import Lia.
Open Scope string_scope.
Open Scope list_scope.

Lemma star_marks x : is_star x = true -> exists m, marks x = [m].
Proof.
  destruct x as [t|]; [|discriminate]. unfold is_star. cbn. intros H. apply orb_prop in H. destruct H as [H|H].
  - rewrite H. now eexists.
  - destruct (String.eqb (t_name t) "*"); [now eexists|]. rewrite H. now eexists.
Qed.
Lemma nostar_marks x : is_star x = false -> length (marks x) <= 1 -> marks x = [].
Proof.
  destruct x as [t|]; [|reflexivity]. unfold is_star. cbn. intros H. apply orb_false_elim in H. destruct H as [-> ->].
  destruct (String.eqb (t_name t) "**"); [cbn; lia|]. destruct (String.eqb (t_name t) "&&"); [cbn; lia|reflexivity].
Qed.
Lemma const_marks x : named x "const" = true -> marks x = [].
Proof. destruct x as [t|]; [|discriminate]. cbn. intros H. apply String.eqb_eq in H. now rewrite H. Qed.
Lemma volatile_marks x : named x "volatile" = true -> marks x = [].
Proof. destruct x as [t|]; [|discriminate]. cbn. intros H. apply String.eqb_eq in H. now rewrite H. Qed.

Definition addq (c v : nat) (x : level) : level := mk_level (lv_mark x) (lv_words x) (c + lv_const x) (v + lv_volatile x).

Lemma read_c pc : Forall is_c pc -> forall v l, read_from v (pc ++ l) = read_from (addq (length pc) 0 v) l.
Proof.
  induction 1 as [|x pc Hx _ IH]; intros v l; [destruct v; reflexivity|].
  cbn [app read_from]. rewrite (const_marks _ Hx). rewrite IH. f_equal. unfold put. fold (named x "const"). change (is_word x "const") with (named x "const").
  rewrite Hx. unfold addq. cbn. f_equal; lia.
Qed.
Lemma read_v pv : Forall is_v pv -> forall v l, read_from v (pv ++ l) = read_from (addq 0 (length pv) v) l.
Proof.
  induction 1 as [|x pc Hx _ IH]; intros v l; [destruct v; reflexivity|].
  cbn [app read_from]. rewrite (volatile_marks _ Hx). rewrite IH. f_equal. unfold put. 
  change (is_word x "const") with (named x "const"). change (is_word x "volatile") with (named x "volatile").
  rewrite (volatile_not_const _ Hx), Hx. unfold addq. cbn. f_equal; lia.
Qed.

Lemma addq0 v : addq 0 0 v = v. Proof. now destruct v. Qed.

Lemma read_norm l : separate l -> forall pc pv v, Forall is_c pc -> Forall is_v pv ->
  read_from v (norm pc pv l) = read_from (addq (length pc) (length pv) v) l.
Proof.
  induction 1 as [|x l Hx _ IH]; intros pc pv v Hc Hv; cbn [norm].
  - rewrite read_c by exact Hc. rewrite <- (app_nil_r pv) at 1. rewrite read_v by exact Hv. unfold addq; cbn [read_from lv_mark lv_words lv_const lv_volatile]; repeat f_equal; lia.
  - destruct (named x "const") eqn:Ec; [|destruct (named x "volatile") eqn:Ev; [|destruct (is_star x) eqn:Es]].
    + rewrite IH by (try apply Forall_app; auto). cbn [read_from]. rewrite (const_marks _ Ec). f_equal.
      unfold put. change (is_word x "const") with (named x "const"). rewrite Ec. unfold addq. cbn. rewrite app_length. cbn. f_equal. lia.
    + rewrite IH by (try apply Forall_app; auto). cbn [read_from]. rewrite (volatile_marks _ Ev). f_equal.
      unfold put. change (is_word x "const") with (named x "const"). change (is_word x "volatile") with (named x "volatile").
      rewrite Ec, Ev. unfold addq. cbn. rewrite app_length. cbn. f_equal. lia.
    + rewrite read_c by exact Hc. rewrite read_v by exact Hv. cbn [read_from]. destruct (star_marks _ Es) as [m Em]. rewrite Em.
      rewrite IH by constructor. cbn [length]. rewrite addq0. f_equal.
    + cbn [read_from]. rewrite (nostar_marks _ Es Hx). rewrite IH by assumption. f_equal.
      unfold put. change (is_word x "const") with (named x "const"). change (is_word x "volatile") with (named x "volatile").
      rewrite Ec, Ev. unfold addq. reflexivity.
Qed.

Lemma reorder_meaning l : separate l -> read (reorder_modifiers l) = read l.
Proof.
  intros H. rewrite reorder_norm. unfold read. rewrite (read_norm l H [] [] _ (Forall_nil _) (Forall_nil _)). cbn [length]. now rewrite addq0.
Qed.

Lemma norm_words l : forall pc pv, Forall is_c pc -> Forall is_v pv ->
  filter (fun i => negb (qualifier i)) (norm pc pv l) = filter (fun i => negb (qualifier i)) l.
Proof.
  assert (FC : forall pc, Forall is_c pc -> filter (fun i => negb (qualifier i)) pc = []).
  { induction 1 as [|x l0 Hx _ IH]; [reflexivity|]. cbn. unfold qualifier at 1. change (is_word x "const") with (named x "const"). rewrite Hx. exact IH. }
  assert (FV : forall pc, Forall is_v pc -> filter (fun i => negb (qualifier i)) pc = []).
  { induction 1 as [|x l0 Hx _ IH]; [reflexivity|]. cbn. unfold qualifier at 1. change (is_word x "volatile") with (named x "volatile"). rewrite Hx, orb_true_r. exact IH. }
  induction l as [|x l IH]; intros pc pv Hc Hv; cbn [norm].
  - rewrite filter_app, FC, FV by assumption. reflexivity.
  - destruct (named x "const") eqn:Ec; [|destruct (named x "volatile") eqn:Ev; [|destruct (is_star x) eqn:Es]].
    + rewrite IH by (try apply Forall_app; auto). cbn. unfold qualifier at 2. change (is_word x "const") with (named x "const"). now rewrite Ec.
    + rewrite IH by (try apply Forall_app; auto). cbn. unfold qualifier at 2. change (is_word x "volatile") with (named x "volatile"). now rewrite Ev, orb_true_r.
    + rewrite !filter_app, FC, FV by assumption. cbn. now rewrite IH by constructor.
    + cbn. now rewrite IH.
Qed.
Lemma reorder_words l : filter (fun i => negb (qualifier i)) (reorder_modifiers l) = filter (fun i => negb (qualifier i)) l.
Proof. rewrite reorder_norm. now apply norm_words. Qed.

Lemma norm_count n l : n = "const" \/ n = "volatile" -> forall pc pv,
  length (filter (fun i => is_word i n) (norm pc pv l)) =
  length (filter (fun i => is_word i n) pc) + length (filter (fun i => is_word i n) pv) + length (filter (fun i => is_word i n) l).
Proof.
  intros N. induction l as [|x l IH]; intros pc pv; cbn [norm].
  - rewrite filter_app, app_length. cbn. lia.
  - destruct (named x "const"); [|destruct (named x "volatile"); [|destruct (is_star x) eqn:Es]].
    + rewrite IH, filter_app, app_length. cbn. destruct (is_word x n); cbn; lia.
    + rewrite IH, filter_app, app_length. cbn. destruct (is_word x n); cbn; lia.
    + rewrite !filter_app, !app_length. cbn [filter]. destruct (is_word x n); cbn [length]; rewrite IH; cbn; lia.
    + cbn [filter]. destruct (is_word x n); cbn [length]; rewrite IH; lia.
Qed.
Lemma reorder_count n l : n = "const" \/ n = "volatile" ->
  length (filter (fun i => is_word i n) (reorder_modifiers l)) = length (filter (fun i => is_word i n) l).
Proof. intros N. rewrite reorder_norm. rewrite (norm_count n l N). reflexivity. Qed.

Fixpoint placed_b (l : list item) : Prop :=
  match l with
  | x :: ((y :: _) as r) =>
      (qualifier x = true -> (qualifier y = true \/ is_word y "*" = true \/ is_word y "&" = true) /\
                             (is_word x "volatile" = true -> is_word y "const" = false)) /\ placed_b r
  | _ => True
  end.
Lemma placed_b_ok l : placed_b l -> placed l.
Proof.
  intros H a. revert l H. induction a as [|z a IH]; intros l H x y b E Q; subst l.
  - destruct H as [H _]. now apply H.
  - cbn in H. destruct (a ++ x :: y :: b) as [|u v] eqn:E; [now destruct a|]. destruct H as [_ H].
    apply (IH (u :: v)  H x y b); [now rewrite E|exact Q].
Qed.

Definition okhead (volatile_only : bool) (l : list item) : Prop :=
  match l with [] => True | y :: _ => (qualifier y = true \/ is_word y "*" = true \/ is_word y "&" = true) /\ (volatile_only = true -> is_word y "const" = false) end.

Lemma placed_v pv rest : Forall is_v pv -> okhead true rest -> placed_b rest -> placed_b (pv ++ rest) /\ okhead true (pv ++ rest).
Proof.
  induction 1 as [|x pv Hx _ IH]; intros H P; [auto|]. destruct (IH H P) as [A B]. cbn [app].
  assert (Q : qualifier x = true) by (unfold qualifier; change (is_word x "volatile") with (named x "volatile"); rewrite Hx; apply orb_true_r).
  split.
  - cbn [placed_b]. destruct (pv ++ rest) as [|y r] eqn:E; [exact I|]. split; [|exact A]. intros _. destruct B as [B1 B2]. split; [exact B1|]. intros _. now apply B2.
  - cbn. split; [auto|]. intros _. exact (volatile_not_const _ Hx).
Qed.
Lemma placed_c pc rest : Forall is_c pc -> okhead false rest -> placed_b rest -> placed_b (pc ++ rest) /\ okhead false (pc ++ rest).
Proof.
  induction 1 as [|x pv Hx _ IH]; intros H P; [auto|]. destruct (IH H P) as [A B]. cbn [app].
  assert (Q : qualifier x = true) by (unfold qualifier; change (is_word x "const") with (named x "const"); rewrite Hx; reflexivity).
  split.
  - cbn [placed_b]. destruct (pv ++ rest) as [|y r] eqn:E; [exact I|]. split; [|exact A]. intros _. destruct B as [B1 B2]. split; [exact B1|].
    intros V. change (is_word x "volatile") with (named x "volatile") in V. rewrite (const_not_volatile _ Hx) in V. discriminate.
  - cbn. split; [auto|]. discriminate.
Qed.

Lemma okhead_weaken l : okhead true l -> okhead false l.
Proof. destruct l; cbn; [auto|]. intros [A _]. split; [exact A|discriminate]. Qed.

Lemma norm_placed l : forall pc pv, Forall is_c pc -> Forall is_v pv -> placed_b (norm pc pv l).
Proof.
  induction l as [|x l IH]; intros pc pv Hc Hv; cbn [norm].
  - rewrite <- (app_nil_r pv). destruct (placed_v pv [] Hv I I) as [A B]. apply placed_c; auto. now apply okhead_weaken.
  - destruct (named x "const") eqn:Ec; [|destruct (named x "volatile") eqn:Ev; [|destruct (is_star x) eqn:Es]].
    + apply IH; [apply Forall_app; auto|exact Hv].
    + apply IH; [exact Hc|apply Forall_app; auto].
    + assert (Q : qualifier x = false) by (unfold qualifier; change (is_word x "const") with (named x "const"); change (is_word x "volatile") with (named x "volatile"); now rewrite Ec, Ev).
      destruct (placed_v pv (x :: norm [] [] l) Hv) as [A B].
      * cbn. unfold is_star in Es. apply orb_prop in Es. split; [right; exact Es|]. intros _. exact Ec.
      * cbn. destruct (norm [] [] l) eqn:E; [exact I|]. split; [congruence|]. rewrite <- E. apply IH; constructor.
      * apply placed_c; auto. now apply okhead_weaken.
    + cbn [placed_b]. destruct (norm pc pv l) eqn:E; [exact I|]. split; [|rewrite <- E; now apply IH].
      intros Q. unfold qualifier in Q. change (is_word x "const") with (named x "const") in Q. change (is_word x "volatile") with (named x "volatile") in Q.
      rewrite Ec, Ev in Q. discriminate.
Qed.
Lemma reorder_placed l : placed (reorder_modifiers l).
Proof. apply placed_b_ok. rewrite reorder_norm. apply norm_placed; constructor. Qed.

(** The normal form is determined by the meaning. *)
Definition print_level (v : level) : list item :=
  match lv_mark v with Some m => [mark_item m] | None => [] end ++ lv_words v ++
  repeat (Tok (mk_tok NAME "const")) (lv_const v) ++ repeat (Tok (mk_tok NAME "volatile")) (lv_volatile v).

Definition nc (x : item) := x = Tok (mk_tok NAME "const").
Definition nv (x : item) := x = Tok (mk_tok NAME "volatile").
Lemma nc_repeat pc : Forall nc pc -> pc = repeat (Tok (mk_tok NAME "const")) (length pc).
Proof. induction 1 as [|x pc -> _ IH]; [reflexivity|]. cbn. now f_equal. Qed.
Lemma nv_repeat pc : Forall nv pc -> pc = repeat (Tok (mk_tok NAME "volatile")) (length pc).
Proof. induction 1 as [|x pc -> _ IH]; [reflexivity|]. cbn. now f_equal. Qed.
Lemma nc_c pc : Forall nc pc -> Forall is_c pc.
Proof. intros H. eapply Forall_impl; [|exact H]. intros x ->. reflexivity. Qed.
Lemma nv_v pc : Forall nv pc -> Forall is_v pc.
Proof. intros H. eapply Forall_impl; [|exact H]. intros x ->. reflexivity. Qed.

Lemma norm_print l : separate l -> usual l -> forall m ws pc pv, Forall nc pc -> Forall nv pv ->
  match m with Some m => [mark_item m] | None => [] end ++ ws ++ norm pc pv l =
  flat_map print_level (read_from (mk_level m ws (length pc) (length pv)) l).
Proof.
  intros HS. induction HS as [|x l Hx _ IH]; intros HU m ws pc pv Hc Hv; cbn [norm].
  - cbn. rewrite app_nil_r. unfold print_level. cbn. now rewrite <- (nc_repeat _ Hc), <- (nv_repeat _ Hv).
  - inversion HU as [|? ? [U1 U2] HU']; subst. specialize (IH HU').
    destruct (named x "const") eqn:Ec; [|destruct (named x "volatile") eqn:Ev; [|destruct (is_star x) eqn:Es]].
    + assert (nc x) as X. { destruct U1 as [n ->]; [unfold qualifier; change (is_word x "const") with (named x "const"); now rewrite Ec|]. cbn in Ec. apply String.eqb_eq in Ec. now subst n. }
      rewrite IH by (try apply Forall_app; auto). cbn [read_from]. rewrite (const_marks _ Ec). unfold put.
      change (is_word x "const") with (named x "const"). rewrite Ec. cbn. rewrite app_length, Nat.add_comm. reflexivity.
    + assert (nv x) as X. { destruct U1 as [n ->]; [unfold qualifier; change (is_word x "volatile") with (named x "volatile"); rewrite Ev; apply orb_true_r|]. cbn in Ev. apply String.eqb_eq in Ev. now subst n. }
      rewrite IH by (try apply Forall_app; auto). cbn [read_from]. rewrite (volatile_marks _ Ev). unfold put.
      change (is_word x "const") with (named x "const"). change (is_word x "volatile") with (named x "volatile"). rewrite Ec, Ev. cbn. rewrite app_length, Nat.add_comm. reflexivity.
    + cbn [read_from]. destruct (star_marks _ Es) as [k Ek]. rewrite Ek. cbn [flat_map]. rewrite (U2 _ Ek).
      unfold bare. specialize (IH (Some k) [] [] [] (Forall_nil _) (Forall_nil _)). cbn in IH. rewrite <- IH.
      unfold print_level. cbn. rewrite <- (nc_repeat _ Hc), <- (nv_repeat _ Hv). now rewrite <- !app_assoc.
    + cbn [read_from]. rewrite (nostar_marks _ Es Hx). unfold put. change (is_word x "const") with (named x "const"). change (is_word x "volatile") with (named x "volatile"). rewrite Ec, Ev.
      cbn. rewrite <- IH by assumption. now rewrite <- !app_assoc.
Qed.

Lemma reorder_canonical l1 l2 : separate l1 -> separate l2 -> usual l1 -> usual l2 -> read l1 = read l2 ->
  reorder_modifiers l1 = reorder_modifiers l2.
Proof.
  intros S1 S2 U1 U2 E. rewrite !reorder_norm.
  pose proof (norm_print l1 S1 U1 None [] [] [] (Forall_nil _) (Forall_nil _)) as A.
  pose proof (norm_print l2 S2 U2 None [] [] [] (Forall_nil _) (Forall_nil _)) as B.
  cbn [app length] in A, B. rewrite A, B. unfold read, bare in E. now rewrite E.
Qed.

(** *** The whole parsed type *)
Definition brackets := ["<"; "("; ">"; ")"; ","].
Definition lexed_word (t : token) : Prop :=
  (is_syntax t = true /\ strip_scope t = t) \/ (is_syntax t = false /\ ~ In (t_name (strip_scope t)) brackets).

Lemma substring_all r : substring 0 (String.length r) r = r.
Proof. induction r as [|c r IH]; cbn; [reflexivity|]. now rewrite IH. Qed.

Lemma read_word_strip t : is_syntax t && String.eqb (t_name t) ">>" = false -> read_word t = [strip_scope t].
Proof.
  unfold read_word. intros ->. unfold strip_scope. destruct (t_name t) as [|a [|b r]] eqn:E.
  - reflexivity.
  - cbn [prefix]. destruct (ascii_dec ":" a); reflexivity.
  - cbn [prefix]. destruct (ascii_dec ":" a) as [<-|Na].
    + destruct (ascii_dec ":" b) as [<-|Nb].
      * cbn [andb Ascii.eqb Bool.eqb]. assert (prefix "" r = true) as -> by now destruct r.
        cbn [String.length substring]. replace (S (S (String.length r)) - 2) with (String.length r) by lia. now rewrite substring_all.
      * destruct (Ascii.eqb_spec b ":"%char); [congruence|]. now rewrite andb_false_r.
    + destruct (Ascii.eqb_spec a ":"%char); [congruence|]. reflexivity.
Qed.

Lemma is_syntax_strip t : is_syntax (strip_scope t) = is_syntax t.
Proof. unfold strip_scope. destruct (t_name t) as [|a [|b r]]; try reflexivity. destruct (Ascii.eqb a ":" && Ascii.eqb b ":"); reflexivity. Qed.

Definition sepw (toks : list token) : Prop := Forall (fun t => length (marks (Tok t)) <= 1) (flat_map read_word toks).
Definition tail_word (last : option token) : list token := match last with Some t => [t] | None => [] end.

Lemma same_items_app a a' b b' : same_items a a' -> same_items b b' -> same_items (a ++ b) (a' ++ b').
Proof. intros H. induction H; intros K; cbn; [exact K|constructor; auto|constructor; auto]. Qed.
Lemma bracketed_app a b : bracketed a -> bracketed b -> bracketed (a ++ b).
Proof. intros H. induction H as [|t l N H IH|o a l N A H IH]; intros K; cbn; [exact K|constructor; auto|]. rewrite <- app_assoc. now apply br_group; auto. Qed.
Lemma same_separate a a' : same_items a a' -> separate a -> separate a'.
Proof.
  induction 1 as [|t l l' H IH|x y l l' H1 H IH]; intros S; [constructor| |].
  - apply Forall_cons_iff in S. destruct S as [A B]. apply Forall_cons; [exact A|now apply IH].
  - apply Forall_cons_iff in S. destruct S as [A B]. apply Forall_cons; [cbn; lia|now apply IH].
Qed.
Lemma arguments_inert a : arguments a -> Forall (fun x => marks x = []) a.
Proof.
  assert (G : forall t, In (t_name t) [">"; ")"; ","] -> marks (Tok t) = []).
  { intros t H. cbn. repeat (destruct H as [<-|H]; [reflexivity|]). destruct H. }
  induction 1 as [l c _ H|l c a _ H _ IH]; repeat constructor; try exact IH; apply G; cbn in *; intuition.
Qed.

Lemma parse_same : forall fuel,
  (forall acc toks l last r, Forall lexed_word toks -> sepw toks -> separate acc -> parse_rec fuel acc toks = Ok (l, last, r) ->
     exists raw a', same_items raw a' /\ separate (acc ++ a') /\ l = reorder_modifiers (acc ++ a') /\ bracketed raw /\
       flat_map read_word toks = flatten raw ++ tail_word last ++ flat_map read_word r /\
       (last = None -> r = []) /\ Forall lexed_word r /\ sepw r) /\
  (forall acc toks acc' r, Forall lexed_word toks -> sepw toks -> parse_args fuel acc toks = Ok (acc', r) ->
     exists raw a', same_items raw a' /\ acc' = acc ++ a' /\ arguments raw /\
       flat_map read_word toks = flatten raw ++ flat_map read_word r /\ Forall lexed_word r /\ sepw r).
Proof.
  induction fuel as [|f [IH1 IH2]]; [split; discriminate|]. split.
  - intros acc toks l last r HT HW HA H. cbn [parse_rec] in H. destruct toks as [|t0 toks].
    + injection H as <- <- <-. exists [], []. rewrite app_nil_r. repeat split; auto; constructor.
    + inversion HT as [|? ? Ht0 HT']; subst.
      assert (HW' : sepw toks) by (unfold sepw in *; cbn in HW; now apply Forall_app in HW).
      assert (PLAIN : read_word t0 = [strip_scope t0] -> ~ In (t_name (strip_scope t0)) brackets ->
        parse_rec f (acc ++ [Tok (strip_scope t0)]) toks = Ok (l, last, r) ->
        exists raw a', same_items raw a' /\ separate (acc ++ a') /\ l = reorder_modifiers (acc ++ a') /\ bracketed raw /\
         flat_map read_word (t0 :: toks) = flatten raw ++ tail_word last ++ flat_map read_word r /\
         (last = None -> r = []) /\ Forall lexed_word r /\ sepw r).
      { intros RW NB E. assert (HA' : separate (acc ++ [Tok (strip_scope t0)])).
        { apply Forall_app. split; [exact HA|]. constructor; [|constructor].
          unfold sepw in HW. cbn in HW. rewrite RW in HW. cbn in HW. now inversion HW. }
        destruct (IH1 _ _ _ _ _ HT' HW' HA' E) as [raw [a' [A [B [C [D [F G]]]]]]].
        exists (Tok (strip_scope t0) :: raw), (Tok (strip_scope t0) :: a'). rewrite <- app_assoc in B, C. cbn in B, C.
          split; [now constructor|]. split; [exact B|]. split; [exact C|]. split; [now constructor|]. split; [|exact G].
          cbn [flat_map]. rewrite RW, F. reflexivity. }
      destruct Ht0 as [[Sy St]|[Sy NB]].
      * rewrite St in H, PLAIN. rewrite Sy in H.
        destruct (String.eqb (t_name t0) ">>") eqn:E1.
        { destruct (IH1 acc (gt_token :: gt_token :: toks) l last r) as [raw [a' X]]; [| |exact HA|exact H|].
          - repeat constructor; try exact HT'; left; split; reflexivity.
          - unfold sepw in *. cbn in HW |- *. unfold read_word in HW at 1. rewrite Sy, E1 in HW. exact HW.
          - exists raw, a'. cbn [flat_map] in X |- *. unfold read_word at 1. rewrite Sy, E1. exact X. }
        assert (RW : read_word t0 = [t0]) by (rewrite read_word_strip; [now rewrite St|now rewrite Sy, E1]).
        destruct (String.eqb (t_name t0) "," || String.eqb (t_name t0) ">" || String.eqb (t_name t0) ")") eqn:E2.
        { injection H as <- <- <-. exists [], []. rewrite app_nil_r. repeat split; auto; try constructor; [|discriminate].
          cbn [flat_map]. rewrite RW. reflexivity. }
        destruct (String.eqb (t_name t0) "<" || String.eqb (t_name t0) "(") eqn:E3.
        { destruct (parse_args f (acc ++ [Tok t0]) toks) as [[acc' r']|] eqn:EA; [|discriminate]. cbn in H.
          destruct (IH2 _ _ _ _ HT' HW' EA) as [ra [a1 [A [-> [C [D [F G]]]]]]].
          assert (IN : In (t_name t0) ["<"; "("]).
          { apply orb_prop in E3. destruct E3 as [E3|E3]; apply String.eqb_eq in E3; rewrite E3; cbn; auto. }
          assert (MA : separate (Tok t0 :: ra)).
          { constructor; [|apply arguments_inert in C; eapply Forall_impl; [|exact C]; intros x X; now rewrite X; cbn; lia].
            destruct IN as [X|[X|[]]]; cbn; rewrite <- X; cbn; lia. }
          assert (HA' : separate ((acc ++ [Tok t0]) ++ a1)).
          { rewrite <- app_assoc. apply Forall_app. split; [exact HA|]. apply (same_separate (Tok t0 :: ra)); [now constructor|exact MA]. }
          destruct (IH1 _ _ _ _ _ F G HA' H) as [raw [a' [A' [B' [C' [D' [F' G']]]]]]].
          exists (Tok t0 :: ra ++ raw), (Tok t0 :: a1 ++ a'). 
            rewrite <- !app_assoc in B', C'. cbn in B', C'.
            split; [constructor; now apply same_items_app|]. split; [exact B'|]. split; [exact C'|].
            split; [now apply br_group|]. split; [|exact G'].
            cbn [flat_map]. rewrite RW, D, F'. rewrite flatten_cons, flatten_app. cbn. now rewrite <- app_assoc. }
        apply PLAIN; [exact RW| |exact H].
        intros X. cbn in X. apply orb_false_elim in E2. destruct E2 as [E2 E2c]. apply orb_false_elim in E2. destruct E2 as [E2a E2b].
        apply orb_false_elim in E3. destruct E3 as [E3a E3b].
        repeat (destruct X as [X|X]; [rewrite <- X in *; discriminate|]). exact X.
      * assert (RW : read_word t0 = [strip_scope t0]) by (apply read_word_strip; now rewrite Sy).
        rewrite is_syntax_strip, Sy in H. now apply PLAIN.
  - intros acc toks acc' r HT HW H. cbn [parse_args] in H.
    destruct (parse_rec f [] toks) as [[[l last] r1]|] eqn:E; [|discriminate]. cbn [bind] in H.
    destruct last as [t|]; [|discriminate]. destruct (IH1 _ _ _ _ _ HT HW (Forall_nil _) E) as [raw [a' [A [B [C [D [F [_ [G1 G2]]]]]]]]].
    cbn [app] in B, C.
    assert (ST : same_type raw l) by (econstructor; [exact A|subst l; symmetry; now apply reorder_meaning]).
    destruct (String.eqb (t_name t) ",") eqn:E1.
    + destruct (IH2 _ _ _ _ G1 G2 H) as [ra [a1 [A' [-> [C' [D' F']]]]]]. 
      exists (Sub raw :: Tok t :: ra), (Sub l :: Tok t :: a1).
      split; [repeat constructor; assumption|]. split; [now rewrite <- app_assoc|]. split; [apply String.eqb_eq in E1; now constructor|].
      split; [|exact F']. rewrite F, D'. rewrite !flatten_cons. cbn [flat_item]. change (flat_item (Sub raw)) with (flatten raw). cbn. now rewrite <- ?app_assoc.
    + destruct (String.eqb (t_name t) ">" || String.eqb (t_name t) ")") eqn:E2; [|discriminate]. injection H as <- <-.
      exists [Sub raw; Tok t], [Sub l; Tok t]. split; [repeat constructor; assumption|]. split; [reflexivity|].
      split; [constructor; [exact D|]; apply orb_prop in E2; destruct E2 as [E2|E2]; apply String.eqb_eq in E2; rewrite E2; cbn; auto|].
      split; [|auto]. rewrite F, !flatten_cons. cbn. now rewrite <- app_assoc.
Qed.

Lemma lexed_is_word c r t rest : is_space c = false -> lex1 c r = Ok (Some t, rest) -> lexed_word t.
Proof.
  intros S H. destruct (lex1_reads_back _ _ _ _ H S) as [[T [N [d [n [E D]]]]]|[T [R X]]].
  - right. destruct t as [ty nm]. cbn in T. subst ty. split; [reflexivity|]. cbn [t_name] in N.
    assert (G : namestr (t_name (strip_scope (mk_tok NAME nm)))).
    { unfold strip_scope. cbn [t_name]. destruct nm as [|a [|b m]]; try exact N.
      destruct (Ascii.eqb_spec a ":"%char) as [->|]; [|exact N]. destruct (Ascii.eqb_spec b ":"%char) as [->|]; [|exact N]. cbn. now apply namestr_strip. }
    revert G. generalize (t_name (strip_scope (mk_tok NAME nm))). clear. intros n G I.
    destruct G as [|c0 n0 V _|n0 _]; cbn in I;
      repeat (destruct I as [I|I]; [try discriminate I; injection I as <- _; discriminate V|]); exact I.
  - destruct (is_syntax t) eqn:Sy; [left; split; [exact Sy|now apply strip_id]|]. right. split; [exact Sy|].
    rewrite strip_id by exact X. intros I. destruct R as [c0 [r0 [N [_ L]]]]. rewrite N in I.
    specialize (L " "%char "" (or_introl eq_refl) ltac:(intros; discriminate)). cbn in I.
    repeat (destruct I as [I|I]; [injection I as <- <-; cbn in L; injection L as <-; discriminate Sy|]). exact I.
Qed.

Lemma parse_meaning s l ts : get_tokens (s ++ nl) = Ok ts -> parse_type s = Ok l ->
  separate (map Tok (flat_map read_word ts)) ->
  exists raw, bracketed raw /\ flatten raw = flat_map read_word ts /\ same_type raw l.
Proof.
  intros HT H SE. unfold parse_type in H. rewrite HT in H. cbn [bind] in H. unfold parse_tokens in H.
  destruct (parse_rec (2 * weight ts + 2) [] ts) as [[[l' last] r]|] eqn:EP; [|discriminate]. cbn [bind] in H.
  destruct last; [discriminate|]. assert (l' = l) as -> by congruence.
  destruct (parse_same (2 * weight ts + 2)) as [A _].
  destruct (A [] ts l None r) as [raw [a' [B [C [D [E [F [G _]]]]]]]]; [| |constructor|exact EP|].
  - apply Forall_forall. intros t I. destruct (tokens_lexed _ _ _ HT I) as [c [r0 [rest [S L]]]]. exact (lexed_is_word _ _ _ _ S L).
  - unfold sepw. unfold separate in SE. now rewrite Forall_map in SE.
  - exists raw. split; [exact E|]. specialize (G eq_refl). subst r. cbn in F. rewrite app_nil_r in F. split; [now symmetry|].
    econstructor; [exact B|]. subst l. cbn [app] in *. symmetry. now apply reorder_meaning.
Qed.
