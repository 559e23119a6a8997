(** Printing and reading back parsed types. *)
From Verif.Model Require Import Py Tokenizer CType.
From Verif.Spec Require Import TypeSpec.
From Verif.Proofs Require Import LexProofs ReorderProofs.
From Coq Require Import Lia.
Open Scope string_scope.
Open Scope list_scope.

Lemma flatten_cons x l : flatten (x :: l) = flat_item x ++ flatten l.
Proof. reflexivity. Qed.
Lemma flatten_app l1 l2 : flatten (l1 ++ l2) = flatten l1 ++ flatten l2.
Proof. induction l1 as [|x l1 IH]; [reflexivity|]. cbn [app]. rewrite !flatten_cons, IH. apply app_assoc. Qed.

Fixpoint str_list (first : bool) (l : list item) : string :=
  match l with
  | [] => ""
  | x :: r =>
      (match x with
       | Tok t => if tight (t_name t) then t_name t else if first then t_name t else " " ++ t_name t
       | Sub _ => if first then str_item x else " " ++ str_item x
       end ++ str_list false r)%string
  end.
Lemma str_item_sub l : str_item (Sub l) = str_list true l.
Proof.
  cbn [str_item]. match goal with |- ?f true l = _ => enough (G : forall b, f b l = str_list b l) by apply G end.
  induction l as [|x l IH]; intros b; [reflexivity|].
  cbn [str_list]. f_equal.
Qed.

Definition special (n : string) : bool :=
  String.eqb n ">>" || String.eqb n "," || String.eqb n ">" || String.eqb n ")" || String.eqb n "<" || String.eqb n "(".
Definition plain (t : token) : Prop := is_syntax t = true -> special (t_name t) = false.
Definition opener (t : token) : Prop := is_syntax t = true /\ (t_name t = "<" \/ t_name t = "(").
Definition closer (t : token) : Prop := is_syntax t = true /\ (t_name t = ">" \/ t_name t = ")").
Definition comma (t : token) : Prop := is_syntax t = true /\ t_name t = ",".

Section Shape.
Variable P : token -> Prop.

Inductive shape : list item -> Prop :=
| sh_nil : shape []
| sh_plain t l : P t -> plain t -> shape l -> shape (Tok t :: l)
| sh_group o a l : P o -> opener o -> args a -> shape l -> shape (Tok o :: a ++ l)
with args : list item -> Prop :=
| ar_last l c : shape l -> reorder_modifiers l = l -> P c -> closer c -> args [Sub l; Tok c]
| ar_more l c a : shape l -> reorder_modifiers l = l -> P c -> comma c -> args a -> args (Sub l :: Tok c :: a).

Scheme shape_ind2 := Induction for shape Sort Prop
with args_ind2 := Induction for args Sort Prop.
Combined Scheme shape_args_ind from shape_ind2, args_ind2.

Lemma shape_app l1 l2 : shape l1 -> shape l2 -> shape (l1 ++ l2).
Proof.
  intros H1 H2. induction H1 as [|t l Pt Pl _ IH|o a l Po Oo Ha _ IH]; cbn; [exact H2|now constructor|].
  rewrite <- app_assoc. now apply sh_group.
Qed.

(** Separators of a group are neither modifiers nor stars. *)
Lemma args_inert a : args a -> Forall (fun x => named x "const" = false /\ named x "volatile" = false /\ is_star x = false) a.
Proof.
  assert (G : forall t n, t_name t = n -> In n [","; ">"; ")"; "<"; "("] ->
    named (Tok t) "const" = false /\ named (Tok t) "volatile" = false /\ is_star (Tok t) = false).
  { intros t n E H. cbn. unfold is_star. cbn. rewrite E. repeat (destruct H as [<-|H]; [repeat split; reflexivity|]). destruct H. }
  induction 1 as [l c _ _ _ [_ [Hc|Hc]]|l c a _ _ _ [_ Hc] _ IH]; repeat constructor; try exact IH; eapply G; eauto; cbn; tauto.
Qed.

Lemma norm_inert pc pv a l : Forall (fun x => named x "const" = false /\ named x "volatile" = false /\ is_star x = false) a ->
  norm pc pv (a ++ l) = a ++ norm pc pv l.
Proof. induction 1 as [|x a [A [B C]] _ IH]; cbn; [reflexivity|]. rewrite A, B, C. now f_equal. Qed.

Definition mods (l : list item) : Prop := Forall (fun x => exists t, x = Tok t /\ P t /\ plain t) l.
Lemma mods_shape l : mods l -> shape l.
Proof. induction 1 as [|x l [t [-> [A B]]] _ IH]; constructor; auto. Qed.

Lemma shape_norm l : shape l -> forall pc pv, mods pc -> mods pv -> shape (norm pc pv l).
Proof.
  induction 1 as [|t l Pt Pl Hl IH|o a l Po Oo Ha Hl IH]; intros pc pv Mc Mv; cbn [norm].
  - apply shape_app; now apply mods_shape.
  - assert (M : mods [Tok t]) by (constructor; [now exists t|constructor]).
    destruct (named (Tok t) "const"); [apply IH; [now apply Forall_app|exact Mv]|].
    destruct (named (Tok t) "volatile"); [apply IH; [exact Mc|now apply Forall_app]|].
    destruct (is_star (Tok t)).
    + apply shape_app; [now apply mods_shape|]. apply shape_app; [now apply mods_shape|]. constructor; auto. apply IH; constructor.
    + constructor; auto.
  - assert (X : named (Tok o) "const" = false /\ named (Tok o) "volatile" = false /\ is_star (Tok o) = false).
    { destruct Oo as [_ [E|E]]; cbn; unfold is_star; cbn; rewrite E; auto. }
    destruct X as [-> [-> ->]]. rewrite norm_inert by now apply args_inert. apply sh_group; auto.
Qed.

Lemma shape_reorder l : shape l -> shape (reorder_modifiers l).
Proof. intros H. rewrite reorder_norm. apply shape_norm; [exact H| |]; constructor. Qed.

(** Parsing produces shapes. *)
Hypothesis P_gt : P gt_token.
Definition PT (t : token) : Prop := P (strip_scope t).

Lemma gt_strip : strip_scope gt_token = gt_token. Proof. reflexivity. Qed.

Lemma parse_shape : forall fuel,
  (forall acc toks l last r, Forall PT toks -> shape acc -> parse_rec fuel acc toks = Ok (l, last, r) ->
     shape l /\ reorder_modifiers l = l /\ Forall PT r /\
     (forall t, last = Some t -> P t /\ (closer t \/ comma t))) /\
  (forall acc toks acc' r, Forall PT toks -> parse_args fuel acc toks = Ok (acc', r) ->
     exists a, args a /\ acc' = acc ++ a /\ Forall PT r).
Proof.
  induction fuel as [|f [IH1 IH2]]; [split; discriminate|]. split.
  - intros acc toks l last r HT HA H. cbn [parse_rec] in H. destruct toks as [|t0 toks].
    + injection H as <- <- <-. split; [now apply shape_reorder|]. split; [apply reorder_idempotent|]. split; [constructor|discriminate].
    + inversion HT as [|? ? Ht0 HT']; subst.
      assert (PLAIN : plain (strip_scope t0) -> parse_rec f (acc ++ [Tok (strip_scope t0)]) toks = Ok (l, last, r) ->
        shape l /\ reorder_modifiers l = l /\ Forall PT r /\ (forall t, last = Some t -> P t /\ (closer t \/ comma t))).
      { intros PL E. apply (IH1 _ _ _ _ _ HT') in E; [exact E|]. apply shape_app; [exact HA|]. constructor; [exact Ht0|exact PL|constructor]. }
      destruct (is_syntax (strip_scope t0)) eqn:Es; [|apply PLAIN; [intros X; congruence|exact H]].
      destruct (String.eqb (t_name (strip_scope t0)) ">>") eqn:E1.
      { assert (GG : Forall PT (gt_token :: gt_token :: toks)) by (constructor; [exact P_gt|constructor; [exact P_gt|exact HT']]).
        exact (IH1 _ _ _ _ _ GG HA H). }
      destruct (String.eqb (t_name (strip_scope t0)) "," || String.eqb (t_name (strip_scope t0)) ">" || String.eqb (t_name (strip_scope t0)) ")") eqn:E2.
      { injection H as <- <- <-. split; [now apply shape_reorder|]. split; [apply reorder_idempotent|]. split; [exact HT'|].
        intros t X. injection X as <-. split; [exact Ht0|].
        apply orb_prop in E2. destruct E2 as [E2|E2]; [apply orb_prop in E2; destruct E2 as [E2|E2]|]; apply String.eqb_eq in E2.
        - right. now split.
        - left. split; auto.
        - left. split; auto. }
      destruct (String.eqb (t_name (strip_scope t0)) "<" || String.eqb (t_name (strip_scope t0)) "(") eqn:E3.
      { destruct (parse_args f (acc ++ [Tok (strip_scope t0)]) toks) as [[acc' r']|] eqn:EA; [|discriminate]. cbn in H.
        destruct (IH2 _ _ _ _ HT' EA) as [a [Aa [-> Hr']]]. apply (IH1 _ _ _ _ _ Hr') in H; [exact H|].
        rewrite <- app_assoc. apply shape_app; [exact HA|]. cbn. rewrite <- (app_nil_r a). apply sh_group; [exact Ht0| |exact Aa|constructor].
        split; [exact Es|]. apply orb_prop in E3. destruct E3 as [E3|E3]; apply String.eqb_eq in E3; auto. }
      apply PLAIN; [|exact H]. intros _. unfold special. rewrite E1. cbn [orb]. rewrite E2. cbn [orb]. exact E3.
  - intros acc toks acc' r HT H. cbn [parse_args] in H.
    destruct (parse_rec f [] toks) as [[[l last] r1]|] eqn:E; [|discriminate]. cbn in H.
    destruct last as [t|]; [|discriminate]. destruct (IH1 _ _ _ _ _ HT sh_nil E) as [Sl [Rl [Hr Hl]]].
    destruct (Hl t eq_refl) as [Pt Ct].
    destruct (String.eqb (t_name t) ",") eqn:E1.
    + destruct (IH2 _ _ _ _ Hr H) as [a [Aa [-> Hr']]]. exists (Sub l :: Tok t :: a). split; [|split; [|exact Hr']].
      * apply String.eqb_eq in E1. constructor; auto. destruct Ct as [[A [B|B]]|B]; [rewrite B in E1; discriminate|rewrite B in E1; discriminate|exact B].
      * now rewrite <- app_assoc.
    + destruct (String.eqb (t_name t) ">" || String.eqb (t_name t) ")") eqn:E2; [|discriminate]. injection H as <- <-.
      exists [Sub l; Tok t]. split; [|auto]. constructor; auto. destruct Ct as [C|[_ C]]; [exact C|rewrite C in E1; discriminate].
Qed.

(** Fuel. *)
Lemma parse_mono : forall f,
  (forall acc toks x, parse_rec f acc toks = Ok x -> forall g, f <= g -> parse_rec g acc toks = Ok x) /\
  (forall acc toks x, parse_args f acc toks = Ok x -> forall g, f <= g -> parse_args g acc toks = Ok x).
Proof.
  induction f as [|f [IH1 IH2]]; [split; discriminate|]. split; intros acc toks x H g L; (destruct g as [|g]; [lia|]).
  - cbn [parse_rec] in *. destruct toks as [|t0 toks]; [exact H|].
    destruct (is_syntax (strip_scope t0)); [|apply IH1; [exact H|lia]].
    destruct (String.eqb (t_name (strip_scope t0)) ">>"); [apply IH1; [exact H|lia]|].
    destruct (String.eqb (t_name (strip_scope t0)) "," || String.eqb (t_name (strip_scope t0)) ">" || String.eqb (t_name (strip_scope t0)) ")"); [exact H|].
    destruct (String.eqb (t_name (strip_scope t0)) "<" || String.eqb (t_name (strip_scope t0)) "("); [|apply IH1; [exact H|lia]].
    destruct (parse_args f (acc ++ [Tok (strip_scope t0)]) toks) as [y|] eqn:E; [|discriminate].
    rewrite (IH2 _ _ _ E) by lia. cbn in H |- *. apply IH1; [exact H|lia].
  - cbn [parse_args] in *. destruct (parse_rec f [] toks) as [y|] eqn:E; [|discriminate]. rewrite (IH1 _ _ _ E) by lia.
    cbn [bind] in *. destruct y as [[l last] r]. destruct last as [t|]; [|exact H].
    destruct (String.eqb (t_name t) ","); [apply IH2; [exact H|lia]|exact H].
Qed.

Fixpoint wt (toks : list token) : nat :=
  match toks with [] => 0 | t :: r => (if String.eqb (t_name (strip_scope t)) ">>" then 3 else 1) + wt r end.
Lemma wt_weight toks : wt toks <= weight toks.
Proof. unfold weight. induction toks as [|t r IH]; cbn [wt length]; [lia|]. destruct (String.eqb (t_name (strip_scope t)) ">>"); lia. Qed.

Lemma parse_enough : forall f,
  (forall acc toks, 2 * wt toks + 1 <= f -> parse_rec f acc toks <> Err OutOfFuel /\
     forall l last r, parse_rec f acc toks = Ok (l, last, r) -> wt r <= wt toks /\ (last <> None -> wt r < wt toks)) /\
  (forall acc toks, 2 * wt toks + 2 <= f -> parse_args f acc toks <> Err OutOfFuel /\
     forall acc' r, parse_args f acc toks = Ok (acc', r) -> wt r <= wt toks).
Proof.
  induction f as [|f [IH1 IH2]]; [split; intros; lia|]. split; intros acc toks L.
  - cbn [parse_rec]. destruct toks as [|t0 toks].
    + split; [discriminate|]. intros l last r H. injection H as <- <- <-. split; [lia|congruence].
    + cbn [wt] in L |- *. 
      destruct (is_syntax (strip_scope t0)).
      * destruct (String.eqb (t_name (strip_scope t0)) ">>") eqn:E1.
        -- destruct (IH1 acc (gt_token :: gt_token :: toks)) as [A B]; [cbn; lia|]. split; [exact A|].
           intros l last r H. specialize (B _ _ _ H). cbn in B. split; [lia|]. intros X. lia.
        -- destruct (String.eqb (t_name (strip_scope t0)) "," || String.eqb (t_name (strip_scope t0)) ">" || String.eqb (t_name (strip_scope t0)) ")").
           ++ split; [discriminate|]. intros l last r H. injection H as <- <- <-. split; [lia|intros; lia].
           ++ destruct (String.eqb (t_name (strip_scope t0)) "<" || String.eqb (t_name (strip_scope t0)) "(").
              ** destruct (IH2 (acc ++ [Tok (strip_scope t0)]) toks) as [A B]; [lia|].
                 destruct (parse_args f (acc ++ [Tok (strip_scope t0)]) toks) as [[acc' r']|e] eqn:E.
                 --- cbn. specialize (B _ _ eq_refl). destruct (IH1 acc' r') as [C D]; [lia|]. split; [exact C|].
                     intros l last r H. specialize (D _ _ _ H). split; [lia|intros; lia].
                 --- cbn. split; [congruence|discriminate].
              ** destruct (IH1 (acc ++ [Tok (strip_scope t0)]) toks) as [A B]; [lia|]. split; [exact A|].
                 intros l last r H. specialize (B _ _ _ H). split; [lia|intros; lia].
      * destruct (IH1 (acc ++ [Tok (strip_scope t0)]) toks) as [A B].
        { destruct (String.eqb (t_name (strip_scope t0)) ">>"); lia. }
        split; [exact A|]. intros l last r H. specialize (B _ _ _ H).
        destruct (String.eqb (t_name (strip_scope t0)) ">>"); (split; [lia|intros; lia]).
  - cbn [parse_args]. destruct (IH1 [] toks) as [A B]; [lia|].
    destruct (parse_rec f [] toks) as [[[l last] r]|e] eqn:E; cbn [bind].
    + destruct last as [t|]; [|split; discriminate]. destruct (B _ _ _ eq_refl) as [_ W]. specialize (W ltac:(discriminate)).
      destruct (String.eqb (t_name t) ",").
      * destruct (IH2 (acc ++ [Sub l; Tok t]) r) as [C D]; [lia|]. split; [exact C|]. intros acc' r' H. specialize (D _ _ H). lia.
      * destruct (String.eqb (t_name t) ">" || String.eqb (t_name t) ")"); split; try discriminate.
        intros acc' r' H. injection H as <- <-. lia.
    + split; [congruence|discriminate].
Qed.

Lemma parse_tokens_rec toks l f : parse_rec f [] toks = Ok (l, None, []) -> parse_tokens toks = Ok l.
Proof.
  intros H. unfold parse_tokens.
  destruct (parse_enough (2 * weight toks + 2)) as [A _]. destruct (A [] toks) as [B _]; [pose proof (wt_weight toks); lia|].
  destruct (parse_mono f) as [M _]. destruct (parse_mono (2 * weight toks + 2)) as [M' _].
  destruct (parse_rec (2 * weight toks + 2) [] toks) as [x|e] eqn:E.
  - pose proof (M _ _ _ H (Nat.max f (2 * weight toks + 2)) ltac:(lia)) as X.
    pose proof (M' _ _ _ E (Nat.max f (2 * weight toks + 2)) ltac:(lia)) as Y. rewrite X in Y. injection Y as <-. reflexivity.
  - exfalso. destruct (Nat.le_ge_cases f (2 * weight toks + 2)) as [L|L].
    + pose proof (M _ _ _ H _ L). congruence.
    + revert B E H L. clear. intros B E H L.
      assert (G : forall g k, (forall acc toks e, parse_rec g acc toks = Err e -> e <> OutOfFuel -> g <= k -> parse_rec k acc toks = Err e) /\
                  (forall acc toks e, parse_args g acc toks = Err e -> e <> OutOfFuel -> g <= k -> parse_args k acc toks = Err e)).
      { induction g as [|g IH]; intros k; [split; intros acc ts e' X N; cbn in X; congruence|].
        split; intros acc ts e' X N LK; (destruct k as [|k]; [lia|]); destruct (IH k) as [I1 I2].
        - cbn [parse_rec] in *. destruct ts as [|t0 ts]; [discriminate|].
          destruct (is_syntax (strip_scope t0)); [|apply I1; [exact X|exact N|lia]].
          destruct (String.eqb (t_name (strip_scope t0)) ">>"); [apply I1; [exact X|exact N|lia]|].
          destruct (String.eqb (t_name (strip_scope t0)) "," || String.eqb (t_name (strip_scope t0)) ">" || String.eqb (t_name (strip_scope t0)) ")"); [discriminate|].
          destruct (String.eqb (t_name (strip_scope t0)) "<" || String.eqb (t_name (strip_scope t0)) "("); [|apply I1; [exact X|exact N|lia]].
          destruct (parse_args g (acc ++ [Tok (strip_scope t0)]) ts) as [y|] eqn:EE.
          + destruct (parse_mono g) as [_ M]. rewrite (M _ _ _ EE) by lia. cbn in *. apply I1; [exact X|exact N|lia].
          + cbn in X. rewrite (I2 _ _ _ EE); [exact X|congruence|lia].
        - cbn [parse_args] in *. destruct (parse_rec g [] ts) as [y|] eqn:EE.
          + destruct (parse_mono g) as [M _]. rewrite (M _ _ _ EE) by lia. cbn [bind] in *. destruct y as [[l' last] r']. destruct last as [t|]; [|exact X].
            destruct (String.eqb (t_name t) ","); [apply I2; [exact X|exact N|lia]|exact X].
          + cbn [bind] in *. rewrite (I1 _ _ _ EE); [exact X|congruence|lia]. }
      destruct (G (2 * weight toks + 2) f) as [G1 _]. rewrite (G1 _ _ _ E) in H; [discriminate|congruence|exact L].
Qed.

Lemma parse_tokens_fuel toks : parse_tokens toks <> Err OutOfFuel.
Proof.
  unfold parse_tokens. destruct (parse_enough (2 * weight toks + 2)) as [A _]. destruct (A [] toks) as [B _]; [pose proof (wt_weight toks); lia|].
  destruct (parse_rec (2 * weight toks + 2) [] toks) as [[[l [t|]] r]|e]; cbn; congruence.
Qed.

(** Reading a flattened shape. *)
Hypothesis P_strip : forall t, P t -> strip_scope t = t.

Lemma parse_flatten :
  (forall l, shape l -> forall acc rest x f0, parse_rec f0 (acc ++ l) rest = Ok x ->
     exists f, parse_rec f acc (flatten l ++ rest) = Ok x) /\
  (forall a, args a -> forall acc rest, exists f, parse_args f acc (flatten a ++ rest) = Ok (acc ++ a, rest)).
Proof.
  apply shape_args_ind.
  - intros acc rest x f0 H. rewrite app_nil_r in H. now exists f0.
  - intros t l Pt Pl Sl IH acc rest x f0 H.
    change (Tok t :: l) with ([Tok t] ++ l) in H. rewrite app_assoc in H. destruct (IH _ _ _ _ H) as [f E].
    exists (S f). cbn [flatten flat_item app]. change (flat_item (Sub l)) with (flatten l).
    cbn [parse_rec]. rewrite (P_strip _ Pt). unfold plain in Pl.
    destruct (is_syntax t) eqn:Es; [|exact E]. specialize (Pl eq_refl). unfold special in Pl.
    apply orb_false_elim in Pl. destruct Pl as [Pl H6]. apply orb_false_elim in Pl. destruct Pl as [Pl H5].
    apply orb_false_elim in Pl. destruct Pl as [Pl H4]. apply orb_false_elim in Pl. destruct Pl as [Pl H3].
    apply orb_false_elim in Pl. destruct Pl as [H1 H2]. rewrite H1, H2, H3, H4, H5, H6. exact E.
  - intros o a l Po Oo Ha IHa Sl IH acc rest x f0 H.
    replace (acc ++ Tok o :: a ++ l) with (((acc ++ [Tok o]) ++ a) ++ l) in H by (rewrite <- !app_assoc; reflexivity).
    destruct (IH _ _ _ _ H) as [f E]. destruct (IHa (acc ++ [Tok o]) (flatten l ++ rest)) as [g G].
    exists (S (Nat.max f g)). rewrite flatten_cons. cbn [flat_item app]. rewrite flatten_app, <- app_assoc.
    cbn [parse_rec]. rewrite (P_strip _ Po). destruct Oo as [-> On].
    destruct (parse_mono f) as [M1 _]. destruct (parse_mono g) as [_ M2].
    assert (parse_args (Nat.max f g) (acc ++ [Tok o]) (flatten a ++ flatten l ++ rest) = Ok ((acc ++ [Tok o]) ++ a, flatten l ++ rest)) as X by (apply M2; [exact G|lia]).
    destruct On as [-> | ->]; cbn [String.eqb Ascii.eqb Bool.eqb orb]; rewrite X; cbn [bind fst snd]; (apply M1; [exact E|lia]).
  - intros l c Sl IH R Pc [Sc Cc] acc rest.
    destruct (IH [] (c :: rest) (l, Some c, rest) 1) as [f E].
    { cbn [parse_rec app]. rewrite (P_strip _ Pc), Sc, R. destruct Cc as [-> | ->]; reflexivity. }
    exists (S f). replace (flatten [Sub l; Tok c] ++ rest) with (flatten l ++ c :: rest) by (unfold flatten; cbn; rewrite <- app_assoc; reflexivity).
    cbn [parse_args]. rewrite E. cbn [bind]. destruct Cc as [-> | ->]; reflexivity.
  - intros l c a Sl IH R Pc [Sc Cc] Aa IHa acc rest.
    destruct (IH [] (c :: flatten a ++ rest) (l, Some c, flatten a ++ rest) 1) as [f E].
    { cbn [parse_rec app]. rewrite (P_strip _ Pc), Sc, R, Cc. reflexivity. }
    destruct (IHa (acc ++ [Sub l; Tok c]) rest) as [g G].
    exists (S (Nat.max f g)).
    replace (flatten (Sub l :: Tok c :: a) ++ rest) with (flatten l ++ c :: flatten a ++ rest).
    2:{ rewrite !flatten_cons. cbn [flat_item]. change (flat_item (Sub l)) with (flatten l).
        cbn [app]. rewrite <- app_assoc. reflexivity. }
    destruct (parse_mono f) as [M1 _]. destruct (parse_mono g) as [_ M2].
    cbn [parse_args]. rewrite (M1 _ _ _ E) by lia. cbn [bind]. rewrite Cc. cbn [String.eqb Ascii.eqb Bool.eqb].
    rewrite (M2 _ _ _ G) by lia. now rewrite <- app_assoc.
Qed.

Lemma parse_tokens_flatten l : shape l -> reorder_modifiers l = l -> parse_tokens (flatten l) = Ok l.
Proof.
  intros H R. destruct parse_flatten as [A _]. destruct (A l H [] [] (l, None, []) 1) as [f E].
  - cbn [parse_rec app]. now rewrite R.
  - rewrite app_nil_r in E. now apply (parse_tokens_rec _ _ f).
Qed.

(** Printing. *)
Hypothesis P_reads : forall t, P t -> reads_back t.

Definition starts_stop (s : string) : Prop := exists q r, s = String q r /\ stop q.
Definition starts_blank (s : string) : Prop := exists r, s = String " " r.

Lemma blank_stop s : starts_blank s -> starts_stop s.
Proof. intros [r ->]. exists " "%char, r. split; [reflexivity|now left]. Qed.

Lemma tight_stop n : n <> "" -> tight n = true -> forall s, starts_stop (n ++ s).
Proof.
  intros N T s. unfold tight in T. apply orb_prop in T. destruct T as [T|T]; [apply orb_prop in T; destruct T as [T|T]; [apply orb_prop in T; destruct T as [T|T]|]|];
    apply String.eqb_eq in T; subst n; [congruence| | |]; eexists _, _; (split; [reflexivity|]); unfold stop; auto.
Qed.

Lemma name_nonempty t : P t -> t_name t <> "".
Proof. intros H. destruct (P_reads _ H) as [c [r [E _]]]. rewrite E. discriminate. Qed.

Lemma print_tok t rest ts : P t -> starts_stop rest -> (t_name t = "<" -> starts_blank rest) ->
  get_tokens rest = Ok ts -> get_tokens (t_name t ++ rest) = Ok (t :: ts).
Proof.
  intros Pt [q [r [-> Q]]] B H. destruct (P_reads _ Pt) as [c [r0 [N [S L]]]].
  rewrite (tokens_reads_back t c q r r0 N S).
  - now rewrite H.
  - apply L; [exact Q|]. intros X. destruct (B X) as [r' Y]. injection Y as -> _. discriminate.
Qed.

Lemma tokens_space s : get_tokens (" " ++ s) = get_tokens s.
Proof. apply (tokens_blank " "%char). reflexivity. Qed.

Lemma plain_not_lt t : P t -> plain t -> t_name t <> "<".
Proof.
  intros Pt Pl E. destruct (P_reads _ Pt) as [c [r0 [N [S L]]]]. rewrite E in N. injection N as <- <-.
  specialize (L " "%char "" (or_introl eq_refl) ltac:(discriminate)). cbn in L. injection L as L.
  destruct t as [ty n]. cbn in E. subst n. injection L as <-. discriminate (Pl eq_refl).
Qed.

Lemma str_false_stop l rest : (exists l', l = Sub l' :: tl l) \/ (forall t l', l = Tok t :: l' -> P t) ->
  starts_stop rest -> starts_stop (str_list false l ++ rest).
Proof.
  intros HL HR. destruct l as [|[t|l'] l]; cbn [str_list].
  - exact HR.
  - destruct HL as [[l' X]|HL]; [discriminate|]. specialize (HL t l eq_refl).
    destruct (tight (t_name t)) eqn:T.
    + rewrite sapp_assoc. apply tight_stop; [now apply name_nonempty|exact T].
    + apply blank_stop. eexists. reflexivity.
  - apply blank_stop. eexists. reflexivity.
Qed.

Lemma shape_head l : shape l -> forall t l', l = Tok t :: l' -> P t.
Proof. intros H t l' E. destruct H; [discriminate| |]; injection E as <- _; assumption. Qed.

Lemma args_blank a rest : args a -> starts_blank (str_list false a ++ rest).
Proof. intros H. destruct H; eexists; reflexivity. Qed.

Lemma str_list_app l1 l2 : l1 <> [] -> forall b, str_list b (l1 ++ l2) = (str_list b l1 ++ str_list false l2)%string.
Proof.
  induction l1 as [|x l1 IH]; [congruence|]. intros _ b. cbn [str_list app]. destruct l1 as [|y l1].
  - cbn [app str_list]. now rewrite sapp_nil.
  - rewrite IH by discriminate. now rewrite sapp_assoc.
Qed.

Lemma print_tokens :
  (forall l, shape l -> forall b rest ts, starts_stop rest -> get_tokens rest = Ok ts ->
     get_tokens (str_list b l ++ rest) = Ok (flatten l ++ ts)) /\
  (forall a, args a -> forall rest ts, starts_stop rest -> get_tokens rest = Ok ts ->
     get_tokens (str_list false a ++ rest) = Ok (flatten a ++ ts)).
Proof.
  assert (SEP : forall (b : bool) t s ts, get_tokens (t_name t ++ s) = Ok ts ->
    get_tokens ((if tight (t_name t) then t_name t else if b then t_name t else " " ++ t_name t) ++ s)%string = Ok ts).
  { intros b t s ts H. destruct (tight (t_name t)); [exact H|]. destruct b; [exact H|].
    rewrite sapp_assoc, tokens_space. exact H. }
  apply shape_args_ind.
  - intros b rest ts _ H. exact H.
  - intros t l Pt Pl Sl IH b rest ts HR H. cbn [str_list]. rewrite flatten_cons. cbn [flat_item app].
    rewrite sapp_assoc. apply SEP. apply print_tok; [exact Pt| |intros X; now apply plain_not_lt in X|now apply IH].
    apply str_false_stop; [right; now apply shape_head|exact HR].
  - intros o a l Po Oo Ha IHa Sl IH b rest ts HR H. cbn [str_list]. rewrite flatten_cons, flatten_app. cbn [flat_item app].
    rewrite str_list_app by (destruct Ha; discriminate).
    rewrite sapp_assoc. apply SEP. rewrite sapp_assoc, <- app_assoc. apply print_tok; [exact Po| |intros _; now apply args_blank|].
    + apply blank_stop. now apply args_blank.
    + apply IHa; [|now apply IH]. apply str_false_stop; [right; now apply shape_head|exact HR].
  - intros l c Sl IH R Pc [Sc Cc] rest ts HR H. cbn [str_list]. rewrite str_item_sub, !sapp_assoc, tokens_space.
    rewrite !flatten_cons. cbn [flat_item flatten app]. rewrite <- app_assoc. change (flat_item (Sub l)) with (flatten l).
    apply IH.
    + destruct Cc as [-> | ->]; (apply blank_stop; eexists; reflexivity).
    + apply (SEP false c). apply print_tok; [exact Pc|exact HR|destruct Cc as [-> | ->]; discriminate|exact H].
  - intros l c a Sl IH R Pc [Sc Cc] Aa IHa rest ts HR H. cbn [str_list]. rewrite str_item_sub, !sapp_assoc, tokens_space.
    rewrite !flatten_cons. cbn [flat_item app]. rewrite <- !app_assoc. change (flat_item (Sub l)) with (flatten l). cbn [app].
    apply IH.
    + rewrite Cc. exists ","%char. eexists. split; [reflexivity|]. unfold stop; auto.
    + apply (SEP false c). apply print_tok; [exact Pc|apply blank_stop; now apply args_blank|rewrite Cc; discriminate|].
      now apply IHa.
Qed.

Lemma reparse l : shape l -> reorder_modifiers l = l -> parse_type (str_ctype l) = Ok l.
Proof.
  intros S R. unfold parse_type, str_ctype. rewrite str_item_sub. destruct print_tokens as [A _].
  rewrite (A l S true nl []); [|exists nl_char, ""; split; [reflexivity|unfold stop; auto]|reflexivity].
  cbn [bind]. rewrite app_nil_r. now apply parse_tokens_flatten.
Qed.
End Shape.
