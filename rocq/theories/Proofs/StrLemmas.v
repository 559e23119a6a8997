(** String facts used by all proofs. *)
From Coq Require Import Lia ZifyBool ZifyNat ZifyN.
From Verif.Model Require Import Py.
Open Scope string_scope.

Notation chars := list_ascii_of_string.

Lemma app_assoc_s (a b c : string) : (a ++ b) ++ c = a ++ (b ++ c).
Proof. induction a as [|x a IH]; cbn; [reflexivity|now rewrite IH]. Qed.

Lemma app_nil_r_s (a : string) : a ++ "" = a.
Proof. induction a as [|x a IH]; cbn; [reflexivity|now rewrite IH]. Qed.

Lemma chars_app (a b : string) : chars (a ++ b) = (chars a ++ chars b)%list.
Proof. induction a as [|x a IH]; cbn; [reflexivity|now rewrite IH]. Qed.

Lemma chars_inj (a b : string) : chars a = chars b -> a = b.
Proof.
  intros H. rewrite <- (string_of_list_ascii_of_string a), <- (string_of_list_ascii_of_string b).
  now rewrite H.
Qed.

Lemma app_inv_head_s (a b c : string) : a ++ b = a ++ c -> b = c.
Proof. induction a as [|x a IH]; cbn; intros H; [exact H|]. injection H as H; auto. Qed.

Lemma app_inv_tail_s (a b c : string) : a ++ c = b ++ c -> a = b.
Proof.
  intros H. apply chars_inj. apply (f_equal chars) in H. rewrite !chars_app in H.
  now apply app_inv_tail in H.
Qed.

Lemma length_app_s (a b : string) : String.length (a ++ b) = String.length a + String.length b.
Proof. induction a as [|x a IH]; cbn; [reflexivity|now rewrite IH]. Qed.

Lemma concat_cons_s sep x y l :
  String.concat sep (x :: y :: l) = x ++ sep ++ String.concat sep (y :: l).
Proof. reflexivity. Qed.

Lemma concat_cons_ne sep x l :
  l <> [] -> String.concat sep (x :: l) = x ++ sep ++ String.concat sep l.
Proof. destruct l; [congruence|reflexivity]. Qed.

Lemma concat_empty_cons x l : String.concat "" (x :: l) = x ++ String.concat "" l.
Proof. destruct l as [|y l]; cbn; [now rewrite app_nil_r_s|reflexivity]. Qed.

Lemma split_char_nonempty sep s : split_char sep s <> [].
Proof.
  induction s as [|c r IH]; cbn; [discriminate|].
  destruct (Ascii.eqb c sep); [discriminate|].
  destruct (split_char sep r); [discriminate|discriminate].
Qed.

Lemma split_char_no_sep sep s :
  Forall (fun x => ~ In sep (chars x)) (split_char sep s).
Proof.
  induction s as [|c r IH]; cbn.
  - constructor; [cbn; tauto|constructor].
  - destruct (Ascii.eqb_spec c sep) as [->|Hne].
    + constructor; [cbn; tauto|exact IH].
    + destruct (split_char sep r) as [|x xs]; inversion IH; subst.
      * constructor; [cbn; intuition congruence|constructor].
      * constructor; [|assumption]. cbn. intuition congruence.
Qed.

Lemma split_char_join sep s :
  String.concat (String sep "") (split_char sep s) = s.
Proof.
  induction s as [|c r IH]; cbn [split_char]; [reflexivity|].
  destruct (Ascii.eqb_spec c sep) as [->|Hne].
  - rewrite concat_cons_ne by apply split_char_nonempty. rewrite IH. reflexivity.
  - pose proof (split_char_nonempty sep r) as Hn.
    destruct (split_char sep r) as [|x xs] eqn:E; [congruence|].
    destruct xs as [|y ys].
    + cbn in *. now rewrite IH.
    + rewrite concat_cons_s in *. cbn [append] in *. now rewrite IH.
Qed.

Lemma split_char_single sep s :
  ~ In sep (chars s) -> split_char sep s = [s].
Proof.
  induction s as [|c r IH]; cbn; intros H; [reflexivity|].
  destruct (Ascii.eqb_spec c sep) as [->|Hne]; [tauto|].
  rewrite IH by tauto. reflexivity.
Qed.

Lemma split_char_app sep a b :
  ~ In sep (chars a) -> split_char sep (a ++ String sep b) = a :: split_char sep b.
Proof.
  induction a as [|c r IH]; cbn; intros H.
  - now rewrite Ascii.eqb_refl.
  - destruct (Ascii.eqb_spec c sep) as [->|Hne]; [tauto|].
    rewrite IH by tauto. reflexivity.
Qed.

(** The decomposition into separator-free pieces is unique. *)
Lemma split_char_unique sep ls s :
  ls <> [] -> Forall (fun x => ~ In sep (chars x)) ls ->
  String.concat (String sep "") ls = s -> split_char sep s = ls.
Proof.
  revert s. induction ls as [|x ls IH]; intros s Hne Hf Hc; [congruence|].
  inversion Hf as [|? ? Hx Hr]; subst.
  destruct ls as [|y ls].
  - cbn. now apply split_char_single.
  - rewrite concat_cons_s. cbn [append]. rewrite split_char_app by assumption.
    f_equal. apply IH; [discriminate|assumption|reflexivity].
Qed.

Lemma chars_repeat c n : chars (repeat_char c n) = repeat c n.
Proof. induction n; cbn; [reflexivity|now f_equal]. Qed.

Lemma rstrip_spec s :
  exists tail, s = rstrip s ++ tail
    /\ (forall c, In c (chars tail) -> is_space c = true)
    /\ (forall t' c, rstrip s = t' ++ String c "" -> is_space c = false).
Proof.
  induction s as [|c r (tail & E & Ht & Hl)].
  - exists "". cbn. repeat split; [tauto|]. intros t' c H. destruct t'; discriminate H.
  - cbn [rstrip]. destruct (rstrip r) as [|d r'] eqn:Er.
    + destruct (is_space c) eqn:Hc.
      * exists (String c r). repeat split.
        -- intros x [<-|Hx]; [assumption|]. apply Ht. now rewrite E in Hx.
        -- intros t' x H. destruct t'; discriminate H.
      * exists tail. cbn. split; [now rewrite E at 1|]. split; [assumption|].
        intros t' x H. destruct t' as [|a [|b t']]; cbn in H; injection H; intros; subst.
        -- assumption.
        -- discriminate.
        -- discriminate.
    + exists tail. cbn. split; [now rewrite E at 1|]. split; [assumption|].
      intros t' x H. destruct t' as [|a t']; cbn in H.
      * discriminate H.
      * injection H as Ha Hb. exact (Hl t' x Hb).
Qed.

Lemma rstrip_incl s c : In c (chars (rstrip s)) -> In c (chars s).
Proof.
  destruct (rstrip_spec s) as (tail & E & _). rewrite E at 2. rewrite chars_app.
  intros; apply in_or_app; now left.
Qed.

Lemma mem_char_In c s : mem_char c s = true <-> In c (chars s).
Proof.
  induction s as [|d r IH]; cbn; [split; [discriminate|tauto]|].
  rewrite orb_true_iff, IH. destruct (Ascii.eqb_spec c d); subst; intuition congruence.
Qed.

Lemma forall_char_spec f s : forall_char f s = true <-> (forall c, In c (chars s) -> f c = true).
Proof.
  induction s as [|d r IH]; cbn; [split; [tauto|reflexivity]|].
  rewrite andb_true_iff, IH. firstorder congruence.
Qed.

Lemma forall_char_app f a b : forall_char f (a ++ b) = forall_char f a && forall_char f b.
Proof. induction a as [|c a IH]; cbn; [reflexivity|]. now rewrite IH, andb_assoc. Qed.

(** dict facts *)
Lemma dict_get_set_same {V} (d : dict V) k v : dict_get (dict_set d k v) k = Some v.
Proof.
  induction d as [|[k' v'] r IH]; cbn; [now rewrite String.eqb_refl|].
  destruct (String.eqb_spec k k') as [->|Hne]; cbn.
  - now rewrite String.eqb_refl.
  - destruct (String.eqb_spec k k'); [congruence|assumption].
Qed.

Lemma dict_get_set_other {V} (d : dict V) k k2 v :
  k <> k2 -> dict_get (dict_set d k v) k2 = dict_get d k2.
Proof.
  intros Hne. induction d as [|[k' v'] r IH]; cbn.
  - destruct (String.eqb_spec k2 k); [congruence|reflexivity].
  - destruct (String.eqb_spec k k') as [->|Hk]; cbn.
    + destruct (String.eqb_spec k2 k'); [congruence|reflexivity].
    + destruct (String.eqb_spec k2 k'); [reflexivity|assumption].
Qed.
