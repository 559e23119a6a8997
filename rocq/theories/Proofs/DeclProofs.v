From Coq Require Import Lia ZifyBool ZifyNat ZifyN.
From Verif.Model Require Import Py CodeSink Decls.
From Verif.Spec Require Import DeclSpec.
From Verif.Proofs Require Import StrLemmas.
Open Scope string_scope.
Ltac Zify.zify_post_hook ::= Z.div_mod_to_equations.

(** * Decimal numerals *)
Lemma digit_char_N n : (n < 10)%N -> N_of_ascii (digit_char n) = (48 + n)%N.
Proof. intros H. unfold digit_char. apply N_ascii_embedding. lia. Qed.

Lemma is_digit_iff c : is_digit c = true <-> digit c.
Proof. unfold is_digit, digit. rewrite andb_true_iff, N.leb_le, N.leb_le. tauto. Qed.

Lemma decimal_aux_value fuel : forall n acc,
  (n < 2 ^ N.of_nat fuel)%N -> (0 < fuel)%nat ->
  value_from 0 (decimal_aux fuel n acc) = value_from n acc.
Proof.
  induction fuel as [|f IH]; intros n acc Hn Hf; [lia|].
  cbn [decimal_aux].
  assert (Hd : N_of_ascii (digit_char (n mod 10)) = (48 + n mod 10)%N)
    by (apply digit_char_N; lia).
  destruct (N.ltb_spec n 10) as [Hlt|Hge].
  - cbn [value_from]. rewrite Hd. f_equal. rewrite N.mod_small by lia. lia.
  - destruct f as [|f]; [cbn in Hn; lia|].
    rewrite IH.
    + cbn [value_from]. rewrite Hd. f_equal.
      pose proof (N.div_mod n 10 ltac:(lia)) as E. lia.
    + rewrite Nat2N.inj_succ, N.pow_succ_r' in Hn.
      apply N.div_lt_upper_bound; [lia|]. lia.
    + lia.
Qed.

Lemma decimal_aux_digits fuel : forall n acc,
  (forall c, In c (chars acc) -> digit c) ->
  forall c, In c (chars (decimal_aux fuel n acc)) -> digit c.
Proof.
  induction fuel as [|f IH]; intros n acc Ha; [exact Ha|].
  cbn [decimal_aux].
  assert (H : forall c, In c (chars (String (digit_char (n mod 10)) acc)) -> digit c).
  { cbn. intros c [<-|Hc]; [|auto]. unfold digit. rewrite digit_char_N by lia. lia. }
  destruct (n <? 10)%N; [exact H|]. apply IH, H.
Qed.

Lemma decimal_aux_nonempty fuel : forall n acc, acc <> "" -> decimal_aux fuel n acc <> "".
Proof.
  induction fuel as [|f IH]; intros n acc Ha; cbn [decimal_aux]; [exact Ha|].
  destruct (n <? 10)%N; [discriminate|]. apply IH. discriminate.
Qed.

Lemma decimal_aux_lead fuel : forall n acc r,
  (0 < n)%N -> (n < 2 ^ N.of_nat fuel)%N ->
  decimal_aux fuel n acc <> String "0" r.
Proof.
  induction fuel as [|f IH]; intros n acc r Hn Hb; [cbn in Hb; lia|].
  cbn [decimal_aux]. destruct (N.ltb_spec n 10) as [Hlt|Hge].
  - intros H. injection H as H _. apply (f_equal N_of_ascii) in H.
    rewrite digit_char_N in H by lia. rewrite N.mod_small in H by lia. change (N_of_ascii "0") with 48%N in H. lia.
  - apply IH.
    + apply N.div_str_pos. lia.
    + rewrite Nat2N.inj_succ, N.pow_succ_r' in Hb.
      clear IH. generalize dependent (2 ^ N.of_nat f)%N. intros q Hq.
      apply N.div_lt_upper_bound; [discriminate|]. lia.
Qed.

Lemma size_nat_bound n : (n < 2 ^ N.of_nat (S (N.size_nat n)))%N.
Proof.
  rewrite Nat2N.inj_succ, N.pow_succ_r'.
  assert (H : (n < 2 ^ N.of_nat (N.size_nat n))%N); [|lia].
  destruct n as [|p]; [cbn; lia|]. cbn [N.size_nat].
  induction p as [p IH|p IH|]; cbn [Pos.size_nat]; try (cbn; lia);
    rewrite Nat2N.inj_succ, N.pow_succ_r'; lia.
Qed.

Lemma decimal_value n : value_from 0 (decimal n) = n.
Proof.
  unfold decimal. rewrite decimal_aux_value; [reflexivity|apply size_nat_bound|lia].
Qed.

Lemma decimal_numeral n : numeral (decimal n) n.
Proof.
  split; [|split; [|split]].
  - unfold decimal. cbn [decimal_aux]. destruct (n <? 10)%N; [discriminate|].
    apply decimal_aux_nonempty. discriminate.
  - apply decimal_aux_digits. cbn; tauto.
  - apply decimal_value.
  - intros r H. destruct n as [|p].
    + vm_compute in H. injection H as <-. reflexivity.
    + exfalso. revert H. apply decimal_aux_lead; [lia|apply size_nat_bound].
Qed.

Lemma decimal_inj a b : decimal a = decimal b -> a = b.
Proof. intros H. rewrite <- (decimal_value a), <- (decimal_value b). now rewrite H. Qed.

(** * Decoding a name: base not ending in a digit, then digits *)
Lemma decode_unique : forall a b d e,
  ~ ends_in_digit a -> ~ ends_in_digit b ->
  (forall c, In c (chars d) -> digit c) -> (forall c, In c (chars e) -> digit c) ->
  a ++ d = b ++ e -> a = b /\ d = e.
Proof.
  assert (Hlast : forall s, s <> "" -> exists p c, s = p ++ String c "").
  { induction s as [|x s IH]; [congruence|]. intros _. destruct s as [|y s].
    - now exists "", x.
    - destruct IH as (p & c & E); [discriminate|]. exists (String x p), c. cbn. now rewrite E. }
  induction a as [|x a IH]; intros b d e Ha Hb Hd He E.
  - destruct b as [|y b]; [now split|]. exfalso. apply Hb.
    destruct (Hlast (String y b) ltac:(discriminate)) as (p & c & Ep).
    exists p, c. split; [exact Ep|]. apply Hd. cbn in E. subst d.
    change (String y (b ++ e)) with (String y b ++ e). rewrite Ep, !chars_app. cbn.
    apply in_or_app. left. apply in_or_app. right. now left.
  - destruct b as [|y b].
    + exfalso. apply Ha. destruct (Hlast (String x a) ltac:(discriminate)) as (p & c & Ep).
      exists p, c. split; [exact Ep|]. apply He. cbn in E. subst e.
      change (String x (a ++ d)) with (String x a ++ d). rewrite Ep, !chars_app. cbn.
      apply in_or_app. left. apply in_or_app. right. now left.
    + cbn in E. injection E as -> E.
      destruct (IH b d e) as [-> ->]; auto.
      * intros (p & c & -> & Hc). apply Ha. exists (String y p), c. now split.
      * intros (p & c & -> & Hc). apply Hb. exists (String y p), c. now split.
Qed.

Lemma var_name_inj a b n m :
  ~ ends_in_digit a -> ~ ends_in_digit b -> (1 <= n)%N -> (1 <= m)%N ->
  var_name a n = var_name b m -> a = b /\ n = m.
Proof.
  intros Ha Hb Hn Hm. unfold var_name.
  assert (Hdig : forall k c, In c (chars (decimal k)) -> digit c)
    by (intros k; destruct (decimal_numeral k) as (_ & H & _); exact H).
  assert (Hne : forall k, decimal k <> "") by (intros k; now destruct (decimal_numeral k)).
  destruct (N.eqb_spec n 1) as [->|Hn1], (N.eqb_spec m 1) as [->|Hm1]; intros E.
  - now split.
  - assert (E' : "" = decimal m).
    { refine (proj2 (decode_unique a b "" (decimal m) Ha Hb _ (Hdig m) _));
        [cbn; tauto|rewrite app_nil_r_s; exact E]. }
    destruct (Hne m). now rewrite <- E'.
  - assert (E' : decimal n = "").
    { refine (proj2 (decode_unique a b (decimal n) "" Ha Hb (Hdig n) _ _));
        [cbn; tauto|rewrite app_nil_r_s; exact E]. }
    destruct (Hne n). exact E'.
  - destruct (decode_unique a b (decimal n) (decimal m) Ha Hb (Hdig n) (Hdig m) E) as [-> E'].
    split; [reflexivity|]. now apply decimal_inj.
Qed.

(** * Histories *)
Definition count (b : string) (l : list string) : nat := count_occ string_dec l b.

(** The table counts requests. *)
Definition table_ok (pre : list string) (s : scopes) : Prop :=
  forall b, dict_get (declared s) b =
            match count b pre with 0 => None | k => Some (N.of_nat k) end.

Lemma next_num_count pre s b :
  table_ok pre s -> next_num s b = N.of_nat (S (count b pre)).
Proof.
  intros H. unfold next_num. rewrite H. destruct (count b pre) as [|k]; [reflexivity|lia].
Qed.

Lemma table_ok_bump pre s b :
  table_ok pre s ->
  forall sk, table_ok (pre ++ [b]) {| declared := dict_set (declared s) b (next_num s b); sinks := sk |}.
Proof.
  intros H sk c. cbn [declared]. unfold count. rewrite count_occ_app. cbn [count_occ].
  destruct (string_dec b c) as [->|Hne].
  - rewrite dict_get_set_same. rewrite (next_num_count pre s c H). unfold count.
    replace (count_occ string_dec pre c + 1) with (S (count_occ string_dec pre c)) by lia.
    reflexivity.
  - rewrite dict_get_set_other by assumption. rewrite Nat.add_0_r. apply H.
Qed.

Definition op_base (o : dop) : option string :=
  match o with DDeclare _ _ n _ _ => Some n | DReserve n => Some n | DChild => None end.

Lemma requests_cons o h :
  requests (o :: h) = match op_base o with Some b => b :: requests h | None => requests h end.
Proof. destruct o; reflexivity. Qed.

(** Each successful answer is the name for its running count. *)
Inductive answers (pre : list string) : list dop -> list (option (res string)) -> Prop :=
| a_nil : answers pre [] []
| a_child : forall h rs, answers pre h rs -> answers pre (DChild :: h) (None :: rs)
| a_name : forall o b h rs,
    op_base o = Some b -> answers (pre ++ [b]) h rs ->
    answers pre (o :: h) (Some (Ok (var_name b (N.of_nat (S (count b pre))))) :: rs)
| a_err : forall i t n ini arr e h rs,
    join_ctype_and_name t (var_name n (N.of_nat (S (count n pre)))) = Err e ->
    answers (pre ++ [n]) h rs ->
    answers pre (DDeclare i t n ini arr :: h) (Some (Err e) :: rs).

Lemma drun_answers h : forall pre s,
  table_ok pre s -> answers pre h (snd (drun s h)) /\ table_ok (pre ++ requests h) (fst (drun s h)).
Proof.
  induction h as [|o h IH]; intros pre s Hs.
  - cbn. rewrite app_nil_r. split; [constructor|exact Hs].
  - cbn [drun]. destruct (dstep s o) as [s1 x] eqn:Eo.
    destruct (drun s1 h) as [s2 xs] eqn:Er. cbn [fst snd].
    destruct o as [i t n ini arr|n|].
    + cbn [dstep declare_variable] in Eo. unfold declare_variable in Eo.
      rewrite requests_cons. cbn [op_base].
      replace (pre ++ n :: requests h)%list with ((pre ++ [n]) ++ requests h)%list
        by now rewrite <- app_assoc.
      rewrite (next_num_count pre s n Hs) in Eo.
      destruct (join_ctype_and_name t (var_name n (N.of_nat (S (count n pre))))) as [decl|e] eqn:Ej;
        apply pair_equal_spec in Eo; destruct Eo as [<- <-].
      * rewrite <- (next_num_count pre s n Hs) in Er.
        cbn [declared sinks] in Er.
        match type of Er with drun {| declared := _; sinks := ?sk |} h = _ =>
          destruct (IH (pre ++ [n])%list _ (table_ok_bump pre s n Hs sk)) as [Ha Ht] end.
        cbn [declared] in *. rewrite Er in Ha, Ht. cbn [fst snd] in *.
        split; [|exact Ht]. apply a_name; [reflexivity|exact Ha].
      * rewrite <- (next_num_count pre s n Hs) in Er.
        cbn [declared sinks] in Er.
        match type of Er with drun {| declared := _; sinks := ?sk |} h = _ =>
          destruct (IH (pre ++ [n])%list _ (table_ok_bump pre s n Hs sk)) as [Ha Ht] end.
        rewrite Er in Ha, Ht. cbn [fst snd] in *.
        split; [|exact Ht]. now apply a_err.
    + cbn [dstep reserve_variable] in Eo. unfold reserve_variable in Eo.
      apply pair_equal_spec in Eo; destruct Eo as [<- <-]. rewrite requests_cons. cbn [op_base].
      replace (pre ++ n :: requests h)%list with ((pre ++ [n]) ++ requests h)%list
        by now rewrite <- app_assoc.
      cbn [declared sinks] in Er.
        match type of Er with drun {| declared := _; sinks := ?sk |} h = _ =>
          destruct (IH (pre ++ [n])%list _ (table_ok_bump pre s n Hs sk)) as [Ha Ht] end.
      rewrite Er in Ha, Ht. cbn [fst snd] in *. split; [|exact Ht].
      rewrite (next_num_count pre s n Hs). apply a_name; [reflexivity|exact Ha].
    + cbn in Eo. injection Eo as <- <-. rewrite requests_cons. cbn [op_base].
      destruct (IH pre (new_child s) Hs) as [Ha Ht]. rewrite Er in Ha, Ht. cbn [fst snd] in *.
      split; [now constructor|exact Ht].
Qed.

Lemma table_ok_init : table_ok [] scopes_init.
Proof. intros b. reflexivity. Qed.

Lemma var_name_kth b k : (1 <= k)%nat -> kth_name b k (var_name b (N.of_nat k)).
Proof.
  intros Hk. destruct k as [|[|k]]; [lia|reflexivity|].
  cbn [kth_name]. exists (decimal (N.of_nat (S (S k)))). split; [apply decimal_numeral|].
  unfold var_name. destruct (N.eqb_spec (N.of_nat (S (S k))) 1); [lia|reflexivity].
Qed.

Lemma answers_nth pre h rs : answers pre h rs -> forall i o b n,
  nth_error h i = Some o -> op_base o = Some b -> nth_error rs i = Some (Some (Ok n)) ->
  n = var_name b (N.of_nat (S (count b (pre ++ requests (firstn i h))))).
Proof.
  induction 1 as [pre|pre h rs H IH|pre o' b' h rs Ho H IH|pre i' t n' ini arr e h rs He H IH];
    intros i o b n Hi Hb Hr.
  - destruct i; discriminate Hi.
  - destruct i as [|i]; cbn in Hi, Hr; [discriminate Hr|].
    cbn [firstn]. rewrite requests_cons. cbn [op_base]. eauto.
  - destruct i as [|i]; cbn in Hi, Hr.
    + injection Hi as <-. injection Hr as <-. assert (b = b') by congruence. subst b'.
      cbn [firstn requests flat_map]. now rewrite app_nil_r.
    + cbn [firstn]. rewrite requests_cons, Ho.
      replace (pre ++ b' :: requests (firstn i h))%list
        with ((pre ++ [b']) ++ requests (firstn i h))%list by now rewrite <- app_assoc.
      eauto.
  - destruct i as [|i]; cbn in Hi, Hr; [discriminate Hr|].
    cbn [firstn]. rewrite requests_cons. cbn [op_base].
    replace (pre ++ n' :: requests (firstn i h))%list
      with ((pre ++ [n']) ++ requests (firstn i h))%list by now rewrite <- app_assoc.
    eauto.
Qed.

Lemma answers_shape pre h rs : answers pre h rs ->
  Forall2 (fun o r => match o, r with
                      | DChild, None => True
                      | DReserve _, Some (Ok _) => True
                      | DDeclare _ t _ _ _, Some (Ok _) => True
                      | DDeclare _ t b _ _, Some (Err e) => exists v, join_ctype_and_name t v = Err e
                      | _, _ => False end) h rs.
Proof.
  induction 1 as [pre|pre h rs H IH|pre o b h rs Ho H IH|pre i t n ini arr e h rs He H IH];
    constructor; auto.
  - destruct o; cbn in Ho; try discriminate; exact I.
  - eauto.
Qed.

Lemma kth_answers h i o b n :
  nth_error h i = Some o ->
  (exists sc t ini arr, o = DDeclare sc t b ini arr) \/ o = DReserve b ->
  nth_error (snd (drun scopes_init h)) i = Some (Some (Ok n)) ->
  kth_name b (S (count_occ string_dec (requests (firstn i h)) b)) n.
Proof.
  intros Hi Ho Hr. destruct (drun_answers h [] scopes_init table_ok_init) as [Ha _].
  assert (Hb : op_base o = Some b) by (destruct Ho as [(? & ? & ? & ? & ->)| ->]; reflexivity).
  rewrite (answers_nth _ _ _ Ha i o b n Hi Hb Hr).
  apply var_name_kth. lia.
Qed.

(** * Uniqueness *)
Lemma answers_nodup pre h rs :
  answers pre h rs ->
  (forall b, In b pre -> ~ ends_in_digit b) ->
  (forall b, In b (requests h) -> ~ ends_in_digit b) ->
  NoDup (names rs) /\
  (forall n, In n (names rs) -> exists b k, In b (requests h) /\ n = var_name b (N.of_nat k)
     /\ (count b pre < k)%nat).
Proof.
  induction 1 as [pre|pre h rs H IH|pre o b h rs Ho H IH|pre i t n ini arr e h rs He H IH];
    intros Hpre Hh.
  - cbn. split; [constructor|tauto].
  - cbn. apply IH; assumption.
  - rewrite requests_cons, Ho in Hh. cbn in Hh.
    destruct IH as [Hnd Hin].
    { intros x Hx. apply in_app_or in Hx. destruct Hx as [Hx|[<-|[]]]; auto. }
    { auto. }
    cbn [names flat_map app].
    assert (Hc : forall x, (count x pre <= count x (pre ++ [b]))%nat)
      by (intros x; unfold count; rewrite count_occ_app; lia).
    split.
    + constructor; [|exact Hnd]. intros Hx.
      destruct (Hin _ Hx) as (b' & k & Hb' & E & Hk).
      apply var_name_inj in E; [|auto|auto|lia|lia].
      destruct E as [<- E]. unfold count in *. rewrite count_occ_app in Hk. cbn in Hk.
      destruct (string_dec b b) as [_|C]; [|congruence]. lia.
    + intros x [<-|Hx].
      * exists b, (S (count b pre)). rewrite requests_cons, Ho. cbn. repeat split; auto.
      * destruct (Hin _ Hx) as (b' & k & Hb' & E & Hk). exists b', k.
        rewrite requests_cons, Ho. cbn. repeat split; auto. specialize (Hc b'). lia.
  - rewrite requests_cons in Hh. cbn in Hh.
    destruct IH as [Hnd Hin].
    { intros x Hx. apply in_app_or in Hx. destruct Hx as [Hx|[<-|[]]]; auto. }
    { auto. }
    cbn [names flat_map app]. split; [exact Hnd|].
    intros x Hx. destruct (Hin _ Hx) as (b' & k & Hb' & E & Hk). exists b', k.
    rewrite requests_cons. cbn. repeat split; auto.
    unfold count in *. rewrite count_occ_app in Hk. lia.
Qed.

Lemma names_nodup h :
  (forall b, In b (requests h) -> ~ ends_in_digit b) ->
  NoDup (names (snd (drun scopes_init h))).
Proof.
  intros H. destruct (drun_answers h [] scopes_init table_ok_init) as [Ha _].
  apply (answers_nodup _ _ _ Ha); [cbn; tauto|exact H].
Qed.


Lemma names_nodup_clear s i h :
  (forall b, In b (requests h) -> ~ ends_in_digit b) ->
  NoDup (names (snd (drun (clear_scope s i) h))).
Proof.
  intros H. destruct (drun_answers h [] (clear_scope s i) (fun b => eq_refl)) as [Ha _].
  apply (answers_nodup _ _ _ Ha); [cbn; tauto|exact H].
Qed.

(** Only a bad type makes a request fail. *)
Lemma failures h i o e :
  nth_error h i = Some o -> nth_error (snd (drun scopes_init h)) i = Some (Some (Err e)) ->
  exists sc t b ini arr v, o = DDeclare sc t b ini arr /\ join_ctype_and_name t v = Err e.
Proof.
  intros Hi Hr. destruct (drun_answers h [] scopes_init table_ok_init) as [Ha _].
  apply answers_shape in Ha. revert i Hi Hr.
  induction Ha as [|o' r' h' rs' Hx Hr' IH]; intros i Hi Hr; [destruct i; discriminate|].
  destruct i as [|i]; cbn in Hi, Hr; [|eauto].
  injection Hi as ->. injection Hr as ->.
  destruct o as [sc t b ini arr|b|]; try contradiction.
  destruct Hx as [v Hv]. repeat eexists. exact Hv.
Qed.

(** * join_ctype_and_name *)
Lemma last_char_spec s c : last_char s = Some c <-> exists p, s = p ++ String c "".
Proof.
  induction s as [|x s IH]; cbn.
  - split; [discriminate|]. intros (p & H). destruct p; discriminate.
  - destruct s as [|y s].
    + split.
      * intros [= ->]. now exists "".
      * intros ([|a [|b p]] & H); cbn in H; injection H; intros; subst; (reflexivity || discriminate).
    + rewrite IH. split.
      * intros (p & E). exists (String x p). cbn. now rewrite E.
      * intros ([|a p] & H); cbn in H; [discriminate|]. injection H as -> H. now exists p.
Qed.

Lemma last_char_none s : last_char s = None <-> s = "".
Proof.
  split; [|now intros ->]. induction s as [|x s IH]; [reflexivity|]. cbn.
  destruct s as [|y s]; [discriminate|]. intros H. specialize (IH H). discriminate.
Qed.

Definition all_stars (s : string) : Prop := forall c, In c (chars s) -> c = "*"%char.

Lemma cut_stars_spec s :
  match cut_stars s with
  | Some (h, st, d) => s = h ++ st /\ all_stars st /\ d <> "*"%char /\ exists p, h = p ++ String d ""
  | None => all_stars s
  end.
Proof.
  induction s as [|c r IH]; cbn [cut_stars]; [intros c []|].
  destruct (cut_stars r) as [[[h st] d]|].
  - destruct IH as (-> & Hs & Hd & p & ->). repeat split; auto. now exists (String c p).
  - destruct (Ascii.eqb_spec c "*"%char) as [->|Hne].
    + intros x [<-|Hx]; auto.
    + repeat split; auto. now exists "".
Qed.

Lemma join_ok ct name r :
  join_ctype_and_name ct name = Ok r ->
  exists a b sep, ct = a ++ b /\ r = a ++ sep ++ b ++ name /\ (sep = "" \/ sep = " ") /\
    all_stars b /\
    (* the character just before the name is a blank or a star *)
    exists p c, a ++ sep ++ b = p ++ String c "" /\ (c = " "%char \/ c = "*"%char).
Proof.
  unfold join_ctype_and_name. destruct (last_char ct) as [c|] eqn:El; [|discriminate].
  apply last_char_spec in El as (p0 & El).
  destruct (Ascii.eqb_spec c "*"%char) as [->|Hne].
  - pose proof (cut_stars_spec ct) as Hc. destruct (cut_stars ct) as [[[h st] d]|]; [|discriminate].
    destruct Hc as (Ect & Hst & Hd & p & Hp).
    assert (Hstne : exists p1, st = p1 ++ String "*" "").
    { destruct st as [|x st].
      - exfalso. rewrite app_nil_r_s in Ect. rewrite Hp in Ect. rewrite Ect in El.
        apply (f_equal last_char) in El.
        assert (E1 : last_char (p ++ String d "") = Some d) by (apply last_char_spec; eauto).
        assert (E2 : last_char (p0 ++ String "*" "") = Some "*"%char) by (apply last_char_spec; eauto).
        rewrite E1, E2 in El. congruence.
      - assert (Hl : last_char (String x st) <> None).
        { intros H. apply (proj1 (last_char_none (String x st))) in H. discriminate. }
        destruct (last_char (String x st)) as [y|] eqn:Ey; [|congruence].
        apply last_char_spec in Ey as (p1 & Ey). exists p1. rewrite Ey. do 2 f_equal.
        apply Hst. rewrite Ey, chars_app. apply in_or_app. right. now left. }
    destruct Hstne as (p1 & Ep1).
    destruct (Ascii.eqb_spec d " "%char) as [->|Hd2]; intros [= <-].
    + exists h, st, "". repeat split; auto. exists (h ++ p1), "*"%char. split; [|auto].
      cbn [append]. rewrite Ep1. now rewrite app_assoc_s.
    + exists h, st, " ". repeat split; auto. exists (h ++ " " ++ p1), "*"%char. split; [|auto].
      rewrite Ep1. now rewrite !app_assoc_s.
  - intros [= <-]. exists ct, "", " ". repeat split; auto.
    + now rewrite app_nil_r_s.
    + intros x [].
    + exists ct, " "%char. split; [reflexivity|auto].
Qed.

Lemma join_err ct name e :
  join_ctype_and_name ct name = Err e <->
  (ct = "" /\ e = IndexError) \/ (ct <> "" /\ all_stars ct /\ e = ValueError).
Proof.
  unfold join_ctype_and_name. destruct (last_char ct) as [c|] eqn:El.
  - assert (Hne : ct <> "") by (intros ->; discriminate).
    destruct (Ascii.eqb_spec c "*"%char) as [->|Hc].
    + pose proof (cut_stars_spec ct) as Hs. destruct (cut_stars ct) as [[[h st] d]|].
      * destruct Hs as (Ect & Hst & Hd & p & Hp).
        destruct (Ascii.eqb d " "%char); (split; [discriminate|]);
          intros [[H _]|(_ & Ha & _)]; try congruence; exfalso; apply Hd, Ha;
          rewrite Ect, Hp, !chars_app; apply in_or_app; left; apply in_or_app; right; now left.
      * split; [intros [= <-]; right; auto|]. intros [[H _]|(_ & _ & ->)]; [congruence|reflexivity].
    + apply last_char_spec in El as (p & El). split; [discriminate|].
      intros [[H _]|(_ & Ha & _)]; [congruence|]. exfalso. apply Hc, Ha.
      rewrite El, chars_app. apply in_or_app. right. now left.
  - apply last_char_none in El. subst ct. split; [intros [= <-]; now left|].
    intros [[_ ->]|(H & _)]; [reflexivity|congruence].
Qed.

(** The declaration written for a variable. *)
Lemma nth_update_same {A} (f : A -> A) l : forall i x,
  nth_error l i = Some x -> nth_error (update_nth i f l) i = Some (f x).
Proof.
  induction l as [|y l IH]; intros i x; destruct i; cbn; try discriminate; [now intros [= ->]|].
  apply IH.
Qed.
Lemma nth_update_other {A} (f : A -> A) l : forall i j,
  i <> j -> nth_error (update_nth i f l) j = nth_error l j.
Proof.
  induction l as [|y l IH]; intros i j H; destruct i, j; cbn; try reflexivity; try congruence.
  apply IH. congruence.
Qed.

Lemma declare_writes s i m t b ini arr s' v :
  declare_variable s i t b ini arr = (s', Ok v) ->
  nth_error (sinks s) i = Some m ->
  exists decl, join_ctype_and_name t v = Ok decl /\
    nth_error (sinks s') i =
      Some (mem_writeln m (decl ++ (match arr with Some a => a | None => "" end)
                                ++ (match ini with Some x => " = " ++ x | None => "" end) ++ ";")) /\
    forall j, j <> i -> nth_error (sinks s') j = nth_error (sinks s) j.
Proof.
  unfold declare_variable. intros H Hm.
  destruct (join_ctype_and_name t (var_name b (next_num s b))) as [decl|] eqn:E;
    apply pair_equal_spec in H; destruct H as [<- H]; [|discriminate].
  injection H as <-. exists decl. split; [exact E|]. cbn [sinks]. split.
  - rewrite (nth_update_same _ _ _ _ Hm). do 2 f_equal.
    destruct arr, ini; cbn [append]; rewrite ?app_assoc_s; reflexivity.
  - intros j Hj. apply nth_update_other. congruence.
Qed.
