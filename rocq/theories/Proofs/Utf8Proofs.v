(** Encoding and decoding are inverse to each other. *)
From Verif.Model Require Import Utf8.
From Coq Require Import ZArith List Bool Lia.
Import ListNotations.
Local Open Scope Z_scope.

Lemma some_inj {A} (x y : A) : Some x = Some y -> x = y.
Proof. congruence. Qed.

Ltac b2p := repeat match goal with
  | H : _ && _ = true |- _ => apply andb_true_iff in H; destruct H
  | H : _ && _ = false |- _ => apply andb_false_iff in H
  | H : negb _ = true |- _ => apply negb_true_iff in H
  | H : (_ <=? _) = true |- _ => apply Z.leb_le in H
  | H : (_ <=? _) = false |- _ => apply Z.leb_gt in H
  | H : (_ <? _) = true |- _ => apply Z.ltb_lt in H
  | H : (_ <? _) = false |- _ => apply Z.ltb_ge in H
  | H : (_ <=? _) = false \/ _ |- _ => rewrite Z.leb_gt in H
  | H : _ \/ (_ <=? _) = false |- _ => rewrite Z.leb_gt in H
  end.
Lemma within_true lo x hi : lo <= x <= hi -> within lo x hi = true.
Proof. intros H. unfold within. apply andb_true_iff. rewrite !Z.leb_le. exact H. Qed.
Lemma within_false lo x hi : x < lo \/ hi < x -> within lo x hi = false.
Proof. intros H. unfold within. apply andb_false_iff. rewrite !Z.leb_gt. lia. Qed.
Lemma is_tail_true b : 0x80 <= b <= 0xBF -> is_tail b = true.
Proof. intros H. unfold is_tail. apply andb_true_iff. rewrite !Z.leb_le. exact H. Qed.
Lemma le_true a b : a <= b -> (a <=? b) = true.
Proof. apply Z.leb_le. Qed.
Lemma sur_false c : surrogate c = false <-> c < 0xD800 \/ 0xDFFF < c.
Proof. unfold surrogate. rewrite andb_false_iff, !Z.leb_gt. reflexivity. Qed.

Ltac dm := repeat match goal with
  | |- context [?x mod 64] => lazymatch goal with H : 0 <= x mod 64 < 64 |- _ => fail | _ => assert (0 <= x mod 64 < 64) by (apply Z.mod_pos_bound; lia) end
  end.

Lemma decode_app_one c b r : encode_one c = Some b -> decode (b ++ r) = push c (decode r).
Proof.
  unfold encode_one.
  destruct (c <? 0) eqn:E0; [discriminate|]. destruct (c <=? 0x7F) eqn:E1.
  { intros G. apply some_inj in G; subst. cbn [app decode]. b2p. rewrite within_true by lia. reflexivity. }
  destruct (c <=? 0x7FF) eqn:E2.
  { intros G. apply some_inj in G; subst. cbn [app decode]. b2p.
    assert (M : c = 64 * (c / 64) + c mod 64) by (apply Z.div_mod; lia). dm.
    assert (0 <= c mod 64 < 64) by (apply Z.mod_pos_bound; lia).
    rewrite within_false by lia. rewrite within_true by lia. rewrite is_tail_true by lia. f_equal. lia. }
  destruct (surrogate c) eqn:ES; [discriminate|]. destruct (c <=? 0xFFFF) eqn:E3.
  { intros G. apply some_inj in G; subst. cbn [app decode]. b2p. apply sur_false in ES.
    assert (M : c = 64 * (c / 64) + c mod 64) by (apply Z.div_mod; lia).
    assert (M2 : c / 64 = 64 * (c / 64 / 64) + (c / 64) mod 64) by (apply Z.div_mod; lia).
    assert (D : c / 64 / 64 = c / 4096) by (rewrite Z.div_div by lia; reflexivity). rewrite D in M2.
    assert (0 <= c mod 64 < 64) by (apply Z.mod_pos_bound; lia). assert (0 <= (c / 64) mod 64 < 64) by (apply Z.mod_pos_bound; lia).
    rewrite within_false by lia. rewrite within_false by lia. rewrite within_true by lia.
    rewrite !is_tail_true by lia. cbn [andb].
    replace ((0xE0 + c / 4096 - 0xE0) * 4096 + (0x80 + (c / 64) mod 64 - 0x80) * 64 + (0x80 + c mod 64 - 0x80)) with c by lia.
    rewrite le_true by lia. rewrite (proj2 (sur_false c)) by exact ES. reflexivity. }
  destruct (c <=? 0x10FFFF) eqn:E4; [|discriminate].
  intros G. apply some_inj in G; subst. cbn [app decode]. b2p. apply sur_false in ES.
  assert (M : c = 64 * (c / 64) + c mod 64) by (apply Z.div_mod; lia).
  assert (M2 : c / 64 = 64 * (c / 64 / 64) + (c / 64) mod 64) by (apply Z.div_mod; lia).
  assert (D : c / 64 / 64 = c / 4096) by (rewrite Z.div_div by lia; reflexivity). rewrite D in M2.
  assert (M3 : c / 4096 = 64 * (c / 4096 / 64) + (c / 4096) mod 64) by (apply Z.div_mod; lia).
  assert (D2 : c / 4096 / 64 = c / 262144) by (rewrite Z.div_div by lia; reflexivity). rewrite D2 in M3.
  assert (0 <= c mod 64 < 64) by (apply Z.mod_pos_bound; lia). assert (0 <= (c / 64) mod 64 < 64) by (apply Z.mod_pos_bound; lia).
  assert (0 <= (c / 4096) mod 64 < 64) by (apply Z.mod_pos_bound; lia).
  rewrite within_false by lia. rewrite within_false by lia. rewrite within_false by lia. rewrite within_true by lia.
  rewrite !is_tail_true by lia. cbn [andb].
  replace ((0xF0 + c / 262144 - 0xF0) * 262144 + (0x80 + (c / 4096) mod 64 - 0x80) * 4096 + (0x80 + (c / 64) mod 64 - 0x80) * 64 + (0x80 + c mod 64 - 0x80)) with c by lia.
  rewrite le_true by lia. rewrite le_true by lia. reflexivity.
Qed.

Theorem decode_encode s b : encode s = Some b -> decode b = Some s.
Proof.
  revert b. induction s as [|c s IH]; intros b; cbn [encode].
  - intros G. apply some_inj in G; subst. reflexivity.
  - destruct (encode_one c) as [x|] eqn:E; [|discriminate]. destruct (encode s) as [y|]; [|discriminate].
    intros G. apply some_inj in G; subst. rewrite (decode_app_one _ _ _ E), (IH y eq_refl). reflexivity.
Qed.

Lemma decode_cases b s : decode b = Some s -> b = [] /\ s = [] \/
  exists c s' x r, s = c :: s' /\ b = x ++ r /\ encode_one c = Some x /\ decode r = Some s'.
Proof.
  destruct b as [|a r]; cbn [decode]; [intros G; apply some_inj in G; subst; left; split; reflexivity|]. intros G. right.
  destruct (within 0 a 0x7F) eqn:B1.
  { destruct (decode r) as [l|] eqn:D; cbn in G; [|discriminate]. apply some_inj in G; subst. exists a, l, [a], r. unfold within in B1. b2p.
    repeat split; try reflexivity; [|exact D]. unfold encode_one. rewrite (proj2 (Z.ltb_ge a 0)) by lia. rewrite le_true by lia. reflexivity. }
  destruct (within 0xC2 a 0xDF) eqn:B2.
  { destruct r as [|b1 r]; [discriminate|]. destruct (is_tail b1) eqn:T1; [|discriminate].
    destruct (decode r) as [l|] eqn:D; cbn in G; [|discriminate]. apply some_inj in G; subst. set (v := (a - 0xC0) * 64 + (b1 - 0x80)).
    exists v, l, [a; b1], r. repeat split; try exact D. unfold within, is_tail in *. b2p.
    assert (Q : v = (a - 0xC0) * 64 + (b1 - 0x80)) by reflexivity.
    assert (v / 64 = a - 0xC0) by (symmetry; apply (Z.div_unique v 64 (a - 0xC0) (b1 - 0x80)); lia).
    assert (v mod 64 = b1 - 0x80) by (symmetry; apply (Z.mod_unique v 64 (a - 0xC0) (b1 - 0x80)); lia).
    unfold encode_one. rewrite (proj2 (Z.ltb_ge v 0)) by lia. rewrite (proj2 (Z.leb_gt v 0x7F)) by lia. rewrite le_true by lia.
    f_equal. f_equal; [lia|f_equal; lia]. }
  destruct (within 0xE0 a 0xEF) eqn:B3.
  { destruct r as [|b1 [|c1 r]]; try discriminate. set (v := (a - 0xE0) * 4096 + (b1 - 0x80) * 64 + (c1 - 0x80)) in G.
    destruct (is_tail b1 && is_tail c1 && (0x800 <=? v) && negb (surrogate v)) eqn:T; [|discriminate].
    destruct (decode r) as [l|] eqn:D; cbn in G; [|discriminate]. apply some_inj in G; subst.
    exists v, l, [a; b1; c1], r. repeat split; try exact D. unfold within, is_tail in *. b2p.
    match goal with H : surrogate v = false |- _ => rename H into NS end.
    assert (Q : v = (a - 0xE0) * 4096 + (b1 - 0x80) * 64 + (c1 - 0x80)) by reflexivity.
    assert (E1 : v / 64 = (a - 0xE0) * 64 + (b1 - 0x80)) by (symmetry; apply (Z.div_unique v 64 _ (c1 - 0x80)); lia).
    assert (v mod 64 = c1 - 0x80) by (symmetry; apply (Z.mod_unique v 64 ((a - 0xE0) * 64 + (b1 - 0x80)) (c1 - 0x80)); lia).
    assert (v / 4096 = a - 0xE0) by (symmetry; apply (Z.div_unique v 4096 _ ((b1 - 0x80) * 64 + (c1 - 0x80))); lia).
    assert ((v / 64) mod 64 = b1 - 0x80) by (rewrite E1; symmetry; apply (Z.mod_unique _ 64 (a - 0xE0) (b1 - 0x80)); lia).
    unfold encode_one. rewrite NS. rewrite (proj2 (Z.ltb_ge v 0)) by lia. rewrite (proj2 (Z.leb_gt v 0x7F)) by lia.
    rewrite (proj2 (Z.leb_gt v 0x7FF)) by lia. rewrite le_true by lia. f_equal. f_equal; [lia|f_equal; [lia|f_equal; lia]]. }
  destruct (within 0xF0 a 0xF4) eqn:B4; [|discriminate].
  destruct r as [|b1 [|c1 [|d1 r]]]; try discriminate.
  set (v := (a - 0xF0) * 262144 + (b1 - 0x80) * 4096 + (c1 - 0x80) * 64 + (d1 - 0x80)) in G.
  destruct (is_tail b1 && is_tail c1 && is_tail d1 && (0x10000 <=? v) && (v <=? 0x10FFFF)) eqn:T; [|discriminate].
  destruct (decode r) as [l|] eqn:D; cbn in G; [|discriminate]. apply some_inj in G; subst.
  exists v, l, [a; b1; c1; d1], r. repeat split; try exact D. unfold within, is_tail in *. b2p.
  assert (Q : v = (a - 0xF0) * 262144 + (b1 - 0x80) * 4096 + (c1 - 0x80) * 64 + (d1 - 0x80)) by reflexivity.
  assert (E1 : v / 64 = (a - 0xF0) * 4096 + (b1 - 0x80) * 64 + (c1 - 0x80)) by (symmetry; apply (Z.div_unique v 64 _ (d1 - 0x80)); lia).
  assert (v mod 64 = d1 - 0x80) by (symmetry; apply (Z.mod_unique v 64 ((a - 0xF0) * 4096 + (b1 - 0x80) * 64 + (c1 - 0x80)) (d1 - 0x80)); lia).
  assert (E2 : v / 4096 = (a - 0xF0) * 64 + (b1 - 0x80)) by (symmetry; apply (Z.div_unique v 4096 _ ((c1 - 0x80) * 64 + (d1 - 0x80))); lia).
  assert (v / 262144 = a - 0xF0) by (symmetry; apply (Z.div_unique v 262144 _ ((b1 - 0x80) * 4096 + (c1 - 0x80) * 64 + (d1 - 0x80))); lia).
  assert ((v / 64) mod 64 = c1 - 0x80) by (rewrite E1; symmetry; apply (Z.mod_unique _ 64 ((a - 0xF0) * 64 + (b1 - 0x80)) (c1 - 0x80)); lia).
  assert ((v / 4096) mod 64 = b1 - 0x80) by (rewrite E2; symmetry; apply (Z.mod_unique _ 64 (a - 0xF0) (b1 - 0x80)); lia).
  unfold encode_one. rewrite (proj2 (sur_false v)) by lia. rewrite (proj2 (Z.ltb_ge v 0)) by lia. rewrite (proj2 (Z.leb_gt v 0x7F)) by lia.
  rewrite (proj2 (Z.leb_gt v 0x7FF)) by lia. rewrite (proj2 (Z.leb_gt v 0xFFFF)) by lia. rewrite le_true by lia.
  f_equal. f_equal; [lia|f_equal; [lia|f_equal; [lia|f_equal; lia]]].
Qed.

Theorem encode_decode b s : decode b = Some s -> encode s = Some b.
Proof.
  revert b. induction s as [|c s IH]; intros b D; destruct (decode_cases _ _ D) as [[-> E]|(c' & s' & x & r & E & -> & X & R)]; try discriminate.
  - reflexivity.
  - injection E as -> ->. cbn [encode]. rewrite X, (IH r R). reflexivity.
Qed.

(** Valid UTF-8 is bytes; code points decoded are scalar values. *)
Lemma encode_bytes s b : encode s = Some b -> Forall (fun x => 0 <= x < 256) b.
Proof.
  revert b. induction s as [|c s IH]; intros b; cbn [encode].
  - intros G. apply some_inj in G; subst. constructor.
  - destruct (encode_one c) as [x|] eqn:E; [|discriminate]. destruct (encode s) as [y|]; [|discriminate].
    intros G. apply some_inj in G; subst. apply Forall_app. split; [|apply IH; reflexivity].
    unfold encode_one in E. destruct (c <? 0) eqn:E0; [discriminate|].
    assert (Mb : forall z, 0 <= z mod 64 < 64) by (intros z; apply Z.mod_pos_bound; lia). b2p.
    destruct (c <=? 0x7F) eqn:E1; [apply some_inj in E; subst; b2p; repeat constructor; lia|].
    destruct (c <=? 0x7FF) eqn:E2; [apply some_inj in E; subst; b2p; assert (1 <= c / 64 < 32) by (split; [apply Z.div_le_lower_bound; lia|apply Z.div_lt_upper_bound; lia]); assert (K := Mb c); repeat constructor; lia|].
    destruct (surrogate c); [discriminate|].
    destruct (c <=? 0xFFFF) eqn:E3; [apply some_inj in E; subst; b2p; assert (0 <= c / 4096 < 16) by (split; [apply Z.div_pos; lia|apply Z.div_lt_upper_bound; lia]); assert (K := Mb c); assert (K2 := Mb (c / 64)); repeat constructor; lia|].
    destruct (c <=? 0x10FFFF) eqn:E4; [|discriminate]. apply some_inj in E; subst. b2p. assert (0 <= c / 262144 < 5) by (split; [apply Z.div_pos; lia|apply Z.div_lt_upper_bound; lia]).
    assert (K := Mb c); assert (K2 := Mb (c / 64)); assert (K3 := Mb (c / 4096)). repeat constructor; lia.
Qed.

Lemma encode_nul s b : encode s = Some b -> has_nul b = existsb (Z.eqb 0) s.
Proof.
  revert b. induction s as [|c s IH]; intros b; cbn [encode].
  - intros G. apply some_inj in G; subst. reflexivity.
  - destruct (encode_one c) as [x|] eqn:E; [|discriminate]. destruct (encode s) as [y|]; [|discriminate].
    intros G. apply some_inj in G; subst. cbn [existsb]. unfold has_nul. rewrite existsb_app. f_equal; [|apply IH; reflexivity].
    assert (Mb : forall z, 0 <= z mod 64 < 64) by (intros z; apply Z.mod_pos_bound; lia).
    assert (F : forall z, 0 < z -> Z.eqb 0 z = false) by (intros z Hz; apply Z.eqb_neq; lia).
    unfold encode_one in E. destruct (c <? 0) eqn:E0; [discriminate|]. b2p.
    destruct (c <=? 0x7F) eqn:E1; [apply some_inj in E; subst; cbn [existsb]; apply orb_false_r|]. b2p. rewrite (F c) by lia.
    destruct (c <=? 0x7FF) eqn:E2; [apply some_inj in E; subst; assert (0 <= c / 64) by (apply Z.div_pos; lia); assert (K := Mb c); cbn [existsb]; rewrite !F by lia; reflexivity|].
    destruct (surrogate c); [discriminate|].
    destruct (c <=? 0xFFFF) eqn:E3; [apply some_inj in E; subst; assert (0 <= c / 4096) by (apply Z.div_pos; lia); assert (K := Mb c); assert (K2 := Mb (c / 64)); cbn [existsb]; rewrite !F by lia; reflexivity|].
    destruct (c <=? 0x10FFFF) eqn:E4; [|discriminate]. apply some_inj in E; subst. assert (0 <= c / 262144) by (apply Z.div_pos; lia).
    assert (K := Mb c); assert (K2 := Mb (c / 64)); assert (K3 := Mb (c / 4096)). cbn [existsb]. rewrite !F by lia. reflexivity.
Qed.

Lemma encode_surrogate s : (exists c, In c s /\ (c < 0 \/ 0xD800 <= c <= 0xDFFF \/ 0x10FFFF < c)) <-> encode s = None.
Proof.
  assert (One : forall c, (c < 0 \/ 0xD800 <= c <= 0xDFFF \/ 0x10FFFF < c) <-> encode_one c = None).
  { intros c. unfold encode_one. destruct (c <? 0) eqn:E0; b2p; [split; intros; [reflexivity|lia]|].
    destruct (c <=? 0x7F) eqn:E1; b2p; [split; [lia|discriminate]|]. destruct (c <=? 0x7FF) eqn:E2; b2p; [split; [lia|discriminate]|].
    destruct (surrogate c) eqn:ES; [unfold surrogate in ES; b2p; split; intros; [reflexivity|lia]|]. apply sur_false in ES.
    destruct (c <=? 0xFFFF) eqn:E3; b2p; [split; [lia|discriminate]|]. destruct (c <=? 0x10FFFF) eqn:E4; b2p; [split; [lia|discriminate]|].
    split; intros; [reflexivity|lia]. }
  induction s as [|c s IH]; cbn [encode].
  - split; [intros (x & [] & _)|discriminate].
  - destruct (encode_one c) eqn:E.
    + destruct (encode s).
      * split; [|discriminate]. intros (x & [->|I] & B); [rewrite (proj1 (One x) B) in E; discriminate|]. discriminate (proj1 IH (ex_intro _ x (conj I B))).
      * split; [reflexivity|]. intros _. destruct (proj2 IH eq_refl) as (x & I & B). exists x. split; [right; exact I|exact B].
    + split; [reflexivity|]. intros _. exists c. split; [left; reflexivity|]. apply One. exact E.
Qed.

Lemma c_string_no_nul l : has_nul l = false -> c_string l = l.
Proof.
  induction l as [|b r IH]; intros H; [reflexivity|]. unfold has_nul in *. cbn [existsb] in H. apply orb_false_iff in H as [H1 H2]. cbn [c_string].
  rewrite Z.eqb_sym, H1, IH by exact H2. reflexivity.
Qed.
