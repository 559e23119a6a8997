(** * Custodian declarations (C24) *)
From Coq Require Import List Arith Bool Lia ZArith.
From Verif.Model Require Import Ownership Custodians.
From Verif.Spec Require Import OwnSpec CustodianSpec.
From Verif.Proofs Require Import OwnHeap OwnInv OwnTop OwnProps OwnHist OwnWard.
Import ListNotations.

Lemma add_none l c w : add_custodian_and_ward l c w None = inr (l ++ [(c, w, Z.eqb c (-1) || Z.eqb w (-1))]).
Proof. unfold add_custodian_and_ward. destruct (Z.eqb c (-1) || Z.eqb w (-1))%bool; reflexivity. Qed.

Lemma scan_params_spec ps : forall l num, (0 <= num)%Z -> exists l', scan_params l num ps = inr l' /\
  forall r, In r l' <-> In r l \/ exists k c, nth_error ps k = Some (Some c)
     /\ r = (c, (num + Z.of_nat k + 1)%Z, Z.eqb c (-1)).
Proof.
  induction ps as [|o ps IH]; intros l num NN.
  - exists l. split; [reflexivity|]. intros r. split; [auto|]. intros [I1|(k & c & N & _)]; auto. destruct k; discriminate.
  - assert (SH : forall r, (exists k c, nth_error ps k = Some (Some c) /\ r = (c, (num + 1 + Z.of_nat k + 1)%Z, Z.eqb c (-1)))
       <-> exists k c, nth_error (o :: ps) (Datatypes.S k) = Some (Some c) /\ r = (c, (num + Z.of_nat (Datatypes.S k) + 1)%Z, Z.eqb c (-1))).
    { intros r. split; intros (k & c & N & Q); exists k, c; (split; [exact N|]); subst r; do 2 f_equal; lia. }
    destruct o as [c|]; cbn [scan_params].
    + rewrite add_none. replace (Z.eqb (num + 1) (-1)) with false by (symmetry; apply Z.eqb_neq; lia). rewrite orb_false_r.
      destruct (IH (l ++ [(c, (num + 1)%Z, Z.eqb c (-1))]) (num + 1)%Z) as (l' & E & S1); [lia|].
      exists l'. split; [exact E|]. intros r. rewrite (S1 r), (SH r), in_app_iff. cbn [In]. split.
      * intros [[I1|[<-|[]]]|(k & c' & N & Q)]; auto.
        -- right. exists 0, c. split; [reflexivity|]. do 2 f_equal. lia.
        -- right. exists (Datatypes.S k), c'. auto.
      * intros [I1|(k & c' & N & Q)]; auto. destruct k.
        -- left. right. left. cbn in N. injection N as <-. subst r. do 2 f_equal. lia.
        -- right. exists k, c'. auto.
    + destruct (IH l (num + 1)%Z) as (l' & E & S1); [lia|]. exists l'. split; [exact E|].
      intros r. rewrite (S1 r), (SH r). split.
      * intros [I1|(k & c & N & Q)]; auto. right. exists (Datatypes.S k), c. auto.
      * intros [I1|(k & c & N & Q)]; auto. destruct k; [discriminate|]. right. exists k, c. auto.
Qed.

Lemma scan_spec g : exists l, scan g = inr l /\ forall c w p, In (c, w, p) l <-> declared g c w p.
Proof.
  unfold scan. destruct (scan_params_spec (g_params g) [] 0%Z) as (l1 & E1 & S1); [lia|]. rewrite E1.
  assert (E2 : exists l2, (match g_ret g with Some c => add_custodian_and_ward l1 c (-1) None | None => inr l1 end) = inr l2
     /\ forall r, In r l2 <-> In r l1 \/ exists c, g_ret g = Some c /\ r = (c, (-1)%Z, true)).
  { destruct (g_ret g) as [c|].
    - rewrite add_none. eexists. split; [reflexivity|]. intros r. rewrite in_app_iff. cbn [In]. rewrite orb_true_r.
      split; [intros [I1|[<-|[]]]|intros [I1|(c' & Q & ->)]]; eauto. injection Q as <-. auto.
    - exists l1. split; [reflexivity|]. intros r. split; auto. intros [I1|(c & Q & _)]; auto. discriminate. }
  destruct E2 as (l2 & -> & S2).
  assert (E3 : exists l3, (if g_internal g then add_custodian_and_ward l2 (-1) 0 None else inr l2) = inr l3
     /\ forall r, In r l3 <-> In r l2 \/ g_internal g = true /\ r = ((-1)%Z, 0%Z, true)).
  { destruct (g_internal g).
    - rewrite add_none. eexists. split; [reflexivity|]. intros r. rewrite in_app_iff. cbn [In]. cbn. intuition congruence.
    - exists l2. split; [reflexivity|]. intuition congruence. }
  destruct E3 as (l3 & -> & S3). exists l3. split; [reflexivity|]. intros c w p.
  rewrite S3, S2, S1. cbn [In]. split.
  - intros [[[[]|(k & c' & N & Q)]|(c' & N & Q)]|(I1 & Q)]; injection Q as -> -> ->.
    + replace (0 + Z.of_nat k + 1)%Z with (Z.of_nat k + 1)%Z by lia. constructor. exact N.
    + constructor. exact N.
    + constructor. exact I1.
  - intros D. inversion D as [k c' N|c' N|N]; subst.
    + left. left. right. exists k, c. split; auto. 
    + left. right. eauto.
    + right. auto.
Qed.

Lemma explicit_spec l c w p l' : add_custodian_and_ward l c w p = inr l' ->
  exists b, l' = l ++ [(c, w, b)] /\
    (match p with Some q => b = q | None => b = true <-> c = (-1)%Z \/ w = (-1)%Z end).
Proof.
  unfold add_custodian_and_ward. intros E.
  destruct (Z.eqb_spec c (-1)) as [->|N1]; [|destruct (Z.eqb_spec w (-1)) as [->|N2]]; cbn in E.
  - destruct p as [[|]|]; try discriminate; injection E as <-; eexists; (split; [reflexivity|]); try reflexivity. tauto.
  - destruct p as [[|]|]; try discriminate; injection E as <-; eexists; (split; [reflexivity|]); try reflexivity. tauto.
  - injection E as <-. eexists; split; [reflexivity|]. destruct p; auto. split; [discriminate|tauto].
Qed.

Lemma denotes_get n num w : denotes n num w -> get_custodian_or_ward n num = inr (VObj w).
Proof.
  intros D. unfold get_custodian_or_ward. destruct D as [w E|w E|k w E].
  - cbn. rewrite E. reflexivity.
  - cbn. rewrite E. reflexivity.
  - replace (Z.of_nat k + 1 =? -1)%Z with false by (symmetry; apply Z.eqb_neq; lia).
    replace (Z.of_nat k + 1 =? 0)%Z with false by (symmetry; apply Z.eqb_neq; lia).
    replace (Z.of_nat k + 1 - 1)%Z with (Z.of_nat k) by lia. unfold index.
    assert (k < length (n_params n)) by (apply nth_error_Some; congruence).
    replace ((0 <=? Z.of_nat k) && (Z.of_nat k <? Z.of_nat (length (n_params n))))%Z with true
      by (symmetry; apply andb_true_iff; split; [apply Z.leb_le|apply Z.ltb_lt]; lia).
    rewrite Nat2Z.id, E. reflexivity.
Qed.

(** The code of one phase. *)
Lemma add_ward_held cf c w s s' x : add_ward cf c w s = Ok s' -> held s x -> held s' x.
Proof.
  intros E (r & G & L & X). destruct (add_ward_keeps _ _ _ _ _ _ _ E G) as (r' & G' & L' & X' & _).
  exists r'. rewrite L', X'. auto.
Qed.
Lemma add_ward_guards cf c w s s' x y : add_ward cf c w s = Ok s' -> guards cf s x y -> guards cf s' x y.
Proof.
  intros E (r & G & I1). destruct (add_ward_keeps _ _ _ _ _ _ _ E G) as (r' & G' & _ & _ & W).
  exists r'. split; auto. destruct W as [->|(_ & ->)]; auto.
  destruct I1 as [I1|(z & I1 & I2)]; [left|right; exists z; split; auto]; apply in_or_app; auto.
Qed.
Lemma add_ward_todo cf c w s s' : add_ward cf c w s = Ok s' -> s_todo s' = s_todo s
  /\ forall x, alive s' x -> alive s x.
Proof.
  intros E. split.
  - destruct (add_ward_shape _ _ _ _ _ E) as [->|(rc & _ & _ & _ & _ & r & _ & _ & ->)]; reflexivity.
  - intros x (r' & G & L). destruct (add_ward_wards _ _ _ _ _ _ _ E G) as (r & G' & L' & _). exists r. split; [exact G'|congruence].
Qed.

Lemma phase_spec cf strict n phase l : forall s, (strict = true -> deletes cf) -> reach cf strict s -> may_run s ->
  c_subclassing cf = true ->
  (forall c w, In (c, w, phase) l -> exists x y, denotes n c x /\ denotes n w y /\ held s x /\ held s y) ->
  exists s', custodians cf n phase l s = inr (Ok s') /\ reach cf strict s' /\ may_run s'
    /\ (forall x, held s x -> held s' x)
    /\ (forall x y, guards cf s x y -> guards cf s' x y)
    /\ (forall c w x y, In (c, w, phase) l -> denotes n c x -> denotes n w y -> guards cf s' x y).
Proof.
  induction l as [|((c, w), p) l IH]; intros s SD R M SC H.
  - exists s. split; [reflexivity|]. repeat (split; [auto; fail|]). intros c w x y [].
  - cbn [custodians]. destruct (eqb p phase) eqn:EP.
    + apply eqb_prop in EP. subst p. destruct (H c w) as (x & y & Dx & Dy & Hx & Hy); [left; reflexivity|].
      rewrite (denotes_get _ _ _ Dx), (denotes_get _ _ _ Dy). cbn [add_ward_code].
      assert (A : allowed cf strict s (EvWard x y)) by (cbn; auto).
      destruct (no_fault_event cf strict s _ SD R M A) as (s1 & E). cbn [step_event] in E. rewrite E.
      destruct (add_ward_todo _ _ _ _ _ E) as [T AL].
      destruct (IH s1) as (s2 & E2 & R2 & M2 & HH & GG & NEW); auto.
      * eapply reach_event; [exact R|exact M|exact A|exact E].
      * destruct M as [M|[M1 M2]]; [left; congruence|right]. rewrite T. split; auto.
        intros w0 i0 c0 I1 AL0. exact (M2 w0 i0 c0 I1 (AL _ AL0)).
      * intros c' w' I1. destruct (H c' w') as (x' & y' & ? & ? & ? & ?); [right; exact I1|].
        exists x', y'. repeat split; auto; eapply add_ward_held; eauto.
      * exists s2. split; [exact E2|]. split; [exact R2|]. split; [exact M2|]. split; [|split].
        -- intros z Hz. apply HH. eapply add_ward_held; eauto.
        -- intros x' y' Gz. apply GG. eapply add_ward_guards; eauto.
        -- intros c' w' x' y' [Q|I1] Dx' Dy'; [|eapply NEW; eauto].
           injection Q as -> ->. apply denotes_get in Dx, Dy, Dx', Dy'. rewrite Dx in Dx'. rewrite Dy in Dy'.
           injection Dx' as <-. injection Dy' as <-. apply GG. eapply ward_added; eauto.
    + destruct (IH s) as (s2 & E2 & R2 & M2 & HH & GG & NEW); auto.
      * intros c' w' I1. apply H. right; exact I1.
      * exists s2. repeat (split; [auto; fail|]). intros c' w' x' y' [Q|I1]; [|eapply NEW; eauto].
        injection Q as _ _ ->. rewrite eqb_reflx in EP. discriminate.
Qed.

Lemma guards_persist cf strict s ls s' c w : (strict = true -> deletes cf) -> reach cf strict s -> may_run s ->
  history cf strict s ls s' -> guards cf s c w -> alive s c -> alive s' c -> ~ In (LEvent (EvGcClear c)) ls ->
  guards cf s' c w.
Proof.
  intros SD R M H (rc & G & I1) A A' NG.
  destruct (wards_persist cf strict s ls s' c rc SD R H G (may_run_idle _ _ M A) A' NG) as (rc' & G' & l & W).
  exists rc'. split; auto. rewrite W. destruct I1 as [I1|(x & I1 & I2)]; [left|right; exists x; split; auto]; apply in_or_app; auto.
Qed.

(** A whole wrapper call: hooks before, the call itself, hooks after. *)
Lemma call_spec cf strict n l s s1 ls s2 : (strict = true -> deletes cf) -> reach cf strict s -> may_run s ->
  c_subclassing cf = true ->
  (forall c w, In (c, w, false) l -> exists x y, denotes n c x /\ denotes n w y /\ held s x /\ held s y) ->
  precall cf n l s = inr (Ok s1) -> history cf strict s1 ls s2 -> may_run s2 ->
  (forall c w x, In (c, w, false) l -> denotes n c x -> alive s2 x /\ ~ In (LEvent (EvGcClear x)) ls) ->
  (forall c w, In (c, w, true) l -> exists x y, denotes n c x /\ denotes n w y /\ held s2 x /\ held s2 y) ->
  exists s3, postcall cf n l s2 = inr (Ok s3) /\ reach cf strict s3 /\
    forall c w p x y, In (c, w, p) l -> denotes n c x -> denotes n w y -> guards cf s3 x y.
Proof.
  intros SD R M SC H1 E1 HI M2 HA H2.
  destruct (phase_spec cf strict n false l s SD R M SC H1) as (s1' & E1' & R1 & M1 & HH & GG & NEW).
  unfold precall in E1. rewrite E1' in E1. injection E1 as ->.
  pose proof (reach_history _ _ _ _ _ R1 HI) as R2.
  destruct (phase_spec cf strict n true l s2 SD R2 M2 SC H2) as (s3 & E3 & R3 & M3 & HH3 & GG3 & NEW3).
  exists s3. split; [exact E3|]. split; [exact R3|]. intros c w p x y I1 Dx Dy. destruct p; [eauto|].
  apply GG3. destruct (HA c w x I1 Dx) as [A2 NG]. destruct (H1 c w I1) as (x' & y' & Dx' & _ & Hx & _).
  assert (x' = x) by (apply denotes_get in Dx, Dx'; congruence). subst x'.
  destruct (HH x Hx) as (r & G & L & _).
  eapply (guards_persist cf strict s1 ls s2 x y SD R1 M1 HI); eauto. exists r; auto.
Qed.
