(** * The invariant is preserved by pending work, which never faults *)
From Coq Require Import List Arith Bool Lia.
From Verif.Model Require Import Ownership.
From Verif.Spec Require Import OwnSpec.
From Verif.Proofs Require Import OwnHeap OwnInv.
Import ListNotations.

Lemma calls_mono objs wraps objs' wraps' l :
  calls_ok objs wraps l ->
  (forall a o, In a (map frame_addr l) -> get objs a = Some o ->
     exists o', get objs' a = Some o' /\ o_self o' = o_self o /\ (1 <= o_cpp o -> 1 <= o_cpp o')) ->
  (forall w r, In w (map frame_wrap l) -> get wraps w = Some r ->
     exists r', get wraps' w = Some r' /\ w_obj r' = w_obj r /\ w_tmp r' = w_tmp r
     /\ w_virgin r' = w_virgin r /\ w_owned r' = w_owned r) ->
  (forall w r, In w (map frame_wrap l) -> get wraps w = Some r -> w_virgin r = false ->
     hsum (cs w) objs = 0 -> hsum (cs w) objs' = 0) ->
  calls_ok objs' wraps' l.
Proof.
  induction l as [|f t IH]; cbn; auto. intros [F C] A B D. split.
  - destruct f as [w saved a|w a]; cbn in *.
    + destruct F as (o & r & G & S1 & Gw & Ob & M).
      destruct (A a o (or_introl eq_refl) G) as (o' & G' & S' & Q').
      destruct (B w r (or_introl eq_refl) Gw) as (r' & Gw' & Ob' & T' & V' & W').
      exists o', r'. rewrite S', Ob', T'. repeat (split; [assumption|]).
      destruct saved; intuition.
    + destruct F as (o & r & G & Q & Gw & Ob & T & V & OW & Z & N).
      destruct (A a o (or_introl eq_refl) G) as (o' & G' & S' & Q').
      destruct (B w r (or_introl eq_refl) Gw) as (r' & Gw' & Ob' & T' & V' & W').
      pose proof (D w r (or_introl eq_refl) Gw V Z).
      exists o', r'. rewrite Ob', T', V', W'. auto 12.
  - apply IH; [assumption| | |]; intros; eauto.
Qed.

Lemma code_ok_app cf l m : code_ok cf (map KDecref l ++ m) <-> code_ok cf m.
Proof. induction l as [|x t IH]; cbn; tauto. Qed.

Lemma code_ok_in cf l w c : code_ok cf l -> In (KCode w c) l ->
  suffix c (gen_dealloc cf) \/ (suffix c (gen_clear cf) /\ In (KDecref w) l).
Proof.
  induction l as [|[x|x d|x] t IH]; cbn; try tauto.
  - intros C [E|I1]; [discriminate|]. destruct (IH C I1) as [?|[? ?]]; auto.
  - intros [C1 C2] [E|I1].
    + injection E as -> ->. destruct C1 as [C1|(C1 & r & ->)]; auto.
      right; split; auto. right; left; reflexivity.
    + destruct (IH C2 I1) as [?|[? ?]]; auto.
  - intros C [E|I1]; [discriminate|]. destruct (IH C I1) as [?|[? ?]]; auto.
Qed.

Lemma suffix_tl A (x : A) c l : suffix (x :: c) l -> suffix c l.
Proof. intros (p & ->). exists (p ++ [x]). rewrite <- app_assoc. reflexivity. Qed.

(** Whichever wrapper has code to run has not been freed. *)
Ltac wput :=
  repeat match goal with
  | H : context [get (put ?l ?i ?x) ?j] |- _ => rewrite (get_put _ l i x j) in H
  | |- context [get (put ?l ?i ?x) ?j] => rewrite (get_put _ l i x j)
  end.

Ltac eqb_cases :=
  repeat match goal with
  | H : context [?a =? ?a] |- _ => rewrite Nat.eqb_refl in H
  | |- context [?a =? ?a] => rewrite Nat.eqb_refl
  | H : context [if ?a =? ?b then _ else _] |- _ =>
      let E := fresh "E" in destruct (a =? b) eqn:E;
      [apply Nat.eqb_eq in E; try subst a; try subst b | apply Nat.eqb_neq in E]
  | |- context [if ?a =? ?b then _ else _] =>
      let E := fresh "E" in destruct (a =? b) eqn:E;
      [apply Nat.eqb_eq in E; try subst a; try subst b | apply Nat.eqb_neq in E]
  end.

Ltac someinj :=
  repeat match goal with
  | H : Some _ = Some _ |- _ => injection H as H; try subst
  | H : None = Some _ |- _ => discriminate H
  | H : Some _ = None |- _ => discriminate H
  end.

Lemma dealloc_no_free_first cf : existsb is_ifree (gen_clear cf) = false.
Proof. reflexivity. Qed.

Lemma suffix_clear_nofree cf c : suffix c (gen_clear cf) -> existsb is_ifree c = false.
Proof.
  intros (p & E). unfold gen_clear in E.
  assert (X : existsb is_ifree (p ++ c) = false) by (rewrite <- E; reflexivity).
  rewrite existsb_app in X. apply orb_false_iff in X. tauto.
Qed.

Lemma suffix_last A c l (x : A) : suffix c (l ++ [x]) -> c = [] \/ suffix [x] c.
Proof.
  intros (p & E). destruct c as [|y c]; auto. right.
  destruct (@exists_last _ (y :: c)) as (c' & z & Ec); [discriminate|].
  rewrite Ec in *. rewrite app_assoc in E. apply app_inj_tail in E. destruct E as [_ ->].
  exists c'; reflexivity.
Qed.

Lemma suffix_dealloc_free cf c : suffix c (gen_dealloc cf) -> c = [] \/ existsb is_ifree c = true.
Proof.
  intros H1. unfold gen_dealloc in H1. rewrite app_assoc in H1. apply suffix_last in H1.
  destruct H1 as [?|(p & ->)]; auto. right. rewrite existsb_app. cbn. apply orb_true_r.
Qed.

Lemma code_cases cf objs wraps reg todo calls strict w i c :
  Parts cf strict objs wraps reg todo calls -> In (KCode w (i :: c)) todo ->
  (suffix (i :: c) (gen_dealloc cf) /\ existsb is_ifree (i :: c) = true
   /\ exists r, get wraps w = Some r /\ w_st r = Dying /\ w_refs r = 0)
  \/ (suffix (i :: c) (gen_clear cf) /\ existsb is_ifree (i :: c) = false
      /\ exists r, get wraps w = Some r /\ w_st r = Live).
Proof.
  intros P I1. destruct (code_ok_in _ _ _ _ (i_code _ _ _ _ _ _ _ P) I1) as [S1|[S1 D]].
  - left. destruct (suffix_dealloc_free _ _ S1) as [?|F]; [discriminate|].
    split; auto. split; auto. eapply dealloc_exists; eauto.
  - right. split; auto. split; [eapply suffix_clear_nofree; eauto|].
    destruct (decref_exists _ _ _ _ _ _ _ P w D) as (r & G & L & _). eauto.
Qed.

Ltac getrw :=
  repeat match goal with
  | G : get ?l ?i = _, H : context [get ?l ?i] |- _ =>
      lazymatch H with G => fail | _ => rewrite G in H end
  | G : get ?l ?i = _ |- context [get ?l ?i] => rewrite G
  end.

Ltac sums :=
  repeat match goal with
  | |- context [hsum ?f (put ?l ?i ?x)] =>
      let H := fresh "HS" in
      pose proof (hsum_put _ f l i x) as H;
      let v := fresh "v" in set (v := hsum f (put l i x)) in *; clearbody v
  | _ : context [hsum ?f (put ?l ?i ?x)] |- _ =>
      let H := fresh "HS" in
      pose proof (hsum_put _ f l i x) as H;
      let v := fresh "v" in set (v := hsum f (put l i x)) in *; clearbody v
  end.

Ltac wcbn :=
  cbn [w_st w_refs w_obj w_owned w_wards w_ext w_sub w_virgin w_tmp
       w_set_refs w_set_obj w_set_owned w_set_wards w_set_ext w_set_virgin w_set_tmp
       o_rc o_cpp o_self o_helper o_set_rc o_set_cpp o_set_self oval fresh_wrap
       lsum map frame_wrap frame_addr b2n negb andb orb] in *.


Ltac getcase :=
  repeat match goal with
  | |- context [match get ?l ?x with _ => _ end] => let G := fresh "G" in destruct (get l x) eqn:G
  | H : context [match get ?l ?x with _ => _ end] |- _ => let G := fresh "G" in destruct (get l x) eqn:G
  end.

Ltac count :=
  wput; getrw; sums; wput; eqb_cases; someinj; wcbn; getrw;
  unfold cw, cs, ck, cc, cd, cz, ch, owner_of, owns in *; wcbn; eqb_cases; wcbn; getcase; wcbn; try lia.


Ltac same :=
  repeat match goal with
  | G : get ?l ?i = Some ?r |- context [hsum ?f (put ?l ?i (Some ?r'))] =>
      rewrite (hsum_same _ f l i r r' G eq_refl)
  | G : get ?l ?i = Some ?r, H : context [hsum ?f (put ?l ?i (Some ?r'))] |- _ =>
      rewrite (hsum_same _ f l i r r' G eq_refl) in H
  end.

(** Case analysis on a lookup in an updated heap. *)
Ltac look H :=
  rewrite get_put in H;
  let E := fresh "E" in
  match type of H with
  | context [if ?a =? ?b then _ else _] =>
      destruct (Nat.eqb_spec a b) as [E|E]; [subst a; injection H as <-; wcbn | ]
  end.


Ltac eqcase x :=
  match goal with
  | |- context [x =? ?b] =>
      let E := fresh "E" in destruct (Nat.eqb_spec x b) as [E|E]; [subst x|]
  end.

(** Discharge the parts of the invariant an update obviously keeps: [P] is the
    invariant before, [G] the lookup of the wrapper that is updated. *)
Ltac boil1 P :=
  lazymatch goal with
  | |- P_units _ _ _ _ _ =>
      try (let x := fresh "x" in let R := fresh "R" in
           intros x; pose proof (i_units _ _ _ _ _ _ _ P x) as R; same; cbn [lsum] in R |- *; exact R)
  | |- P_helper _ _ => try exact (i_helper _ _ _ _ _ _ _ P)
  | |- P_uniq _ => try exact (i_uniq _ _ _ _ _ _ _ P)
  | |- code_ok _ _ => try exact (i_code _ _ _ _ _ _ _ P)
  | |- P_dying _ _ => try exact (i_dying _ _ _ _ _ _ _ P)
  | |- P_live _ => try exact (i_live _ _ _ _ _ _ _ P)
  | |- P_dead _ => try exact (i_dead _ _ _ _ _ _ _ P)
  | |- P_self _ _ _ => try exact (i_self _ _ _ _ _ _ _ P)
  | |- P_virgin _ => try exact (i_virgin _ _ _ _ _ _ _ P)
  | |- P_nodict _ _ => try exact (i_nodict _ _ _ _ _ _ _ P)
  | |- P_tail _ _ _ => try exact (i_tail _ _ _ _ _ _ _ P);
       try (let I1 := fresh "I1" in intros ? ? ? I1; apply (i_tail _ _ _ _ _ _ _ P); cbn; tauto)
  | |- P_reg _ _ _ _ => try exact (i_reg _ _ _ _ _ _ _ P)
  | |- calls_ok _ _ _ => try exact (i_calls _ _ _ _ _ _ _ P)
  | |- P_tmp _ _ => try exact (i_tmp _ _ _ _ _ _ _ P)
  | |- P_gc _ _ _ _ _ => try exact (i_gc _ _ _ _ _ _ _ P);
       try (let I1 := fresh "I1" in intros ? ? I1; apply (i_gc _ _ _ _ _ _ _ P); cbn; tauto)
  | _ => idtac
  end.

Ltac boil P G :=
  boil1 P;
  lazymatch goal with
  | |- P_live _ => intros x y Q; look Q;
       [try exact (i_live _ _ _ _ _ _ _ P _ _ G) | exact (i_live _ _ _ _ _ _ _ P _ _ Q)]
  | |- P_dead _ => intros x y Q; look Q;
       [try exact (i_dead _ _ _ _ _ _ _ P _ _ G) | exact (i_dead _ _ _ _ _ _ _ P _ _ Q)]
  | |- P_self _ ?objs' _ => intros aa oo x y Ga Sf Q; look Q;
       [try exact (i_self _ _ _ _ _ _ _ P _ _ _ _ Ga Sf G) | try exact (i_self _ _ _ _ _ _ _ P _ _ _ _ Ga Sf Q)]
  | |- P_virgin _ => intros x y Q; look Q;
       [try exact (i_virgin _ _ _ _ _ _ _ P _ _ G) | exact (i_virgin _ _ _ _ _ _ _ P _ _ Q)]
  | |- P_nodict _ _ => let D := fresh "D" in intros D x y Q; look Q;
       [try exact (i_nodict _ _ _ _ _ _ _ P D _ _ G) | exact (i_nodict _ _ _ _ _ _ _ P D _ _ Q)]
  | |- P_dying _ _ =>
      try (let x := fresh "x" in let R := fresh "R" in intros x; pose proof (i_dying _ _ _ _ _ _ _ P x) as R;
           rewrite get_put; eqcase x; [rewrite G in R|]; exact R)
  | |- P_tail _ _ _ =>
      try (let I1 := fresh "I1" in let F := fresh "F" in intros x cx y I1 F Q; look Q;
      [refine (i_tail _ _ _ _ _ _ _ P _ cx _ _ F G); cbn; tauto
      |refine (i_tail _ _ _ _ _ _ _ P x cx y _ F Q); cbn; tauto]; fail)
  | |- P_reg _ _ _ _ =>
      let D := fresh "D" in
      intros aa x Q; destruct (i_reg _ _ _ _ _ _ _ P aa x Q) as (Cr & y & Gy & Or & Tr & D);
      split; [exact Cr|]; rewrite get_put; eqcase x;
      [rewrite G in Gy; injection Gy as <-; destruct D as [D|(cx & rest' & D)]; try discriminate D; try (eexists; split; [reflexivity|]; wcbn; auto; fail)
      |exists y; repeat (split; [assumption|]); destruct D as [D|(cx & rest' & D)]; auto; try discriminate D]
  | |- calls_ok _ _ _ =>
      try (apply (calls_mono _ _ _ _ _ (i_calls _ _ _ _ _ _ _ P));
           [ eauto
           | let x := fresh "x" in let y := fresh "y" in let Q := fresh "Q" in
             intros x y _ Q; rewrite get_put; eqcase x; [|now eauto 10];
             rewrite G in Q; injection Q as <-; eexists; wcbn; split; [reflexivity|wcbn; auto]; fail
           | eauto ]; fail)
  | |- P_tmp _ _ =>
      let T := fresh "T" in intros x y Q T; look Q;
      [try exact (i_tmp _ _ _ _ _ _ _ P _ _ G T) | try exact (i_tmp _ _ _ _ _ _ _ P _ _ Q T)]
  | _ => idtac
  end.


(** Compare the counters of task lists before and after. *)
Ltac tasks := do 2 (cbn [lsum app] in *; autorewrite with cnt in *); cbn [lsum] in *.
Ltac ne := repeat match goal with
  | E : ?x <> ?y |- _ => rewrite (eqb_ne x y E) in *
  | E : ?x <> ?y |- _ => rewrite (eqb_ne' x y E) in *
  end; cbn [b2n andb] in *.
Ltac pose_refs P x R := intros x; pose proof (i_refs _ _ _ _ _ _ _ P x) as R; same; tasks; rewrite ?get_put.
Ltac pose_units P x R := intros x; pose proof (i_units _ _ _ _ _ _ _ P x) as R; same; tasks; rewrite ?get_put.
Ltac pose_dying P x R := intros x; pose proof (i_dying _ _ _ _ _ _ _ P x) as R; tasks; rewrite ?get_put.

Section Ticks.
Variable cf : conf.
Variable strict : bool.
Hypothesis SD : strict = true -> deletes cf.
Variables (objs : heap cobj) (wraps : heap wrap) (reg : heap wid) (calls : list frame).

Lemma t_decref w r n rest :
  Parts cf strict objs wraps reg (KDecref w :: rest) calls ->
  get wraps w = Some r -> w_st r = Live -> w_refs r = S (S n) ->
  Parts cf strict objs (put wraps w (Some (w_set_refs r (S n)))) reg rest calls.
Proof.
  intros P G L N. constructor; boil P G.
  - pose_refs P x R. eqcase x; ne; [rewrite G in R; tasks; wcbn; lia|exact R].
  - rewrite L; lia.
Qed.

Lemma t_die w r rest :
  Parts cf strict objs wraps reg (KDecref w :: rest) calls ->
  get wraps w = Some r -> w_st r = Live -> w_refs r = 1 ->
  Parts cf strict objs
    (put wraps w (Some (Wrap Dying 0 (w_obj r) (w_owned r) (w_wards r) (w_ext r) (w_sub r) (w_virgin r) (w_tmp r))))
    reg (KCode w (gen_dealloc cf) :: rest) calls.
Proof.
  intros P G L N.
  assert (FR : existsb is_ifree (gen_dealloc cf) = true).
  { unfold gen_dealloc. rewrite !existsb_app. cbn. rewrite !orb_true_r. reflexivity. }
  assert (Z : lsum (cz w) rest = 0).
  { pose proof (cz_none _ _ _ _ _ _ _ P w r G) as Q. tasks. apply Q. congruence. }
  constructor; boil P G.
  - pose_refs P x R. eqcase x; ne; [rewrite G in R; tasks; wcbn; lia|exact R].
  - reflexivity.
  - discriminate.
  - split; [left; exists []; reflexivity|]. exact (i_code _ _ _ _ _ _ _ P).
  - pose_dying P x R. eqcase x; ne; [rewrite FR; tasks; wcbn; lia|exact R].
  - intros x cx y I1 F Q. look Q.
   { destruct I1 as [I1|I1].
    + injection I1 as <-. split.
      * unfold gen_dealloc. destruct (c_subclassing cf) eqn:SC.
        -- rewrite !existsb_app. cbn. rewrite orb_true_r. discriminate.
        -- intros _. exact (i_nodict _ _ _ _ _ _ _ P SC w r G).
      * intros _. unfold gen_dealloc. rewrite !existsb_app.
        destruct (c_subclassing cf); cbn; rewrite orb_true_r; discriminate.
    + exfalso. pose proof (lsum_in _ (cz w) _ _ I1) as Q. tasks. rewrite F in Q. cbn in Q. lia. }
   destruct I1 as [I1|I1]; [injection I1 as -> <-; tauto|].
   apply (i_tail _ _ _ _ _ _ _ P x cx y); auto. right; auto.
  - eexists; split; [reflexivity|]. wcbn. repeat (split; [assumption|]). right.
    unfold gen_dealloc. rewrite Cr. cbn. eauto.
  - intros x c I1 F. destruct I1 as [I1|I1]; [injection I1 as -> <-; congruence|].
    apply (i_gc _ _ _ _ _ _ _ P x c); auto. right; auto.
Qed.

Lemma t_pop w rest :
  Parts cf strict objs wraps reg (KCode w [] :: rest) calls ->
  Parts cf strict objs wraps reg rest calls.
Proof.
  intros P. constructor; boil1 P.
  - pose_refs P x R. exact R.
  - exact (proj2 (i_code _ _ _ _ _ _ _ P)).
  - pose_dying P x R. rewrite andb_false_r in R. exact R.
  - intros a x Q. destruct (i_reg _ _ _ _ _ _ _ P a x Q) as (C1 & y & Gy & Ob & T & D).
    split; auto. exists y. repeat (split; [assumption|]). destruct D as [D|(c & r' & D)]; auto. discriminate.
Qed.

(** Replacing the code at the top. *)
Lemma top_code i c w rest :
  Parts cf strict objs wraps reg (KCode w (i :: c) :: rest) calls ->
  code_ok cf (KCode w c :: rest).
Proof.
  intros P. destruct (i_code _ _ _ _ _ _ _ P) as [C1 C2]. split; auto.
  destruct C1 as [C1|(C1 & r & E)]; [left|right; split; eauto]; eapply suffix_tl; eauto.
Qed.

Lemma cz_top i c w rest x : is_ifree i = false ->
  lsum (cz x) (KCode w (i :: c) :: rest) = lsum (cz x) (KCode w c :: rest).
Proof. intros F. cbn [lsum]. rewrite !cz_code. cbn [existsb]. rewrite F. reflexivity. Qed.

(** The clauses about running code when the top instruction is done. *)
Lemma tail_top i c w rest (wraps' : heap wrap) :
  Parts cf strict objs wraps reg (KCode w (i :: c) :: rest) calls ->
  (forall x, x <> w -> get wraps' x = get wraps x) ->
  (forall r', get wraps' w = Some r' -> exists r, get wraps w = Some r /\
     (w_wards r' = w_wards r \/ w_wards r' = []) /\ (w_obj r' = w_obj r \/ w_obj r' = None)) ->
  (existsb is_ifree c = true -> forall r', get wraps' w = Some r' ->
    (is_iclear i = true -> w_wards r' = []) /\ (deletes cf -> is_idelete i = true -> w_obj r' = None)) ->
  P_tail cf wraps' (KCode w c :: rest).
Proof.
  intros P E1 E2 T x d y I1 F Q.
  assert (Z : forall d', In (KCode w d') rest -> existsb is_ifree d' = true -> existsb is_ifree (i :: c) = true -> False).
  { intros d' I2 F2 F3. pose proof (lsum_in _ (cz w) _ _ I2) as Q2.
    pose proof (i_dying _ _ _ _ _ _ _ P w) as D. tasks. rewrite F2 in Q2. rewrite F3 in D. cbn in *.
    destruct (get wraps w) as [r0|]; [destruct (w_st r0)|]; lia. }
  destruct (Nat.eq_dec x w) as [->|N].
  - destruct (E2 y Q) as (r & G & W1 & O1).
    destruct I1 as [I1|I1].
    + injection I1 as <-.
      assert (F3 : existsb is_ifree (i :: c) = true) by (cbn; rewrite F; apply orb_true_r).
      destruct (i_tail _ _ _ _ _ _ _ P w (i :: c) r (or_introl eq_refl) F3 G) as [A B].
      cbn [existsb] in A, B. specialize (T F y Q). destruct T as [T1 T2]. split.
      * intros C1. destruct (is_iclear i) eqn:I2; auto. destruct W1 as [->|W1]; auto.
      * intros D C1. destruct (is_idelete i) eqn:I2; auto. destruct O1 as [->|O1]; auto.
    + destruct (i_tail _ _ _ _ _ _ _ P w d r (or_intror I1) F G) as [A B]. split.
      * intros C1. destruct W1 as [->|W1]; auto.
      * intros D C1. destruct O1 as [->|O1]; auto.
  - rewrite E1 in Q by auto. apply (i_tail _ _ _ _ _ _ _ P x d y); auto.
    destruct I1 as [I1|I1]; [injection I1 as -> <-; tauto|right; auto].
Qed.

Lemma gc_top i c w rest :
  Parts cf strict objs wraps reg (KCode w (i :: c) :: rest) calls ->
  is_ifree i = false ->
  P_gc cf objs reg (KCode w c :: rest) calls.
Proof.
  intros P F x d [I1|I1] A B.
  - injection I1 as <- <-. apply (i_gc _ _ _ _ _ _ _ P w (i :: c)); [left; auto| |]; cbn.
    + rewrite F, A; reflexivity.
    + rewrite B; apply orb_true_r.
  - apply (i_gc _ _ _ _ _ _ _ P x d); auto. right; auto.
Qed.

Lemma t_unregister w r c rest :
  Parts cf strict objs wraps reg (KCode w (IUnregister :: c) :: rest) calls ->
  get wraps w = Some r ->
  Parts cf strict objs wraps
    (match w_obj r with Some a => put reg a None | None => reg end) (KCode w c :: rest) calls.
Proof.
  intros P G. constructor; boil1 P.
  - pose_refs P x R. exact R.
  - eapply top_code; eauto.
  - eapply tail_top; eauto; [intros r' E; exists r'; auto|]. intros _ r' _. split; discriminate.
  - intros a x Q.
    assert (Q' : get reg a = Some x /\ w_obj r <> Some a).
    { destruct (w_obj r) as [b|] eqn:Ob; [|split; auto; discriminate].
      rewrite get_put in Q. eqb_cases; [discriminate|]. split; congruence. }
    destruct Q' as [Q1 Q2].
    destruct (i_reg _ _ _ _ _ _ _ P a x Q1) as (C1 & y & Gy & Ob & T & D). split; auto.
    exists y. repeat (split; [assumption|]). destruct D as [D|(c' & r' & D)]; auto.
    injection D as -> _ _. congruence.
  - intros x d I1 A B.
    destruct (gc_top _ _ _ _ P eq_refl x d I1 A B) as (A1 & A2 & A3). split; auto. split; auto.
    intros a Q. apply (A2 a). destruct (w_obj r) as [b|]; auto.
    rewrite get_put in Q. eqb_cases; [discriminate|auto].
Qed.

Lemma t_cleardict w r c rest :
  Parts cf strict objs wraps reg (KCode w (IClearDict :: c) :: rest) calls ->
  get wraps w = Some r -> w_st r <> Dead ->
  Parts cf strict objs (put wraps w (Some (w_set_wards r []))) reg
    (map KDecref (w_wards r) ++ KCode w c :: rest) calls.
Proof.
  intros P G ND. constructor; boil P G.
  - pose_refs P x R. pose proof (hsum_put _ (cw x) wraps w (Some (w_set_wards r []))) as Q.
    rewrite G in Q. unfold cw in Q at 2 4. wcbn. cbn [count_occ] in Q.
    eqcase x; [rewrite G in R; wcbn; lia|].
    destruct (get wraps x); lia.
  - tauto.
  - pose_units P x R. exact R.
  - reflexivity.
  - apply code_ok_app. eapply top_code; eauto.
  - intros x. pose proof (i_dying _ _ _ _ _ _ _ P x) as R. rewrite (cz_top IClearDict) in R by reflexivity.
    tasks. rewrite get_put. eqcase x; [rewrite G in R; wcbn; exact R|exact R].
  - intros x d y I1 F Q. apply in_app_or in I1. destruct I1 as [I1|I1].
    { apply in_map_iff in I1. destruct I1 as (? & ? & _). discriminate. }
    revert x d y I1 F Q. change (P_tail cf (put wraps w (Some (w_set_wards r []))) (KCode w c :: rest)).
    eapply tail_top; [exact P| | |].
    + intros x N. apply get_put_ne; auto.
    + intros r' Q. rewrite get_put_eq in Q. injection Q as <-. exists r. wcbn. auto.
    + intros _ r' Q. rewrite get_put_eq in Q. injection Q as <-. wcbn. split; auto. discriminate.
  - intros x d I1. apply in_app_or in I1. destruct I1 as [I1|I1].
    { apply in_map_iff in I1. destruct I1 as (? & ? & _). discriminate. }
    exact (gc_top IClearDict c w rest P eq_refl x d I1).
Qed.

Lemma t_free w r c rest :
  Parts cf strict objs wraps reg (KCode w (IFree :: c) :: rest) calls ->
  get wraps w = Some r ->
  Parts cf strict objs
    (put wraps w (Some (Wrap Dead (w_refs r) None (w_owned r) [] (w_ext r) (w_sub r) (w_virgin r) false)))
    reg (KCode w c :: rest) calls.
Proof.
  intros P G.
  destruct (code_cases _ _ _ _ _ _ _ w IFree c P (or_introl eq_refl)) as [(S1 & F & r0 & G0 & D & N)|(_ & F & _)];
    [|discriminate F].
  rewrite G in G0. injection G0 as <-.
  assert (Ec : c = []).
  { destruct S1 as (p & E). unfold gen_dealloc in E. rewrite app_assoc in E.
    destruct c as [|z c]; auto. exfalso.
    destruct (@exists_last _ (z :: c)) as (c' & y & E'); [discriminate|].
    rewrite E' in E.
    replace (p ++ IFree :: c' ++ [y]) with ((p ++ IFree :: c') ++ [y]) in E
      by (rewrite <- app_assoc; reflexivity).
    apply app_inj_tail in E. destruct E as [E _].
    assert (X : existsb is_ifree (p ++ IFree :: c') = true).
    { rewrite existsb_app. cbn. apply orb_true_r. }
    rewrite <- E in X. unfold gen_clear in X. destruct (c_registry cf), (c_subclassing cf); discriminate X. }
  subst c.
  destruct (i_tail _ _ _ _ _ _ _ P w [IFree] r (or_introl eq_refl) eq_refl G) as [W1 O1].
  specialize (W1 eq_refl).
  assert (NC : lsum (cc w) calls = 0).
  { pose proof (i_refs _ _ _ _ _ _ _ P w) as R. rewrite G, N in R. lia. }
  assert (NT : w_tmp r = false).
  { destruct (w_tmp r) eqn:T; auto. exfalso.
    destruct (i_tmp _ _ _ _ _ _ _ P w r G T) as (a & _ & [Q|Q]);
      apply (not_in_call calls w NC); apply in_map_iff; eexists; split; eauto; reflexivity. }
  assert (Z : lsum (cz w) rest = 0).
  { pose proof (i_dying _ _ _ _ _ _ _ P w) as R. rewrite G, D in R. tasks. cbn in R. lia. }
  constructor; boil P G.
  - pose_refs P x R. pose proof (hsum_put _ (cw x) wraps w
      (Some (Wrap Dead (w_refs r) None (w_owned r) [] (w_ext r) (w_sub r) (w_virgin r) false))) as Q.
    rewrite G in Q. unfold cw in Q at 2 4. wcbn. rewrite W1 in Q. cbn [count_occ] in Q.
    eqcase x; [rewrite G in R; wcbn; lia|].
    destruct (get wraps x); lia.
  - exact N.
  - auto.
  - pose_units P x R. pose proof (hsum_put _ (ch cf x) wraps w
      (Some (Wrap Dead (w_refs r) None (w_owned r) [] (w_ext r) (w_sub r) (w_virgin r) false))) as Q.
    rewrite G in Q. cbn [oval] in Q. unfold ch in Q at 4. unfold owner_of in Q. wcbn.
    rewrite andb_false_r in Q. cbn in Q.
    destruct (get objs x) as [o|]; [|lia].
    unfold units in *. destruct strict eqn:ST.
    + unfold ch in Q at 2. unfold owner_of in Q. rewrite (O1 (SD eq_refl) eq_refl) in Q. rewrite andb_false_r in Q. cbn in Q.
      destruct (is_rc cf); lia.
    + destruct (is_rc cf); lia.
  - exfalso. pose proof (i_refs _ _ _ _ _ _ _ P w) as R. rewrite G, N in R.
    pose proof (hsum_get _ (cs w) objs aa) as Q. rewrite Ga in Q; cbn [oval] in Q.
    unfold cs in Q at 1. rewrite Sf, Nat.eqb_refl in Q; cbn in Q. lia.
  - auto.
  - reflexivity.
  - eapply top_code; eauto.
  - pose_dying P x R. rewrite andb_false_r. eqcase x; ne; [wcbn; lia|exact R].
  - intros x d y [I1|I1] F1 Q; [injection I1 as <- <-; discriminate F1|]. look Q.
    + auto.
    + apply (i_tail _ _ _ _ _ _ _ P x d y); auto. right; auto.
  - exfalso. congruence.
  - apply (calls_mono _ _ _ _ _ (i_calls _ _ _ _ _ _ _ P)); eauto 10.
    intros x y I1 Q. rewrite get_put. eqcase x; [|eauto 10].
    exfalso. apply (not_in_call calls w NC I1).
  - discriminate.
  - intros x d [I1|I1] A B; [injection I1 as <- <-; discriminate B|].
    apply (i_gc _ _ _ _ _ _ _ P x d); auto. right; auto.
Qed.


(** Facts about a wrapper whose delete code is running. *)
Lemma deleting w r d c rest :
  Parts cf strict objs wraps reg (KCode w (IDelete d :: c) :: rest) calls ->
  get wraps w = Some r ->
  w_st r <> Dead /\ lsum (cc w) calls = 0 /\ w_tmp r = false
  /\ (forall a, get reg a <> Some w)
  /\ (is_rc cf = true -> forall a o, get objs a = Some o -> o_self o = Some w ->
      w_obj r = Some a /\ o_rc o <= 1 \/ o_rc o = 0).
Proof.
  intros P G.
  assert (A : w_st r <> Dead /\ lsum (cc w) calls = 0 /\ (forall a, get reg a <> Some w)
              /\ (is_rc cf = true -> forall a o, get objs a = Some o -> o_self o = Some w -> o_rc o <= 1)).
  { destruct (code_cases _ _ _ _ _ _ _ w _ c P (or_introl eq_refl)) as [(S1 & F & r0 & G0 & D & N)|(S1 & F & r0 & G0 & L)];
      rewrite G in G0; injection G0 as <-.
    - pose proof (i_refs _ _ _ _ _ _ _ P w) as R. rewrite G, N in R.
      repeat split; try congruence; try lia.
      + intros a Q. destruct (i_reg _ _ _ _ _ _ _ P a w Q) as (_ & y & Gy & _ & _ & [Q'|(c' & r' & Q')]);
          [congruence|discriminate].
      + intros _ a o Ga Sf. exfalso.
        pose proof (hsum_get _ (cs w) objs a) as Q. rewrite Ga in Q; cbn [oval] in Q.
        unfold cs in Q at 1. rewrite Sf, Nat.eqb_refl in Q; cbn in Q. lia.
    - destruct (i_gc _ _ _ _ _ _ _ P w (IDelete d :: c) (or_introl eq_refl) F eq_refl) as (A & B & C).
      repeat split; auto. congruence. }
  destruct A as (A1 & A2 & A3 & A4). repeat (split; [assumption|]).
  split; [|split; [assumption|]].
  - destruct (w_tmp r) eqn:T; auto. exfalso.
    destruct (i_tmp _ _ _ _ _ _ _ P w r G T) as (a & _ & [Q|Q]);
      apply (not_in_call calls w A2); apply in_map_iff; eexists; split; eauto; reflexivity.
  - intros RC a o Ga Sf. destruct (i_self _ _ _ _ _ _ _ P a o w r Ga Sf G) as (_ & _ & _ & Q).
    destruct (Q RC) as [[Q1 Q2]|Q1]; eauto.
Qed.

Lemma t_idelete w r d c rest objs' ts :
  Parts cf strict objs wraps reg (KCode w (IDelete d :: c) :: rest) calls ->
  get wraps w = Some r ->
  (forall b, get objs' b = get objs b \/
     exists o o', get objs b = Some o /\ get objs' b = Some o' /\ o_self o' = o_self o
       /\ o_cpp o' = o_cpp o /\ o_helper o' = o_helper o /\ o_rc o' <= o_rc o) ->
  (forall x, hsum (cs x) objs' = hsum (cs x) objs) ->
  (ts = [] \/ exists a, ts = [KDelete a]) ->
  (is_rc cf = true -> forall b o, get objs' b = Some o -> o_self o = Some w -> o_rc o = 0) ->
  P_units cf strict objs' (put wraps w (Some (w_set_obj r None))) (ts ++ KCode w c :: rest) ->
  Parts cf strict objs' (put wraps w (Some (w_set_obj r None))) reg (ts ++ KCode w c :: rest) calls.
Proof.
  intros P G HO HC HT HR HU.
  destruct (deleting w r d c rest P G) as (ND & NC & NT & NR & _).
  assert (HI : forall x d', In (KCode x d') (ts ++ KCode w c :: rest) -> In (KCode x d') (KCode w c :: rest)).
  { intros x d' I1. destruct HT as [->|(a & ->)]; auto. destruct I1 as [I1|I1]; [discriminate|auto]. }
  constructor; boil P G.
  - pose_refs P x R. rewrite HC.
    assert (K : lsum (ck x) ts = 0) by (destruct HT as [->|(a & ->)]; reflexivity).
    rewrite K. eqcase x; [rewrite G in R; wcbn; lia|]. destruct (get wraps x); lia.
  - tauto.
  - exact HU.
  - intros b o' Gb. destruct (HO b) as [E|(o & o1 & G1 & G2 & S1 & S2 & S3 & S4)].
    + rewrite E in Gb. apply (i_helper _ _ _ _ _ _ _ P b o' Gb).
    + assert (o1 = o') by congruence. subst o1. rewrite S1, S3. apply (i_helper _ _ _ _ _ _ _ P b o G1).
  - destruct (HO aa) as [E|(o & o1 & G1 & G2 & S1 & S2 & S3 & S4)].
    + rewrite E in Ga. destruct (i_self _ _ _ _ _ _ _ P aa oo w r Ga Sf G) as (A1 & A2 & A3 & A4).
      repeat (split; [tauto|]). rewrite <- E in Ga. intros RC. right. eauto.
    + assert (o1 = oo) by congruence. subst o1. rewrite S1 in Sf.
      destruct (i_self _ _ _ _ _ _ _ P aa o w r G1 Sf G) as (A1 & A2 & A3 & A4).
      repeat (split; [tauto|]). intros RC. right. rewrite <- S1 in Sf. eauto.
  - destruct (HO aa) as [E'|(o & o1 & G1 & G2 & S1 & S2 & S3 & S4)].
    + rewrite E' in Ga. apply (i_self _ _ _ _ _ _ _ P aa oo x y Ga Sf Q).
    + assert (o1 = oo) by congruence. subst o1. rewrite S1 in Sf.
      destruct (i_self _ _ _ _ _ _ _ P aa o x y G1 Sf Q) as (A1 & A2 & A3 & A4).
      repeat (split; [tauto|]). intros RC. destruct (A4 RC) as [?|?]; [left; auto|right; lia].
  - intros x. rewrite HC. apply (i_uniq _ _ _ _ _ _ _ P).
  - intros V. split; auto.
  - assert (C : code_ok cf (KCode w c :: rest)) by (eapply top_code; eauto).
    destruct HT as [->|(a & ->)]; exact C.
  - intros x. pose proof (i_dying _ _ _ _ _ _ _ P x) as R. rewrite (cz_top (IDelete d)) in R by reflexivity.
    assert (K : lsum (cz x) ts = 0) by (destruct HT as [->|(a & ->)]; reflexivity).
    rewrite lsum_app, K. rewrite get_put. eqcase x; [rewrite G in R; wcbn; exact R|exact R].
  - intros x d' y I1 F Q. apply HI in I1. revert x d' y I1 F Q.
    change (P_tail cf (put wraps w (Some (w_set_obj r None))) (KCode w c :: rest)).
    eapply tail_top; [exact P| | |].
    + intros x N. apply get_put_ne; auto.
    + intros r' Q. rewrite get_put_eq in Q. injection Q as <-. exists r. wcbn. auto.
    + intros _ r' Q. rewrite get_put_eq in Q. injection Q as <-. wcbn. split; auto. discriminate.
  - exfalso. exact (NR _ Q).
  - apply (calls_mono _ _ _ _ _ (i_calls _ _ _ _ _ _ _ P)).
    + intros b o _ Gb. destruct (HO b) as [E|(o1 & o2 & G1 & G2 & S1 & S2 & S3 & S4)].
      * exists o. rewrite E. auto.
      * exists o2. split; auto. assert (o1 = o) by congruence. subst o1. split; auto. lia.
    + intros x y I1 Q. rewrite get_put. eqcase x; [|eauto 10]. exfalso. apply (not_in_call calls w NC I1).
    + intros x y _ _ _ Z. rewrite HC. exact Z.
  - congruence.
  - intros x d' I1 A B. apply HI in I1.
    destruct (gc_top _ _ _ _ P eq_refl x d' I1 A B) as (A1 & A2 & A3). split; auto. split; auto.
    intros RC b o Gb Sf. destruct (HO b) as [E|(o1 & o2 & G1 & G2 & S1 & S2 & S3 & S4)].
    + rewrite E in Gb. eauto.
    + assert (o2 = o) by congruence. subst o2. rewrite S1 in Sf. specialize (A3 RC b o1 G1 Sf). lia.
Qed.

(** The destructor. *)
Lemma t_destroy a o rest :
  Parts cf strict objs wraps reg (KDelete a :: rest) calls ->
  get objs a = Some o ->
  Parts cf strict (put objs a None) wraps reg
    (match o_self o with Some w => [KDecref w] | None => [] end ++ rest) calls.
Proof.
  intros P G. set (ts := match o_self o with Some w => [KDecref w] | None => [] end).
  assert (HS : forall x, hsum (cs x) (put objs a None) + cs x o = hsum (cs x) objs).
  { intros x. pose proof (hsum_put _ (cs x) objs a None) as Q. rewrite G in Q. cbn [oval] in Q. lia. }
  assert (HK : forall x, lsum (ck x) ts = cs x o).
  { intros x. unfold ts, cs. destruct (o_self o); cbn [lsum]; rewrite ?ck_dec; cbn [b2n]; lia. }
  assert (HD : forall x, lsum (cd x) ts = 0) by (intros x; unfold ts; destruct (o_self o); reflexivity).
  assert (HZ : forall x, lsum (cz x) ts = 0) by (intros x; unfold ts; destruct (o_self o); reflexivity).
  assert (HI : forall x d', In (KCode x d') (ts ++ rest) -> In (KCode x d') rest).
  { intros x d' I1. unfold ts in I1. destruct (o_self o); auto. destruct I1 as [I1|I1]; [discriminate|auto]. }
  constructor; boil1 P.
  - pose_refs P x R. rewrite HK. specialize (HS x). destruct (get wraps x); lia.
  - pose_units P x R. rewrite HD. eqcase x; ne; [|exact R].
    rewrite Nat.eqb_refl in R. rewrite G in R. unfold units in R. cbn [b2n] in R.
    destruct (is_rc cf).
    + destruct R as [R1 R2]. destruct (o_rc o =? 0) eqn:Z; [|lia]. apply Nat.eqb_eq in Z.
      destruct strict; lia.
    + destruct strict; lia.
  - intros b o' Gb. rewrite get_put in Gb. eqb_cases; [discriminate|].
    apply (i_helper _ _ _ _ _ _ _ P b o' Gb).
  - intros b o' w r Gb. rewrite get_put in Gb. eqb_cases; [discriminate|].
    apply (i_self _ _ _ _ _ _ _ P b o' w r Gb).
  - intros x. pose proof (i_uniq _ _ _ _ _ _ _ P x). specialize (HS x). lia.
  - pose proof (i_code _ _ _ _ _ _ _ P) as C. unfold ts. destruct (o_self o); exact C.
  - pose_dying P x R. rewrite HZ. exact R.
  - intros x c y I1. apply HI in I1. apply (i_tail _ _ _ _ _ _ _ P). right; auto.
  - intros b x Q. destruct (i_reg _ _ _ _ _ _ _ P b x Q) as (Cr & y & Gy & Or & Tr & D).
    split; auto. exists y. repeat (split; [assumption|]). destruct D as [D|(c & r' & D)]; auto. discriminate.
  - apply (calls_mono _ _ _ _ _ (i_calls _ _ _ _ _ _ _ P)); eauto 10.
    + intros b o' I1 Gb. destruct (call_alive _ _ _ _ _ _ _ P b I1) as (o2 & _ & Z & _).
      rewrite get_put_ne; [eauto|]. intros ->. tasks. cbn in Z. lia.
    + intros w r _ _ _ Z. specialize (HS w). lia.
  - intros x c I1 A B. apply HI in I1.
    destruct (i_gc _ _ _ _ _ _ _ P x c (or_intror I1) A B) as (A1 & A2 & A3). split; auto. split; auto.
    intros RC b o' Gb. rewrite get_put in Gb. eqb_cases; [discriminate|]. eauto.
Qed.

Lemma suffix_in A c l (x : A) : suffix c l -> In x c -> In x l.
Proof. intros (p & ->) I1. apply in_or_app; auto. Qed.

Lemma delete_code w d c rest :
  Parts cf strict objs wraps reg (KCode w (IDelete d :: c) :: rest) calls -> d = gen_delete cf.
Proof.
  intros P. destruct (code_cases _ _ _ _ _ _ _ w _ c P (or_introl eq_refl)) as [(S1 & _)|(S1 & _)];
    apply (suffix_in _ _ _ (IDelete d)) in S1; try (left; reflexivity).
  - unfold gen_dealloc, gen_clear in S1. apply in_app_or in S1. destruct S1 as [S1|S1].
    + destruct (c_registry cf); [destruct S1 as [S1|[]]; discriminate|destruct S1].
    + apply in_app_or in S1. destruct S1 as [S1|[S1|[]]]; [|discriminate].
      destruct (c_subclassing cf); cbn in S1; [destruct S1 as [S1|S1]; [discriminate|]|];
        destruct S1 as [S1|[]]; congruence.
  - unfold gen_clear in S1. destruct S1 as [S1|[S1|[]]]; congruence.
Qed.

(** Delete code on a wrapper without an object. *)
Lemma t_idelete_none w r d c rest :
  Parts cf strict objs wraps reg (KCode w (IDelete d :: c) :: rest) calls ->
  get wraps w = Some r -> w_obj r = None \/ c_singleton cf = true ->
  Parts cf strict objs wraps reg (KCode w c :: rest) calls.
Proof.
  intros P G HN. constructor; boil1 P.
  - pose_refs P x R. exact R.
  - eapply top_code; eauto.
  - eapply tail_top; [exact P|reflexivity|intros r' Q; exists r'; auto|]. intros _ r' Q. split; [discriminate|]. intros [D _] _. destruct HN; congruence.
  - intros b x Q. destruct (i_reg _ _ _ _ _ _ _ P b x Q) as (Cr & y & Gy & Or & Tr & D).
    split; auto. exists y. repeat (split; [assumption|]). destruct D as [D|(c' & r' & D)]; auto. discriminate.
  - exact (gc_top _ _ _ _ P eq_refl).
Qed.
End Ticks.

Lemma tick_inv cf strict s :
  (strict = true -> deletes cf) ->
  Inv cf strict s -> s_todo s <> [] -> exists s', tick cf s = Ok s' /\ Inv cf strict s'.
Proof.
  intros SD. destruct s as [objs wraps reg todo calls]. unfold Inv. cbn [s_objs s_wraps s_reg s_todo s_calls].
  intros P NE. unfold tick. cbn [s_todo]. destruct todo as [|[w|w [|i c]|a] rest]; [tauto| | | |].
  - destruct (decref_exists _ _ _ _ _ _ _ P w (or_introl eq_refl)) as (r & G & L & N).
    unfold live_wrap, set_todo. cbn [s_wraps]. rewrite G, L. cbn [bind].
    destruct (w_refs r) as [|[|n]] eqn:NR; [lia| |]; eexists; (split; [reflexivity|]); cbn.
    + apply t_die; auto.
    + apply (t_decref _ _ _ _ _ _ _ _ _ _ P); auto.
  - eexists; split; [reflexivity|]. cbn. eapply t_pop; eauto.
  - assert (E : exists r, get wraps w = Some r /\ w_st r <> Dead).
    { destruct (code_cases _ _ _ _ _ _ _ w i c P (or_introl eq_refl)) as [(_ & _ & r & G & D & _)|(_ & _ & r & G & D)];
        exists r; split; auto; congruence. }
    destruct E as (r & G & ND). unfold exec_dinstr, running, set_todo. cbn [s_wraps]. rewrite G.
    assert (B : forall A (f : fault) (x : res A), match w_st r with Dead => Fault f | _ => x end = x).
    { intros. destruct (w_st r); tauto. }
    rewrite B. cbn [bind]. destruct i as [| |d|].
    + pose proof (t_unregister _ _ _ _ _ _ w r c rest P G) as Q.
      destruct (w_obj r); eexists; (split; [reflexivity|]); exact Q.
    + eexists; split; [reflexivity|]. cbn. apply t_cleardict; auto.
    + pose proof (delete_code _ _ _ _ _ _ w d c rest P) as ED.
      unfold run_delete. destruct (w_obj r) as [a|] eqn:Ob.
      2:{ eexists; split; [reflexivity|]. eapply t_idelete_none; eauto. }
      destruct (c_singleton cf) eqn:SG.
      { rewrite ED. unfold gen_delete. rewrite SG. cbn. eexists; split; [reflexivity|].
        eapply t_idelete_none; eauto. }
      destruct (deleting _ _ _ _ _ _ w r d c rest P G) as (_ & NC & NT & NR & HS).
      assert (HU : forall x, hsum (ch cf x) (put wraps w (Some (w_set_obj r None)))
                     + b2n (owns cf r && (a =? x)) = hsum (ch cf x) wraps).
      { intros x. pose proof (hsum_put _ (ch cf x) wraps w (Some (w_set_obj r None))) as Q.
        rewrite G in Q. cbn [oval] in Q. unfold ch in Q at 2 4. unfold owner_of in Q. wcbn.
        rewrite Ob, andb_false_r in Q. cbn [b2n] in Q. lia. }
      assert (DT : d_take d = true) by (rewrite ED; unfold gen_delete; rewrite SG; destruct (c_policy cf); auto; destruct (c_public_dtor cf); reflexivity).
      rewrite DT.
      (* nothing but clearing the pointer *)
      assert (N0 : is_rc cf = false -> (owns cf r = true -> strict = false) ->
        Parts cf strict objs (put wraps w (Some (w_set_obj r None))) reg (KCode w c :: rest) calls).
      { intros RC ST. change (KCode w c :: rest) with ([] ++ KCode w c :: rest).
        eapply t_idelete; eauto; try congruence. cbn [app].
        pose_units P x R. specialize (HU x). destruct (get objs x) as [o|]; [|destruct (owns cf r && (a =? x)); cbn in HU; lia].
        unfold units in *. rewrite RC in *. destruct strict.
        - destruct (owns cf r); [specialize (ST eq_refl); discriminate|]. cbn in HU. lia.
        - lia. }
      (* the object is deleted *)
      assert (N1 : is_rc cf = false -> owns cf r = true ->
        Parts cf strict objs (put wraps w (Some (w_set_obj r None))) reg ([KDelete a] ++ KCode w c :: rest) calls).
      { intros RC OW. eapply t_idelete; eauto; try congruence.
        pose_units P x R. specialize (HU x). rewrite OW in HU. cbn [andb] in HU.
        destruct (get objs x) as [o|].
        - unfold units in *. rewrite RC in *. destruct strict; lia.
        - lia. }
      unfold owns in N0, N1. rewrite NT in N0, N1. cbn [negb andb] in N0, N1.
      rewrite ED. unfold gen_delete. rewrite SG. unfold is_rc in *.
      destruct (c_policy cf) eqn:PO; cbv iota in N0, N1.
      * destruct (c_public_dtor cf) eqn:PD; cbn [d_if_owned d_op andb].
        -- destruct (w_owned r) eqn:OWN; cbn [negb]; eexists; (split; [reflexivity|]); cbn.
           ++ apply N1; auto.
           ++ apply N0; auto; discriminate.
        -- eexists; split; [reflexivity|]. cbn. apply N0; auto. intros _. destruct strict; auto.
           destruct (SD eq_refl) as [_ SD2]. specialize (SD2 PO). congruence.
      * cbn [d_if_owned d_op andb].
        assert (OW : owns cf r = true) by (unfold owns; rewrite NT, PO; reflexivity).
        destruct (owner_alive _ _ _ _ _ _ _ P w r a G OW Ob) as (o & Go & HC).
        pose proof (i_units _ _ _ _ _ _ _ P a) as U. rewrite Go in U. unfold units in U.
        assert (RC : is_rc cf = true) by (unfold is_rc; rewrite PO; reflexivity). rewrite RC in U.
        destruct U as [U1 U2].
        assert (OR : 1 <= o_rc o) by (destruct strict; lia).
        unfold unref, live_obj, setw, set_wraps. cbn [s_objs]. rewrite Go. cbn [bind].
        assert (HC' : forall n x, hsum (cs x) (put objs a (Some (o_set_rc o n))) = hsum (cs x) objs).
        { intros n x. apply (hsum_same _ (cs x) objs a o); auto. }
        assert (HO' : forall n, n <= o_rc o -> forall b, get (put objs a (Some (o_set_rc o n))) b = get objs b \/
           exists o1 o', get objs b = Some o1 /\ get (put objs a (Some (o_set_rc o n))) b = Some o' /\ o_self o' = o_self o1
           /\ o_cpp o' = o_cpp o1 /\ o_helper o' = o_helper o1 /\ o_rc o' <= o_rc o1).
        { intros n LE b. rewrite get_put. destruct (Nat.eqb_spec b a) as [->|]; auto.
          right. exists o, (o_set_rc o n). wcbn. auto 10. }
        assert (HS' : forall n, S n = o_rc o -> is_rc cf = true ->
           forall b ob, get (put objs a (Some (o_set_rc o n))) b = Some ob -> o_self ob = Some w -> o_rc ob = 0).
        { intros n En _ b ob Gb Sf. rewrite get_put in Gb. destruct (Nat.eqb_spec b a) as [->|NA].
          - injection Gb as <-. wcbn. destruct (HS eq_refl a o Go Sf) as [[_ Q]|Q]; lia.
          - destruct (HS eq_refl b ob Gb Sf) as [[Q _]|Q]; [congruence|auto]. }
        destruct (o_rc o) as [|[|n]] eqn:Er; [lia| |]; eexists; (split; [reflexivity|]); cbn.
        -- change (KDelete a :: KCode w c :: rest) with ([KDelete a] ++ KCode w c :: rest).
           eapply t_idelete; eauto.
           pose_units P x R. specialize (HU x). rewrite OW in HU. cbn [andb] in HU.
           destruct (Nat.eqb_spec x a) as [->|NA]; ne; rewrite ?Nat.eqb_refl in *; wcbn.
           ++ rewrite Go in R. unfold units in *. rewrite RC in *. wcbn. cbn [Nat.eqb] in *. rewrite Er in R. cbn [Nat.eqb] in R.
              destruct strict; lia.
           ++ destruct (get objs x) as [o2|]; [|lia]. unfold units in *. rewrite RC in *. destruct strict; lia.
        -- change (KCode w c :: rest) with ([] ++ KCode w c :: rest).
           eapply t_idelete; eauto.
           pose_units P x R. specialize (HU x). rewrite OW in HU. cbn [andb] in HU.
           destruct (Nat.eqb_spec x a) as [->|NA]; ne; rewrite ?Nat.eqb_refl in *; wcbn.
           ++ rewrite Go in R. unfold units in *. rewrite RC in *. wcbn. cbn [Nat.eqb] in *. rewrite Er in R. cbn [Nat.eqb] in R.
              destruct strict; lia.
           ++ destruct (get objs x) as [o2|]; [|lia]. unfold units in *. rewrite RC in *. destruct strict; lia.
      * cbn [d_if_owned d_op andb]. eexists; split; [reflexivity|]. cbn. apply N1; auto.
    + eexists; split; [reflexivity|]. cbn. eapply t_free; eauto.
  - destruct (doomed_alive _ _ _ _ _ _ _ P a (or_introl eq_refl)) as (o & G).
    unfold live_obj, set_todo. cbn [s_objs]. rewrite G. cbn [bind].
    pose proof P as Q; eapply t_destroy in Q; [|eassumption..].
    eexists; split; [reflexivity|]. destruct (o_self o); exact Q.
Qed.
