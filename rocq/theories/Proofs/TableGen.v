(** The generation of the method tables. *)
From Verif.Model Require Import Py PyState Hierarchy MethodTable.
From Verif.Spec Require Import HierarchySpec MethodTableSpec.
From Verif.Proofs Require Import StrLemmas HierarchyProofs PureProofs PureScript HelperProofs HierarchyTop TableDeclared TableFold.
From Coq Require Import Lia.
Open Scope list_scope.

Definition sup (w : hier) (i a : nat) : Prop := exists b, In b (bases w i) /\ ancestor (bases w) b a.

Lemma visit_from w : forall f q vis l, visit f w q vis = Ok l -> forall c, In c l -> exists x, In x q /\ ancestor (bases w) x c.
Proof.
  induction f as [|f IH]; intros q vis l E c Hc; destruct q as [|x q]; cbn in E.
  - injection E as <-. destruct Hc.
  - discriminate.
  - injection E as <-. destruct Hc.
  - destruct (visit f w _ _) as [r|e] eqn:V; [|discriminate]. injection E as <-. destruct Hc as [<-|Hc].
    + exists x. split; [now left|constructor].
    + destruct (IH _ _ _ V c Hc) as (y & Hy & A). apply in_app_iff in Hy. destruct Hy as [Hy|Hy].
      * exists y. split; [now right|assumption].
      * apply filter_In in Hy. exists x. split; [now left|]. eapply ancestor_up; [apply Hy|assumption].
Qed.
Lemma ancestor_le w (W : wf w) i c : ancestor (bases w) i c -> c <= i.
Proof. induction 1 as [|i b c H A IH]; [lia|]. apply W in H. lia. Qed.
Lemma sup_lt w (W : wf w) i c : sup w i c -> c < i.
Proof. intros (b & Hb & A). apply W in Hb. apply (ancestor_le w W) in A. lia. Qed.
Lemma mro_above w (W : wf w) i r : get_mro w i = Ok (i :: r) -> forall c, In c r <-> sup w i c.
Proof.
  intros G c. split; intros H.
  - unfold get_mro in G. cbn [ways plus visit] in G.
    destruct (visit _ w _ _) as [l|e] eqn:V; [|discriminate]. injection G as ->.
    destruct (visit_from w _ _ _ _ V c H) as (x & Hx & A). cbn [app] in Hx. apply filter_In in Hx. exists x. split; [apply Hx|assumption].
  - pose proof (sup_lt w W i c H) as L. assert (A : ancestor (bases w) i c) by (destruct H as (b & Hb & A); eapply ancestor_up; eauto).
    apply (mro_ancestor w W i (i :: r) c G) in A. destruct A as [E|A]; [lia|assumption].
Qed.
Lemma sup_ext w w' : (forall i, bases w' i = bases w i) -> forall i a, sup w' i a <-> sup w i a.
Proof.
  intros E i a. unfold sup. split; intros (b & Hb & A); exists b; (split; [|now apply (ancestor_ext _ _ E)]); [now rewrite <- E|now rewrite E].
Qed.
Lemma ancestor_trans p a b c : ancestor p a b -> ancestor p b c -> ancestor p a c.
Proof. induction 1; [auto|]. intros. eapply ancestor_up; eauto. Qed.
Lemma sup_trans w a b c : sup w a b -> sup w b c -> sup w a c.
Proof. intros (x & Hx & A) (y & Hy & B). exists x. split; [assumption|]. eapply ancestor_trans; [exact A|]. eapply ancestor_up; eauto. Qed.

Section Gen.
  Variable ok : method -> bool.
  Variable callers : nat -> list string.
  Variable copyable : nat -> bool.
  Notation gen := (generate_methods ok callers copyable).
  Notation norm := (normalise ok).

  Definition held_at (w : hier) (i : nat) (n : string) : list method := match dict_get (methods_at w i) n with Some l => l | None => [] end.

  Record inv (w0 : hier) (done : list nat) (w : hier) : Prop := {
    inv_length : length w = length w0;
    inv_bases : forall i, bases w i = bases w0 i;
    inv_nonpublic : forall i, nonpublic_at w i = nonpublic_at w0 i;
    inv_todo : forall i, ~ In i done -> methods_at w i = methods_at w0 i;
    inv_keys : forall i, map fst (methods_at w i) = map fst (methods_at w0 i);
    inv_origin : forall i n m, In m (held_at w i n) -> exists b, (b = i \/ sup w0 i b) /\ In m (held_at w0 b n);
    inv_plain : forall i n, (forall b, sup w0 i b -> held_at w0 b n = []) -> held_at w i n = held_at w0 i n \/ held_at w i n = norm (held_at w0 i n) }.

  Lemma inv_start w0 : inv w0 [] w0.
  Proof. constructor; auto. intros i n m H. exists i. auto. Qed.

  Lemma norm_get d n : dict_get (own_normalised ok d) n = option_map norm (dict_get d n).
  Proof. induction d as [|[k l] d IH]; cbn; [reflexivity|]. destruct (String.eqb n k); [reflexivity|exact IH]. Qed.
  Lemma norm_keys d : map fst (own_normalised ok d) = map fst d.
  Proof. unfold own_normalised. now rewrite map_map. Qed.
  Lemma norm_in l m : In m (norm l) -> In m l.
  Proof. unfold normalise. destruct l as [|x [|y l]]; auto; intros H; apply filter_In in H; apply H. Qed.
  Lemma norm_ok l : filter ok (norm l) = filter ok l.
  Proof.
    assert (F : filter ok (filter ok l) = filter ok l).
    { clear. induction l as [|x l IH]; cbn; [reflexivity|]. destruct (ok x) eqn:E; cbn; [now rewrite E, IH|exact IH]. }
    unfold normalise. destruct l as [|x [|y l]]; auto.
  Qed.
  Lemma norm_none l : l = [] -> norm l = []. Proof. now intros ->. Qed.

  (** The state after the loop over the bases. *)
  Definition looped (w : hier) (k : cls) (rest : list nat) : dict (list method) * dict (list wrapper) :=
    let own := own_normalised ok (k_methods k) in
    if Nat.ltb 1 (length (k_bases k)) then fold_left (take_base w (k_nonpublic k)) rest (own, []) else (own, []).
  Lemma gen_eq w i k rest : nth_error w i = Some k -> get_mro w i = Ok (i :: rest) ->
    gen i w = (change w i (with_methods (fst (looped w k rest))),
      Ok (own_entries ok i (k_methods k) ++ map (fun n => (n, TCaller)) (callers i) ++ inherited_entries ok (snd (looped w k rest)) ++
          (if copyable i then [("__copy__"%string, TCopy)] else []))).
  Proof. intros K G. unfold generate_methods. rewrite K, G. reflexivity. Qed.

  Definition met (w : hier) (n : string) (rest : list nat) : list wrapper :=
    flat_map (fun b => map (fun m => mk_wrapper m b) (row (methods_at w b) n)) rest.
  Lemma looped_did w k rest n : (forall i, NoDup (map fst (methods_at w i))) ->
    did (k_nonpublic k) n (if Nat.ltb 1 (length (k_bases k)) then met w n rest else []) (own_normalised ok (k_methods k), []) (looped w k rest) /\
    sound (own_normalised ok (k_methods k), []) (looped w k rest).
  Proof.
    intros N. unfold looped. destruct (Nat.ltb 1 _); [|split; [apply did_nil|apply sound_refl]]. now apply fold_bases.
  Qed.
  Lemma met_in w n rest x : In x (met w n rest) -> In (wr_class x) rest /\ In (wr_method x) (held_at w (wr_class x) n) /\ special n = false.
  Proof.
    unfold met. rewrite in_flat_map. intros (b & Hb & H). apply in_map_iff in H. destruct H as (m & <- & Hm). cbn [wr_class wr_method].
    split; [assumption|]. unfold row, held_at in *. destruct (special n); [destruct Hm|]. auto.
  Qed.

  Lemma inv_step w0 (W0 : wf w0) (N0 : forall i, NoDup (map fst (methods_at w0 i))) done w i :
    inv w0 done w -> i < length w -> ~ In i done ->
    exists k rest, nth_error w i = Some k /\ get_mro w i = Ok (i :: rest) /\ (forall c, In c rest <-> sup w0 i c) /\
      k_methods k = methods_at w0 i /\ k_nonpublic k = nonpublic_at w0 i /\ k_bases k = bases w0 i /\
      inv w0 (i :: done) (fst (gen i w)).
  Proof.
    intros Iv L Nd. destruct Iv as [I1 I2 I3 I4 I5 I6 I7].
    destruct (nth_error w i) as [k|] eqn:K; [|apply nth_error_None in K; lia].
    assert (W : wf w). { intros j b H. rewrite I2 in H. now apply W0. }
    destruct (mro_firsts w W i) as (l & G & _). destruct (mro_head w i l G) as (rest & ->).
    assert (A : forall c, In c rest <-> sup w0 i c). { intros c. rewrite (mro_above w W i rest G). now apply sup_ext. }
    assert (Km : k_methods k = methods_at w0 i). { rewrite <- (I4 i Nd). unfold methods_at. now rewrite K. }
    assert (Kn : k_nonpublic k = nonpublic_at w0 i). { rewrite <- I3. unfold nonpublic_at. now rewrite K. }
    assert (Kb : k_bases k = bases w0 i). { rewrite <- I2. unfold bases. now rewrite K. }
    exists k, rest. split; [reflexivity|]. split; [exact G|]. split; [exact A|]. split; [exact Km|]. split; [exact Kn|]. split; [exact Kb|].
    rewrite (gen_eq w i k rest K G). cbn [fst].
    assert (N : forall j, NoDup (map fst (methods_at w j))) by (intros j; rewrite I5; apply N0).
    set (o := fst (looped w k rest)).
    assert (Mat : forall j, methods_at (change w i (with_methods o)) j = if Nat.eqb j i then o else methods_at w j).
    { intros j. unfold methods_at. rewrite change_nth. destruct (Nat.eqb j i) eqn:E; [|reflexivity]. apply Nat.eqb_eq in E. subst j. now rewrite K. }
    constructor.
    - now rewrite change_length.
    - intros j. rewrite <- I2. unfold bases. rewrite change_nth. destruct (Nat.eqb j i); [|reflexivity]. destruct (nth_error w j); reflexivity.
    - intros j. rewrite <- I3. unfold nonpublic_at. rewrite change_nth. destruct (Nat.eqb j i); [|reflexivity]. destruct (nth_error w j); reflexivity.
    - intros j H. rewrite Mat. destruct (Nat.eqb j i) eqn:E; [apply Nat.eqb_eq in E; subst j; elim H; now left|]. apply I4. intros X. apply H. now right.
    - intros j. rewrite Mat. destruct (Nat.eqb j i) eqn:E; [|apply I5]. apply Nat.eqb_eq in E. subst j.
      destruct (looped_did w k rest ""%string N) as [_ [S _]]. unfold o. rewrite S. cbn [fst]. now rewrite norm_keys, Km.
    - intros j n m Hm. unfold held_at in Hm. rewrite Mat in Hm. destruct (Nat.eqb j i) eqn:E; [|exact (I6 j n m Hm)].
      apply Nat.eqb_eq in E. subst j. destruct (looped_did w k rest n N) as [D _]. unfold did in D. fold o in D. cbn [fst] in D.
      rewrite norm_get, Km in D. destruct (dict_get (methods_at w0 i) n) as [l|] eqn:Gl; cbn [option_map] in D.
      + destruct D as (_ & extra & Eo & X). rewrite Eo in Hm. apply in_app_iff in Hm. destruct Hm as [Hm|Hm].
        * exists i. split; [now left|]. unfold held_at. rewrite Gl. now apply norm_in.
        * destruct (X m Hm) as (_ & x & Hx & <-). destruct (Nat.ltb 1 _); [|destruct Hx].
          destruct (met_in _ _ _ _ Hx) as (X1 & X2 & _). apply A in X1. destruct (I6 _ _ _ X2) as (b & [-> |Hb] & Hmb).
          -- exists (wr_class x). auto.
          -- exists b. split; [right|assumption]. eapply sup_trans; eauto.
      + destruct D as [D _]. rewrite D in Hm. destruct Hm.
    - intros j n Hn. unfold held_at at 1 3. rewrite Mat. destruct (Nat.eqb j i) eqn:E; [|exact (I7 j n Hn)].
      apply Nat.eqb_eq in E. subst j. right. destruct (looped_did w k rest n N) as [D _]. unfold did in D. fold o in D. cbn [fst] in D.
      rewrite norm_get, Km in D. unfold held_at. destruct (dict_get (methods_at w0 i) n) as [l|] eqn:Gl; cbn [option_map] in D.
      + destruct D as (_ & extra & Eo & X). rewrite Eo. assert (extra = []) as ->; [|now rewrite app_nil_r].
        destruct extra as [|m extra]; [reflexivity|]. exfalso. destruct (X m (or_introl eq_refl)) as (_ & x & Hx & _).
        destruct (Nat.ltb 1 _); [|destruct Hx]. destruct (met_in _ _ _ _ Hx) as (X1 & X2 & _). apply A in X1.
        destruct (I6 _ _ _ X2) as (b & [-> |Hb] & Hmb).
        * rewrite (Hn _ X1) in Hmb. destruct Hmb.
        * rewrite (Hn b (sup_trans _ _ _ _ X1 Hb)) in Hmb. destruct Hmb.
      + destruct D as [D _]. now rewrite D.
  Qed.

  Notation tables := (generate_tables ok callers copyable).
  (** The table of a class is made in a state of the invariant in which the class itself is untouched. *)
  Lemma table_made w0 (W0 : wf w0) (N0 : forall i, NoDup (map fst (methods_at w0 i))) order : NoDup order ->
    forall done w, inv w0 done w -> (forall c, In c order -> ~ In c done) -> (forall c, In c order -> c < length w0) ->
    forall i, In i order -> exists done' w' t, inv w0 done' w' /\ ~ In i done' /\ i < length w' /\ snd (gen i w') = Ok t /\
      table_of (tables order w) i = t.
  Proof.
    induction order as [|c order IH]; intros Nd done w Iv D L i Hi; [destruct Hi|].
    inversion Nd as [|? ? Nc Nd']; subst.
    assert (Lc : c < length w) by (rewrite (inv_length _ _ _ Iv); apply L; now left).
    destruct (inv_step w0 W0 N0 done w c Iv Lc (D c (or_introl eq_refl))) as (k & rest & K & G & _ & _ & _ & _ & Iv').
    cbn [generate_tables]. rewrite (gen_eq w c k rest K G) in *. cbn [fst] in Iv'.
    destruct (Nat.eq_dec i c) as [->|Ne].
    - exists done, w. eexists. split; [exact Iv|]. split; [apply D; now left|]. split; [assumption|].
      rewrite (gen_eq w c k rest K G). cbn [snd]. split; [reflexivity|]. unfold table_of. cbn [find fst]. now rewrite Nat.eqb_refl.
    - destruct Hi as [->|Hi]; [congruence|].
      destruct (IH Nd' (c :: done) _ Iv') with (i := i) as (done' & w' & t & H1 & H2 & H3 & H4 & H5).
      + intros x Hx [<-|Hd]; [auto|]. apply (D x); [now right|assumption].
      + intros x Hx. apply L. now right.
      + assumption.
      + exists done', w', t. split; [assumption|]. split; [assumption|]. split; [assumption|]. split; [assumption|].
        unfold table_of in *. cbn [find fst]. assert (E : Nat.eqb c i = false) by (apply Nat.eqb_neq; congruence). now rewrite E.
  Qed.
  Lemma table_missing order i : ~ In i order -> forall w, table_of (tables order w) i = [].
  Proof.
    intros H. induction order as [|c order IH]; intros w; [reflexivity|]. cbn [generate_tables].
    assert (Ne : Nat.eqb c i = false) by (apply Nat.eqb_neq; intros ->; apply H; now left).
    assert (H' : ~ In i order) by (intros X; apply H; now right).
    destruct (gen c w) as [w' [t|e]]; [|now apply IH]. unfold table_of in *. cbn [find fst]. rewrite Ne. now apply IH.
  Qed.
End Gen.
