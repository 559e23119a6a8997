(** The statements on method tables, in terms of what a script declares. *)
From Verif.Model Require Import Py PyState Hierarchy MethodTable.
From Verif.Spec Require Import HierarchySpec MethodTableSpec.
From Verif.Proofs Require Import StrLemmas HierarchyProofs PureProofs PureScript HelperProofs HierarchyTop TableDeclared TableFold TableGen.
From Coq Require Import Lia.
Open Scope list_scope.

(** ** Reading tables *)
Lemma table_get_app a b n : table_get (a ++ b) n = match table_get a n with Some x => Some x | None => table_get b n end.
Proof. unfold table_get. induction a as [|x a IH]; cbn; [reflexivity|]. destruct (String.eqb (fst x) n); [reflexivity|exact IH]. Qed.

Section Entries.
  Variable V : Type.
  Variable g : string -> V -> table.
  Hypothesis G : forall n v, g n v = [] \/ exists t, g n v = [(n, t)].
  Definition entries (d : list (string * V)) : table := flat_map (fun x => g (fst x) (snd x)) d.
  Lemma entries_other d n : ~ In n (map fst d) -> table_get (entries d) n = None.
  Proof.
    induction d as [|[k v] d IH]; [reflexivity|]. cbn [map fst In]. intros H. unfold entries. cbn [flat_map fst snd]. fold (entries d).
    rewrite table_get_app, IH by tauto. destruct (G k v) as [-> |(t & ->)]; [reflexivity|]. unfold table_get. cbn. destruct (String.eqb k n) eqn:E; [apply String.eqb_eq in E; tauto|reflexivity].
  Qed.
  Lemma entries_get d n : NoDup (map fst d) ->
    table_get (entries d) n = match dict_get d n with Some v => table_get (g n v) n | None => None end.
  Proof.
    induction d as [|[k v] d IH]; cbn [map fst dict_get]; intros N; [reflexivity|]. inversion N as [|? ? N1 N2]; subst.
    unfold entries. cbn [flat_map fst snd]. fold (entries d). rewrite table_get_app. destruct (String.eqb n k) eqn:E.
    - apply String.eqb_eq in E. subst k. rewrite (entries_other d n N1). destruct (table_get (g n v) n); reflexivity.
    - rewrite (IH N2). destruct (G k v) as [-> |(t & ->)]; [reflexivity|]. unfold table_get at 1. cbn [find fst]. rewrite String.eqb_sym, E. reflexivity.
  Qed.
  Lemma entries_nodup d : NoDup (map fst d) -> NoDup (map fst (entries d)).
  Proof.
    induction d as [|[k v] d IH]; intros N; [constructor|]. inversion N as [|? ? N1 N2]; subst. unfold entries. cbn [flat_map fst snd]. fold (entries d).
    destruct (G k v) as [-> |(t & ->)]; cbn [app map fst]; [auto|]. constructor; [|auto]. intros H. apply N1.
    apply in_map_iff in H. destruct H as ([n t'] & <- & H). unfold entries in H. apply in_flat_map in H. destruct H as ([k' v'] & Hx & H).
    cbn [fst snd] in *. destruct (G k' v') as [E|(t'' & E)]; rewrite E in H; [destruct H|]. destruct H as [[= -> ->]|[]].
    apply in_map_iff. exists (n, v'). auto.
  Qed.
  Lemma entries_in d n t : In (n, t) (entries d) -> exists v, In (n, v) d /\ In (n, t) (g n v).
  Proof.
    unfold entries. rewrite in_flat_map. intros ([k v] & Hx & H). cbn [fst snd] in H.
    destruct (G k v) as [E|(t' & E)]; rewrite E in H; [destruct H|]. destruct H as [[= -> ->]|[]]. exists v. split; [assumption|]. rewrite E. now left.
  Qed.
End Entries.

Lemma dict_in {V} (d : dict V) n v : NoDup (map fst d) -> In (n, v) d -> dict_get d n = Some v.
Proof.
  induction d as [|[k x] d IH]; cbn; intros N H; [destruct H|]. inversion N as [|? ? N1 N2]; subst. destruct H as [[= -> ->]|H].
  - now rewrite String.eqb_refl.
  - destruct (String.eqb n k) eqn:E; [|auto]. apply String.eqb_eq in E. subst. elim N1. apply in_map_iff. now exists (k, v).
Qed.
Lemma get_in_keys {V} (d : dict V) n v : dict_get d n = Some v -> In n (map fst d).
Proof.
  induction d as [|[k x] d IH]; cbn; [discriminate|]. destruct (String.eqb n k) eqn:E; [apply String.eqb_eq in E; subst; now left|right; auto].
Qed.

Section Top.
  Variables (dn ds : bool) (proxy : method -> bool).
  Variables (ok : method -> bool) (callers : nat -> list string) (copyable : nat -> bool).
  Notation script := (hscript dn ds proxy).
  Notation tables := (generate_tables ok callers copyable).

  Definition own_g (i : nat) (n : string) (l : list method) : table :=
    if special n then [] else entry_of ok n (map (fun m => mk_wrapper m i) l).
  Definition inh_g (n : string) (l : list wrapper) : table := if one_class l then entry_of ok n l else [].
  Lemma entry_one n l : entry_of ok n l = [] \/ exists t, entry_of ok n l = [(n, t)].
  Proof. unfold entry_of. destruct (filter _ l); [now left|right; eauto]. Qed.
  Lemma own_one i n l : own_g i n l = [] \/ exists t, own_g i n l = [(n, t)].
  Proof. unfold own_g. destruct (special n); [now left|apply entry_one]. Qed.
  Lemma inh_one n l : inh_g n l = [] \/ exists t, inh_g n l = [(n, t)].
  Proof. unfold inh_g. destruct (one_class l); [apply entry_one|now left]. Qed.
  Lemma own_entries_eq i d : own_entries ok i d = entries _ (own_g i) d. Proof. reflexivity. Qed.
  Lemma inh_entries_eq d : inherited_entries ok d = entries _ inh_g d. Proof. reflexivity. Qed.

  Lemma filter_wrappers i l : filter (fun x => ok (wr_method x)) (map (fun m => mk_wrapper m i) l) = map (fun m => mk_wrapper m i) (filter ok l).
  Proof. induction l as [|x l IH]; cbn; [reflexivity|]. destruct (ok x); cbn; now rewrite IH. Qed.

  Variable cs : list hcall.
  Hypothesis NF : forall j m, ~ In (HFunction j m) cs.
  Notation w0 := (fst (script cs [])).
  Notation answers := (snd (script cs [])).
  Notation P := (declared_parents answers).

  Lemma held_public i n : held_at w0 i n = public_methods answers i n.
  Proof. unfold held_at. rewrite held by assumption. destruct (public_methods answers i n); reflexivity. Qed.
  Lemma sup_above i a : sup w0 i a <-> above answers i a.
  Proof.
    unfold sup, above. split; intros (b & Hb & A); exists b; (split; [|]).
    - now rewrite <- (parents_ok dn ds proxy).
    - now apply (ancestor_ext _ _ (parents_ok dn ds proxy cs)).
    - now rewrite (parents_ok dn ds proxy).
    - now apply (ancestor_ext _ _ (parents_ok dn ds proxy cs)).
  Qed.
  Lemma keys_nodup i : NoDup (map fst (methods_at w0 i)). Proof. now apply held_nodup. Qed.

  Lemma same_types_eq a b : same_types a b = true <-> a = b.
  Proof.
    revert b. induction a as [|x a IH]; intros [|y b]; cbn; try (split; congruence). rewrite andb_true_iff, IH, String.eqb_eq. split; [intros [-> ->]; reflexivity|].
    intros [= -> ->]. auto.
  Qed.
  Lemma matches_eq a b : matches_signature a b = true <-> signature a = signature b.
  Proof.
    unfold matches_signature, signature. rewrite !andb_true_iff, String.eqb_eq, same_types_eq, Bool.eqb_true_iff. split.
    - intros [[-> ->] ->]. reflexivity.
    - intros [= -> -> ->]. auto.
  Qed.
  (** Kept by class [i]. *)
  Definition keeps (i : nat) (m : method) : bool := negb (existsb (fun leaf => matches_signature leaf m) (nonpublic_at w0 i)).
  Lemma keeps_hides i m : keeps i m = true <-> ~ hides answers i m.
  Proof.
    unfold keeps, hides. rewrite negb_true_iff, <- not_true_iff_false, existsb_exists. apply not_iff_compat. split.
    - intros (p & Hp & M). apply held_nonpublic in Hp; [|assumption]. apply matches_eq in M. exists p. tauto.
    - intros (p & D & V & S). exists p. split; [now apply held_nonpublic|now apply matches_eq].
  Qed.

  Variable order : list nat.
  Hypothesis ND : NoDup order.
  Hypothesis IN : forall c, In c order -> c < length w0.

  (** The parts of a table. *)
  Lemma table_parts i : In i order -> exists done w acc rest,
    inv ok w0 done w /\ (forall c, In c rest <-> above answers i c) /\
    (NoDup (levels P i i) -> i :: rest = levels P i i) /\ NoDup (map fst acc) /\
    (forall n, found acc n = if Nat.ltb 1 (length (P i)) then match public_methods answers i n with
                 | [] => filter (fun x => is_public (mt_vis (wr_method x)) && keeps i (wr_method x)) (met w n rest)
                 | _ => [] end else []) /\
    table_of (tables order w0) i = own_entries ok i (methods_at w0 i) ++ map (fun n => (n, TCaller)) (callers i) ++ inherited_entries ok acc ++
          (if copyable i then [("__copy__"%string, TCopy)] else []).
  Proof.
    intros Hi. destruct (table_made ok callers copyable w0 (final_wf dn ds proxy cs) keys_nodup order ND [] w0 (inv_start ok w0)) with (i := i)
      as (done & w & t & Iv & Nd & L & G & T); [intros c _ []|exact IN|assumption|].
    destruct (inv_step ok callers copyable w0 (final_wf dn ds proxy cs) keys_nodup done w i Iv L Nd) as (k & rest & K & Gm & A & Km & Kn & Kb & _).
    exists done, w, (snd (looped ok w k rest)), rest.
    rewrite (gen_eq ok callers copyable w i k rest K Gm) in G. cbn [snd] in G. injection G as G.
    assert (N : forall j, NoDup (map fst (methods_at w j))) by (intros j; rewrite (inv_keys _ _ _ _ Iv); apply keys_nodup).
    split; [|split; [|split; [|split; [|split]]]].
    - exact Iv.
    - intros c. rewrite A. apply sup_above.
    - intros Nl. pose proof (mro_tree w) as Mt.
      assert (E : forall j, bases w j = P j) by (intros j; rewrite (inv_bases _ _ _ _ Iv); apply parents_ok).
      rewrite <- (levels_ext _ _ E) in *. rewrite Mt in Gm; [congruence| |assumption].
      intros j b H. rewrite (inv_bases _ _ _ _ Iv) in H. now apply (final_wf dn ds proxy cs).
    - destruct (looped_did ok w k rest ""%string N) as [_ [_ S]]. apply S. constructor.
    - intros n. destruct (looped_did ok w k rest n N) as [D _]. unfold did in D. cbn [fst snd] in D.
      rewrite norm_get, Km, held in D by assumption. rewrite Kb, parents_ok in D. rewrite Kn in D.
      destruct (public_methods answers i n) as [|m0 l0]; cbn [option_map] in D.
      + destruct D as [_ D]. rewrite D. destruct (Nat.ltb 1 _); reflexivity.
      + destruct D as [D _]. rewrite D. destruct (Nat.ltb 1 _); reflexivity.
    - rewrite T, <- G, Km. reflexivity.
  Qed.

  Lemma offers_held done w b n m : inv ok w0 done w -> In m (held_at w b n) -> offers answers b n.
  Proof.
    intros Iv Hm. unfold held_at in Hm. destruct (dict_get (methods_at w b) n) as [l|] eqn:E; [|destruct Hm].
    apply get_in_keys in E. rewrite (inv_keys _ _ _ _ Iv) in E. unfold offers. intros X.
    pose proof (held dn ds proxy cs b n NF) as H. rewrite X in H.
    clear - E H. induction (methods_at w0 b) as [|[k x] d IH]; cbn in *; [destruct E|]. destruct (String.eqb n k) eqn:Q; [discriminate|].
    destruct E as [->|E]; [now rewrite String.eqb_refl in Q|auto].
  Qed.

  Lemma own_get i n : table_get (own_entries ok i (methods_at w0 i)) n =
    if special n then None else match filter ok (public_methods answers i n) with [] => None | l => Some (TWrappers (map (fun m => mk_wrapper m i) l)) end.
  Proof.
    rewrite own_entries_eq, (entries_get _ _ (own_one i) _ n (keys_nodup i)), held by assumption.
    unfold own_g, entry_of. destruct (special n).
    - destruct (public_methods answers i n); reflexivity.
    - destruct (public_methods answers i n) as [|m l] eqn:E; [reflexivity|]. rewrite filter_wrappers.
      destruct (filter ok (m :: l)); [reflexivity|]. cbn [map]. unfold table_get. cbn [find fst]. now rewrite String.eqb_refl.
  Qed.

  Lemma own_ok i n : In i order -> special n = false -> filter ok (public_methods answers i n) <> [] ->
    table_get (table_of (tables order w0) i) n = Some (TWrappers (map (fun m => mk_wrapper m i) (filter ok (public_methods answers i n)))).
  Proof.
    intros Hi Sp Ne. destruct (table_parts i Hi) as (done & w & acc & rest & _ & _ & _ & _ & _ & ->).
    rewrite table_get_app, own_get, Sp. destruct (filter ok _); [congruence|reflexivity].
  Qed.

  (** ** Inherited methods *)
  Lemma map_repeat {A B} (f : A -> B) x k : map f (repeat x k) = repeat (f x) k.
  Proof. induction k; cbn; [reflexivity|now f_equal]. Qed.
  Lemma filter_concat {A} (f : A -> bool) (l : list (list A)) : filter f (concat l) = concat (map (filter f) l).
  Proof. induction l as [|x l IH]; cbn; [reflexivity|]. now rewrite filter_app, IH. Qed.
  Lemma concat_map {A B} (f : A -> B) (l : list (list A)) : map f (concat l) = concat (map (map f) l).
  Proof. induction l as [|x l IH]; cbn; [reflexivity|]. now rewrite map_app, IH. Qed.
  Lemma filter_twice {A} (f g : A -> bool) l : filter f (filter g l) = filter (fun x => f x && g x) l.
  Proof. induction l as [|x l IH]; cbn; [reflexivity|]. destruct (g x); cbn; destruct (f x); cbn; now rewrite IH. Qed.
  Lemma filter_map_mk (f : wrapper -> bool) a l : filter f (map (fun m => mk_wrapper m a) l) = map (fun m => mk_wrapper m a) (filter (fun m => f (mk_wrapper m a)) l).
  Proof. induction l as [|x l IH]; cbn; [reflexivity|]. destruct (f _); cbn; now rewrite IH. Qed.
  Lemma repeated {A} (f : nat -> list A) a l : (forall b, In b l -> b <> a -> f b = []) -> flat_map f l = concat (repeat (f a) (count_occ Nat.eq_dec l a)).
  Proof.
    induction l as [|b l IH]; intros H; cbn; [reflexivity|]. rewrite IH by (intros; apply H; [now right|assumption]).
    destruct (Nat.eq_dec b a) as [->|Ne]; [reflexivity|]. rewrite (H b) by (auto; now left). reflexivity.
  Qed.

  Lemma plain_at done w i a n : inv ok w0 done w -> above answers i a -> (forall b, above answers i b -> offers answers b n -> b = a) ->
    held_at w a n = public_methods answers a n \/ held_at w a n = normalise ok (public_methods answers a n).
  Proof.
    intros Iv Ha Uq. rewrite <- (held_public a n). apply (inv_plain _ _ _ _ Iv). intros b Hb. rewrite held_public.
    destruct (public_methods answers b n) as [|m l] eqn:E; [reflexivity|]. exfalso.
    assert (b = a). { apply Uq; [|unfold offers; congruence]. apply sup_above. eapply sup_trans; [apply sup_above; exact Ha|exact Hb]. }
    subst b. apply (sup_lt _ (final_wf dn ds proxy cs)) in Hb. lia.
  Qed.

  Lemma inherited_list i n a : In i order -> several answers i -> special n = false -> ~ offers answers i n -> above answers i a ->
    (forall b, above answers i b -> offers answers b n -> b = a) ->
    exists done w acc rest k, inv ok w0 done w /\ 1 <= k /\ (NoDup (levels P i i) -> k = 1) /\
      NoDup (map fst acc) /\
      found acc n = concat (repeat (map (fun m => mk_wrapper m a) (filter (keeps i) (held_at w a n))) k) /\
      table_of (tables order w0) i = own_entries ok i (methods_at w0 i) ++ map (fun n => (n, TCaller)) (callers i) ++ inherited_entries ok acc ++
          (if copyable i then [("__copy__"%string, TCopy)] else []) /\ In a rest.
  Proof.
    intros Hi Sv Sp No Ha Uq. destruct (table_parts i Hi) as (done & w & acc & rest & Iv & A & Lv & Na & F & T).
    exists done, w, acc, rest, (count_occ Nat.eq_dec rest a). split; [exact Iv|]. assert (Ir : In a rest) by now apply A. split; [|split; [|split; [|split; [|split]]]].
    - apply (count_occ_In Nat.eq_dec) in Ir. lia.
    - intros Nl. assert (Nr : NoDup (i :: rest)) by (rewrite (Lv Nl); assumption). inversion Nr as [|? ? _ Nr']; subst.
      apply (NoDup_count_occ' Nat.eq_dec); assumption.
    - assumption.
    - rewrite F. unfold several in Sv. apply Nat.ltb_lt in Sv. rewrite Sv. unfold offers in No.
      destruct (public_methods answers i n) as [|m l]; [|elim No; discriminate].
      unfold met. rewrite (repeated _ a rest).
      + rewrite filter_concat, map_repeat. do 2 f_equal. unfold row. rewrite Sp. fold (held_at w a n). rewrite filter_map_mk. f_equal.
        apply filter_ext_in. intros m Hm. cbn [wr_method].
        destruct (inv_origin _ _ _ _ Iv _ _ _ Hm) as (b & _ & Hb). rewrite held_public in Hb. apply public_facts in Hb. destruct Hb as (_ & -> & _). reflexivity.
      + intros b Hb Ne. unfold row. rewrite Sp. fold (held_at w b n). destruct (held_at w b n) as [|m l] eqn:E; [reflexivity|].
        elim Ne. apply Uq; [now apply A|]. eapply (offers_held done w b n m Iv). rewrite E. now left.
    - exact T.
    - exact Ir.
  Qed.

  Lemma one_class_repeat a L k : (forall x, In x (concat (repeat (map (fun m => mk_wrapper m a) L) k)) -> wr_class x = a).
  Proof.
    intros x H. apply in_concat in H. destruct H as (l & Hl & Hx). apply repeat_spec in Hl. subst l. apply in_map_iff in Hx.
    destruct Hx as (m & <- & _). reflexivity.
  Qed.
  Lemma one_class_ok l a : (forall x, In x l -> wr_class x = a) -> l <> [] -> one_class l = true.
  Proof.
    intros H Ne. destruct l as [|x l]; [congruence|]. cbn. apply forallb_forall. intros y Hy. apply Nat.eqb_eq.
    rewrite (H y) by (now right). rewrite (H x) by (now left). reflexivity.
  Qed.
  Lemma callers_get n l : ~ In n l -> table_get (map (fun n => (n, TCaller)) l) n = None.
  Proof.
    induction l as [|x l IH]; cbn; [reflexivity|]. intros H. unfold table_get. cbn [find fst].
    destruct (String.eqb x n) eqn:E; [apply String.eqb_eq in E; subst; tauto|]. apply IH. tauto.
  Qed.
  Lemma filter_none {A} (f : A -> bool) l : filter f l <> [] <-> exists x, In x l /\ f x = true.
  Proof.
    split.
    - destruct (filter f l) as [|x r] eqn:E; [congruence|]. intros _. exists x. apply filter_In. rewrite E. now left.
    - intros (x & H). apply filter_In in H. intros E. rewrite E in H. destruct H.
  Qed.

  Lemma inherited_ok i n a m : In i order -> several answers i -> special n = false -> ~ offers answers i n -> above answers i a ->
    (forall b, above answers i b -> offers answers b n -> b = a) -> ~ In n (callers i) ->
    In m (public_methods answers a n) -> ok m = true -> ~ hides answers i m ->
    exists keep k, (forall m, keep m = true <-> ~ hides answers i m) /\ 1 <= k /\ (NoDup (levels P i i) -> k = 1) /\
      table_get (table_of (tables order w0) i) n =
        Some (TWrappers (concat (repeat (map (fun m => mk_wrapper m a) (filter (fun m => ok m && keep m) (public_methods answers a n))) k))).
  Proof.
    intros Hi Sv Sp No Ha Uq Nc Hm Om Nh.
    destruct (inherited_list i n a Hi Sv Sp No Ha Uq) as (done & w & acc & rest & k & Iv & K1 & K2 & Na & F & T & _).
    exists (keeps i), k. split; [apply keeps_hides|]. split; [assumption|]. split; [assumption|].
    assert (E : filter (fun x => ok (wr_method x)) (found acc n) =
                concat (repeat (map (fun m => mk_wrapper m a) (filter (fun m => ok m && keeps i m) (public_methods answers a n))) k)).
    { rewrite F, filter_concat, map_repeat. do 2 f_equal. rewrite filter_map_mk, filter_twice. cbn [wr_method]. f_equal.
      assert (C : forall l, filter (fun m => ok m && keeps i m) l = filter (keeps i) (filter ok l)).
      { intros l. rewrite filter_twice. apply filter_ext. intros x. apply andb_comm. }
      rewrite !C. f_equal. destruct (plain_at done w i a n Iv Ha Uq) as [-> | ->]; [reflexivity|apply norm_ok]. }
    assert (Ne : concat (repeat (map (fun m => mk_wrapper m a) (filter (fun m => ok m && keeps i m) (public_methods answers a n))) k) <> []).
    { destruct k as [|k]; [lia|]. cbn [repeat concat]. intros X. apply app_eq_nil in X. destruct X as [X _]. apply map_eq_nil in X.
      assert (Q : filter (fun m => ok m && keeps i m) (public_methods answers a n) <> []); [|congruence]. apply filter_none. exists m. split; [assumption|].
      rewrite Om. now apply keeps_hides. }
    rewrite T, !table_get_app, own_get, Sp. unfold offers in No. destruct (public_methods answers i n) as [|m1 l1]; [|elim No; discriminate]. cbn [filter].
    rewrite (callers_get n _ Nc), inh_entries_eq, (entries_get _ _ inh_one _ n Na). unfold found in E, F.
    destruct (dict_get acc n) as [l|] eqn:G; [|rewrite <- E in Ne; now elim Ne]. rewrite <- E in Ne.
    unfold inh_g, entry_of. rewrite (one_class_ok l a).
    - rewrite <- E. destruct (filter _ l) as [|x r] eqn:Q; [congruence|]. unfold table_get. cbn [find fst option_map snd]. now rewrite String.eqb_refl.
    - rewrite F. apply one_class_repeat.
    - intros ->. now elim Ne.
  Qed.

  (** ** Nothing else *)
  Lemma table_sound i n l : In (n, TWrappers l) (table_of (tables order w0) i) ->
    In i order /\ special n = false /\ l <> [] /\
    (l = map (fun m => mk_wrapper m i) (filter ok (public_methods answers i n)) \/
     several answers i /\ ~ offers answers i n /\ exists a, above answers i a /\ forall x, In x l ->
       wr_class x = a /\ ok (wr_method x) = true /\ ~ hides answers i (wr_method x) /\
       exists b, (b = a \/ above answers a b) /\ In (wr_method x) (public_methods answers b n)).
  Proof.
    intros H. destruct (in_dec Nat.eq_dec i order) as [Hi|Hi]; [|rewrite (table_missing ok callers copyable order i Hi) in H; destruct H].
    split; [assumption|]. destruct (table_parts i Hi) as (done & w & acc & rest & Iv & A & Lv & Na & F & T). rewrite T in H.
    apply in_app_iff in H. destruct H as [H|H]; [|apply in_app_iff in H; destruct H as [H|H]; [|apply in_app_iff in H; destruct H as [H|H]]].
    - rewrite own_entries_eq in H. apply (entries_in _ _ (own_one i)) in H. destruct H as (v & Hv & H).
      apply (dict_in _ _ _ (keys_nodup i)) in Hv. rewrite held in Hv by assumption. unfold own_g in H. destruct (special n); [destruct H|].
      split; [reflexivity|]. unfold entry_of in H. rewrite filter_wrappers in H.
      assert (v = public_methods answers i n) by (destruct (public_methods answers i n); congruence). subst v.
      destruct (filter ok (public_methods answers i n)) as [|m0 l0]; [destruct H|]. cbn [map] in H. destruct H as [[= <-]|[]].
      split; [discriminate|]. now left.
    - apply in_map_iff in H. destruct H as (x & E & _). discriminate.
    - rewrite inh_entries_eq in H. apply (entries_in _ _ inh_one) in H. destruct H as (v & Hv & H).
      apply (dict_in _ _ _ Na) in Hv. unfold inh_g in H. destruct (one_class v) eqn:O; [|destruct H]. unfold entry_of in H.
      assert (Fv : found acc n = v) by (unfold found; now rewrite Hv). rewrite F in Fv.
      destruct (Nat.ltb 1 (length (P i))) eqn:Sv; [|subst v; discriminate].
      destruct (public_methods answers i n) as [|m1 l1] eqn:Pm; [|subst v; discriminate].
      destruct (filter (fun x => ok (wr_method x)) v) as [|x0 l0] eqn:E; [destruct H|]. destruct H as [[= <-]|[]].
      assert (Hx : forall x, In x (x0 :: l0) -> In x v /\ ok (wr_method x) = true) by (intros x Hx; rewrite <- E in Hx; now apply filter_In in Hx).
      assert (Hm : forall x, In x v -> In x (met w n rest) /\ keeps i (wr_method x) = true).
      { intros x Hxv. rewrite <- Fv in Hxv. apply filter_In in Hxv. destruct Hxv as [X1 X2]. apply andb_prop in X2. tauto. }
      split; [|split; [discriminate|]].
      + destruct (Hx x0 (or_introl eq_refl)) as [X _]. apply Hm in X. destruct X as [X _]. now apply met_in in X.
      + right. split; [now apply Nat.ltb_lt|]. split; [unfold offers; intros X; now apply X|]. exists (wr_class x0). split.
        * apply A. destruct (Hx x0 (or_introl eq_refl)) as [X _]. apply Hm in X. destruct X as [X _]. now apply met_in in X.
        * intros x Hxl. destruct (Hx x Hxl) as [Xv Xo]. destruct (Hm x Xv) as [Xm Xk]. split.
          -- assert (Y : forall y, In y v -> forall z, In z v -> wr_class y = wr_class z).
             { clear - O. destruct v as [|q v]; [intros y []|]. cbn in O. rewrite forallb_forall in O.
               assert (Z : forall y, In y (q :: v) -> wr_class y = wr_class q) by (intros y [<-|Hy]; [reflexivity|apply Nat.eqb_eq, O, Hy]).
               intros y Hy z Hz. rewrite (Z y Hy), (Z z Hz). reflexivity. }
             apply Y; [assumption|]. apply (Hx x0). now left.
          -- split; [assumption|]. split; [now apply keeps_hides|]. apply met_in in Xm. destruct Xm as (_ & Xm & _).
             destruct (inv_origin _ _ _ _ Iv _ _ _ Xm) as (b & Hb & Hmb). rewrite held_public in Hmb. exists b. split; [|assumption].
             assert (Ec : wr_class x = wr_class x0).
             { clear - O Xv Hx. destruct v as [|q v]; [destruct Xv|]. cbn in O. rewrite forallb_forall in O.
               assert (Z : forall y, In y (q :: v) -> wr_class y = wr_class q) by (intros y [<-|Hy]; [reflexivity|apply Nat.eqb_eq, O, Hy]).
               rewrite (Z x Xv), (Z x0); [reflexivity|]. apply (Hx x0). now left. }
             rewrite <- Ec. destruct Hb as [Hb|Hb]; [now left|right; now apply sup_above].
    - destruct (copyable i); [|destruct H]. destruct H as [E|[]]. discriminate.
  Qed.

  Lemma nodup_app {A} (a b : list A) : NoDup a -> NoDup b -> (forall x, In x a -> ~ In x b) -> NoDup (a ++ b).
  Proof.
    induction a as [|x a IH]; cbn; intros Ha Hb D; [assumption|]. inversion Ha as [|? ? H1 H2]; subst. constructor.
    - rewrite in_app_iff. intros [H|H]; [auto|]. apply (D x); auto.
    - apply IH; auto.
  Qed.
  (** The names of the entries with wrappers are distinct. *)
  Definition is_wrappers (x : string * MethodTable.target) : bool := match snd x with TWrappers _ => true | _ => false end.
  Lemma filter_all {A} (f : A -> bool) l : (forall x, In x l -> f x = true) -> filter f l = l.
  Proof. induction l as [|x l IH]; cbn; intros H; [reflexivity|]. rewrite (H x) by now left. f_equal. apply IH. auto. Qed.
  Lemma filter_nil {A} (f : A -> bool) l : (forall x, In x l -> f x = false) -> filter f l = [].
  Proof. induction l as [|x l IH]; cbn; intros H; [reflexivity|]. rewrite (H x) by now left. apply IH. auto. Qed.
  Lemma table_once i : NoDup (map fst (filter is_wrappers (table_of (tables order w0) i))).
  Proof.
    destruct (in_dec Nat.eq_dec i order) as [Hi|Hi]; [|rewrite (table_missing ok callers copyable order i Hi); constructor].
    destruct (table_parts i Hi) as (done & w & acc & rest & Iv & A & Lv & Na & F & T). rewrite T, !filter_app.
    rewrite (filter_all is_wrappers (own_entries ok i (methods_at w0 i))), (filter_nil is_wrappers (map _ (callers i))),
      (filter_all is_wrappers (inherited_entries ok acc)), (filter_nil is_wrappers (if copyable i then _ else _)).
    - cbn [app]. rewrite app_nil_r, map_app, own_entries_eq, inh_entries_eq. apply nodup_app.
      + apply entries_nodup; [apply own_one|apply keys_nodup].
      + apply entries_nodup; [apply inh_one|assumption].
      + intros n H1 H2. apply in_map_iff in H1. destruct H1 as ([n1 t1] & E1 & H1). cbn in E1. subst n1.
        apply in_map_iff in H2. destruct H2 as ([n2 t2] & E2 & H2). cbn in E2. subst n2.
        apply (entries_in _ _ (own_one i)) in H1. destruct H1 as (v1 & Hv1 & _). apply (dict_in _ _ _ (keys_nodup i)) in Hv1.
        apply (entries_in _ _ inh_one) in H2. destruct H2 as (v2 & Hv2 & H2). apply (dict_in _ _ _ Na) in Hv2.
        rewrite held in Hv1 by assumption. assert (Fv : found acc n = v2) by (unfold found; now rewrite Hv2). rewrite F in Fv.
        destruct (public_methods answers i n); [discriminate|]. destruct (Nat.ltb 1 _); subst v2; destruct H2.
    - intros x H. destruct (copyable i); [|destruct H]. destruct H as [<-|[]]. reflexivity.
    - intros [n t] H. rewrite inh_entries_eq in H. apply (entries_in _ _ inh_one) in H. destruct H as (v & _ & H). unfold inh_g, entry_of in H.
      destruct (one_class v); [|destruct H]. destruct (filter _ v); [destruct H|]. destruct H as [[= <-]|[]]. reflexivity.
    - intros x H. apply in_map_iff in H. destruct H as (n & <- & _). reflexivity.
    - intros [n t] H. rewrite own_entries_eq in H. apply (entries_in _ _ (own_one i)) in H. destruct H as (v & _ & H). unfold own_g, entry_of in H.
      destruct (special n); [destruct H|]. destruct (filter _ _); [destruct H|]. destruct H as [[= <-]|[]]. reflexivity.
  Qed.
End Top.
