(** The loops of _generate_MI_parent_methods. *)
From Verif.Model Require Import Py PyState Hierarchy MethodTable.
From Verif.Spec Require Import HierarchySpec MethodTableSpec.
From Verif.Proofs Require Import StrLemmas HierarchyProofs PureProofs TableDeclared.
From Coq Require Import Lia.
Open Scope list_scope.

Definition found (acc : dict (list wrapper)) (n : string) : list wrapper := match dict_get acc n with Some l => l | None => [] end.

Lemma found_add acc n l n' : found (add_found acc n l) n' = if String.eqb n' n then found acc n' ++ l else found acc n'.
Proof.
  unfold found. induction acc as [|[k x] d IH]; cbn [add_found dict_get].
  - destruct (String.eqb n' n); reflexivity.
  - destruct (String.eqb k n) eqn:E; cbn [dict_get].
    + apply String.eqb_eq in E. subst k. destruct (String.eqb n' n); reflexivity.
    + destruct (String.eqb n' k) eqn:F.
      * apply String.eqb_eq in F. subst k. now rewrite E.
      * exact IH.
Qed.
Lemma found_keys acc n l : forall x, In x (map fst (add_found acc n l)) <-> In x (map fst acc) \/ x = n.
Proof.
  intros x. induction acc as [|[k y] d IH]; cbn.
  - intuition auto.
  - destruct (String.eqb k n) eqn:E; cbn; [apply String.eqb_eq in E; subst; intuition auto|rewrite IH; tauto].
Qed.
Lemma found_nodup acc n l : NoDup (map fst acc) -> NoDup (map fst (add_found acc n l)).
Proof.
  induction acc as [|[k y] d IH]; cbn; intros N.
  - constructor; [intros []|constructor].
  - inversion N as [|? ? N1 N2]; subst. destruct (String.eqb k n) eqn:E; cbn; [assumption|].
    constructor; [|auto]. rewrite found_keys. apply String.eqb_neq in E. intros [H| ->]; [auto|congruence].
Qed.

Lemma overload_same_keys d n m l : dict_get d n = Some l -> map fst (add_overload d n m) = map fst d.
Proof.
  induction d as [|[k x] d IH]; cbn; [discriminate|]. rewrite (String.eqb_sym n k). destruct (String.eqb k n) eqn:E; cbn; [reflexivity|].
  intros H. now rewrite IH.
Qed.

Section Fold.
  Variable np : list method.
  (** Kept by a class whose nonpublic methods are [np]. *)
  Definition kept (m : method) : bool := is_public (mt_vis m) && negb (existsb (fun leaf => matches_signature leaf m) np).

  (** What a loop did to name [n], the wrappers met being [ws]. *)
  Definition did (n : string) (ws : list wrapper) (s s' : dict (list method) * dict (list wrapper)) : Prop :=
    match dict_get (fst s) n with
    | None => dict_get (fst s') n = None /\ found (snd s') n = found (snd s) n ++ filter (fun x => kept (wr_method x)) ws
    | Some l => found (snd s') n = found (snd s) n /\
        exists extra, dict_get (fst s') n = Some (l ++ extra) /\ forall m, In m extra -> kept m = true /\ exists x, In x ws /\ wr_method x = m
    end.
  Definition sound (s s' : dict (list method) * dict (list wrapper)) : Prop :=
    map fst (fst s') = map fst (fst s) /\ (NoDup (map fst (snd s)) -> NoDup (map fst (snd s'))).

  Lemma did_nil n s : did n [] s s.
  Proof.
    unfold did. destruct (dict_get (fst s) n) as [l|].
    - split; [reflexivity|]. exists []. split; [now rewrite app_nil_r|intros m []].
    - split; [reflexivity|]. now rewrite app_nil_r.
  Qed.
  Lemma did_trans n a b s1 s2 s3 : did n a s1 s2 -> did n b s2 s3 -> did n (a ++ b) s1 s3.
  Proof.
    unfold did. destruct (dict_get (fst s1) n) as [l|].
    - intros (F1 & e1 & E1 & X1). rewrite E1. intros (F2 & e2 & E2 & X2). split; [congruence|]. exists (e1 ++ e2). split; [now rewrite E2, app_assoc|].
      intros m H. apply in_app_iff in H. destruct H as [H|H].
      + destruct (X1 m H) as (K & x & Hx & Ex). split; [assumption|]. exists x. split; [apply in_app_iff; now left|assumption].
      + destruct (X2 m H) as (K & x & Hx & Ex). split; [assumption|]. exists x. split; [apply in_app_iff; now right|assumption].
    - intros (E1 & F1). rewrite E1. intros (E2 & F2). split; [assumption|]. now rewrite F2, F1, filter_app, app_assoc.
  Qed.
  Lemma sound_refl s : sound s s. Proof. split; auto. Qed.
  Lemma sound_trans a b c : sound a b -> sound b c -> sound a c.
  Proof. intros [H1 H2] [H3 H4]. split; [congruence|auto]. Qed.

  Lemma take_wrapper_did base n pw s n' :
    did n' (if String.eqb n' n then [mk_wrapper pw base] else []) s (take_wrapper np base n s pw) /\ sound s (take_wrapper np base n s pw).
  Proof.
    destruct s as [own acc]. unfold take_wrapper.
    assert (Skip : kept pw = false -> did n' (if String.eqb n' n then [mk_wrapper pw base] else []) (own, acc) (own, acc) /\ sound (own, acc) (own, acc)).
    { intros K. split; [|apply sound_refl]. destruct (String.eqb n' n); [|apply did_nil]. unfold did. cbn [fst snd].
      destruct (dict_get own n') as [l|].
      - split; [reflexivity|]. exists []. split; [now rewrite app_nil_r|intros m []].
      - split; [reflexivity|]. cbn [filter wr_method]. rewrite K. now rewrite app_nil_r. }
    destruct (is_public (mt_vis pw)) eqn:P; cbn [negb]; [|apply Skip; unfold kept; now rewrite P].
    destruct (existsb (fun leaf => matches_signature leaf pw) np) eqn:X; [apply Skip; unfold kept; now rewrite P, X|].
    assert (K : kept pw = true) by (unfold kept; now rewrite P, X).
    destruct (dict_get own n) as [l|] eqn:G.
    - destruct (existsb (fun leaf => matches_signature leaf pw) l) eqn:M.
      + split; [|apply sound_refl]. destruct (String.eqb n' n) eqn:E; [|apply did_nil]. apply String.eqb_eq in E. subst n'.
        unfold did. cbn [fst snd]. rewrite G. split; [reflexivity|]. exists []. split; [now rewrite app_nil_r|intros m []].
      + split.
        * destruct (String.eqb n' n) eqn:E.
          -- apply String.eqb_eq in E. subst n'. unfold did. cbn [fst snd]. rewrite G. split; [reflexivity|]. exists [pw].
             rewrite overload_get, String.eqb_refl, G. split; [reflexivity|]. intros m [<-|[]]. split; [first [assumption|reflexivity]|].
             exists (mk_wrapper pw base). split; [now left|reflexivity].
          -- unfold did. cbn [fst snd]. rewrite overload_get, E. destruct (dict_get own n') as [l'|].
             ++ split; [reflexivity|]. exists []. split; [now rewrite app_nil_r|intros m []].
             ++ split; [reflexivity|]. now rewrite app_nil_r.
        * split; cbn [fst snd]; [now apply overload_same_keys with l|auto].
    - split.
      + destruct (String.eqb n' n) eqn:E.
        * apply String.eqb_eq in E. subst n'. unfold did. cbn [fst snd]. rewrite G. split; [first [assumption|reflexivity]|].
          rewrite found_add, String.eqb_refl. cbn [filter wr_method]. now rewrite K.
        * unfold did. cbn [fst snd]. destruct (dict_get own n') as [l'|] eqn:G'.
          -- rewrite found_add, E. split; [reflexivity|]. exists []. split; [now rewrite app_nil_r|intros m []].
          -- split; [first [assumption|reflexivity]|]. rewrite found_add, E. now rewrite app_nil_r.
      + split; cbn [fst snd]; [reflexivity|apply found_nodup].
  Qed.

  Lemma fold_wrappers base n n' pws : forall s,
    did n' (if String.eqb n' n then map (fun m => mk_wrapper m base) pws else []) s (fold_left (take_wrapper np base n) pws s) /\
    sound s (fold_left (take_wrapper np base n) pws s).
  Proof.
    induction pws as [|pw pws IH]; intros s; cbn [fold_left map].
    - split; [|apply sound_refl]. destruct (String.eqb n' n); apply did_nil.
    - destruct (take_wrapper_did base n pw s n') as [D1 S1]. destruct (IH (take_wrapper np base n s pw)) as [D2 S2].
      split; [|eapply sound_trans; eassumption]. pose proof (did_trans _ _ _ _ _ _ D1 D2) as D. destruct (String.eqb n' n); exact D.
  Qed.

  Lemma take_name_did base x s n' :
    did n' (if String.eqb n' (fst x) && negb (special n') then map (fun m => mk_wrapper m base) (snd x) else []) s (take_name np base s x) /\
    sound s (take_name np base s x).
  Proof.
    unfold take_name. destruct x as [n pws]. cbn [fst snd]. destruct (special n) eqn:Sp.
    - split; [|apply sound_refl]. destruct (String.eqb n' n) eqn:E; [|apply did_nil]. apply String.eqb_eq in E. subst n'. rewrite Sp. apply did_nil.
    - destruct (fold_wrappers base n n' pws (fst s, add_found (snd s) n [])) as [D S].
      split.
      + assert (F : forall q, found (add_found (snd s) n []) q = found (snd s) q).
        { intros q. rewrite found_add. destruct (String.eqb q n); [now rewrite app_nil_r|reflexivity]. }
        assert (D' : did n' (if String.eqb n' n then map (fun m => mk_wrapper m base) pws else []) s
                       (fold_left (take_wrapper np base n) pws (fst s, add_found (snd s) n []))).
        { unfold did in *. cbn [fst snd] in D. rewrite F in D. exact D. }
        destruct (String.eqb n' n) eqn:E; cbn [andb]; [|exact D']. apply String.eqb_eq in E. subst n'. rewrite Sp. exact D'.
      + eapply sound_trans; [|exact S]. split; cbn [fst snd]; [reflexivity|apply found_nodup].
  Qed.

  Definition row (d : dict (list method)) (n : string) : list method :=
    if special n then [] else match dict_get d n with Some l => l | None => [] end.
  Lemma get_none (d : dict (list method)) n : ~ In n (map fst d) -> dict_get d n = None.
  Proof.
    induction d as [|[k l] d IH]; cbn; [reflexivity|]. intros H. destruct (String.eqb n k) eqn:E; [apply String.eqb_eq in E; subst; tauto|auto].
  Qed.
  Lemma fold_names base d n : NoDup (map fst d) -> forall s,
    did n (map (fun m => mk_wrapper m base) (row d n)) s (fold_left (take_name np base) d s) /\ sound s (fold_left (take_name np base) d s).
  Proof.
    induction d as [|[k l] d IH]; intros N s; cbn [fold_left].
    - unfold row. cbn [dict_get]. split; [|apply sound_refl]. destruct (special n); apply did_nil.
    - cbn in N. inversion N as [|? ? N1 N2]; subst. destruct (take_name_did base (k, l) s n) as [D1 S1].
      destruct (IH N2 (take_name np base s (k, l))) as [D2 S2]. split; [|eapply sound_trans; eassumption].
      pose proof (did_trans _ _ _ _ _ _ D1 D2) as D. cbn [fst snd] in D. revert D. unfold row. cbn [dict_get].
      destruct (special n) eqn:Sp; cbn [negb andb map app]; [now rewrite andb_false_r|]. rewrite andb_true_r.
      destruct (String.eqb n k) eqn:E; [|auto]. apply String.eqb_eq in E. subst n. rewrite (get_none d k N1). cbn [map]. now rewrite app_nil_r.
  Qed.

  Lemma take_base_did w n s b : (forall i, NoDup (map fst (methods_at w i))) ->
    did n (map (fun m => mk_wrapper m b) (row (methods_at w b) n)) s (take_base w np s b) /\ sound s (take_base w np s b).
  Proof.
    intros N. unfold take_base. specialize (N b). unfold methods_at in *. destruct (nth_error w b) as [k|].
    - now apply fold_names.
    - split; [|apply sound_refl]. unfold row. cbn [dict_get]. destruct (special n); apply did_nil.
  Qed.
  Lemma fold_bases w n : (forall i, NoDup (map fst (methods_at w i))) -> forall bs s,
    did n (flat_map (fun b => map (fun m => mk_wrapper m b) (row (methods_at w b) n)) bs) s (fold_left (take_base w np) bs s) /\
    sound s (fold_left (take_base w np) bs s).
  Proof.
    intros N bs. induction bs as [|b bs IH]; intros s; cbn [fold_left flat_map].
    - split; [apply did_nil|apply sound_refl].
    - destruct (take_base_did w n s b N) as [D1 S1]. destruct (IH (take_base w np s b)) as [D2 S2].
      split; [eapply did_trans; eassumption|eapply sound_trans; eassumption].
  Qed.
End Fold.

Lemma kept_ext np np' m : (forall x, In x np <-> In x np') -> kept np m = kept np' m.
Proof.
  intros E. unfold kept. f_equal. f_equal. apply eq_true_iff_eq. rewrite !existsb_exists. split; intros (x & H & M); exists x; (split; [now apply E|assumption]).
Qed.
