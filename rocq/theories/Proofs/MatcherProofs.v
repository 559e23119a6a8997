(** Proofs for C15 and C16. *)
From Verif.Model Require Import Py Tokenizer CType TypeMatcher.
From Verif.Spec Require Import TypeSpec MatcherSpec.
From Verif.Proofs Require Import StrLemmas TraitsProofs TypeProofs.
From Coq Require Import Lia.
Open Scope string_scope.
Open Scope list_scope.
Open Scope py_scope.

Lemma traits_parse s : match parse_type s with
  | Ok l => exists t, type_traits s = Ok t /\ tt_ctype t = l /\ tt_no_modifiers t = remove_modifiers l
  | Err e => type_traits s = Err e end.
Proof.
  unfold type_traits. destruct (parse_type s) as [l|e]; cbn [bind]; [|reflexivity].
  destruct (traits_total l) as [t E]. exists t. split; [exact E|]. unfold traits_of in E.
  destruct (scan_loop _ _ _) as [sc|]; cbn [bind] in E; [|discriminate].
  assert (Q : forall a b : traits, Ok a = Ok b -> a = b) by congruence. apply Q in E. subst t. split; reflexivity.
Qed.

Lemma named_is_word i n : named i n = is_word i n.
Proof. destruct i; reflexivity. Qed.

Lemma remove_plain l : remove_modifiers l = plain l.
Proof.
  unfold remove_modifiers, remove_modifier, plain.
  induction l as [|i r IH]; [reflexivity|]. cbn [filter]. unfold qualifier at 1. change (is_word i) with (named i).
  destruct (named i "const") eqn:C; cbn [negb orb]; [exact IH|]. cbn [filter].
  destruct (named i "volatile"); cbn [negb]; [exact IH|now rewrite IH].
Qed.

Lemma last_indep {A} (l : list A) a b : l <> [] -> last l a = last l b.
Proof. induction l as [|x r IH]; [congruence|]. intros _. destruct r as [|y r]; [reflexivity|]. cbn [last] in *. apply IH. discriminate. Qed.

Section M.
  Context {H T : Type} (u : T -> string -> res (option string)).
  Notation history := (list (mop H T)).
  Notation hof := (@handler_of H T).
  Implicit Types (h : history) (m : matcher H T).

  (** ** The matcher reflects the history *)
  Lemma normalize_traits s : normalize_type_string s =
    match type_traits s with Ok t => Ok (str_ctype (tt_ctype t)) | Err e => Err e end.
  Proof.
    unfold normalize_type_string. pose proof (traits_parse s) as P.
    destruct (parse_type s) as [l|e]; cbn [bind].
    - destruct P as (t & -> & <- & _). reflexivity.
    - now rewrite P.
  Qed.

  Lemma types_run h : forall m n, dict_get (m_types (mrun m h)) n =
    match dict_get (m_types m) n with Some x => Some x | None => handler_of h n end.
  Proof.
    induction h as [|o r IH]; intros m n; cbn [mrun fold_left].
    - cbn. destruct (dict_get (m_types m) n); reflexivity.
    - unfold mrun in IH. rewrite IH. destruct o as [name x|t|f t]; cbn [mstep handler_of].
      + unfold register, spelled. destruct (normalize_type_string name) as [k|e]; cbn [bind]; [|reflexivity].
        destruct (dict_get (m_types m) k) as [y|] eqn:G.
        * destruct (String.eqb_spec k n) as [->|_]; [rewrite G; reflexivity|reflexivity].
        * cbn [m_types]. destruct (String.eqb_spec k n) as [->|N].
          -- rewrite dict_get_set_same, G. reflexivity.
          -- rewrite dict_get_set_other by exact N. reflexivity.
      + reflexivity.
      + unfold add_type_alias. destruct (type_traits f); cbn [bind]; [|reflexivity]. destruct (type_traits t); reflexivity.
  Qed.

  Lemma aliases_run h : forall m n, dict_get (m_aliases (mrun m h)) n =
    match original_of h n with Some x => Some x | None => dict_get (m_aliases m) n end.
  Proof.
    unfold original_of. induction h as [|o r IH]; intros m n; cbn [mrun fold_left]; [reflexivity|].
    unfold mrun in IH. rewrite IH. destruct o as [name x|t|f t]; cbn [mstep latest].
    - unfold register. destruct (normalize_type_string name) as [k|e]; cbn [bind]; [|reflexivity].
      destruct (dict_get (m_types m) k); reflexivity.
    - reflexivity.
    - destruct (latest _ r) as [y|]; [reflexivity|].
      unfold add_type_alias. rewrite !normalize_traits. destruct (type_traits f) as [tf|]; cbn [bind]; [|reflexivity].
      destruct (type_traits t) as [tt|]; cbn [bind]; [|reflexivity]. cbn [m_aliases].
      destruct (String.eqb_spec (str_ctype (tt_ctype tt)) n) as [->|N].
      + now rewrite dict_get_set_same.
      + now rewrite dict_get_set_other.
  Qed.

  Lemma aliases_rev_run h : forall m n, dict_get (m_aliases_rev (mrun m h)) n =
    match alias_of h n with Some x => Some x | None => dict_get (m_aliases_rev m) n end.
  Proof.
    unfold alias_of. induction h as [|o r IH]; intros m n; cbn [mrun fold_left]; [reflexivity|].
    unfold mrun in IH. rewrite IH. destruct o as [name x|t|f t]; cbn [mstep latest].
    - unfold register. destruct (normalize_type_string name) as [k|e]; cbn [bind]; [|reflexivity].
      destruct (dict_get (m_types m) k); reflexivity.
    - reflexivity.
    - destruct (latest _ r) as [y|]; [reflexivity|].
      unfold add_type_alias. rewrite !normalize_traits. destruct (type_traits f) as [tf|]; cbn [bind]; [|reflexivity].
      destruct (type_traits t) as [tt|]; cbn [bind]; [|reflexivity]. cbn [m_aliases_rev].
      destruct (String.eqb_spec (str_ctype (tt_ctype tf)) n) as [->|N].
      + now rewrite dict_get_set_same.
      + now rewrite dict_get_set_other.
  Qed.

  Lemma transf_run h : forall m, m_transformations (mrun m h) = m_transformations m ++ transformations_of h.
  Proof.
    induction h as [|o r IH]; intros m; cbn [mrun fold_left]; [now rewrite app_nil_r|].
    unfold mrun in IH. rewrite IH. destruct o as [name x|t|f t]; cbn [mstep transformations_of].
    - unfold register. destruct (normalize_type_string name) as [k|e]; cbn [bind]; [|reflexivity].
      destruct (dict_get (m_types m) k); reflexivity.
    - cbn [register_transformation m_transformations]. now rewrite <- app_assoc.
    - unfold add_type_alias. destruct (type_traits f); cbn [bind]; [|reflexivity]. destruct (type_traits t); reflexivity.
  Qed.

  Definition M0 h : matcher H T := mrun matcher_init h.
  Lemma types_of h n : dict_get (m_types (M0 h)) n = handler_of h n.
  Proof. unfold M0. now rewrite types_run. Qed.
  Lemma to_try h n : aliases_to_try (M0 h) n = opt_to_list (original_of h n) ++ opt_to_list (alias_of h n).
  Proof.
    unfold M0, aliases_to_try. rewrite aliases_run, aliases_rev_run. cbn.
    destruct (original_of h n), (alias_of h n); reflexivity.
  Qed.

  (** ** Alias resolution *)
  Lemma tried_in_spec n l : tried_in n l = true <-> In n l.
  Proof.
    unfold tried_in. rewrite existsb_exists. split.
    - intros (x & I & E). apply String.eqb_eq in E. now subst.
    - intros I. exists n. split; [exact I|apply String.eqb_refl].
  Qed.
  Lemma tried_in_false n l : tried_in n l = false <-> ~ In n l.
  Proof. rewrite <- tried_in_spec. destruct (tried_in n l); split; congruence. Qed.

  Lemma next_find h before n : next h before n (find (fun a => negb (tried_in a before)) (aliases_to_try (M0 h) n)).
  Proof.
    rewrite to_try. destruct (original_of h n) as [a|] eqn:O; cbn [opt_to_list app find].
    - destruct (tried_in a before) eqn:Ta; cbn [negb].
      + apply tried_in_spec in Ta. destruct (alias_of h n) as [b|] eqn:A; cbn [opt_to_list find].
        * destruct (tried_in b before) eqn:Tb; cbn [negb].
          -- apply tried_in_spec in Tb. apply next_none; intros c; rewrite ?O, ?A; intros [= <-]; assumption.
          -- apply tried_in_false in Tb. apply next_alias; [intros c; rewrite O; intros [= <-]; exact Ta|exact A|exact Tb].
        * apply next_none; intros c; rewrite ?O, ?A; [intros [= <-]; exact Ta|discriminate].
      + apply tried_in_false in Ta. now apply next_original.
    - destruct (alias_of h n) as [b|] eqn:A; cbn [opt_to_list find].
      + destruct (tried_in b before) eqn:Tb; cbn [negb].
        * apply tried_in_spec in Tb. apply next_none; intros c; rewrite ?O, ?A; [discriminate|intros [= <-]; exact Tb].
        * apply tried_in_false in Tb. apply next_alias; [intros c; rewrite O; discriminate|exact A|exact Tb].
      + apply next_none; intros c; rewrite ?O, ?A; discriminate.
  Qed.

  Lemma next_det h before n x y : next h before n x -> next h before n y -> x = y.
  Proof.
    intros [a O N|a O A N|O A]; intros [b O' N'|b O' A' N'|O' A']; try congruence; try reflexivity.
    all: exfalso; eauto.
  Qed.

  Lemma tries_det h before n p : tries h before n p -> forall q, tries h before n q -> p = q.
  Proof.
    induction 1 as [before n x F|before n F N|before n a p F N P IH]; intros q Q; inversion Q; subst; try congruence; try reflexivity.
    - match goal with X : next _ _ _ (Some _) |- _ => pose proof (next_det _ _ _ _ _ N X); congruence end.
    - match goal with X : next _ _ _ None |- _ => pose proof (next_det _ _ _ _ _ N X); congruence end.
    - match goal with X : next _ _ _ (Some ?b) |- _ => assert (b = a) by (pose proof (next_det _ _ _ _ _ N X); congruence) end.
      subst. f_equal. now apply IH.
  Qed.

  Lemma raw_sound h fuel : forall n before x, raw_lookup_rec fuel (M0 h) n before = Ok x ->
    exists p, tries h before n p /\ x = handler_of h (last p n).
  Proof.
    induction fuel as [|f IH]; intros n before x E; [discriminate|]. cbn [raw_lookup_rec] in E. rewrite types_of in E.
    destruct (handler_of h n) as [y|] eqn:F.
    - exists [n]. split; [eapply tries_found; eassumption|]. cbn [last]. congruence.
    - pose proof (next_find h before n) as N.
      destruct (find _ (aliases_to_try (M0 h) n)) as [a|].
      + destruct (IH _ _ _ E) as (p & P & ->). exists (n :: p). split; [eapply tries_next; eassumption|].
        f_equal. assert (NE : p <> []) by (inversion P; discriminate). cbn [last].
        destruct p as [|b r]; [congruence|]. apply last_indep. discriminate.
      + exists [n]. split; [now apply tries_end|]. cbn [last]. congruence.
  Qed.

  (** Termination. *)
  Definition universe m : list string := map fst (m_aliases m) ++ map fst (m_aliases_rev m).
  Definition left_over m (before : list string) : list string := filter (fun a => negb (tried_in a before)) (universe m).

  Lemma dict_get_key {V} (d : dict V) k v : dict_get d k = Some v -> In k (map fst d).
  Proof.
    induction d as [|[k' v'] r IH]; [discriminate|]. cbn [dict_get map fst].
    destruct (String.eqb_spec k k') as [->|N]; [left; reflexivity|right; now apply IH].
  Qed.

  Lemma in_universe m n a f : find f (aliases_to_try m n) = Some a -> In n (universe m).
  Proof.
    unfold aliases_to_try, universe. intros F. apply in_app_iff.
    destruct (dict_get (m_aliases m) n) eqn:A; [left; eapply dict_get_key; eassumption|].
    destruct (dict_get (m_aliases_rev m) n) eqn:B; [right; eapply dict_get_key; eassumption|]. discriminate.
  Qed.

  Lemma tried_snoc a before n : tried_in a (before ++ [n]) = tried_in a before || String.eqb a n.
  Proof. unfold tried_in. rewrite existsb_app. cbn [existsb]. now rewrite orb_false_r. Qed.

  Lemma filter_le {A} (f g : A -> bool) l : (forall x, f x = true -> g x = true) -> length (filter f l) <= length (filter g l).
  Proof.
    intros I. induction l as [|x r IH]; [reflexivity|]. cbn [filter]. specialize (I x).
    destruct (f x); [rewrite I by reflexivity; cbn [length]; lia|]. destruct (g x); cbn [length]; lia.
  Qed.
  Lemma filter_lt {A} (f g : A -> bool) l a : (forall x, f x = true -> g x = true) -> In a l -> g a = true -> f a = false ->
    length (filter f l) < length (filter g l).
  Proof.
    intros I Ia Ga Fa. apply in_split in Ia. destruct Ia as (l1 & l2 & ->). rewrite !filter_app, !app_length. cbn [filter].
    rewrite Ga, Fa. cbn [length]. pose proof (filter_le f g l1 I). pose proof (filter_le f g l2 I). lia.
  Qed.

  Lemma left_step_le m before n : length (left_over m (before ++ [n])) <= length (left_over m before).
  Proof. apply filter_le. intros x. rewrite tried_snoc. destruct (tried_in x before); [discriminate|reflexivity]. Qed.
  Lemma left_step_lt m before n : In n (universe m) -> ~ In n before -> length (left_over m (before ++ [n])) < length (left_over m before).
  Proof.
    intros I N. apply filter_lt with (a := n); [|exact I| |].
    - intros x. rewrite tried_snoc. destruct (tried_in x before); [discriminate|reflexivity].
    - apply tried_in_false in N. now rewrite N.
    - rewrite tried_snoc, String.eqb_refl, orb_true_r. reflexivity.
  Qed.

  Definition measure m before n := 2 * length (left_over m before) + (if tried_in n before then 1 else 0).

  Lemma raw_terminates m fuel : forall n before, measure m before n < fuel -> raw_lookup_rec fuel m n before <> Err OutOfFuel.
  Proof.
    induction fuel as [|f IH]; intros n before L; [lia|]. cbn [raw_lookup_rec].
    destruct (dict_get (m_types m) n); [discriminate|].
    destruct (find _ (aliases_to_try m n)) as [a|] eqn:F; [|discriminate].
    apply IH. unfold measure in *. pose proof (in_universe _ _ _ _ F) as U.
    apply find_some in F. destruct F as [_ Na]. rewrite tried_snoc.
    destruct (tried_in a before) eqn:Ta; [discriminate|]. cbn [orb].
    destruct (tried_in n before) eqn:Tn.
    - pose proof (left_step_le m before n).
      destruct (String.eqb_spec a n) as [->|_]; [congruence|]. lia.
    - apply tried_in_false in Tn. pose proof (left_step_lt m before n U Tn). destruct (String.eqb a n); lia.
  Qed.

  Lemma filter_length_le {A} (f : A -> bool) l : length (filter f l) <= length l.
  Proof. induction l as [|x r IH]; [reflexivity|]. cbn [filter]. destruct (f x); cbn [length]; lia. Qed.

  Lemma raw_errors m fuel : forall n before e, raw_lookup_rec fuel m n before = Err e -> e = OutOfFuel.
  Proof.
    induction fuel as [|f IH]; intros n before e E; cbn [raw_lookup_rec] in E; [congruence|].
    destruct (dict_get (m_types m) n); [discriminate|]. destruct (find _ _); [eauto|discriminate].
  Qed.

  Lemma raw_total m n : exists x, raw_lookup m n = Ok x.
  Proof.
    destruct (raw_lookup m n) as [x|e] eqn:E; [eauto|]. exfalso. unfold raw_lookup in E.
    pose proof (raw_errors _ _ _ _ _ E); subst e. revert E. apply raw_terminates.
    unfold measure, lookup_fuel, left_over. change (tried_in n []) with false.
    pose proof (filter_length_le (fun a => negb (tried_in a [])) (universe m)) as L.
    assert (LU : length (universe m) = length (m_aliases m) + length (m_aliases_rev m)).
    { unfold universe. now rewrite app_length, !map_length. }
    change (if false then 1 else 0) with 0. lia.
  Qed.

  Lemma raw_resolves h n x : raw_lookup (M0 h) n = Ok x <-> resolves h n x.
  Proof.
    split.
    - intros E. apply raw_sound in E. exact E.
    - intros (p & P & ->). destruct (raw_total (M0 h) n) as [y E]. rewrite E. f_equal.
      apply raw_sound in E. destruct E as (q & Q & ->). now rewrite (tries_det _ _ _ _ P _ Q).
  Qed.
  Lemma resolves_det h n x y : resolves h n x -> resolves h n y -> x = y.
  Proof. rewrite <- !raw_resolves. congruence. Qed.

  (** No link is followed twice. *)
  Lemma tries_fresh h before n p : tries h before n p ->
    exists r, p = n :: r /\ forall a i, nth_error r i = Some a -> ~ In a (firstn i p) /\ ~ In a before.
  Proof.
    induction 1 as [before n x F|before n F N|before n a p F N P IH].
    - exists []. split; [reflexivity|]. intros a [|i]; discriminate.
    - exists []. split; [reflexivity|]. intros a [|i]; discriminate.
    - exists p. split; [reflexivity|]. destruct IH as (r & -> & IH). intros b i E.
      assert (NA : ~ In a before) by (inversion N; assumption).
      destruct i as [|i]; cbn [nth_error] in E; cbn [firstn].
      + injection E as <-. split; [intros []|exact NA].
      + destruct (IH _ _ E) as [I1 I2]. rewrite in_app_iff in I2.
        split; [|tauto]. intros [->|I]; [apply I2; right; left; reflexivity|].
        destruct i as [|i]; [destruct I|]. cbn [firstn] in I, I1. tauto.
  Qed.

  Lemma nth_error_combine {A B} (l : list A) (l' : list B) i x y :
    nth_error (combine l l') i = Some (x, y) <-> nth_error l i = Some x /\ nth_error l' i = Some y.
  Proof.
    revert l' i. induction l as [|a l IH]; intros [|b l'] [|i]; cbn [combine nth_error]; try apply IH.
    all: try (split; [discriminate|intros [? ?]; discriminate]).
    split; [intros [= -> ->]; auto|intros [[= ->] [= ->]]; reflexivity].
  Qed.

  Lemma links_once h n p : tries h [] n p -> NoDup (combine p (tl p)).
  Proof.
    intros P. destruct (tries_fresh _ _ _ _ P) as (r & -> & F). cbn [tl].
    apply NoDup_nth_error. intros i j Li E. 
    assert (Main : forall i j x y, i < j -> nth_error (combine (n :: r) r) i = Some (x, y) -> nth_error (combine (n :: r) r) j = Some (x, y) -> False).
    { clear i j Li E. intros i j x y L Ei Ej. apply nth_error_combine in Ei, Ej. destruct Ei as [Xi Yi], Ej as [Xj Yj].
      destruct (F _ _ Yj) as [Fj _].
      assert (IN : forall k, k < j -> nth_error (n :: r) k = Some y -> False).
      { intros k Lk Ek. apply Fj. rewrite <- (firstn_skipn j (n :: r)) in Ek.
        rewrite nth_error_app1 in Ek; [now apply nth_error_In in Ek|].
        rewrite firstn_length. assert (k < length (n :: r)) by (apply nth_error_Some; rewrite firstn_skipn in Ek; congruence). lia. }
      destruct (Nat.eq_dec (S i) j) as [<-|Nj].
      - cbn [nth_error] in Xj. assert (x = y) by congruence. subst y. apply (IN i); [lia|exact Xi].
      - apply (IN (S i)); [lia|exact Yi]. }
    destruct (nth_error (combine (n :: r) r) i) as [[x y]|] eqn:Ei; [|apply nth_error_None in Ei; lia].
    symmetry in E. destruct (Nat.lt_total i j) as [L|[L|L]]; [exfalso; eapply Main; eassumption|exact L|exfalso; eapply Main with (i := j) (j := i); eassumption].
  Qed.

  (** ** Chains of typedefs *)
  Lemma chain_tries h x : forall p n before,
    NoDup (p ++ before) -> hd_error p = Some n ->
    (forall i a b, nth_error p i = Some a -> nth_error p (S i) = Some b -> handler_of h a = None /\ original_of h a = Some b) ->
    handler_of h (last p n) = Some x -> tries h before n p.
  Proof.
    induction p as [|a p IH]; intros n before ND HD C L; [discriminate|]. cbn [hd_error] in HD. injection HD as ->.
    destruct p as [|b p].
    - eapply tries_found. exact L.
    - destruct (C 0 n b eq_refl eq_refl) as [F O].
      eapply tries_next; [exact F| |].
      + apply next_original; [exact O|]. cbn [app] in ND. inversion ND as [|? ? _ ND2]; subst.
        inversion ND2 as [|? ? NI _]; subst. rewrite in_app_iff in NI. tauto.
      + apply IH; [|reflexivity| |].
        * cbn [app] in ND |- *. rewrite app_assoc. change (b :: (p ++ before) ++ [n]) with ((b :: p ++ before) ++ [n]).
          apply NoDup_Add with (a := n) (l := b :: p ++ before); [|].
          { clear. rewrite <- (app_nil_r (b :: p ++ before)) at 1. apply Add_app. }
          { inversion ND; subst. split; assumption. }
        * intros i c d Ei Ej. apply (C (S i)); assumption.
        * rewrite <- L; f_equal; apply (last_indep (b :: p)); discriminate.
  Qed.

  (** ** Lookup *)
  Lemma lookup_unfold h s : lookup u (M0 h) s =
    match parse_type s with
    | Err e => Raised e
    | Ok l =>
        match raw_lookup (M0 h) (str_ctype (plain l)) with
        | Err e => Raised e
        | Ok (Some x) => match type_traits s with Ok t => Found x None t | Err e => Raised e end
        | Ok None => try_transformations u (M0 h) s (transformations_of h) [str_ctype (plain l)]
        end
    end.
  Proof.
    unfold lookup. pose proof (traits_parse s) as P. destruct (parse_type s) as [l|e].
    - destruct P as (t & -> & _ & ->). rewrite remove_plain. unfold M0 at 3. rewrite transf_run. reflexivity.
    - rewrite P. reflexivity.
  Qed.

  Lemma key_traits v k : key v k <-> exists t, type_traits v = Ok t /\ k = str_ctype (tt_no_modifiers t).
  Proof.
    unfold key. pose proof (traits_parse v) as P. split.
    - intros (l & E & ->). rewrite E in P. destruct P as (t & E' & _ & R). exists t. rewrite R, remove_plain. auto.
    - intros (t & E & ->). destruct (parse_type v) as [l|]; [|congruence]. destruct P as (t' & E' & _ & R).
      exists l. split; [reflexivity|]. assert (t' = t) by congruence. subst. now rewrite R, remove_plain.
  Qed.
  Lemma key_det v k k' : key v k -> key v k' -> k = k'.
  Proof. intros (l & E & ->) (l' & E' & ->). congruence. Qed.

  Lemma attempt_det h s t a b a' b' : attempt u h s t a b -> attempt u h s t a' b' -> a = a' /\ b = b'.
  Proof.
    intros [U|v k x U K R]; intros [U'|v' k' x' U' K' R']; try congruence; [auto|].
    assert (v' = v) by congruence. subst v'. assert (k' = k) by (eapply key_det; eassumption). subst. split; [reflexivity|].
    eapply resolves_det; eassumption.
  Qed.

  Definition tried_keys (l : list (option string)) : list string := flat_map (fun o => match o with Some k => [k] | None => [] end) l.

  (** The first transformation leading to a handler. *)
  Lemma try_found h s ts : forall tried x t tr, try_transformations u (M0 h) s ts tried = Found x t tr <->
    exists pre t0 post v, ts = pre ++ t0 :: post /\ t = Some t0 /\
      Forall (fun t' => exists k, attempt u h s t' k None) pre /\
      u t0 s = Ok (Some v) /\ type_traits v = Ok tr /\ resolves h (str_ctype (tt_no_modifiers tr)) (Some x).
  Proof.
    induction ts as [|t0 r IH]; intros tried x t tr; cbn [try_transformations].
    - split; [discriminate|]. intros (pre & ? & post & ? & E & _). destruct pre; discriminate.
    - assert (Skip : forall k, attempt u h s t0 k None -> forall tried', 
        (try_transformations u (M0 h) s r tried' = Found x t tr <->
         exists pre t1 post v, t0 :: r = pre ++ t1 :: post /\ t = Some t1 /\
         Forall (fun t' => exists k, attempt u h s t' k None) pre /\
         u t1 s = Ok (Some v) /\ type_traits v = Ok tr /\ resolves h (str_ctype (tt_no_modifiers tr)) (Some x))).
      { intros k A tried'. rewrite IH. split.
        - intros (pre & t1 & post & v & -> & ET & F & R). exists (t0 :: pre), t1, post, v. split; [reflexivity|].
          split; [exact ET|]. split; [constructor; eauto|exact R].
        - intros (pre & t1 & post & v & E & ET & F & U & TR & R). destruct pre as [|t2 pre].
          + exfalso. cbn in E. injection E as -> ->. 
            assert (A' : attempt u h s t1 (Some (str_ctype (tt_no_modifiers tr))) (Some x)).
            { eapply att_try; [exact U|apply key_traits; eauto|exact R]. }
            pose proof (attempt_det _ _ _ _ _ _ _ A A') as [_ ?]. discriminate.
          + cbn in E. injection E as -> ->. exists pre, t1, post, v. inversion F; subst. auto 6. }
      destruct (u t0 s) as [[v|]|e] eqn:U.
      + destruct (type_traits v) as [tr0|e] eqn:TV.
        * destruct (raw_lookup (M0 h) (str_ctype (tt_no_modifiers tr0))) as [[y|]|e] eqn:R.
          -- split.
             ++ intros E. exists [], t0, r, v. apply raw_resolves in R.
                assert (x = y /\ t = Some t0 /\ tr = tr0) as (-> & -> & ->) by (split; [congruence|split; congruence]).
                auto 7.
             ++ intros (pre & t1 & post & v1 & E & -> & F & U1 & TR & RS). destruct pre as [|t2 pre].
                ** cbn in E. injection E as -> ->. assert (v1 = v) by congruence. subst v1.
                   assert (tr0 = tr) by congruence. subst tr0. apply raw_resolves in RS. congruence.
                ** exfalso. cbn in E. injection E as <- ->. inversion F as [|? ? [k A] _]; subst.
                   apply raw_resolves in R. assert (A' : attempt u h s t0 (Some (str_ctype (tt_no_modifiers tr0))) (Some y)).
                   { eapply att_try; [exact U|apply key_traits; eauto|exact R]. }
                   pose proof (attempt_det _ _ _ _ _ _ _ A A') as [_ ?]. discriminate.
          -- apply (Skip (Some (str_ctype (tt_no_modifiers tr0)))). apply raw_resolves in R.
             eapply att_try; [exact U|apply key_traits; eauto|exact R].
          -- exfalso. destruct (raw_total (M0 h) (str_ctype (tt_no_modifiers tr0))). congruence.
        * split; [discriminate|]. intros (pre & t1 & post & v1 & E & -> & F & U1 & TR & RS). destruct pre as [|t2 pre].
          -- cbn in E. injection E as -> ->. congruence.
          -- cbn in E. injection E as <- ->. inversion F as [|? ? [k A] _]; subst. exfalso.
             inversion A as [U0|v' k' x' U' K' R']; subst; [congruence|]. assert (v' = v) by congruence. subst.
             apply key_traits in K'. destruct K' as (? & ? & _). congruence.
      + apply (Skip None). now apply att_no.
      + split; [discriminate|]. intros (pre & t1 & post & v1 & E & -> & F & U1 & TR & RS). destruct pre as [|t2 pre].
        -- cbn in E. injection E as -> ->. congruence.
        -- cbn in E. injection E as <- ->. inversion F as [|? ? [k A] _]; subst. exfalso.
           inversion A; congruence.
  Qed.

  Lemma try_not_found h s ts : forall tried tried', try_transformations u (M0 h) s ts tried = NotFound tried' <->
    exists ks, Forall2 (fun t k => attempt u h s t k None) ts ks /\ tried' = tried ++ tried_keys ks.
  Proof.
    induction ts as [|t0 r IH]; intros tried tried'; cbn [try_transformations].
    - split.
      + intros [= <-]. exists []. split; [constructor|]. now rewrite app_nil_r.
      + intros (ks & F & ->). inversion F; subst. now rewrite app_nil_r.
    - destruct (u t0 s) as [[v|]|e] eqn:U.
      + destruct (type_traits v) as [tr0|e] eqn:TV.
        * destruct (raw_lookup (M0 h) (str_ctype (tt_no_modifiers tr0))) as [[y|]|e] eqn:R.
          -- split; [discriminate|]. intros (ks & F & _). inversion F as [|? k ? ? A _]; subst. exfalso.
             apply raw_resolves in R. assert (A' : attempt u h s t0 (Some (str_ctype (tt_no_modifiers tr0))) (Some y)).
             { eapply att_try; [exact U|apply key_traits; eauto|exact R]. }
             pose proof (attempt_det _ _ _ _ _ _ _ A A') as [_ ?]. discriminate.
          -- apply raw_resolves in R. assert (A' : attempt u h s t0 (Some (str_ctype (tt_no_modifiers tr0))) None).
             { eapply att_try; [exact U|apply key_traits; eauto|exact R]. }
             rewrite IH. split.
             ++ intros (ks & F & ->). exists (Some (str_ctype (tt_no_modifiers tr0)) :: ks). split; [constructor; assumption|].
                unfold tried_keys. cbn [flat_map]. now rewrite <- app_assoc.
             ++ intros (ks & F & ->). inversion F as [|? k ? ks' A F']; subst. exists ks'. split; [exact F'|].
                pose proof (attempt_det _ _ _ _ _ _ _ A A') as [-> _]. unfold tried_keys. cbn [flat_map]. now rewrite <- app_assoc.
          -- exfalso. destruct (raw_total (M0 h) (str_ctype (tt_no_modifiers tr0))). congruence.
        * split; [discriminate|]. intros (ks & F & _). inversion F as [|? k ? ? A _]; subst. exfalso.
          inversion A as [U0|v' k' x' U' K' R']; subst; [congruence|]. assert (v' = v) by congruence. subst.
          apply key_traits in K'. destruct K' as (? & ? & _). congruence.
      + rewrite IH. assert (A' : attempt u h s t0 None None) by now apply att_no. split.
        * intros (ks & F & ->). exists (None :: ks). split; [constructor; assumption|reflexivity].
        * intros (ks & F & ->). inversion F as [|? k ? ks' A F']; subst. exists ks'. split; [exact F'|].
          pose proof (attempt_det _ _ _ _ _ _ _ A A') as [-> _]. reflexivity.
      + split; [discriminate|]. intros (ks & F & _). inversion F as [|? k ? ? A _]; subst. inversion A; congruence.
  Qed.

  (** ** The statements *)
  Lemma lookup_direct h s k x t : key s k -> type_traits s = Ok t ->
    (lookup u (M0 h) s = Found x None t <-> resolves h k (Some x)).
  Proof.
    intros (l & P & ->) TT. rewrite lookup_unfold, P, TT.
    destruct (raw_lookup (M0 h) (str_ctype (plain l))) as [[y|]|e] eqn:R.
    - apply raw_resolves in R. split.
      + intros [= <-]. exact R.
      + intros R'. pose proof (resolves_det _ _ _ _ R R'). congruence.
    - split.
      + intros E. apply try_found in E. destruct E as (? & ? & ? & ? & ? & ? & _). discriminate.
      + intros R'. apply raw_resolves in R'. congruence.
    - exfalso. destruct (raw_total (M0 h) (str_ctype (plain l))). congruence.
  Qed.

  Lemma lookup_transformed h s x t tr : lookup u (M0 h) s = Found x (Some t) tr <->
    exists k pre post v, key s k /\ resolves h k None /\ transformations_of h = pre ++ t :: post /\
      Forall (fun t' => exists k', attempt u h s t' k' None) pre /\
      u t s = Ok (Some v) /\ type_traits v = Ok tr /\ resolves h (str_ctype (tt_no_modifiers tr)) (Some x).
  Proof.
    rewrite lookup_unfold. destruct (parse_type s) as [l|e] eqn:P.
    2: { split; [discriminate|]. intros (k & ? & ? & ? & (l & E & _) & _). congruence. }
    assert (K : key s (str_ctype (plain l))) by (exists l; auto).
    destruct (raw_lookup (M0 h) (str_ctype (plain l))) as [[y|]|e] eqn:R.
    - split.
      + destruct (type_traits s); discriminate.
      + intros (k & ? & ? & ? & K' & R' & _). exfalso. pose proof (key_det _ _ _ K K'); subst k.
        apply raw_resolves in R'. congruence.
    - rewrite try_found. apply raw_resolves in R. split.
      + intros (pre & t0 & post & v & E & ET & F & U). injection ET as <-. exists (str_ctype (plain l)), pre, post, v. auto.
      + intros (k & pre & post & v & K' & _ & E & F & U). exists pre, t, post, v. auto.
    - exfalso. destruct (raw_total (M0 h) (str_ctype (plain l))). congruence.
  Qed.

  Lemma lookup_not_found h s tried : lookup u (M0 h) s = NotFound tried <->
    exists k ks, key s k /\ resolves h k None /\
      Forall2 (fun t k' => attempt u h s t k' None) (transformations_of h) ks /\ tried = k :: tried_keys ks.
  Proof.
    rewrite lookup_unfold. destruct (parse_type s) as [l|e] eqn:P.
    2: { split; [discriminate|]. intros (k & ? & (l & E & _) & _). congruence. }
    assert (K : key s (str_ctype (plain l))) by (exists l; auto).
    destruct (raw_lookup (M0 h) (str_ctype (plain l))) as [[y|]|e] eqn:R.
    - split.
      + destruct (type_traits s); discriminate.
      + intros (k & ? & K' & R' & _). exfalso. pose proof (key_det _ _ _ K K'); subst k.
        apply raw_resolves in R'. congruence.
    - rewrite try_not_found. apply raw_resolves in R. split.
      + intros (ks & F & ->). exists (str_ctype (plain l)), ks. auto.
      + intros (k & ks & K' & _ & F & ->). exists ks. pose proof (key_det _ _ _ K K'). subst. auto.
    - exfalso. destruct (raw_total (M0 h) (str_ctype (plain l))). congruence.
  Qed.

  Lemma try_raised h s ts : forall tried e, try_transformations u (M0 h) s ts tried = Raised e ->
    exists t, In t ts /\ (u t s = Err e \/ exists v, u t s = Ok (Some v) /\ parse_type v = Err e).
  Proof.
    induction ts as [|t0 r IH]; intros tried e; cbn [try_transformations]; [discriminate|].
    destruct (u t0 s) as [[v|]|e'] eqn:U.
    - pose proof (traits_parse v) as PV. destruct (parse_type v) as [l|e'] eqn:P.
      + destruct PV as (tr & -> & _). destruct (raw_lookup (M0 h) (str_ctype (tt_no_modifiers tr))) as [[y|]|e'] eqn:R; [discriminate| |].
        * intros E. destruct (IH _ _ E) as (t & I & D). exists t. split; [right; exact I|exact D].
        * exfalso. destruct (raw_total (M0 h) (str_ctype (tt_no_modifiers tr))). congruence.
      + rewrite PV. intros [= <-]. exists t0. split; [left; reflexivity|]. right. eauto.
    - intros E. destruct (IH _ _ E) as (t & I & D). exists t. split; [right; exact I|exact D].
    - intros [= <-]. exists t0. split; [left; reflexivity|]. left. exact U.
  Qed.

  Lemma lookup_raised h s e : lookup u (M0 h) s = Raised e ->
    parse_type s = Err e \/
    exists t, In t (transformations_of h) /\ (u t s = Err e \/ exists v, u t s = Ok (Some v) /\ parse_type v = Err e).
  Proof.
    rewrite lookup_unfold. pose proof (traits_parse s) as PS. destruct (parse_type s) as [l|e'] eqn:P; [|intros [= <-]; auto].
    destruct PS as (tr & -> & _). destruct (raw_lookup (M0 h) (str_ctype (plain l))) as [[y|]|e'] eqn:R; [discriminate| |].
    - intros E. right. eapply try_raised. exact E.
    - exfalso. destruct (raw_total (M0 h) (str_ctype (plain l))). congruence.
  Qed.

  Lemma lookup_terminates h s : (forall t, u t s <> Err OutOfFuel) -> lookup u (M0 h) s <> Raised OutOfFuel.
  Proof.
    intros N E. apply lookup_raised in E. destruct E as [E|(t & _ & [E|(v & _ & E)])].
    - now apply parse_type_no_fuel in E.
    - now apply N in E.
    - now apply parse_type_no_fuel in E.
  Qed.

  Lemma handler_of_app h1 h2 n : handler_of (h1 ++ h2) n =
    match handler_of h1 n with Some x => Some x | None => handler_of h2 n end.
  Proof.
    induction h1 as [|[name x|t|f t] r IH]; cbn [app handler_of]; try exact IH; [reflexivity|].
    destruct (spelled name n); [reflexivity|exact IH].
  Qed.

  Lemma register_spec h name n x : normalize_type_string name = Ok n ->
    register (M0 h) name x =
    match handler_of h n with
    | Some _ => Err ValueError
    | None => Ok (mk_matcher (dict_set (m_types (M0 h)) n x) (m_transformations (M0 h)) (m_aliases (M0 h)) (m_aliases_rev (M0 h)))
    end.
  Proof. intros E. unfold register. rewrite E. cbn [bind]. rewrite types_of. reflexivity. Qed.

  Lemma register_run h name x m : register (M0 h) name x = Ok m -> m = M0 (h ++ [MRegister name x]).
  Proof. intros E. unfold M0, mrun. rewrite fold_left_app. cbn [fold_left mstep]. fold (mrun (@matcher_init H T) h). fold (M0 h). now rewrite E. Qed.

  Lemma mrun_app h1 h2 : mrun (M0 h1) h2 = M0 (h1 ++ h2).
  Proof. unfold M0, mrun. now rewrite fold_left_app. Qed.

  Lemma found_later h1 h2 name l x s l' m1 : parse_type name = Ok l -> plain l = l ->
    register (M0 h1) name x = Ok m1 -> parse_type s = Ok l' -> plain l' = l ->
    exists t, type_traits s = Ok t /\ lookup u (mrun m1 h2) s = Found x None t.
  Proof.
    intros P Pl E PS PL. pose proof (traits_parse s) as TS. rewrite PS in TS. destruct TS as (t & TT & _).
    exists t. split; [exact TT|]. pose proof (register_run _ _ _ _ E) as ->. rewrite mrun_app.
    apply lookup_direct with (k := str_ctype l); [exists l'; rewrite PL; auto|exact TT|].
    assert (N : normalize_type_string name = Ok (str_ctype l)) by (unfold normalize_type_string; now rewrite P).
    rewrite (register_spec _ _ _ _ N) in E.
    assert (F : handler_of ((h1 ++ [MRegister name x]) ++ h2) (str_ctype l) = Some x).
    { rewrite !handler_of_app. destruct (handler_of h1 (str_ctype l)); [discriminate|]. cbn [handler_of]. unfold spelled.
      now rewrite N, String.eqb_refl. }
    exists [str_ctype l]. split; [eapply tries_found; exact F|]. cbn [last]. now rewrite F.
  Qed.

  Lemma registered_iff h n : handler_of h n <> None <-> exists name x, In (MRegister name x) h /\ normalize_type_string name = Ok n.
  Proof.
    induction h as [|o r IH]; cbn [handler_of].
    - split; [congruence|]. intros (? & ? & [] & _).
    - destruct o as [name x|t|f t].
      + unfold spelled. destruct (normalize_type_string name) as [k|e] eqn:N.
        * destruct (String.eqb_spec k n) as [->|NE].
          -- split; [|discriminate]. intros _. exists name, x. split; [left; reflexivity|exact N].
          -- rewrite IH. split; intros (a & b & I & E); exists a, b; (split; [|exact E]); [right; exact I|].
             destruct I as [I|I]; [congruence|exact I].
        * rewrite IH. split; intros (a & b & I & E); exists a, b; (split; [|exact E]); [right; exact I|].
          destruct I as [I|I]; [congruence|exact I].
      + rewrite IH. split; intros (a & b & I & E); exists a, b; (split; [|exact E]); [right; exact I|].
        destruct I as [I|I]; [congruence|exact I].
      + rewrite IH. split; intros (a & b & I & E); exists a, b; (split; [|exact E]); [right; exact I|].
        destruct I as [I|I]; [congruence|exact I].
  Qed.

  Lemma typedef_chain h s k p t x : key s k -> type_traits s = Ok t -> NoDup p -> hd_error p = Some k ->
    (forall i a b, nth_error p i = Some a -> nth_error p (S i) = Some b -> handler_of h a = None /\ original_of h a = Some b) ->
    handler_of h (last p k) = Some x -> lookup u (M0 h) s = Found x None t.
  Proof.
    intros K TT ND HD C L. apply (lookup_direct _ _ _ _ _ K TT). exists p. split; [|now rewrite L].
    eapply chain_tries; try eassumption. now rewrite app_nil_r.
  Qed.

  Lemma tries_exist h n : exists p, tries h [] n p /\ NoDup (combine p (tl p)).
  Proof.
    destruct (raw_total (M0 h) n) as [y E]. apply raw_sound in E. destruct E as (p & P & _). exists p. split; [exact P|].
    eapply links_once. exact P.
  Qed.

  Lemma respelled h1 h2 name l x ts s m1 : parse_type name = Ok l -> plain l = l -> register (M0 h1) name x = Ok m1 ->
    get_tokens (name ++ nl) = Ok ts -> respaced (map t_name ts) s ->
    exists t, type_traits s = Ok t /\ lookup u (mrun m1 h2) s = Found x None t.
  Proof.
    intros P PL E G R. eapply found_later; try eassumption.
    unfold parse_type in *. pose proof (respaced_parse _ _ _ G R) as Q. unfold parse_type in Q. rewrite Q. exact P.
  Qed.

  Lemma refused h name n x : normalize_type_string name = Ok n ->
    (register (M0 h) name x = Err ValueError <->
       exists name' x', In (MRegister name' x') h /\ normalize_type_string name' = Ok n) /\
    ((exists m, register (M0 h) name x = Ok m) <->
       ~ exists name' x', In (MRegister name' x') h /\ normalize_type_string name' = Ok n).
  Proof.
    intros E. rewrite (register_spec h name n x E), <- registered_iff. destruct (handler_of h n) as [y|].
    - split; split; try congruence; [intros [m ?]; discriminate|]. intros N. exfalso. apply N. discriminate.
    - split; split; try congruence; try discriminate. intros _. eexists. reflexivity.
  Qed.
End M.

(** Building handlers. *)
Lemma built_later (H T : Type) (u : T -> string -> res (option string)) h1 h2 name l (x : H) s l' m1 :
  parse_type name = Ok l -> plain l = l -> register (mrun matcher_init h1) name x = Ok m1 ->
  parse_type s = Ok l' -> plain l' = l ->
  exists t, type_traits s = Ok t /\ new_handler u (mrun m1 h2) s = ByHandler x t.
Proof.
  intros A B C D E. destruct (found_later u h1 h2 name l x s l' m1 A B C D E) as (t & Ht & L). exists t. split; [exact Ht|].
  unfold new_handler. now rewrite L.
Qed.
Lemma built_transformed (H T : Type) (u : T -> string -> res (option string)) h s (x : H) t k pre post v tr :
  key s k -> resolves h k None -> transformations_of h = pre ++ t :: post -> Forall (fun t' => exists k', attempt u h s t' k' None) pre ->
  u t s = Ok (Some v) -> type_traits v = Ok tr -> resolves h (str_ctype (tt_no_modifiers tr)) (Some x) ->
  new_handler u (mrun matcher_init h) s = ByTransformation t x s.
Proof.
  intros A B C D E F G. unfold new_handler. assert (L : lookup u (mrun matcher_init h) s = Found x (Some t) tr) by (apply lookup_transformed; exists k, pre, post, v; auto 10).
  now rewrite L.
Qed.
Lemma built_unknown (H T : Type) (u : T -> string -> res (option string)) (h : list (mop H T)) s k ks :
  key s k -> resolves h k None -> Forall2 (fun t k' => attempt u h s t k' None) (transformations_of h) ks ->
  new_handler u (mrun matcher_init h) s = NotBuilt TypeLookupError.
Proof.
  intros A B C. unfold new_handler.
  assert (L : lookup u (mrun matcher_init h) s = NotFound (k :: flat_map (fun o => match o with Some k' => [k'] | None => [] end) ks)) by (apply lookup_not_found; exists k, ks; auto).
  now rewrite L.
Qed.
