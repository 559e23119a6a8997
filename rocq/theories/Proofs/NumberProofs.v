(** Proofs about numeric operators. *)
From Verif.Model Require Import Py NumberOps.
From Verif.Spec Require Import NumberSpec.
From Verif.Proofs Require Import StrLemmas.
Open Scope string_scope.
Open Scope list_scope.

(** ** First match *)
Section FirstFit.
  Context {A B : Type}.
  Variable f : A -> option B.
  Fixpoint ff (l : list A) : option B := match l with [] => None | x :: r => match f x with Some b => Some b | None => ff r end end.
  Lemma ff_app l l' : ff (l ++ l') = match ff l with Some b => Some b | None => ff l' end.
  Proof. induction l as [|x r IH]; cbn; [reflexivity|]. destruct (f x); [reflexivity | exact IH]. Qed.
  Lemma ff_twice l : ff (l ++ l) = ff l.
  Proof. rewrite ff_app. destruct (ff l); reflexivity. Qed.
  Lemma ff_none l : ff l = None -> forall x, In x l -> f x = None.
  Proof.
    induction l as [|y r IH]; cbn; intros N x I; [contradiction|].
    destruct (f y) eqn:F; [discriminate|]. destruct I as [<-|I]; [exact F | exact (IH N x I)].
  Qed.
  Lemma ff_some l b : ff l = Some b -> exists before x after, l = before ++ x :: after /\ f x = Some b /\ forall y, In y before -> f y = None.
  Proof.
    induction l as [|y r IH]; cbn; intros N; [discriminate|].
    destruct (f y) eqn:F.
    - exists [], y, r. split; [reflexivity|]. split; [congruence|]. intros z [].
    - destruct (IH N) as (p & x & q & E & G & H). exists (y :: p), x, q. split; [cbn; congruence|]. split; [exact G|].
      intros z [<-|I]; [exact F | exact (H z I)].
  Qed.
  Variable same : A -> A -> bool.
  Hypothesis same_eq : forall x y, same x y = true -> x = y.
  Definition add_new (l : list A) (g : A) : list A := if existsb (same g) l then l else l ++ [g].
  Definition dedup (l : list A) : list A := fold_left add_new l [].
  Lemma ff_dedup_from l : forall acc, ff (fold_left add_new l acc) = ff (acc ++ l).
  Proof.
    induction l as [|g r IH]; intros acc; cbn [fold_left].
    - rewrite app_nil_r. reflexivity.
    - rewrite IH. unfold add_new. destruct (existsb (same g) acc) eqn:X.
      + apply existsb_exists in X. destruct X as (g' & I & E). apply same_eq in E. subst g'.
        rewrite !ff_app. destruct (ff acc) eqn:N; [reflexivity|]. cbn [ff]. rewrite (ff_none _ N g I). reflexivity.
      + rewrite <- app_assoc. reflexivity.
  Qed.
  Lemma ff_dedup l : ff (dedup l) = ff l.
  Proof. exact (ff_dedup_from l []). Qed.
  Lemma dedup_snoc l g : dedup (l ++ [g]) = add_new (dedup l) g.
  Proof. unfold dedup. rewrite fold_left_app. reflexivity. Qed.
End FirstFit.

Lemma same_sig_eq x y : same_sig x y = true -> x = y.
Proof.
  destruct x as [a b o], y as [a' b' o']. unfold same_sig. cbn [g_result g_left g_right]. intros H.
  apply andb_prop in H. destruct H as [H O]. apply andb_prop in H. destruct H as [X Y].
  apply Nat.eqb_eq in X, Y. subst. destruct o as [c|i], o' as [d|j]; cbn in O; try discriminate; apply Nat.eqb_eq in O; subst; reflexivity.
Qed.
Definition same_pair (g x : cls * cls) : bool := Nat.eqb (fst g) (fst x) && Nat.eqb (snd g) (snd x).
Lemma same_pair_eq x y : same_pair x y = true -> x = y.
Proof.
  destruct x as [a b], y as [c d]. unfold same_pair. cbn. intros H. apply andb_prop in H. destruct H as [X Y].
  apply Nat.eqb_eq in X, Y. subst. reflexivity.
Qed.

(** ** Registration *)
Lemma run_calls_app l : forall w l', run_calls w (l ++ l') = run_calls (run_calls w l) l'.
Proof. induction l as [|x r IH]; intros w l'; [reflexivity|]. cbn [run_calls app]. apply IH. Qed.
Lemma declared_snoc h x : declared (h ++ [x]) = fst (run_call (declared h) x).
Proof. unfold declared. rewrite run_calls_app. reflexivity. Qed.

Definition binary_ops : list string := ["+"; "-"; "*"; "/"].
Definition inplace_ops : list string := ["+="; "-="; "*="; "/="].
Lemma valid_in op l : existsb (String.eqb op) l = true <-> In op l.
Proof.
  rewrite existsb_exists. split.
  - intros (x & I & E). apply String.eqb_eq in E. subst. exact I.
  - intros I. exists op. split; [exact I | apply String.eqb_refl].
Qed.
Lemma set_get w c k d : set_class w c k d = if Nat.eqb d c then k else w d.
Proof. reflexivity. Qed.
Lemma get_set {V} (d : dict V) k k' v : dict_get (dict_set d k v) k' = if String.eqb k k' then Some v else dict_get d k'.
Proof.
  destruct (String.eqb k k') eqn:E.
  - apply String.eqb_eq in E. subst. apply dict_get_set_same.
  - apply String.eqb_neq in E. apply dict_get_set_other. congruence.
Qed.
Lemma set_not_nil {V} (d : dict V) k v : dict_set d k v <> [].
Proof. destruct d as [|[k' v'] r]; cbn; [discriminate|]. destruct (String.eqb k k'); discriminate. Qed.

Lemma names_binary_snoc h x c op : names_binary (h ++ [x]) c op = (names_binary h c op || names_binary [x] c op)%bool.
Proof. unfold names_binary. apply existsb_app. Qed.
Lemma names_inplace_snoc h x c op : names_inplace (h ++ [x]) c op = (names_inplace h c op || names_inplace [x] c op)%bool.
Proof. unfold names_inplace. apply existsb_app. Qed.
Lemma names_unary_snoc h x c op : names_unary (h ++ [x]) c op = (names_unary h c op || names_unary [x] c op)%bool.
Proof. unfold names_unary. apply existsb_app. Qed.
Lemma asked_binary_snoc h x c op : asked_binary (h ++ [x]) c op = asked_binary h c op ++ asked_binary [x] c op.
Proof. unfold asked_binary. apply flat_map_app. Qed.
Lemma asked_inplace_snoc h x c op : asked_inplace (h ++ [x]) c op = asked_inplace h c op ++ asked_inplace [x] c op.
Proof. unfold asked_inplace. apply flat_map_app. Qed.
Lemma asked_unary_snoc h x c op : asked_unary (h ++ [x]) c op = asked_unary h c op ++ asked_unary [x] c op.
Proof. unfold asked_unary. apply flat_map_app. Qed.

Lemma not_named_binary h c op : names_binary h c op = false -> asked_binary h c op = [].
Proof.
  induction h as [|x r IH]; [reflexivity|]. unfold names_binary, asked_binary. cbn. intros H. apply orb_false_elim in H. destruct H as [X Y].
  change (names_binary r c op = false) in Y. apply IH in Y. unfold asked_binary in Y. rewrite Y.
  destruct x as [d o re l a | d o a | d o re l]; try reflexivity. rewrite X. reflexivity.
Qed.
Lemma not_named_inplace h c op : names_inplace h c op = false -> asked_inplace h c op = [].
Proof.
  induction h as [|x r IH]; [reflexivity|]. unfold names_inplace, asked_inplace. cbn. intros H. apply orb_false_elim in H. destruct H as [X Y].
  change (names_inplace r c op = false) in Y. apply IH in Y. unfold asked_inplace in Y. rewrite Y.
  destruct x as [d o re l a | d o a | d o re l]; try reflexivity. rewrite X. reflexivity.
Qed.
Lemma not_named_unary h c op : names_unary h c op = false -> asked_unary h c op = [].
Proof.
  induction h as [|x r IH]; [reflexivity|]. unfold names_unary, asked_unary. cbn. intros H. apply orb_false_elim in H. destruct H as [X Y].
  change (names_unary r c op = false) in Y. apply IH in Y. unfold asked_unary in Y. rewrite Y.
  destruct x as [d o re l a | d o a | d o re l]; try reflexivity. rewrite X. reflexivity.
Qed.

Lemma binary_call w c op r l a d o : In o binary_ops ->
  dict_get (k_binary (fst (add_binary w c op r l a) d)) o =
    if (Nat.eqb c d && String.eqb op o)%bool
    then Some (fold_left (add_new same_sig) (map (mk_sig (or_self d r) (or_self d l)) (operand d a)) (entry (k_binary (w d)) o))
    else dict_get (k_binary (w d)) o.
Proof.
  intros I. unfold add_binary.
  destruct (existsb (String.eqb op) ["+"; "-"; "*"; "/"]) eqn:V.
  - destruct a as [|e|i|e]; cbn [fst operand map fold_left]; [| | |destruct e; cbn [fst]];
      rewrite set_get; destruct (Nat.eqb d c) eqn:E; cbn [k_binary];
      (rewrite (Nat.eqb_sym c d), E; cbn [andb]; try reflexivity);
      apply Nat.eqb_eq in E; subst d; rewrite get_set; destruct (String.eqb op o) eqn:F; try reflexivity;
      apply String.eqb_eq in F; subst o; reflexivity.
  - cbn [fst]. destruct (Nat.eqb c d && String.eqb op o)%bool eqn:X; [|reflexivity].
    apply andb_prop in X. destruct X as [_ X]. apply String.eqb_eq in X. subst o.
    apply (valid_in op binary_ops) in I. unfold binary_ops in I. congruence.
Qed.
Lemma inplace_call w c op a d o : In o inplace_ops ->
  dict_get (k_inplace (fst (add_inplace w c op a) d)) o =
    if (Nat.eqb c d && String.eqb op o)%bool
    then Some (entry (k_inplace (w d)) o ++ match a with RightClass _ => [] | _ => map (mk_sig d d) (operand d a) end)
    else dict_get (k_inplace (w d)) o.
Proof.
  intros I. unfold add_inplace.
  destruct (existsb (String.eqb op) ["+="; "-="; "*="; "/="]) eqn:V.
  - destruct a as [|e|i|e]; cbn [fst operand map]; [| | |destruct e; cbn [fst]];
      rewrite ?app_nil_r, set_get; destruct (Nat.eqb d c) eqn:E; cbn [k_inplace];
      (rewrite (Nat.eqb_sym c d), E; cbn [andb]; try reflexivity);
      apply Nat.eqb_eq in E; subst d; rewrite get_set; destruct (String.eqb op o) eqn:F; try reflexivity;
      apply String.eqb_eq in F; subst o; reflexivity.
  - cbn [fst]. destruct (Nat.eqb c d && String.eqb op o)%bool eqn:X; [|reflexivity].
    apply andb_prop in X. destruct X as [_ X]. apply String.eqb_eq in X. subst o.
    apply (valid_in op inplace_ops) in I. unfold inplace_ops in I. congruence.
Qed.
Lemma unary_call w c op r l d : 
  dict_get (k_unary (fst (add_unary w c op r l) d)) "-" =
    if (Nat.eqb c d && String.eqb op "-")%bool
    then Some (add_new same_pair (entry (k_unary (w d)) "-") (or_self d r, or_self d l))
    else dict_get (k_unary (w d)) "-".
Proof.
  unfold add_unary. cbn [existsb]. rewrite orb_false_r. destruct (String.eqb op "-") eqn:V; [|rewrite andb_false_r; reflexivity].
  cbn [fst]. rewrite set_get, (Nat.eqb_sym c d). destruct (Nat.eqb d c) eqn:E; cbn [andb k_unary]; [|reflexivity].
  apply Nat.eqb_eq in E. apply String.eqb_eq in V. subst. rewrite get_set. reflexivity.
Qed.
(** Calls of one kind leave the others alone. *)
Lemma binary_keeps w c op r l a d : k_inplace (fst (add_binary w c op r l a) d) = k_inplace (w d) /\ k_unary (fst (add_binary w c op r l a) d) = k_unary (w d).
Proof.
  unfold add_binary. destruct (existsb _ _); [|split; reflexivity].
  destruct a as [|e|i|e]; cbn [fst]; [| | |destruct e; cbn [fst]]; rewrite set_get; destruct (Nat.eqb d c) eqn:E;
    try (split; reflexivity); apply Nat.eqb_eq in E; subst; split; reflexivity.
Qed.
Lemma inplace_keeps w c op a d : k_binary (fst (add_inplace w c op a) d) = k_binary (w d) /\ k_unary (fst (add_inplace w c op a) d) = k_unary (w d).
Proof.
  unfold add_inplace. destruct (existsb _ _); [|split; reflexivity].
  destruct a as [|e|i|e]; cbn [fst]; [| | |destruct e; cbn [fst]]; rewrite set_get; destruct (Nat.eqb d c) eqn:E;
    try (split; reflexivity); apply Nat.eqb_eq in E; subst; split; reflexivity.
Qed.
Lemma unary_keeps w c op r l d : k_binary (fst (add_unary w c op r l) d) = k_binary (w d) /\ k_inplace (fst (add_unary w c op r l) d) = k_inplace (w d).
Proof.
  unfold add_unary. destruct (existsb _ _); [|split; reflexivity].
  cbn [fst]; rewrite set_get; destruct (Nat.eqb d c) eqn:E;
    try (split; reflexivity); apply Nat.eqb_eq in E; subst; split; reflexivity.
Qed.

Lemma binary_table h c op : In op binary_ops ->
  dict_get (k_binary (declared h c)) op = if names_binary h c op then Some (dedup same_sig (asked_binary h c op)) else None.
Proof.
  intros I. induction h as [|x h IH] using rev_ind; [reflexivity|].
  rewrite declared_snoc, names_binary_snoc, asked_binary_snoc.
  destruct x as [d o r l a | d o a | d o r l]; cbn [run_call].
  - rewrite binary_call by exact I. unfold names_binary at 2, asked_binary at 2. cbn [existsb flat_map]. rewrite orb_false_r, app_nil_r.
    destruct (Nat.eqb d c && String.eqb o op)%bool; [|rewrite orb_false_r, app_nil_r; exact IH].
    rewrite orb_true_r. f_equal. unfold dedup. rewrite fold_left_app. f_equal. unfold entry. rewrite IH.
    destruct (names_binary h c op) eqn:N; [reflexivity|]. rewrite (not_named_binary _ _ _ N). reflexivity.
  - rewrite (proj1 (inplace_keeps _ d o a c)). cbn. rewrite orb_false_r, app_nil_r. exact IH.
  - rewrite (proj1 (unary_keeps _ d o r l c)). cbn. rewrite orb_false_r, app_nil_r. exact IH.
Qed.
Lemma inplace_table h c op : In op inplace_ops ->
  dict_get (k_inplace (declared h c)) op = if names_inplace h c op then Some (asked_inplace h c op) else None.
Proof.
  intros I. induction h as [|x h IH] using rev_ind; [reflexivity|].
  rewrite declared_snoc, names_inplace_snoc, asked_inplace_snoc.
  destruct x as [d o r l a | d o a | d o r l]; cbn [run_call].
  - rewrite (proj1 (binary_keeps _ d o r l a c)). cbn. rewrite orb_false_r, app_nil_r. exact IH.
  - rewrite inplace_call by exact I. unfold names_inplace at 2, asked_inplace at 2. cbn [existsb flat_map]. rewrite orb_false_r, app_nil_r.
    destruct (Nat.eqb d c && String.eqb o op)%bool; [|rewrite orb_false_r, app_nil_r; exact IH].
    rewrite orb_true_r. f_equal. f_equal. unfold entry. rewrite IH.
    destruct (names_inplace h c op) eqn:N; [reflexivity|]. rewrite (not_named_inplace _ _ _ N). reflexivity.
  - rewrite (proj2 (unary_keeps _ d o r l c)). cbn. rewrite orb_false_r, app_nil_r. exact IH.
Qed.
Lemma unary_table h c :
  dict_get (k_unary (declared h c)) "-" = if names_unary h c "-" then Some (dedup same_pair (asked_unary h c "-")) else None.
Proof.
  induction h as [|x h IH] using rev_ind; [reflexivity|].
  rewrite declared_snoc, names_unary_snoc, asked_unary_snoc.
  destruct x as [d o r l a | d o a | d o r l]; cbn [run_call].
  - rewrite (proj2 (binary_keeps _ d o r l a c)). cbn. rewrite orb_false_r, app_nil_r. exact IH.
  - rewrite (proj2 (inplace_keeps _ d o a c)). cbn. rewrite orb_false_r, app_nil_r. exact IH.
  - rewrite unary_call. unfold names_unary at 2, asked_unary at 2. cbn [existsb flat_map]. rewrite orb_false_r, app_nil_r.
    destruct (Nat.eqb d c && String.eqb o "-")%bool; [|rewrite orb_false_r, app_nil_r; exact IH].
    rewrite orb_true_r. f_equal. rewrite dedup_snoc. f_equal. unfold entry. rewrite IH.
    destruct (names_unary h c "-") eqn:N; [reflexivity|]. rewrite (not_named_unary _ _ _ N). reflexivity.
Qed.
(** Only valid operators get an entry. *)
Lemma dict_set_keys {V} (d : dict V) k v x : In x (map fst (dict_set d k v)) -> x = k \/ In x (map fst d).
Proof.
  induction d as [|[k' v'] r IH]; cbn; [intuition|].
  destruct (String.eqb k k') eqn:E; cbn; [apply String.eqb_eq in E; subst; intuition|]. intros [H|H]; [intuition|]. destruct (IH H); intuition.
Qed.
Lemma tables_valid h c : (forall op, In op (map fst (k_binary (declared h c))) -> In op binary_ops) /\
  (forall op, In op (map fst (k_inplace (declared h c))) -> In op inplace_ops).
Proof.
  induction h as [|x h [IB II]] using rev_ind; [split; intros op []|].
  rewrite declared_snoc. destruct x as [d o r l a | d o a | d o r l]; cbn [run_call].
  - rewrite (proj1 (binary_keeps _ d o r l a c)). split; [|exact II]. intros op.
    unfold add_binary. destruct (existsb (String.eqb o) ["+"; "-"; "*"; "/"]) eqn:V; [|exact (IB op)].
    apply (valid_in o binary_ops) in V.
    destruct a as [|e|i|e]; cbn [fst]; [| | |destruct e; cbn [fst]]; rewrite set_get; (destruct (Nat.eqb c d) eqn:E; [|exact (IB op)]);
      apply Nat.eqb_eq in E; subst d; cbn [k_binary]; intros H; apply dict_set_keys in H; (destruct H as [->|H]; [exact V | exact (IB op H)]).
  - rewrite (proj1 (inplace_keeps _ d o a c)). split; [exact IB|]. intros op.
    unfold add_inplace. destruct (existsb (String.eqb o) ["+="; "-="; "*="; "/="]) eqn:V; [|exact (II op)].
    apply (valid_in o inplace_ops) in V.
    destruct a as [|e|i|e]; cbn [fst]; [| | |destruct e; cbn [fst]]; rewrite set_get; (destruct (Nat.eqb c d) eqn:E; [|exact (II op)]);
      apply Nat.eqb_eq in E; subst d; cbn [k_inplace]; intros H; apply dict_set_keys in H; (destruct H as [->|H]; [exact V | exact (II op H)]).
  - rewrite (proj1 (unary_keeps _ d o r l c)), (proj2 (unary_keeps _ d o r l c)). split; assumption.
Qed.
Lemma get_key {V} (d : dict V) k v : dict_get d k = Some v -> In k (map fst d).
Proof.
  induction d as [|[k' v'] r IH]; cbn; [discriminate|]. destruct (String.eqb k k') eqn:E; [apply String.eqb_eq in E; subst; intros _; left; reflexivity|].
  intros H. right. exact (IH H).
Qed.
Lemma head_get {V} (d : dict V) k v r : d = (k, v) :: r -> dict_get d k = Some v.
Proof. intros ->. cbn. rewrite String.eqb_refl. reflexivity. Qed.
Lemma binary_empty h c : k_binary (declared h c) = [] <-> existsb (fun op => names_binary h c op) binary_ops = false.
Proof.
  split.
  - intros E. destruct (existsb _ _) eqn:X; [|reflexivity]. apply existsb_exists in X. destruct X as (op & I & N).
    pose proof (binary_table h c op I) as T. rewrite N, E in T. discriminate T.
  - intros X. destruct (k_binary (declared h c)) as [|[k v] r] eqn:E; [reflexivity|].
    assert (I : In k binary_ops) by (apply (proj1 (tables_valid h c)); rewrite E; left; reflexivity).
    pose proof (binary_table h c k I) as T. rewrite (head_get _ _ _ _ E) in T.
    destruct (names_binary h c k) eqn:N; [|discriminate T].
    assert (X' : existsb (fun op => names_binary h c op) binary_ops = true) by (apply existsb_exists; exists k; split; assumption).
    congruence.
Qed.
Lemma inplace_empty h c : k_inplace (declared h c) = [] <-> existsb (fun op => names_inplace h c op) inplace_ops = false.
Proof.
  split.
  - intros E. destruct (existsb _ _) eqn:X; [|reflexivity]. apply existsb_exists in X. destruct X as (op & I & N).
    pose proof (inplace_table h c op I) as T. rewrite N, E in T. discriminate T.
  - intros X. destruct (k_inplace (declared h c)) as [|[k v] r] eqn:E; [reflexivity|].
    assert (I : In k inplace_ops) by (apply (proj2 (tables_valid h c)); rewrite E; left; reflexivity).
    pose proof (inplace_table h c k I) as T. rewrite (head_get _ _ _ _ E) in T.
    destruct (names_inplace h c k) eqn:N; [|discriminate T].
    assert (X' : existsb (fun op => names_inplace h c op) inplace_ops = true) by (apply existsb_exists; exists k; split; assumption).
    congruence.
Qed.

(** ** The members of the structure *)
Definition code (op : string) (l : list signature) : list stmt := map (binary_block op) l ++ [ReturnNotImplemented].
Definition unary_code (op : string) (l : list (cls * cls)) : list stmt := map (unary_block op) l ++ [ReturnNotImplemented].

Lemma get_app {V} (a b : dict V) k : dict_get (a ++ b) k = match dict_get a k with Some v => Some v | None => dict_get b k end.
Proof. induction a as [|[k' v'] r IH]; cbn; [reflexivity|]. destruct (String.eqb k k'); [reflexivity | exact IH]. Qed.
Lemma get_slots {V} (F : string -> option V) l : forall (d : dict V) key, NoDup (map snd l) ->
  dict_get (fold_left (fun d x => match F (fst x) with Some f => dict_set d (snd x) f | None => d end) l d) key =
  match find (fun x => String.eqb (snd x) key) l with
  | Some x => match F (fst x) with Some f => Some f | None => dict_get d key end
  | None => dict_get d key
  end.
Proof.
  induction l as [|[o n] r IH]; intros d key N; [reflexivity|].
  cbn [map snd] in N. apply NoDup_cons_iff in N. destruct N as [N N']. cbn [fold_left find fst snd].
  rewrite IH by exact N'. destruct (String.eqb n key) eqn:E.
  - apply String.eqb_eq in E. subst key.
    assert (X : find (fun x : string * string => String.eqb (snd x) n) r = None).
    { destruct (find _ r) as [[o' n']|] eqn:X; [|reflexivity]. apply find_some in X. destruct X as [X Y]. apply String.eqb_eq in Y. cbn in Y. subst n'.
      destruct N. apply in_map_iff. exists (o', n). split; [reflexivity | exact X]. }
    rewrite X. cbn [fst]. destruct (F o); [apply dict_get_set_same | reflexivity].
  - assert (X : dict_get match F o with Some f => dict_set d n f | None => d end key = dict_get d key).
    { destruct (F o); [|reflexivity]. rewrite get_set, E. reflexivity. }
    rewrite X. reflexivity.
Qed.
Lemma slots_nodup : NoDup (map snd binary_slots).
Proof. cbn. repeat (constructor; [cbn; intros H; repeat (destruct H as [H|H]; [discriminate H|]); exact H |]). constructor. Qed.

Lemma slot_found m : m <> MNegative -> find (fun x => String.eqb (snd x) (slot_name m)) binary_slots = Some (symbol m, slot_name m).
Proof. destruct m; intros N; try reflexivity. destruct N. reflexivity. Qed.
Lemma slots_member k m : m <> MNegative -> dict_get (slots_dict k) (slot_name m) = wrap_operator k (symbol m).
Proof.
  intros N. unfold slots_dict. rewrite get_app, get_slots by exact slots_nodup. rewrite (slot_found m N). cbn [fst dict_get].
  destruct (wrap_operator k (symbol m)); [reflexivity|].
  destruct (wrap_unary k "-") as [f|]; [|reflexivity]. cbn. destruct m; try reflexivity. destruct N. reflexivity.
Qed.
Lemma slots_negative k : dict_get (slots_dict k) (slot_name MNegative) = wrap_unary k "-".
Proof.
  unfold slots_dict. rewrite get_app, get_slots by exact slots_nodup. cbn. destruct (wrap_unary k "-"); reflexivity.
Qed.

Lemma binary_member h c m : is_binary m ->
  number_member (declared h c) m =
    if names_binary h c (symbol m) then Some (code (symbol m) (dedup same_sig (asked_binary h c (symbol m)))) else None.
Proof.
  intros B. assert (N : m <> MNegative) by (intros ->; repeat (destruct B as [B|B]; [discriminate B|]); exact B).
  assert (I : In (symbol m) binary_ops).
  { repeat (destruct B as [<-|B]; [cbn; tauto|]). destruct B. }
  assert (J : dict_get (k_inplace (declared h c)) (symbol m) = None).
  { destruct (dict_get (k_inplace (declared h c)) (symbol m)) eqn:X; [|reflexivity]. apply get_key in X.
    apply (proj2 (tables_valid h c)) in X. repeat (destruct B as [<-|B]; [cbn in X; repeat (destruct X as [X|X]; [discriminate X|]); destruct X |]). destruct B. }
  pose proof (binary_table h c (symbol m) I) as T. pose proof (slots_member (declared h c) m N) as M. unfold wrap_operator in M. rewrite T, J in M.
  unfold number_member. destruct (names_binary h c (symbol m)) eqn:X.
  - destruct (k_binary (declared h c)) eqn:E; [discriminate T|]. exact M.
  - destruct (k_binary (declared h c)), (k_inplace (declared h c)); try reflexivity; exact M.
Qed.
Lemma inplace_member h c m : is_binary m ->
  number_member (declared h c) (inplace_of m) =
    if names_inplace h c (symbol (inplace_of m)) then Some (code (symbol (inplace_of m)) (asked_inplace h c (symbol (inplace_of m)))) else None.
Proof.
  intros B. assert (N : inplace_of m <> MNegative) by (destruct m; discriminate).
  assert (I : In (symbol (inplace_of m)) inplace_ops) by (destruct m; cbn; tauto).
  assert (J : dict_get (k_binary (declared h c)) (symbol (inplace_of m)) = None).
  { destruct (dict_get (k_binary (declared h c)) (symbol (inplace_of m))) eqn:X; [|reflexivity]. apply get_key in X.
    apply (proj1 (tables_valid h c)) in X. destruct m; cbn in X; repeat (destruct X as [X|X]; [discriminate X|]); destruct X. }
  pose proof (inplace_table h c _ I) as T. pose proof (slots_member (declared h c) _ N) as M. unfold wrap_operator in M. rewrite T, J in M.
  unfold number_member. destruct (names_inplace h c (symbol (inplace_of m))) eqn:X.
  - destruct (k_inplace (declared h c)) eqn:E; [discriminate T|]. destruct (k_binary (declared h c)); exact M.
  - destruct (k_binary (declared h c)), (k_inplace (declared h c)); try reflexivity; exact M.
Qed.
Lemma negative_member h c :
  number_member (declared h c) MNegative =
    if (names_unary h c "-" && names_numeric h c)%bool then Some (unary_code "-" (dedup same_pair (asked_unary h c "-"))) else None.
Proof.
  pose proof (unary_table h c) as T. pose proof (slots_negative (declared h c)) as M. unfold wrap_unary in M. rewrite T in M.
  pose proof (binary_empty h c) as EB. pose proof (inplace_empty h c) as EI. unfold names_numeric. unfold binary_ops, inplace_ops in EB, EI.
  unfold number_member.
  destruct (existsb (fun op => names_binary h c op) ["+"; "-"; "*"; "/"]) eqn:XB.
  - destruct (k_binary (declared h c)) eqn:E; [pose proof (proj1 EB eq_refl); discriminate|].
    rewrite M. cbn [orb]. rewrite andb_true_r. destruct (names_unary h c "-"); reflexivity.
  - rewrite (proj2 EB eq_refl) in *. cbn [orb].
    destruct (existsb (fun op => names_inplace h c op) ["+="; "-="; "*="; "/="]) eqn:XI.
    + destruct (k_inplace (declared h c)) eqn:E; [pose proof (proj1 EI eq_refl); discriminate|].
      rewrite M, andb_true_r. destruct (names_unary h c "-"); reflexivity.
    + rewrite (proj2 EI eq_refl), andb_false_r. reflexivity.
Qed.

(** ** Execution *)
Section Exec.
  Variables atom value : Type.
  Variable line : cls -> list cls.
  Variable param_in : nat -> list (cls * value) -> obj atom -> value + nat.
  Variable instance_as : cls -> cls -> value -> value.
  Variable cpp : string -> list (otype * value) -> value.
  Variable h : list call.
  Local Notation obj := (obj atom).
  Local Notation state := (state value).
  Local Notation convert := (convert atom value line param_in instance_as).
  Local Notation run_body := (run_body atom value line param_in instance_as cpp).
  Local Notation run_stmt := (run_stmt atom value line param_in instance_as cpp).
  Local Notation try_all := (try_all atom value line param_in instance_as cpp).
  Local Notation with_result := (with_result value).

  Definition fit (s : state) (x y : obj) (g : signature) : option (signature * value * value) :=
    match convert s (OClass (g_left g)) x with
    | inl u => match convert s (g_right g) y with inl v => Some (g, u, v) | inr _ => None end
    | inr _ => None
    end.
  Definition result_of (op : string) (s : state) (r : option (signature * value * value)) : state * flow atom :=
    match r with
    | Some (g, u, v) => (with_result s (g_result g) (cpp op [(OClass (g_left g), u); (g_right g, v)]), Object (Inst (length (heap s))))
    | None => (s, NotImpl)
    end.
  Lemma eta_state (s : state) : pending s = None -> mk_state (heap s) None = s.
  Proof. destruct s as [he pe]. cbn. intros ->. reflexivity. Qed.
  Lemma run_block op s x y g : pending s = None ->
    run_stmt [x; y] (binary_block op g) [] s =
    match fit s x y g with
    | Some (g', u, v) => (with_result s (g_result g') (cpp op [(OClass (g_left g'), u); (g_right g', v)]), Object (Inst (length (heap s))))
    | None => (s, Continue)
    end.
  Proof.
    intros P. unfold binary_block, fit. cbn -[NumberOps.convert].
    destruct (convert s (OClass (g_left g)) x) as [u|e]; [|cbn; rewrite (eta_state s P); reflexivity].
    cbn -[NumberOps.convert]. destruct (convert s (g_right g) y) as [v|e]; [|cbn; rewrite (eta_state s P); reflexivity].
    cbn. unfold NumberSpec.with_result. rewrite P. reflexivity.
  Qed.
  Lemma run_code op s x y l : pending s = None -> run_body [x; y] (code op l) s = result_of op s (ff (fit s x y) l).
  Proof.
    intros P. unfold code. induction l as [|g r IH]; [reflexivity|]. cbn [map app NumberOps.run_body]. rewrite run_block by exact P.
    cbn [ff]. destruct (fit s x y g) as [[[g' u] v]|]; [reflexivity | exact IH].
  Qed.
  Lemma try_codes op s x y ls : pending s = None -> try_all (map (code op) ls) [x; y] s = result_of op s (ff (fit s x y) (concat ls)).
  Proof.
    intros P. induction ls as [|l r IH]; [reflexivity|]. cbn [map concat NumberOps.try_all]. rewrite run_code by exact P. rewrite ff_app.
    destruct (ff (fit s x y) l) as [[[g u] v]|]; cbn [result_of]; [reflexivity | exact IH].
  Qed.

  Local Notation fits := (fits atom value line param_in instance_as).
  Lemma in_line c d : existsb (Nat.eqb c) (line d) = true <-> In c (line d).
  Proof.
    rewrite existsb_exists. split.
    - intros (x & I & E). apply Nat.eqb_eq in E. subst. exact I.
    - intros I. exists c. split; [exact I | apply Nat.eqb_refl].
  Qed.
  Lemma convert_fits s t o v : convert s t o = inl v <-> fits s t o v.
  Proof.
    split.
    - unfold NumberOps.convert. destruct t as [c|i].
      + destruct o as [n|a]; [|discriminate]. destruct (nth_error (heap s) n) as [[d v']|] eqn:N; [|discriminate].
        destruct (existsb (Nat.eqb c) (line d)) eqn:E; [|discriminate]. intros X. injection X as <-. constructor 1; [exact N | apply in_line; exact E].
      + intros X. constructor 2. exact X.
    - intros [c n d v' N I | i o' v' P]; cbn; [|exact P]. rewrite N. apply in_line in I. rewrite I. reflexivity.
  Qed.
  Lemma fit_some s x y g r : fit s x y g = Some r -> exists u v, r = (g, u, v) /\ converts atom value line param_in instance_as s g x y u v.
  Proof.
    unfold fit, converts. destruct (convert s (OClass (g_left g)) x) as [u|] eqn:X; [|discriminate].
    destruct (convert s (g_right g) y) as [v|] eqn:Y; [|discriminate]. intros E. exists u, v. split; [congruence|].
    split; apply convert_fits; assumption.
  Qed.
  Lemma fit_none s x y g : fit s x y g = None -> forall u v, ~ converts atom value line param_in instance_as s g x y u v.
  Proof. unfold fit. intros N u v [X Y]. apply convert_fits in X, Y. rewrite X, Y in N. discriminate. Qed.
  Lemma ff_chosen s x y l g u v : ff (fit s x y) l = Some (g, u, v) -> chosen atom value line param_in instance_as l s x y g u v.
  Proof.
    intros F. apply ff_some in F. destruct F as (p & g' & q & E & F & B). apply fit_some in F. destruct F as (u' & v' & R & C).
    injection R as -> -> ->. exists p, q. split; [exact E|]. split; [exact C|]. intros g2 u2 v2 I. exact (fit_none _ _ _ _ (B _ I) u2 v2).
  Qed.
  Lemma ff_none_fits s x y l : ff (fit s x y) l = None -> none_fits atom value line param_in instance_as l s x y.
  Proof. intros F g u v I. exact (fit_none _ _ _ _ (ff_none _ _ F g I) u v). Qed.

  (** Slots. *)
  Lemma inherited_nearest (m : member) (has : cls -> bool) (cd : cls -> list stmt) :
    (forall c, number_member (declared h c) m = if has c then Some (cd c) else None) ->
    forall c, inherited line (declared h) m c = option_map (fun d => (d, cd d)) (nearest has (line c)).
  Proof.
    intros M c. unfold inherited. induction (line c) as [|d r IH]; [reflexivity|]. cbn [fold_right nearest]. rewrite M.
    destruct (has d); [reflexivity | exact IH].
  Qed.

  Definition table (m : member) (s : state) (o : obj) : option (cls * list signature) :=
    match class_of s o with
    | Some c => option_map (fun d => (d, dedup same_sig (asked_binary h d (symbol m)))) (nearest (fun d => names_binary h d (symbol m)) (line c))
    | None => None
    end.
  Lemma slot_table m s o : is_binary m ->
    slot atom value line (declared h) m s o = option_map (fun p => (fst p, code (symbol m) (snd p))) (table m s o).
  Proof.
    intros B. unfold slot, table. destruct (class_of s o) as [c|]; [|reflexivity].
    rewrite (inherited_nearest m (fun d => names_binary h d (symbol m)) (fun d => code (symbol m) (dedup same_sig (asked_binary h d (symbol m))))).
    - destruct (nearest _ (line c)); reflexivity.
    - intros d. apply binary_member. exact B.
  Qed.
  Lemma ff_of m s o : forall x y, ff (fit s x y) match table m s o with Some p => snd p | None => [] end =
    ff (fit s x y) (signatures_of atom value line (fun c => names_binary h c (symbol m)) (fun c => asked_binary h c (symbol m)) s o).
  Proof.
    intros x y. unfold table, signatures_of. destruct (class_of s o) as [c|]; [|reflexivity].
    destruct (nearest _ (line c)) as [d|]; cbn; [apply ff_dedup; exact same_sig_eq | reflexivity].
  Qed.
  Lemma table_same m s o o' c l l' : table m s o = Some (c, l) -> table m s o' = Some (c, l') -> l = l'.
  Proof.
    unfold table. destruct (class_of s o) as [a|]; [|discriminate]. destruct (class_of s o') as [b|]; [|discriminate].
    destruct (nearest _ (line a)) as [d|]; [|discriminate]. destruct (nearest _ (line b)) as [e|]; [|discriminate]. cbn. congruence.
  Qed.
  Lemma functions_code m s x y : is_binary m -> exists ls,
    functions atom value line (declared h) m s x y = map (code (symbol m)) ls /\
    ff (fit s x y) (concat ls) = ff (fit s x y) (candidates atom value line h (symbol m) s x y).
  Proof.
    intros B. unfold functions, candidates. rewrite !slot_table by exact B.
    pose proof (ff_of m s x x y) as FX. pose proof (ff_of m s y x y) as FY. pose proof (table_same m s x y) as TS.
    assert (NX : class_of s x = None -> table m s x = None) by (unfold table; intros ->; reflexivity).
    assert (NY : class_of s y = None -> table m s y = None) by (unfold table; intros ->; reflexivity).
    unfold is_subtype.
    destruct (table m s x) as [[c lx]|]; destruct (table m s y) as [[d ly]|]; cbn [option_map fst snd] in *.
    - destruct (Nat.eqb c d) eqn:E.
      + apply Nat.eqb_eq in E. subst d. specialize (TS _ _ _ eq_refl eq_refl). subst ly. exists [lx]. split; [reflexivity|].
        cbn [concat]. rewrite app_nil_r.
        assert (G : forall a b, ff (fit s x y) lx = ff (fit s x y) a -> ff (fit s x y) lx = ff (fit s x y) b -> ff (fit s x y) lx = ff (fit s x y) (a ++ b)).
        { intros a b X Y. rewrite ff_app, <- X, <- Y. destruct (ff (fit s x y) lx); reflexivity. }
        destruct (class_of s x); [|exact (G _ _ FX FY)]. destruct (class_of s y); [|exact (G _ _ FX FY)].
        destruct (existsb _ _); [exact (G _ _ FY FX) | exact (G _ _ FX FY)].
      + destruct (class_of s x) as [a|]; [|discriminate (NX eq_refl)]. destruct (class_of s y) as [b|]; [|discriminate (NY eq_refl)].
        destruct (existsb (Nat.eqb a) (line b)); [exists [ly; lx] | exists [lx; ly]]; (split; [reflexivity|]);
          cbn [concat]; rewrite app_nil_r, !ff_app; rewrite FX, FY; reflexivity.
    - exists [lx]. split; [reflexivity|]. cbn [concat]. rewrite app_nil_r. 
      destruct (class_of s x) as [a|]; [|discriminate (NX eq_refl)]. destruct (class_of s y) as [b|].
      + destruct (existsb (Nat.eqb a) (line b)); rewrite ff_app, <- FX, <- FY; cbn; [reflexivity|]. destruct (ff (fit s x y) lx); reflexivity.
      + rewrite ff_app, <- FX, <- FY. cbn. destruct (ff (fit s x y) lx); reflexivity.
    - exists [ly]. split; [reflexivity|]. cbn [concat]. rewrite app_nil_r.
      destruct (class_of s y) as [b|]; [|discriminate (NY eq_refl)]. destruct (class_of s x) as [a|].
      + destruct (existsb (Nat.eqb a) (line b)); rewrite ff_app, <- FX, <- FY; cbn; [destruct (ff (fit s x y) ly); reflexivity | reflexivity].
      + rewrite ff_app, <- FX, <- FY. reflexivity.
    - exists []. split; [reflexivity|]. cbn [concat].
      destruct (class_of s x) as [a|], (class_of s y) as [b|]; try destruct (existsb (Nat.eqb a) (line b)); rewrite ff_app, <- FX, <- FY; reflexivity.
  Qed.

  Local Notation binary_expression := (binary_expression atom value line param_in instance_as cpp (declared h)).
  Local Notation inplace_expression := (inplace_expression atom value line param_in instance_as cpp (declared h)).
  Local Notation negative_expression := (negative_expression atom value line param_in instance_as cpp (declared h)).
  Local Notation evaluates := (evaluates atom value line param_in instance_as cpp h).

  Lemma binary_evaluates m s x y : is_binary m -> pending s = None -> evaluates (symbol m) s x y (binary_expression m s x y).
  Proof.
    intros B P. unfold NumberOps.binary_expression. destruct (functions_code m s x y B) as (ls & -> & F).
    rewrite try_codes by exact P. rewrite F.
    destruct (ff (fit s x y) (candidates atom value line h (symbol m) s x y)) as [[[g u] v]|] eqn:G; cbn [result_of finish].
    - left. exists g, u, v. split; [exact (ff_chosen _ _ _ _ _ _ _ G) | reflexivity].
    - right. split; [exact (ff_none_fits _ _ _ _ G) | reflexivity].
  Qed.
  Lemma inplace_evaluates m s x y : is_binary m -> pending s = None ->
    evaluates_inplace atom value line param_in instance_as cpp h (symbol (inplace_of m)) (symbol m) s x y (inplace_expression (inplace_of m) m s x y).
  Proof.
    intros B P. pose proof (binary_evaluates m s x y B P) as V. unfold NumberOps.binary_expression in V.
    unfold NumberOps.inplace_expression, inplace_functions, evaluates_inplace, inplace_candidates, signatures_of, slot.
    destruct (class_of s x) as [c|]; [|right; split; [intros g u v [] | exact V]].
    rewrite (inherited_nearest (inplace_of m) (fun d => names_inplace h d (symbol (inplace_of m))) (fun d => code (symbol (inplace_of m)) (asked_inplace h d (symbol (inplace_of m)))))
      by (intros d; apply inplace_member; exact B).
    destruct (nearest _ (line c)) as [d|]; cbn [option_map]; [|right; split; [intros g u v [] | exact V]].
    cbn [app NumberOps.try_all]. rewrite run_code by exact P.
    destruct (ff (fit s x y) (asked_inplace h d (symbol (inplace_of m)))) as [[[g u] v]|] eqn:G; cbn [result_of finish].
    - left. exists g, u, v. split; [exact (ff_chosen _ _ _ _ _ _ _ G) | reflexivity].
    - right. split; [exact (ff_none_fits _ _ _ _ G) | exact V].
  Qed.

  (** Negation. *)
  Definition ufit (s : state) (x : obj) (g : cls * cls) : option (cls * cls * value) :=
    match convert s (OClass (snd g)) x with inl u => Some (g, u) | inr _ => None end.
  Lemma run_unary op s x l : pending s = None ->
    run_body [x] (unary_code op l) s =
    match ff (ufit s x) l with
    | Some (g, u) => (with_result s (fst g) (cpp op [(OClass (snd g), u)]), Object (Inst (length (heap s))))
    | None => (s, NotImpl)
    end.
  Proof.
    intros P. unfold unary_code. induction l as [|g r IH]; [reflexivity|]. cbn [map app NumberOps.run_body]. unfold unary_block at 1.
    cbn -[NumberOps.convert NumberOps.run_body map ff].
    cbn [ff]. unfold ufit at 1. destruct (convert s (OClass (snd g)) x) as [u|e]; cbn -[NumberOps.convert NumberOps.run_body ff].
    - unfold NumberSpec.with_result. rewrite P. reflexivity.
    - rewrite (eta_state s P). exact IH.
  Qed.
  Lemma negative_evaluates s x : pending s = None ->
    evaluates_negative atom value line param_in instance_as cpp h s x (negative_expression s x).
  Proof.
    intros P. unfold NumberOps.negative_expression, evaluates_negative, negatable, slot.
    destruct (class_of s x) as [c|]; [|reflexivity].
    rewrite (inherited_nearest MNegative (fun d => (names_unary h d "-" && names_numeric h d)%bool) (fun d => unary_code "-" (dedup same_pair (asked_unary h d "-"))))
      by (intros d; apply negative_member).
    destruct (nearest _ (line c)) as [d|]; cbn [option_map]; [|reflexivity].
    rewrite run_unary by exact P. rewrite (ff_dedup _ _ same_pair_eq).
    destruct (ff (ufit s x) (asked_unary h d "-")) as [[g u]|] eqn:G.
    - left. apply ff_some in G. destruct G as (p & g' & q & E & F & B). unfold ufit in F.
      destruct (convert s (OClass (snd g')) x) as [u'|e] eqn:C; [|discriminate F]. injection F as -> ->.
      exists g, u. split; [|reflexivity]. exists p, q. split; [exact E|]. split; [apply convert_fits; exact C|].
      intros g2 u2 I X. apply convert_fits in X. specialize (B g2 I). unfold ufit in B. rewrite X in B. discriminate B.
    - right. split; [|reflexivity]. intros g u I X. apply convert_fits in X. pose proof (ff_none _ _ G g I) as N. unfold ufit in N. rewrite X in N. discriminate N.
  Qed.
End Exec.

(** ** Registering again *)
Lemma set_same {V} (d : dict V) k v : dict_get d k = Some v -> dict_set d k v = d.
Proof.
  induction d as [|[k' v'] r IH]; cbn; [discriminate|]. destruct (String.eqb k k') eqn:E.
  - intros G. congruence.
  - intros G. rewrite (IH G). reflexivity.
Qed.
Lemma same_sig_refl g : same_sig g g = true.
Proof. destruct g as [a b [c|i]]; unfold same_sig; cbn; rewrite !Nat.eqb_refl; reflexivity. Qed.
Lemma same_pair_refl g : same_pair g g = true.
Proof. destruct g as [a b]; unfold same_pair; cbn; rewrite !Nat.eqb_refl; reflexivity. Qed.
Lemma dedup_in {A} (same : A -> A -> bool) (E : forall x y, same x y = true -> x = y) l g : In g l -> In g (dedup same l).
Proof.
  induction l as [|x r IH] using rev_ind; [intros []|]. rewrite dedup_snoc. unfold add_new. intros I. apply in_app_or in I.
  destruct (existsb (same x) (dedup same r)) eqn:X.
  - destruct I as [I|[<-|[]]]; [exact (IH I)|]. apply existsb_exists in X. destruct X as (y & J & S). apply E in S. subst y. exact J.
  - apply in_or_app. destruct I as [I|I]; [left; exact (IH I) | right; exact I].
Qed.
Lemma klass_eta k : mk_klass (k_binary k) (k_inplace k) (k_unary k) = k.
Proof. destruct k; reflexivity. Qed.
Lemma binary_again h c op r l a : In (AddBinary c op r l a) h -> forall d, declared (h ++ [AddBinary c op r l a]) d = declared h d.
Proof.
  intros I d. rewrite declared_snoc. cbn [run_call]. unfold add_binary.
  destruct (existsb (String.eqb op) ["+"; "-"; "*"; "/"]) eqn:V; [|reflexivity].
  apply (valid_in op binary_ops) in V. pose proof (binary_table h c op V) as T.
  assert (N : names_binary h c op = true).
  { apply existsb_exists. exists (AddBinary c op r l a). split; [exact I|]. rewrite Nat.eqb_refl, String.eqb_refl. reflexivity. }
  rewrite N in T.
  assert (G : forall o, In o (operand c a) -> In (mk_sig (or_self c r) (or_self c l) o) (asked_binary h c op)).
  { intros o J. apply in_flat_map. exists (AddBinary c op r l a). split; [exact I|]. rewrite Nat.eqb_refl, String.eqb_refl. cbn [andb].
    apply in_map. exact J. }
  assert (X : set_class (declared h) c (mk_klass (dict_set (k_binary (declared h c)) op (entry (k_binary (declared h c)) op)) (k_inplace (declared h c)) (k_unary (declared h c))) d = declared h d).
  { rewrite set_get. destruct (Nat.eqb d c) eqn:E; [|reflexivity]. apply Nat.eqb_eq in E. subst d.
    rewrite set_same, klass_eta; [reflexivity|]. unfold entry. rewrite T. reflexivity. }
  assert (Y : forall o, In o (operand c a) -> existsb (same_sig (mk_sig (default c r) (default c l) o)) (entry (k_binary (declared h c)) op) = true).
  { intros o J. apply existsb_exists. exists (mk_sig (or_self c r) (or_self c l) o). split; [|apply same_sig_refl].
    unfold entry. rewrite T. apply dedup_in; [exact same_sig_eq | exact (G o J)]. }
  destruct a as [|e|i|e]; cbn [operand] in Y; [rewrite (Y _ (or_introl eq_refl)) | rewrite (Y _ (or_introl eq_refl)) | rewrite (Y _ (or_introl eq_refl)) | destruct e]; exact X.
Qed.
Lemma unary_again h c op r l : In (AddUnary c op r l) h -> forall d, declared (h ++ [AddUnary c op r l]) d = declared h d.
Proof.
  intros I d. rewrite declared_snoc. cbn [run_call]. unfold add_unary. cbn [existsb]. rewrite orb_false_r.
  destruct (String.eqb op "-") eqn:V; [|reflexivity].
  apply String.eqb_eq in V. subst op. pose proof (unary_table h c) as T.
  assert (N : names_unary h c "-" = true).
  { apply existsb_exists. exists (AddUnary c "-" r l). split; [exact I|]. rewrite Nat.eqb_refl. reflexivity. }
  rewrite N in T.
  assert (G : In (or_self c r, or_self c l) (asked_unary h c "-")).
  { apply in_flat_map. exists (AddUnary c "-" r l). split; [exact I|]. rewrite Nat.eqb_refl. left. reflexivity. }
  cbn [fst]. rewrite set_get. destruct (Nat.eqb d c) eqn:E; [|reflexivity]. apply Nat.eqb_eq in E. subst d.
  change (existsb _ _) with (existsb (same_pair (or_self c r, or_self c l)) (entry (k_unary (declared h c)) "-")).
  assert (Y : existsb (same_pair (or_self c r, or_self c l)) (entry (k_unary (declared h c)) "-") = true).
  { apply existsb_exists. exists (or_self c r, or_self c l). split; [|apply same_pair_refl].
    unfold entry. rewrite T. apply dedup_in; [exact same_pair_eq | exact G]. }
  rewrite Y, set_same, klass_eta; [reflexivity|]. unfold entry. rewrite T. reflexivity.
Qed.
