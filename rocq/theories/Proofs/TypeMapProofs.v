From Verif.Model Require Import Py Hierarchy TypeMap.
From Verif.Spec Require Import NarrowSpec.
Require Import Lia.
Open Scope list_scope.

Definition look (m : tmap) (k : string) : pytype := snd (entry m k).

Lemma entry_look m k j : look (fst (entry m k)) j = look m j.
Proof.
  unfold look. induction m as [|[n w] r IH]; cbn [entry].
  - cbn. destruct (String.eqb k j); reflexivity.
  - destruct (String.eqb n k) eqn:N; [reflexivity|]. cbn [fst entry]. destruct (String.eqb n j); [reflexivity|]. cbn [snd]. exact IH.
Qed.
Lemma assign_look m k w j : look (assign m k w) j = if String.eqb k j then w else look m j.
Proof.
  unfold look. induction m as [|[n v] r IH]; cbn [assign entry].
  - destruct (String.eqb k j); reflexivity.
  - destruct (String.eqb n k) eqn:N; cbn [entry].
    + apply String.eqb_eq in N. subst n. destruct (String.eqb k j); reflexivity.
    + destruct (String.eqb n j) eqn:J; [|cbn [snd]; exact IH]. apply String.eqb_eq in J. subst j.
      rewrite String.eqb_sym, N. reflexivity.
Qed.

(** The walk, on the answers only. *)
Fixpoint walk (m : tmap) (t : rtti) (f : pytype) : pytype :=
  match t with
  | Single n b => match look m n with Some w => Some w | None => walk m b f end
  | _ => f
  end.
Lemma walk_ext m m' : (forall k, look m k = look m' k) -> forall t f, walk m t f = walk m' t f.
Proof. intros E. fix IH 1. intros [n|n b|n bs] f; cbn [walk]; try reflexivity. rewrite E. destruct (look m' n); [reflexivity|]. apply IH. Qed.

Lemma steps_returned n wk t f m w : lookup_steps n wk t f m (Returned w) = (m, Returned w).
Proof. induction n as [|n IH]; cbn; [reflexivity|exact IH]. Qed.

Lemma looping_ok wk t f : forall u n m, height u < n ->
  exists m', lookup_steps (S n) wk t f m (Looping (as_single u)) = (m', Returned (walk m u f)) /\ forall k, look m' k = look m k.
Proof.
  fix IH 1. intros [a|a b|a bs] n m L.
  - exists m. split; [|reflexivity]. cbn [lookup_steps lookup_step as_single fst snd]. rewrite steps_returned. reflexivity.
  - cbn [height] in L. destruct n as [|n]; [lia|]. cbn [as_single walk].
    change (lookup_steps (S (S n)) wk t f m (Looping (Some (Single a b)))) with
      (let x := lookup_step wk t f m (Looping (Some (Single a b))) in lookup_steps (S n) wk t f (fst x) (snd x)).
    cbv zeta. cbn [lookup_step ti_name base_type]. unfold look at 1. destruct (snd (entry m a)) eqn:E.
    + exists (fst (entry m a)). split; [|intros; apply entry_look]. cbn [fst snd]. rewrite steps_returned. reflexivity.
    + cbn [fst snd]. destruct (IH b n (fst (entry m a))) as (m' & S' & K); [lia|]. exists m'. split.
      * rewrite S'. f_equal. f_equal. apply walk_ext. intros. apply entry_look.
      * intros. rewrite K. apply entry_look.
  - exists m. split; [|reflexivity]. cbn [lookup_steps lookup_step as_single fst snd]. rewrite steps_returned. reflexivity.
Qed.

Definition answer (wk : bool) (m : tmap) (t : rtti) (f : pytype) : pytype :=
  match look m (ti_name t) with Some w => Some w | None => if wk then walk m t f else f end.

Lemma steps_ok wk t f m n : height t + 3 <= n ->
  exists m', lookup_steps n wk t f m Entered = (m', Returned (answer wk m t f)) /\ forall k, look m' k = look m k.
Proof.
  intros L. destruct n as [|n]; [lia|].
  change (lookup_steps (S n) wk t f m Entered) with (let x := lookup_step wk t f m Entered in lookup_steps n wk t f (fst x) (snd x)).
  cbv zeta. cbn [lookup_step]. unfold answer. unfold look at 1. destruct (snd (entry m (ti_name t))) eqn:E.
  - exists (fst (entry m (ti_name t))). split; [|intros; apply entry_look]. cbn [fst snd]. rewrite steps_returned. reflexivity.
  - destruct wk.
    + destruct n as [|n]; [lia|]. cbn [fst snd]. destruct (looping_ok true t f t n (fst (entry m (ti_name t)))) as (m' & S' & K); [lia|].
      exists m'. split; [|intros; rewrite K; apply entry_look]. rewrite S'. f_equal. f_equal. apply walk_ext. intros. apply entry_look.
    + exists (fst (entry m (ti_name t))). split; [|intros; apply entry_look]. cbn [fst snd]. rewrite steps_returned. reflexivity.
Qed.
Lemma lookup_ok wk m t f : snd (lookup_wrapper wk m t f) = Ok (answer wk m t f) /\ forall k, look (fst (lookup_wrapper wk m t f)) k = look m k.
Proof.
  destruct (steps_ok wk t f m (height t + 3) (le_n _)) as (m' & S' & K). unfold lookup_wrapper. rewrite S'. split; [reflexivity|exact K].
Qed.

Lemma terminates wk m t f : exists n w, forall k, snd (lookup_steps (n + k) wk t f m Entered) = Returned w.
Proof.
  exists (height t + 3), (answer wk m t f). intros k. destruct (steps_ok wk t f m (height t + 3 + k)) as (m' & S' & _); [lia|].
  rewrite S'. reflexivity.
Qed.
Lemma completes wk m t f n w : snd (lookup_steps n wk t f m Entered) = Returned w -> snd (lookup_wrapper wk m t f) = Ok w.
Proof.
  intros R. destruct (steps_ok wk t f m (n + (height t + 3))) as (m' & S' & _); [lia|]. rewrite (proj1 (lookup_ok wk m t f)).
  assert (A : forall a b m s, lookup_steps (a + b) wk t f m s = lookup_steps b wk t f (fst (lookup_steps a wk t f m s)) (snd (lookup_steps a wk t f m s))).
  { clear. induction a as [|a IH]; intros; [reflexivity|]. cbn [Nat.add lookup_steps]. apply IH. }
  rewrite A, R, steps_returned in S'. congruence.
Qed.

Lemma after_look wk h : forall m k, look (fold_left (map_step wk) h m) k = latest_of k h (look m k).
Proof.
  induction h as [|e h IH]; intros m k; [reflexivity|]. cbn [fold_left]. rewrite IH. destruct e as [t w|t f]; cbn [map_step latest_of].
  - unfold register_wrapper. rewrite assign_look. reflexivity.
  - rewrite (proj2 (lookup_ok wk m t f)). reflexivity.
Qed.
Lemma known_look wk h t : look (map_after wk h) (ti_name t) = known h t.
Proof. unfold map_after. rewrite after_look. reflexivity. Qed.

Lemma known_single wk h n b : look (map_after wk h) n = known h (Single n b).
Proof. exact (known_look wk h (Single n b)). Qed.

Lemma walk_nearest wk h t l u w f : path t l u -> ~ is_plain u -> ~ is_multiple u -> known h u = Some w -> (forall x, In x l -> known h x = None) ->
  walk (map_after wk h) t f = Some w.
Proof.
  intros P. induction P as [t|n b l u P IH]; intros N1 N2 K B.
  - destruct t as [n|n b|n bs]; try (exfalso; cbn in *; tauto). cbn [walk]. rewrite (known_single wk h n b), K. reflexivity.
  - cbn [walk]. rewrite (known_single wk h n b), (B (Single n b)); [|left; reflexivity].
    apply IH; try assumption. intros x I. apply B. right. exact I.
Qed.
Lemma walk_nothing wk h f : forall t, (forall l u, path t l u -> ~ is_plain u -> ~ is_multiple u -> known h u = None) -> walk (map_after wk h) t f = f.
Proof.
  fix IH 1. intros [n|n b|n bs] N; cbn [walk]; try reflexivity. rewrite (known_single wk h n b), (N [] (Single n b)); cbn; try tauto.
  - apply IH. intros l u P. apply (N (Single n b :: l) u). constructor. exact P.
  - constructor.
Qed.
Lemma walk_cases wk h f : forall t, (exists l u w, path t l u /\ ~ is_plain u /\ ~ is_multiple u /\ known h u = Some w /\ (forall x, In x l -> known h x = None) /\ walk (map_after wk h) t f = Some w)
  \/ (walk (map_after wk h) t f = f /\ forall l u, path t l u -> ~ is_plain u -> ~ is_multiple u -> known h u = None).
Proof.
  fix IH 1. intros [n|n b|n bs].
  - right. split; [reflexivity|]. intros l u P. inversion P; subst. cbn. tauto.
  - cbn [walk]. rewrite (known_single wk h n b). destruct (known h (Single n b)) as [w|] eqn:K.
    + left. exists [], (Single n b), w. split; [constructor|]. split; [cbn; tauto|]. split; [cbn; tauto|]. split; [exact K|]. split; [cbn; tauto|].
      reflexivity.
    + destruct (IH b) as [(l & u & w & P & A & B & C & D & E')|[E' N]].
      * left. exists (Single n b :: l), u, w. split; [constructor; exact P|]. repeat (split; [assumption|]). split; [|exact E'].
        intros x [<-|I]; [exact K|]. apply D. exact I.
      * right. split; [exact E'|]. intros l u P. inversion P; subst; [intros _ _; exact K|]. apply (N l0). assumption.
  - right. split; [reflexivity|]. intros l u P. inversion P; subst. cbn. tauto.
Qed.

(** ** The statements about one map *)
Lemma exact_ok wk h t f w : known h t = Some w -> snd (lookup_wrapper wk (map_after wk h) t f) = Ok (Some w).
Proof. intros K. rewrite (proj1 (lookup_ok _ _ _ _)). unfold answer. rewrite known_look, K. reflexivity. Qed.
Lemma nearest_ok h t u w f : nearest h t u w -> u = t \/ (~ is_plain u /\ ~ is_multiple u) ->
  snd (lookup_wrapper true (map_after true h) t f) = Ok (Some w).
Proof.
  intros (l & P & K & B) [->|[N1 N2]]; [apply exact_ok; exact K|].
  rewrite (proj1 (lookup_ok _ _ _ _)). unfold answer. rewrite known_look. inversion P as [x|n b l' u' P']; subst.
  - rewrite K. reflexivity.
  - rewrite (B (Single n b)); [|left; reflexivity]. f_equal. exact (walk_nearest true h (Single n b) _ u w f P N1 N2 K B).
Qed.
Lemma fallback_ok h t f : known h t = None -> (forall l u, path t l u -> ~ is_plain u -> ~ is_multiple u -> known h u = None) ->
  snd (lookup_wrapper true (map_after true h) t f) = Ok f.
Proof.
  intros K N. rewrite (proj1 (lookup_ok _ _ _ _)). unfold answer. rewrite known_look, K. f_equal. apply walk_nothing. exact N.
Qed.
Lemma nothing_ok h t f : nothing_known h t -> snd (lookup_wrapper true (map_after true h) t f) = Ok f.
Proof. intros N. apply fallback_ok; [apply (N []); constructor|]. intros l u P _ _. exact (N l u P). Qed.
Lemma elsewhere_ok h t f : snd (lookup_wrapper false (map_after false h) t f) = Ok (match known h t with Some w => Some w | None => f end).
Proof. rewrite (proj1 (lookup_ok _ _ _ _)). unfold answer. rewrite known_look. destruct (known h t); reflexivity. Qed.

Lemma path_end t l u : path t l u -> forall l' u', path t l' u' -> (exists k, path u k u') \/ (exists k, path u' k u /\ forall x, In x k -> In x l).
Proof.
  intros P. induction P as [t|n b l u P IH]; intros l' u' P'.
  - left. exists l'. exact P'.
  - inversion P' as [x|n' b' l2 u2 P2]; subst.
    + right. exists (Single n b :: l). split; [constructor; exact P|intros x I; exact I].
    + destruct (IH l2 u' P2) as [[k Q]|(k & Q & I)]; [left; exists k; exact Q|right; exists k; split; [exact Q|]]. intros x J. right. apply I. exact J.
Qed.
Lemma path_inner t l u : path t l u -> forall x, In x l -> ~ is_plain x /\ ~ is_multiple x /\ exists k, path t k x.
Proof.
  intros P. induction P as [t|n b l u P IH]; intros x; [intros []|]. intros [<-|I].
  - repeat split; cbn; try tauto. exists []. constructor.
  - destruct (IH x I) as (A & B & k & Q). split; [exact A|]. split; [exact B|]. exists (Single n b :: k). constructor. exact Q.
Qed.
Lemma static_ok h t l s ws : path t l s -> known h s = Some ws ->
  exists u w, nearest h t u w /\ snd (lookup_wrapper true (map_after true h) t (Some ws)) = Ok (Some w).
Proof.
  intros P K. rewrite (proj1 (lookup_ok _ _ _ _)). unfold answer. rewrite known_look. destruct (known h t) as [w|] eqn:T.
  - exists t, w. split; [exists []; repeat split; [constructor|exact T|intros x []]|reflexivity].
  - destruct (walk_cases true h (Some ws) t) as [(l' & u & w & P' & A & B & C & D & E')|[E' N]].
    + exists u, w. split; [exists l'; split; [exact P'|split; [exact C|exact D]]|]. rewrite E'. reflexivity.
    + exists s, ws. split; [|rewrite E'; reflexivity]. exists l. split; [exact P|]. split; [exact K|]. intros x I.
      destruct (path_inner _ _ _ P x I) as (A & B & k & Q). exact (N k x Q A B).
Qed.
Lemma path_derives t l u : path t l u -> derives t u.
Proof. intros P. induction P; [constructor|]. apply derives_single. assumption. Qed.
(** The answer is the fallback, or what is known for a class met on the way up. *)
Lemma answer_cases wk h t f : exists a, snd (lookup_wrapper wk (map_after wk h) t f) = Ok a /\
  (a = f \/ exists l u, path t l u /\ known h u = a /\ a <> None).
Proof.
  exists (answer wk (map_after wk h) t f). split; [apply lookup_ok|]. unfold answer. rewrite known_look. destruct (known h t) as [w|] eqn:T.
  - right. exists [], t. split; [constructor|]. split; [exact T|discriminate].
  - destruct wk; [|left; reflexivity]. destruct (walk_cases true h f t) as [(l & u & w & P & _ & _ & C & _ & E')|[E' _]].
    + right. exists l, u. split; [exact P|]. rewrite E'. split; [exact C|discriminate].
    + left. exact E'.
Qed.

Definition only_registrations (e : map_event) : bool := match e with Register _ _ => true | Lookup _ _ => false end.
Lemma harmless_ok wk h t f : snd (lookup_wrapper wk (map_after wk h) t f) = snd (lookup_wrapper wk (map_after wk (filter only_registrations h)) t f).
Proof.
  assert (K : forall k, look (map_after wk h) k = look (map_after wk (filter only_registrations h)) k).
  { intros k. unfold map_after. rewrite !after_look. generalize (look [] k) as v. induction h as [|[u w|u g] r IH]; intros v; cbn; [reflexivity|apply IH|apply IH]. }
  rewrite !(proj1 (lookup_ok _ _ _ _)). unfold answer. rewrite K. destruct (look _ (ti_name t)); [reflexivity|]. destruct wk; [|reflexivity].
  f_equal. apply walk_ext. exact K.
Qed.

(** ** Programs *)
Section Program.
  Variable z : hier.
  Variable cxx : nat -> rtti.
  Variable wk : bool.
  (** What happens to the map of class [r]. *)
  Definition of_map (r : nat) (e : event) : list map_event :=
    match e with
    | Initialise i => if narrowing_of z i then match map_of z i with Some q => if Nat.eqb r q then [Register (cxx i) i] else [] | None => [] end else []
    | Wrap s o c t => if narrowing_of z s && (o || c) then match map_of z s with Some q => if Nat.eqb r q then [Lookup t (Some s)] else [] | None => [] end else []
    end.
  Lemma maps_project h : forall ms r, fold_left (event_step z cxx wk) h ms r = fold_left (map_step wk) (flat_map (of_map r) h) (ms r).
  Proof.
    induction h as [|e h IH]; intros ms r; [reflexivity|]. cbn [fold_left flat_map]. rewrite IH, fold_left_app. f_equal.
    destruct e as [i|s o c t]; cbn [event_step of_map].
    - unfold initialise. destruct (narrowing_of z i); [|reflexivity]. destruct (map_of z i) as [q|]; [|reflexivity]. unfold set_map.
      destruct (Nat.eqb r q) eqn:N; [|reflexivity]. apply Nat.eqb_eq in N. subst q. reflexivity.
    - unfold wrapper_type. destruct (narrowing_of z s && (o || c)); [|reflexivity]. destruct (map_of z s) as [q|]; [|reflexivity]. cbn [fst]. unfold set_map.
      destruct (Nat.eqb r q) eqn:N; [|reflexivity]. apply Nat.eqb_eq in N. subst q. reflexivity.
  Qed.
  Lemma maps_after_project h r : maps_after z cxx wk h r = map_after wk (flat_map (of_map r) h).
  Proof. unfold maps_after. rewrite maps_project. reflexivity. Qed.

  Lemma latest_event n : forall h before, latest_of n h before = before /\ (forall t w, In (Register t w) h -> ti_name t <> n) \/
    exists t w, In (Register t w) h /\ ti_name t = n /\ latest_of n h before = Some w.
  Proof.
    induction h as [|[t w|t f] h IH]; intros before; cbn [latest_of].
    - left. split; [reflexivity|intros t w []].
    - destruct (String.eqb (ti_name t) n) eqn:N.
      + apply String.eqb_eq in N. destruct (IH (Some w)) as [[E' F]|(u & v & I & M & E')].
        * right. exists t, w. split; [left; reflexivity|]. split; assumption.
        * right. exists u, v. split; [right; exact I|]. split; assumption.
      + apply String.eqb_neq in N. destruct (IH before) as [[E' F]|(u & v & I & M & E')].
        * left. split; [exact E'|]. intros u v [J|J]; [injection J as -> ->; exact N|exact (F u v J)].
        * right. exists u, v. split; [right; exact I|]. split; assumption.
    - destruct (IH before) as [[E' F]|(u & v & I & M & E')].
      + left. split; [exact E'|]. intros u v [J|J]; [discriminate|exact (F u v J)].
      + right. exists u, v. split; [right; exact I|]. split; assumption.
  Qed.
  Lemma registrations r h t i : In (Register t i) (flat_map (of_map r) h) -> t = cxx i /\ In (Initialise i) h /\ narrowing_of z i = true /\ map_of z i = Some r.
  Proof.
    intros J. apply in_flat_map in J as (e & I & J). destruct e as [j|s o c u]; cbn [of_map] in J.
    - destruct (narrowing_of z j) eqn:N; [|destruct J]. destruct (map_of z j) as [q|] eqn:M; [|destruct J].
      destruct (Nat.eqb r q) eqn:R; [|destruct J]. apply Nat.eqb_eq in R. subst q. destruct J as [J|[]]. injection J as <- <-. repeat split; assumption.
    - destruct (narrowing_of z s && (o || c)); [|destruct J]. destruct (map_of z s) as [q|]; [|destruct J]. destruct (Nat.eqb r q); [|destruct J].
      destruct J as [J|[]]. discriminate.
  Qed.
  Lemma registered r h i : In (Initialise i) h -> narrowing_of z i = true -> map_of z i = Some r -> In (Register (cxx i) i) (flat_map (of_map r) h).
  Proof. intros I N M. apply in_flat_map. exists (Initialise i). split; [exact I|]. cbn [of_map]. rewrite N, M, Nat.eqb_refl. left. reflexivity. Qed.

  Lemma known_some r h u i : known (flat_map (of_map r) h) u = Some i -> ti_name (cxx i) = ti_name u /\ In (Initialise i) h /\ narrowing_of z i = true /\ map_of z i = Some r.
  Proof.
    unfold known. intros K. destruct (latest_event (ti_name u) (flat_map (of_map r) h) None) as [[E' _]|(t & w & I & N & E')]; [congruence|].
    rewrite K in E'. injection E' as <-. apply registrations in I as (-> & A & B & C). repeat split; assumption.
  Qed.
  Lemma known_class r h i : (forall a b, ti_name (cxx a) = ti_name (cxx b) -> a = b) -> In (Initialise i) h -> narrowing_of z i = true -> map_of z i = Some r ->
    known (flat_map (of_map r) h) (cxx i) = Some i.
  Proof.
    intros U I N M. unfold known. destruct (latest_event (ti_name (cxx i)) (flat_map (of_map r) h) None) as [[_ F]|(t & w & J & Q & E')].
    - exfalso. exact (F _ _ (registered r h i I N M) eq_refl).
    - apply registrations in J as (-> & _). apply U in Q. subst w. exact E'.
  Qed.
End Program.

Lemma map_of_root z i r : type_narrowing_root z i = Ok (Some r) -> map_of z i = Some r.
Proof. unfold map_of. intros ->. reflexivity. Qed.
Lemma map_of_root_inv z i r : map_of z i = Some r -> type_narrowing_root z i = Ok (Some r).
Proof. unfold map_of. destruct (type_narrowing_root z i) as [[q|]|]; intros J; congruence. Qed.

From Verif.Proofs Require SettingsProofs.
Section Script.
  Variables (dn ds : bool) (ok : method -> bool) (cs : list hcall) (cxx : nat -> rtti) (wk : bool).
  Let z := fst (hscript dn ds ok cs []).
  Lemma root_some s : narrowing_of z s = true -> exists r, map_of z s = Some r.
  Proof.
    intros N. assert (R := SettingsProofs.narrowing_root_ok dn ds ok cs s). cbv zeta in R. fold z in R. rewrite N in R.
    destruct R as (r & R & _). exists r. apply map_of_root. exact R.
  Qed.
  Lemma wrapper_map h s o c t r : narrowing_of z s = true -> o || c = true -> map_of z s = Some r ->
    snd (wrapper_type z wk (maps_after z cxx wk h) s o c t) = snd (lookup_wrapper wk (map_after wk (flat_map (of_map z cxx r) h)) t (Some s)).
  Proof. intros N O M. unfold wrapper_type. rewrite N, O. cbn [andb]. rewrite M. cbn [snd]. rewrite maps_after_project. reflexivity. Qed.

  Lemma class_exact h s o c i : (forall a b, ti_name (cxx a) = ti_name (cxx b) -> a = b) -> narrowing_of z s = true -> o || c = true ->
    initialised h i -> companion z s i -> snd (wrapper_type z wk (maps_after z cxx wk h) s o c (cxx i)) = Ok (Some i).
  Proof.
    intros U N O I (M & r & A & B). rewrite (wrapper_map h s o c (cxx i) r N O (map_of_root _ _ _ A)). apply exact_ok.
    apply known_class; try assumption. exact (map_of_root _ _ _ B).
  Qed.
  Lemma class_sound h s o c t : names_identify cxx t -> derives t (cxx s) ->
    exists i, snd (wrapper_type z wk (maps_after z cxx wk h) s o c t) = Ok (Some i) /\ derives t (cxx i) /\ (i = s \/ initialised h i /\ companion z s i).
  Proof.
    intros [U V] D. destruct (narrowing_of z s && (o || c)) eqn:N.
    - apply andb_true_iff in N as [N O]. destruct (root_some s N) as [r M]. rewrite (wrapper_map h s o c t r N O M).
      destruct (answer_cases wk (flat_map (of_map z cxx r) h) t (Some s)) as (a & E' & [->|(l & u & P & K & F)]).
      + exists s. split; [exact E'|]. split; [exact D|]. left. reflexivity.
      + destruct a as [i|]; [|congruence]. exists i. split; [exact E'|]. apply known_some in K as (Q & I & W & M').
        assert (D' := path_derives _ _ _ P). rewrite (V i u D' Q). split; [exact D'|]. right. split; [exact I|]. split; [exact W|].
        exists r. split; apply map_of_root_inv; assumption.
    - exists s. unfold wrapper_type. rewrite N. split; [reflexivity|]. split; [exact D|]. left. reflexivity.
  Qed.
  Lemma class_nearest h s o c t l : wk = true -> names_identify cxx t -> narrowing_of z s = true -> o || c = true -> path t l (cxx s) -> initialised h s ->
    exists i k, snd (wrapper_type z wk (maps_after z cxx wk h) s o c t) = Ok (Some i) /\ path t k (cxx i) /\ initialised h i /\ companion z s i /\
      forall j, initialised h j -> companion z s j -> ~ In (cxx j) k.
  Proof.
    intros W [U V] N O P I. destruct (root_some s N) as [r M]. rewrite (wrapper_map h s o c t r N O M). rewrite W.
    destruct (static_ok (flat_map (of_map z cxx r) h) t l (cxx s) s P) as (u & i & (k & Q & K & B) & E').
    { apply known_class; assumption. }
    apply known_some in K as (T & J & X & Y). exists i, k. split; [exact E'|]. rewrite (V i u (path_derives _ _ _ Q) T). split; [exact Q|]. split; [exact J|].
    split; [split; [exact X|]; exists r; split; apply map_of_root_inv; assumption|]. intros j F (G & r' & G1 & G2) C.
    apply map_of_root in G1. apply map_of_root in G2. assert (r' = r) by congruence. subst r'. apply B in C. rewrite (known_class z cxx r h j U F G G2) in C. discriminate.
  Qed.
  Lemma class_static h s o c t : narrowing_of z s && (o || c) = false -> snd (wrapper_type z wk (maps_after z cxx wk h) s o c t) = Ok (Some s).
  Proof. intros N. unfold wrapper_type. rewrite N. reflexivity. Qed.
End Script.
