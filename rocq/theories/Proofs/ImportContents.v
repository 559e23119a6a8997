(** What the modules and types contain after an import. *)
From Verif.Model Require Import Py Import.
From Verif.Spec Require Import ImportSpec.
From Verif.Proofs Require Import StrLemmas ImportProofs.
From Coq Require Import Lia.
Open Scope string_scope.
Open Scope list_scope.

Section Contents.
  Variable decls : list decl.
  Variable const : string -> option Z.
  Variable external : string -> option (string -> bool).
  Notation exec := (exec decls external).
  Notation declared := (declared decls).
  Notation flat := (flat decls const).

  Definition place_eqb (a b : place) : bool :=
    match a, b with InModule i, InModule j => Nat.eqb i j | InClass i, InClass j => Nat.eqb i j | _, _ => false end.
  Lemma place_eqb_spec a b : reflect (a = b) (place_eqb a b).
  Proof. destruct a as [i|i], b as [j|j]; cbn; try (constructor; congruence); destruct (Nat.eqb_spec i j); constructor; congruence. Qed.
  Definition writes (s : stmt) : option (place * string * thing) :=
    match s with SAdd m n x => Some (InModule m, n, x) | SSetIn o n x => Some (InClass o, n, x) | _ => None end.

  Lemma attr_type r k b p n : is_ready r k = false -> attribute (set_type r (Cls k) (mk_ty b [])) p n = attribute r p n.
  Proof.
    intros H. destruct p as [m|o]; [reflexivity|]. cbn. destruct (Nat.eqb_spec k o) as [->|]; [|reflexivity]. cbn. unfold is_ready in H. destruct (r_type r (Cls o)); [discriminate|reflexivity].
  Qed.
  Lemma ready_keeps f : forall k r r', ready decls f k r = Imported r' -> forall j, is_ready r j = true -> is_ready r' j = true.
  Proof.
    assert (Set_ : forall r k y j, is_ready r j = true -> is_ready (set_type r (Cls k) y) j = true) by (intros r k y j; unfold is_ready, set_type; cbn; destruct (Nat.eqb k j); auto).
    induction f as [|f IH]; intros k r r'; [discriminate|]. cbn [ready]. destruct (is_ready r k); [intros [= <-]; auto|]. destruct (r_bases r k) as [|b rest]; [intros [= <-]; auto|].
    destruct (_ && _); [destruct rest; [intros [= <-]; auto|discriminate]|]. destruct (ready decls f b r) as [r1| |] eqn:E; try discriminate. destruct (forallb _ rest); [|discriminate]. intros [= <-] j H. apply Set_. eauto.
  Qed.
  (** The bases assigned are those of earlier declarations, so that making a base ready does not concern the type itself. *)
  Definition down (r : rt) : Prop := forall k b, In b (r_bases r k) -> b < k.
  Lemma ready_others f : forall k r r', down r -> ready decls f k r = Imported r' -> r_bases r' = r_bases r /\ r_exc r' = r_exc r /\ r_mod r' = r_mod r /\
    (forall j, k < j -> r_type r' (Cls j) = r_type r (Cls j)) /\ (forall j, r_type r' (Iter j) = r_type r (Iter j)) /\ forall p n, attribute r' p n = attribute r p n.
  Proof.
    induction f as [|f IH]; intros k r r' Dn; [discriminate|]. cbn [ready]. destruct (is_ready r k) eqn:Rk; [intros [= <-]; auto 10|].
    assert (Other : forall r b j, k < j -> r_type (set_type r (Cls k) (mk_ty b [])) (Cls j) = r_type r (Cls j)) by (intros r0 b j L; cbn; destruct (Nat.eqb_spec k j); [lia|reflexivity]).
    destruct (r_bases r k) as [|b rest] eqn:B.
    { intros [= <-]. cbn [set_type r_bases r_exc r_mod]. repeat (split; [reflexivity|]). split; [intros; now apply Other|]. split; [reflexivity|intros; now apply attr_type]. }
    destruct (_ && _).
    { destruct rest; [|discriminate]. intros [= <-]. cbn [set_type r_bases r_exc r_mod]. repeat (split; [reflexivity|]). split; [intros; now apply Other|]. split; [reflexivity|intros; now apply attr_type]. }
    destruct (ready decls f b r) as [r1| |] eqn:E; try discriminate. destruct (forallb _ rest); [|discriminate]. intros [= <-].
    assert (Lb : b < k) by (apply (Dn k b); rewrite B; now left). destruct (IH b r r1 Dn E) as (A1 & A2 & A3 & A4 & A5 & A6). cbn [set_type r_bases r_exc r_mod].
    split; [exact A1|]. split; [exact A2|]. split; [exact A3|]. split; [intros j L; rewrite Other by lia; apply A4; lia|]. split; [exact A5|]. intros p n. rewrite attr_type; [apply A6|].
    unfold is_ready. rewrite (A4 k Lb). exact Rk.
  Qed.

  Definition lowers (s : stmt) : Prop := match s with SBases k l => forall b, In b l -> b < k | _ => True end.
  Lemma exec_attr s r r' : down r -> lowers s -> exec s r = Imported r' -> down r' /\
    forall p n, attribute r' p n = match writes s with Some (p', n', x) => if place_eqb p' p && String.eqb n' n then Some x else attribute r p n | None => attribute r p n end.
  Proof.
    intros Dn Lo. destruct s as [m n0 x|o n0 x|k q|k l|t|k mn a|k q|m k n0]; cbn [Import.exec writes].
    - intros [= <-]. split; [exact Dn|]. intros [m'|o] n; cbn; [|reflexivity]. destruct (Nat.eqb_spec m m') as [<-|]; [|reflexivity]. cbn [andb].
      destruct (String.eqb_spec n0 n) as [->|Ne]; [apply dict_get_set_same|now apply dict_get_set_other].
    - destruct (r_type r (Cls o)) as [y|] eqn:Y; [|discriminate]. intros [= <-]. split; [exact Dn|]. intros [m'|o'] n; cbn; [reflexivity|]. destruct (Nat.eqb_spec o o') as [<-|]; [|reflexivity]. cbn [andb t_dict]. rewrite Y.
      destruct (String.eqb_spec n0 n) as [->|Ne]; [apply dict_get_set_same|now apply dict_get_set_other].
    - destruct q as [q|]; [destruct (is_ready r q); [|discriminate]|]; intros [= <-]; auto.
    - destruct (_ || _); [|discriminate]. intros [= <-]. split.
      + intros j b. cbn. destruct (Nat.eqb_spec k j) as [<-|]; [apply Lo|apply Dn].
      + intros [m'|o'] n; reflexivity.
    - destruct t as [k|k].
      + intros H. destruct (ready_others _ _ _ _ Dn H) as (A1 & _ & _ & _ & _ & A6). split; [unfold down; now rewrite A1|exact A6].
      + intros [= <-]. split; [exact Dn|]. intros [m'|o'] n; reflexivity.
    - destruct (external mn) as [has|]; [|discriminate]. intros [= <-]. destruct (has a && negb (is_ready r k)) eqn:E; [|auto]. split; [exact Dn|]. intros p n. apply attr_type.
      apply andb_true_iff in E. destruct E as [_ E]. now apply negb_true_iff in E.
    - destruct q as [q|]; intros [= <-]; (split; [exact Dn|]); intros [m'|o'] n; reflexivity.
    - discriminate.
  Qed.
  Lemma run_attr l : forall r r', down r -> Forall lowers l -> run exec l r = Imported r' ->
    (forall p n x, attribute r' p n = Some x -> attribute r p n = Some x \/ exists s, In s l /\ writes s = Some (p, n, x)) /\
    (forall p n x, (exists s, In s l /\ writes s = Some (p, n, x)) -> (forall s y, In s l -> writes s = Some (p, n, y) -> y = x) -> attribute r' p n = Some x).
  Proof.
    assert (Keep : forall l r r' p n x, down r -> Forall lowers l -> run exec l r = Imported r' -> (forall s y, In s l -> writes s = Some (p, n, y) -> y = x) -> attribute r p n = Some x -> attribute r' p n = Some x).
    { clear l. induction l as [|s l IH]; intros r r' p n x Dn F; cbn [run]; [intros [= <-]; auto|]. inversion F as [|? ? Fs Fl]; subst. destruct (exec s r) as [r1| |] eqn:E; try discriminate.
      destruct (exec_attr s r r1 Dn Fs E) as [D1 A]. intros R U H. eapply IH; [exact D1|exact Fl|exact R|intros; eapply U; [right; eassumption|eassumption]|].
      rewrite A. destruct (writes s) as [[[p' n'] y]|] eqn:W; [|exact H]. destruct (place_eqb_spec p' p) as [->|]; [|exact H]. destruct (String.eqb_spec n' n) as [->|]; cbn [andb]; [|exact H].
      f_equal. eapply U; [left; reflexivity|exact W]. }
    induction l as [|s l IH]; intros r r' Dn F; cbn [run].
    - intros [= <-]. split; [auto|]. intros p n x (s & [] & _).
    - inversion F as [|? ? Fs Fl]; subst. destruct (exec s r) as [r1| |] eqn:E; try discriminate. intros R. destruct (exec_attr s r r1 Dn Fs E) as [D1 A]. destruct (IH r1 r' D1 Fl R) as [I1 I2]. split.
      + intros p n x H. destruct (I1 p n x H) as [H1|(t & Ht & W)]; [|right; exists t; split; [now right|exact W]]. rewrite A in H1. destruct (writes s) as [[[p' n'] y]|] eqn:W; [|now left].
        destruct (place_eqb_spec p' p) as [->|]; [|now left]. destruct (String.eqb_spec n' n) as [->|]; cbn [andb] in H1; [|now left]. right. exists s. split; [now left|congruence].
      + intros p n x (t & [<-|Ht] & W) U.
        * eapply Keep; [exact D1|exact Fl|exact R|intros; eapply U; [right; eassumption|eassumption]|]. rewrite A, W. destruct (place_eqb_spec p p) as [_|C]; [|congruence]. now rewrite String.eqb_refl.
        * apply I2; [eauto|]. intros; eapply U; [right; eassumption|eassumption].
  Qed.

  (** ** The statements of the declarations *)
  Hypothesis Wf : well_formed decls.
  Lemma under_trans a b c : under decls a b -> under decls b c -> under decls a c.
  Proof. intros H. induction 1 as [|c p P U IH]; [exact H|]. eapply under_sub; eassumption. Qed.
  Lemma root_under m : a_module decls m -> under decls 0 m.
  Proof.
    induction m as [m IH] using (well_founded_induction lt_wf). intros (p & n & x & H). pose proof (proj2 Wf m _ H) as W. destruct p as [p|]; [|subst; constructor].
    destruct W as [L Mp]. eapply under_sub; [exists n, x; exact H|]. exact (IH p L Mp).
  Qed.
  (** The path down to an enclosed module. *)
  Lemma under_down a b : under decls a b -> a = b \/ exists c, parent decls c a /\ under decls c b.
  Proof. induction 1 as [|b p P U IH]; [now left|]. destruct IH as [->|(c & C & D)]; right; [exists b; split; [exact P|constructor]|exists c; split; [exact C|eapply under_sub; eassumption]]. Qed.
  Lemma flat_own f m m' : under decls m m' -> m' < length decls -> length decls <= f + m -> incl (own decls const m') (flat f m).
  Proof.
    revert m. induction f as [|f IH]; intros m U Lt L.
    { exfalso. assert (Le : m <= m') by (clear - U Wf; induction U as [|b p P U IHU]; [lia|]; destruct (parent_lt decls Wf b p P); lia). lia. }
    rewrite flat_eq. apply under_down in U. destruct U as [->|(c & (n & x & C) & D)]; [apply incl_appl, incl_refl|]. apply incl_appr. intros s H. apply in_flat_map. exists (c, DModule (Some m) n x).
    split; [now apply numbered_in|]. unfold sub_flat. cbn [snd fst]. rewrite Nat.eqb_refl. apply in_or_app. left. assert (P : parent decls c m) by (exists n, x; exact C). destruct (parent_lt decls Wf c m P).
    apply (IH c); auto; lia.
  Qed.
  Lemma flat_sub f m k m' n x : under decls m m' -> declared k (DModule (Some m') n x) -> length decls <= f + m -> In (SAdd m' n (XModule k)) (flat f m).
  Proof.
    revert m. induction f as [|f IH]; intros m U H L.
    { exfalso. assert (Le : m <= m') by (clear - U Wf; induction U as [|b p P U IHU]; [lia|]; destruct (parent_lt decls Wf b p P); lia).
      assert (P : parent decls k m') by (exists n, x; exact H). destruct (parent_lt decls Wf k m' P). lia. }
    rewrite flat_eq. apply in_or_app. right. apply in_flat_map. apply under_down in U. destruct U as [->|(c & (n' & x' & C) & D)].
    - exists (k, DModule (Some m') n x). split; [now apply numbered_in|]. unfold sub_flat. cbn [snd fst]. rewrite Nat.eqb_refl. apply in_or_app. right. now left.
    - exists (c, DModule (Some m) n' x'). split; [now apply numbered_in|]. unfold sub_flat. cbn [snd fst]. rewrite Nat.eqb_refl. apply in_or_app. left.
      assert (P : parent decls c m) by (exists n', x'; exact C). destruct (parent_lt decls Wf c m P). apply (IH c); auto; lia.
  Qed.
  Lemma flat_in f : forall m s, In s (flat f m) -> (exists k d, declared k d /\ In s (item_code decls const k d)) \/ exists m' k n x, s = SAdd m' n (XModule k) /\ declared k (DModule (Some m') n x).
  Proof.
    induction f as [|f IH]; intros m s; [intros []|]. rewrite flat_eq, in_app_iff. intros [H|H].
    - apply own_in in H. destruct H as (k & d & Hk & _ & H). left. eauto.
    - apply in_flat_map in H. destruct H as ([k d] & Hk & H). apply numbered_in in Hk. unfold sub_flat in H. cbn [snd fst] in H. destruct d as [[p|] n x| | | | | |]; try contradiction.
      destruct (Nat.eqb_spec p m) as [->|]; [|contradiction]. apply in_app_iff in H. destruct H as [H|[<-|[]]]; [eauto|]. right. exists m, k, n, x. auto.
  Qed.

  Lemma meant_expr m p ns o v : value_expr decls m p ns (option_map (full_of decls) o) v = meant decls m p ns o v.
  Proof.
    destruct v as [n|n e]; [|reflexivity]. destruct o as [o|]; [reflexivity|]. cbn [value_expr meant option_map]. unfold scoped.
    change (prefix_of decls m) with (namespace decls m). destruct (String.eqb (namespace decls m) "") eqn:E1; destruct ns as [s|]; cbn [app]; try (destruct (String.eqb s "") eqn:E2); reflexivity.
  Qed.
  Lemma attach_writes m o n x : writes (attach m o n x) = Some (place_of m o, n, x).
  Proof. now destruct o. Qed.
  Lemma item_offers k d s p n x : compiles decls const = true -> declared k d -> In s (item_code decls const k d) -> writes s = Some (p, n, x) -> offers decls const k p n x.
  Proof.
    intros Cp H Hs W. destruct d as [q n0 y|m n0|m c|m n0 o|m n0 o q t|m c a|m vs q ns o i]; cbn [item_code] in Hs.
    - destruct Hs.
    - destruct Hs as [<-|[]]. cbn in W. injection W as <- <- <-. now constructor.
    - unfold class_code in Hs. destruct (c_import c) eqn:Ci; [destruct Hs as [<-|[]]; discriminate|]. repeat (apply in_app_iff in Hs; destruct Hs as [Hs|Hs]).
      + apply in_map_iff in Hs. destruct Hs as (n1 & <- & Hn). cbn in W. injection W as <- <- <-. now apply (offers_capsule decls const k m c).
      + destruct (c_static c); [destruct Hs as [<-|[]]; discriminate|destruct Hs].
      + destruct (c_bases c); [destruct Hs|destruct Hs as [<-|[]]; discriminate].
      + destruct Hs as [<-|[<-|[]]]; [discriminate|]. rewrite attach_writes in W. injection W as <- <- <-. now constructor.
      + destruct (c_iter c) eqn:It; [|destruct Hs]. destruct Hs as [<-|[<-|[]]]; [discriminate|]. cbn in W. injection W as <- <- <-. now constructor.
    - destruct Hs as [<-|[<-|[<-|[<-|[]]]]]; try discriminate; rewrite attach_writes in W; injection W as <- <- <-; now constructor.
    - unfold exception_code in Hs. destruct t; [destruct Hs|]. destruct Hs as [<-|[<-|[]]]; [discriminate|]. rewrite attach_writes in W. injection W as <- <- <-. econstructor; exact H.
    - destruct Hs as [<-|[]]. cbn in W. injection W as <- <- <-. now constructor.
    - unfold enum_code in Hs. destruct i; [destruct Hs|]. apply in_map_iff in Hs. destruct Hs as (e & <- & He). rewrite attach_writes in W. injection W as <- <- <-.
      unfold enum_exprs in He. apply in_map_iff in He. destruct He as (v & <- & Hv). cbn [fst snd]. eapply offers_value; [exact H|exact Hv|].
      unfold compiles in Cp. rewrite forallb_forall in Cp. specialize (Cp _ (nth_error_In _ _ H)). cbn in Cp. rewrite forallb_forall in Cp.
      specialize (Cp (value_name v, value_expr decls m q ns (option_map (full_of decls) o) v)). unfold as_long. rewrite meant_expr in *. cbn [snd] in Cp.
      destruct (const (meant decls m q ns o v)) as [z|] eqn:Z; [reflexivity|]. exfalso. assert (false = true); [|discriminate]. apply Cp. unfold enum_exprs. apply in_map_iff. exists v. split; [now rewrite meant_expr|exact Hv].
  Qed.
  Lemma offers_item k p n x : offers decls const k p n x -> (exists d s, declared k d /\ In s (item_code decls const k d) /\ writes s = Some (p, n, x)) \/
    exists m y, declared k (DModule (Some m) n y) /\ p = InModule m /\ x = XModule k.
  Proof.
    destruct 1 as [m n H|m c H Ci|m c n H Ci Hn|m c H Ci It|m n o H|m n o H|m n o q H|m c n H|m vs q ns o v z H Hv Z|m n y H].
    - left. exists (DFunction m n), (SAdd m n (XFunction k)). split; [exact H|]. split; [now left|reflexivity].
    - left. exists (DClass m c), (attach m (c_outer c) (class_name c) (XType (Cls k))). split; [exact H|]. split; [|apply attach_writes]. cbn [item_code]. unfold class_code. rewrite Ci.
      do 3 (apply in_or_app; right). right. now left.
    - left. exists (DClass m c), (SAdd m n (XCapsule n)). split; [exact H|]. split; [|reflexivity]. cbn [item_code]. unfold class_code. rewrite Ci. apply in_or_app. left. apply in_map_iff. eauto.
    - left. exists (DClass m c), (SAdd m (class_name c ++ "Iter") (XType (Iter k))). split; [exact H|]. split; [|reflexivity]. cbn [item_code]. unfold class_code. rewrite Ci, It.
      do 3 (apply in_or_app; right). do 3 right. now left.
    - left. exists (DContainer m n o), (attach m o n (XType (Cls k))). split; [exact H|]. split; [cbn; auto|apply attach_writes].
    - left. exists (DContainer m n o), (attach m o (n ++ "Iter") (XType (Iter k))). split; [exact H|]. split; [cbn; auto|apply attach_writes].
    - left. exists (DException m n o q false), (attach m o n (XException k)). split; [exact H|]. split; [cbn; auto|apply attach_writes].
    - left. exists (DTypedef m c n), (SAdd m n (XType (Cls c))). split; [exact H|]. split; [now left|reflexivity].
    - left. exists (DEnum m vs q ns o false), (attach m o (value_name v) (XInt z)). split; [exact H|]. split; [|apply attach_writes]. cbn [item_code]. unfold enum_code. apply in_map_iff.
      exists (value_name v, value_expr decls m q ns (option_map (full_of decls) o) v). cbn [fst snd]. split.
      + unfold as_long. now rewrite meant_expr, Z.
      + unfold enum_exprs. apply in_map_iff. eauto.
    - right. eauto.
  Qed.
  Lemma lowers_flat f m : Forall lowers (flat f m).
  Proof.
    apply Forall_forall. intros s H. apply flat_in in H. destruct H as [(k & d & Hk & H)|(m' & k & n & x & -> & _)]; [|exact Logic.I]. destruct s as [| | |j l| | | |]; try exact Logic.I. cbn [lowers]. intros b Hb.
    destruct d as [q n0 y|m0 n0|m0 c|m0 n0 o|m0 n0 o q t|m0 c a|m0 vs q ns o i]; cbn [item_code] in H.
    - destruct H.
    - destruct H as [H|[]]; discriminate.
    - unfold class_code in H. destruct (c_import c); [destruct H as [H|[]]; discriminate|]. repeat (apply in_app_iff in H; destruct H as [H|H]).
      + apply in_map_iff in H. destruct H as (? & ? & _); discriminate.
      + destruct (c_static c); [destruct H as [H|[]]; discriminate|destruct H].
      + destruct (c_bases c) as [|b0 l0] eqn:Cb; [destruct H|]. destruct H as [[= <- <-]|[]]. pose proof (proj2 Wf k _ Hk) as (_ & _ & _ & W). apply W. now rewrite Cb.
      + destruct H as [H|[H|[]]]; [discriminate|]. destruct (c_outer c); discriminate.
      + destruct (c_iter c); [destruct H as [H|[H|[]]]; discriminate|destruct H].
    - destruct H as [H|[H|[H|[H|[]]]]]; try discriminate; destruct o; discriminate.
    - unfold exception_code in H. destruct t; [destruct H|]. destruct H as [H|[H|[]]]; [discriminate|destruct o; discriminate].
    - destruct H as [H|[]]; discriminate.
    - unfold enum_code in H. destruct i; [destruct H|]. apply in_map_iff in H. destruct H as (e & H & _). destruct o; discriminate.
  Qed.

  Lemma root_lt : 0 < length decls.
  Proof. destruct Wf as [(n & x & H) _]. apply nth_error_Some. unfold declared, ImportSpec.declared in H. congruence. Qed.
  Lemma import_flat : import decls const external = run exec (flat (length decls) 0) rt_start.
  Proof. unfold import. apply init_flat; [exact Wf|lia|apply root_lt]. Qed.
  Lemma declared_flat k d : declared k d -> incl (item_code decls const k d) (flat (length decls) 0).
  Proof.
    intros H s Hs. destruct (home_of d) as [m|] eqn:Hm; [|destruct d; try discriminate; destruct Hs].
    assert (M : a_module decls m /\ m < k) by (pose proof (proj2 Wf k d H) as W; destruct d; try discriminate; cbn in Hm; injection Hm as <-; intuition).
    assert (k < length decls) by (apply nth_error_Some; unfold declared, ImportSpec.declared in H; congruence).
    apply (flat_own (length decls) 0 m); [apply root_under; tauto|lia|lia|]. apply own_in. eauto.
  Qed.

  Lemma found r k p n x : import decls const external = Imported r -> compiles decls const = true ->
    offers decls const k p n x -> (forall k' y, offers decls const k' p n y -> y = x) -> attribute r p n = Some x.
  Proof.
    rewrite import_flat. intros R Cp O U. destruct (run_attr (flat (length decls) 0) rt_start r) as [_ A]; [intros j b []|apply lowers_flat|exact R|]. apply A.
    - apply offers_item in O. destruct O as [(d & s & H & Hs & W)|(m & y & H & -> & ->)].
      + exists s. split; [eapply declared_flat; eassumption|exact W].
      + exists (SAdd m n (XModule k)). split; [|reflexivity]. eapply flat_sub; [|exact H|lia]. apply root_under. exact (proj2 (proj2 Wf k _ H)).
    - intros s y Hs W. apply flat_in in Hs. destruct Hs as [(j & d & Hj & Hs)|(m' & j & n' & x' & -> & Hj)].
      + eapply U. eapply item_offers; eassumption.
      + cbn in W. injection W as <- <- <-. apply (U j). econstructor. exact Hj.
  Qed.
  Lemma only r p n x : import decls const external = Imported r -> compiles decls const = true -> attribute r p n = Some x -> exists k, offers decls const k p n x.
  Proof.
    rewrite import_flat. intros R Cp H. destruct (run_attr (flat (length decls) 0) rt_start r) as [A _]; [intros j b []|apply lowers_flat|exact R|]. apply A in H. destruct H as [H|(s & Hs & W)]; [destruct p; discriminate|].
    apply flat_in in Hs. destruct Hs as [(j & d & Hj & Hs)|(m' & j & n' & x' & -> & Hj)].
    - exists j. eapply item_offers; eassumption.
    - cbn in W. injection W as <- <- <-. exists j. econstructor. exact Hj.
  Qed.
End Contents.
