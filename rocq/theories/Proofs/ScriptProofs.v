From Verif.Model Require Import Py PyState Mangle Errors Overloading Module.
From Verif.Spec Require Import OverloadSpec ModuleSpec PolicySpec SectionSpec.
From Verif.Proofs Require Import StrLemmas ModuleProofs ModuleSteps ModuleNames ModulePaths PolicyProofs DeclaredProofs.
From Coq Require Import Lia.
Open Scope string_scope.
Open Scope list_scope.
Open Scope st_scope.

Lemma mem_spec x l : mem x l = true <-> In x l.
Proof.
  unfold mem. rewrite existsb_exists. split.
  - intros (y & I & E). apply String.eqb_eq in E. now subst.
  - intros I. exists x. split; [assumption|apply String.eqb_refl].
Qed.
Lemma mem_false x l : mem x l = false <-> ~ In x l.
Proof. rewrite <- mem_spec. destruct (mem x l); split; congruence. Qed.

(** ** First occurrences *)
Lemma filter_all {A} (f : A -> bool) l : (forall x, In x l -> f x = true) -> filter f l = l.
Proof.
  induction l as [|x l IH]; intros H; cbn [filter]; [reflexivity|]. rewrite (H x (or_introl eq_refl)), IH; [reflexivity|].
  intros y I. apply H. now right.
Qed.
Lemma first_in l x : In x (first_occurrences l) <-> In x l.
Proof.
  induction l as [|y l IH]; cbn [first_occurrences In]; [tauto|]. rewrite filter_In, IH.
  destruct (String.eqb_spec y x) as [->|N]; cbn; [tauto|]. intuition congruence.
Qed.
Lemma first_nodup l : NoDup (first_occurrences l).
Proof.
  induction l as [|y l IH]; cbn [first_occurrences]; constructor.
  - rewrite filter_In. intros (_ & E). rewrite String.eqb_refl in E. discriminate E.
  - now apply NoDup_filter.
Qed.
Lemma first_snoc l x : first_occurrences (l ++ [x]) = if mem x l then first_occurrences l else first_occurrences l ++ [x].
Proof.
  induction l as [|y l IH]; cbn [first_occurrences app mem existsb filter]; [reflexivity|]. fold (mem x l). rewrite IH.
  destruct (String.eqb_spec x y) as [->|N]; cbn [orb].
  - destruct (mem y l); [reflexivity|]. rewrite filter_app. cbn [filter]. rewrite String.eqb_refl. cbn. now rewrite app_nil_r.
  - destruct (mem x l); [reflexivity|]. rewrite filter_app. cbn [filter]. destruct (String.eqb_spec y x); [congruence|]. reflexivity.
Qed.

(** ** Traces *)
Lemma section_app {V} (a b : list (call V * res answer)) : forall s, section_after s (a ++ b) = section_after (section_after s a) b.
Proof.
  induction a as [|[c r] a IH]; intros s; [reflexivity|]. cbn [app section_after].
  destruct c; destruct r; cbn [section_after]; apply IH.
Qed.
Lemma section_cons {V} (x : call V * res answer) b s : section_after s (x :: b) = section_after (section_after s [x]) b.
Proof. exact (section_app [x] b s). Qed.
Lemma asked_app {V} (a b : list (call V * res answer)) : asked (a ++ b) = asked a ++ asked b.
Proof. induction a as [|[c r] a IH]; [reflexivity|]. cbn [app asked]. destruct c; destruct r; cbn [app]; rewrite ?IH; reflexivity. Qed.
Lemma claimed_app {V} (a b : list (call V * res answer)) : claimed (a ++ b) = claimed a ++ claimed b.
Proof. induction a as [|[c r] a IH]; [reflexivity|]. cbn [app claimed]. destruct c; destruct r; cbn [app]; rewrite ?IH; reflexivity. Qed.
Lemma names_app {V} i (a b : list (call V * res answer)) : names_of i (a ++ b) = names_of i a ++ names_of i b.
Proof.
  induction a as [|[c r] a IH]; [reflexivity|]. cbn [app names_of]. destruct c; destruct r as [[]|]; cbn [app]; rewrite ?IH; try reflexivity.
  destruct (Nat.eqb _ i); reflexivity.
Qed.

Section Script.
  Context {V : Type} (make : list string -> list (string * string) -> res V) (p : policy).

  Lemma step_fields c w w' r : run_call make p c w = (w', r) ->
    w_section w' = section_after (w_section w) [(c, r)] /\
    w_once w' = w_once w ++ claimed [(c, r)] /\ (forall s, In s (claimed [(c, r)]) -> ~ In s (w_once w)) /\
    w_includes w' = match w_includes w with None => None | Some l => Some (l ++ filter (fun s => negb (mem s l)) (asked [(c, r)])) end.
  Proof.
    assert (Q : forall a b, w_section b = w_section a -> w_once b = w_once a -> w_includes b = w_includes a ->
      w_section b = w_section a /\ w_once b = w_once a ++ [] /\ (forall s, In s [] -> ~ In s (w_once a)) /\
      w_includes b = match w_includes a with None => None | Some l => Some (l ++ filter (fun s => negb (mem s l)) []) end).
    { intros a b X Y Z. split; [exact X|]. split; [now rewrite app_nil_r|]. split; [contradiction|]. rewrite Z. destruct (w_includes a); [|reflexivity].
      cbn [filter]. now rewrite app_nil_r. }
    destruct c as [j n ns|j n|i d|i t|i o k a|i s|i s|i s|i s|i s|i f]; intros H.
    - cbn [run_call] in H. destruct (nth_error (w_mods w) j) as [m|] eqn:E.
      + rewrite (sbind_ok _ _ _ _ _ (new_submodule_eq j n ns w m E)) in H.
        replace w' with (with_sub j m n ns w) by (unfold ret in H; congruence). destruct r; apply Q; reflexivity.
      + assert (X : new_submodule j n ns w = (w, Err Unmodelled)).
        { unfold new_submodule. apply sbind_err. unfold get_mod. now rewrite E. }
        rewrite (sbind_err _ _ _ _ _ X) in H. replace w' with w by congruence. destruct r; apply Q; reflexivity.
    - cbn [run_call] in H. destruct (namespace_cases j n w) as [(E & X)|(m & E & [(i & F & X)|(F & X)])].
      + rewrite (sbind_err _ _ _ _ _ X) in H. replace w' with w by congruence. destruct r; apply Q; reflexivity.
      + rewrite (sbind_ok _ _ _ _ _ X) in H. replace w' with w by (unfold ret in H; congruence). destruct r; apply Q; reflexivity.
      + rewrite (sbind_ok _ _ _ _ _ X) in H. replace w' with (with_sub j m n (Some n) w) by (unfold ret in H; congruence). destruct r; apply Q; reflexivity.
    - destruct (function_cases make p i d w) as [(E & X)|(m & l & E & [(e & _ & X)|[(_ & X)|(v & A & X)]])]; rewrite X in H;
        match type of H with (?a, _) = _ => replace w' with a by congruence end; destruct r; apply Q; reflexivity.
    - destruct (type_cases make p i t w) as [(E & X)|(m & l & E & [(e & _ & X)|[(_ & X)|(A & X)]])]; cbv zeta in X; rewrite X in H;
        match type of H with (?a, _) = _ => replace w' with a by congruence end; try (destruct r; apply Q; reflexivity).
      match goal with |- context [register_type ?i ?a ?b ?c ?w0] => pose proof (register_fields i a b c w0) as (A1 & A2 & A3) end.
      destruct r; apply Q; assumption.
    - cbn [run_call] in H. unfold add_typedef, sbind, get_mod in H.
      destruct (nth_error (w_mods w) i); [|replace w' with w by congruence; destruct r; apply Q; reflexivity].
      destruct (nth_error (w_mods w) o); [|replace w' with w by congruence; destruct r; apply Q; reflexivity].
      pose proof (register_fields i (Some a) (Some a) k w) as (A1 & A2 & A3).
      destruct (register_type i (Some a) (Some a) k w) as [w1 [[]|]] eqn:R1; cbn [fst] in A1, A2, A3; [|replace w' with w1 by congruence; destruct r; apply Q; assumption].
      pose proof (register_fields o None (Some a) k w1) as (B1 & B2 & B3).
      destruct (register_type o None (Some a) k w1) as [w2 [[]|]] eqn:R2; cbn [fst] in B1, B2, B3; [|replace w' with w2 by congruence; destruct r; apply Q; congruence].
      unfold gets in H. match type of H with context [register_type o None (Some ?f) k w2] => set (full := f) in * end.
      pose proof (register_fields o None (Some full) k w2) as (C1 & C2 & C3).
      destruct (register_type o None (Some full) k w2) as [w3 [[]|]] eqn:R3; cbn [fst] in C1, C2, C3; replace w' with w3 by (unfold ret in H; congruence); destruct r; apply Q; congruence.
    - cbn [run_call] in H. unfold sbind, get_mod, add_include, ret in H.
      destruct (nth_error (w_mods w) i). 2:{ replace w' with w by congruence. replace r with (@Err answer Unmodelled) by congruence. apply Q; reflexivity. }
      destruct (include_ok s). 2:{ replace w' with w by congruence. replace r with (@Err answer AssertionError) by congruence. apply Q; reflexivity. }
      destruct (w_includes w) as [l|] eqn:I. 2:{ replace w' with w by congruence. replace r with (@Err answer TypeError) by congruence. destruct (Q w w) as (Q1 & Q2 & Q3 & Q4); try reflexivity. auto. }
      replace r with (Ok RNone) by congruence. cbn [section_after claimed asked filter].
      destruct (mem s l) eqn:M; cbn [negb]; match type of H with (?a, _) = _ => replace w' with a by congruence end; cbn [w_section w_once w_includes];
        (split; [reflexivity|]); (split; [now rewrite app_nil_r|]); (split; [contradiction|]); [now rewrite app_nil_r|reflexivity].
    - cbn [run_call] in H. unfold sbind, get_mod, declare_one_time_definition, ret in H.
      destruct (nth_error (w_mods w) i). 2:{ replace w' with w by congruence. replace r with (@Err answer Unmodelled) by congruence. apply Q; reflexivity. }
      destruct (mem s (w_once w)) eqn:M. { replace w' with w by congruence. replace r with (@Err answer KeyError) by congruence. apply Q; reflexivity. }
      replace r with (Ok RNone) by congruence. replace w' with (add_once s w) by congruence. cbn [section_after claimed asked filter].
      split; [reflexivity|]. split; [reflexivity|]. split; [|cbn [add_once w_includes]; destruct (w_includes w); [now rewrite app_nil_r|reflexivity]].
      intros x [<-|[]]. now apply mem_false.
    - cbn [run_call] in H. unfold sbind, get_mod, begin_section, ret in H.
      destruct (nth_error (w_mods w) i). 2:{ replace w' with w by congruence. replace r with (@Err answer Unmodelled) by congruence. apply Q; reflexivity. }
      destruct (negb _). { replace w' with w by congruence. replace r with (@Err answer ValueError) by congruence. apply Q; reflexivity. }
      destruct (String.eqb s "__main__"). { replace w' with w by congruence. replace r with (@Err answer ValueError) by congruence. apply Q; reflexivity. }
      destruct (is_root i w). 2:{ replace w' with w by congruence. replace r with (@Err answer AssertionError) by congruence. apply Q; reflexivity. }
      replace r with (Ok RNone) by congruence. replace w' with (set_section s w) by congruence. cbn [section_after claimed asked filter].
      destruct (Q w w) as (_ & Q2 & Q3 & Q4); try reflexivity. auto.
    - cbn [run_call] in H. unfold sbind, get_mod, end_section, ret in H.
      destruct (nth_error (w_mods w) i). 2:{ replace w' with w by congruence. replace r with (@Err answer Unmodelled) by congruence. apply Q; reflexivity. }
      destruct (is_root i w). 2:{ replace w' with w by congruence. replace r with (@Err answer AssertionError) by congruence. apply Q; reflexivity. }
      destruct (String.eqb (w_section w) s). 2:{ replace w' with w by congruence. replace r with (@Err answer ValueError) by congruence. apply Q; reflexivity. }
      replace r with (Ok RNone) by congruence. replace w' with (set_section "__main__" w) by congruence. cbn [section_after claimed asked filter].
      destruct (Q w w) as (_ & Q2 & Q3 & Q4); try reflexivity. auto.
    - cbn [run_call] in H. unfold sbind, get_mod, modify, ret in H. destruct (nth_error (w_mods w) i);
      match type of H with (?a, _) = _ => replace w' with a by congruence end; destruct r; apply Q; reflexivity.
    - cbn [run_call] in H. unfold sbind, get_mod, modify, ret in H. destruct (nth_error (w_mods w) i);
      match type of H with (?a, _) = _ => replace w' with a by congruence end; destruct r; apply Q; reflexivity.
  Qed.

  (** The section in force, the definitions claimed and the includes asked for. *)
  Lemma run_fields cs : forall w w' tr l0, run make p cs w = (w', tr) -> NoDup (w_once w) -> w_includes w = Some (first_occurrences l0) ->
    w_section w' = section_after (w_section w) tr /\ w_once w' = w_once w ++ claimed tr /\ NoDup (w_once w') /\
    w_includes w' = Some (first_occurrences (l0 ++ asked tr)).
  Proof.
    induction cs as [|c cs IH]; intros w w' tr l0 H N I; cbn [run] in H.
    - replace w' with w by congruence. replace tr with (@nil (call V * res answer)) by congruence. cbn [claimed asked]. rewrite !app_nil_r. auto.
    - destruct (run_call make p c w) as [w1 r] eqn:C. cbn [fst snd] in H. destruct (run make p cs w1) as [w2 t] eqn:R. cbn [fst snd] in H.
      replace w' with w2 by congruence. replace tr with ((c, r) :: t) by congruence.
      destruct (step_fields _ _ _ _ C) as (S1 & S2 & S3 & S4). rewrite I in S4.
      assert (I1 : w_includes w1 = Some (first_occurrences (l0 ++ asked [(c, r)]))).
      { rewrite S4. f_equal. clear -V. destruct c; try (destruct r; cbn [asked filter]; now rewrite !app_nil_r). destruct r; cbn [asked filter]; [|now rewrite !app_nil_r].
        rewrite first_snoc. assert (M : mem s (first_occurrences l0) = mem s l0).
        { destruct (mem s l0) eqn:M.
          - apply mem_spec. apply first_in. now apply mem_spec.
          - apply mem_false. rewrite first_in. now apply mem_false. }
        rewrite M. destruct (mem s l0); cbn [negb]; [now rewrite app_nil_r|reflexivity]. }
      assert (N1 : NoDup (w_once w1)).
      { rewrite S2. clear -N S3. destruct c; try (destruct r; cbn [claimed]; now rewrite app_nil_r). destruct r; cbn [claimed] in *; [|now rewrite app_nil_r].
        apply NoDup_rev in N. rewrite <- (rev_involutive (w_once w ++ [s])). apply NoDup_rev. rewrite rev_app_distr. cbn [rev app].
        constructor; [|assumption]. rewrite <- in_rev. apply S3. now left. }
      destruct (IH _ _ _ _ R N1 I1) as (A & B & C1 & D). rewrite section_cons, <- S1.
      change ((c, r) :: t) with ([(c, r)] ++ t). rewrite claimed_app, asked_app, app_assoc, <- S2, app_assoc. auto.
  Qed.

  (** ** Functions *)
  Definition sets_ok (l : list fset) (names : list string) (decl : string -> list (fdecl V * string)) : Prop :=
    map fs_name l = first_occurrences names /\
    forall f, In f l -> Forall2 (wraps make) (decl (fs_name f)) (fs_wrappers f) /\ fs_wrappers f <> [].
  Lemma sets_add l names decl n d s f : sets_ok l names decl -> wraps make (d, s) f -> (~ In n names -> decl n = []) ->
    sets_ok (add_to n d f l) (names ++ [n]) (fun x => decl x ++ if String.eqb x n then [(d, s)] else []).
  Proof.
    intros (M & F) W E. split.
    - rewrite first_snoc. rewrite <- M. assert (Q : map fs_name (add_to n d f l) = if mem n (map fs_name l) then map fs_name l else map fs_name l ++ [n]).
      { clear. induction l as [|x l IH]; [reflexivity|]. cbn [add_to map mem existsb]. rewrite (String.eqb_sym n (fs_name x)).
        destruct (String.eqb_spec (fs_name x) n) as [->|N]; [reflexivity|]. cbn [orb]. fold (mem n (map fs_name l)). cbn [map]. rewrite IH.
        destruct (mem n (map fs_name l)); reflexivity. }
      rewrite Q. assert (X : mem n (map fs_name l) = mem n names).
      { rewrite M. destruct (mem n names) eqn:X.
        - apply mem_spec, first_in. now apply mem_spec.
        - apply mem_false. rewrite first_in. now apply mem_false. }
      rewrite X. reflexivity.
    - assert (D : NoDup (map fs_name l)) by (rewrite M; apply first_nodup).
      assert (A : forall l, NoDup (map fs_name l) -> (forall g, In g l -> Forall2 (wraps make) (decl (fs_name g)) (fs_wrappers g) /\ fs_wrappers g <> []) ->
        (~ In n (map fs_name l) -> decl n = []) -> forall g, In g (add_to n d f l) ->
        Forall2 (wraps make) (decl (fs_name g) ++ if String.eqb (fs_name g) n then [(d, s)] else []) (fs_wrappers g) /\ fs_wrappers g <> []).
      { clear -W. induction l as [|x l IH]; intros D F E g I.
        - destruct I as [<-|[]]. cbn [fs_name fs_wrappers]. rewrite E by auto. rewrite String.eqb_refl. split; [|discriminate]. constructor; auto.
        - cbn [add_to] in I. cbn [map] in D. apply NoDup_cons_iff in D. destruct D as (D1 & D2). destruct (String.eqb_spec (fs_name x) n) as [<-|N].
          + destruct I as [<-|I].
            * cbn [fs_name fs_wrappers]. rewrite String.eqb_refl. destruct (F x (or_introl eq_refl)) as (F1 & F2). split.
              -- apply Forall2_app; [exact F1|]. constructor; auto.
              -- destruct (fs_wrappers x); discriminate.
            * destruct (String.eqb_spec (fs_name g) (fs_name x)) as [Y|Y].
              -- destruct D1. rewrite <- Y. now apply in_map.
              -- rewrite app_nil_r. apply F. now right.
          + destruct I as [<-|I].
            * destruct (String.eqb_spec (fs_name x) n); [congruence|]. rewrite app_nil_r. apply F. now left.
            * apply IH; auto; [intros y Iy; apply F; now right|]. intros Z. apply E. intros [Z'|Z']; [congruence|now apply Z]. }
      apply A; auto. intros Z. apply E. intros Z'. apply Z. rewrite M. now apply first_in.
  Qed.
  Lemma run_sets i cs : forall w w' tr names decl, run make p cs w = (w', tr) -> sets_ok (functions_at w i) names decl ->
    (forall n, ~ In n names -> decl n = []) ->
    sets_ok (functions_at w' i) (names ++ names_of i tr) (fun n => decl n ++ functions_from i n (w_section w) tr).
  Proof.
    induction cs as [|c cs IH]; intros w w' tr names decl H S E; cbn [run] in H.
    - replace w' with w by congruence. replace tr with (@nil (call V * res answer)) by congruence. cbn [names_of functions_from]. rewrite app_nil_r.
      destruct S as (S1 & S2). split; [exact S1|]. intros f I. rewrite app_nil_r. auto.
    - destruct (run_call make p c w) as [w1 r] eqn:C. cbn [fst snd] in H. destruct (run make p cs w1) as [w2 t] eqn:R. cbn [fst snd] in H.
      replace w' with w2 by congruence. replace tr with ((c, r) :: t) by congruence.
      destruct (step_fields _ _ _ _ C) as (SF & _).
      set (inc := match (c, r) with (CFunctionC j d, Ok (RObject x)) => if Nat.eqb j i then Some (x, d) else None | _ => None end).
      assert (K : sets_ok (functions_at w1 i) (names ++ names_of i [(c, r)]) (fun n => decl n ++ functions_from i n (w_section w) [(c, r)]) /\
                  (forall n, ~ In n (names ++ names_of i [(c, r)]) -> decl n ++ functions_from i n (w_section w) [(c, r)] = [])).
      { destruct (step_content make p _ _ _ _ C) as [(A & (F & _))|[(j & d & n & m & f & -> & -> & Em & Wr & F & _)|(j & u & full & m & x & -> & -> & Em & _ & _ & F)]].
        - assert (names_of i [(c, r)] = [] /\ forall n, functions_from i n (w_section w) [(c, r)] = []) as (-> & Z).
          { clear -A. destruct c; destruct r as [[]|]; cbn in *; try discriminate; auto. }
          rewrite app_nil_r. split.
          + rewrite F. destruct S as (S1 & S2). split; [exact S1|]. intros g I. rewrite Z, app_nil_r. auto.
          + intros n N. rewrite Z, app_nil_r. auto.
        - cbn [names_of functions_from]. rewrite F, (Nat.eqb_sym i j). destruct (Nat.eqb j i); cbn [andb].
          + split.
            * pose proof (sets_add _ _ _ n d _ _ S Wr (E n)) as (Q1 & Q2). split; [exact Q1|]. intros g I. rewrite app_nil_r, (String.eqb_sym n). auto.
            * intros x N. rewrite app_nil_r. destruct (String.eqb_spec n x) as [->|Nx]; [destruct N; apply in_or_app; right; now left|].
              rewrite E; [reflexivity|]. intros Z. apply N, in_or_app. now left.
          + rewrite !app_nil_r. split.
            * destruct S as (S1 & S2). split; [exact S1|]. intros g I. rewrite !app_nil_r. auto.
            * intros x N. rewrite app_nil_r. auto.
        - cbn [names_of functions_from]. rewrite F, !app_nil_r. split.
          + destruct S as (S1 & S2). split; [exact S1|]. intros g I. rewrite !app_nil_r. auto.
          + intros x' N. rewrite app_nil_r. auto. }
      destruct K as (K1 & K2). destruct (IH _ _ _ _ _ R K1 K2) as (Q1 & Q2). change ((c, r) :: t) with ([(c, r)] ++ t).
      rewrite names_app, app_assoc. split; [exact Q1|]. intros f I. destruct (Q2 f I) as (Q3 & Q4). split; [|exact Q4].
      cbn [app functions_from] in Q3 |- *. rewrite app_nil_r, SF in Q3. rewrite app_assoc. exact Q3.
  Qed.
  (** ** Types *)
  Lemma run_types i cs : forall w w' tr d0, run make p cs w = (w', tr) -> Forall2 describes d0 (types_at w i) ->
    Forall2 describes (d0 ++ types_from i (w_section w) tr) (types_at w' i).
  Proof.
    induction cs as [|c cs IH]; intros w w' tr d0 H S; cbn [run] in H.
    - replace w' with w by congruence. replace tr with (@nil (call V * res answer)) by congruence. cbn [types_from]. now rewrite app_nil_r.
    - destruct (run_call make p c w) as [w1 r] eqn:C. cbn [fst snd] in H. destruct (run make p cs w1) as [w2 t] eqn:R. cbn [fst snd] in H.
      replace w' with w2 by congruence. replace tr with ((c, r) :: t) by congruence.
      destruct (step_fields _ _ _ _ C) as (SF & _).
      assert (K : Forall2 describes (d0 ++ types_from i (w_section w) [(c, r)]) (types_at w1 i)).
      { destruct (step_content make p _ _ _ _ C) as [(A & (_ & F))|[(j & d & n & m & f & -> & -> & Em & Wr & _ & F)|(j & u & full & m & x & -> & -> & Em & De & F & _)]].
        - assert (types_from i (w_section w) [(c, r)] = []) as ->.
          { clear -A. destruct c; destruct r as [[]|]; cbn in *; try discriminate; auto. }
          now rewrite app_nil_r, F.
        - cbn [types_from]. now rewrite !app_nil_r, F.
        - cbn [types_from]. rewrite F, (Nat.eqb_sym i j). destruct (Nat.eqb j i); rewrite !app_nil_r; [|exact S].
          apply Forall2_app; [exact S|]. constructor; auto. }
      specialize (IH _ _ _ _ R K). cbn [types_from] in IH |- *. rewrite app_nil_r, SF, <- app_assoc in IH. exact IH.
  Qed.

  (** ** Every module of a declared world is below the root *)
  Lemma below_snoc mods a i m j : below mods a i -> nth_error mods i = Some m -> In j (m_submodules m) -> below mods a j.
  Proof.
    intros B. induction B as [i|i m' k l E I B IH]; intros N J.
    - eapply bl_sub; eauto. constructor.
    - eapply bl_sub; eauto.
  Qed.
  Lemma wf_below mods : wf mods -> forall n i, i < n -> i < length mods -> below mods 0 i.
  Proof.
    intros W. induction n as [|n IH]; intros i L Li; [lia|]. destruct (valid_nth mods i Li) as (m & E).
    destruct (m_parent m) as [j|] eqn:P.
    - destruct (wf_parent _ W _ _ _ E P) as (Lj & mj & Ej & I). eapply below_snoc; eauto. apply IH; [lia|]. now apply nth_valid in Ej.
    - rewrite (wf_only _ W _ _ E P). constructor.
  Qed.
  Lemma root_at name ns i : functions_at (new_root name ns) i = [] /\ types_at (new_root name ns) i = [].
  Proof. unfold functions_at, types_at, new_root, set_mods. cbn [w_mods]. destruct i as [|[|i]]; auto. Qed.

  Theorem script_fields name ns cs w tr : run make p cs (new_root name ns) = (w, tr) ->
    w_section w = current tr /\ w_once w = claimed tr /\ NoDup (claimed tr) /\ w_includes w = Some (first_occurrences (asked tr)).
  Proof.
    intros H. destruct (run_fields cs _ _ _ [] H) as (A & B & C & D); [constructor|reflexivity|]. cbn [new_root set_mods w_once app] in B.
    rewrite B in C. auto.
  Qed.
  Theorem script_sets name ns cs w tr i m : run make p cs (new_root name ns) = (w, tr) -> nth_error (w_mods w) i = Some m ->
    map fs_name (m_functions m) = first_occurrences (names_of i tr) /\
    (forall f, In f (m_functions m) -> Forall2 (wraps make) (functions_named i (fs_name f) tr) (fs_wrappers f) /\ fs_wrappers f <> []) /\
    Forall2 describes (types_in i tr) (m_types m) /\ below (w_mods w) 0 i.
  Proof.
    intros H E. pose proof (root_at name ns i) as (R1 & R2).
    destruct (run_sets i cs _ _ _ [] (fun _ => []) H) as (A & B).
    { rewrite R1. split; [reflexivity|contradiction]. } { reflexivity. }
    pose proof (run_types i cs _ _ _ [] H) as T. rewrite R2 in T. specialize (T (Forall2_nil _)).
    unfold functions_at in A, B. unfold types_at in T. rewrite E in A, B, T. split; [exact A|]. split; [exact B|]. split; [exact T|].
    destruct (run_inv make p _ _ _ _ (root_wf name ns) (root_prefixed name ns) H) as (W & _ & _).
    eapply wf_below; [exact W| |now apply nth_valid in E]. apply Nat.lt_succ_diag_r.
  Qed.
End Script.
