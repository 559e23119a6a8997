(** Proofs for C07. *)
From Coq Require Import Lia.
From Verif.Model Require Import Py Params PyArgs.
From Verif.Spec Require Import ParamSpec ArgSpec.
From Verif.Proofs Require Import ParamProofs.
Open Scope list_scope.

Section P.
Context {V W : Type} (conv : string -> V -> option W).
Variables (args : list V) (kwargs : dict V).

Definition sup (i : nat) (k : string) : option V :=
  match nth_error args i with Some v => Some v | None => dict_get kwargs k end.

(** Names still to be consumed by keyword. *)
Fixpoint sel (i : nat) (ks : list string) : list string :=
  match ks with
  | [] => []
  | k :: r => match nth_error args i, dict_get kwargs k with
              | None, Some _ => k :: sel (S i) r
              | _, _ => sel (S i) r
              end
  end.

Fixpoint ideal (us ks : list string) (i : nat) : option (list (option W)) :=
  match us, ks with
  | u :: us', k :: ks' =>
      match sup i k with
      | Some v => match conv u v, ideal us' ks' (S i) with Some w, Some r => Some (Some w :: r) | _, _ => None end
      | None => match ideal us' ks' (S i) with Some r => Some (None :: r) | None => None end
      end
  | _, _ => Some []
  end.

Definition with_left (o : option (list (option W))) (L : nat) : option (list (option W) * nat) :=
  match o with Some r => Some (r, L) | None => None end.

Lemma sel_nil_ideal us ks i : length us = length ks -> nth_error args i = None -> sel i ks = [] ->
  ideal us ks i = Some (map (fun _ => None) ks).
Proof.
  revert us i; induction ks as [|k r IH]; intros [|u us] i Hl Hn Hs; try discriminate; [reflexivity|].
  cbn in *. unfold sup. rewrite Hn in *.
  destruct (dict_get kwargs k); [discriminate|].
  rewrite IH; auto. apply nth_error_None. apply nth_error_None in Hn. lia.
Qed.

Lemma loop_opt us : forall ks i m L, length us = length ks -> Forall (fun u => is_bar u = false) us -> m <= i ->
  kw_loop conv us ks i (Some m) args kwargs (length (sel i ks) + L) = 
  with_left (ideal us ks i) L.
Proof.
  induction us as [|u us IH]; intros [|k ks] i m L Hl Hb Hm; try discriminate; [reflexivity|].
  inversion Hb as [|? ? Hu Hus]; subst. injection Hl as Hl.
  cbn [kw_loop]. rewrite Hu. cbn [sel ideal]. unfold sup.
  destruct (nth_error args i) as [v|] eqn:Ha.
  - destruct (conv u v) as [w|]; [|reflexivity].
    rewrite IH by (auto; lia). destruct (ideal us ks (S i)); reflexivity.
  - destruct (dict_get kwargs k) as [v|] eqn:Hk.
    + cbn [length Nat.add]. destruct (conv u v) as [w|]; [|reflexivity].
      rewrite IH by (auto; lia). destruct (ideal us ks (S i)); reflexivity.
    + destruct (Nat.ltb_spec i m); [lia|].
      destruct (length (sel (S i) ks) + L) as [|n] eqn:E.
      * assert (L = 0) by lia. assert (E2 : sel (S i) ks = []) by (destruct (sel (S i) ks); cbn in *; [auto|lia]).
        subst L. rewrite (sel_nil_ideal us ks (S i) Hl); [reflexivity| |exact E2].
        apply nth_error_None. apply nth_error_None in Ha. lia.
      * rewrite <- E, IH by (auto; lia). destruct (ideal us ks (S i)); reflexivity.
Qed.

Fixpoint all_supplied (ks : list string) (i : nat) : bool :=
  match ks with [] => true | k :: r => match sup i k with Some _ => all_supplied r (S i) | None => false end end.

Definition opt_fmt (uo : list string) : list string := match uo with [] => [] | _ => "|"%string :: uo end.

Lemma loop_req ur : forall uo ks ko i L,
  length ur = length ks -> length uo = length ko ->
  Forall (fun u => is_bar u = false) ur -> Forall (fun u => is_bar u = false) uo ->
  kw_loop conv (ur ++ opt_fmt uo) (ks ++ ko) i None args kwargs (length (sel i (ks ++ ko)) + L) =
  if all_supplied ks i then with_left (ideal (ur ++ uo) (ks ++ ko) i) L else None.
Proof.
  induction ur as [|u us IH]; intros uo [|k ks] ko i L Hl Hlo Hb Hbo; try discriminate.
  - cbn [app all_supplied]. destruct uo as [|u uo].
    + destruct ko; [|discriminate]. reflexivity.
    + destruct ko as [|k ko]; [discriminate|].
      pose proof (loop_opt (u :: uo) (k :: ko) i i L Hlo Hbo (le_n _)) as Q. rewrite <- Q.
      cbn [opt_fmt kw_loop]. change (is_bar "|") with true. cbv iota.
      inversion Hbo as [|? ? Hu Hus]; subst. rewrite Hu. reflexivity.
  - inversion Hb as [|? ? Hu Hus]; subst. injection Hl as Hl.
    cbn [app kw_loop]. rewrite Hu. cbn [sel ideal all_supplied]. unfold sup.
    destruct (nth_error args i) as [v|] eqn:Ha.
    + destruct (conv u v) as [w|].
      * rewrite IH by auto. destruct (all_supplied ks (S i)); [|reflexivity].
        destruct (ideal (us ++ uo) (ks ++ ko) (S i)); reflexivity.
      * destruct (all_supplied ks (S i)); reflexivity.
    + destruct (dict_get kwargs k) as [v|] eqn:Hk.
      * cbn [length Nat.add]. destruct (conv u v) as [w|].
        -- rewrite IH by auto. destruct (all_supplied ks (S i)); [|reflexivity].
           destruct (ideal (us ++ uo) (ks ++ ko) (S i)); reflexivity.
        -- destruct (all_supplied ks (S i)); reflexivity.
      * destruct (length (sel (S i) (ks ++ ko)) + L); reflexivity.
Qed.

Lemma all_supplied_spec ks i : all_supplied ks i = true <->
  forall j k, nth_error ks j = Some k -> sup (i + j) k <> None.
Proof.
  revert i; induction ks as [|k r IH]; intros i; cbn.
  - split; [intros _ [|j] k; discriminate|reflexivity].
  - destruct (sup i k) eqn:E.
    + rewrite IH. split.
      * intros H [|j] k' Hk; cbn in Hk.
        -- injection Hk as <-. rewrite Nat.add_0_r. congruence.
        -- rewrite Nat.add_succ_r. apply H, Hk.
      * intros H j k' Hk. specialize (H (S j) k' Hk). now rewrite Nat.add_succ_r in H.
    + split; [discriminate|]. intros H. specialize (H 0 k eq_refl). rewrite Nat.add_0_r in H. congruence.
Qed.

Lemma ideal_spec us ks i r : length us = length ks ->
  (ideal us ks i = Some r <->
   length r = length ks /\
   forall j k, nth_error ks j = Some k ->
     match sup (i + j) k with
     | Some v => exists u w, nth_error us j = Some u /\ conv u v = Some w /\ nth_error r j = Some (Some w)
     | None => nth_error r j = Some None
     end).
Proof.
  revert ks i r; induction us as [|u us IH]; intros [|k ks] i r Hl; try discriminate.
  - cbn. split.
    + intros [= <-]. split; [reflexivity|]. intros [|j] k; discriminate.
    + intros [H _]. destruct r; [reflexivity|discriminate].
  - injection Hl as Hl. cbn [ideal].
    assert (R : forall x t, r = x :: t ->
       (forall j k0, nth_error (k :: ks) j = Some k0 ->
         match sup (i + j) k0 with
         | Some v => exists u' w, nth_error (u :: us) j = Some u' /\ conv u' v = Some w /\ nth_error r j = Some (Some w)
         | None => nth_error r j = Some None end) <->
       (match sup i k with Some v => exists w, conv u v = Some w /\ x = Some w | None => x = None end /\
        forall j k0, nth_error ks j = Some k0 ->
         match sup (S i + j) k0 with
         | Some v => exists u' w, nth_error us j = Some u' /\ conv u' v = Some w /\ nth_error t j = Some (Some w)
         | None => nth_error t j = Some None end)).
    { intros x t ->. split.
      - intros H. split.
        + specialize (H 0 k eq_refl). rewrite Nat.add_0_r in H. cbn in H. destruct (sup i k).
          * destruct H as [u' [w [[= <-] [H1 [= ->]]]]]. eauto.
          * now injection H.
        + intros j k0 Hk. specialize (H (S j) k0 Hk). now rewrite Nat.add_succ_r in H.
      - intros [H1 H2] [|j] k0 Hk; cbn in Hk.
        + injection Hk as <-. rewrite Nat.add_0_r. cbn. destruct (sup i k).
          * destruct H1 as [w [H1 ->]]. eauto.
          * now subst x.
        + rewrite Nat.add_succ_r. apply H2, Hk. }
    split.
    + intros H.
      assert (E : exists x t, r = x :: t /\ ideal us ks (S i) = Some t /\
         match sup i k with Some v => exists w, conv u v = Some w /\ x = Some w | None => x = None end).
      { destruct (sup i k) as [v|].
        - destruct (conv u v) as [w|]; [|discriminate]. destruct (ideal us ks (S i)) as [t|]; [|discriminate].
          injection H as <-. eauto 8.
        - destruct (ideal us ks (S i)) as [t|]; [|discriminate]. injection H as <-. eauto 8. }
      destruct E as [x [t [-> [E1 E2]]]]. apply IH in E1 as [E1 E3]; [|easy].
      split; [cbn; lia|]. apply (R x t eq_refl). auto.
    + intros [H1 H2]. destruct r as [|x t]; [discriminate|]. apply (R x t eq_refl) in H2 as [H2 H3].
      assert (E : ideal us ks (S i) = Some t) by (apply IH; auto).
      rewrite E. destruct (sup i k).
      * destruct H2 as [w [-> ->]]. reflexivity.
      * now subst x.
Qed.

(** Keyword arguments left over. *)
Lemma sel_in i ks k : In k (sel i ks) <->
  exists j, nth_error ks j = Some k /\ nth_error args (i + j) = None /\ dict_get kwargs k <> None.
Proof.
  revert i; induction ks as [|x r IH]; intros i; cbn.
  - split; [intros []|intros [[|j] [H _]]; discriminate].
  - assert (T : In k (sel (S i) r) <-> exists j, nth_error (x :: r) (S j) = Some k /\ nth_error args (i + S j) = None /\ dict_get kwargs k <> None).
    { rewrite IH. split; intros [j H]; exists j; [rewrite Nat.add_succ_r|rewrite Nat.add_succ_r in H]; exact H. }
    assert (Q : (exists j, nth_error (x :: r) j = Some k /\ nth_error args (i + j) = None /\ dict_get kwargs k <> None) <->
      (x = k /\ nth_error args i = None /\ dict_get kwargs k <> None) \/ In k (sel (S i) r)).
    { rewrite T. split.
      - intros [[|j] H]; [left|right; eauto]. rewrite Nat.add_0_r in H. cbn in H. destruct H as [[= ->] H]; auto.
      - intros [H|[j H]]; [exists 0|eauto]. rewrite Nat.add_0_r. destruct H as [-> H]. auto. }
    rewrite Q. destruct (nth_error args i); [|destruct (dict_get kwargs x) eqn:D].
    + split; [auto|]. intros [[_ [? _]]|]; [discriminate|auto].
    + cbn. split; [intros [->|]; auto|intros [[-> _]|]; auto]. left. split; auto. split; auto. congruence.
    + split; [auto|]. intros [[-> [_ H]]|]; [congruence|auto].
Qed.

Lemma sel_nodup i ks : NoDup ks -> NoDup (sel i ks).
Proof.
  intros H; revert i; induction H as [|k r Hk _ IH]; intros i; cbn; [constructor|].
  destruct (nth_error args i); [apply IH|]. destruct (dict_get kwargs k); [|apply IH].
  constructor; [|apply IH]. intros Hi. apply Hk. apply sel_in in Hi as [j [Hj _]]. eapply nth_error_In; eauto.
Qed.

Lemma dict_get_in (d : dict V) k : dict_get d k <> None <-> In k (map fst d).
Proof.
  induction d as [|[k' v] r IH]; cbn; [split; [congruence|intros []]|].
  destruct (String.eqb_spec k k').
  - subst. split; [now left|discriminate].
  - rewrite IH. split; [auto|]. intros [|]; [congruence|auto].
Qed.

Lemma sel_bound i ks : length (sel i ks) <= length ks - (length args - i).
Proof.
  revert i; induction ks as [|k r IH]; intros i; cbn [sel length] in *; [lia|].
  specialize (IH (S i)). destruct (nth_error args i) eqn:E.
  - assert (i < length args) by (apply nth_error_Some; congruence). lia.
  - apply nth_error_None in E. destruct (dict_get kwargs k); cbn [length]; lia.
Qed.

Lemma sel_total ks : NoDup ks -> NoDup (map fst kwargs) ->
  length (sel 0 ks) <= length kwargs /\
  (length (sel 0 ks) = length kwargs <->
   forall k, In k (map fst kwargs) -> exists i, length args <= i /\ nth_error ks i = Some k).
Proof.
  intros Hks Hd. pose proof (sel_nodup 0 ks Hks) as N.
  assert (I : incl (sel 0 ks) (map fst kwargs)).
  { intros k Hk. apply sel_in in Hk as [j [_ [_ Hk]]]. now apply dict_get_in. }
  split.
  - rewrite <- (map_length fst kwargs). apply NoDup_incl_length; auto.
  - split.
    + intros E k Hk. assert (Hin : In k (sel 0 ks)).
      { refine (NoDup_length_incl N (l' := map fst kwargs) _ I k Hk). rewrite map_length. apply Nat.eq_le_incl. now symmetry. }
      apply sel_in in Hin as [j [H1 [H2 _]]]. exists j. split; [|auto]. now apply nth_error_None.
    + intros H. apply Nat.le_antisymm.
      * rewrite <- (map_length fst kwargs). apply NoDup_incl_length; auto.
      * rewrite <- (map_length fst kwargs). apply NoDup_incl_length; auto.
        intros k Hk. destruct (H k Hk) as [i [H1 H2]]. apply sel_in. exists i.
        split; [auto|]. split; [now apply nth_error_None|]. now apply dict_get_in.
Qed.

Lemma sup_supplied kws i k : nth_error kws i = Some k -> sup i k = supplied kws args kwargs i.
Proof. intros H. unfold sup, supplied. now rewrite H. Qed.
End P.

Lemma names_split items req opt kw : well_ordered items req opt -> map p_name items = map Some kw ->
  exists kr ko, kw = kr ++ ko /\ length kr = length req /\ length ko = length opt.
Proof.
  intros [-> _] H. exists (firstn (length req) kw), (skipn (length req) kw).
  assert (L : length kw = length req + length opt).
  { rewrite <- (map_length Some kw), <- H, map_length, app_length. reflexivity. }
  rewrite firstn_skipn, firstn_length_le, skipn_length by lia. repeat split; lia.
Qed.

Definition plain_templates (items : list pitem) : Prop := Forall (fun i => p_template i <> "|"%string) items.

Lemma plain_not_bar items : plain_templates items -> Forall (fun u => is_bar u = false) (map p_template items).
Proof.
  induction 1 as [|i r Hi _ IH]; constructor; auto. unfold is_bar. now apply String.eqb_neq.
Qed.

Theorem binding : forall (V W : Type) (conv : string -> V -> option W) items req opt kw args kwargs fmt,
  well_ordered items req opt -> map p_name items = map Some kw -> NoDup kw -> NoDup (map fst kwargs) ->
  plain_templates items -> parse_template items false = Ok fmt ->
  forall r,
  parse_tuple_and_keywords conv fmt kw args kwargs = Some r <->
  acceptable (length req) kw args kwargs /\ bound conv (map p_template items) kw args kwargs r.
Proof.
  intros V W conv items req opt kw args kwargs fmt Hw Hn Hk Hd Hp Hf r.
  rewrite (template_ok _ _ _ Hw) in Hf. injection Hf as <-.
  destruct (names_split _ _ _ _ Hw Hn) as [kr [ko [-> [Lr Lo]]]].
  destruct Hw as [-> [Hr Ho]].
  apply Forall_app in Hp as [Hpr Hpo]. apply plain_not_bar in Hpr, Hpo.
  assert (E : (match opt with [] => [] | _ :: _ => ["|"%string] end ++ map p_template opt) = opt_fmt (map p_template opt)).
  { destruct opt; reflexivity. }
  rewrite E. clear E.
  set (ur := map p_template req) in *. set (uo := map p_template opt) in *.
  assert (Lur : length ur = length kr) by (unfold ur; rewrite map_length; lia).
  assert (Luo : length uo = length ko) by (unfold uo; rewrite map_length; lia).
  destruct (sel_total args kwargs (kr ++ ko) Hk Hd) as [T1 T2].
  set (L := length kwargs - length (sel args kwargs 0 (kr ++ ko))).
  assert (HL : length kwargs = length (sel args kwargs 0 (kr ++ ko)) + L) by lia.
  pose proof (loop_req conv args kwargs ur uo kr ko 0 L Lur Luo Hpr Hpo) as Q. rewrite <- HL in Q.
  unfold parse_tuple_and_keywords. rewrite Q. clear Q.
  assert (Lu : length (ur ++ uo) = length (kr ++ ko)) by (rewrite !app_length; lia).
  assert (B : ideal conv args kwargs (ur ++ uo) (kr ++ ko) 0 = Some r <->
              bound conv (ur ++ uo) (kr ++ ko) args kwargs r).
  { rewrite ideal_spec by exact Lu. unfold bound. split; intros [B1 B2]; (split; [exact B1|]).
    - intros i Hi. destruct (nth_error (kr ++ ko) i) as [k|] eqn:Ek.
      2:{ apply nth_error_None in Ek; lia. }
      specialize (B2 i k Ek). cbn in B2. rewrite (sup_supplied _ _ _ _ _ Ek) in B2. exact B2.
    - intros j k Ek. cbn. rewrite (sup_supplied _ _ _ _ _ Ek). apply B2.
      apply nth_error_Some. congruence. }
  assert (S : all_supplied args kwargs kr 0 = true <->
              forall i, i < length req -> supplied (kr ++ ko) args kwargs i <> None).
  { rewrite all_supplied_spec. split.
    - intros H i Hi. destruct (nth_error kr i) as [k|] eqn:Ek.
      2:{ apply nth_error_None in Ek; lia. }
      rewrite <- (sup_supplied args kwargs (kr ++ ko) i k); [exact (H i k Ek)|].
      rewrite nth_error_app1; [exact Ek|lia].
    - intros H j k Ek. cbn. assert (Hj : j < length kr) by (apply nth_error_Some; congruence).
      rewrite (sup_supplied args kwargs (kr ++ ko) j k); [apply H; lia|].
      rewrite nth_error_app1; auto. }
  unfold acceptable. rewrite map_app. fold ur uo.
  destruct (Nat.ltb_spec (length (kr ++ ko)) (length args + length kwargs)) as [Hc|Hc].
  - split; [discriminate|]. intros [[A1 [A2 A3]] _]. exfalso.
    apply T2 in A2. pose proof (sel_bound args kwargs 0 (kr ++ ko)). lia.
  - destruct (all_supplied args kwargs kr 0) eqn:AS.
    + destruct (ideal conv args kwargs (ur ++ uo) (kr ++ ko) 0) as [r'|] eqn:ID; cbn [with_left].
      * destruct L eqn:EL.
        -- split.
           ++ intros [= <-]. split; [|now apply B]. split; [lia|]. split; [apply T2; lia|now apply S].
           ++ intros [_ Hb]. now apply B.
        -- split; [discriminate|]. intros [[_ [A2 _]] _]. apply T2 in A2. lia.
      * split; [discriminate|]. intros [_ Hb]. apply B in Hb. discriminate.
    + split; [discriminate|]. intros [[_ [_ A3]] _]. apply S in A3. discriminate.
Qed.

(** Positional only. *)
Lemma units_plain l : Forall (fun u => is_bar u = false) l -> units l = l.
Proof. unfold units; induction 1 as [|u r Hu _ IH]; cbn; [reflexivity|]. now rewrite Hu, IH. Qed.
Lemma units_app a b : units (a ++ b) = units a ++ units b.
Proof. unfold units; apply filter_app. Qed.
Lemma required_app a b : Forall (fun u => is_bar u = false) a -> required_units (a ++ b) = length a + required_units b.
Proof. induction 1 as [|u r Hu _ IH]; cbn; [reflexivity|]. now rewrite Hu, IH. Qed.

Lemma nth_error_ext_local {T} (a b : list T) : (forall i, nth_error a i = nth_error b i) -> a = b.
Proof.
  revert b; induction a as [|x r IH]; intros [|y t] H; [reflexivity| | |].
  - now specialize (H 0).
  - now specialize (H 0).
  - pose proof (H 0) as H0; injection H0 as ->. f_equal. apply IH. intros i. apply (H (S i)).
Qed.

Lemma tuple_loop_spec {V W} (conv : string -> V -> option W) us args r : length args <= length us ->
  (tuple_loop conv us args = Some r <->
   length r = length us /\
   forall i, i < length us ->
     match nth_error args i with
     | Some v => exists u w, nth_error us i = Some u /\ conv u v = Some w /\ nth_error r i = Some (Some w)
     | None => nth_error r i = Some None
     end).
Proof.
  revert args r; induction us as [|u us IH]; intros args r Hl; cbn [tuple_loop].
  - split; [intros [= <-]; split; [reflexivity|cbn; lia]|]. intros [H _]. destruct r; [reflexivity|discriminate].
  - destruct args as [|v a].
    + split.
      * intros [= <-]. cbn [map length]. rewrite map_length. split; [reflexivity|].
        intros i Hi. assert (N : @nth_error V [] i = None) by (now apply nth_error_None; cbn; lia). rewrite N.
        change (None :: map (fun _ : string => None) us) with (map (fun _ : string => @None W) (u :: us)).
        rewrite nth_error_map.
        destruct (nth_error (u :: us) i) eqn:E; [reflexivity|]. apply nth_error_None in E. cbn in E. lia.
      * intros [H1 H2]. f_equal. apply nth_error_ext_local. intros i.
        destruct (Nat.lt_ge_cases i (length (u :: us))) as [Hi|Hi].
        -- specialize (H2 i Hi). assert (N : @nth_error V [] i = None) by (now apply nth_error_None; cbn; lia).
           rewrite N in H2. rewrite H2.
           change (None :: map (fun _ : string => None) us) with (map (fun _ : string => @None W) (u :: us)).
           rewrite nth_error_map. destruct (nth_error (u :: us) i) eqn:E; [reflexivity|].
           apply nth_error_None in E. lia.
        -- rewrite (proj2 (nth_error_None r i)) by lia.
           apply nth_error_None. cbn [length map]. rewrite map_length. exact Hi.
    + cbn in Hl. specialize (IH a). split.
      * destruct (conv u v) as [w|] eqn:Ec; [|discriminate].
        destruct (tuple_loop conv us a) as [t|] eqn:Et; [|discriminate]. intros [= <-].
        destruct (proj1 (IH t ltac:(lia)) eq_refl) as [H1 H2]. split; [cbn; lia|].
        intros [|i] Hi; cbn; [eauto|]. apply H2. cbn in Hi; lia.
      * intros [H1 H2]. destruct r as [|x t]; [discriminate|].
        pose proof (H2 0 ltac:(cbn; lia)) as H0. cbn in H0. destruct H0 as [u' [w [[= <-] [Hw [= ->]]]]].
        rewrite Hw. assert (Et : tuple_loop conv us a = Some t).
        { apply IH; [lia|]. split; [cbn in H1; lia|]. intros i Hi. apply (H2 (S i)). cbn; lia. }
        now rewrite Et.
Qed.

Theorem binding_positional : forall (V W : Type) (conv : string -> V -> option W) items req opt args fmt,
  well_ordered items req opt -> plain_templates items -> parse_template items false = Ok fmt ->
  forall r,
  parse_tuple_only conv fmt args = Some r <->
  length req <= length args <= length items /\ length r = length items /\
  forall i, i < length items ->
    match nth_error args i with
    | Some v => exists it w, nth_error items i = Some it /\ conv (p_template it) v = Some w /\ nth_error r i = Some (Some w)
    | None => nth_error r i = Some None
    end.
Proof.
  intros V W conv items req opt args fmt Hw Hp Hf r.
  rewrite (template_ok _ _ _ Hw) in Hf. injection Hf as <-.
  pose proof (plain_not_bar _ Hp) as Hpb.
  destruct Hw as [-> [Hr Ho]]. rewrite map_app in Hpb. apply Forall_app in Hpb as [Hpr Hpo].
  unfold parse_tuple_only.
  assert (U : units (map p_template req ++ match opt with [] => [] | _ :: _ => ["|"%string] end ++ map p_template opt) =
              map p_template (req ++ opt)).
  { rewrite !units_app, (units_plain _ Hpr), (units_plain _ Hpo), map_app. destruct opt; reflexivity. }
  assert (R : required_units (map p_template req ++ match opt with [] => [] | _ :: _ => ["|"%string] end ++ map p_template opt)
              = length req).
  { rewrite required_app, map_length by exact Hpr. destruct opt; cbn; lia. }
  rewrite U, R, map_length.
  destruct (Nat.ltb_spec (length args) (length req)); cbn [orb]; [split; [discriminate|lia]|].
  destruct (Nat.ltb_spec (length (req ++ opt)) (length args)); [split; [discriminate|lia]|].
  rewrite tuple_loop_spec by (rewrite map_length; lia). rewrite map_length.
  split.
  - intros [H1 H2]. split; [lia|]. split; [exact H1|]. intros i Hi. specialize (H2 i Hi).
    destruct (nth_error args i); [|exact H2]. destruct H2 as [u [w [E1 [E2 E3]]]].
    rewrite nth_error_map in E1. destruct (nth_error (req ++ opt) i) as [it|]; [|discriminate].
    injection E1 as <-. eauto.
  - intros [_ [H1 H2]]. split; [exact H1|]. intros i Hi. specialize (H2 i Hi).
    destruct (nth_error args i); [|exact H2]. destruct H2 as [it [w [E1 [E2 E3]]]].
    exists (p_template it), w. rewrite nth_error_map, E1. auto.
Qed.
