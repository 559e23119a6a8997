(** * The invariant of all reachable states *)
From Coq Require Import List Arith Bool Lia.
From Verif.Model Require Import Ownership.
From Verif.Spec Require Import OwnSpec.
From Verif.Proofs Require Import OwnHeap.
Import ListNotations.

Definition suffix {A} (c l : list A) : Prop := exists p, l = p ++ c.

Definition is_idelete (i : dinstr) : bool := match i with IDelete _ => true | _ => false end.
Definition is_iclear (i : dinstr) : bool := match i with IClearDict => true | _ => false end.

Section Inv.
Variable cf : conf.
Variable strict : bool.

Definition units (o : cobj) (h d : nat) : Prop :=
  if is_rc cf then
    (if strict then o_rc o = o_cpp o + h else o_cpp o + h <= o_rc o)
    /\ d = (if o_rc o =? 0 then 1 else 0)
  else if strict then o_cpp o + h + d = 1 else o_cpp o + h + d <= 1.

Fixpoint code_ok (l : list task) : Prop :=
  match l with
  | [] => True
  | KCode w c :: rest =>
      (suffix c (gen_dealloc cf) \/ (suffix c (gen_clear cf) /\ exists r, rest = KDecref w :: r))
      /\ code_ok rest
  | _ :: rest => code_ok rest
  end.

Section Parts.
Variable objs : heap cobj.
Variable wraps : heap wrap.
Variable reg : heap wid.
Variable todo : list task.
Variable calls : list frame.

Definition frame_ok (f : frame) (rest : list frame) : Prop :=
  match f with
  | FVirt w saved a =>
      exists o r, get objs a = Some o /\ o_self o = Some w /\ get wraps w = Some r
      /\ w_obj r = Some a
      /\ match saved with
         | None => w_tmp r = true /\ 1 <= o_cpp o /\ ~ In w (map frame_wrap rest)
         | Some b => b = a /\ (w_tmp r = true -> In (FVirt w None a) rest)
         end
  | FTmp w a =>
      exists o r, get objs a = Some o /\ 1 <= o_cpp o /\ get wraps w = Some r
      /\ w_obj r = Some a /\ w_tmp r = true /\ w_virgin r = false /\ w_owned r = true
      /\ hsum (cs w) objs = 0 /\ ~ In w (map frame_wrap rest)
  end.
Fixpoint calls_ok (l : list frame) : Prop :=
  match l with [] => True | f :: rest => frame_ok f rest /\ calls_ok rest end.

Definition P_refs := forall w,
  match get wraps w with
  | Some r => w_refs r = w_ext r + hsum (cw w) wraps + hsum (cs w) objs
                         + lsum (ck w) todo + lsum (cc w) calls
  | None => hsum (cw w) wraps + hsum (cs w) objs + lsum (ck w) todo + lsum (cc w) calls = 0
  end.
Definition P_live := forall w r, get wraps w = Some r ->
  match w_st r with Live => 1 <= w_refs r | _ => w_refs r = 0 end.
Definition P_dead := forall w r, get wraps w = Some r -> w_st r = Dead ->
  w_obj r = None /\ w_wards r = [].
Definition P_units := forall a,
  match get objs a with
  | Some o => units o (hsum (ch cf a) wraps) (lsum (cd a) todo)
  | None => hsum (ch cf a) wraps = 0 /\ lsum (cd a) todo = 0
  end.
Definition P_helper := forall a o, get objs a = Some o ->
  (o_helper o = true -> c_helper cf = true /\ exists w, o_self o = Some w)
  /\ (forall w, o_self o = Some w -> o_helper o = true).
Definition P_self := forall a o w r, get objs a = Some o -> o_self o = Some w ->
  get wraps w = Some r ->
  w_owned r = true /\ w_virgin r = false /\ (w_obj r = None \/ w_obj r = Some a)
  /\ (is_rc cf = true -> (w_obj r = Some a /\ w_tmp r = false) \/ o_rc o = 0).
Definition P_uniq := forall w, hsum (cs w) objs <= 1.
Definition P_virgin := forall w r, get wraps w = Some r -> w_virgin r = true ->
  w_obj r = None /\ w_tmp r = false.
Definition P_nodict := c_subclassing cf = false -> forall w r, get wraps w = Some r -> w_wards r = [].
Definition P_dying := forall w,
  lsum (cz w) todo = match get wraps w with
                     | Some r => match w_st r with Dying => 1 | _ => 0 end
                     | None => 0
                     end.
Definition P_tail := forall w c r, In (KCode w c) todo -> existsb is_ifree c = true ->
  get wraps w = Some r ->
  (existsb is_iclear c = false -> w_wards r = [])
  /\ (deletes cf -> existsb is_idelete c = false -> w_obj r = None).
Definition P_reg := forall a w, get reg a = Some w ->
  c_registry cf = true /\ exists r, get wraps w = Some r /\ w_obj r = Some a /\ w_tmp r = false
  /\ (w_st r = Live \/ exists c rest, todo = KCode w (IUnregister :: c) :: rest).
Definition P_tmp := forall w r, get wraps w = Some r -> w_tmp r = true ->
  exists a, w_obj r = Some a /\ (In (FVirt w None a) calls \/ In (FTmp w a) calls).
Definition P_gc := forall w c, In (KCode w c) todo -> existsb is_ifree c = false ->
  existsb is_idelete c = true ->
  lsum (cc w) calls = 0 /\ (forall a, get reg a <> Some w)
  /\ (is_rc cf = true -> forall a o, get objs a = Some o -> o_self o = Some w -> o_rc o <= 1).

Record Parts : Prop := {
  i_refs : P_refs; i_live : P_live; i_dead : P_dead; i_units : P_units;
  i_helper : P_helper; i_self : P_self; i_uniq : P_uniq; i_virgin : P_virgin;
  i_nodict : P_nodict; i_code : code_ok todo; i_dying : P_dying; i_tail : P_tail;
  i_reg : P_reg; i_calls : calls_ok calls; i_tmp : P_tmp; i_gc : P_gc }.
End Parts.

Definition Inv (s : state) : Prop :=
  Parts (s_objs s) (s_wraps s) (s_reg s) (s_todo s) (s_calls s).

Lemma inv_start : Inv start.
Proof.
  constructor; cbn; auto; red; intros; repeat rewrite get_nil in *; cbn in *; auto; try discriminate; try tauto; try lia.
Qed.

(** ** Consequences *)
Section Facts.
Variables (objs : heap cobj) (wraps : heap wrap) (reg : heap wid) (todo : list task) (calls : list frame).
Hypothesis P : Parts objs wraps reg todo calls.

Lemma wrap_exists w :
  1 <= hsum (cw w) wraps + hsum (cs w) objs + lsum (ck w) todo + lsum (cc w) calls ->
  exists r, get wraps w = Some r /\ w_st r = Live /\ 1 <= w_refs r.
Proof.
  intros G. pose proof (i_refs _ _ _ _ _ P w) as R.
  destruct (get wraps w) as [r|] eqn:Gw; [|lia].
  exists r; split; auto. pose proof (i_live _ _ _ _ _ P w r Gw) as L.
  destruct (w_st r); split; auto; lia.
Qed.

Lemma self_exists a o w : get objs a = Some o -> o_self o = Some w ->
  exists r, get wraps w = Some r /\ w_st r = Live /\ 1 <= w_refs r.
Proof.
  intros G S1. apply wrap_exists. pose proof (hsum_get _ (cs w) objs a) as Q.
  rewrite G in Q; cbn in Q. unfold cs in Q at 1. rewrite S1, Nat.eqb_refl in Q; cbn in Q. lia.
Qed.

Lemma decref_exists w : In (KDecref w) todo ->
  exists r, get wraps w = Some r /\ w_st r = Live /\ 1 <= w_refs r.
Proof.
  intros G. apply wrap_exists. pose proof (lsum_in _ (ck w) todo _ G) as Q.
  unfold ck in Q at 1. rewrite Nat.eqb_refl in Q; cbn in Q. lia.
Qed.

Lemma frame_exists f : In f calls ->
  exists r, get wraps (frame_wrap f) = Some r /\ w_st r = Live /\ 1 <= w_refs r.
Proof.
  intros G. apply wrap_exists. pose proof (lsum_in _ (cc (frame_wrap f)) calls _ G) as Q.
  unfold cc in Q at 1. rewrite Nat.eqb_refl in Q; cbn in Q. lia.
Qed.

Lemma dealloc_exists w c : In (KCode w c) todo -> existsb is_ifree c = true ->
  exists r, get wraps w = Some r /\ w_st r = Dying /\ w_refs r = 0.
Proof.
  intros G E. pose proof (lsum_in _ (cz w) todo _ G) as Q. unfold cz in Q at 1.
  rewrite Nat.eqb_refl, E in Q; cbn in Q.
  pose proof (i_dying _ _ _ _ _ P w) as D.
  destruct (get wraps w) as [r|] eqn:Gw; [|lia]. exists r; split; auto.
  pose proof (i_live _ _ _ _ _ P w r Gw) as L. destruct (w_st r); try lia; auto.
Qed.

Lemma cz_none w r : get wraps w = Some r -> w_st r <> Dying -> lsum (cz w) todo = 0.
Proof.
  intros G N. pose proof (i_dying _ _ _ _ _ P w) as D. rewrite G in D.
  destruct (w_st r); auto; tauto.
Qed.

Lemma not_in_call w : lsum (cc w) calls = 0 -> ~ In w (map frame_wrap calls).
Proof.
  intros Z I1. apply in_map_iff in I1. destruct I1 as (f & E & I1).
  pose proof (lsum_in _ (cc w) calls _ I1) as Q. unfold cc in Q at 1.
  rewrite E, Nat.eqb_refl in Q; cbn in Q. lia.
Qed.
Lemma not_in_call' w : ~ In w (map frame_wrap calls) -> lsum (cc w) calls = 0.
Proof.
  intros N. destruct (Nat.eq_dec (lsum (cc w) calls) 0); auto. exfalso; apply N.
  destruct (lsum_pos _ (cc w) calls) as (f & I1 & I2); [lia|].
  apply in_map_iff. exists f; split; auto. unfold cc in I2.
  destruct (frame_wrap f =? w) eqn:E; [|cbn in I2; lia]. apply Nat.eqb_eq; auto.
Qed.

(** The frame on top of a suffix of [calls]. *)
Lemma calls_frame f : In f calls -> exists rest, frame_ok objs wraps f rest /\ incl rest calls.
Proof.
  pose proof (i_calls _ _ _ _ _ P) as C. clear P. induction calls as [|g t IH]; cbn in *; [tauto|].
  destruct C as [C1 C2]. intros [<-|I1].
  - exists t; split; auto. intros x; cbn; auto.
  - destruct (IH C2 I1) as (rest & F & I2). exists rest; split; auto. intros x; cbn; auto.
Qed.

(** An object lent to a running override is not being deleted. *)
Lemma call_alive a : In a (map frame_addr calls) ->
  exists o, get objs a = Some o /\ lsum (cd a) todo = 0
  /\ (is_rc cf = true -> 1 <= o_rc o).
Proof.
  intros I1. apply in_map_iff in I1. destruct I1 as (f & <- & I1).
  destruct (calls_frame f I1) as (rest & F & _).
  pose proof (i_units _ _ _ _ _ P (frame_addr f)) as U.
  assert (Q : exists o, get objs (frame_addr f) = Some o /\
              1 <= o_cpp o + hsum (ch cf (frame_addr f)) wraps).
  { destruct f as [w saved a|w a]; cbn in *.
    - destruct F as (o & r & G & S1 & Gw & Ob & M). exists o; split; auto.
      destruct (w_tmp r) eqn:T.
      + assert (1 <= o_cpp o); [|lia]. destruct saved as [b|].
        * destruct M as (-> & M). specialize (M eq_refl).
          destruct (i_tmp _ _ _ _ _ P w r Gw T) as (a' & Ob' & M').
          assert (a' = a) by congruence. subst a'.
          destruct M' as [M'|M'].
          -- destruct (calls_frame _ M') as (rest' & (o' & r' & G' & _ & _ & _ & _ & Q & _) & _).
             congruence.
          -- destruct (calls_frame _ M') as (rest' & (o' & r' & G' & Q & _) & _). congruence.
        * tauto.
      + pose proof (hsum_get _ (ch cf a) wraps w) as Q. rewrite Gw in Q; cbn in Q.
        unfold ch in Q at 1. unfold owner_of, owns in Q. rewrite T, Ob, Nat.eqb_refl in Q.
        pose proof (i_self _ _ _ _ _ P a o w r G S1 Gw) as (Ow & _). rewrite Ow in Q.
        destruct (c_policy cf); cbn in Q; lia.
    - destruct F as (o & r & G & Q & _). exists o; split; auto. lia. }
  destruct Q as (o & G & Q). exists o. rewrite G in U. split; auto.
  unfold units in U. destruct (is_rc cf).
  - destruct U as [U1 U2]. assert (1 <= o_rc o) by (destruct strict; lia).
    destruct (o_rc o =? 0) eqn:E; [apply Nat.eqb_eq in E; lia|]. auto.
  - destruct strict; split; try lia; discriminate.
Qed.

Lemma doomed_alive a : In (KDelete a) todo -> exists o, get objs a = Some o.
Proof.
  intros I1. pose proof (lsum_in _ (cd a) todo _ I1) as Q. unfold cd in Q at 1.
  rewrite Nat.eqb_refl in Q; cbn in Q. pose proof (i_units _ _ _ _ _ P a) as U.
  destruct (get objs a) as [o|]; eauto. lia.
Qed.

(** A wrapper that owns the object it points to. *)
Lemma owner_alive w r a : get wraps w = Some r -> owns cf r = true -> w_obj r = Some a ->
  exists o, get objs a = Some o /\ 1 <= hsum (ch cf a) wraps.
Proof.
  intros G O1 Ob. pose proof (hsum_get _ (ch cf a) wraps w) as Q. rewrite G in Q; cbn in Q.
  unfold ch in Q at 1. unfold owner_of in Q. rewrite O1, Ob, Nat.eqb_refl in Q; cbn in Q.
  pose proof (i_units _ _ _ _ _ P a) as U. destruct (get objs a) as [o|]; eauto. lia.
Qed.
End Facts.
End Inv.
