(** * Heaps, counters *)
From Coq Require Import List Arith Bool Lia.
From Verif.Model Require Import Ownership.
From Verif.Spec Require Import OwnSpec.
Import ListNotations.

Lemma get_nil A i : get (A := A) [] i = None.
Proof. unfold get. destruct i; reflexivity. Qed.

Lemma get_put A (l : heap A) i x j :
  get (put l i x) j = if j =? i then x else get l j.
Proof.
  revert l j; induction i as [|i IH]; intros [|h t] [|j]; cbn; try reflexivity.
  - unfold get; cbn. destruct j; reflexivity.
  - specialize (IH [] j). unfold get in *; cbn. rewrite IH.
    destruct (j =? i); auto. destruct j; reflexivity.
  - specialize (IH t j). unfold get in *; cbn. exact IH.
Qed.

Lemma get_put_eq A (l : heap A) i x : get (put l i x) i = x.
Proof. rewrite get_put, Nat.eqb_refl; reflexivity. Qed.

Lemma get_put_ne A (l : heap A) i x j : j <> i -> get (put l i x) j = get l j.
Proof. intros N. rewrite get_put. apply Nat.eqb_neq in N. rewrite N; reflexivity. Qed.

Lemma get_length A (l : heap A) : get l (length l) = None.
Proof. unfold get. replace (nth_error l (length l)) with (@None (option A)); auto.
  symmetry; apply nth_error_None; lia. Qed.

Lemma get_some_lt A (l : heap A) i x : get l i = Some x -> i < length l.
Proof. unfold get. destruct (nth_error l i) eqn:N; [|discriminate]. intros _.
  apply nth_error_Some. rewrite N; discriminate. Qed.

Lemma put_put A (l : heap A) i x y : put (put l i x) i y = put l i y.
Proof. revert l; induction i as [|i IH]; intros [|h t]; cbn; auto; rewrite IH; reflexivity. Qed.

Definition oval {A} (f : A -> nat) (x : option A) : nat := match x with Some r => f r | None => 0 end.
Fixpoint hsum {A} (f : A -> nat) (l : heap A) : nat :=
  match l with [] => 0 | x :: t => oval f x + hsum f t end.
Fixpoint lsum {A} (f : A -> nat) (l : list A) : nat :=
  match l with [] => 0 | x :: t => f x + lsum f t end.

Lemma hsum_put A (f : A -> nat) l i x :
  hsum f (put l i x) + oval f (get l i) = hsum f l + oval f x.
Proof.
  revert l; induction i as [|i IH]; intros [|h t].
  - unfold get; cbn. lia.
  - unfold get; cbn. lia.
  - specialize (IH []). rewrite get_nil in *; cbn in *. lia.
  - specialize (IH t). unfold get in *; cbn in *. lia.
Qed.

Lemma hsum_same A (f : A -> nat) l i x y :
  get l i = Some x -> f y = f x -> hsum f (put l i (Some y)) = hsum f l.
Proof. intros G E. pose proof (hsum_put _ f l i (Some y)) as Q. rewrite G in Q; cbn in Q. lia. Qed.

Lemma hsum_get A (f : A -> nat) l i : oval f (get l i) <= hsum f l.
Proof. pose proof (hsum_put _ f l i None). cbn in *. lia. Qed.

Lemma hsum_zero A (f : A -> nat) l : hsum f l = 0 -> forall i x, get l i = Some x -> f x = 0.
Proof. intros Z i x G. pose proof (hsum_get _ f l i). rewrite G in *; cbn in *. lia. Qed.

Lemma hsum_zero_intro A (f : A -> nat) l : (forall i x, get l i = Some x -> f x = 0) -> hsum f l = 0.
Proof.
  induction l as [|h t IH]; intros G; cbn; auto.
  rewrite IH. 2:{ intros i x E. apply (G (Datatypes.S i) x). exact E. }
  destruct h as [r|]; cbn; auto. rewrite (G 0 r eq_refl); reflexivity.
Qed.

Lemma hsum_pos A (f : A -> nat) l : 1 <= hsum f l -> exists i x, get l i = Some x /\ 1 <= f x.
Proof.
  induction l as [|h t IH]; cbn; [lia|]. intros P.
  destruct (Nat.eq_dec (oval f h) 0).
  - destruct IH as (i & x & G & Q); [lia|]. exists (Datatypes.S i), x; auto.
  - destruct h as [r|]; cbn in *; [|lia]. exists 0, r; split; auto. lia.
Qed.

Lemma hsum_ext A (f g : A -> nat) l : (forall x, f x = g x) -> hsum f l = hsum g l.
Proof. intros F. induction l as [|[r|] t IH]; cbn; auto. Qed.

Lemma hsum_two A (f : A -> nat) l i j x y :
  i <> j -> get l i = Some x -> get l j = Some y -> f x + f y <= hsum f l.
Proof.
  intros N G1 G2. pose proof (hsum_put _ f l i None) as P1.
  pose proof (hsum_get _ f (put l i None) j) as P2.
  rewrite get_put_ne in P2 by auto. rewrite G1 in P1. rewrite G2 in P2. cbn in *. lia.
Qed.

Lemma lsum_app A (f : A -> nat) l m : lsum f (l ++ m) = lsum f l + lsum f m.
Proof. induction l; cbn; auto; lia. Qed.

Lemma lsum_pos A (f : A -> nat) l : 1 <= lsum f l -> exists x, In x l /\ 1 <= f x.
Proof.
  induction l as [|h t IH]; cbn; [lia|]. intros P. destruct (Nat.eq_dec (f h) 0).
  - destruct IH as (x & I1 & I2); [lia|]. exists x; auto.
  - exists h; split; auto. lia.
Qed.

Lemma lsum_in A (f : A -> nat) l x : In x l -> f x <= lsum f l.
Proof. induction l as [|h t IH]; cbn; [tauto|]. intros [<-|I1]; [|specialize (IH I1)]; lia. Qed.

Definition b2n (b : bool) : nat := if b then 1 else 0.

(** The counters of the invariant. *)
Definition cw (w : wid) (r : wrap) : nat := count_occ Nat.eq_dec (w_wards r) w.
Definition cs (w : wid) (o : cobj) : nat :=
  b2n (match o_self o with Some x => x =? w | None => false end).
Definition ck (w : wid) (t : task) : nat := b2n (match t with KDecref x => x =? w | _ => false end).
Definition cc (w : wid) (f : frame) : nat := b2n (frame_wrap f =? w).
Definition ch (cf : conf) (a : addr) (r : wrap) : nat := b2n (owner_of cf r a).
Definition cd (a : addr) (t : task) : nat := b2n (match t with KDelete x => x =? a | _ => false end).
Definition is_ifree (i : dinstr) : bool := match i with IFree => true | _ => false end.
Definition cz (w : wid) (t : task) : nat :=
  b2n (match t with KCode x c => (x =? w) && existsb is_ifree c | _ => false end).

Lemma ck_decrefs w l : lsum (ck w) (map KDecref l) = count_occ Nat.eq_dec l w.
Proof.
  induction l as [|x t IH]; cbn; auto. rewrite IH. unfold ck.
  destruct (Nat.eq_dec x w) as [->|N].
  - rewrite Nat.eqb_refl; reflexivity.
  - apply Nat.eqb_neq in N. rewrite N; reflexivity.
Qed.
Lemma cd_decrefs a l : lsum (cd a) (map KDecref l) = 0.
Proof. induction l; cbn; auto. Qed.
Lemma cz_decrefs w l : lsum (cz w) (map KDecref l) = 0.
Proof. induction l; cbn; auto. Qed.

Lemma owners_hsum cf s a : owners cf s a = hsum (ch cf a) (s_wraps s).
Proof.
  unfold owners, count_wraps. induction (s_wraps s) as [|[r|] t IH]; cbn; auto.
  unfold ch in *. destruct (owner_of cf r a); cbn; auto.
Qed.

Lemma reported_hsum cf s w :
  reported cf s w = hsum (cw w) (s_wraps s) + b2n (visits_self cf s w).
Proof.
  unfold reported. f_equal. induction (s_wraps s) as [|[r|] t IH]; cbn; auto.
Qed.

Lemma ck_dec x w : ck x (KDecref w) = b2n (w =? x). Proof. reflexivity. Qed.
Lemma ck_code x w c : ck x (KCode w c) = 0. Proof. reflexivity. Qed.
Lemma ck_del x a : ck x (KDelete a) = 0. Proof. reflexivity. Qed.
Lemma cd_dec x w : cd x (KDecref w) = 0. Proof. reflexivity. Qed.
Lemma cd_code x w c : cd x (KCode w c) = 0. Proof. reflexivity. Qed.
Lemma cd_del x a : cd x (KDelete a) = b2n (a =? x). Proof. reflexivity. Qed.
Lemma cz_dec x w : cz x (KDecref w) = 0. Proof. reflexivity. Qed.
Lemma cz_code x w c : cz x (KCode w c) = b2n ((w =? x) && existsb is_ifree c). Proof. reflexivity. Qed.
Lemma cz_del x a : cz x (KDelete a) = 0. Proof. reflexivity. Qed.
Lemma eqb_ne x y : x <> y -> (x =? y) = false. Proof. apply Nat.eqb_neq. Qed.
Lemma eqb_ne' x y : x <> y -> (y =? x) = false. Proof. intros; apply Nat.eqb_neq; auto. Qed.
#[global] Hint Rewrite ck_dec ck_code ck_del cd_dec cd_code cd_del cz_dec cz_code cz_del
  ck_decrefs cd_decrefs cz_decrefs lsum_app Nat.eqb_refl : cnt.
