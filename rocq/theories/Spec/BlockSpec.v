(** What a code block history means, read off the calls alone. *)
From Coq Require Import List Arith Bool.
From Verif.Model Require Import CodeBlock.
Import ListNotations.

Section Spec.
  Context {A : Type}.

  (** The calls made after the last clear of block [b]. *)
  Definition is_clear (b : nat) (o : bop A) : bool :=
    match o with BClear b' => b =? b' | _ => false end.
  Fixpoint since_clear (b : nat) (h : list (bop A)) : list (bop A) :=
    match h with
    | [] => []
    | o :: r => if existsb (is_clear b) r then since_clear b r else if is_clear b o then r else o :: r
    end.

  (** The cleanups registered on [b], in order: the n-th one (from 1) has handle n. *)
  Definition registered (b : nat) (h : list (bop A)) : list A :=
    flat_map (fun o => match o with BAdd b' a => if b =? b' then [a] else [] | _ => [] end) h.
  Definition cancelled (b : nat) (h : list (bop A)) (n : nat) : bool :=
    existsb (fun o => match o with BCancel b' n' => (b =? b') && (n =? n') | _ => false end) h.
  Definition numbered (l : list A) : list (nat * A) := combine (seq 1 (length l)) l.

  (** Registered and not cancelled, oldest first. *)
  Definition live (b : nat) (h : list (bop A)) : list A :=
    let h' := since_clear b h in
    map snd (filter (fun na => negb (cancelled b h' (fst na))) (numbered (registered b h'))).

  (** The b-th block created, and its predecessors. *)
  Definition created (h : list (bop A)) : list (option nat * A) :=
    flat_map (fun o => match o with BNew p e => [(p, e)] | _ => [] end) h.
  Inductive lineage (h : list (bop A)) : nat -> list nat -> Prop :=
  | lin_root : forall b e, nth_error (created h) b = Some (None, e) -> lineage h b [b]
  | lin_step : forall b p e l, nth_error (created h) b = Some (Some p, e) ->
      lineage h p l -> lineage h b (b :: l).

  (** The error return in force: the one given at creation, or the last one assigned. *)
  Definition assigned_error (b : nat) (h : list (bop A)) : list A :=
    flat_map (fun o => match o with BSetError b' a => if b =? b' then [a] else [] | _ => [] end) h.
  Definition error_return_of (h : list (bop A)) (b : nat) (a : A) : Prop :=
    exists p e, nth_error (created h) b = Some (p, e) /\ a = last (assigned_error b h) e.

  (** The release sequence due on block [b]: its live cleanups newest first, then its predecessors'. *)
  Definition due (h : list (bop A)) (lin : list nat) : list A :=
    flat_map (fun b => rev (live b h)) lin.
End Spec.
