(** Proofs about the sequence protocol. *)
From Verif.Model Require Import Py Sequence.
From Verif.Spec Require Import SequenceSpec.
From Coq Require Import ZArith Lia.
Open Scope string_scope.
Open Scope list_scope.
Local Open Scope Z_scope.

Lemma to_int_fits z : fits_int z -> to_int z = z.
Proof. unfold fits_int, to_int. intros H. rewrite Z.mod_small; [|change (2 ^ 32) with 4294967296; change (2 ^ 31) with 2147483648 in *; lia]. lia. Qed.
Lemma in_ssize_ok z : in_ssize z = true <-> fits_ssize z.
Proof. unfold in_ssize, fits_ssize. rewrite andb_true_iff, Z.leb_le, Z.ltb_lt. reflexivity. Qed.
Lemma in_ssize_no z : in_ssize z = false <-> ~ fits_ssize z.
Proof. rewrite <- in_ssize_ok. destruct (in_ssize z); split; intros; congruence. Qed.

Lemma get_flat {V} (F : string * string -> option V) l key : NoDup (map snd l) ->
  dict_get (flat_map (fun x => match F x with Some v => [(snd x, v)] | None => [] end) l) key =
  match find (fun x => String.eqb (snd x) key) l with Some x => F x | None => None end.
Proof.
  induction l as [|[a b] r IH]; intros N; [reflexivity|]. cbn [map snd] in N. apply NoDup_cons_iff in N. destruct N as [N N'].
  cbn [flat_map find snd]. specialize (IH N'). destruct (String.eqb b key) eqn:E.
  - apply String.eqb_eq in E. subst b. destruct (F (a, key)) as [v|].
    + cbn. rewrite String.eqb_refl. reflexivity.
    + cbn [app]. rewrite IH. destruct (find (fun x : string * string => String.eqb (snd x) key) r) as [[p q]|] eqn:X; [|reflexivity].
      apply find_some in X. destruct X as [X Y]. apply String.eqb_eq in Y. cbn in Y. subst q. destruct N. apply in_map_iff. exists (p, key). split; [reflexivity | exact X].
  - rewrite <- IH. destruct (F (a, b)) as [v|]; [|reflexivity]. cbn. rewrite String.eqb_sym, E. reflexivity.
Qed.
Definition code_of (py_name slot_name : string) (m : methods_entry) : option (list stmt) :=
  dict_get templates (if String.eqb py_name "__len__" && ((1 <? e_wrappers m)%nat || e_function m) then (slot_name ++ "_ARGS")%string else slot_name).
Definition entry_of (w : world) (c : cls) (x : string * string) : option (string * list stmt) :=
  match dict_get (w c) (fst x) with Some m => option_map (pair (fst x)) (code_of (fst x) (snd x) m) | None => None end.
Lemma slots_flat w c : slots w c = flat_map (fun x => match entry_of w c x with Some v => [(snd x, v)] | None => [] end) valid_sequence_methods.
Proof.
  unfold slots. apply flat_map_ext. intros [a b]. unfold entry_of, code_of. cbn [fst snd]. destruct (dict_get (w c) a) as [m|]; [|reflexivity].
  destruct (dict_get templates _); reflexivity.
Qed.
Lemma slots_nodup : NoDup (map snd valid_sequence_methods).
Proof. cbn. repeat (constructor; [cbn; intros H; repeat (destruct H as [H|H]; [discriminate H|]); exact H |]). constructor. Qed.
Lemma slots_get w c key : dict_get (slots w c) key = match find (fun x => String.eqb (snd x) key) valid_sequence_methods with Some x => entry_of w c x | None => None end.
Proof. rewrite slots_flat. apply get_flat. exact slots_nodup. Qed.
Lemma dict_has {V} (d : dict V) k : (exists v, dict_get d k = Some v) <-> In k (map fst d).
Proof.
  induction d as [|[a b] r IH]; cbn.
  - split; [intros (v & H); discriminate H | intros []].
  - destruct (String.eqb k a) eqn:E.
    + apply String.eqb_eq in E. subst. split; [intros _; left; reflexivity | intros _; exists b; reflexivity].
    + apply String.eqb_neq in E. rewrite IH. split; [intros H; right; exact H | intros [H|H]; [congruence | exact H]].
Qed.

Section Exec.
  Variables obj exc state : Type.
  Variable as_int : obj -> option Z.
  Variable stops : exc -> bool.
  Variable meth : cls -> string -> obj -> option (list (arg obj)) -> state -> state * (obj + exc).
  Variable line : cls -> list cls.
  Variable class_of : obj -> option cls.
  Variable w : world.
  Local Notation method_of := (method_of obj line class_of w).
  Local Notation lacks := (lacks obj line class_of w).
  Local Notation slot_of := (slot_of obj line class_of w).
  Local Notation call_slot := (call_slot obj exc state as_int stops meth).
  Local Notation len_of := (len_of obj exc state as_int meth line class_of w).
  Local Notation position := (position obj exc state as_int meth line class_of w).
  Local Notation item_at := (item_at obj exc state as_int meth line class_of w).
  Local Notation size := (size obj exc state as_int stops meth line class_of w).
  Local Notation adjust := (adjust obj exc state as_int stops meth line class_of w).
  Local Notation get_index := (get_index obj exc state as_int stops meth line class_of w).

  Lemma method_one x name d d' : method_of x name d -> method_of x name d' -> d = d'.
  Proof.
    intros (c & p & q & C & E & H & B) (c' & p' & q' & C' & E' & H' & B'). rewrite C in C'. injection C' as <-. rewrite E in E'.
    clear E C. revert p' E' B'. induction p as [|a p IH]; intros [|a' p'] E' B'; cbn in E'.
    - congruence.
    - injection E' as <- _. destruct (B' d (or_introl eq_refl) H).
    - injection E' as -> _. destruct (B d' (or_introl eq_refl) H').
    - injection E' as _ E'. apply (IH (fun e I => B e (or_intror I)) p' E'). intros e I. exact (B' e (or_intror I)).
  Qed.
  (** The slot of a name: the code, for the class that has the method. *)
  Lemma slot_method name slot x :
    find (fun y => String.eqb (snd y) slot) valid_sequence_methods = Some (name, slot) ->
    (forall m, exists code, code_of name slot m = Some code) ->
    match slot_of slot x with
    | Some (d, (n, code)) => method_of x name d /\ n = name /\ exists m, dict_get (w d) name = Some m /\ code_of name slot m = Some code
    | None => lacks x name
    end.
  Proof.
    intros F K. unfold Sequence.slot_of, SequenceSpec.lacks, SequenceSpec.method_of. destruct (class_of x) as [c|] eqn:C.
    2: { intros d (c & p & q & X & _). congruence. }
    assert (G : match inherited line w slot c with
                | Some (d, (n, code)) => (exists p q, line c = p ++ d :: q /\ has w d name /\ forall e, In e p -> ~ has w e name) /\ n = name /\ exists m, dict_get (w d) name = Some m /\ code_of name slot m = Some code
                | None => forall d, In d (line c) -> ~ has w d name
                end).
    { unfold inherited. induction (line c) as [|e r IH]; [intros d []|]. cbn [fold_right]. rewrite slots_get, F. unfold entry_of. cbn [fst snd].
      destruct (dict_get (w e) name) as [m|] eqn:D.
      - destruct (K m) as (code & KM). rewrite KM. cbn [option_map]. split; [|split; [reflexivity | exists m; split; [exact D | exact KM]]].
        exists [], r. split; [reflexivity|]. split; [apply dict_has; exists m; exact D | intros e' []].
      - assert (N : ~ has w e name) by (intros X; apply dict_has in X; destruct X as (v & X); congruence).
        destruct (fold_right _ None r) as [[d [n code]]|].
        + destruct IH as ((p & q & E & H & B) & R). split; [|exact R]. exists (e :: p), q. split; [cbn; congruence|]. split; [exact H|].
          intros e' [<-|I]; [exact N | exact (B e' I)].
        + intros d [<-|I]; [exact N | exact (IH d I)]. }
    destruct (inherited line w slot c) as [[d [n code]]|].
    - destruct G as ((p & q & E & H & B) & R). split; [|exact R]. exists c, p, q. repeat split; assumption.
    - intros d (c' & p & q & X & E & H & _). injection X as <-. apply (G d); [rewrite E; apply in_or_app; right; left; reflexivity | exact H].
  Qed.
  Ltac slot_of_name name :=
    match goal with |- context [slot_of ?slot ?x] =>
      let L := fresh "L" in
      assert (L := slot_method name slot x eq_refl);
      let K := fresh "K" in
      assert (K : forall m, exists code, code_of name slot m = Some code)
        by (intros m; unfold code_of; cbn [String.eqb Ascii.eqb Bool.eqb andb]; try destruct ((1 <? e_wrappers m)%nat || e_function m); eexists; reflexivity);
      specialize (L K); clear K;
      destruct (slot_of slot x) as [[d [n code]]|]
    end.
  (** code that does not depend on the entry *)
  Ltac known_code L := let C := fresh "C" in destruct L as (L & -> & ? & _ & C); cbn in C; injection C as <-.

  Lemma size_ok x s : let '(s1, r, k) := size x s in len_of x s s1 r /\ k = 0.
  Proof.
    unfold Sequence.size. slot_of_name "__len__".
    - destruct L as (L & -> & m & ME & M). unfold code_of in M. cbn [String.eqb Ascii.eqb Bool.eqb andb] in M.
      assert (A : forall a, len_args obj w d a ->
        let out := match meth d "__len__" x a s with
                   | (s1, inl o) => match as_int o with
                       | Some z => if in_ssize z then (s1, (if z <? 0 then Raise obj exc (SystemE _) else Number obj exc z), 0) else (s1, Raise obj exc (OverflowE _), 0)
                       | None => (s1, Raise obj exc (TypeE _), 0) end
                   | (s1, inr e) => (s1, Raise obj exc (RuntimeE _), 0) end in
        let '(s1, r, k) := out in len_of x s s1 r /\ k = 0).
      { intros a AA. cbv zeta. destruct (meth d "__len__" x a s) as [s1 [o|e]] eqn:R.
        - destruct (as_int o) as [z|] eqn:O.
          + destruct (in_ssize z) eqn:S.
            * apply in_ssize_ok in S. split; [|reflexivity]. destruct (Z.ltb_spec z 0).
              -- exact (len_negative _ _ _ _ _ _ _ _ _ _ _ _ _ _ _ L AA R O S H).
              -- exact (len_ok _ _ _ _ _ _ _ _ _ _ _ _ _ _ _ L AA R O S H).
            * apply in_ssize_no in S. split; [|reflexivity]. exact (len_large _ _ _ _ _ _ _ _ _ _ _ _ _ _ _ L AA R O S).
          + split; [|reflexivity]. exact (len_not_int _ _ _ _ _ _ _ _ _ _ _ _ _ _ L AA R O).
        - split; [|reflexivity]. exact (len_fails _ _ _ _ _ _ _ _ _ _ _ _ _ _ L AA R). }
      assert (E : match call_slot (d, ("__len__", code)) x 0 None s with
                  | Some (s1, VNumber _ z, e, a, r) => (s1, (if z <? 0 then Raise obj exc (or_system exc e) else Number obj exc z), a + r)
                  | Some (s1, _, e, a, r) => (s1, Dies obj exc, a + r)
                  | None => (s, Dies obj exc, 0)
                  end = match meth d "__len__" x (if ((1 <? e_wrappers m)%nat || e_function m)%bool then Some [] else None) s with
                   | (s1, inl o) => match as_int o with
                       | Some z => if in_ssize z then (s1, (if z <? 0 then Raise obj exc (SystemE _) else Number obj exc z), 0) else (s1, Raise obj exc (OverflowE _), 0)
                       | None => (s1, Raise obj exc (TypeE _), 0) end
                   | (s1, inr e) => (s1, Raise obj exc (RuntimeE _), 0) end).
      { unfold Sequence.call_slot. destruct ((1 <? e_wrappers m)%nat || e_function m)%bool; cbn in M; injection M as <-;
          cbn [fst snd run_body run_stmt start l_args l_state l_result l_number l_error t_args t_result];
          (match goal with |- context [meth d "__len__" x ?a s] => destruct (meth d "__len__" x a s) as [s1 [o|e]] end);
          cbn -[in_ssize Z.ltb]; try reflexivity;
          (destruct (as_int o) as [z|]; [destruct (in_ssize z)|]); cbn -[in_ssize Z.ltb]; try reflexivity;
          destruct (z <? 0); reflexivity. }
      assert (A' := A (if ((1 <? e_wrappers m)%nat || e_function m)%bool then Some [] else None)). cbv zeta in A'. rewrite <- E in A'.
      apply A'. split; [destruct ((1 <? e_wrappers m)%nat || e_function m)%bool; [right | left]; reflexivity|].
      intros m' ME' K. rewrite ME in ME'. injection ME' as <-.
      assert (T : ((1 <? e_wrappers m)%nat || e_function m)%bool = true).
      { apply orb_true_intro. destruct K as [K|K]; [left; apply Nat.ltb_lt; exact K | right; exact K]. }
      rewrite T. reflexivity.
    - split; [constructor 1; exact L | reflexivity].
  Qed.
  Lemma len_shape x s s1 r : len_of x s s1 r -> (exists n, r = Number _ _ n) \/ exists e, r = Raise _ _ e.
  Proof. intros H. inversion H; [right | left | right ..]; eexists; reflexivity. Qed.
  Lemma adjust_ok x i s : let '(s1, r, k) := adjust x i s in position x i s s1 r /\ k = 0.
  Proof.
    unfold Sequence.adjust. destruct (Z.ltb_spec i 0) as [I|I]; [|split; [constructor 1; exact I | reflexivity]].
    pose proof (size_ok x s) as Z. slot_of_name "__len__".
    - destruct L as (L & _). destruct (size x s) as [[s1 r] k]. destruct Z as [Z ->]. pose proof (len_shape _ _ _ _ Z) as [(n0 & ->)|(e & ->)].
      + split; [exact (from_end _ _ _ _ _ _ _ _ _ _ _ d _ _ I L Z) | reflexivity].
      + split; [exact (bad_length _ _ _ _ _ _ _ _ _ _ _ d _ _ I L Z) | reflexivity].
    - split; [constructor 2; assumption | reflexivity].
  Qed.
  Lemma position_raise x i s s1 r : position x i s s1 (inr r) -> exists e, r = Raise _ _ e.
  Proof. intros H. inversion H. eexists. reflexivity. Qed.

  Lemma get_index_ok x i s : (forall s1 j, position x i s s1 (inl j) -> fits_int j) ->
    let '(s1, r, k) := get_index x i s in item_at x i s s1 r /\ k = 0.
  Proof.
    intros F. unfold Sequence.get_index. slot_of_name "__getitem__"; [|split; [constructor 1; exact L | reflexivity]].
    known_code L. pose proof (adjust_ok x i s) as A. destruct (adjust x i s) as [[s1 [j|r]] k]; destruct A as [A ->].
    - unfold object_result, Sequence.call_slot. cbn [fst snd run_body run_stmt start l_args l_state l_result l_number l_error t_args t_result build option_map].
      rewrite (to_int_fits j (F _ _ A)).
      destruct (meth d "__getitem__" x (Some [AInt obj j]) s1) as [s2 [o|e]] eqn:R; cbn.
      + split; [|reflexivity]. exact (item_ok _ _ _ _ _ _ _ _ _ _ _ _ _ _ _ _ L A R).
      + destruct (stops e); cbn; (split; [|reflexivity]); exact (item_ok _ _ _ _ _ _ _ _ _ _ _ _ _ _ _ _ L A R).
    - split; [|reflexivity]. exact (item_bad _ _ _ _ _ _ _ _ _ _ _ _ _ _ L A).
  Qed.
  Local Notation get_item := (get_item obj exc state as_int stops meth line class_of w).
  Local Notation set_item := (set_item obj exc state as_int stops meth line class_of w).
  Lemma get_item_ok x key s : (forall i s1 j, as_int key = Some i -> position x i s s1 (inl j) -> fits_int j) ->
    let '(s1, r, k) := get_item x key s in item_of obj exc state as_int meth line class_of w x key s s1 r /\ k = 0.
  Proof.
    intros F. unfold Sequence.get_item. slot_of_name "__getitem__"; [|split; [constructor 1; exact L | reflexivity]].
    known_code L. unfold as_ssize. destruct (as_int key) as [i|] eqn:I; [|split; [exact (key_not_int _ _ _ _ _ _ _ _ _ _ _ _ L I) | reflexivity]].
    destruct (in_ssize i) eqn:S.
    - apply in_ssize_ok in S. pose proof (get_index_ok x i s (fun s1 j => F i s1 j eq_refl)) as G.
      destruct (get_index x i s) as [[s1 r] k]. destruct G as [G ->]. split; [|reflexivity]. exact (key_ok _ _ _ _ _ _ _ _ _ _ _ _ _ _ _ L I S G).
    - apply in_ssize_no in S. split; [exact (key_large _ _ _ _ _ _ _ _ _ _ _ _ _ L I S) | reflexivity].
  Qed.
  (** The reference to a result that is not an integer is lost. *)
  Lemma set_item_ok x key v s : (forall i s1 j, as_int key = Some i -> position x i s s1 (inl j) -> fits_int j) ->
    let '(s1, r, k) := set_item x key (Some v) s in set_of obj exc state as_int meth line class_of w x key v s s1 r /\
      (k = 0 \/ k = 1 /\ exists d i s0 j o, method_of x "__setitem__" d /\ as_int key = Some i /\ position x i s s0 (inl j) /\
                   meth d "__setitem__" x (Some [AInt _ j; AObj _ v]) s0 = (s1, inl o) /\ as_int o = None).
  Proof.
    intros F. unfold Sequence.set_item. slot_of_name "__setitem__"; [|split; [constructor 1; exact L | left; reflexivity]].
    known_code L. unfold as_ssize. destruct (as_int key) as [i|] eqn:I; [|split; [exact (set_not_int _ _ _ _ _ _ _ _ _ _ _ _ _ L I) | left; reflexivity]].
    destruct (in_ssize i) eqn:S.
    2: { apply in_ssize_no in S. split; [exact (set_large _ _ _ _ _ _ _ _ _ _ _ _ _ _ L I S) | left; reflexivity]. }
    apply in_ssize_ok in S. pose proof (adjust_ok x i s) as A. destruct (adjust x i s) as [[s1 [j|r]] k]; destruct A as [A ->].
    2: { split; [exact (set_bad _ _ _ _ _ _ _ _ _ _ _ _ _ _ _ _ L I S A) | left; reflexivity]. }
    unfold Sequence.call_slot. cbn [fst snd run_body run_stmt start l_args l_state l_result l_number l_error t_args t_result build option_map].
    rewrite (to_int_fits j (F _ _ _ eq_refl A)).
    destruct (meth d "__setitem__" x (Some [AInt obj j; AObj obj v]) s1) as [s2 [o|e]] eqn:R; cbn -[in_ssize to_int].
    - destruct (as_int o) as [z|] eqn:O; cbn -[in_ssize to_int]; rewrite ?O; cbn -[in_ssize to_int].
      + destruct (Z_le_dec (- 2 ^ 31) z) as [Z1|Z1]; [destruct (Z_lt_dec z (2 ^ 31)) as [Z2|Z2]|].
        * assert (B : fits_int z) by (split; assumption).
          assert (C : in_ssize z = true) by (apply in_ssize_ok; unfold fits_ssize; split; lia).
          rewrite C. cbn -[to_int]. rewrite (to_int_fits z B). split; [|left; reflexivity].
          exact (set_status _ _ _ _ _ _ _ _ _ _ _ _ _ _ _ _ _ _ _ L I S A R O B).
        * destruct (in_ssize z); cbn -[to_int]; (split; [|left; reflexivity]);
            apply (set_wide _ _ _ _ _ _ _ _ _ _ _ _ _ _ _ _ _ _ _ _ L I S A R O); intros [B C]; lia.
        * destruct (in_ssize z); cbn -[to_int]; (split; [|left; reflexivity]);
            apply (set_wide _ _ _ _ _ _ _ _ _ _ _ _ _ _ _ _ _ _ _ _ L I S A R O); intros [B C]; lia.
      + split; [exact (set_no_status _ _ _ _ _ _ _ _ _ _ _ _ _ _ _ _ _ _ L I S A R O)|].
        right. split; [reflexivity|]. exists d, i, s1, j, o. repeat split; assumption.
    - split; [exact (set_fails _ _ _ _ _ _ _ _ _ _ _ _ _ _ _ _ _ _ L I S A R) | left; reflexivity].
  Qed.
  Local Notation contains := (contains obj exc state as_int stops meth line class_of w).
  Lemma contains_ok x v s d0 : method_of x "__contains__" d0 ->
    let '(s1, r, k) := contains x v s in contained obj exc state as_int meth line class_of w x v s s1 r /\ k = 0.
  Proof.
    intros H. unfold Sequence.contains. slot_of_name "__contains__"; [|destruct (L _ H)].
    known_code L. unfold Sequence.call_slot. cbn [fst snd run_body run_stmt start l_args l_state l_result l_number l_error t_args t_result build option_map].
    destruct (meth d "__contains__" x (Some [AObj obj v]) s) as [s2 [o|e]] eqn:R; cbn -[in_ssize to_int].
    - destruct (as_int o) as [z|] eqn:O; cbn -[in_ssize to_int]; rewrite ?O; cbn -[in_ssize to_int].
      + destruct (Z_le_dec (- 2 ^ 31) z) as [Z1|Z1]; [destruct (Z_lt_dec z (2 ^ 31)) as [Z2|Z2]|].
        * assert (B : fits_int z) by (split; assumption).
          assert (C : in_ssize z = true) by (apply in_ssize_ok; unfold fits_ssize; split; lia).
          rewrite C. cbn -[to_int Z.ltb]. rewrite (to_int_fits z B). split; [|reflexivity]. destruct (Z.ltb_spec z 0) as [N|N].
          -- exact (in_negative _ _ _ _ _ _ _ _ _ _ _ _ _ _ _ L R O B N).
          -- exact (in_ok _ _ _ _ _ _ _ _ _ _ _ _ _ _ _ L R O B N).
        * destruct (in_ssize z); cbn -[to_int]; (split; [|reflexivity]);
            apply (in_wide _ _ _ _ _ _ _ _ _ _ _ _ _ _ _ _ L R O); intros [B C]; lia.
        * destruct (in_ssize z); cbn -[to_int]; (split; [|reflexivity]);
            apply (in_wide _ _ _ _ _ _ _ _ _ _ _ _ _ _ _ _ L R O); intros [B C]; lia.
      + split; [exact (in_not_int _ _ _ _ _ _ _ _ _ _ _ _ _ _ L R O) | reflexivity].
    - split; [exact (in_fails _ _ _ _ _ _ _ _ _ _ _ _ _ _ L R) | reflexivity].
  Qed.
  Local Notation concat := (concat obj exc state as_int stops meth line class_of w).
  Local Notation repeat := (repeat obj exc state as_int stops meth line class_of w).
  Local Notation inplace_concat := (inplace_concat obj exc state as_int stops meth line class_of w).
  Local Notation inplace_repeat := (inplace_repeat obj exc state as_int stops meth line class_of w).
  Lemma concat_ok x y s : let '(s1, r, k) := concat x y s in sum_of obj exc state meth line class_of w x y s s1 r /\ k = 0.
  Proof.
    unfold Sequence.concat. slot_of_name "__add__"; [|split; [constructor 2; exact L | reflexivity]]. known_code L.
    unfold object_result, Sequence.call_slot. cbn [fst snd run_body run_stmt start l_args l_state l_result l_number l_error t_args t_result build option_map].
    destruct (meth d "__add__" x (Some [AObj obj y]) s) as [s2 [o|e]] eqn:R; cbn; (split; [|reflexivity]); constructor 1;
      exact (joined_by _ _ _ _ _ _ _ _ _ _ _ _ _ _ L R).
  Qed.
  Lemma inplace_concat_ok x y s : let '(s1, r, k) := inplace_concat x y s in inplace_sum_of obj exc state meth line class_of w x y s s1 r /\ k = 0.
  Proof.
    unfold Sequence.inplace_concat. pose proof (concat_ok x y s) as C. slot_of_name "__iadd__".
    - known_code L.
      unfold object_result, Sequence.call_slot. cbn [fst snd run_body run_stmt start l_args l_state l_result l_number l_error t_args t_result build option_map].
      destruct (meth d "__iadd__" x (Some [AObj obj y]) s) as [s2 [o|e]] eqn:R; cbn; (split; [|reflexivity]); constructor 1;
        exact (joined_by _ _ _ _ _ _ _ _ _ _ _ _ _ _ L R).
    - destruct (concat x y s) as [[s1 r] k]. destruct C as [C ->]. split; [constructor 2; assumption | reflexivity].
  Qed.
  Lemma repeat_with_ok name x n s d : method_of x name d ->
    (forall i, as_int n = Some i -> fits_int i) ->
    let '(s1, r, k) := repeat_with obj exc state as_int stops meth (d, (name, [BuildArgs [UInt]; CallMethod true; DecrefArgs; ReturnResult])) x n s in
    repeated obj exc state as_int meth line class_of w name x n s s1 r /\ k = 0.
  Proof.
    intros L F. unfold repeat_with, as_ssize. destruct (as_int n) as [i|] eqn:I; [|split; [exact (repeat_not_int _ _ _ _ _ _ _ _ _ _ _ _ _ L I) | reflexivity]].
    destruct (in_ssize i) eqn:S.
    - apply in_ssize_ok in S. unfold object_result, Sequence.call_slot. cbn [fst snd run_body run_stmt start l_args l_state l_result l_number l_error t_args t_result build option_map].
      rewrite (to_int_fits i (F i eq_refl)).
      destruct (meth d name x (Some [AInt obj i]) s) as [s2 [o|e]] eqn:R; cbn; (split; [|reflexivity]);
        exact (repeated_by _ _ _ _ _ _ _ _ _ _ _ _ _ _ _ _ L I S R).
    - apply in_ssize_no in S. split; [exact (repeat_large _ _ _ _ _ _ _ _ _ _ _ _ _ _ L I S) | reflexivity].
  Qed.
  Lemma repeat_ok x y s : (forall i, as_int x = Some i -> fits_int i) -> (forall i, as_int y = Some i -> fits_int i) ->
    let '(s1, r, k) := repeat x y s in product_of obj exc state as_int meth line class_of w x y s s1 r /\ k = 0.
  Proof.
    intros FX FY. unfold Sequence.repeat. slot_of_name "__mul__".
    - known_code L. pose proof (repeat_with_ok "__mul__" x y s d L FY) as W. destruct (repeat_with _ _ _ _ _ _ _ _ _ _) as [[s1 r] k].
      destruct W as [W ->]. split; [constructor 1; exact W | reflexivity].
    - slot_of_name "__mul__".
      + known_code L0. pose proof (repeat_with_ok "__mul__" y x s d L0 FX) as W. destruct (repeat_with _ _ _ _ _ _ _ _ _ _) as [[s1 r] k].
        destruct W as [W ->]. split; [constructor 2; assumption | reflexivity].
      + split; [constructor 3; assumption | reflexivity].
  Qed.
  Lemma inplace_repeat_ok x y s : (forall i, as_int x = Some i -> fits_int i) -> (forall i, as_int y = Some i -> fits_int i) ->
    let '(s1, r, k) := inplace_repeat x y s in inplace_product_of obj exc state as_int meth line class_of w x y s s1 r /\ k = 0.
  Proof.
    intros FX FY. unfold Sequence.inplace_repeat. pose proof (repeat_ok x y s FX FY) as C. slot_of_name "__imul__".
    - known_code L. pose proof (repeat_with_ok "__imul__" x y s d L FY) as W. destruct (repeat_with _ _ _ _ _ _ _ _ _ _) as [[s1 r] k].
      destruct W as [W ->]. split; [constructor 1; exact W | reflexivity].
    - destruct (repeat x y s) as [[s1 r] k]. destruct C as [C ->]. split; [constructor 2; assumption | reflexivity].
  Qed.
  Lemma iterate_ok x d : method_of x "__getitem__" d -> forall n i s, 0 <= i -> i + Z.of_nat n <= 2 ^ 31 ->
    let '(s1, r, k) := iterate obj exc state as_int stops meth line class_of w x i n s in walks obj exc state stops meth x d i n s s1 r /\ k = 0.
  Proof.
    intros M. induction n as [|n IH]; intros i s I B; [split; [constructor 1 | reflexivity]|].
    cbn [iterate].
    assert (F : forall s1 j, position x i s s1 (inl j) -> fits_int j).
    { intros s1 j P. inversion P; try lia. unfold fits_int. lia. }
    pose proof (get_index_ok x i s F) as G. destruct (get_index x i s) as [[s1 r] k]. destruct G as [G ->].
    inversion G as [L | d' s1' r' M' P | d' s1' j s2 r' M' P R].
    - destruct (L d M).
    - subst. inversion P; lia.
    - subst. pose proof (method_one _ _ _ _ M M'). subst d'. inversion P; try lia. subst. destruct r' as [o|e]; cbn [passed_on].
      + specialize (IH (j + 1) s1 ltac:(lia) ltac:(lia)). destruct (iterate _ _ _ _ _ _ _ _ _ x (j + 1) n s1) as [[s2 q] k2]. destruct IH as [W ->].
        split; [|reflexivity]. exact (walk_item _ _ _ _ _ _ _ _ _ _ _ _ _ _ R W).
      + cbn [stops_error]. destruct (stops e) eqn:E; (split; [|reflexivity]).
        * exact (walk_end _ _ _ _ _ _ _ _ _ _ _ _ R E).
        * exact (walk_fail _ _ _ _ _ _ _ _ _ _ _ _ R E).
  Qed.
End Exec.
