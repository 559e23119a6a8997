(** C40: the sequence protocol of wrapped classes. *)
From Verif.Model Require Import Py Sequence.
From Verif.Spec Require Import SequenceSpec.
From Verif.Proofs Require SequenceProofs.
From Coq Require Import ZArith Lia.
Open Scope string_scope.
Open Scope list_scope.
Local Open Scope Z_scope.

Section C40.
  (** Python objects, the exceptions of methods, the state of the C++ objects; the int objects; IndexError and StopIteration; the
      wrapped methods, arbitrary; the classes' lines of inheritance and methods. *)
  Variables obj exc state : Type.
  Variable as_int : obj -> option Z.
  Variable stops : exc -> bool.
  Variable meth : cls -> string -> obj -> option (list (arg obj)) -> state -> state * (obj + exc).
  Variable line : cls -> list cls.
  Variable class_of : obj -> option cls.
  Variable w : world.
  Local Notation method_of := (method_of obj line class_of w).
  Local Notation position := (position obj exc state as_int meth line class_of w).

  (** In each theorem the last component counts the references to argument tuples and results that the generated functions still
      hold when they return. *)
  Theorem C40_len : forall x s, let '(s1, r, kept) := size obj exc state as_int stops meth line class_of w x s in
    len_of obj exc state as_int meth line class_of w x s s1 r /\ kept = 0.
  Proof. exact (SequenceProofs.size_ok obj exc state as_int stops meth line class_of w). Qed.

  (** x[key], for positions that fit an int. *)
  Theorem C40_getitem : forall x key s, (forall i s1 j, as_int key = Some i -> position x i s s1 (inl j) -> fits_int j) ->
    let '(s1, r, kept) := get_item obj exc state as_int stops meth line class_of w x key s in
    item_of obj exc state as_int meth line class_of w x key s s1 r /\ kept = 0.
  Proof. exact (SequenceProofs.get_item_ok obj exc state as_int stops meth line class_of w). Qed.

  (** x[key] = v: a reference is lost exactly when the method returns something that is not an integer. *)
  Theorem C40_setitem : forall x key v s, (forall i s1 j, as_int key = Some i -> position x i s s1 (inl j) -> fits_int j) ->
    let '(s1, r, kept) := set_item obj exc state as_int stops meth line class_of w x key (Some v) s in
    set_of obj exc state as_int meth line class_of w x key v s s1 r /\
    (kept = 0 \/ kept = 1 /\ exists d i s0 j o, method_of x "__setitem__" d /\ as_int key = Some i /\ position x i s s0 (inl j) /\
                   meth d "__setitem__" x (Some [AInt _ j; AObj _ v]) s0 = (s1, inl o) /\ as_int o = None).
  Proof. exact (SequenceProofs.set_item_ok obj exc state as_int stops meth line class_of w). Qed.

  (** v in x, for classes with __contains__. *)
  Theorem C40_contains : forall x v s d, method_of x "__contains__" d ->
    let '(s1, r, kept) := contains obj exc state as_int stops meth line class_of w x v s in
    contained obj exc state as_int meth line class_of w x v s s1 r /\ kept = 0.
  Proof. exact (SequenceProofs.contains_ok obj exc state as_int stops meth line class_of w). Qed.

  (** x + y, x += y, and x * y, x *= y for counts that fit an int. *)
  Theorem C40_concat : forall x y s,
    (let '(s1, r, kept) := concat obj exc state as_int stops meth line class_of w x y s in
     sum_of obj exc state meth line class_of w x y s s1 r /\ kept = 0) /\
    (let '(s1, r, kept) := inplace_concat obj exc state as_int stops meth line class_of w x y s in
     inplace_sum_of obj exc state meth line class_of w x y s s1 r /\ kept = 0).
  Proof.
    intros x y s. split.
    - exact (SequenceProofs.concat_ok obj exc state as_int stops meth line class_of w x y s).
    - exact (SequenceProofs.inplace_concat_ok obj exc state as_int stops meth line class_of w x y s).
  Qed.
  Theorem C40_repeat : forall x y s, (forall i, as_int x = Some i -> fits_int i) -> (forall i, as_int y = Some i -> fits_int i) ->
    (let '(s1, r, kept) := repeat obj exc state as_int stops meth line class_of w x y s in
     product_of obj exc state as_int meth line class_of w x y s s1 r /\ kept = 0) /\
    (let '(s1, r, kept) := inplace_repeat obj exc state as_int stops meth line class_of w x y s in
     inplace_product_of obj exc state as_int meth line class_of w x y s s1 r /\ kept = 0).
  Proof.
    intros x y s X Y. split.
    - exact (SequenceProofs.repeat_ok obj exc state as_int stops meth line class_of w x y s X Y).
    - exact (SequenceProofs.inplace_repeat_ok obj exc state as_int stops meth line class_of w x y s X Y).
  Qed.

  (** Iteration over an object: any number of steps within the first 2^31. *)
  Theorem C40_iterate : forall x d n s, method_of x "__getitem__" d -> Z.of_nat n <= 2 ^ 31 ->
    let '(s1, r, kept) := iterate obj exc state as_int stops meth line class_of w x 0 n s in
    walks obj exc state stops meth x d 0 n s s1 r /\ kept = 0.
  Proof. intros x d n s M B. exact (SequenceProofs.iterate_ok obj exc state as_int stops meth line class_of w x d M n 0 s (Z.le_refl 0) B). Qed.
End C40.
Print Assumptions C40_len.
Print Assumptions C40_getitem.
Print Assumptions C40_setitem.
Print Assumptions C40_contains.
Print Assumptions C40_concat.
Print Assumptions C40_repeat.
Print Assumptions C40_iterate.

(** ** Examples: an array of three numbers.  Objects: [inl z] is an int, [inr 0] an instance of class 0, [inr 1] of class 1, which derives
    from 0, other [inr] are other objects. *)
Definition ex_obj : Type := (Z + nat)%type.
Inductive ex_exc : Type := ExIndexError | ExTypeError.
Definition ex_as_int (o : ex_obj) : option Z := match o with inl z => Some z | inr _ => None end.
Definition ex_stops (e : ex_exc) : bool := match e with ExIndexError => true | ExTypeError => false end.
Definition ex_line (c : cls) : list cls := match c with 1%nat => [1%nat; 0%nat] | _ => [c] end.
Definition ex_class (o : ex_obj) : option cls := match o with inr 0%nat => Some 0%nat | inr 1%nat => Some 1%nat | _ => None end.
Definition ex_meth (c : cls) (name : string) (x : ex_obj) (a : option (list (arg ex_obj))) (s : list Z) : list Z * (ex_obj + ex_exc) :=
  if String.eqb name "__len__" then (s, inl (inl (Z.of_nat (length s))))
  else if String.eqb name "__getitem__" then
    match a with
    | Some [AInt _ i] => if i <? 0 then (s, inr ExIndexError) else (s, match nth_error s (Z.to_nat i) with Some z => inl (inl z) | None => inr ExIndexError end)
    | _ => (s, inr ExTypeError)
    end
  else if String.eqb name "__setitem__" then
    match a with
    | Some [AInt _ i; AObj _ (inl z)] => (firstn (Z.to_nat i) s ++ [z] ++ skipn (S (Z.to_nat i)) s, inl (inl 0))
    | Some [AInt _ i; AObj _ (inr 7%nat)] => (s, inl (inr 7%nat))
    | _ => (s, inr ExTypeError)
    end
  else if String.eqb name "__contains__" then match a with Some [AObj _ (inl z)] => (s, inl (inl z)) | _ => (s, inr ExTypeError) end
  else (s, inr ExTypeError).
Definition ex_entry : methods_entry := mk_entry 1 false.
Definition ex_world (c : cls) : dict methods_entry :=
  match c with 0%nat => [("__len__", ex_entry); ("__getitem__", ex_entry); ("__setitem__", ex_entry); ("__contains__", ex_entry)] | _ => [] end.
Definition ex_state : list Z := [10; 20; 30].
Definition array : ex_obj := inr 1%nat.
Example ex_len : size _ _ _ ex_as_int ex_stops ex_meth ex_line ex_class ex_world array ex_state = (ex_state, Number _ _ 3, 0).
Proof. reflexivity. Qed.
Example ex_last : get_item _ _ _ ex_as_int ex_stops ex_meth ex_line ex_class ex_world array (inl (-1)) ex_state = (ex_state, Object _ _ (inl 30), 0).
Proof. reflexivity. Qed.
Example ex_set : set_item _ _ _ ex_as_int ex_stops ex_meth ex_line ex_class ex_world array (inl 1) (Some (inl 7)) ex_state = ([10; 7; 30], Done _ _, 0).
Proof. reflexivity. Qed.
Example ex_all : iterate _ _ _ ex_as_int ex_stops ex_meth ex_line ex_class ex_world array 0 10 ex_state = (ex_state, Finished _ _ [inl 10; inl 20; inl 30], 0).
Proof. reflexivity. Qed.
Example ex_method : method_of ex_obj ex_line ex_class ex_world array "__getitem__" 0%nat.
Proof.
  exists 1%nat, [1%nat], []. split; [reflexivity|]. split; [reflexivity|]. split; [right; left; reflexivity|].
  intros e [<-|[]] X. exact X.
Qed.
Example ex_fits : forall i s1 j, ex_as_int (inl (-1)) = Some i ->
  position ex_obj ex_exc _ ex_as_int ex_meth ex_line ex_class ex_world array i ex_state s1 (inl j) -> fits_int j.
Proof.
  intros i s1 j E P. injection E as <-. inversion P as [H|H H0|d s1' n H H0 H1|]; unfold fits_int; [lia | lia |].
  subst. inversion H1 as [|d' a s2 o n' M A R O _ N| | | |]. subst. cbn in R. injection R as <- <-. injection O as <-. cbn. lia.
Qed.

(** ** What does not hold *)
(** Positions beyond the range of int wrap around: x[2^32] is x[0]. *)
Theorem C40_index_refuted : get_item _ _ _ ex_as_int ex_stops ex_meth ex_line ex_class ex_world array (inl (2 ^ 32)) ex_state = (ex_state, Object _ _ (inl 10), 0) /\
  fits_ssize (2 ^ 32) /\ snd (ex_meth 0%nat "__getitem__" array (Some [AInt _ (2 ^ 32)]) ex_state) = inr ExIndexError.
Proof. split; [reflexivity|]. split; [split; vm_compute; congruence | reflexivity]. Qed.
(** del x[i] crashes whenever the class has __setitem__ and the index is an integer. *)
Theorem C40_delete_refuted : forall obj exc state as_int stops meth line class_of w x d key i (s : state),
  method_of obj line class_of w x "__setitem__" d -> as_int key = Some i -> 0 <= i < 2 ^ 31 ->
  set_item obj exc state as_int stops meth line class_of w x key None s = (s, Dies _ _, 0).
Proof.
  intros obj exc state as_int stops meth line class_of w x d key i s M I B. unfold set_item.
  pose proof (SequenceProofs.slot_method obj line class_of w "__setitem__" "sq_ass_item" x eq_refl) as L.
  assert (K : forall m, exists code, SequenceProofs.code_of "__setitem__" "sq_ass_item" m = Some code) by (intros m; eexists; reflexivity).
  specialize (L K). destruct (slot_of obj line class_of w "sq_ass_item" x) as [[d' [n code]]|]; [|destruct (L d M)].
  destruct L as (_ & -> & m & _ & C). cbn in C. injection C as <-. unfold as_ssize. rewrite I.
  assert (S : in_ssize i = true) by (apply SequenceProofs.in_ssize_ok; unfold fits_ssize; split; lia). rewrite S. unfold adjust.
  destruct (Z.ltb_spec i 0) as [N|N]; [lia|]. unfold call_slot. cbn.
  destruct (meth d' "__setitem__" x None s) as [s2 [o|e]]; reflexivity.
Qed.
(** The exception of a failing __setitem__ is replaced by IndexError (and that of __len__ and __contains__ by RuntimeError). *)
Theorem C40_exception_refuted : snd (ex_meth 0%nat "__setitem__" array (Some [AInt _ 1; AObj _ (inr 5%nat)]) ex_state) = inr ExTypeError /\
  set_item _ _ _ ex_as_int ex_stops ex_meth ex_line ex_class ex_world array (inl 1) (Some (inr 5%nat)) ex_state = (ex_state, Raise _ _ (IndexE _), 0).
Proof. split; reflexivity. Qed.
(** The result of a __setitem__ that does not return an integer is never released. *)
Theorem C40_leak_refuted :
  set_item _ _ _ ex_as_int ex_stops ex_meth ex_line ex_class ex_world array (inl 1) (Some (inr 7%nat)) ex_state = (ex_state, Raise _ _ (IndexE _), 1).
Proof. reflexivity. Qed.
(** A __contains__ that returns 2^32 (true) answers false. *)
Theorem C40_contains_refuted :
  contains _ _ _ ex_as_int ex_stops ex_meth ex_line ex_class ex_world array (inl (2 ^ 32)) ex_state = (ex_state, Number _ _ 0, 0) /\
  ex_meth 0%nat "__contains__" array (Some [AObj _ (inl (2 ^ 32))]) ex_state = (ex_state, inl (inl (2 ^ 32))).
Proof. split; reflexivity. Qed.
