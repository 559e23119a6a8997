(** What the sequence operations on wrapped objects should do, in terms of the methods of the classes. *)
From Verif.Model Require Import Py Sequence.
From Coq Require Import ZArith.
Open Scope string_scope.
Open Scope list_scope.
Local Open Scope Z_scope.

Section Spec.
  Variables obj exc state : Type.
  Variable as_int : obj -> option Z.
  Variable stops : exc -> bool.
  Variable meth : cls -> string -> obj -> option (list (arg obj)) -> state -> state * (obj + exc).
  Variable line : cls -> list cls.
  Variable class_of : obj -> option cls.
  Variable w : world.
  Local Notation error := (error exc).
  Local Notation result := (result obj exc).

  Definition has (c : cls) (name : string) : Prop := In name (map fst (w c)).
  (** The method called for an object: that of the nearest class that has it. *)
  Definition method_of (x : obj) (name : string) (d : cls) : Prop :=
    exists c nearer further, class_of x = Some c /\ line c = nearer ++ d :: further /\ has d name /\ forall e, In e nearer -> ~ has e name.
  Definition lacks (x : obj) (name : string) : Prop := forall d, ~ method_of x name d.
  Definition fits_int (z : Z) : Prop := - 2 ^ 31 <= z < 2 ^ 31.
  Definition fits_ssize (z : Z) : Prop := - 2 ^ 63 <= z < 2 ^ 63.

  (** How __len__ is called: without arguments; with an empty tuple if the wrapper parses its arguments (overloads, and functions as
      methods). *)
  Definition len_args (d : cls) (a : option (list (arg obj))) : Prop :=
    (a = None \/ a = Some []) /\
    (forall m, dict_get (w d) "__len__" = Some m -> (1 < e_wrappers m)%nat \/ e_function m = true -> a = Some []).
  (** len(x) *)
  Inductive len_of (x : obj) (s : state) : state -> result -> Prop :=
  | len_none : lacks x "__len__" -> len_of x s s (Raise _ _ (TypeE _))
  | len_ok d a s1 o n : method_of x "__len__" d -> len_args d a -> meth d "__len__" x a s = (s1, inl o) ->
      as_int o = Some n -> fits_ssize n -> 0 <= n -> len_of x s s1 (Number _ _ n)
  | len_negative d a s1 o n : method_of x "__len__" d -> len_args d a -> meth d "__len__" x a s = (s1, inl o) ->
      as_int o = Some n -> fits_ssize n -> n < 0 -> len_of x s s1 (Raise _ _ (SystemE _))
  | len_large d a s1 o n : method_of x "__len__" d -> len_args d a -> meth d "__len__" x a s = (s1, inl o) ->
      as_int o = Some n -> ~ fits_ssize n -> len_of x s s1 (Raise _ _ (OverflowE _))
  | len_not_int d a s1 o : method_of x "__len__" d -> len_args d a -> meth d "__len__" x a s = (s1, inl o) ->
      as_int o = None -> len_of x s s1 (Raise _ _ (TypeE _))
  | len_fails d a s1 e : method_of x "__len__" d -> len_args d a -> meth d "__len__" x a s = (s1, inr e) ->
      len_of x s s1 (Raise _ _ (RuntimeE _)).

  (** The position meant by an index: negative ones count from the end, if the object has a length. *)
  Inductive position (x : obj) (i : Z) (s : state) : state -> Z + result -> Prop :=
  | from_start : 0 <= i -> position x i s s (inl i)
  | no_length : i < 0 -> lacks x "__len__" -> position x i s s (inl i)
  | from_end d s1 n : i < 0 -> method_of x "__len__" d -> len_of x s s1 (Number _ _ n) -> position x i s s1 (inl (i + n))
  | bad_length d s1 e : i < 0 -> method_of x "__len__" d -> len_of x s s1 (Raise _ _ e) -> position x i s s1 (inr (Raise _ _ e)).
  (** What the method returns is the value of the expression; what it raises is raised. *)
  Definition passed_on (r : obj + exc) : result := match r with inl o => Object _ _ o | inr e => Raise _ _ (FromMethod _ e) end.

  (** x[i] *)
  Inductive item_at (x : obj) (i : Z) (s : state) : state -> result -> Prop :=
  | item_none : lacks x "__getitem__" -> item_at x i s s (Raise _ _ (TypeE _))
  | item_bad d s1 r : method_of x "__getitem__" d -> position x i s s1 (inr r) -> item_at x i s s1 r
  | item_ok d s1 j s2 r : method_of x "__getitem__" d -> position x i s s1 (inl j) ->
      meth d "__getitem__" x (Some [AInt _ j]) s1 = (s2, r) -> item_at x i s s2 (passed_on r).
  (** x[key] *)
  Inductive item_of (x key : obj) (s : state) : state -> result -> Prop :=
  | key_none : lacks x "__getitem__" -> item_of x key s s (Raise _ _ (TypeE _))
  | key_not_int d : method_of x "__getitem__" d -> as_int key = None -> item_of x key s s (Raise _ _ (TypeE _))
  | key_large d i : method_of x "__getitem__" d -> as_int key = Some i -> ~ fits_ssize i -> item_of x key s s (Raise _ _ (IndexE _))
  | key_ok d i s1 r : method_of x "__getitem__" d -> as_int key = Some i -> fits_ssize i -> item_at x i s s1 r -> item_of x key s s1 r.

  (** x[key] = v.  The method returns an integer status, 0 for success; everything else is an IndexError or SystemError. *)
  Inductive set_of (x key v : obj) (s : state) : state -> result -> Prop :=
  | set_none : lacks x "__setitem__" -> set_of x key v s s (Raise _ _ (TypeE _))
  | set_not_int d : method_of x "__setitem__" d -> as_int key = None -> set_of x key v s s (Raise _ _ (TypeE _))
  | set_large d i : method_of x "__setitem__" d -> as_int key = Some i -> ~ fits_ssize i -> set_of x key v s s (Raise _ _ (IndexE _))
  | set_bad d i s1 r : method_of x "__setitem__" d -> as_int key = Some i -> fits_ssize i -> position x i s s1 (inr r) -> set_of x key v s s1 r
  | set_fails d i s1 j s2 e : method_of x "__setitem__" d -> as_int key = Some i -> fits_ssize i -> position x i s s1 (inl j) ->
      meth d "__setitem__" x (Some [AInt _ j; AObj _ v]) s1 = (s2, inr e) -> set_of x key v s s2 (Raise _ _ (IndexE _))
  | set_no_status d i s1 j s2 o : method_of x "__setitem__" d -> as_int key = Some i -> fits_ssize i -> position x i s s1 (inl j) ->
      meth d "__setitem__" x (Some [AInt _ j; AObj _ v]) s1 = (s2, inl o) -> as_int o = None -> set_of x key v s s2 (Raise _ _ (IndexE _))
  | set_status d i s1 j s2 o z : method_of x "__setitem__" d -> as_int key = Some i -> fits_ssize i -> position x i s s1 (inl j) ->
      meth d "__setitem__" x (Some [AInt _ j; AObj _ v]) s1 = (s2, inl o) -> as_int o = Some z -> fits_int z ->
      set_of x key v s s2 (if z =? 0 then Done _ _ else Raise _ _ (SystemE _))
  | set_wide d i s1 j s2 o z r : method_of x "__setitem__" d -> as_int key = Some i -> fits_ssize i -> position x i s s1 (inl j) ->
      meth d "__setitem__" x (Some [AInt _ j; AObj _ v]) s1 = (s2, inl o) -> as_int o = Some z -> ~ fits_int z -> set_of x key v s s2 r.

  (** v in x: true (1) or false (0) as the integer (or bool) returned by the method. *)
  Inductive contained (x v : obj) (s : state) : state -> result -> Prop :=
  | in_ok d s1 o z : method_of x "__contains__" d -> meth d "__contains__" x (Some [AObj _ v]) s = (s1, inl o) -> as_int o = Some z -> fits_int z -> 0 <= z ->
      contained x v s s1 (Number _ _ (if z =? 0 then 0 else 1))
  | in_negative d s1 o z : method_of x "__contains__" d -> meth d "__contains__" x (Some [AObj _ v]) s = (s1, inl o) -> as_int o = Some z -> fits_int z -> z < 0 ->
      contained x v s s1 (Raise _ _ (SystemE _))
  | in_wide d s1 o z r : method_of x "__contains__" d -> meth d "__contains__" x (Some [AObj _ v]) s = (s1, inl o) -> as_int o = Some z -> ~ fits_int z ->
      contained x v s s1 r
  | in_not_int d s1 o : method_of x "__contains__" d -> meth d "__contains__" x (Some [AObj _ v]) s = (s1, inl o) -> as_int o = None ->
      contained x v s s1 (Raise _ _ (RuntimeE _))
  | in_fails d s1 e : method_of x "__contains__" d -> meth d "__contains__" x (Some [AObj _ v]) s = (s1, inr e) ->
      contained x v s s1 (Raise _ _ (RuntimeE _)).

  (** x + y with the method [name]; x * n likewise. *)
  Inductive joined (name : string) (x y : obj) (s : state) : state -> result -> Prop :=
  | joined_by d s1 r : method_of x name d -> meth d name x (Some [AObj _ y]) s = (s1, r) -> joined name x y s s1 (passed_on r).
  Inductive repeated (name : string) (x n : obj) (s : state) : state -> result -> Prop :=
  | repeat_not_int d : method_of x name d -> as_int n = None -> repeated name x n s s (Raise _ _ (TypeE _))
  | repeat_large d i : method_of x name d -> as_int n = Some i -> ~ fits_ssize i -> repeated name x n s s (Raise _ _ (OverflowE _))
  | repeated_by d i s1 r : method_of x name d -> as_int n = Some i -> fits_ssize i -> meth d name x (Some [AInt _ i]) s = (s1, r) -> repeated name x n s s1 (passed_on r).
  Inductive sum_of (x y : obj) (s : state) : state -> result -> Prop :=
  | sum_left s1 r : joined "__add__" x y s s1 r -> sum_of x y s s1 r
  | sum_none : lacks x "__add__" -> sum_of x y s s (Raise _ _ (TypeE _)).
  Inductive product_of (x y : obj) (s : state) : state -> result -> Prop :=
  | product_left s1 r : repeated "__mul__" x y s s1 r -> product_of x y s s1 r
  | product_right s1 r : lacks x "__mul__" -> repeated "__mul__" y x s s1 r -> product_of x y s s1 r
  | product_none : lacks x "__mul__" -> lacks y "__mul__" -> product_of x y s s (Raise _ _ (TypeE _)).
  Inductive inplace_sum_of (x y : obj) (s : state) : state -> result -> Prop :=
  | inplace_sum s1 r : joined "__iadd__" x y s s1 r -> inplace_sum_of x y s s1 r
  | plain_sum s1 r : lacks x "__iadd__" -> sum_of x y s s1 r -> inplace_sum_of x y s s1 r.
  Inductive inplace_product_of (x y : obj) (s : state) : state -> result -> Prop :=
  | inplace_product s1 r : repeated "__imul__" x y s s1 r -> inplace_product_of x y s s1 r
  | plain_product s1 r : lacks x "__imul__" -> product_of x y s s1 r -> inplace_product_of x y s s1 r.

  (** for o in x: the results of __getitem__ for i, i + 1, ..., at most n of them, up to the first IndexError or StopIteration. *)
  Inductive walks (x : obj) (d : cls) : Z -> nat -> state -> state -> iteration obj exc -> Prop :=
  | walk_more i s : walks x d i 0 s s (More _ _ [])
  | walk_item i n s s1 o s2 r : meth d "__getitem__" x (Some [AInt _ i]) s = (s1, inl o) -> walks x d (i + 1) n s1 s2 r ->
      walks x d i (S n) s s2 match r with More _ _ l => More _ _ (o :: l) | Finished _ _ l => Finished _ _ (o :: l) | Failed _ _ l q => Failed _ _ (o :: l) q end
  | walk_end i n s s1 e : meth d "__getitem__" x (Some [AInt _ i]) s = (s1, inr e) -> stops e = true -> walks x d i (S n) s s1 (Finished _ _ [])
  | walk_fail i n s s1 e : meth d "__getitem__" x (Some [AInt _ i]) s = (s1, inr e) -> stops e = false ->
      walks x d i (S n) s s1 (Failed _ _ [] (Raise _ _ (FromMethod _ e))).
End Spec.
