(** What container conversion, iteration and lifetime should be. *)
From Verif.Model Require Import Py IntHandlers Containers.
From Coq Require Import Permutation Sorted.
Open Scope list_scope.

Section Spec.
  Variables leaf lval atom : Type.
  Variable leaf_in : leaf -> pyobj atom -> lval + argerr.
  Variable leaf_out : leaf -> lval -> atom.
  Variable leaf_prepends : leaf -> bool.
  Variable less equal : cval lval -> cval lval -> bool.
  Variable place : list (cval lval) -> cval lval -> nat.
  Local Notation ctype := (ctype leaf).
  Local Notation cval := (cval lval).
  Local Notation pyobj := (pyobj atom).
  Local Notation state := (state leaf lval).
  Local Notation event := (event leaf lval atom).

  (** ** What a container holds after adding [vs] in order *)
  Definition strict_weak_order : Prop :=
    (forall x, less x x = false) /\ (forall x y z, less x y = true -> less y z = true -> less x z = true) /\
    (forall x y z, less x y = true -> less x z = true \/ less z y = true).
  Definition equivalent (x y : cval) : bool := negb (less x y) && negb (less y x).
  Definition equivalence : Prop := (forall x, equal x x = true) /\ (forall x y, equal x y = equal y x) /\
    (forall x y z, equal x y = true -> equal y z = true -> equal x z = true).

  (** Each element of [l] is the first of its class in [vs] (by [key]), and each class of [vs] has exactly one. *)
  Definition firsts {A} (same : cval -> cval -> bool) (key : A -> cval) (vs l : list A) : Prop :=
    (forall y, In y l -> exists a b, vs = a ++ y :: b /\ forall x, In x a -> same (key x) (key y) = false) /\
    (forall x, In x vs -> exists y, In y l /\ same (key x) (key y) = true) /\
    ForallOrdPairs (fun y z => same (key y) (key z) = false) l.
  Definition gathers (k : sequence) (vs l : list cval) : Prop :=
    match k with
    | Back => l = vs
    | Ordered false => Permutation vs l /\ StronglySorted (fun x y => less y x = false) l /\
                      forall x, filter (equivalent x) l = filter (equivalent x) vs
    | Ordered true => StronglySorted (fun x y => less x y = true) l /\ firsts equivalent (fun y => y) vs l
    | Hashed false => Permutation vs l
    | Hashed true => firsts equal (fun y => y) vs l
    end.
  Definition gathers_map (sorted : bool) (vs l : list (cval * cval)) : Prop :=
    if sorted then StronglySorted (fun x y => less (fst x) (fst y) = true) l /\ firsts equivalent fst vs l
    else firsts equal fst vs l.

  (** ** Conversion *)
  Section Look.
    Variable look : nat -> option (string * option cval).
    (** The Python object stands for the C++ value: a wrapper for its contents, a list for the values of its items. *)
    Inductive represents : ctype -> pyobj -> cval -> Prop :=
    | rep_leaf : forall t o v, leaf_in t o = inl v -> represents (TLeaf t) o (CLeaf v)
    | rep_seq_wrapper : forall n k e w v, look w = Some (n, Some v) -> represents (TSeq n k e) (PRef w) v
    | rep_map_wrapper : forall n s tk tv w v, look w = Some (n, Some v) -> represents (TMap n s tk tv) (PRef w) v
    | rep_seq_list : forall n k e xs vs l, represent_all e xs vs -> gathers k vs l ->
        represents (TSeq n k e) (PList (map Some xs)) (CSeq l)
    | rep_map_list : forall n s tk tv xs kvs l, represent_pairs tk tv xs kvs -> gathers_map s kvs l ->
        represents (TMap n s tk tv) (PList (map Some xs)) (CMap l)
    with represent_all : ctype -> list pyobj -> list cval -> Prop :=
    | all_nil : forall e, represent_all e [] []
    | all_cons : forall e x xs v vs, represents e x v -> represent_all e xs vs -> represent_all e (x :: xs) (v :: vs)
    with represent_pairs : ctype -> ctype -> list pyobj -> list (cval * cval) -> Prop :=
    | pairs_nil : forall tk tv, represent_pairs tk tv [] []
    | pairs_cons : forall tk tv x y xs k v kvs, represents tk x k -> represents tv y v -> represent_pairs tk tv xs kvs ->
        represent_pairs tk tv (PTuple [x; y] :: xs) ((k, v) :: kvs).

    Definition is_list (o : pyobj) : Prop := match o with PList _ => True | _ => False end.
    Definition is_wrapper_of (n : string) (o : pyobj) : Prop := match o with PRef w => exists v, look w = Some (n, v) | _ => False end.
    Definition is_pair (o : pyobj) : Prop := match o with PTuple [_; _] => True | _ => False end.
    (** The error of the first item that has one. *)
    Inductive erroneous : ctype -> pyobj -> argerr -> Prop :=
    | err_leaf : forall t o e, leaf_in t o = inr e -> erroneous (TLeaf t) o e
    | err_seq : forall n k e o, ~ is_list o -> ~ is_wrapper_of n o -> erroneous (TSeq n k e) o TypeE
    | err_map : forall n s tk tv o, ~ is_list o -> ~ is_wrapper_of n o -> erroneous (TMap n s tk tv) o TypeE
    | err_item : forall n k e before vs x after err, represent_all e before vs -> erroneous e x err ->
        erroneous (TSeq n k e) (PList (map Some before ++ Some x :: after)) err
    | err_pair : forall n s tk tv before kvs x after, represent_pairs tk tv before kvs -> ~ is_pair x ->
        erroneous (TMap n s tk tv) (PList (map Some before ++ Some x :: after)) TypeE
    | err_key : forall n s tk tv before kvs x y after err, represent_pairs tk tv before kvs -> erroneous tk x err ->
        erroneous (TMap n s tk tv) (PList (map Some before ++ Some (PTuple [x; y]) :: after)) err
    | err_value : forall n s tk tv before kvs x y k after err, represent_pairs tk tv before kvs -> represents tk x k -> erroneous tv y err ->
        erroneous (TMap n s tk tv) (PList (map Some before ++ Some (PTuple [x; y]) :: after)) err.
  End Look.

  (** ** Histories *)
  (** An object a program can pass: its wrappers are alive and hold containers, its lists do not shrink while converted. *)
  Fixpoint usable (look : nat -> option (string * option cval)) (o : pyobj) : Prop :=
    match o with
    | PAtom _ => True
    | PTuple l => (fix all l := match l with [] => True | x :: r => usable look x /\ all r end) l
    | PList l => (fix all l := match l with [] => True | Some x :: r => usable look x /\ all r | None :: _ => False end) l
    | PRef w => exists n v, look w = Some (n, Some v)
    end.

  (** [D] says which C++ container type each name stands for; a type uses the names as declared. *)
  Fixpoint declared_in (D : string -> option ctype) (ty : ctype) : Prop :=
    match ty with
    | TLeaf _ => True
    | TSeq n k e => D n = Some ty /\ declared_in D e
    | TMap n s tk tv => D n = Some ty /\ declared_in D tk /\ declared_in D tv
    end.
  Definition is_container (ty : ctype) : Prop := match ty with TLeaf _ => False | _ => True end.
  (** A C++ value of the type. *)
  Fixpoint has_type (ty : ctype) (v : cval) {struct ty} : Prop :=
    match ty, v with
    | TLeaf _, CLeaf _ => True
    | TSeq _ _ e, CSeq l => Forall (has_type e) l
    | TMap _ _ tk tv, CMap l => Forall (fun x => has_type tk (fst x) /\ has_type tv (snd x)) l
    | _, _ => False
    end.

  Definition live_wrapper (s : state) (w : nat) : Prop := exists r, nth_error (wraps s) w = Some r /\ wr_refs r <> 0.
  Definition live_iter (s : state) (i : nat) : Prop := exists r, nth_error (iters s) i = Some r /\ it_refs r <> 0.
  (** The container of a live wrapper. *)
  Definition holds (s : state) (w a : nat) : Prop := exists r, nth_error (wraps s) w = Some r /\ wr_refs r <> 0 /\ wr_obj r = Some a.
  (** The iterators over a wrapper. *)
  Definition iterators_of (s : state) (w : nat) : nat :=
    length (filter (fun r => negb (Nat.eqb (it_refs r) 0) && Nat.eqb (it_container r) w) (iters s)).

  (** What programs do: they use objects they hold references to; they iterate over initialised containers and do not
      initialise a container twice; C++ deletes only what it was given. *)
  Definition legal (D : string -> option ctype) (s : state) (e : event) : Prop :=
    let fine o := usable (look_up s) o in
    match e with
    | New ty => declared_in D ty /\ is_container ty
    | Init w arg => (exists r, nth_error (wraps s) w = Some r /\ wr_refs r <> 0 /\ wr_obj r = None) /\
                          match arg with Some o => fine o | None => True end
    | Construct ty arg => declared_in D ty /\ is_container ty /\ match arg with Some o => fine o | None => True end
    | Wrap ty v => declared_in D ty /\ has_type ty v
    | Argument ty how o => declared_in D ty /\ is_container ty /\ fine o /\ match how with InOut v => has_type ty v | _ => True end
    | GetIter w => exists a, holds s w a
    | Next i | TakeIter i | DropIter i => live_iter s i
    | TakeWrapper w => live_wrapper s w
    | DropWrapper w => exists r, nth_error (wraps s) w = Some r /\ iterators_of s w < wr_refs r
    | CppDelete a => In a (given s)
    end.

  Local Notation step := (step leaf lval atom leaf_in leaf_out leaf_prepends less equal place).
  Local Notation history := (history leaf lval atom leaf_in leaf_out leaf_prepends less equal place).
  Fixpoint legal_history (D : string -> option ctype) (s : state) (h : list event) : Prop :=
    match h with
    | [] => True
    | e :: r => legal D s e /\ forall s1 a, step s e = Some (s1, a) -> legal_history D s1 r
    end.
  Definition reachable (D : string -> option ctype) (s : state) : Prop :=
    exists h l, legal_history D start h /\ history start h = Some (s, l).

  (** ** Iteration *)
  (** The Python object for a C++ value: of a container, a wrapper holding an equal one. *)
  Inductive shows (s : state) : ctype -> cval -> item atom -> Prop :=
  | shows_leaf : forall t v, shows s (TLeaf t) (CLeaf v) (IAtom (leaf_out t v))
  | shows_wrapper : forall ty v w, is_container ty -> look_up s w = Some (type_name ty, Some v) -> shows s ty v (IWrapper w).
  Inductive shows_entry (s : state) : ctype -> entry lval -> item atom -> Prop :=
  | shows_element : forall n k e v x, shows s e v x -> shows_entry s (TSeq n k e) (Single v) x
  | shows_pair : forall n o tk tv k v x y, shows s tk k x -> shows s tv v y ->
      shows_entry s (TMap n o tk tv) (Keyed k v) (ITuple x y).
  (** How often the iterator is asked. *)
  Definition asked (i : nat) (h : list event) : nat :=
    length (filter (fun e => match e with Next j => Nat.eqb i j | _ => false end) h).
  (** The key of a mapping is converted by a handler that puts it before the value. *)
  Definition keys_first (ty : ctype) : Prop := match ty with TMap _ _ tk _ => prepends leaf_prepends tk = true | _ => True end.
End Spec.
