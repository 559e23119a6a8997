(** Model of wrapped C++ containers (/repo/pybindgen/container.py): what the generated converter, constructor, destructors
    and iterators do, in every history of calls.
    Not modelled: 'queue', 'priority_queue' and 'stack' (container.py:85-88), whose C++ classes have neither the clear
    member nor the iterators that the generated code uses; running out of memory. *)
From Verif.Model Require Import Py IntHandlers.
Open Scope string_scope.
Open Scope list_scope.

(** container.py:81-95 container_traits_list: what the add_value_method of each container type does. *)
Inductive sequence : Type :=
| Back                      (* 'list', 'deque', 'dequeue', 'vector': push_back *)
| Ordered (unique : bool)    (* 'set' (unique) and 'multiset': insert *)
| Hashed (unique : bool).   (* 'hash_set' (unique) and 'hash_multiset': insert *)

Section Containers.
  (** The element types that are not containers, their C++ values, the other Python objects, and their conversions: the
      generated converter function of the type (/repo/pybindgen/converter_functions.py:10-80), the ReturnValue's
      convert_c_to_python, and whether the latter prepends its build parameter. *)
  Variable leaf : Type.
  Variable lval : Type.
  Variable atom : Type.

  (** The C++ type of a container or of an element; containers have a name (the Python type is found by it). *)
  Inductive ctype : Type :=
  | TLeaf (t : leaf)
  | TSeq (name : string) (kind : sequence) (element : ctype)
  | TMap (name : string) (sorted : bool) (key value : ctype). (* 'map' and 'unordered_map' *)
  Inductive cval : Type :=
  | CLeaf (v : lval)
  | CSeq (l : list cval)
  | CMap (l : list (cval * cval)).

  (** Python objects given to a converter.  A list is what its items are found to be when the loop reads them: None if the
      list has become shorter in the meantime (the converter of an earlier item may run arbitrary Python code). *)
  Inductive pyobj : Type :=
  | PAtom (a : atom)
  | PTuple (l : list pyobj)
  | PList (reads : list (option pyobj))
  | PRef (w : nat).          (* the wrapper number w *)

  Variable leaf_in : leaf -> pyobj -> lval + argerr.
  Variable leaf_out : leaf -> lval -> atom.
  Variable leaf_prepends : leaf -> bool.
  (** operator<, operator==, and where a hash table puts a new element. *)
  Variable less : cval -> cval -> bool.
  Variable equal : cval -> cval -> bool.
  Variable place : list cval -> cval -> nat.

  (** ** The C++ containers (standard library) *)
  Fixpoint insert_at {A} (n : nat) (x : A) (l : list A) : list A :=
    match n, l with
    | S n', y :: r => y :: insert_at n' x r
    | _, _ => x :: l
    end.
  (** std::multiset::insert puts the element after those that are not greater; std::set::insert does nothing if there is
      an equivalent one. *)
  Fixpoint insert_sorted {A} (key : A -> cval) (unique : bool) (x : A) (l : list A) : list A :=
    match l with
    | [] => [x]
    | y :: r => if less (key x) (key y) then x :: l
                else if unique && negb (less (key y) (key x)) then l
                else y :: insert_sorted key unique x r
    end.
  Definition seq_add (k : sequence) (l : list cval) (x : cval) : list cval :=
    match k with
    | Back => l ++ [x]
    | Ordered u => insert_sorted (fun y => y) u x l
    | Hashed u => if u && existsb (equal x) l then l else insert_at (place l x) x l
    end.
  Definition map_add (sorted : bool) (l : list (cval * cval)) (x : cval * cval) : list (cval * cval) :=
    if sorted then insert_sorted fst true x l
    else if existsb (fun y => equal (fst x) (fst y)) l then l else insert_at (place (map fst l) (fst x)) x l.

  (** ** The converter *)
  (** The value of *container and the error, if any; Crash: undefined behaviour. *)
  Inductive conv : Type := Done (v : cval) | Fails (left : cval) (e : argerr) | Crash.

  Section Convert.
    (** The containers the wrappers hold: type name and, unless obj is NULL, the contents. *)
    Variable look : nat -> option (string * option cval).

    (** container.py:557-580 and 596-630: the converter function of a container type; TLeaf: of another type.  [old] is the
        value of *container (or *address) before. *)
    Definition from_wrapper (n : string) (w : nat) (old : cval) : conv :=
      match look w with
      | Some (m, obj) => if String.eqb m n then match obj with Some v => Done v | None => Crash end else Fails old TypeE
      | None => Crash
      end.
    Fixpoint convert (ty : ctype) (o : pyobj) (old : cval) {struct ty} : conv :=
      match ty with
      | TLeaf t => match leaf_in t o with inl v => Done (CLeaf v) | inr e => Fails old e end
      | TSeq n k e =>
          match o with
          | PRef w => from_wrapper n w old
          | PList reads =>
              (fix loop (l : list (option pyobj)) (c : list cval) : conv :=
                 match l with
                 | [] => Done (CSeq c)
                 | None :: _ => Crash
                 | Some x :: r =>
                     match convert e x (CSeq []) with
                     | Done v => loop r (seq_add k c v)
                     | Fails _ err => Fails (CSeq c) err
                     | Crash => Crash
                     end
                 end) reads []
          | _ => Fails old TypeE
          end
      | TMap n s tk tv =>
          match o with
          | PRef w => from_wrapper n w old
          | PList reads =>
              (fix loop (l : list (option pyobj)) (c : list (cval * cval)) : conv :=
                 match l with
                 | [] => Done (CMap c)
                 | None :: _ => Crash
                 | Some (PTuple [x; y]) :: r =>
                     match convert tk x (CSeq []) with
                     | Done k =>
                         match convert tv y (CSeq []) with
                         | Done v => loop r (map_add s c (k, v))
                         | Fails _ err => Fails (CMap c) err
                         | Crash => Crash
                         end
                     | Fails _ err => Fails (CMap c) err
                     | Crash => Crash
                     end
                 | Some _ :: _ => Fails (CMap c) TypeE
                 end) reads []
          | _ => Fails old TypeE
          end
      end.
  End Convert.
  (** A default-constructed value. *)
  Definition fresh (ty : ctype) : cval := match ty with TMap _ _ _ _ => CMap [] | _ => CSeq [] end.

  (** ** The objects *)
  (** container.py:286-304: the instance structures.  An object with no reference has been deallocated. *)
  Record wrapper : Type := mk_wrapper { wr_type : ctype; wr_refs : nat; wr_obj : option nat }.
  (** The iterator: container, the C++ container its iterator was obtained from, the position. *)
  Record iter : Type := mk_iter { it_refs : nat; it_container : nat; it_object : nat; it_pos : nat }.
  (** [objs]: the C++ containers allocated with new, None once deleted; [given]: those now owned by C++. *)
  Record state : Type := mk_state { objs : list (option cval); wraps : list wrapper; iters : list iter; given : list nat }.
  Definition start : state := mk_state [] [] [] [].

  Definition type_name (ty : ctype) : string := match ty with TLeaf _ => "" | TSeq n _ _ => n | TMap n _ _ _ => n end.
  Fixpoint set_nth {A} (n : nat) (x : A) (l : list A) : list A :=
    match l, n with
    | [], _ => []
    | _ :: r, O => x :: r
    | y :: r, S k => y :: set_nth k x r
    end.
  (** The contents of a C++ container that is still there. *)
  Definition contents (s : state) (a : nat) : option cval := match nth_error (objs s) a with Some (Some v) => Some v | _ => None end.
  Definition look_up (s : state) (w : nat) : option (string * option cval) :=
    match nth_error (wraps s) w with
    | Some r => if Nat.eqb (wr_refs r) 0 then None
                else match wr_obj r with
                     | Some a => match contents s a with Some v => Some (type_name (wr_type r), Some v) | None => None end
                     | None => Some (type_name (wr_type r), None)
                     end
    | None => None
    end.

  Definition with_objs (s : state) (l : list (option cval)) : state := mk_state l (wraps s) (iters s) (given s).
  Definition with_wraps (s : state) (l : list wrapper) : state := mk_state (objs s) l (iters s) (given s).
  Definition with_iters (s : state) (l : list iter) : state := mk_state (objs s) (wraps s) l (given s).

  (** new T(v) *)
  Definition allocate (s : state) (v : cval) : state * nat := (with_objs s (objs s ++ [Some v]), length (objs s)).
  (** delete; None: the container does not exist (any more). *)
  Definition delete (s : state) (a : nat) : option state :=
    match contents s a with Some _ => Some (with_objs s (set_nth a None (objs s))) | None => None end.
  Definition new_wrapper (s : state) (ty : ctype) (obj : option nat) : state * nat :=
    (with_wraps s (wraps s ++ [mk_wrapper ty 1 obj]), length (wraps s)).
  Definition set_wrapper (s : state) (w : nat) (r : wrapper) : state := with_wraps s (set_nth w r (wraps s)).
  Definition set_iter (s : state) (i : nat) (r : iter) : state := with_iters s (set_nth i r (iters s)).

  (** Python objects returned. *)
  Inductive item : Type :=
  | IAtom (a : atom)
  | IWrapper (w : nat)
  | ITuple (x y : item).
  (** The answer of an operation (the operation has none if its behaviour is undefined). *)
  Inductive answer : Type :=
  | Nothing
  | Raised (e : argerr)
  | Item (x : item)
  | StopIteration
  | Received (v : cval).        (* what the C++ function got *)

  (** Py_DECREF of a wrapper; container.py:428-441: tp_dealloc deletes the container. *)
  Definition drop_wrapper (s : state) (w : nat) : option state :=
    match nth_error (wraps s) w with
    | Some r =>
        match wr_refs r with
        | O => None
        | S (S n) => Some (set_wrapper s w (mk_wrapper (wr_type r) (S n) (wr_obj r)))
        | S O =>
            match wr_obj r with
            | Some a => match delete s a with Some s' => Some (set_wrapper s' w (mk_wrapper (wr_type r) 0 None)) | None => None end
            | None => Some (set_wrapper s w (mk_wrapper (wr_type r) 0 None))
            end
        end
    | None => None
    end.
  Definition take_wrapper (s : state) (w : nat) : option state :=
    match nth_error (wraps s) w with
    | Some r => match wr_refs r with O => None | S n => Some (set_wrapper s w (mk_wrapper (wr_type r) (S (S n)) (wr_obj r))) end
    | None => None
    end.
  (** Py_DECREF of an iterator; container.py:444-457: tp_dealloc releases the container object. *)
  Definition drop_iter (s : state) (i : nat) : option state :=
    match nth_error (iters s) i with
    | Some r =>
        match it_refs r with
        | O => None
        | S (S n) => Some (set_iter s i (mk_iter (S n) (it_container r) (it_object r) (it_pos r)))
        | S O => drop_wrapper (set_iter s i (mk_iter 0 (it_container r) (it_object r) (it_pos r))) (it_container r)
        end
    | None => None
    end.
  (** container.py:493-499: tp_iter of an iterator (also any other Py_INCREF). *)
  Definition take_iter (s : state) (i : nat) : option state :=
    match nth_error (iters s) i with
    | Some r => match it_refs r with O => None | S n => Some (set_iter s i (mk_iter (S (S n)) (it_container r) (it_object r) (it_pos r))) end
    | None => None
    end.

  (** container.py:636-663: tp_init. *)
  Definition init (s : state) (w : nat) (arg : option pyobj) : option (state * answer) :=
    match nth_error (wraps s) w with
    | None => None
    | Some r =>
        if Nat.eqb (wr_refs r) 0 then None else
        let '(s1, a) := allocate s (fresh (wr_type r)) in
        let s1 := set_wrapper s1 w (mk_wrapper (wr_type r) (wr_refs r) (Some a)) in
        match arg with
        | None => Some (s1, Nothing)
        | Some o =>
            match convert (look_up s1) (wr_type r) o (fresh (wr_type r)) with
            | Done v => Some (with_objs s1 (set_nth a (Some v) (objs s1)), Nothing)
            | Fails _ e =>
                match delete s1 a with
                | Some s2 => Some (set_wrapper s2 w (mk_wrapper (wr_type r) (wr_refs r) None), Raised e)
                | None => None
                end
            | Crash => None
            end
        end
    end.

  (** container.py:479-488: tp_iter of a container. *)
  Definition get_iter (s : state) (w : nat) : option (state * answer) :=
    match nth_error (wraps s) w with
    | Some r =>
        match wr_obj r with
        | Some a =>
            match contents s a, take_wrapper s w with
            | Some _, Some s1 => Some (with_iters s1 (iters s1 ++ [mk_iter 1 w a 0]), Nothing)
            | _, _ => None
            end
        | None => None
        end
    | None => None
    end.

  (** container.py:868-887: a container converted to Python is copied into a new wrapper. *)
  Definition to_python (s : state) (ty : ctype) (v : cval) : option (state * item) :=
    match ty, v with
    | TLeaf t, CLeaf x => Some (s, IAtom (leaf_out t x))
    | TLeaf _, _ => None
    | _, _ => let '(s1, a) := allocate s v in let '(s2, w) := new_wrapper s1 ty (Some a) in Some (s2, IWrapper w)
    end.
  Definition prepends (ty : ctype) : bool := match ty with TLeaf t => leaf_prepends t | _ => true end.
  (** container.py:43-57: the value is converted first, then the key; each prepends or appends its build parameter. *)
  Inductive entry : Type := Single (v : cval) | Keyed (k v : cval).
  Definition entries (v : cval) : list entry :=
    match v with
    | CLeaf _ => []
    | CSeq l => map Single l
    | CMap l => map (fun x => Keyed (fst x) (snd x)) l
    end.
  Definition entry_to_python (s : state) (ty : ctype) (e : entry) : option (state * item) :=
    match ty, e with
    | TSeq _ _ te, Single v => to_python s te v
    | TMap _ _ tk tv, Keyed k v =>
        match to_python s tv v with
        | Some (s1, pv) =>
            match to_python s1 tk k with
            | Some (s2, pk) => Some (s2, if prepends tk then ITuple pk pv else ITuple pv pk)
            | None => None
            end
        | None => None
        end
    | _, _ => None
    end.
  (** container.py:43-57 and base.py ForwardWrapperBase.generate_body: tp_iternext. *)
  Definition next (s : state) (i : nat) : option (state * answer) :=
    match nth_error (iters s) i with
    | Some r =>
        if Nat.eqb (it_refs r) 0 then None else
        match nth_error (wraps s) (it_container r) with
        | Some c =>
            match wr_obj c with
            | Some a =>
                if Nat.eqb a (it_object r) then
                  match contents s a with
                  | Some v =>
                      match nth_error (entries v) (it_pos r) with
                      | None => if Nat.eqb (it_pos r) (length (entries v)) then Some (s, StopIteration) else None
                      | Some e =>
                          match entry_to_python (set_iter s i (mk_iter (it_refs r) (it_container r) (it_object r) (S (it_pos r)))) (wr_type c) e with
                          | Some (s1, x) => Some (s1, Item x)
                          | None => None
                          end
                      end
                  | None => None
                  end
                else None (* iterators of different containers are compared *)
            | None => None
            end
        | None => None
        end
    | None => None
    end.

  (** How a container parameter is declared: container.py:718-731 (by value), 750-778 (by reference; [changed]: what the C++
      function leaves in the variable, for output directions), 814-837 (by pointer). *)
  Inductive parameter : Type :=
  | Plain                                (* by value, by reference in, by pointer without transfer of ownership *)
  | InOut (changed : cval)               (* by reference, direction inout *)
  | GivenPointer.                        (* by pointer, transfer_ownership *)
  (** The temporary starts default constructed, the O& converter fills it. *)
  Definition argument (s : state) (ty : ctype) (how : parameter) (o : pyobj) : option (state * answer) :=
    match convert (look_up s) ty o (fresh ty) with
    | Crash => None
    | Fails _ e => Some (s, Raised e)
    | Done v =>
        match how with
        | Plain => Some (s, Received v)
        | InOut v' => match to_python s ty v' with Some (s1, _) => Some (s1, Received v) | None => None end
        | GivenPointer => let '(s1, a) := allocate s v in Some (mk_state (objs s1) (wraps s1) (iters s1) (a :: given s1), Received v)
        end
    end.

  (** ** Histories *)
  Inductive event : Type :=
  | New (ty : ctype)                                (* T.__new__(T): PyType_GenericNew *)
  | Init (w : nat) (arg : option pyobj)             (* w.__init__(...) *)
  | Construct (ty : ctype) (arg : option pyobj)     (* T(...) *)
  | Wrap (ty : ctype) (v : cval)                    (* a function returns v, or has it as output; an override gets it *)
  | Argument (ty : ctype) (how : parameter) (o : pyobj)
  | GetIter (w : nat)
  | Next (i : nat)
  | TakeWrapper (w : nat)
  | DropWrapper (w : nat)
  | TakeIter (i : nat)
  | DropIter (i : nat)
  | CppDelete (a : nat).                            (* C++ deletes a container it was given *)

  Definition step (s : state) (e : event) : option (state * answer) :=
    match e with
    | New ty => Some (fst (new_wrapper s ty None), Nothing)
    | Init w arg => init s w arg
    | Construct ty arg =>
        (* CPython's type_call: tp_new, tp_init, Py_DECREF if that fails *)
        let '(s1, w) := new_wrapper s ty None in
        match init s1 w arg with
        | Some (s2, Raised x) => match drop_wrapper s2 w with Some s3 => Some (s3, Raised x) | None => None end
        | r => r
        end
    | Wrap ty v => match to_python s ty v with Some (s1, x) => Some (s1, Item x) | None => None end
    | Argument ty how o => argument s ty how o
    | GetIter w => get_iter s w
    | Next i => next s i
    | TakeWrapper w => match take_wrapper s w with Some s1 => Some (s1, Nothing) | None => None end
    | DropWrapper w => match drop_wrapper s w with Some s1 => Some (s1, Nothing) | None => None end
    | TakeIter i => match take_iter s i with Some s1 => Some (s1, Nothing) | None => None end
    | DropIter i => match drop_iter s i with Some s1 => Some (s1, Nothing) | None => None end
    | CppDelete a => match delete s a with
                     | Some s1 => Some (mk_state (objs s1) (wraps s1) (iters s1) (filter (fun b => negb (Nat.eqb a b)) (given s1)), Nothing)
                     | None => None
                     end
    end.
  Fixpoint history (s : state) (h : list event) : option (state * list answer) :=
    match h with
    | [] => Some (s, [])
    | e :: r => match step s e with
                | Some (s1, a) => match history s1 r with Some (s2, l) => Some (s2, a :: l) | None => None end
                | None => None
                end
    end.
End Containers.

Arguments TLeaf {leaf} t. Arguments TSeq {leaf} name kind element. Arguments TMap {leaf} name sorted key value.
Arguments CLeaf {lval} v. Arguments CSeq {lval} l. Arguments CMap {lval} l.
Arguments PAtom {atom} a. Arguments PTuple {atom} l. Arguments PList {atom} reads. Arguments PRef {atom} w.
Arguments Done {lval} v. Arguments Fails {lval} left e. Arguments Crash {lval}.
Arguments from_wrapper {lval} look n w old.
Arguments mk_wrapper {leaf} wr_type wr_refs wr_obj. Arguments wr_type {leaf} w. Arguments wr_refs {leaf} w. Arguments wr_obj {leaf} w.
Arguments mk_state {leaf lval} objs wraps iters given. Arguments objs {leaf lval} s. Arguments wraps {leaf lval} s.
Arguments iters {leaf lval} s. Arguments given {leaf lval} s. Arguments start {leaf lval}.
Arguments type_name {leaf} ty. Arguments contents {leaf lval} s a. Arguments look_up {leaf lval} s w.
Arguments with_objs {leaf lval} s l. Arguments with_wraps {leaf lval} s l. Arguments with_iters {leaf lval} s l.
Arguments allocate {leaf lval} s v. Arguments delete {leaf lval} s a. Arguments new_wrapper {leaf lval} s ty obj.
Arguments set_wrapper {leaf lval} s w r. Arguments set_iter {leaf lval} s i r. Arguments fresh {leaf lval} ty.
Arguments Nothing {lval atom}. Arguments Raised {lval atom} e. Arguments Item {lval atom} x. Arguments StopIteration {lval atom}. Arguments Received {lval atom} v.
Arguments IAtom {atom} a. Arguments IWrapper {atom} w. Arguments ITuple {atom} x y.
Arguments drop_wrapper {leaf lval} s w. Arguments take_wrapper {leaf lval} s w. Arguments drop_iter {leaf lval} s i. Arguments take_iter {leaf lval} s i.
Arguments Single {lval} v. Arguments Keyed {lval} k v. Arguments entries {lval} v.
Arguments Plain {lval}. Arguments InOut {lval} changed. Arguments GivenPointer {lval}.
Arguments New {leaf lval atom} ty. Arguments Init {leaf lval atom} w arg. Arguments Construct {leaf lval atom} ty arg.
Arguments Wrap {leaf lval atom} ty v. Arguments Argument {leaf lval atom} ty how o. Arguments GetIter {leaf lval atom} w.
Arguments Next {leaf lval atom} i. Arguments TakeWrapper {leaf lval atom} w. Arguments DropWrapper {leaf lval atom} w.
Arguments TakeIter {leaf lval atom} i. Arguments DropIter {leaf lval atom} i. Arguments CppDelete {leaf lval atom} a.
Arguments get_iter {leaf lval atom} s w. Arguments prepends {leaf} leaf_prepends ty.
