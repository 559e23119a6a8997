(** Model of the method tables of the wrapped classes (/repo/pybindgen/cppclass.py:2324-2434) and of how Python finds a method
    through them. *)
From Verif.Model Require Import Py PyState Hierarchy.
From Verif.Model Require Sequence.
Open Scope string_scope.
Open Scope list_scope.

(** cppclass.py:2332, 2406: the names that have type slots instead of table entries *)
Definition special_names : list string := "__call__" :: map fst Sequence.valid_sequence_methods.
Definition special (n : string) : bool := existsb (String.eqb n) special_names.

(** A wrapper in an entry of the table of class [i]: the method it calls, and original_class, the class whose wrapper was
    cloned ([i] itself if the wrapper is not a clone).  Its code reads the C++ pointer of the Python object as a pointer to
    [i] (cppmethod.py:232-235 and 258-291: self is declared with the pystruct of its class). *)
Record wrapper : Type := mk_wrapper { wr_method : method; wr_class : nat }.
(** What a table entry calls: the wrappers of an overload, the parent callers of a protected method (cppclass.py:478-504), or
    the copy function (2288-2322). *)
Inductive target : Type := TWrappers (l : list wrapper) | TCaller | TCopy.
Definition table : Type := list (string * target).

(** [methods] in _generate_MI_parent_methods: a dict of overloads. *)
Fixpoint add_found (d : dict (list wrapper)) (n : string) (l : list wrapper) : dict (list wrapper) :=
  match d with
  | [] => [(n, l)]
  | (k, x) :: r => if String.eqb k n then (k, x ++ l) :: r else (k, x) :: add_found r n l
  end.

Section Tables.
  (** Whether the code of the wrapper of a method can be generated; if not, the error handler accepts the error.
      Simplification: this does not depend on the class. *)
  Variable ok : method -> bool.
  (** The names of the parent callers of the helper class, and whether the class has a copy constructor for which code can be
      generated.  Simplification: parent callers are not modelled further. *)
  Variable callers : nat -> list string.
  Variable copyable : nat -> bool.

  (** overloading.py:76-116 _normalize_py_method_flags: a failing wrapper is removed from an overload of several.
      Simplification: the methods of one name are all static or all not static. *)
  Definition normalise (l : list method) : list method := match l with [_] => l | _ => filter ok l end.
  (** overloading.py:128-238 generate: the wrappers for which there is code; SkipWrapper if there is none. *)
  Definition entry_of (n : string) (l : list wrapper) : table :=
    match filter (fun x => ok (wr_method x)) l with [] => [] | r => [(n, TWrappers r)] end.

  (** cppclass.py:2398-2408: the methods of the class itself *)
  Definition own_entries (i : nat) (d : dict (list method)) : table :=
    flat_map (fun x => if special (fst x) then [] else entry_of (fst x) (map (fun m => mk_wrapper m i) (snd x))) d.
  Definition own_normalised (d : dict (list method)) : dict (list method) := map (fun x => (fst x, normalise (snd x))) d.

  (** cppclass.py:2342-2373: one wrapper [pw] of the overload [n] of [base].  [own] is self.methods, [acc] is methods.
      Line 2359 reuses the variable 'overload' for the overload of the class itself: the clone is added to that. *)
  Definition take_wrapper (nonpublic : list method) (base : nat) (n : string) (s : dict (list method) * dict (list wrapper))
    (pw : method) : dict (list method) * dict (list wrapper) :=
    let '(own, acc) := s in
    if negb (is_public (mt_vis pw)) then s
    else if existsb (fun leaf => matches_signature leaf pw) nonpublic then s
    else match dict_get own n with
         | Some l => if existsb (fun leaf => matches_signature leaf pw) l then s else (add_overload own n pw, acc)
         | None => (own, add_found acc n [mk_wrapper pw base])
         end.
  (** cppclass.py:2329-2340 *)
  Definition take_name (nonpublic : list method) (base : nat) (s : dict (list method) * dict (list wrapper))
    (x : string * list method) : dict (list method) * dict (list wrapper) :=
    if special (fst x) then s
    else fold_left (take_wrapper nonpublic base (fst x)) (snd x) (fst s, add_found (snd s) (fst x) []).
  (** cppclass.py:2326-2328; [w]: the classes, of which the bases are not changed by the loop *)
  Definition take_base (w : hier) (nonpublic : list method) (s : dict (list method) * dict (list wrapper)) (base : nat)
    : dict (list method) * dict (list wrapper) :=
    match nth_error w base with
    | Some k => fold_left (take_name nonpublic base) (k_methods k) s
    | None => s (* not reached *)
    end.

  (** cppclass.py:2375-2393: overloads of several classes are left out *)
  Definition one_class (l : list wrapper) : bool :=
    match l with
    | [] => false
    | x :: r => forallb (fun y => Nat.eqb (wr_class y) (wr_class x)) r
    end.
  Definition inherited_entries (acc : dict (list wrapper)) : table :=
    flat_map (fun x => if one_class (snd x) then entry_of (fst x) (snd x) else []) acc.

  (** cppclass.py:2395-2434 _generate_methods; the answer is the method table.  Simplification: no function was added as a
      method to a class that has or is one of several bases (Function has no matches_signature). *)
  Definition generate_methods (i : nat) : st hier table := fun w =>
    match nth_error w i, get_mro w i with
    | Some k, Ok (_ :: above) =>
        let own := own_normalised (k_methods k) in
        let s := if Nat.ltb 1 (length (k_bases k)) then fold_left (take_base w (k_nonpublic k)) above (own, []) else (own, []) in
        (change w i (with_methods (fst s)),
         Ok (own_entries i (k_methods k) ++ map (fun n => (n, TCaller)) (callers i) ++ inherited_entries (snd s) ++
             (if copyable i then [("__copy__", TCopy)] else [])))
    | _, _ => (w, Err Unmodelled) (* not a class *)
    end.

  (** The classes of a module are generated one after the other; the answer gives the table of each. *)
  Fixpoint generate_tables (order : list nat) (w : hier) : list (nat * table) :=
    match order with
    | [] => []
    | i :: r => match generate_methods i w with
                | (w', Ok t) => (i, t) :: generate_tables r w'
                | (w', Err _) => generate_tables r w'
                end
    end.
End Tables.

(** ** Python's side *)
Definition table_of (ts : list (nat * table)) (i : nat) : table :=
  match find (fun x => Nat.eqb (fst x) i) ts with Some x => snd x | None => [] end.
(** CPython, type_add_method: of two table entries of one name the first is used. *)
Definition table_get (t : table) (n : string) : option target := option_map snd (find (fun x => String.eqb (fst x) n) t).

(** CPython, mro_implementation: a type of one base takes over the order of its base; otherwise the C3 merge of the orders of
    the bases and the list of the bases. *)
Definition head_ok (c : nat) (ls : list (list nat)) : bool := negb (existsb (fun l => existsb (Nat.eqb c) (tl l)) ls).
Fixpoint candidate (ls all : list (list nat)) : option nat :=
  match ls with
  | [] => None
  | [] :: r => candidate r all
  | (c :: _) :: r => if head_ok c all then Some c else candidate r all
  end.
Definition remove_head (c : nat) (l : list nat) : list nat :=
  match l with x :: r => if Nat.eqb x c then r else l | [] => [] end.
Fixpoint merge (fuel : nat) (ls : list (list nat)) : option (list nat) :=
  if forallb (fun l => match l with [] => true | _ => false end) ls then Some []
  else match fuel with
       | O => None
       | S f => match candidate ls ls with
                | None => None (* TypeError: Cannot create a consistent method resolution order *)
                | Some c => option_map (cons c) (merge f (map (remove_head c) ls))
                end
       end.
Fixpoint gather {A} (l : list (option A)) : option (list A) :=
  match l with
  | [] => Some []
  | Some x :: r => option_map (cons x) (gather r)
  | None :: _ => None
  end.
(** The order of a wrapped class in Python, up to 'object'.  cppclass.py:1979-1988: tp_base is the first base; tp_bases holds
    all of them if there are several.  None: the type cannot be created. *)
Fixpoint python_mro (fuel : nat) (w : hier) (i : nat) : option (list nat) :=
  match fuel with
  | O => None
  | S f =>
      match bases w i with
      | [] => Some [i]
      | [b] => option_map (cons i) (python_mro f w b)
      | bs => match gather (map (python_mro f w) bs) with
              | None => None
              | Some ls => option_map (cons i) (merge (length (concat ls) + length bs) (ls ++ [bs]))
              end
      end
  end.
Definition type_mro (w : hier) (i : nat) : option (list nat) := python_mro (S i) w i.

(** Looking up a method of an instance of class [i]: the class whose table has it, and the entry. *)
Fixpoint look_up (ts : list (nat * table)) (order : list nat) (n : string) : option (nat * target) :=
  match order with
  | [] => None
  | c :: r => match table_get (table_of ts c) n with Some t => Some (c, t) | None => look_up ts r n end
  end.
Definition find_method (ts : list (nat * table)) (w : hier) (i : nat) (n : string) : option (nat * target) :=
  match type_mro w i with Some l => look_up ts l n | None => None end.
