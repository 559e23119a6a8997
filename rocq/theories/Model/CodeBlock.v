(** Model of CodeBlock (/repo/pybindgen/typehandlers/base.py:88-241).

    The type of code fragments is a parameter [A]: with [A := string] a fragment is the C text that is
    written, and [sink_ops] gives the calls made on the block's MemoryCodeSink; the wrapper models
    instantiate [A] with fragments that also carry their meaning.

    Simplification: the block's sink is represented by the sequence of statements written to it
    ([out]); [sink_ops] (below) expands each statement into the exact writeln/indent/unindent calls
    that the code makes, so the text is [CodeSink.run (Mem mem_init)] of those calls. *)
From Verif.Model Require Import Py CodeSink.
Open Scope string_scope.
Open Scope py_scope.
Open Scope list_scope.

Section Blocks.
  Context {A : Type}.

  (** What can be written to a block. *)
  Inductive item : Type :=
  | ICode (a : A)                                   (* write_code: base.py:168-170 *)
  | IIndent (n : Z) | IUnindent                     (* base.py:172-179 *)
  | ICheck (cond : A) (body : list A)               (* write_error_check: base.py:213-230 *)
  | IIf (cond : A) (body : list A)                  (* the same text written by hand by a handler *)
  | ITry (body : list A) (catches : list (A * list A)).
      (* the try/catch text of generate_call: function.py:193-222, cppmethod.py:273-306 *)

  (** base.py:112-153 CodeBlock.__init__.  [pred] is the index of the predecessor block. *)
  Record block : Type := {
    pred : option nat;
    actions : list (nat * A);   (* _cleanup_actions, in insertion order *)
    last_pos : nat;             (* _last_cleanup_position *)
    err_ret : A;                (* error_return *)
    out : list item }.

  Definition new_block (p : option nat) (err : A) : block :=
    {| pred := p; actions := []; last_pos := 0; err_ret := err; out := [] |}.

  (** All the blocks created so far; a block is its index. *)
  Definition store := list block.

  Definition put (st : store) (b : nat) (k : block) : store :=
    firstn b st ++ k :: skipn (S b) st.

  (** [items.sort()] on (position, code) pairs: insertion sort on the position (positions are unique,
      so the code component is never compared). *)
  Fixpoint insert_action (x : nat * A) (l : list (nat * A)) : list (nat * A) :=
    match l with
    | [] => [x]
    | y :: r => if Nat.leb (fst x) (fst y) then x :: l else y :: insert_action x r
    end.
  Fixpoint sort_actions (l : list (nat * A)) : list (nat * A) :=
    match l with [] => [] | x :: r => insert_action x (sort_actions r) end.

  (** base.py:198-211 get_cleanup_code.  The recursion over predecessors is bounded by [fuel]; a block is
      always created after its predecessor, so [S (length st)] always suffices (proved). *)
  Fixpoint get_cleanup_code (fuel : nat) (st : store) (b : nat) : list A :=
    match fuel with
    | O => []
    | S f =>
        match nth_error st b with
        | None => []
        | Some k =>
            rev (map snd (sort_actions (actions k))) ++
            match pred k with None => [] | Some p => get_cleanup_code f st p end
        end
    end.
  Definition cleanup_code (st : store) (b : nat) : list A := get_cleanup_code (S (length st)) st b.

  (** Append items to a block's output. *)
  Definition emit (st : store) (b : nat) (l : list item) : res store :=
    match nth_error st b with
    | None => Err NameError
    | Some k => Ok (put st b {| pred := pred k; actions := actions k; last_pos := last_pos k;
                                err_ret := err_ret k; out := out k ++ l |})
    end.

  (** base.py:155-158 clear (the predecessor, error return and declarations are kept). *)
  Definition clear_block (st : store) (b : nat) : res store :=
    match nth_error st b with
    | None => Err NameError
    | Some k => Ok (put st b (new_block (pred k) (err_ret k)))
    end.

  (** base.py:181-189 add_cleanup_code; the handle returned is the position. *)
  Definition add_cleanup_code (st : store) (b : nat) (a : A) : res (store * nat) :=
    match nth_error st b with
    | None => Err NameError
    | Some k =>
        let p := S (last_pos k) in
        Ok (put st b {| pred := pred k; actions := actions k ++ [(p, a)]; last_pos := p;
                        err_ret := err_ret k; out := out k |}, p)
    end.

  (** base.py:191-196 remove_cleanup_code ([del d[k]]: KeyError when absent). *)
  Definition remove_cleanup_code (st : store) (b : nat) (p : nat) : res store :=
    match nth_error st b with
    | None => Err NameError
    | Some k =>
        if existsb (fun x => Nat.eqb (fst x) p) (actions k) then
          Ok (put st b {| pred := pred k; actions := filter (fun x => negb (Nat.eqb (fst x) p)) (actions k);
                          last_pos := last_pos k; err_ret := err_ret k; out := out k |})
        else Err KeyError
    end.

  Definition opt_list (o : option A) : list A := match o with Some a => [a] | None => [] end.

  (** base.py:213-230 write_error_check, 232-235 write_cleanup, 237-241 write_error_return *)
  Definition write_error_check (st : store) (b : nat) (cond : A) (fail : option A) : res store :=
    match nth_error st b with
    | None => Err NameError
    | Some k => emit st b [ICheck cond (opt_list fail ++ cleanup_code st b ++ [err_ret k])]
    end.
  Definition write_cleanup (st : store) (b : nat) : res store :=
    emit st b (map ICode (cleanup_code st b)).
  Definition write_error_return (st : store) (b : nat) : res store :=
    match nth_error st b with
    | None => Err NameError
    | Some k => emit st b (map ICode (cleanup_code st b ++ [err_ret k]))
    end.

  (** base.py:806-808: assignment to block.error_return *)
  Definition set_error_return (st : store) (b : nat) (a : A) : res store :=
    match nth_error st b with
    | None => Err NameError
    | Some k => Ok (put st b {| pred := pred k; actions := actions k; last_pos := last_pos k;
                                err_ret := a; out := out k |})
    end.

  (** Creation: the predecessor is an existing block. *)
  Definition create (st : store) (p : option nat) (err : A) : res store :=
    match p with
    | Some q => if Nat.ltb q (length st) then Ok (st ++ [new_block p err]) else Err NameError
    | None => Ok (st ++ [new_block p err])
    end.

  (** API calls on code blocks. *)
  Inductive bop : Type :=
  | BNew (p : option nat) (err : A)
  | BClear (b : nat)
  | BCode (b : nat) (a : A)
  | BIndent (b : nat) (n : Z)
  | BUnindent (b : nat)
  | BAdd (b : nat) (a : A)
  | BCancel (b pos : nat)
  | BCheck (b : nat) (cond : A) (fail : option A)
  | BCleanup (b : nat)
  | BErrorReturn (b : nat)
  | BSetError (b : nat) (a : A).

  Definition bstep (st : store) (o : bop) : res store :=
    match o with
    | BNew p err => create st p err
    | BClear b => clear_block st b
    | BCode b a => emit st b [ICode a]
    | BIndent b n => emit st b [IIndent n]
    | BUnindent b => emit st b [IUnindent]
    | BAdd b a => x <- add_cleanup_code st b a ;; Ok (fst x)
    | BCancel b p => remove_cleanup_code st b p
    | BCheck b c f => write_error_check st b c f
    | BCleanup b => write_cleanup st b
    | BErrorReturn b => write_error_return st b
    | BSetError b a => set_error_return st b a
    end.

  Fixpoint brun (st : store) (h : list bop) : res store :=
    match h with
    | [] => Ok st
    | o :: r => st' <- bstep st o ;; brun st' r
    end.
End Blocks.
Arguments item : clear implicits.
Arguments block : clear implicits.
Arguments store : clear implicits.
Arguments bop : clear implicits.

(** The sink calls behind each statement, for textual fragments.
    ICheck/IIf: base.py:224-230; ITry: function.py:193-195 and 212-222. *)
Definition item_ops (i : item string) : list op :=
  match i with
  | ICode a => [OWrite a]
  | IIndent n => [OIndent n]
  | IUnindent => [OUnindent]
  | ICheck c body | IIf c body =>
      OWrite ("if (" ++ c ++ ") {")%string :: OIndent 4 :: map OWrite body ++ [OUnindent; OWrite "}"]
  | ITry body catches =>
      OWrite ("try" ++ nl ++ "{")%string :: OIndent 4 :: map OWrite body ++
      flat_map (fun c => OUnindent :: OWrite ("} catch (" ++ fst c ++ " const &exc) {")%string :: OIndent 4
                         :: map OWrite (snd c)) catches ++
      [OUnindent; OWrite "}"]
  end.

(** The text of a block: its sink after those calls. *)
Definition block_sink (l : list (item string)) : res sink :=
  run (Mem mem_init) (flat_map item_ops l).
