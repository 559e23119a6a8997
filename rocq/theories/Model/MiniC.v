(** The meaning of the code written to code blocks.

    A fragment is a piece of C text with the sequence of actions it performs.  Only what the properties
    speak about is kept: acquisition and release of a resource, operations that need the interpreter
    lock, calls into C++, lock operations, and returning.  The association of text and actions is part
    of the trusted base. *)
From Verif.Model Require Import Py CodeBlock.
Open Scope list_scope.

Inductive act : Type :=
| APy (what : string)        (* uses the Python C API: needs the interpreter lock *)
| ACpp (what : string)       (* calls into the wrapped library; may throw a C++ exception *)
| ALocal (what : string)     (* touches only C variables *)
| AAcquire (r : nat)         (* acquires resource r, needing a later release *)
| ARelease (r : nat)
| ASaveThread                (* if (PyEval_ThreadsInitialized ()) ts = PyEval_SaveThread(); *)
| ARestoreThread             (* if (ts) PyEval_RestoreThread(ts); *)
| AReturn (what : string).   (* leaves the wrapper *)

(** [f_pass] is used for conditions: what evaluating the condition has achieved when it is false,
    i.e. when the check passes (such as a successful allocation). *)
Record frag : Type := { f_text : string; f_acts : list act; f_pass : list act }.

Definition is_return (a : act) : bool := match a with AReturn _ => true | _ => false end.

(** Straight-line execution: stops after the first return.  The boolean says whether it returned. *)
Fixpoint run_acts (l : list act) : list act * bool :=
  match l with
  | [] => ([], false)
  | a :: r => if is_return a then ([a], true) else let (t, b) := run_acts r in (a :: t, b)
  end.

Definition frags_acts (l : list frag) : list act := flat_map f_acts l.

(** Part of a try body executed before the exception: everything up to and including the first call
    into C++ (the only action that can throw). *)
Fixpoint until_throw (l : list act) : list act :=
  match l with
  | [] => []
  | ACpp w :: _ => [ACpp w]
  | a :: r => a :: until_throw r
  end.

(** Execution of the items of a body.  [ch n] decides item [n]: for a check, whether its condition holds
    (non-zero); for a try, 0 when nothing is thrown and [S k] when the k-th catch clause is entered (an
    exception no clause catches leaves the wrapper: [k] out of range, reported as not returned).
    Each item is executed at most once.  Simplification: the loops some array handlers write into a block
    (inttype.py:83-115, doubletype and floattype alike) are not modelled. *)
Inductive outcome : Type := Fell | Returned | Escaped.

Fixpoint exec (ch : nat -> nat) (n : nat) (l : list (item frag)) : list act * outcome :=
  let continue_with (t : list act) (returned : bool) (k : list act * outcome) :=
    if returned then (t, Returned) else (t ++ fst k, snd k) in
  match l with
  | [] => ([], Fell)
  | i :: r =>
      let k := exec ch (S n) r in
      match i with
      | ICode f => let (t, b) := run_acts (f_acts f) in continue_with t b k
      | IIndent _ | IUnindent => k
      | ICheck c body | IIf c body =>
          if Nat.eqb (ch n) 0 then
            let (t, b) := run_acts (f_acts c ++ f_pass c) in continue_with t b k
          else
            let (t, b) := run_acts (f_acts c ++ frags_acts body) in continue_with t b k
      | ITry body catches =>
          match ch n with
          | O => let (t, b) := run_acts (frags_acts body) in continue_with t b k
          | S j =>
              match nth_error catches j with
              | None => (until_throw (frags_acts body), Escaped)
              | Some (_, cbody) =>
                  let (t, b) := run_acts (until_throw (frags_acts body) ++ frags_acts cbody) in
                  continue_with t b k
              end
          end
      end
  end.

(** Only the text of a body. *)
Definition item_text (i : item frag) : item string :=
  match i with
  | ICode f => ICode (f_text f)
  | IIndent n => IIndent n
  | IUnindent => IUnindent
  | ICheck c b => ICheck (f_text c) (map f_text b)
  | IIf c b => IIf (f_text c) (map f_text b)
  | ITry b cs => ITry (map f_text b) (map (fun c => (f_text (fst c), map f_text (snd c))) cs)
  end.

(** The catch clause entered for an exception whose dynamic type is matched by the clauses satisfying [m]
    (C++: the first matching clause in textual order), as a choice for [exec]. *)
Fixpoint catch_choice (m : frag -> bool) (clauses : list (frag * list frag)) : nat :=
  match clauses with
  | [] => 1
  | cl :: r => if m (fst cl) then 1 else S (catch_choice m r)
  end.
