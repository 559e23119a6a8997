(** Python values shared by the whole model: exceptions as values, strings, small helpers.

    Strings are Coq [string]s (sequences of 8-bit characters): the texts PyBindGen handles are
    C identifiers, C types and C code, which are ASCII.  Non-ASCII text is not modelled. *)
From Coq Require Export String Ascii List Arith ZArith NArith Bool.
Export ListNotations.

(** Exception classes.  The last five are PyBindGen's own
    (/repo/pybindgen/typehandlers/base.py:41-57, /repo/pybindgen/utils.py:160-163). *)
Inductive pyexc : Type :=
| IndexError | KeyError | ValueError | TypeError | AssertionError | AttributeError
| NameError | RuntimeError | StopIterationE | NotImplementedError
| NotSupportedError | CodeGenerationError | TypeLookupError | TypeConfigurationError
| SkipWrapper
| OutOfFuel  (* not a Python exception: the model's own marker, excluded by theorems *)
| Unmodelled. (* not a Python exception: input outside the modelled subset *)

Inductive res (A : Type) : Type :=
| Ok (a : A)
| Err (e : pyexc).
Arguments Ok {A} a.
Arguments Err {A} e.

Definition bind {A B : Type} (x : res A) (f : A -> res B) : res B :=
  match x with
  | Ok a => f a
  | Err e => Err e
  end.

Declare Scope py_scope.
Notation "x <- e ;; k" := (bind e (fun x => k))
  (at level 61, e at next level, right associativity) : py_scope.

(** The newline character and one-character string. *)
Definition nl_char : ascii := ascii_of_nat 10.
Definition nl : string := String nl_char EmptyString.

(** ['x' * n] for a one-character string; Python repeats zero times for negative counts. *)
Fixpoint repeat_char (c : ascii) (n : nat) : string :=
  match n with
  | O => EmptyString
  | S m => String c (repeat_char c m)
  end.

Definition spaces (level : Z) : string := repeat_char " "%char (Z.to_nat level).

(** [str.split(sep)] for a one-character separator: always a non-empty list. *)
Fixpoint split_char (sep : ascii) (s : string) : list string :=
  match s with
  | EmptyString => [EmptyString]
  | String c r =>
      if Ascii.eqb c sep then EmptyString :: split_char sep r
      else match split_char sep r with
           | [] => [String c EmptyString]   (* unreachable: the result is never empty *)
           | x :: xs => String c x :: xs
           end
  end.

(** Characters removed by [str.rstrip()] / [str.strip()] (Latin-1 part of [str.isspace]). *)
Definition is_space (c : ascii) : bool :=
  let n := N_of_ascii c in
  ((9 <=? n) && (n <=? 13) || (28 <=? n) && (n <=? 32) || (n =? 133) || (n =? 160))%N.

(** [str.rstrip()] *)
Fixpoint rstrip (s : string) : string :=
  match s with
  | EmptyString => EmptyString
  | String c r =>
      match rstrip r with
      | EmptyString => if is_space c then EmptyString else String c EmptyString
      | r' => String c r'
      end
  end.

(** [sep.join(l)] is [String.concat sep l]. *)
Definition join (sep : string) (l : list string) : string := String.concat sep l.

(** [sub in s] for one character. *)
Fixpoint mem_char (c : ascii) (s : string) : bool :=
  match s with
  | EmptyString => false
  | String d r => Ascii.eqb c d || mem_char c r
  end.

(** [all(f(c) for c in s)] *)
Fixpoint forall_char (f : ascii -> bool) (s : string) : bool :=
  match s with
  | EmptyString => true
  | String d r => f d && forall_char f r
  end.

(** Decimal rendering of a natural number, Python's ["%i" % n].
    Digits are produced least significant first by repeated division. *)
Definition digit_char (n : N) : ascii := ascii_of_N (48 + n).

Fixpoint decimal_aux (fuel : nat) (n : N) (acc : string) : string :=
  match fuel with
  | O => acc
  | S f =>
      let acc' := String (digit_char (n mod 10)) acc in
      if (n <? 10)%N then acc' else decimal_aux f (n / 10) acc'
  end.

(** [N.size_nat n] binary digits always suffice as fuel for the decimal digits. *)
Definition decimal (n : N) : string := decimal_aux (S (N.size_nat n)) n EmptyString.

Definition is_digit (c : ascii) : bool :=
  let n := N_of_ascii c in ((48 <=? n) && (n <=? 57))%N.

Definition is_alpha (c : ascii) : bool :=
  let n := N_of_ascii c in ((65 <=? n) && (n <=? 90) || (97 <=? n) && (n <=? 122))%N.

(** Characters allowed inside a C identifier. *)
Definition is_ident_char (c : ascii) : bool :=
  is_digit c || is_alpha c || Ascii.eqb c "_"%char.

(** Association lists as Python dicts (insertion ordered, keys compared by [==]). *)
Section Dict.
  Context {V : Type}.
  Definition dict := list (string * V).
  Fixpoint dict_get (d : dict) (k : string) : option V :=
    match d with
    | [] => None
    | (k', v) :: r => if String.eqb k k' then Some v else dict_get r k
    end.
  (** [d[k] = v]: replaces in place or appends. *)
  Fixpoint dict_set (d : dict) (k : string) (v : V) : dict :=
    match d with
    | [] => [(k, v)]
    | (k', v') :: r => if String.eqb k k' then (k', v) :: r else (k', v') :: dict_set r k v
    end.
End Dict.
Arguments dict : clear implicits.
