(** What the inheritance queries are supposed to answer, in terms of the declared parents and methods only. *)
From Verif.Model Require Import Py Hierarchy.
Open Scope list_scope.

(** The parents of each class. *)
Section Order.
  Variable parents : nat -> list nat.

  (** [c] is the class [i] or one it derives from. *)
  Inductive ancestor : nat -> nat -> Prop :=
  | ancestor_self i : ancestor i i
  | ancestor_up i b c : In b (parents i) -> ancestor b c -> ancestor i c.

  (** The classes [n] steps above [i], from left to right, once per way up. *)
  Fixpoint level (i : nat) (n : nat) : list nat :=
    match n with
    | O => [i]
    | S m => flat_map parents (level i m)
    end.

  (** The classes from [i] up to [n] steps above it, level by level. *)
  Definition levels (i n : nat) : list nat := flat_map (level i) (seq 0 (S n)).

  (** [l] is the line of single inheritance starting with [i]. *)
  Inductive line : nat -> list nat -> Prop :=
  | line_end i : parents i = [] -> line i [i]
  | line_up i b l : parents i = [b] -> line b l -> line i (i :: l).
End Order.

(** The parents given for class [i] in a script; [answers] are its calls and their answers. *)
Fixpoint declared_parents (answers : list (hcall * res hanswer)) (i : nat) : list nat :=
  match answers with
  | [] => []
  | (HClass d, Ok (RClass j)) :: r =>
      if Nat.eqb j i then match cd_parents d with Some l => l | None => [] end else declared_parents r i
  | _ :: r => declared_parents r i
  end.

(** The hooks added to class [i], in order. *)
Fixpoint declared_hooks (answers : list (hcall * res hanswer)) (i : nat) : list nat :=
  match answers with
  | [] => []
  | (HHook j n, Ok _) :: r => if Nat.eqb j i then n :: declared_hooks r i else declared_hooks r i
  | _ :: r => declared_hooks r i
  end.

(** [l] without the elements that already occurred. *)
Fixpoint firsts (seen l : list nat) : list nat :=
  match l with
  | [] => []
  | x :: r => if existsb (Nat.eqb x) seen then firsts seen r else x :: firsts (x :: seen) r
  end.

(** Signatures: name, parameter types, constness. *)
Definition signature (m : method) : string * list string * bool := (mt_name m, mt_ctypes m, mt_const m).

(** What a script has declared: [answers] are its calls and their answers.  A method is recorded if its types are known,
    unless it is protected and not virtual; otherwise if it is explicitly declared virtual. *)
Definition recorded (d : mdecl) : Prop :=
  if md_wrappable d then ~ (md_vis d = Protected /\ mt_virtual (method_of d) = false) else md_virtual d = Some true.
Definition declares (answers : list (hcall * res hanswer)) (i : nat) (m : method) : Prop :=
  exists d a, In (HMethod i d, Ok a) answers /\ recorded d /\ m = method_of d.
(** The same, for methods whose types are known. *)
Definition declares_wrapped (answers : list (hcall * res hanswer)) (i : nat) (m : method) : Prop :=
  exists d a, In (HMethod i d, Ok a) answers /\ recorded d /\ md_wrappable d = true /\ m = method_of d.

(** [declared c m]: class [c] declares method [m]; [order] is the resolution order.  The class is abstract if a pure method
    is declared in some class and every virtual method of the same signature in the classes before is pure too. *)
Definition abstract (declared : nat -> method -> Prop) (order : list nat) : Prop :=
  exists before c after m,
    order = before ++ c :: after /\ declared c m /\ mt_pure m = true /\
    forall d x, In d before -> declared d x -> mt_virtual x = true -> signature x = signature m -> mt_pure x = true.

(** A class does not declare one signature both pure and not pure. *)
Definition consistent (declared : nat -> method -> Prop) (c : nat) : Prop :=
  forall x y, declared c x -> declared c y -> mt_virtual x = true -> mt_virtual y = true -> signature x = signature y ->
    mt_pure x = mt_pure y.

(** The final overriders along a line of single inheritance: the declarations of a virtual method that no class nearer
    declares. *)
Inductive final (declared : nat -> method -> Prop) : list nat -> method -> Prop :=
| final_here c l m : declared c m -> mt_virtual m = true -> final declared (c :: l) m
| final_above c l m : (forall d, declared c d -> mt_virtual d = true -> signature d <> signature m) ->
    final declared l m -> final declared (c :: l) m.

(** A declaration that matters for the question whether a class is abstract. *)
Definition counted (d : mdecl) : Prop := md_virtual d = Some true \/ md_pure d = true.

(** Calls that ask whether class [i] is abstract. *)
Definition asks (i : nat) (c : hcall) : Prop := c = HPure i \/ c = HForward i \/ exists v, c = HConstructor i v.

(** No such declaration for a class [i] derives from comes after class [i] has been asked; neither does a declaration for
    [i] itself of a method both pure and explicitly not virtual. *)
Definition timely (parents : nat -> list nat) (script : list hcall) (i : nat) : Prop :=
  forall before j d after, script = before ++ HMethod j d :: after -> counted d ->
    (j = i /\ md_virtual d = Some false \/ j <> i /\ ancestor parents i j) -> forall c, In c before -> ~ asks i c.
