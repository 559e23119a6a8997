(** The classes of header files and what is expected of their registration. *)
From Verif.Model Require Import Py ScanTypes.
Open Scope list_scope.

(** ** Declarations *)
(** [c] is declared in [l] itself or somewhere inside; [scope]: the classes declared beside it (itself included); [outer]: the class
    around it. *)
Inductive declared : list cls -> option nat -> cls -> list cls -> option nat -> Prop :=
| declared_here l o c : In c l -> declared l o c l o
| declared_inside l o d c scope outer : In d l -> declared (c_nested d) (Some (c_id d)) c scope outer -> declared l o c scope outer.
(** The number of a class declared in a namespace or inside its classes. *)
Definition class_in (l : list cls) (n : nat) : Prop := exists c scope outer, declared l None c scope outer /\ c_id c = n.
(** The scan of the namespaces gives these events and comes to its end or not. *)
Definition scanned (namespaces : list (list cls)) (events : list event) (finished : bool) : Prop := exists fuel, run fuel (initial namespaces) = Some (events, finished).
Definition registered_in (events : list event) (n : nat) : Prop := exists ps o, In (ERegistered n ps o) events.

(** The numbers of a class and of those inside it. *)
Fixpoint numbers (c : cls) : list nat := match c with mk_cls i _ _ _ _ _ nested => i :: flat_map numbers nested end.
Definition all_numbers (namespaces : list (list cls)) : list nat := flat_map (flat_map numbers) namespaces.

(** ** What becomes of a class *)
(** Registered, with each of its casting operators recorded or reported and the same for the classes inside it; or left out: ignored,
    anonymous (reported), an instance over a private class, or because of a base that is reported. *)
Inductive accounted (events : list event) : cls -> Prop :=
| accounted_registered c o :
    In (ERegistered (c_id c) (c_bases c) o) events ->
    (forall t, In t (c_targets c) -> In (EConversion (c_id c) t) events \/ In (EMissingTarget (c_id c) t) events) ->
    (forall d, In d (c_nested c) -> accounted events d) -> accounted events c
| accounted_ignored c : c_ignored c = true -> accounted events c
| accounted_anonymous c o : c_anonymous c = true -> In (EAnonymous (c_id c) o) events -> accounted events c
| accounted_private c : c_private c = true -> accounted events c
| accounted_base c b : In b (c_bases c) -> In (EMissingBase (c_id c) b) events -> accounted events c.
(** Registered with all its casting operators, and so the classes inside it. *)
Inductive wrapped (events : list event) : cls -> Prop :=
| wrapped_intro c o :
    In (ERegistered (c_id c) (c_bases c) o) events -> (forall t, In t (c_targets c) -> In (EConversion (c_id c) t) events) ->
    (forall d, In d (c_nested c) -> wrapped events d) -> wrapped events c.

(** ** A program that can be wrapped as it is *)
(** Every class is to be wrapped, and its bases and conversion targets are declared beside it, around it or in an earlier namespace. *)
Inductive fine (known : nat -> Prop) : list cls -> Prop :=
| fine_intro l :
    (forall c, In c l -> c_ignored c = false /\ c_anonymous c = false /\ c_private c = false) ->
    (forall c n, In c l -> In n (c_bases c ++ c_targets c) -> known n \/ In n (map c_id l)) ->
    (forall c, In c l -> fine (fun n => known n \/ n = c_id c) (c_nested c)) -> fine known l.
Inductive fine_program : (nat -> Prop) -> list (list cls) -> Prop :=
| fine_end known : fine_program known []
| fine_next known l r : fine known l -> fine_program (fun n => known n \/ class_in l n) r -> fine_program known (l :: r).
(** Within each scope no class waits for more than nine levels of others (bases and conversion targets). *)
Definition shallow (rank : nat -> nat) (namespaces : list (list cls)) : Prop :=
  forall l c scope outer n, In l namespaces -> declared l None c scope outer -> In n (c_bases c ++ c_targets c) -> In n (map c_id scope) -> rank n < rank (c_id c) <= 9.
