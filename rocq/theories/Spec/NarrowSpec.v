(** Which wrapper type a returned object should get, in terms of the C++ types and of what has been registered. *)
From Verif.Model Require Import Py TypeMap.
Open Scope list_scope.

(** [derives t u]: [u] is the class [t] or one of its direct or indirect bases. *)
Inductive derives : rtti -> rtti -> Prop :=
| derives_self t : derives t t
| derives_single n b u : derives b u -> derives (Single n b) u
| derives_multiple n bs b u : In b bs -> derives b u -> derives (Multiple n bs) u.

(** [path t l u]: going up from [t] through single inheritance one meets the classes [l], and then [u]. *)
Inductive path : rtti -> list rtti -> rtti -> Prop :=
| path_here t : path t [] t
| path_up n b l u : path b l u -> path (Single n b) (Single n b :: l) u.

(** A class without bases. *)
Definition is_plain (t : rtti) : Prop := match t with Plain _ => True | _ => False end.
(** A class with bases, not all of it single inheritance. *)
Definition is_multiple (t : rtti) : Prop := match t with Multiple _ _ => True | _ => False end.

(** The latest registration of a type name in a history; [known h t] is the wrapper type in force for class [t]. *)
Fixpoint latest_of (name : string) (h : list map_event) (before : pytype) : pytype :=
  match h with
  | [] => before
  | Register t w :: r => latest_of name r (if String.eqb (ti_name t) name then Some w else before)
  | Lookup _ _ :: r => latest_of name r before
  end.
Definition known (h : list map_event) (t : rtti) : pytype := latest_of (ti_name t) h None.

(** [nearest h t u]: [u] is the first class with a known wrapper type going up from [t]. *)
Definition nearest (h : list map_event) (t u : rtti) (w : nat) : Prop :=
  exists l, path t l u /\ known h u = Some w /\ forall x, In x l -> known h x = None.

(** Nothing on the line of single inheritance of [t] is known. *)
Definition nothing_known (h : list map_event) (t : rtti) : Prop := forall l u, path t l u -> known h u = None.

(** ** Programs *)
From Verif.Model Require Import Hierarchy.
(** Class [i] has been initialised in the history [h]. *)
Definition initialised (h : list event) (i : nat) : Prop := In (Initialise i) h.
(** Class [i] takes part in narrowing with the same root as class [s]. *)
Definition companion (w : hier) (s i : nat) : Prop :=
  narrowing_of w i = true /\ exists r, type_narrowing_root w s = Ok (Some r) /\ type_narrowing_root w i = Ok (Some r).
(** Type names identify the C++ types that matter: those of the wrapped classes and [t] with its bases. *)
Definition names_identify (cxx : nat -> rtti) (t : rtti) : Prop :=
  (forall i j, ti_name (cxx i) = ti_name (cxx j) -> i = j) /\ forall i u, derives t u -> ti_name (cxx i) = ti_name u -> cxx i = u.
