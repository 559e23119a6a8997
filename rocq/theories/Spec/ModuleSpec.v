(** What a declaration script means: which names are known where, and which section is current. *)
From Verif.Model Require Import Py Errors Overloading Module.
From Verif.Spec Require Import OverloadSpec.
Open Scope string_scope.
Open Scope list_scope.

(** [contains mods a i]: module [a] is module [i] or one of those around it. *)
Inductive contains (mods : list modul) : nat -> nat -> Prop :=
| ct_self : forall i, contains mods i i
| ct_parent : forall a i m j, nth_error mods i = Some m -> m_parent m = Some j -> contains mods a j -> contains mods a i.

(** [registers mods (call, answer) a key obj]: the call makes [obj] known as [key] in module [a]. *)
Inductive registers {V} (mods : list modul) : call V * res answer -> nat -> string -> nat -> Prop :=
| rg_short : forall i t full, td_name t <> "" -> registers mods (CType i t, Ok (RObject full)) i (td_name t) (td_id t)
| rg_full : forall i t full a, full <> "" -> contains mods a i -> registers mods (CType i t, Ok (RObject full)) a full (td_id t)
| rg_alias : forall i o k alias full a, alias <> "" -> contains mods a i \/ contains mods a o ->
    registers mods (CTypedef i o k alias, Ok (RObject full)) a alias k
| rg_alias_full : forall i o k alias full a, full <> "" -> contains mods a o -> registers mods (CTypedef i o k alias, Ok (RObject full)) a full k.

(** A namespace as written by the user: the components, possibly after a leading '::'. *)
Definition component (s : string) : Prop := s <> "" /\ mem_char ":" s = false.
Inductive written : option string -> list string -> Prop :=
| wr_none : written None []
| wr_empty : written (Some "") []
| wr_global : written (Some "::") []
| wr_plain : forall l, l <> [] -> Forall component l -> written (Some (String.concat "::" l)) l
| wr_leading : forall l, l <> [] -> Forall component l -> written (Some ("::" ++ String.concat "::" l)%string) l.

(** The C++ namespace of a module: that of its parent followed by its own. *)
Inductive cpp_path (mods : list modul) : nat -> list string -> Prop :=
| cp_root : forall i m l, nth_error mods i = Some m -> m_parent m = None -> written (m_ns m) l -> cpp_path mods i l
| cp_sub : forall i m j l0 l, nth_error mods i = Some m -> m_parent m = Some j -> cpp_path mods j l0 -> written (m_ns m) l ->
    cpp_path mods i (l0 ++ l).

(** The section current after a script. *)
Fixpoint section_after {V} (now : string) (tr : list (call V * res answer)) : string :=
  match tr with
  | [] => now
  | (CBegin _ s, Ok _) :: r => section_after s r
  | (CEnd _ _, Ok _) :: r => section_after "__main__" r
  | _ :: r => section_after now r
  end.
Definition current {V} (tr : list (call V * res answer)) : string := section_after "__main__" tr.

(** The include directives a script has asked for, each where it was asked for first. *)
Fixpoint asked {V} (tr : list (call V * res answer)) : list string :=
  match tr with
  | [] => []
  | (CInclude _ s, Ok _) :: r => s :: asked r
  | _ :: r => asked r
  end.
Fixpoint first_occurrences (l : list string) : list string :=
  match l with
  | [] => []
  | x :: r => x :: filter (fun y => negb (String.eqb x y)) (first_occurrences r)
  end.
(** The one-time definitions a script has claimed. *)
Fixpoint claimed {V} (tr : list (call V * res answer)) : list string :=
  match tr with
  | [] => []
  | (COnce _ s, Ok _) :: r => s :: claimed r
  | _ :: r => claimed r
  end.

(** Worlds that differ at most in the record of the calls of the error handler. *)
Definition same_module (a b : world) : Prop :=
  w_mods a = w_mods b /\ w_section a = w_section b /\ w_includes a = w_includes b /\ w_once a = w_once b.
