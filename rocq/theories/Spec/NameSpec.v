(** The names of functions in Python and in C. *)
From Verif.Model Require Import Py PyState Mangle Errors Overloading Module.
From Verif.Spec Require Import OverloadSpec SectionSpec.
Open Scope string_scope.
Open Scope list_scope.

(** What follows a prefix. *)
Fixpoint after (p s : string) : option string :=
  match p, s with
  | EmptyString, _ => Some s
  | String a p', String b s' => if Ascii.eqb a b then after p' s' else None
  | String _ _, EmptyString => None
  end.
(** A string without the prefix, if it has it. *)
Definition without (p s : string) : string := match after p s with Some t => t | None => s end.

(** How module [i] turns names of C functions into Python names after a script: by default its name and an underscore are
    removed; set_strip_prefix and setting the transformer replace this. *)
Definition renamed {V} (i : nat) (now : option (string -> string)) (e : call V * res answer) : option (string -> string) :=
  match e with
  | (CSubModule _ n _, Ok (RModule j)) | (CNamespace _ n, Ok (RModule j)) =>
      if Nat.eqb j i then match now with None => Some (without (n ++ "_")%string) | Some _ => now end else now
  | (CStrip j s, Ok _) => if Nat.eqb j i then Some (without s) else now
  | (CTransform j f, Ok _) => if Nat.eqb j i then Some f else now
  | _ => now
  end.
Definition naming {V} (root : string) (i : nat) (tr : list (call V * res answer)) : option (string -> string) :=
  fold_left (renamed i) tr (if Nat.eqb i 0 then Some (without (root ++ "_")%string) else None).

(** The name of a function before transformation, and its Python name.  A custom name that equals the name the function
    would have had anyway counts as none. *)
Definition plain_name {V} (d : fdecl V) : string := get_mangled_name (fd_name d) (fd_template d).
Definition in_python {V} (t : string -> string) (d : fdecl V) (n : string) : Prop :=
  match fd_custom d with
  | Some c => (c <> plain_name d /\ n = c) \/ (c = plain_name d /\ n = get_mangled_name (t (fd_name d)) (fd_template d))
  | None => n = get_mangled_name (t (fd_name d)) (fd_template d)
  end.

Fixpoint dots_to_underscores (s : string) : string :=
  match s with
  | EmptyString => EmptyString
  | String c r => String (if Ascii.eqb c "." then "_" else c) (dots_to_underscores r)
  end.
(** The prefix of the C names of a module. *)
Inductive c_prefix (mods : list modul) : nat -> string -> Prop :=
| xp_root : forall i m, nth_error mods i = Some m -> m_parent m = None -> c_prefix mods i (dots_to_underscores (m_name m))
| xp_sub : forall i m j p, nth_error mods i = Some m -> m_parent m = Some j -> c_prefix mods j p -> c_prefix mods i (p ++ "_" ++ m_name m)%string.
(** The C function of a declaration in a module with this prefix. *)
Definition c_function {V} (prefix : string) (d : fdecl V) : string :=
  ("_wrap_" ++ prefix ++ "_" ++ match fd_custom d with Some c => c | None => plain_name d end)%string.
