(** What a script has declared in each module, and where the code of each declaration belongs. *)
From Verif.Model Require Import Py Errors Overloading Module.
From Verif.Spec Require Import OverloadSpec ModuleSpec PolicySpec.
Open Scope string_scope.
Open Scope list_scope.

(** The functions that a script has declared in module [i] with the Python name [n], in order, each with the section in which it
    was declared. *)
Fixpoint functions_from {V} (i : nat) (n : string) (now : string) (tr : list (call V * res answer)) : list (fdecl V * string) :=
  match tr with
  | [] => []
  | e :: r => match e with
              | (CFunctionC j d, Ok (RObject x)) => if Nat.eqb j i && String.eqb x n then [(d, now)] else []
              | _ => []
              end ++ functions_from i n (section_after now [e]) r
  end.
Definition functions_named {V} (i : nat) (n : string) (tr : list (call V * res answer)) : list (fdecl V * string) :=
  functions_from i n "__main__" tr.
(** The types declared in module [i], in order, with their full names and sections. *)
Fixpoint types_from {V} (i : nat) (now : string) (tr : list (call V * res answer)) : list (tdecl V * string * string) :=
  match tr with
  | [] => []
  | e :: r => match e with
              | (CType j t, Ok (RObject x)) => if Nat.eqb j i then [(t, x, now)] else []
              | _ => []
              end ++ types_from i (section_after now [e]) r
  end.
Definition types_in {V} (i : nat) (tr : list (call V * res answer)) : list (tdecl V * string * string) := types_from i "__main__" tr.
(** The Python names of the functions declared in module [i], each where it was declared first. *)
Fixpoint names_of {V} (i : nat) (tr : list (call V * res answer)) : list string :=
  match tr with
  | [] => []
  | (CFunctionC j _, Ok (RObject x)) :: r => if Nat.eqb j i then x :: names_of i r else names_of i r
  | _ :: r => names_of i r
  end.

(** The value a specification stands for. *)
Definition stands_for {V} (make : list string -> list (string * string) -> res V) (retval : bool) (s : spec V) (v : V) : Prop :=
  match s with
  | SObject x => x = v
  | STuple args kw => make args (match kw with Some k => k | None => [] end) = Ok v
  | SString t => retval = true /\ make [t] [] = Ok v
  | SOther => False
  end.
(** A wrapper is the one made for a declaration. *)
Definition wraps {V} (make : list string -> list (string * string) -> res V) (x : fdecl V * string) (w : fwrapper) : Prop :=
  let d := fst x in
  fw_id w = fd_id d /\ fw_section w = snd x /\ fw_own w = fd_own d /\ fw_doc w = fd_doc d /\ fw_autodoc w = fd_autodoc d /\
  fw_forced w = false /\ (fw_needs_interface w = true <-> fd_own d <> None) /\
  exists r ps, stands_for make true (fd_retval d) r /\ Forall2 (stands_for make false) (fd_params d) ps /\ forall b, fw_body w b = fd_body d r ps b.
(** ... and the entry for a declared type. *)
Definition describes {V} (x : tdecl V * string * string) (t : titem) : Prop :=
  let d := fst (fst x) in
  ti_id t = td_id d /\ ti_kind t = td_kind d /\ ti_name t = td_name d /\ ti_full t = snd (fst x) /\ ti_section t = snd x /\
  ti_imported t = td_imported d /\ ti_claim t = td_claim d /\ ti_forward t = td_forward d /\ ti_body t = td_body d.

(** The error [e] comes out of generating the functions of one name: two of those that can be generated have different
    docstrings, or an error of one of them was not accepted by the error handler. *)
Definition function_fails (p : policy) (f : fset) (e : pyexc) : Prop :=
  (exists ks, kept (fs_id f) (fs_wrappers f) ks /\ doc_conflict ks /\ e = CodeGenerationError) \/
  (e <> SkipWrapper /\ exists e0, comes_out p f e0 /\ escapes p (fs_id f) e0 e).
(** The code of a type raises [e], or its converter function is defined already. *)
Definition type_fails (t : titem) (e : pyexc) : Prop :=
  In (ARaise e) (ti_forward t) \/ In (ARaise e) (ti_body t) \/ (e = KeyError /\ ti_claim t <> None).
Definition in_tree {A} (part : modul -> list A) (w : world) (x : A) : Prop :=
  exists i m, nth_error (w_mods w) i = Some m /\ In x (part m).

(** The file for code declared in section [s]. *)
Definition file_of (multi : bool) (s : string) : sink := if multi then SSection s else SMain.
(** Where each piece of the output belongs, and what it comes from.  The functions of one Python name go together, to the section
    of the first. *)
Definition placed {V} (tr : list (call V * res answer)) (multi : bool) (x : sink * piece) : Prop :=
  let k := fst x in
  match snd x with
  | PBlank => True
  | PCommonHeader => multi = true /\ (k = SMain \/ exists s, s <> "__main__" /\ k = SSection s)
  | PInclude s => k = SHeader /\ In s (asked tr)
  | PChunk c => exists i n d0 s0 ds, functions_named i n tr = (d0, s0) :: ds /\ k = file_of multi s0 /\
      match c with CFunction id _ _ => In id (map (fun y => fd_id (fst y)) ((d0, s0) :: ds)) | _ => True end
  | PDeclare _ | PTable _ _ | PInit _ _ => k = SMain
  | PForward t id => k = SHeader /\ exists i d full s, In (d, full, s) (types_in i tr) /\ td_id d = id /\ In (AText t) (td_forward d)
  | PText t id => exists i d full s, In (d, full, s) (types_in i tr) /\ td_id d = id /\ In (AText t) (td_body d) /\ k = file_of multi s
  | PProto _ => k = SHeader
  | PDefine n => exists i d full s, In (d, full, s) (types_in i tr) /\
      ((k = SHeader /\ exists b, In (AOnce n b) (td_forward d)) \/
       (k = file_of multi s /\ (td_claim d = Some n \/ exists b, In (AOnce n b) (td_body d))))
  end.

(** What goes into one file.  The section "__main__" is the main file. *)
Definition same_file (a b : sink) : bool :=
  match a, b with
  | SMain, SMain | SHeader, SHeader => true
  | SMain, SSection s | SSection s, SMain => String.eqb s "__main__"
  | SSection s, SSection t => String.eqb s t
  | _, _ => false
  end.
Definition contents (k : sink) (o : list (sink * piece)) : list piece := map snd (filter (fun x => same_file k (fst x)) o).
Definition is_common (x : piece) : bool := match x with PCommonHeader => true | _ => false end.
Definition is_include (x : piece) : bool := match x with PInclude _ => true | _ => false end.
(** The one-time definitions in the output. *)
Definition definitions (o : list (sink * piece)) : list string :=
  flat_map (fun x => match snd x with PDefine n => [n] | _ => [] end) o.
Definition tables (o : list (sink * piece)) : list (string * list row) :=
  flat_map (fun x => match snd x with PTable p rows => [(p, rows)] | _ => [] end) o.

(** Only containers have a converter function of their own; enums in particular have none. *)
Definition no_enum_claims {V} (tr : list (call V * res answer)) : Prop :=
  forall i d full s, In (d, full, s) (types_in i tr) -> td_kind d = KEnum -> td_claim d = None.

(** What may follow #include: it starts with a double quote or '<' and ends with a double quote or '>' (the same character
    may be both). *)
Definition double_quote : ascii := ascii_of_nat 34.
Definition include_form (s : string) : Prop :=
  exists a b t, (a = double_quote \/ a = "<"%char) /\ (b = double_quote \/ b = ">"%char) /\ (s = String a (t ++ String b "") \/ (s = String a "" /\ a = b)).
