(** The method tables and initialisation functions of modules. *)
From Verif.Model Require Import Py PyState Errors Overloading Module.
From Verif.Spec Require Import OverloadSpec PolicySpec.
Open Scope string_scope.
Open Scope list_scope.

(** The piece of code defines a C function with this name. *)
Definition defines (n : string) (c : chunk) : Prop :=
  match c with CFunction _ m _ | CAggregator m _ _ => m = n | CBlank => False end.
(** The row for the wrappers of one name that can be generated: the C function of the first, its flags, sorted, and the
    docstring, the only one given or, for one wrapper on its own without any, the automatic one. *)
Definition row_for (ks : list fwrapper) (r : row) : Prop :=
  exists w l f, ks = w :: l /\ row_function r = fw_base w /\ row_flags r = sorted f /\
  ((alone ks /\ fw_body w (fw_forced w) = Ok f /\ row_doc r = Some match fw_doc w with Some d => d | None => fw_autodoc w end) \/
   (~ alone ks /\ fw_body w true = Ok f /\ common_doc ks (row_doc r))).
(** A correct row in the table of module [m]: the function is declared in the main file and defined. *)
Definition row_ok (o : list (sink * piece)) (m : modul) (r : row) : Prop :=
  exists f ks, In f (m_functions m) /\ fs_name f = row_name r /\ kept (fs_id f) (fs_wrappers f) ks /\ row_for ks r /\
    In (SMain, PDeclare (row_function r)) o /\ exists k c, In (k, PChunk c) o /\ defines (row_function r) c.
(** The initialisation functions in the output, with the submodules they register. *)
Definition initialisations (o : list (sink * piece)) : list (string * list (string * string)) :=
  flat_map (fun x => match snd x with PInit p l => [(p, l)] | _ => [] end) o.
(** Module [j] is a direct submodule of [i]. *)
Definition child (mods : list modul) (i j : nat) : Prop := exists m, nth_error mods j = Some m /\ m_parent m = Some i.
(** The error handler does not raise SkipWrapper itself. *)
Definition honest_policy (p : policy) : Prop := match p with Some h => honest h | None => True end.
(** The error handler agreed to leave out all wrappers of one name: none of them can be generated, or it accepted the error of the
    whole set. *)
Definition left_out (p : policy) (f : fset) : Prop :=
  exists h, p = Some h /\ (kept (fs_id f) (fs_wrappers f) [] \/ exists e, comes_out p f e /\ generation_error e = true /\ h (fs_id f) e = Ok true).
