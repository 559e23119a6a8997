(** C38: the names of functions in Python and in C. *)
From Verif.Model Require Import Py PyState Mangle Errors Overloading Module.
From Verif.Spec Require Import OverloadSpec ModuleSpec SectionSpec NameSpec.
From Verif.Proofs Require NameProofs.
Open Scope string_scope.
Open Scope list_scope.

(** The Python name of a function: its custom name, else its C++ name transformed as its module says at that moment. *)
Theorem C38_python_name : forall V make p name ns (cs : list (call V)) w t1 i d n t2,
  run make p cs (new_root name ns) = (w, t1 ++ (CFunctionC i d, Ok (RObject n)) :: t2) ->
  exists t, naming name i t1 = Some t /\ in_python t d n.
Proof. exact (@NameProofs.python_names). Qed.
Print Assumptions C38_python_name.

(** Stripping a prefix. *)
Theorem C38_strip : forall p s t, strip_prefix p s = t <-> s = (p ++ t)%string \/ ((forall u, s <> (p ++ u)%string) /\ t = s).
Proof. intros p s t. rewrite NameProofs.strip_without. exact (NameProofs.without_spec p s t). Qed.
Print Assumptions C38_strip.

(** The C function of each wrapper is named after its module's path in the tree and its own name. *)
Theorem C38_c_name : forall V make p name ns (cs : list (call V)) w tr, run make p cs (new_root name ns) = (w, tr) ->
  (forall i m, nth_error (w_mods w) i = Some m -> c_prefix (w_mods w) i (m_prefix m)) /\
  forall i m f x, nth_error (w_mods w) i = Some m -> In f (m_functions m) -> In x (fs_wrappers f) ->
  exists d, In (CFunctionC i d, Ok (RObject (fs_name f))) tr /\ fw_id x = fd_id d /\ fw_base x = c_function (m_prefix m) d.
Proof. exact (@NameProofs.c_names). Qed.
Print Assumptions C38_c_name.

(** ** A concrete script *)
Definition mk : list string -> list (string * string) -> res unit := fun _ _ => Ok tt.
Definition f (id : nat) (name : string) (custom : option string) : fdecl unit :=
  mk_fdecl id (id + 100) name custom [] None None "" (SString "int") [] (fun _ _ _ => Ok ["METH_VARARGS"]).
Definition script : list (call unit) :=
  [CFunctionC 0 (f 1 "pkg.m_go" None); CNamespace 0 "sub"; CFunctionC 1 (f 2 "sub_go" None); CStrip 1 "x"; CFunctionC 1 (f 3 "xsub_go" None); CNamespace 0 "sub";
   CTransform 0 (fun s => s ++ "!")%string; CFunctionC 0 (f 4 "go" None); CFunctionC 0 (f 5 "go" (Some "went")); CFunctionC 1 (f 6 "sub_go" None)].
Example C38_example :
  map snd (snd (run mk None script (new_root "pkg.m" None))) =
    [Ok (RObject "go"); Ok (RModule 1); Ok (RObject "go"); Ok RNone; Ok (RObject "sub_go"); Ok (RModule 1); Ok RNone; Ok (RObject "go!"); Ok (RObject "went"); Ok (RObject "sub_go")] /\
  map (fun m => map (fun x => map fw_base (fs_wrappers x)) (m_functions m)) (w_mods (fst (run mk None script (new_root "pkg.m" None)))) =
    [[["_wrap_pkg_m_pkg.m_go"]; ["_wrap_pkg_m_go"]; ["_wrap_pkg_m_went"]]; [["_wrap_pkg_m_sub_sub_go"]; ["_wrap_pkg_m_sub_xsub_go"; "_wrap_pkg_m_sub_sub_go"]]].
Proof. vm_compute. auto. Qed.

(** A custom name does not always become the Python name. *)
Theorem C38_custom_refuted : exists (cs : list (call unit)) w tr d n c, run mk None cs (new_root "m" None) = (w, tr) /\
  In (CFunctionC 0 d, Ok (RObject n)) tr /\ fd_custom d = Some c /\ n <> c.
Proof.
  exists [CFunctionC 0 (f 1 "m_foo" (Some "m_foo"))]. eexists _, _, (f 1 "m_foo" (Some "m_foo")), "foo", "m_foo".
  split; [vm_compute; reflexivity|]. split; [now left|]. split; [reflexivity|discriminate].
Qed.
Print Assumptions C38_custom_refuted.
