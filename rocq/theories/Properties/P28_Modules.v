(** C28: names registered in a tree of modules. *)
From Verif.Model Require Import Py PyState Errors Overloading Module.
From Verif.Spec Require Import OverloadSpec ModuleSpec.
From Verif.Proofs Require ModuleProofs ModuleNames ModulePaths.
Open Scope string_scope.
Open Scope list_scope.

(** module[key] after a script: the object of the last call that registered that key in that module. *)
Theorem C28_lookup : forall V make p name ns (cs : list (call V)) w tr a key v, run make p cs (new_root name ns) = (w, tr) ->
  (lookup a key w = Some v <->
   exists tr1 e tr2, tr = tr1 ++ e :: tr2 /\ registers (w_mods w) e a key v /\ forall e' v', In e' tr2 -> ~ registers (w_mods w) e' a key v').
Proof. exact (@ModuleNames.lookup_script). Qed.
Print Assumptions C28_lookup.

(** KeyError when no call has registered it. *)
Theorem C28_unknown : forall V make p name ns (cs : list (call V)) w tr a key, run make p cs (new_root name ns) = (w, tr) ->
  (lookup a key w = None <-> forall e v, In e tr -> ~ registers (w_mods w) e a key v).
Proof. exact (@ModuleNames.lookup_none). Qed.
Print Assumptions C28_unknown.

(** The full name of a type that belongs to the namespace of its module: the namespaces of the enclosing modules, its
    own, and the name of the type. *)
Theorem C28_full_name : forall V make p name ns (cs : list (call V)) w tr i t full l, run make p cs (new_root name ns) = (w, tr) ->
  In (CType i t, Ok (RObject full)) tr -> cpp_path (w_mods w) i l -> td_scope t = ScModule ->
  full = String.concat "::" (l ++ [td_name t]).
Proof. exact (@ModulePaths.full_name_script). Qed.
Print Assumptions C28_full_name.

(** The same namespace gives the same module, whatever happens in between. *)
Theorem C28_namespace_again : forall V make p name ns (cs : list (call V)) w t1 t2 t3 j n i r,
  run make p cs (new_root name ns) = (w, t1 ++ (CNamespace j n, Ok (RModule i)) :: t2 ++ (CNamespace j n, r) :: t3) ->
  r = Ok (RModule i).
Proof. exact (@ModulePaths.namespace_again). Qed.
Print Assumptions C28_namespace_again.

(** It is an existing submodule of that name or a new, empty one. *)
Theorem C28_namespace_new : forall V make p name ns (cs : list (call V)) w tr j n w' i, run make p cs (new_root name ns) = (w, tr) ->
  run_call make p (CNamespace j n) w = (w', Ok (RModule i)) ->
  (w' = w /\ exists m mi, nth_error (w_mods w) j = Some m /\ In i (m_submodules m) /\ nth_error (w_mods w) i = Some mi /\
     m_name mi = n /\ m_parent mi = Some j) \/
  (i = length (w_mods w) /\ (forall a k, lookup a k w' = lookup a k w) /\
   exists mi, nth_error (w_mods w') i = Some mi /\ m_name mi = n /\ m_parent mi = Some j /\ m_ns mi = Some n /\ m_functions mi = [] /\ m_types mi = []).
Proof. exact (@ModulePaths.namespace_new). Qed.
Print Assumptions C28_namespace_new.

(** ** A concrete script *)
Definition mk : list string -> list (string * string) -> res unit := fun _ _ => Ok tt.
Definition cls (id : nat) (name : string) : tdecl unit := mk_tdecl id KClass name ScModule false [] None [] [].
Definition script : list (call unit) :=
  [CNamespace 0 "subm"; CType 0 (cls 10 "Bar"); CType 1 (cls 11 "Zbr"); CNamespace 0 "subm"; CNamespace 1 "deep";
   CType 2 (cls 12 "Bar"); CTypedef 2 0 10 "Alias"; CType 1 (cls 13 "Zbr")].
Example C28_script : exists w, run mk None script (new_root "foo" (Some "::foo")) =
  (w, [(CNamespace 0 "subm", Ok (RModule 1)); (CType 0 (cls 10 "Bar"), Ok (RObject "foo::Bar"));
       (CType 1 (cls 11 "Zbr"), Ok (RObject "foo::subm::Zbr")); (CNamespace 0 "subm", Ok (RModule 1)); (CNamespace 1 "deep", Ok (RModule 2));
       (CType 2 (cls 12 "Bar"), Ok (RObject "foo::subm::deep::Bar")); (CTypedef 2 0 10 "Alias", Ok (RObject "foo::subm::deep::Alias"));
       (CType 1 (cls 13 "Zbr"), Ok (RObject "foo::subm::Zbr"))]) /\
  lookup 0 "Bar" w = Some 10 /\ lookup 2 "Bar" w = Some 12 /\ lookup 0 "foo::subm::Zbr" w = Some 13 /\ lookup 0 "Zbr" w = None /\
  lookup 2 "foo::subm::Zbr" w = None /\ lookup 0 "foo::subm::deep::Bar" w = Some 12 /\ cpp_path (w_mods w) 2 ["foo"; "subm"; "deep"].
Proof.
  eexists. split; [vm_compute; reflexivity|]. repeat (split; [vm_compute; reflexivity|]).
  cbn [w_mods].
  eapply (cp_sub _ 2 _ 1 ["foo"; "subm"] ["deep"]); [reflexivity|reflexivity| |].
  - eapply (cp_sub _ 1 _ 0 ["foo"] ["subm"]); [reflexivity|reflexivity| |].
    + eapply (cp_root _ 0 _ ["foo"]); [reflexivity|reflexivity|].
      apply (wr_leading ["foo"]); [discriminate|]. constructor; [split; [discriminate|reflexivity]|constructor].
    + apply (wr_plain ["subm"]); [discriminate|]. constructor; [split; [discriminate|reflexivity]|constructor].
  - apply (wr_plain ["deep"]); [discriminate|]. constructor; [split; [discriminate|reflexivity]|constructor].
Qed.

(** A typedef is not confined to its module: the short alias is known in the modules around it. *)
Theorem C28_typedef_refuted : exists (cs : list (call unit)) w tr i o k alias,
  run mk None cs (new_root "foo" None) = (w, tr) /\ In (CTypedef i o k alias) cs /\ i <> 0 /\
  (forall c, In c cs -> match c with CTypedef j _ _ _ => j = i | CType _ t => td_name t <> alias | _ => True end) /\
  lookup 0 alias w = Some k.
Proof.
  exists [CNamespace 0 "a"; CType 1 (cls 5 "Foo"); CTypedef 1 1 5 "Other"]. eexists _, _, 1, 1, 5, "Other".
  split; [reflexivity|]. split; [cbn; auto|]. split; [discriminate|]. split; [|reflexivity].
  intros c [<-|[<-|[<-|[]]]]; cbn; auto. discriminate.
Qed.
Print Assumptions C28_typedef_refuted.
