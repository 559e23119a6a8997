(** C37: the method tables and initialisation functions of modules. *)
From Verif.Model Require Import Py PyState Errors Overloading Module.
From Verif.Spec Require Import OverloadSpec ModuleSpec PolicySpec SectionSpec TableSpec.
From Verif.Proofs Require TableProofs.
From Coq Require Import Permutation.
Open Scope string_scope.
Open Scope list_scope.

(** Generation writes one method table and one initialisation function for each module.  The table lists names declared in
    the module, each once, in the order in which they were first declared, and each row is right; the initialisation
    function registers exactly the submodules of the module. *)
Theorem C37_tables : forall V make p0 name ns (cs : list (call V)) w tr p multi g, run make p0 cs (new_root name ns) = (w, tr) -> generate p multi w = (g, Ok tt) ->
    exists order, Permutation order (seq 0 (length (w_mods w))) /\
    Forall2 (fun i x => exists m, nth_error (w_mods w) i = Some m /\ fst x = m_prefix m /\
      in_order (map row_name (snd x)) (first_occurrences (names_of i tr)) /\ forall r, In r (snd x) -> row_ok (g_out g) m r) order (tables (g_out g)) /\
    Forall2 (fun i x => exists m, nth_error (w_mods w) i = Some m /\ fst x = m_prefix m /\
      exists js, NoDup js /\ (forall j, In j js <-> child (w_mods w) i j) /\
        Forall2 (fun j y => exists s, nth_error (w_mods w) j = Some s /\ y = ("init" ++ m_prefix s, m_name s)%string) js (snd x)) order (initialisations (g_out g)).
Proof. exact (@TableProofs.script_tables). Qed.
Print Assumptions C37_tables.

(** A declared function is in the table unless the error handler agreed to leave out everything with its name. *)
Theorem C37_complete : forall V make p0 name ns (cs : list (call V)) w tr p multi g, run make p0 cs (new_root name ns) = (w, tr) -> generate p multi w = (g, Ok tt) -> honest_policy p ->
    forall i m n, nth_error (w_mods w) i = Some m -> In n (names_of i tr) ->
    (forall d s, In (d, s) (functions_named i n tr) -> forall r ps b, fd_body d r ps b <> Err SkipWrapper) ->
    (exists rows r, In (m_prefix m, rows) (tables (g_out g)) /\ In r rows /\ row_name r = n) \/
    (exists f, In f (m_functions m) /\ fs_name f = n /\ left_out p f).
Proof. exact (@TableProofs.script_complete). Qed.
Print Assumptions C37_complete.

(** A module is generated once: doing it again raises TypeError and writes no code. *)
Theorem C37_twice : forall p multi w g p' multi', generate p multi w = (g, Ok tt) ->
    generate p' multi' (g_world g) = (mk_gstate (g_world g) (if multi' then [(SMain, PCommonHeader)] else []) ["__main__"] [], Err TypeError).
Proof. exact (@TableProofs.generate_twice). Qed.
Print Assumptions C37_twice.

(** ** A concrete script *)
Definition mk : list string -> list (string * string) -> res unit := fun _ _ => Ok tt.
Definition f (id : nat) (name : string) (ok : bool) : fdecl unit :=
  mk_fdecl id (id + 100) name None [] None None "auto" (SString "int") [] (fun _ _ _ => if ok then Ok ["METH_VARARGS"; "METH_KEYWORDS"] else Err CodeGenerationError).
Definition script : list (call unit) :=
  [CNamespace 0 "sub"; CFunctionC 0 (f 1 "m_go" true); CFunctionC 1 (f 2 "bad" false); CFunctionC 1 (f 3 "h" true); CFunctionC 0 (f 4 "k" true); CFunctionC 0 (f 5 "go" true);
   CSubModule 0 "other" None].
Definition declared := fst (run mk None script (new_root "m" None)).
Definition trace := snd (run mk None script (new_root "m" None)).
Definition lenient : policy := Some (fun _ _ => Ok true).
Example C37_example : snd (generate lenient false declared) = Ok tt /\ honest_policy lenient /\ names_of 0 trace = ["go"; "k"; "go"] /\
  let o := g_out (fst (generate lenient false declared)) in
  map (fun x => (fst x, map (fun r => (row_name r, row_function r)) (snd x))) (tables o) =
    [("m_sub", [("h", "_wrap_m_sub_h")]); ("m_other", []); ("m", [("go", "_wrap_m_m_go"); ("k", "_wrap_m_k")])] /\
  initialisations o = [("m_sub", []); ("m_other", []); ("m", [("initm_sub", "sub"); ("initm_other", "other")])].
Proof. split; [vm_compute; reflexivity|]. split; [intros k e; discriminate|]. vm_compute. auto. Qed.

(** The C names of two different modules of one tree may be the same. *)
Theorem C37_prefix_refuted : exists (cs : list (call unit)) w tr g, run mk None cs (new_root "m" None) = (w, tr) /\ generate None false w = (g, Ok tt) /\
  ~ NoDup (map fst (initialisations (g_out g))).
Proof.
  exists [CSubModule 0 "a_b" None; CSubModule 0 "a" None; CSubModule 2 "b" None]. eexists _, _, _.
  split; [vm_compute; reflexivity|]. split; [vm_compute; reflexivity|]. intros N. vm_compute in N.
  inversion N as [|x l N1 _]. apply N1. cbn. auto.
Qed.
Print Assumptions C37_prefix_refuted.
