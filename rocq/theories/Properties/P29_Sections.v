(** C29: code goes to the section of its declaration; includes and one-time definitions appear once. *)
From Verif.Model Require Import Py PyState Errors Overloading Module.
From Verif.Spec Require Import OverloadSpec ModuleSpec PolicySpec SectionSpec.
From Verif.Proofs Require ScriptProofs PlaceProofs HeaderProofs SectionTop.
Open Scope string_scope.
Open Scope list_scope.

(** Every piece of the output comes from a declaration of the script and is in the file of its section; functions with the same
    Python name go together to the section of the first of them. *)
Theorem C29_placement : forall V make p0 name ns (cs : list (call V)) w tr p multi g r,
  run make p0 cs (new_root name ns) = (w, tr) -> generate p multi w = (g, r) -> forall x, In x (g_out g) -> placed tr multi x.
Proof. exact (@PlaceProofs.script_placement). Qed.
Print Assumptions C29_placement.

(** All the code of a declared type is there. *)
Theorem C29_types : forall V make p0 name ns (cs : list (call V)) w tr p multi g,
  run make p0 cs (new_root name ns) = (w, tr) -> generate p multi w = (g, Ok tt) ->
  forall i d full s, In (d, full, s) (types_in i tr) ->
  (forall x, In (AText x) (td_body d) -> In (file_of multi s, PText x (td_id d)) (g_out g)) /\
  (td_kind d <> KEnum -> forall x, In (AText x) (td_forward d) -> In (SHeader, PForward x (td_id d)) (g_out g)).
Proof. exact (@SectionTop.script_types_complete). Qed.
Print Assumptions C29_types.

(** ... and, when no error handler drops functions, that of every declared function. *)
Theorem C29_functions : forall V make p0 name ns (cs : list (call V)) w tr multi g,
  run make p0 cs (new_root name ns) = (w, tr) -> generate None multi w = (g, Ok tt) ->
  forall i n d s, In (d, s) (functions_named i n tr) ->
  (forall d' s', In (d', s') (functions_named i n tr) -> forall r ps b, fd_body d' r ps b <> Err SkipWrapper) ->
  exists d0 s0 ds nm b, functions_named i n tr = (d0, s0) :: ds /\ In (file_of multi s0, PChunk (CFunction (fd_id d) nm b)) (g_out g).
Proof. exact (@SectionTop.script_functions_complete). Qed.
Print Assumptions C29_functions.

(** So a function is in its own section if the functions of its name were all declared in the same one. *)
Theorem C29_own_section : forall V make p0 name ns (cs : list (call V)) w tr multi g,
  run make p0 cs (new_root name ns) = (w, tr) -> generate None multi w = (g, Ok tt) ->
  forall i n d s, In (d, s) (functions_named i n tr) -> (forall d' s', In (d', s') (functions_named i n tr) -> s' = s) ->
  (forall d' s', In (d', s') (functions_named i n tr) -> forall r ps b, fd_body d' r ps b <> Err SkipWrapper) ->
  exists nm b, In (file_of multi s, PChunk (CFunction (fd_id d) nm b)) (g_out g).
Proof. exact (@SectionTop.script_own_section). Qed.
Print Assumptions C29_own_section.

(** The header file starts with the includes asked for, each once, in the order first asked; there are no others. *)
Theorem C29_includes : forall V make p0 name ns (cs : list (call V)) w tr p multi g,
  run make p0 cs (new_root name ns) = (w, tr) -> generate p multi w = (g, Ok tt) ->
  exists rest, contents SHeader (g_out g) = map PInclude (first_occurrences (asked tr)) ++ rest /\ (forall x, In x rest -> is_include x = false) /\
  forall k s, In (k, PInclude s) (g_out g) -> k = SHeader.
Proof. exact (@HeaderProofs.script_includes). Qed.
Print Assumptions C29_includes.

(** add_include accepts what starts with a double quote or '<' and ends with a double quote or '>', in every module. *)
Theorem C29_add_include : forall V make p0 name ns (cs : list (call V)) w tr i s, run make p0 cs (new_root name ns) = (w, tr) -> i < length (w_mods w) ->
  (include_form s -> snd (run_call make p0 (CInclude i s) w) = Ok RNone) /\ (~ include_form s -> snd (run_call make p0 (CInclude i s) w) = Err AssertionError).
Proof. exact (@SectionTop.script_add_include). Qed.
Print Assumptions C29_add_include.

(** With several files, each of the others starts with the include of the common header, once. *)
Theorem C29_common_header : forall V make p0 name ns (cs : list (call V)) w tr p g r,
  run make p0 cs (new_root name ns) = (w, tr) -> generate p true w = (g, r) ->
  forall k, k <> SHeader -> contents k (g_out g) = [] \/ exists rest, contents k (g_out g) = PCommonHeader :: rest /\ forall x, In x rest -> is_common x = false.
Proof. exact (@HeaderProofs.script_common). Qed.
Print Assumptions C29_common_header.

(** One-time definitions: none twice, and none that was claimed before. *)
Theorem C29_once : forall V make p0 name ns (cs : list (call V)) w tr p multi g r,
  run make p0 cs (new_root name ns) = (w, tr) -> no_enum_claims tr -> generate p multi w = (g, r) -> NoDup (definitions (g_out g) ++ claimed tr).
Proof. exact (@SectionTop.script_once). Qed.
Print Assumptions C29_once.

(** What a type asks for is defined, unless it was claimed before. *)
Theorem C29_once_complete : forall V make p0 name ns (cs : list (call V)) w tr p multi g,
  run make p0 cs (new_root name ns) = (w, tr) -> no_enum_claims tr -> generate p multi w = (g, Ok tt) ->
  forall i d full s n, In (d, full, s) (types_in i tr) ->
  (td_claim d = Some n \/ (exists b, In (AOnce n b) (td_body d)) \/ (td_kind d <> KEnum /\ exists b, In (AOnce n b) (td_forward d))) ->
  In n (definitions (g_out g)) \/ In n (claimed tr).
Proof. exact (@SectionTop.script_once_complete). Qed.
Print Assumptions C29_once_complete.

(** The current section, and what begin_section and end_section answer. *)
Theorem C29_section : forall V make p0 name ns (cs : list (call V)) w tr, run make p0 cs (new_root name ns) = (w, tr) -> w_section w = current tr.
Proof. exact (@SectionTop.script_section). Qed.
Print Assumptions C29_section.

(** Sections do not nest, only the root module may begin or end one, and only the current one can be ended. *)
Theorem C29_begin_end : forall V make p0 name ns (cs : list (call V)) w tr i s, run make p0 cs (new_root name ns) = (w, tr) -> i < length (w_mods w) ->
  (snd (run_call make p0 (CBegin i s) w) = Ok RNone <-> i = 0 /\ current tr = "__main__" /\ s <> "__main__") /\
  (snd (run_call make p0 (CEnd i s) w) = Ok RNone <-> i = 0 /\ current tr = s).
Proof. exact (@SectionTop.script_begin_end). Qed.
Print Assumptions C29_begin_end.

(** declare_one_time_definition succeeds the first time, in any module, and never again. *)
Theorem C29_declare_once : forall V make p0 name ns (cs : list (call V)) w tr i s, run make p0 cs (new_root name ns) = (w, tr) -> i < length (w_mods w) ->
  snd (run_call make p0 (COnce i s) w) = if mem s (claimed tr) then Err KeyError else Ok RNone.
Proof. exact (@SectionTop.script_declare_once). Qed.
Print Assumptions C29_declare_once.

(** ** A concrete script *)
Definition mk : list string -> list (string * string) -> res unit := fun _ _ => Ok tt.
Definition f (id : nat) (name : string) : fdecl unit :=
  mk_fdecl id (id + 100) name None [] None None "" (SString "int") [] (fun _ _ _ => Ok ["METH_VARARGS"; "METH_KEYWORDS"]).
Definition cls (id : nat) (name : string) : tdecl unit :=
  mk_tdecl id KClass name ScModule false [] None [AText 1] [AText 2; AOnce "helper" true; AText 3].
Definition vec (id : nat) (name conv : string) : tdecl unit := mk_tdecl id KContainer name (ScDefinitive name) false [] (Some conv) [] [AText 4].
Definition script : list (call unit) :=
  [CInclude 0 "<a.h>"; CNamespace 0 "sub"; CBegin 0 "s1"; CInclude 1 "<b.h>"; CFunctionC 0 (f 1 "f"); CType 1 (cls 2 "A"); CBegin 0 "s2"; CEnd 1 "s1"; CEnd 0 "s1";
   CInclude 0 "<a.h>"; CType 0 (cls 3 "B"); COnce 1 "mine"; COnce 0 "mine"; CFunctionC 0 (f 4 "f"); CBegin 0 "s2"; CType 0 (vec 5 "std::vector<A>" "conv"); CFunctionC 1 (f 6 "g"); CEnd 0 "s2"].
Definition trace := snd (run mk None script (new_root "m" None)).
Definition declared := fst (run mk None script (new_root "m" None)).
Example C29_example_hypothesis : forall w tr, run mk None script (new_root "m" None) = (w, tr) -> no_enum_claims tr.
Proof.
  intros w tr H i d full s I K. assert (E : tr = snd (run mk None script (new_root "m" None))) by now rewrite H. unfold types_in in I. rewrite E in I. clear H E.
  apply SectionTop.type_in_script in I. unfold script in I. cbn [In] in I.
  repeat (destruct I as [I|I]; [try discriminate I; injection I as _ <-; first [discriminate K|reflexivity]|]). destruct I.
Qed.
Example C29_example_include : include_form "<a.h>" /\ ~ include_form "a.h".
Proof.
  split; [exists "<"%char, ">"%char, "a.h"; auto|]. intros (a & b & t & [-> | ->] & _ & [E|(E & _)]); discriminate E.
Qed.
Example C29_example_script : asked trace = ["<a.h>"; "<b.h>"; "<a.h>"] /\ claimed trace = ["mine"] /\
  map snd (functions_named 0 "f" trace) = ["s1"; "__main__"] /\ map snd (functions_named 1 "g" trace) = ["s2"] /\
  map (fun x => (td_id (fst (fst x)), snd x)) (types_in 0 trace) = [(3, "__main__"); (5, "s2")] /\
  nth_error (map snd trace) 6 = Some (Err ValueError) /\ nth_error (map snd trace) 7 = Some (Err AssertionError) /\ nth_error (map snd trace) 12 = Some (Err KeyError).
Proof. vm_compute. auto 10. Qed.
Definition no_blank_piece (x : piece) : bool := match x with PBlank | PChunk CBlank | PDeclare _ | PTable _ _ | PInit _ _ => false | _ => true end.
Example C29_example_output : snd (generate None true declared) = Ok tt /\
  let o := g_out (fst (generate None true declared)) in
  filter no_blank_piece (contents SHeader o) = [PInclude "<a.h>"; PInclude "<b.h>"; PForward 1 3; PProto "conv"; PForward 1 2; PProto "helper"] /\
  filter no_blank_piece (contents SMain o) = [PCommonHeader; PText 2 3; PText 3 3] /\
  filter no_blank_piece (contents (SSection "s1") o) =
    [PCommonHeader; PText 2 2; PDefine "helper"; PText 3 2; PChunk (CFunction 1 "_wrap_m_f__0" true); PChunk (CFunction 4 "_wrap_m_f__1" true);
     PChunk (CAggregator "_wrap_m_f" ["_wrap_m_f__0"; "_wrap_m_f__1"] true)] /\
  filter no_blank_piece (contents (SSection "s2") o) = [PCommonHeader; PChunk (CFunction 6 "_wrap_m_sub_g" false); PText 4 5; PDefine "conv"].
Proof. vm_compute. repeat split; reflexivity. Qed.
(** Function 4 above was declared in the main section but is generated in "s1", as an overload of function 1. *)
Theorem C29_overloads_refuted : exists (cs : list (call unit)) w tr g i n d s, run mk None cs (new_root "m" None) = (w, tr) /\ generate None true w = (g, Ok tt) /\
  In (d, s) (functions_named i n tr) /\ forall k nm b, In (k, PChunk (CFunction (fd_id d) nm b)) (g_out g) -> same_file k (file_of true s) = false.
Proof.
  exists [CBegin 0 "s1"; CFunctionC 0 (f 1 "f"); CEnd 0 "s1"; CFunctionC 0 (f 4 "f")]. eexists _, _, _, 0, "f", (f 4 "f"), "__main__".
  split; [vm_compute; reflexivity|]. split; [vm_compute; reflexivity|]. split; [right; left; vm_compute; reflexivity|].
  intros k nm b I. cbn [g_out] in I. repeat (destruct I as [I|I]; [first [discriminate I | injection I as <- _ _; reflexivity | idtac]|]); try destruct I.
Qed.
Print Assumptions C29_overloads_refuted.
