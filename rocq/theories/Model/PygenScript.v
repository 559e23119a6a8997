(** The script written while header files are scanned, and what is declared in memory meanwhile: the parts of
    /repo/pybindgen/castxmlparser.py that write the functions of the script (669-690, 849-952, 1041-1069, 1540-1581, 2225-2262, 2426-2463) *)
From Verif.Model Require Import Py.
Open Scope string_scope.
Open Scope list_scope.

(** ** Code sinks *)
(** A line of the script.  (Simplifications: a declaration, whatever its arguments, is a number; import lines, comments, module_init,
    main and the lines of local customizations are left out; comments count as blank lines.) *)
Inductive line : Type :=
| LDef (f : string)                  (* def f(...): *)
| LRoot                              (* root_module = module.get_root(), or module = root_module *)
| LBlank
| LAdd (item : nat)                  (* module.add_...(...), or cls.add_...(...) *)
| LNestedModule (n : string)         (* nested_module = module.add_cpp_namespace(n) *)
| LCallNested (f : string)           (* f(nested_module) *)
| LCallSub (f n : string)            (* f(module.add_cpp_namespace(n), root_module) *)
| LCallClass (f : string) (c : nat)  (* f(root_module, root_module[c]) *)
| LBegin (s : nat)                   (* root_module.begin_section(s) *)
| LSection (s : nat) (f : string)    (* s.f(module) *)
| LEnd (s : nat)                     (* root_module.end_section(s) *)
| LReturn.
Record sink := mk_sink { k_level : nat; k_lines : list (nat * line) }.
Definition writeln (l : line) (k : sink) : sink := mk_sink (k_level k) (k_lines k ++ [(k_level k, l)]).
Definition indent (k : sink) : sink := mk_sink (S (k_level k)) (k_lines k).
Definition unindent (k : sink) : sink := mk_sink (pred (k_level k)) (k_lines k).

(** ** Programs *)
(** A namespace: its name; the types and the functions declared in it, each with the section it is classified to; the namespaces inside,
    in the order of their names.  A class: its number, mangled name, section and members.  Section 0 is __main__. *)
Inductive namespace : Type := mk_namespace (name : string) (types functions : list (nat * nat)) (nested : list namespace).
Definition ns_name (n : namespace) : string := match n with mk_namespace x _ _ _ => x end.
Record klass := mk_klass { c_id : nat; c_mangled : string; c_section : nat; c_members : list nat }.
Record program := mk_program { p_path : list string; p_root : namespace; p_classes : list klass; p_sections : list nat }.
(** What is declared: in a module, or in a class. *)
Inductive entry : Type := InModule (path : list string) (item : nat) | InClass (c item : nat).
(** The sinks of the sections, and what was declared in memory. *)
Record world := mk_world { w_sinks : nat -> sink; w_memory : list entry }.

(** _get_all_pygen_sinks (castxmlparser.py:849-855) and _get_pygen_sink_for_definition (857-882) *)
Definition all (sections : list nat) (f : sink -> sink) (w : world) : world :=
  mk_world (fun s => if existsb (Nat.eqb s) sections then f (w_sinks w s) else w_sinks w s) (w_memory w).
Definition only (s : nat) (f : sink -> sink) (w : world) : world := mk_world (fun x => if Nat.eqb x s then f (w_sinks w x) else w_sinks w x) (w_memory w).
Definition remember (e : entry) (w : world) : world := mk_world (w_sinks w) (w_memory w ++ [e]).

(** module.py:656-675: "_".join(get_namespace_path()) *)
Fixpoint join (sep : string) (l : list string) : string := match l with [] => "" | [x] => x | x :: r => x ++ sep ++ join sep r end.
Definition types_function (path : list string) : string := "register_types_" ++ join "_" path.
Definition functions_function (path : list string) : string := "register_functions_" ++ join "_" path.
Definition methods_function (mangled : string) : string := "register_" ++ mangled ++ "_methods".
(** castxmlparser.py:1049-1069, 911-925, 2232-2245 (to the main sink) *)
Definition section_calls (sections : list nat) (f : string) (w : world) : world :=
  fold_left (fun w s => if Nat.eqb s 0 then w else only 0 (fun k => writeln (LEnd s) (writeln (LSection s f) (writeln (LBegin s) k))) w) sections w.

(** ** Types: castxmlparser.py:884-888, 1041-1069, 1540-1581 *)
Section Scan.
  Context (sections : list nat).
  Fixpoint scan_types (name : string) (path : list string) (n : namespace) (w : world) : world :=
    match n with
    | mk_namespace _ types _ nested =>
        let w := all sections (fun k => writeln LBlank (writeln LRoot (indent (writeln (LDef name) k)))) w in
        let w := if String.eqb name "register_types" then section_calls sections "register_types" w else w in
        let w := fold_left (fun w i => remember (InModule path (fst i)) (only (snd i) (writeln (LAdd (fst i))) w)) types w in
        let w := fold_left (fun w m => all sections (fun k =>
          writeln LBlank (writeln (LCallNested (types_function (path ++ [ns_name m]))) (writeln (LNestedModule (ns_name m)) (writeln LBlank (writeln LBlank (writeln LBlank k)))))) w) nested w in
        let w := all sections (fun k => writeln LBlank (unindent k)) w in
        fold_left (fun w m => scan_types (types_function (path ++ [ns_name m])) (path ++ [ns_name m]) m w) nested w
    end.

(** ** Methods: castxmlparser.py:890-952 *)
  Definition scan_methods (classes : list klass) (w : world) : world :=
    let w := all sections (fun k => indent (writeln (LDef "register_methods") k)) w in
    let w := fold_left (fun w c => only (c_section c) (writeln (LCallClass (methods_function (c_mangled c)) (c_id c))) w) classes w in
    let w := if existsb (Nat.eqb 0) sections then section_calls sections "register_methods" w else w in
    let w := all sections (fun k => writeln LBlank (unindent (writeln LReturn k))) w in
    fold_left (fun w c =>
      let w := only (c_section c) (fun k => indent (writeln (LDef (methods_function (c_mangled c))) k)) w in
      let w := fold_left (fun w m => remember (InClass (c_id c) m) (only (c_section c) (writeln (LAdd m)) w)) (c_members c) w in
      only (c_section c) (fun k => writeln LBlank (unindent (writeln LReturn k))) w) classes w.

(** ** Functions: castxmlparser.py:2248-2463 (the nested part 2426-2463) and 2225-2246 *)
  Fixpoint scan_namespace_functions (path : list string) (n : namespace) (w : world) : world :=
    match n with
    | mk_namespace _ _ functions nested =>
        let w := fold_left (fun w i => remember (InModule path (fst i)) (only (snd i) (writeln (LAdd (fst i))) w)) functions w in
        let w := fold_left (fun w m => all sections (writeln (LCallSub (functions_function (path ++ [ns_name m])) (ns_name m))) w) nested w in
        let w := all sections (fun k => writeln LBlank (unindent (writeln LReturn k))) w in
        fold_left (fun w m =>
          let w := all sections (fun k => indent (writeln (LDef (functions_function (path ++ [ns_name m]))) k)) w in
          scan_namespace_functions (path ++ [ns_name m]) m w) nested w
    end.
  Definition scan_functions (path : list string) (n : namespace) (w : world) : world :=
    let w := all sections (fun k => writeln LRoot (indent (writeln (LDef "register_functions") k))) w in
    let w := section_calls sections "register_functions" w in
    scan_namespace_functions path n w.
End Scan.
(** castxmlparser.py:669-690 (parse): the three scans, one after the other. *)
Definition scan (p : program) : world :=
  let w := mk_world (fun _ => mk_sink 0 []) [] in
  let w := scan_types (p_sections p) "register_types" (p_path p) (p_root p) w in
  let w := scan_methods (p_sections p) (p_classes p) w in
  scan_functions (p_sections p) (p_path p) (p_root p) w.
