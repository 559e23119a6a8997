(** Model of modules: /repo/pybindgen/module.py (declaration, name lookup, sections and generation). *)
From Verif.Model Require Import Py PyState Mangle Errors Overloading.
Open Scope string_scope.
Open Scope list_scope.
Open Scope st_scope.

(** s.split('::') *)
Fixpoint split_colons (s : string) : list string :=
  match s with
  | EmptyString => [EmptyString]
  | String c r =>
      match (if Ascii.eqb c ":" then match r with
                                    | String d r' => if Ascii.eqb d ":" then Some (split_colons r') else None
                                    | EmptyString => None
                                    end else None) with
      | Some l => EmptyString :: l
      | None => match split_colons r with
                | [] => [String c EmptyString]  (* unreachable *)
                | x :: xs => String c x :: xs
                end
      end
  end.

(** module.py:309-320 strip_prefix *)
Definition strip_prefix (p s : string) : string :=
  if String.prefix p s then String.substring (String.length p) (String.length s - String.length p) s else s.

(** Code a type wrapper writes when it is generated, reduced to what modules coordinate. *)
Inductive action : Type :=
| AText (t : nat)                             (* code of its own *)
| AOnce (name : string) (prototype : bool)    (* try: declare_one_time_definition(name) except KeyError: pass else: define it *)
| ARaise (e : pyexc).

Inductive kind : Type := KClass | KContainer | KException | KEnum.
Definition kind_eq_dec (a b : kind) : {a = b} + {a <> b}.
Proof. decide equality. Defined.

(** Where the full C++ name of a type comes from: cppclass.py:1164-1177, cppexception.py:73-85, enum.py:67-76,
    container.py:216-226.  Simplification: template parameters are part of the name. *)
Inductive scope : Type :=
| ScModule                   (* the namespace of the module *)
| ScForeign (ns : string)    (* foreign_cpp_namespace *)
| ScOuter (full : string)    (* outer_class.full_name *)
| ScDefinitive (full : string). (* containers named with '<' or '::' *)

Record titem : Type := mk_titem {
  ti_id : nat; ti_kind : kind; ti_name : string; ti_full : string; ti_section : string;
  ti_imported : bool;                          (* import_from_module *)
  ti_claim : option string;                    (* the converter function a container defines itself *)
  ti_forward : list action; ti_body : list action }.

Record fset : Type := mk_fset { fs_name : string; fs_id : nat; fs_wrappers : list fwrapper }.

(** A module: module.py:210-278.  The fields 'includes', 'one_time_definitions', 'header' and the current section are
    those of the root module (module.py:258-281) and are kept in [world]. *)
Record modul : Type := mk_modul {
  m_parent : option nat; m_name : string; m_ns : option string; m_prefix : string; m_ns_prefix : string;
  m_transform : string -> string;
  m_submodules : list nat; m_functions : list fset; m_types : list titem; (* classes, containers, exceptions, enums *)
  m_dict : dict nat }.

Record world : Type := mk_world {
  w_mods : list modul;                 (* the root module is number 0 *)
  w_section : string; w_includes : option (list string); w_once : list string;
  w_log : list (nat * pyexc) }.

Definition upd {A} (l : list A) (i : nat) (f : A -> A) : list A :=
  firstn i l ++ match skipn i l with [] => [] | x :: r => f x :: r end.
Definition set_mods (w : world) (l : list modul) : world := mk_world l (w_section w) (w_includes w) (w_once w) (w_log w).
Definition upd_mod (i : nat) (f : modul -> modul) (w : world) : world := set_mods w (upd (w_mods w) i f).
Definition note (k : nat) (e : pyexc) (w : world) : world :=
  mk_world (w_mods w) (w_section w) (w_includes w) (w_once w) (w_log w ++ [(k, e)]).

Definition get_mod (i : nat) : st world modul :=
  fun w => (w, match nth_error (w_mods w) i with Some m => Ok m | None => Err Unmodelled end).

Definition with_dict (d : dict nat) (m : modul) : modul :=
  mk_modul (m_parent m) (m_name m) (m_ns m) (m_prefix m) (m_ns_prefix m) (m_transform m) (m_submodules m) (m_functions m) (m_types m) d.
Definition with_functions (l : list fset) (m : modul) : modul :=
  mk_modul (m_parent m) (m_name m) (m_ns m) (m_prefix m) (m_ns_prefix m) (m_transform m) (m_submodules m) l (m_types m) (m_dict m).
Definition with_types (l : list titem) (m : modul) : modul :=
  mk_modul (m_parent m) (m_name m) (m_ns m) (m_prefix m) (m_ns_prefix m) (m_transform m) (m_submodules m) (m_functions m) l (m_dict m).
Definition with_submodules (l : list nat) (m : modul) : modul :=
  mk_modul (m_parent m) (m_name m) (m_ns m) (m_prefix m) (m_ns_prefix m) (m_transform m) l (m_functions m) (m_types m) (m_dict m).
Definition with_transform (t : string -> string) (m : modul) : modul :=
  mk_modul (m_parent m) (m_name m) (m_ns m) (m_prefix m) (m_ns_prefix m) t (m_submodules m) (m_functions m) (m_types m) (m_dict m).

(** The module and those that contain it, innermost first ('module = module.parent' until None).  A module is always
    created after its parent, so [S i] steps are enough for module [i]. *)
Fixpoint enclosing (fuel : nat) (mods : list modul) (i : nat) : list nat :=
  match fuel with
  | O => []
  | S f => i :: match nth_error mods i with
                | Some m => match m_parent m with Some j => enclosing f mods j | None => [] end
                | None => []
                end
  end.
Definition chain (mods : list modul) (i : nat) : list nat := enclosing (S i) mods i.

(** module.py:652-674 get_namespace_path: one module's part of it *)
Definition ns_part (ns : option string) : list string :=
  match ns with
  | None => []
  | Some n => if String.eqb n "" || String.eqb n "::" then [] else
                match split_colons n with
                | x :: r => if String.eqb x "" then r else x :: r
                | [] => []
                end
  end.
(** ... and the whole path of a new module with parents [js] (innermost first). *)
Fixpoint ns_path_up (mods : list modul) (js : list nat) (names : list string) : list string :=
  match js with
  | [] => names
  | j :: r => ns_path_up mods r (match nth_error mods j with Some m => ns_part (m_ns m) | None => [] end ++ names)
  end.
Definition namespace_path (mods : list modul) (i : nat) : list string :=
  match chain mods i with
  | [] => []
  | j :: r => ns_path_up mods r (match nth_error mods j with Some m => ns_part (m_ns m) | None => [] end)
  end.

(** str.replace('.', '_') *)
Definition undot (s : string) : string := replace_char "." "_" s.

(** module.py:210-278 ModuleBase.__init__.  cpp_namespace_prefix (module.py:246-249): "if path and path[0] == '::'"
    never applies, '::' having been removed by get_namespace_path. *)
Definition new_module (name : string) (parent : option nat) (ns : option string) (w : world) : modul :=
  let path := match parent with
              | None => ns_part ns
              | Some j => ns_path_up (w_mods w) (chain (w_mods w) j) (ns_part ns)
              end in
  let prefix := match parent with
                | None => undot name
                | Some j => (match nth_error (w_mods w) j with Some m => m_prefix m | None => "" end ++ "_" ++ name)%string
                end in
  mk_modul parent name ns prefix (join "::" path) (strip_prefix (name ++ "_")%string) [] [] [] [].

(** module.py:883-890 Module.__init__ *)
Definition new_root (name : string) (ns : option string) : world :=
  let w := mk_world [] "__main__" (Some []) [] [] in set_mods w [new_module name None ns w].

(** module.py:1011-1019 SubModule.__init__ *)
Definition new_submodule (parent : nat) (name : string) (ns : option string) : st world nat :=
  m <~ get_mod parent ;;
  fun w => let i := length (w_mods w) in
           (set_mods w (upd (w_mods w) parent (with_submodules (m_submodules m ++ [i])) ++ [new_module name (Some parent) ns w]), Ok i).

(** module.py:320-326 get_submodule *)
Fixpoint find_submodule (mods : list modul) (name : string) (l : list nat) : option nat :=
  match l with
  | [] => None
  | i :: r => match nth_error mods i with
              | Some m => if String.eqb (m_name m) name then Some i else find_submodule mods name r
              | None => find_submodule mods name r
              end
  end.
Definition get_submodule (i : nat) (name : string) : st world nat :=
  m <~ get_mod i ;;
  fun w => (w, match find_submodule (w_mods w) name (m_submodules m) with Some j => Ok j | None => Err ValueError end).

(** module.py:510-530 add_cpp_namespace *)
Definition add_cpp_namespace (i : nat) (name : string) : st world nat :=
  try_except (get_submodule i name) (fun e => if exc_eq_dec e ValueError then new_submodule i name (Some name) else raise e).

(** module.py:427-445 register_type *)
Definition set_in (k : string) (v : nat) (i : nat) (w : world) : world :=
  upd_mod i (fun m => with_dict (dict_set (m_dict m) k v) m) w.
Definition register_type (i : nat) (name full : option string) (v : nat) : st world unit :=
  fun w =>
    let w1 := match name with Some n => if String.eqb n "" then w else set_in n v i w | None => w end in
    let w2 := match full with
              | Some n => if String.eqb n "" then w1 else fold_left (fun w j => set_in n v j w) (chain (w_mods w) i) w1
              | None => w1
              end in
    (w2, Ok tt).

(** module[name]: dict lookup *)
Definition lookup (i : nat) (k : string) (w : world) : option nat :=
  match nth_error (w_mods w) i with Some m => dict_get (m_dict m) k | None => None end.

(** module.py:287-320 begin_section, end_section *)
Definition is_root (i : nat) (w : world) : bool :=
  match nth_error (w_mods w) i with Some m => match m_parent m with None => true | Some _ => false end | None => false end.
Definition set_section (s : string) (w : world) : world := mk_world (w_mods w) s (w_includes w) (w_once w) (w_log w).
Definition begin_section (i : nat) (s : string) : st world unit :=
  fun w => if negb (String.eqb (w_section w) "__main__") then (w, Err ValueError)
           else if String.eqb s "__main__" then (w, Err ValueError)
           else if is_root i w then (set_section s w, Ok tt) else (w, Err AssertionError).
Definition end_section (i : nat) (s : string) : st world unit :=
  fun w => if is_root i w then
             if String.eqb (w_section w) s then (set_section "__main__" w, Ok tt) else (w, Err ValueError)
           else (w, Err AssertionError).

(** module.py:355-368 add_include; the list is the root's ('self.includes = parent.includes') *)
Definition first_char (s : string) : option ascii := match s with String c _ => Some c | EmptyString => None end.
Fixpoint last_char (s : string) : option ascii :=
  match s with EmptyString => None | String c EmptyString => Some c | String _ r => last_char r end.
Definition is_char (c : ascii) (o : option ascii) : bool := match o with Some d => Ascii.eqb c d | None => false end.
Definition quote_char : ascii := ascii_of_nat 34.
Definition include_ok (s : string) : bool :=
  (is_char quote_char (first_char s) || is_char "<" (first_char s)) && (is_char quote_char (last_char s) || is_char ">" (last_char s)).
Definition add_include (s : string) : st world unit :=
  fun w => if include_ok s then
             match w_includes w with
             | None => (w, Err TypeError)
             | Some l => (if mem s l then w else mk_world (w_mods w) (w_section w) (Some (l ++ [s])) (w_once w) (w_log w), Ok tt)
             end
           else (w, Err AssertionError).

(** module.py:598-624 declare_one_time_definition *)
Definition add_once (s : string) (w : world) : world :=
  mk_world (w_mods w) (w_section w) (w_includes w) (w_once w ++ [s]) (w_log w).
Definition declare_one_time_definition (s : string) : st world unit :=
  fun w => if mem s (w_once w) then (w, Err KeyError) else (add_once s w, Ok tt).

Section Declare.
  Context {V : Type} (make : list string -> list (string * string) -> res V) (p : policy).

  (** The arguments of add_function / add_custom_function_wrapper.  The identities of the objects created (the wrapper
      and, if it is the first with its name, the overload set) are given; [fd_body] is the outcome of generate_body. *)
  Record fdecl : Type := mk_fdecl {
    fd_id : nat; fd_set : nat; fd_name : string; fd_custom : option string; fd_template : list string;
    fd_own : option string;  (* add_custom_function_wrapper: wrapper_name *)
    fd_doc : option string; fd_autodoc : string;
    fd_retval : spec V; fd_params : list (spec V);
    fd_body : V -> list V -> bool -> res (list string) }.

  Definition default_name (d : fdecl) : string := get_mangled_name (fd_name d) (fd_template d).
  Definition mangled_name (d : fdecl) : string := match fd_custom d with Some c => c | None => default_name d end.
  (** function.py:97-108: the property 'custom_name' *)
  Definition custom_name (d : fdecl) : option string :=
    if String.eqb (mangled_name d) (default_name d) then None else Some (mangled_name d).

  (** function.py:58-95: the wrapper, before it is added to a module *)
  Definition new_function (d : fdecl) : st world (V * list V) :=
    r <~ eval_retval note make p (fd_id d) (fd_retval d) ;;
    ps <~ eval_params note make p (fd_id d) (fd_params d) ;;
    ret (r, ps).

  (** module.py:370-384 _add_function_obj *)
  Fixpoint add_to (name : string) (d : fdecl) (f : fwrapper) (l : list fset) : list fset :=
    match l with
    | [] => [mk_fset name (fd_set d) [f]]
    | x :: r => if String.eqb (fs_name x) name then mk_fset (fs_name x) (fs_id x) (fs_wrappers x ++ [f]) :: r
                else x :: add_to name d f r
    end.
  Definition python_name (m : modul) (d : fdecl) : string :=
    match custom_name d with
    | Some c => c
    | None => get_mangled_name (m_transform m (fd_name d)) (fd_template d)
    end.
  Definition add_function_obj (i : nat) (d : fdecl) (v : V * list V) : st world unit :=
    m <~ get_mod i ;;
    fun w =>
      let f := mk_fwrapper (fd_id d) (w_section w) ("_wrap_" ++ m_prefix m ++ "_" ++ mangled_name d)%string false
                 (match fd_own d with Some _ => true | None => false end) (fd_own d) (fd_doc d) (fd_autodoc d)
                 (fd_body d (fst v) (snd v)) in
      (upd_mod i (with_functions (add_to (python_name m d) d f (m_functions m))) w, Ok tt).

  (** module.py:386-425 add_function, add_custom_function_wrapper: None when the wrapper is skipped; otherwise the
      name it is known under in Python.
      Simplification: the deprecated form taking a Function object is not modelled. *)
  Definition add_function (i : nat) (d : fdecl) : st world (option string) :=
    m <~ get_mod i ;;
    v <~ try_except (x <~ new_function d ;; ret (Some x)) (fun e => if exc_eq_dec e SkipWrapper then ret None else raise e) ;;
    match v with
    | None => ret None
    | Some x => add_function_obj i d x ;~ ret (Some (python_name m d))
    end.

  (** The arguments of add_class, add_container, add_exception and add_enum. *)
  Record tdecl : Type := mk_tdecl {
    td_id : nat; td_kind : kind; td_name : string; td_scope : scope; td_imported : bool;
    td_specs : list (spec V);   (* containers: the key and value types, evaluated by the constructor *)
    td_claim : option string; td_forward : list action; td_body : list action }.

  Definition full_name (prefix : string) (s : scope) (name : string) : string :=
    match s with
    | ScForeign ns => (ns ++ "::" ++ name)%string
    | ScOuter full => (full ++ "::" ++ name)%string
    | ScDefinitive full => full
    | ScModule => if String.eqb prefix "" then name else (prefix ++ "::" ++ name)%string
    end.

  (** container.py:144-150 *)
  Fixpoint eval_types (k : nat) (l : list (spec V)) : st world unit :=
    match l with
    | [] => ret tt
    | s :: r => eval_retval note make p k s ;~ eval_types k r
    end.

  (** module.py:447-508 and 532-596: _add_class_obj, _add_enum_obj, _add_container_obj, _add_exception_obj.
      Assigning the module computes full_name; classes and containers then register themselves under it
      (register_alias), which the final register_type repeats.  The answer is the full name, None when skipped. *)
  Definition add_type (i : nat) (t : tdecl) : st world (option string) :=
    m <~ get_mod i ;;
    ok <~ try_except (eval_types (td_id t) (td_specs t) ;~ ret true)
            (fun e => if exc_eq_dec e SkipWrapper then if kind_eq_dec (td_kind t) KContainer then ret false else raise e else raise e) ;;
    if ok : bool then
      let full := full_name (m_ns_prefix m) (td_scope t) (td_name t) in
      s <~ gets w_section ;;
      (fun w => (upd_mod i (with_types (m_types m ++
          [mk_titem (td_id t) (td_kind t) (td_name t) full s (td_imported t) (td_claim t) (td_forward t) (td_body t)])) w, Ok tt)) ;~
      register_type i (Some (td_name t)) (Some full) (td_id t) ;~
      ret (Some full)
    else ret None.

  (** module.py:862-880 add_typedef; [owner] is the module of the class, where register_alias (cppclass.py:1216-1221)
      registers the alias. *)
  Definition add_typedef (i owner cls : nat) (alias : string) : st world string :=
    _ <~ get_mod i ;; _ <~ get_mod owner ;;
    register_type i (Some alias) (Some alias) cls ;~
    register_type owner None (Some alias) cls ;~
    full <~ gets (fun w => join "::" (namespace_path (w_mods w) i ++ [alias])) ;;
    register_type owner None (Some full) cls ;~
    ret full.

  (** A declaration script: calls of the API on the modules of the tree, with their answers. *)
  Inductive call : Type :=
  | CSubModule (parent : nat) (name : string) (ns : option string)
  | CNamespace (i : nat) (name : string)
  | CFunctionC (i : nat) (d : fdecl)
  | CType (i : nat) (t : tdecl)
  | CTypedef (i owner cls : nat) (alias : string)
  | CInclude (i : nat) (s : string)
  | COnce (i : nat) (s : string)
  | CBegin (i : nat) (s : string)
  | CEnd (i : nat) (s : string)
  | CStrip (i : nat) (prefix : string)
  | CTransform (i : nat) (f : string -> string).

  Inductive answer : Type :=
  | RModule (i : nat)
  | RObject (name : string)   (* a function, by its name in Python, or a type, by its full_name *)
  | RNone.

  Definition run_call (c : call) : st world answer :=
    match c with
    | CSubModule j n ns => i <~ new_submodule j n ns ;; ret (RModule i)
    | CNamespace j n => i <~ add_cpp_namespace j n ;; ret (RModule i)
    | CFunctionC i d => o <~ add_function i d ;; ret (match o with Some n => RObject n | None => RNone end)
    | CType i t => o <~ add_type i t ;; ret (match o with Some f => RObject f | None => RNone end)
    | CTypedef i o k a => f <~ add_typedef i o k a ;; ret (RObject f)
    | CInclude i s => _ <~ get_mod i ;; add_include s ;~ ret RNone
    | COnce i s => _ <~ get_mod i ;; declare_one_time_definition s ;~ ret RNone
    | CBegin i s => _ <~ get_mod i ;; begin_section i s ;~ ret RNone
    | CEnd i s => _ <~ get_mod i ;; end_section i s ;~ ret RNone
    | CStrip i s => _ <~ get_mod i ;; modify (upd_mod i (with_transform (strip_prefix s))) ;~ ret RNone
    | CTransform i f => _ <~ get_mod i ;; modify (upd_mod i (with_transform f)) ;~ ret RNone
    end.

  (** A script goes on after a failed call (the caller may catch the exception). *)
  Fixpoint run (cs : list call) (w : world) : world * list (call * res answer) :=
    match cs with
    | [] => (w, [])
    | c :: r => let x := run_call c w in
                let y := run r (fst x) in
                (fst y, (c, snd x) :: snd y)
    end.
End Declare.
Arguments fdecl V : clear implicits.
Arguments tdecl V : clear implicits.
Arguments call V : clear implicits.

(** * Generation *)

(** The files of the output.  With one output file, [SMain] stands for its code part, which follows [SHeader]. *)
Inductive sink : Type := SMain | SHeader | SSection (name : string).

Inductive piece : Type :=
| PBlank
| PCommonHeader                      (* #include of the common header *)
| PInclude (s : string)
| PChunk (c : chunk)
| PDeclare (name : string)           (* the prototype of a function wrapper *)
| PTable (prefix : string) (rows : list row)
| PForward (t : nat) (id : nat)      (* forward declarations of type [id] *)
| PText (t : nat) (id : nat)         (* code of type [id] *)
| PProto (name : string)
| PDefine (name : string)            (* a one-time definition *)
| PInit (prefix : string) (submodules : list (string * string)). (* initialisation: for each submodule, its function and name *)

Record gstate : Type := mk_gstate {
  g_world : world;
  g_out : list (sink * piece);
  g_started : list string;           (* _already_initialized_sections *)
  g_header : list piece }.           (* root.header *)

Definition gnote (k : nat) (e : pyexc) (g : gstate) : gstate := mk_gstate (note k e (g_world g)) (g_out g) (g_started g) (g_header g).
Definition emit (k : sink) (x : piece) (g : gstate) : gstate := mk_gstate (g_world g) (g_out g ++ [(k, x)]) (g_started g) (g_header g).
Definition put (k : sink) (x : piece) : st gstate unit := modify (emit k x).

Section Generate.
  Context (p : policy) (multi : bool).

  (** module.py:139-151 and 171-172 get_code_sink_for_wrapper *)
  Definition sink_for (section : option string) : st gstate sink :=
    fun g =>
      if multi then
        match section with
        | None => (g, Ok SMain)
        | Some s =>
            if mem s (g_started g) then (g, Ok (SSection s))
            else (emit (SSection s) PCommonHeader (mk_gstate (g_world g) (g_out g) (s :: g_started g) (g_header g)), Ok (SSection s))
        end
      else (g, Ok SMain).

  (** overloading.py:327-336: the section of the first wrapper *)
  Definition set_section_of (f : fset) : option string :=
    match fs_wrappers f with w :: _ => Some (fw_section w) | [] => None end.

  Definition write_to (k : sink) (c : chunk) : gstate -> gstate := emit k (PChunk c).

  Definition handled {A} (w : nat) (m : st gstate A) : st gstate (option A) :=
    try_except (x <~ call_with_error_handling gnote p generation_errors w m ;; ret (Some x))
      (fun e => if exc_eq_dec e SkipWrapper then ret None else raise e).

  (** module.py:737-753: one function; None when it is skipped.  generate_declaration (overloading.py:303-311) generates
      once more, into a null sink. *)
  Definition gen_function (f : fset) : st gstate (option row) :=
    k <~ sink_for (set_section_of f) ;;
    put k PBlank ;~
    a <~ handled (fs_id f) (generate_overload gnote (write_to k) p (fs_wrappers f)) ;;
    match a with
    | None => ret None
    | Some (ws, _) =>
        b <~ handled (fs_id f)
          (x <~ generate_overload gnote (fun _ g => g) p ws ;; put SMain (PDeclare (snd x)) ;~ ret x) ;;
        match b with
        | None => ret None
        | Some (ws, actual) =>
            put k PBlank ;~
            r <~ get_row gnote p ws actual (fs_name f) ;;
            ret (Some r)
        end
    end.

  Fixpoint gen_functions (l : list fset) : st gstate (list row) :=
    match l with
    | [] => ret []
    | f :: r => a <~ gen_function f ;; rows <~ gen_functions r ;; ret (match a with Some x => x :: rows | None => rows end)
    end.

  Definition once (name : string) (prototype : bool) (k : sink) (g : gstate) : gstate :=
    mk_gstate (add_once name (g_world g)) (g_out g ++ [(k, PDefine name)]) (g_started g)
              (g_header g ++ if prototype then [PProto name] else []).
  Definition run_action (text : nat -> piece) (k : sink) (a : action) : st gstate unit :=
    match a with
    | AText t => put k (text t)
    | AOnce n proto => fun g => if mem n (w_once (g_world g)) then (g, Ok tt) else (once n proto k g, Ok tt)
    | ARaise e => raise e
    end.

  (** The kinds of type in the order of generation; imported classes first (module.py:629-640 and 769-803). *)
  Definition of_kind (q : kind) (t : titem) : bool := if kind_eq_dec (ti_kind t) q then true else false.
  Definition ordered (l : list titem) : list titem :=
    filter (fun t => of_kind KClass t && ti_imported t) l ++ filter (fun t => of_kind KClass t && negb (ti_imported t)) l ++
    filter (of_kind KContainer) l ++ filter (of_kind KException) l.

  (** container.py:318: a container claims the name of its converter; KeyError if it is taken. *)
  Definition forward_type (t : titem) : st gstate unit :=
    for_each (run_action (fun x => PForward x (ti_id t)) SHeader) (ti_forward t) ;~
    match ti_claim t with
    | None => ret tt
    | Some n => fun g => if mem n (w_once (g_world g)) then (g, Err KeyError)
                         else (emit SHeader (PProto n) (mk_gstate (add_once n (g_world g)) (g_out g) (g_started g) (g_header g)), Ok tt)
    end.
  (** module.py:769-803: sink.writeln(); generate; sink.writeln() *)
  Definition gen_type (t : titem) : st gstate unit :=
    k <~ sink_for (Some (ti_section t)) ;;
    put k PBlank ;~
    for_each (run_action (fun x => PText x (ti_id t)) k) (ti_body t) ;~
    match ti_claim t with None => ret tt | Some n => put k (PDefine n) end ;~
    put k PBlank.

  Definition get_gmod (i : nat) : st gstate modul :=
    fun g => (g, match nth_error (w_mods (g_world g)) i with Some m => Ok m | None => Err Unmodelled end).

  (** module.py:626-650 generate_forward_declarations.  The declarations go to a memory sink which is flushed after the
      include directives; [gen_root] does the reordering. *)
  Fixpoint forward_module (fuel : nat) (i : nat) : st gstate unit :=
    match fuel with
    | O => raise OutOfFuel
    | S f => m <~ get_gmod i ;;
             for_each forward_type (ordered (m_types m)) ;~
             for_each (forward_module f) (m_submodules m)
    end.

  Definition flush_header : st gstate unit :=
    fun g => (mk_gstate (g_world g) (g_out g ++ map (fun x => (SHeader, x)) (g_header g)) (g_started g) [], Ok tt).

  (** module.py:676-857 do_generate, without the include directives of the root.  Comments, the text of the module
      initialisation function other than the registration of submodules, and typedefs are not modelled. *)
  Fixpoint gen_module (fuel : nat) (i : nat) : st gstate unit :=
    match fuel with
    | O => raise OutOfFuel
    | S f =>
        m <~ get_gmod i ;;
        for_each (gen_module f) (m_submodules m) ;~
        rows <~ gen_functions (m_functions m) ;;
        put SMain (PTable (m_prefix m) rows) ;~
        for_each gen_type (ordered (m_types m)) ;~
        for_each gen_type (filter (of_kind KEnum) (m_types m)) ;~
        flush_header ;~
        subs <~ gets (fun g => flat_map (fun j => match nth_error (w_mods (g_world g)) j with Some x => [(("init" ++ m_prefix x)%string, m_name x)] | None => [] end) (m_submodules m)) ;;
        put SMain (PInit (m_prefix m) subs)
    end.

  Definition with_out (o : list (sink * piece)) (g : gstate) : gstate := mk_gstate (g_world g) o (g_started g) (g_header g).
  (** Code written to a memory sink. *)
  Definition captured (m : st gstate unit) : st gstate (list (sink * piece)) :=
    fun g => match m (with_out [] g) with
             | (g1, Ok _) => (with_out (g_out g) g1, Ok (g_out g1))
             | (g1, Err e) => (with_out (g_out g) g1, Err e)
             end.
  Definition drop_includes (g : gstate) : gstate :=
    let w := g_world g in
    mk_gstate (mk_world (w_mods w) (w_section w) None (w_once w) (w_log w)) (g_out g) (g_started g) (g_header g).

  (** module.py:676-699 the root's part of do_generate; 'self.includes = None' after the first generation, when the forward
      declarations are not generated again. *)
  Definition gen_root : st gstate unit :=
    w <~ gets g_world ;;
    match w_includes w with
    | None => raise TypeError
    | Some incs =>
        fwd <~ captured (forward_module (length (w_mods w)) 0) ;;
        for_each (fun s => put SHeader (PInclude s)) incs ;~
        modify drop_includes ;~
        modify (fun g => with_out (g_out g ++ fwd) g) ;~
        gen_module (length (w_mods w)) 0
    end.

  (** module.py:129-137, 163-170 and 892-914: the sink managers and Module.generate. *)
  Definition generate (w : world) : gstate * res unit :=
    gen_root (mk_gstate w (if multi then [(SMain, PCommonHeader)] else []) ["__main__"] []).
End Generate.
