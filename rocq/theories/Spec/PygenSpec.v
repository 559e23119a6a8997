(** What Python does with the script written while header files are scanned: the functions it defines, and what is declared when main calls
    register_types, register_methods and register_functions.  Only the types of the model are used. *)
From Verif.Model Require Import Py PygenScript.
Open Scope string_scope.
Open Scope list_scope.

(** ** The text of a script: functions at the left margin, each with an indented body that is not empty.  Reading gives the indented lines at
    the top, and the functions below them. *)
Definition function := (string * list line)%type.
Fixpoint read (text : list (nat * line)) : option (list line * list function) :=
  match text with
  | [] => Some ([], [])
  | (level, l) :: rest =>
      match read rest with
      | None => None
      | Some (body, below) =>
          match l, level with
          | LBlank, _ => Some (body, below)
          | LDef f, 0 => match body with [] => None | _ => Some ([], (f, body) :: below) end
          | LDef _, _ => None
          | _, 1 => Some (l :: body, below)
          | _, _ => None
          end
      end
  end.
(** A later definition of the same name replaces an earlier one. *)
Definition defines (text : list (nat * line)) (f : string) (body : list line) : Prop :=
  exists before after, read text = Some ([], before ++ (f, body) :: after) /\ ~ In f (map fst after).

(** ** Running: the script of a section is [text s].  A function runs for a module, maybe for a class, and may have a local nested_module;
    begin_section and end_section change the current section of the root module, which must be right for them. *)
Record frame := mk_frame { f_module : list string; f_nested : option (list string); f_class : option nat }.
Definition event := (option nat * entry)%type.
Section Run.
  Context (text : nat -> list (nat * line)).
  Inductive run (s : nat) : frame -> option nat -> list line -> list event -> option nat -> Prop :=
  | run_end fr o : run s fr o [] [] o
  | run_return fr o l : run s fr o (LReturn :: l) [] o
  | run_root fr o l e o' : run s fr o l e o' -> run s fr o (LRoot :: l) e o'
  | run_add_module m n o i l e o' :
      run s (mk_frame m n None) o l e o' -> run s (mk_frame m n None) o (LAdd i :: l) ((o, InModule m i) :: e) o'
  | run_add_class m n c o i l e o' :
      run s (mk_frame m n (Some c)) o l e o' -> run s (mk_frame m n (Some c)) o (LAdd i :: l) ((o, InClass c i) :: e) o'
  | run_nested_module m n c o x l e o' :
      run s (mk_frame m (Some (m ++ [x])) c) o l e o' -> run s (mk_frame m n c) o (LNestedModule x :: l) e o'
  | run_call_nested m n c o f body l e e' o' o'' :
      defines (text s) f body -> run s (mk_frame n None None) o body e o' -> run s (mk_frame m (Some n) c) o' l e' o'' ->
      run s (mk_frame m (Some n) c) o (LCallNested f :: l) (e ++ e') o''
  | run_call_sub m n c o f x body l e e' o' o'' :
      defines (text s) f body -> run s (mk_frame (m ++ [x]) None None) o body e o' -> run s (mk_frame m n c) o' l e' o'' ->
      run s (mk_frame m n c) o (LCallSub f x :: l) (e ++ e') o''
  | run_call_class m n c o f k body l e e' o' o'' :
      defines (text s) f body -> run s (mk_frame m None (Some k)) o body e o' -> run s (mk_frame m n c) o' l e' o'' ->
      run s (mk_frame m n c) o (LCallClass f k :: l) (e ++ e') o''
  | run_begin fr x l e o' : run s fr (Some x) l e o' -> run s fr None (LBegin x :: l) e o'
  | run_finish fr x l e o' : run s fr None l e o' -> run s fr (Some x) (LEnd x :: l) e o'
  | run_section m n c o x f body l e e' o' o'' :
      defines (text x) f body -> run x (mk_frame m None None) o body e o' -> run s (mk_frame m n c) o' l e' o'' ->
      run s (mk_frame m n c) o (LSection x f :: l) (e ++ e') o''.
  (** main, in the script of section 0, for the root module *)
  Definition executes (path : list string) (types methods functions : list event) : Prop :=
    exists b1 b2 b3,
      defines (text 0) "register_types" b1 /\ run 0 (mk_frame path None None) None b1 types None /\
      defines (text 0) "register_methods" b2 /\ run 0 (mk_frame path None None) None b2 methods None /\
      defines (text 0) "register_functions" b3 /\ run 0 (mk_frame path None None) None b3 functions None.
End Run.

(** ** What the program declares, in order: what is in a namespace before what is in the namespaces inside.  [keep] chooses sections. *)
Fixpoint types_in (keep : nat -> bool) (path : list string) (n : namespace) : list entry :=
  match n with mk_namespace _ types _ nested =>
    flat_map (fun i => if keep (snd i) then [InModule path (fst i)] else []) types ++
    flat_map (fun m => types_in keep (path ++ [ns_name m]) m) nested end.
Fixpoint functions_in (keep : nat -> bool) (path : list string) (n : namespace) : list entry :=
  match n with mk_namespace _ _ functions nested =>
    flat_map (fun i => if keep (snd i) then [InModule path (fst i)] else []) functions ++
    flat_map (fun m => functions_in keep (path ++ [ns_name m]) m) nested end.
Definition methods_in (keep : nat -> bool) (classes : list klass) : list entry :=
  flat_map (fun c => if keep (c_section c) then map (InClass (c_id c)) (c_members c) else []) classes.
Definition every (_ : nat) : bool := true.
(** One section, then: the sections that are not the main one, each within begin_section and end_section; and the main one. *)
Definition the_sections (sections : list nat) (l : (nat -> bool) -> list entry) : list event :=
  flat_map (fun s => if Nat.eqb s 0 then [] else map (pair (Some s)) (l (Nat.eqb s))) sections.
Definition the_main (l : (nat -> bool) -> list entry) : list event := map (pair None) (l (Nat.eqb 0)).

(** ** The names of the functions in the script of a section *)
Fixpoint paths_inside (path : list string) (n : namespace) : list (list string) :=
  match n with mk_namespace _ _ _ nested =>
    flat_map (fun m => (path ++ [ns_name m]) :: paths_inside (path ++ [ns_name m]) m) nested end.
Fixpoint underscores (path : list string) : string := match path with [] => "" | [x] => x | x :: r => (x ++ "_" ++ underscores r)%string end.
Definition function_names (s : nat) (p : program) : list string :=
  "register_types" :: map (fun q => ("register_types_" ++ underscores q)%string) (paths_inside (p_path p) (p_root p)) ++
  "register_methods" :: flat_map (fun c => if Nat.eqb s (c_section c) then [("register_" ++ c_mangled c ++ "_methods")%string] else []) (p_classes p) ++
  "register_functions" :: map (fun q => ("register_functions_" ++ underscores q)%string) (paths_inside (p_path p) (p_root p)).
(** The sections of a program are different, the main one is among them, and what the classifier answers is among them. *)
Fixpoint used (n : namespace) : list nat :=
  match n with mk_namespace _ types functions nested => map snd types ++ map snd functions ++ flat_map used nested end.
Definition classified (p : program) : Prop :=
  NoDup (p_sections p) /\ In 0 (p_sections p) /\ Forall (fun s => In s (p_sections p)) (used (p_root p) ++ map c_section (p_classes p)).
