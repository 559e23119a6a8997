(** The enumerations of header files: /repo/pybindgen/castxmlparser.py:1090-1131 *)
From Verif.Model Require Import Py Annotations PygenArgs.
Open Scope string_scope.
Open Scope list_scope.

(** An enumeration: its name, the names of its values, whether it is a public member (of a class), its annotations, the part of the script
    that its declaration belongs to (None: no script is written). *)
Record enumeration := mk_enum { e_name : string; e_values : list string; e_public : bool; e_notes : notes; e_part : option nat }.
(** What is written, to which part; the calls of add_enum that are made. *)
Record output := mk_output { o_script : list (nat * text); o_memory : list (list value * keywords) }.

Definition note (l : notes) (n : string) : option (option string) := dict_get l n.
Definition optional (v : option string) : value := match v with Some s => VStr s | None => VNone end.
(** castxmlparser.py:1094-1107, 1115-1116: [outer] is the class that is scanned, or None for a namespace *)
Definition reserved (n : string) : bool := match n with String a (String b _) => Ascii.eqb a "_" && Ascii.eqb b "_" | _ => false end.
Definition skipped (outer : option string) (e : enumeration) : bool :=
  match outer with Some _ => negb (e_public e) || reserved (e_name e) | None => false end ||
  match note (e_notes e) "ignore" with Some _ => true | None => false end.
(** castxmlparser.py:1118-1128 *)
Definition values_text (l : list string) : text := ["["%char] ++ join comma (map repr_str l) ++ ["]"%char].
Definition add_enum_line (outer : option string) (e : enumeration) : text :=
  lit "module.add_enum(" ++
  join comma ([repr_str (e_name e); values_text (e_values e)] ++
              match outer with Some c => [lit "outer_class=" ++ root_module c] | None => [] end ++
              match note (e_notes e) "import_from_module" with Some m => [lit "import_from_module=" ++ repr (optional m)] | None => [] end) ++ lit ")".
Definition comment_lines (e : enumeration) : res (list text) :=
  match note (e_notes e) "pygen_comment" with
  | None => Ok []
  | Some (Some c) => Ok [lit "## " ++ lit c]
  | Some None => Err TypeError
  end.
(** castxmlparser.py:1130-1131 *)
Definition memory_call (outer : option string) (e : enumeration) : list value * keywords :=
  ([VStr (e_name e); VList (map VStr (e_values e))], [("outer_class", match outer with Some c => VClass c | None => VNone end)]).
Fixpoint scan_enums (outer : option string) (l : list enumeration) (o : output) : res output :=
  match l with
  | [] => Ok o
  | e :: r =>
      if skipped outer e then scan_enums outer r o
      else match e_part e with
        | None => scan_enums outer r (mk_output (o_script o) (o_memory o ++ [memory_call outer e]))
        | Some k =>
            match comment_lines e with
            | Ok c => scan_enums outer r (mk_output (o_script o ++ map (pair k) (c ++ [add_enum_line outer e])) (o_memory o ++ [memory_call outer e]))
            | Err x => Err x
            end
        end
  end.
