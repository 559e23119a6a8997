(** The arguments of the calls in the script written while header files are scanned: /repo/pybindgen/castxmlparser.py 245-274, and the calls
    of add_function (2349-2350, 2408-2420), add_method (1985-2003) and add_constructor (1781-1790). *)
From Verif.Model Require Import Py.
Open Scope string_scope.
Open Scope list_scope.

(** Text is a list of characters. *)
Notation text := (list ascii).
Definition lit (s : string) : text := list_ascii_of_string s.
Definition newline : ascii := ascii_of_nat 10.

(** Python values: [VClass] a wrapped class or exception, by its full name; [VCall] an object that is shown as a call, like a memory policy
    (cppclass.py:192-238), by the name of its class and the arguments. *)
Inductive value : Type :=
| VNone | VBool (b : bool) | VInt (z : Z) | VStr (s : string) | VClass (full_name : string) | VList (l : list value)
| VCall (f : string) (args : list value) (kwargs : list (string * value)).
Definition keywords := list (string * value).

Fixpoint join (sep : text) (l : list text) : text := match l with [] => [] | [x] => x | x :: r => x ++ sep ++ join sep r end.
Definition comma : text := [","; " "]%char.

(** ** repr, of the Python that runs the scan (characters up to 255; objects/unicodeobject.c unicode_repr) *)
Definition quote : ascii := "'".
Definition double_quote : ascii := ascii_of_nat 34.
Definition backslash : ascii := "\".
Definition hex (n : nat) : ascii := match get n "0123456789abcdef" with Some c => c | None => "0"%char end.
Definition printable (c : ascii) : bool :=
  let n := nat_of_ascii c in (32 <=? n)%nat && (n <=? 126)%nat || (161 <=? n)%nat && negb (n =? 173)%nat.
Definition escape (q c : ascii) : text :=
  if Ascii.eqb c q || Ascii.eqb c backslash then [backslash; c]
  else if Ascii.eqb c (ascii_of_nat 9) then [backslash; "t"%char]
  else if Ascii.eqb c newline then [backslash; "n"%char]
  else if Ascii.eqb c (ascii_of_nat 13) then [backslash; "r"%char]
  else if printable c then [c]
  else [backslash; "x"%char; hex (nat_of_ascii c / 16); hex (nat_of_ascii c mod 16)].
Definition repr_str (s : string) : text :=
  let t := lit s in
  let q := if existsb (Ascii.eqb quote) t && negb (existsb (Ascii.eqb double_quote) t) then double_quote else quote in
  [q] ++ flat_map (escape q) t ++ [q].
Definition repr_int (z : Z) : text := (if Z.ltb z 0 then ["-"%char] else []) ++ lit (decimal (Z.abs_N z)).
(** cppclass.py:814-815 *)
Fixpoint repr (v : value) : text :=
  match v with
  | VNone => lit "None"
  | VBool b => lit (if b then "True" else "False")
  | VInt z => repr_int z
  | VStr s => repr_str s
  | VClass n => lit "<pybindgen.CppClass " ++ repr_str n ++ lit ">"
  | VList l => ["["%char] ++ join comma (map repr l) ++ ["]"%char]
  | VCall f args kwargs => lit f ++ ["("%char] ++ join comma (map repr args ++ map (fun kv => lit (fst kv) ++ ["="%char] ++ repr (snd kv)) kwargs) ++ [")"%char]
  end.

(** castxmlparser.py:245-257 (_pygen_kwargs).  (Simplification: an element of throw=[...] or parent=[...] that is not a class raises
    AttributeError; here it is shown with repr.) *)
Definition root_module (n : string) : text := lit "root_module[" ++ repr_str n ++ lit "]".
Definition in_root_module (v : value) : text := match v with VClass n => root_module n | v => repr v end.
Fixpoint insert (kv : string * value) (l : keywords) : keywords :=
  match l with [] => [kv] | x :: r => if String.leb (fst kv) (fst x) then kv :: x :: r else x :: insert kv r end.
Fixpoint sorted (l : keywords) : keywords := match l with [] => [] | x :: r => insert x (sorted r) end.
Definition pygen_kwarg (kv : string * value) : text :=
  let (key, val) := kv in
  lit key ++ ["="%char] ++
  match val with
  | VClass n => root_module n
  | VList l => if String.eqb key "throw" || String.eqb key "parent" then lit "[" ++ join comma (map in_root_module l) ++ lit "]" else repr val
  | _ => repr val
  end.
Definition pygen_kwargs (kwargs : keywords) : list text := map pygen_kwarg (sorted kwargs).
(** castxmlparser.py:259-260, 268-274 *)
Definition pygen_args_kwargs (args : list value) (kwargs : keywords) : text := join comma (map repr args ++ pygen_kwargs kwargs).
Definition pygen_retval (spec : list value * keywords) : text :=
  match spec with
  | ([a], []) => repr a
  | (args, kwargs) => lit "retval(" ++ pygen_args_kwargs args kwargs ++ lit ")"
  end.
Definition pygen_param (spec : list value * keywords) : text := lit "param(" ++ pygen_args_kwargs (fst spec) (snd spec) ++ lit ")".
(** castxmlparser.py:2349-2350, 2411-2418; 1987-2003; 1782-1790, 2073-2095: the first keyword starts a new line *)
Definition new_line (n : nat) (t : text) : text := [newline] ++ repeat " "%char n ++ t.
Definition pygen_params (specs : list (list value * keywords)) : text := lit "[" ++ join comma (map pygen_param specs) ++ lit "]".
Definition on_new_line (n : nat) (l : list text) : list text := match l with [] => [] | x :: r => new_line n x :: r end.
Definition add_function_line (name : string) (retval : list value * keywords) (params : list (list value * keywords)) (kwargs : keywords) : text :=
  lit "module.add_function(" ++
  join comma (repr_str name :: new_line 20 (pygen_retval retval) :: new_line 20 (pygen_params params) :: on_new_line 20 (pygen_kwargs kwargs)) ++ lit ")".
Definition add_method_line (name : string) (retval : list value * keywords) (params : list (list value * keywords)) (kwargs : keywords) : text :=
  lit "cls.add_method(" ++
  join comma (repr_str name :: new_line 15 (pygen_retval retval) :: new_line 15 (pygen_params params) :: on_new_line 15 (pygen_kwargs kwargs)) ++ lit ")".
Definition add_constructor_line (params : list (list value * keywords)) (kwargs : keywords) : text :=
  lit "cls.add_constructor(" ++ join comma (pygen_params params :: on_new_line 20 (pygen_kwargs kwargs)) ++ lit ")".
(** castxmlparser.py:1377-1381, 2146-2153 *)
Definition add_class_line (name : string) (kwargs : keywords) : text := lit "module.add_class(" ++ join comma (repr_str name :: pygen_kwargs kwargs) ++ lit ")".
Definition add_attribute_line (static : bool) (name : string) (spec : list value * keywords) (is_const : bool) : text :=
  lit (if static then "cls.add_static_attribute(" else "cls.add_instance_attribute(") ++
  repr_str name ++ comma ++ pygen_retval spec ++ comma ++ lit "is_const=" ++ repr (VBool is_const) ++ lit ")".
