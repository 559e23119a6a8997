(** Model of mangle_name and get_mangled_name (/repo/pybindgen/utils.py:139-158) and of the converter functions named
    after types (/repo/pybindgen/module.py:930-1003). *)
From Verif.Model Require Import Py.
Open Scope string_scope.
Open Scope list_scope.
Open Scope py_scope.

(** [s.replace(c, by)] for a one-character pattern. *)
Fixpoint replace_char (c : ascii) (by_ : string) (s : string) : string :=
  match s with
  | EmptyString => EmptyString
  | String d r => ((if Ascii.eqb d c then by_ else String d EmptyString) ++ replace_char c by_ r)%string
  end.

(** utils.py:139-145 *)
Definition mangle_name (name : string) : string :=
  let s := replace_char "," "_" (replace_char ">" "__gt__" (replace_char "<" "__lt__" name)) in
  let s := replace_char "*" "__star__" (replace_char "&" "__amp__" (replace_char " " "_" s)) in
  let s := replace_char ":" "_" s in
  replace_char ")" "_rp_" (replace_char "(" "_lp_" s).

(** utils.py:148-158 *)
Definition get_mangled_name (base_name : string) (template_args : list string) : string :=
  match template_args with
  | [] => mangle_name base_name
  | _ => (mangle_name base_name ++ "__lt__" ++ join "_" (map mangle_name template_args) ++ "__gt__")%string
  end.

(** module.py:930-966 and 968-1003, the part concerning names: a converter is generated for the first type with a
    given function name, through declare_one_time_definition (module.py:592-616; [conv_defined] are the definitions
    declared so far).  [prefix] is "_wrap_convert_py2c__" or "_wrap_convert_c2py__"; [conv_code] lists the functions
    generated with the type whose conversion they perform. *)
Record converters : Type := mk_converters { conv_defined : list string; conv_code : list (string * string) }.

Definition converter_name (prefix ctype : string) : string := (prefix ++ mangle_name ctype)%string.

Definition generate_converter (prefix : string) (c : converters) (ctype : string) : converters * string :=
  let n := converter_name prefix ctype in
  if existsb (String.eqb n) (conv_defined c) then (c, n)
  else (mk_converters (conv_defined c ++ [n]) (conv_code c ++ [(n, ctype)]), n).

Fixpoint generate_converters (prefix : string) (c : converters) (types : list string) : converters * list string :=
  match types with
  | [] => (c, [])
  | t :: r => let (c1, n) := generate_converter prefix c t in
              let (c2, ns) := generate_converters prefix c1 r in (c2, n :: ns)
  end.
