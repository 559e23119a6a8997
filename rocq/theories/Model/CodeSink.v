(** Model of /repo/pybindgen/typehandlers/codesink.py. *)
From Verif.Model Require Import Py.
Open Scope string_scope.
Open Scope py_scope.

(** codesink.py:16-46 CodeSink.__init__: current level and stack of previous levels
    (top of the Python list = head here). *)
Record base : Type := { indent_level : Z; indent_stack : list Z }.

Definition base_init : base := {| indent_level := 0; indent_stack := [] |}.

(** codesink.py:48-55 CodeSink._format_code *)
Definition format_code (b : base) (code : string) : list string :=
  map (fun line => spaces (indent_level b) ++ line) (split_char nl_char code).

(** codesink.py:61-65 CodeSink.indent *)
Definition base_indent (b : base) (level : Z) : base :=
  {| indent_level := indent_level b + level;
     indent_stack := indent_level b :: indent_stack b |}.

(** codesink.py:67-79 CodeSink.unindent (list.pop on an empty list raises IndexError).
    The DEBUG branch (DEBUG = 0) is not modelled. *)
Definition base_unindent (b : base) : res base :=
  match indent_stack b with
  | [] => Err IndexError
  | l :: st => Ok {| indent_level := l; indent_stack := st |}
  end.

(** codesink.py:104-111 MemoryCodeSink.__init__ *)
Record memsink : Type := { mbase : base; mlines : list string }.
Definition mem_init : memsink := {| mbase := base_init; mlines := [] |}.

(** codesink.py:113-115 MemoryCodeSink.writeln *)
Definition mem_writeln (s : memsink) (line : string) : memsink :=
  {| mbase := mbase s; mlines := (mlines s ++ format_code (mbase s) line)%list |}.

Definition mem_indent (s : memsink) (level : Z) : memsink :=
  {| mbase := base_indent (mbase s) level; mlines := mlines s |}.

Definition mem_unindent (s : memsink) : res memsink :=
  b <- base_unindent (mbase s) ;; Ok {| mbase := b; mlines := mlines s |}.

(** codesink.py:82-97 FileCodeSink: the file is modelled by the text written to it. *)
Record filesink : Type := { fbase : base; ftext : string }.

(** codesink.py:94-97 FileCodeSink.writeln *)
Definition file_writeln (s : filesink) (line : string) : filesink :=
  {| fbase := fbase s;
     ftext := ftext s ++ join nl (format_code (fbase s) line) ++ nl |}.

(** Any receiving sink; codesink.py:137-154 NullCodeSink discards what it is given. *)
Inductive sink : Type :=
| Mem (s : memsink)
| File (s : filesink)
| Null (b : base).

Definition writeln (s : sink) (line : string) : sink :=
  match s with
  | Mem m => Mem (mem_writeln m line)
  | File f => File (file_writeln f line)
  | Null b => Null b
  end.

Definition indent (s : sink) (level : Z) : sink :=
  match s with
  | Mem m => Mem (mem_indent m level)
  | File f => File {| fbase := base_indent (fbase f) level; ftext := ftext f |}
  | Null b => Null (base_indent b level)
  end.

Definition unindent (s : sink) : res sink :=
  match s with
  | Mem m => m' <- mem_unindent m ;; Ok (Mem m')
  | File f => b <- base_unindent (fbase f) ;; Ok (File {| fbase := b; ftext := ftext f |})
  | Null b => b' <- base_unindent b ;; Ok (Null b')
  end.

(** codesink.py:117-124 MemoryCodeSink.flush_to: returns the emptied source and the target. *)
Definition mem_flush_to (src : memsink) (dst : sink) : memsink * sink :=
  ({| mbase := mbase src; mlines := [] |},
   fold_left (fun d line => writeln d (rstrip line)) (mlines src) dst).

(** codesink.py:147-150 NullCodeSink.flush_to raises TypeError; File sinks have no flush_to
    (AttributeError). *)
Definition flush_to (src dst : sink) : res (sink * sink) :=
  match src with
  | Mem m => let (m', d) := mem_flush_to m dst in Ok (Mem m', d)
  | File _ => Err AttributeError
  | Null _ => Err TypeError
  end.

(** codesink.py:126-132 MemoryCodeSink.flush *)
Definition mem_flush (src : memsink) : memsink * string :=
  ({| mbase := mbase src; mlines := [] |},
   join nl (flat_map (format_code (mbase src)) (mlines src)) ++ nl).

(** The API calls a client makes on a sink. *)
Inductive op : Type :=
| OWrite (text : string)
| OIndent (level : Z)
| OUnindent.

Definition step (s : sink) (o : op) : res sink :=
  match o with
  | OWrite t => Ok (writeln s t)
  | OIndent l => Ok (indent s l)
  | OUnindent => unindent s
  end.

Fixpoint run (s : sink) (ops : list op) : res sink :=
  match ops with
  | [] => Ok s
  | o :: r => s' <- step s o ;; run s' r
  end.
