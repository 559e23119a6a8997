(** Model of the integer type handlers (/repo/pybindgen/typehandlers/inttype.py), of the C code they write and of what that
    code does with a Python integer.  Not modelled: the array code of UnsignedIntPtrParam (75-113) and the code of
    IntPtrParam for a default value of NULL or 0 (169-196). *)
From Verif.Model Require Import Py CodeBlock Params MiniC ForwardWrapper.
From Coq Require Import ZArith.
Open Scope string_scope.
Open Scope list_scope.
Local Open Scope Z_scope.

(** ** C integers *)
(** char, short, int and long long have 8, 16, 32 and 64 bits (inttype.py:6 asserts it for int). *)
Record platform : Type := mk_platform { long_bits : Z; size_bits : Z }.
Record cint : Type := mk_cint { is_signed : bool; bits : Z }.
(** Conversion of a value to an integer type: modulo 2^bits (what GCC and clang do for signed types too). *)
Definition wrap (t : cint) (z : Z) : Z :=
  let m := z mod 2 ^ bits t in if is_signed t && (2 ^ (bits t - 1) <=? m) then m - 2 ^ bits t else m.

Definition schar := mk_cint true 8.
Definition uchar := mk_cint false 8.
Definition sshort := mk_cint true 16.
Definition ushort := mk_cint false 16.
Definition sint := mk_cint true 32.
Definition uint := mk_cint false 32.
Definition slong (p : platform) := mk_cint true (long_bits p).
Definition ulong (p : platform) := mk_cint false (long_bits p).
Definition sllong := mk_cint true 64.
Definition ullong := mk_cint false 64.

(** The meaning of C type names. *)
Definition c_types (p : platform) : list (string * cint) :=
  [("int8_t", schar); ("signed char", schar); ("char signed", schar);
   ("uint8_t", uchar); ("unsigned char", uchar); ("char unsigned", uchar);
   ("int16_t", sshort); ("short", sshort); ("short int", sshort);
   ("uint16_t", ushort); ("unsigned short", ushort); ("unsigned short int", ushort); ("short unsigned", ushort); ("short unsigned int", ushort);
   ("int", sint); ("int32_t", sint);
   ("unsigned int", uint); ("uint32_t", uint); ("unsigned", uint);
   ("signed long", slong p); ("signed long int", slong p); ("long", slong p); ("long int", slong p); ("long signed", slong p); ("long signed int", slong p);
   ("unsigned long", ulong p); ("unsigned long int", ulong p); ("long unsigned", ulong p); ("long unsigned int", ulong p);
   ("long long", sllong); ("int64_t", sllong); ("long long int", sllong);
   ("unsigned long long", ullong); ("uint64_t", ullong); ("unsigned long long int", ullong); ("long long unsigned int", ullong);
   ("long long unsigned", ullong); ("unsigned PY_LONG_LONG", ullong);
   ("size_t", mk_cint false (size_bits p)); ("std::size_t", mk_cint false (size_bits p))].
Fixpoint find_type (n : string) (l : list (string * cint)) : option cint :=
  match l with
  | [] => None
  | (k, t) :: r => if String.eqb k n then Some t else find_type n r
  end.
Definition c_type (p : platform) (n : string) : option cint := find_type n (c_types p).

(** s[:-1] *)
Fixpoint but_last (s : string) : string :=
  match s with
  | EmptyString => EmptyString
  | String a EmptyString => EmptyString
  | String a r => String a (but_last r)
  end.
(** Trailing blanks do not matter in a type name. *)
Fixpoint strip_right (s : string) : string :=
  match s with
  | EmptyString => EmptyString
  | String a r => match strip_right r with
                  | EmptyString => if Ascii.eqb a " "%char then EmptyString else String a EmptyString
                  | r' => String a r'
                  end
  end.

(** C integer constants: decimal or hexadecimal, with an optional minus sign. *)
Definition digit (a : ascii) : option Z :=
  let n := Z.of_nat (nat_of_ascii a) in
  if (48 <=? n) && (n <=? 57) then Some (n - 48)
  else if (97 <=? n) && (n <=? 102) then Some (n - 87)
  else if (65 <=? n) && (n <=? 70) then Some (n - 55) else None.
Fixpoint number (base acc : Z) (s : string) : option Z :=
  match s with
  | EmptyString => Some acc
  | String a r => match digit a with Some d => if d <? base then number base (acc * base + d) r else None | None => None end
  end.
Definition natural (s : string) : option Z :=
  match s with
  | String z (String x r) => if Ascii.eqb z "0"%char && Ascii.eqb x "x"%char then number 16 0 r else number 10 0 s
  | _ => number 10 0 s
  end.
Definition constant (s : string) : option Z :=
  match s with
  | String m r => if Ascii.eqb m "-"%char then match natural r with Some z => Some (- z) | None => None end else natural s
  | EmptyString => None
  end.

(** ** Parsing and building Python values: CPython's Python/getargs.c (convertsimple) and Python/modsupport.c (do_mkvalue) *)
Inductive pyvalue : Type := PyInt (z : Z) | PyOther. (* an object that is not an integer *)
Inductive argerr : Type := OverflowE | TypeE | ValueE.

Definition fits (t : cint) (z : Z) : bool :=
  if is_signed t then (- 2 ^ (bits t - 1) <=? z) && (z <? 2 ^ (bits t - 1)) else (0 <=? z) && (z <? 2 ^ bits t).
Inductive parsed : Type := Stored (t : cint) (z : Z) | Failed (e : argerr) | BadUnit.
(** PyLong_AsLong, then a check of the range given. *)
Definition checked (p : platform) (lo hi : Z) (t : cint) (z : Z) : parsed :=
  if fits (slong p) z then if (z <? lo) || (hi <? z) then Failed OverflowE else Stored t z else Failed OverflowE.
(** PyLong_AsUnsignedLongMask, then a cast. *)
Definition masked (p : platform) (t : cint) (z : Z) : parsed := Stored t (wrap t (z mod 2 ^ long_bits p)).
Definition parse_unit (p : platform) (u : string) (v : pyvalue) : parsed :=
  match v with
  | PyOther => Failed TypeE
  | PyInt z =>
      if String.eqb u "b" then checked p 0 255 uchar z
      else if String.eqb u "B" then masked p uchar z
      else if String.eqb u "h" then checked p (-32768) 32767 sshort z
      else if String.eqb u "H" then masked p ushort z
      else if String.eqb u "i" then checked p (-2147483648) 2147483647 sint z
      else if String.eqb u "I" then masked p uint z
      else if String.eqb u "l" then if fits (slong p) z then Stored (slong p) z else Failed OverflowE
      else if String.eqb u "k" then Stored (ulong p) (z mod 2 ^ long_bits p)
      else if String.eqb u "L" then if fits sllong z then Stored sllong z else Failed OverflowE
      else if String.eqb u "K" then Stored ullong (z mod 2 ^ 64)
      else BadUnit
  end.

(** The type of the argument Py_BuildValue reads for a unit. *)
Definition built_type (p : platform) (u : string) : option cint :=
  if String.eqb u "b" || String.eqb u "B" || String.eqb u "h" || String.eqb u "i" then Some sint
  else if String.eqb u "H" || String.eqb u "I" then Some uint
  else if String.eqb u "l" then Some (slong p)
  else if String.eqb u "k" then Some (ulong p)
  else if String.eqb u "L" then Some sllong
  else if String.eqb u "K" then Some ullong
  else None.
(** Integers smaller than int are passed as int to a function with a variable number of arguments. *)
Definition promoted (t : cint) : cint := if bits t <? 32 then sint else t.

(** ** The code the handlers write *)
Inductive comparison : Type := Greater | Less.
Definition operator (c : comparison) : string := match c with Greater => " > " | Less => " < " end.
Inductive passing : Type := ByValue | ByReference | ByAddress.
(** An expression handed to Py_BuildValue. *)
Inductive bexpr : Type :=
| Var (v : string)                 (* v *)
| Deref (v : string)               (* *v *)
| Cast (c v : string)              (* (c) v *)
| FromUnsignedLong (v : string).   (* PyLong_FromUnsignedLong(v), with the unit N *)
Inductive istmt : Type :=
| IDeclare (ctype name : string) (init : option string)                   (* declarations.declare_variable *)
| IParse (unit name : string) (optional prepend : bool)                   (* parse_params.add_parameter(unit, ['&' + name]) *)
| IParseInto (unit expr : string)                                         (* parse_params.add_parameter(unit, [expr]) *)
| ICheck (w : which) (cs : list (string * comparison * string))           (* write_error_check('v > c || ...', ValueError) *)
| IStore (dst src : string)                                               (* after_call.write_code("dst = src;") *)
| ICall (how : passing) (name : string)                                   (* call_params.append *)
| IBuild (unit : string) (e : bexpr) (prepend : bool).                    (* build_params.add_parameter *)

(** The parameter handlers; the return value handlers. *)
Inductive param_handler : Type :=
| IntParam | UnsignedIntParam | UnsignedIntPtrParam | IntPtrParam | IntRefParam | UnsignedIntRefParam
| UInt16Param | UInt16RefParam | Int16Param | Int16RefParam | UInt8Param | UInt8RefParam | Int8Param | Int8RefParam
| UnsignedLongLongParam | UnsignedLongLongRefParam | UnsignedLongParam | UnsignedLongRefParam | LongParam | LongRefParam
| SizeTParam | LongLongParam | LongLongRefParam | Int8PtrParam | UInt8PtrParam | UnsignedInt16PtrParam.
Inductive return_handler : Type :=
| IntReturn | UnsignedIntReturn | UInt16Return | Int16Return | UInt8Return | Int8Return | UnsignedLongLongReturn
| UnsignedLongReturn | LongReturn | SizeTReturn | LongLongReturn.

(** The CTYPES of each class. *)
Definition param_ctypes (h : param_handler) : list string :=
  match h with
  | IntParam => ["int"; "int32_t"]                                                              (* 16 *)
  | UnsignedIntParam => ["unsigned int"; "uint32_t"]                                            (* 32 *)
  | UnsignedIntPtrParam => ["unsigned int*"; "uint32_t*"]                                       (* 48 *)
  | IntPtrParam => ["int*"]                                                                     (* 147 *)
  | IntRefParam => ["int&"]                                                                     (* 209 *)
  | UnsignedIntRefParam => ["unsigned int&"; "unsigned &"]                                      (* 230 *)
  | UInt16Param => ["uint16_t"; "unsigned short"; "unsigned short int"]                         (* 290 *)
  | UInt16RefParam => ["uint16_t&"; "unsigned short&"; "unsigned short int&"; "short unsigned&"; "short unsigned int&"] (* 307 *)
  | Int16Param => ["int16_t"; "short"; "short int"]                                             (* 329 *)
  | Int16RefParam => ["int16_t&"; "short&"; "short int&"]                                       (* 347 *)
  | UInt8Param => ["uint8_t"; "unsigned char"; "char unsigned"]                                 (* 368 *)
  | UInt8RefParam => ["uint8_t&"; "unsigned char&"; "char unsigned&"]                           (* 385 *)
  | Int8Param => ["int8_t"; "signed char"; "char signed"]                                       (* 425 *)
  | Int8RefParam => ["int8_t&"; "signed char &"; "char signed&"]                                (* 442 *)
  | UnsignedLongLongParam => ["unsigned long long"; "uint64_t"; "unsigned long long int"; "long long unsigned int"; "long long unsigned"] (* 483 *)
  | UnsignedLongLongRefParam => ["unsigned long long&"; "uint64_t&"; "long long unsigned int&"] (* 500 *)
  | UnsignedLongParam => ["unsigned long"; "unsigned long int"; "long unsigned"; "long unsigned int"] (* 523 *)
  | UnsignedLongRefParam => ["unsigned long&"; "long unsigned&"; "long unsigned int&"; "unsigned long int&"] (* 540 *)
  | LongParam => ["signed long"; "signed long int"; "long"; "long int"; "long signed"; "long signed int"] (* 562 *)
  | LongRefParam => ["signed long&"; "long signed&"; "long&"; "long int&"; "long signed int&"; "signed long int&"] (* 579 *)
  | SizeTParam => ["size_t"; "std::size_t"]                                                     (* 621 *)
  | LongLongParam => ["long long"; "int64_t"; "long long int"]                                  (* 641 *)
  | LongLongRefParam => ["long long&"; "int64_t&"; "long long int&"]                            (* 659 *)
  | Int8PtrParam => ["int8_t*"]                                                                 (* 683 *)
  | UInt8PtrParam => ["uint8_t*"]                                                               (* 712 *)
  | UnsignedInt16PtrParam => ["unsigned short int*"; "uint16_t*"]                               (* 742 *)
  end.
Definition return_ctypes (h : return_handler) : list string :=
  match h with
  | IntReturn => ["int"; "int32_t"]                                                             (* 117 *)
  | UnsignedIntReturn => ["unsigned int"; "uint32_t"]                                           (* 131 *)
  | UInt16Return => ["uint16_t"; "unsigned short"; "unsigned short int"; "short unsigned int"]  (* 251 *)
  | Int16Return => ["int16_t"; "short"; "short int"]                                            (* 270 *)
  | UInt8Return => ["uint8_t"; "unsigned char"; "char unsigned"]                                (* 406 *)
  | Int8Return => ["int8_t"; "signed char"]                                                     (* 461 *)
  | UnsignedLongLongReturn => ["unsigned long long"; "uint64_t"; "long long unsigned int"]      (* 508 *)
  | UnsignedLongReturn => ["unsigned long"; "long unsigned int"]                                (* 548 *)
  | LongReturn => ["signed long"; "long signed int"; "long"; "long int"]                        (* 587 *)
  | SizeTReturn => ["size_t"; "std::size_t"]                                                    (* 601 *)
  | LongLongReturn => ["long long"; "int64_t"; "long long int"]                                 (* 667 *)
  end.

(** How the C++ function takes the parameter. *)
Definition param_passing (h : param_handler) : passing :=
  match h with
  | UnsignedIntPtrParam | IntPtrParam | Int8PtrParam | UInt8PtrParam | UnsignedInt16PtrParam => ByAddress
  | IntRefParam | UnsignedIntRefParam | UInt16RefParam | Int16RefParam | UInt8RefParam | Int8RefParam
  | UnsignedLongLongRefParam | UnsignedLongRefParam | LongRefParam | LongLongRefParam => ByReference
  | _ => ByValue
  end.
(** The type of the C++ value: the ctype without the reference or the pointer. *)
Definition value_type (h : param_handler) (ctype : string) : string :=
  match param_passing h with ByValue => ctype | _ => strip_right (but_last ctype) end.

(** The directions each handler accepts (DIRECTIONS). *)
Definition bidirectional (h : param_handler) : bool :=
  match h with
  | UnsignedIntPtrParam | IntPtrParam | IntRefParam | UnsignedIntRefParam | UInt16RefParam | Int16RefParam | UInt8RefParam
  | Int8RefParam | Int8PtrParam | UInt8PtrParam | UnsignedInt16PtrParam => true
  | _ => false
  end.

Definition nonempty_default (d : option string) : bool := match d with Some s => negb (String.eqb s "") | None => false end.

(** inttype.py: convert_python_to_c of each parameter class, called for a forward wrapper; [name] is the name
    declare_variable returned; [inp] and [out] tell whether the direction includes DIRECTION_IN and DIRECTION_OUT. *)
Definition in_out (inp out : bool) (unit name : string) : list istmt :=
  (if inp then [IParse unit name false false] else []) ++ (if out then [IBuild unit (Var name) false] else []).
Definition param_to_c (h : param_handler) (ctype name : string) (default : option string) (inp out : bool) : list istmt :=
  let opt := nonempty_default default in
  match h with
  | IntParam => [IDeclare ctype name default; IParse "i" name opt false; ICall ByValue name]                          (* 22-26 *)
  | UnsignedIntParam => [IDeclare "unsigned int" name default; IParse "I" name opt false; ICall ByValue name]         (* 38-42 *)
  | UnsignedIntPtrParam => [IDeclare (value_type h ctype) name None; ICall ByAddress name] ++ in_out inp out "I" name (* 64-113 *)
  | IntPtrParam => [IDeclare (value_type h ctype) name None; ICall ByAddress name] ++ in_out inp out "i" name         (* 165-201 *)
  | IntRefParam => [IDeclare (value_type h ctype) name None; ICall ByReference name] ++ in_out inp out "i" name       (* 217-224 *)
  | UnsignedIntRefParam => [IDeclare (value_type h ctype) name None; ICall ByReference name] ++ in_out inp out "I" name (* 238-245 *)
  | UInt16Param => [IDeclare "int" name default; IParse "i" name opt false; ICheck Before [(name, Greater, "0xffff")]; ICall ByValue name] (* 296-302 *)
  | UInt16RefParam => [IDeclare (value_type h ctype) name None; ICall ByReference name] ++ in_out inp out "H" name    (* 316-322 *)
  | Int16Param => [IDeclare "int" name default; IParse "i" name opt false; ICheck Before [(name, Greater, "0x7fff")]; ICall ByValue name] (* 335-341 *)
  | Int16RefParam => [IDeclare (value_type h ctype) name None; ICall ByReference name] ++ in_out inp out "h" name     (* 356-362 *)
  | UInt8Param => [IDeclare "int" name default; IParse "i" name opt false; ICheck Before [(name, Greater, "0xff")]; ICall ByValue name] (* 374-380 *)
  | UInt8RefParam => [IDeclare (value_type h ctype) name None; ICall ByReference name] ++ in_out inp out "B" name     (* 394-400 *)
  | Int8Param => [IDeclare "int" name default; IParse "i" name opt false; ICheck Before [(name, Greater, "0x7f")]; ICall ByValue name] (* 431-437 *)
  | Int8RefParam => [IDeclare (value_type h ctype) name None; ICall ByReference name] ++ in_out inp out "b" name      (* 451-457 *)
  | UnsignedLongLongParam | UnsignedLongLongRefParam =>
      [IDeclare (value_type h ctype) name default; IParse "K" name opt false; ICall (param_passing h) name]           (* 492-496 *)
  | UnsignedLongParam | UnsignedLongRefParam =>
      [IDeclare (value_type h ctype) name default; IParse "k" name opt false; ICall (param_passing h) name]           (* 532-536 *)
  | LongParam | LongRefParam =>
      [IDeclare (value_type h ctype) name default; IParse "l" name opt false; ICall (param_passing h) name]           (* 571-575 *)
  | SizeTParam => [IDeclare "unsigned PY_LONG_LONG" name default; IParse "K" name opt false; ICall ByValue name]      (* 630-634 *)
  | LongLongParam | LongLongRefParam =>
      [IDeclare (value_type h ctype) name default; IParse "L" name opt false; ICall (param_passing h) name]           (* 650-654 *)
  | Int8PtrParam => [IDeclare "int8_t" name None; ICall ByAddress name] ++ in_out inp out "b" name                    (* 700-706 *)
  | UInt8PtrParam => [IDeclare "uint8_t" name None; ICall ByAddress name] ++ in_out inp out "B" name                  (* 729-735 *)
  | UnsignedInt16PtrParam => [IDeclare (value_type h ctype) name default; ICall ByAddress name] ++ in_out inp out "H" name (* 757-763 *)
  end.

(** convert_c_to_python of each parameter class, called for a reverse wrapper; [value] is self.value. *)
Definition param_to_python (h : param_handler) (value : string) (inp out : bool) : list istmt :=
  let both unit := (if inp then [IBuild unit (match param_passing h with ByAddress => Deref value | _ => Var value end) false] else []) ++
                   (if out then [IParseInto unit value] else []) in
  match h with
  | IntParam => [IBuild "i" (Var value) false]                                  (* 18-20 *)
  | UnsignedIntParam => [IBuild "N" (FromUnsignedLong value) false]             (* 34-36 *)
  | UnsignedIntPtrParam => both "I"                                             (* 57-62 *)
  | IntPtrParam => both "i"                                                     (* 159-163 *)
  | IntRefParam => both "i"                                                     (* 211-215 *)
  | UnsignedIntRefParam => both "I"                                             (* 232-236 *)
  | UInt16Param | Int16Param | UInt8Param | Int8Param => [IBuild "i" (Cast "int" value) false] (* 292-294, 331-333, 370-372, 427-429 *)
  | UInt16RefParam => both "H"                                                  (* 309-314 *)
  | Int16RefParam => both "h"                                                   (* 349-354 *)
  | UInt8RefParam => both "B"                                                   (* 387-392 *)
  | Int8RefParam => both "b"                                                    (* 444-449 *)
  | UnsignedLongLongParam | UnsignedLongLongRefParam => [IBuild "K" (Var value) false]         (* 488-490 *)
  | UnsignedLongParam | UnsignedLongRefParam => [IBuild "k" (Var value) false]  (* 528-530 *)
  | LongParam | LongRefParam => [IBuild "l" (Var value) false]                  (* 567-569 *)
  | SizeTParam => [IBuild "K" (Cast "unsigned PY_LONG_LONG" value) false]       (* 626-628 *)
  | LongLongParam | LongLongRefParam => [IBuild "L" (Var value) false]          (* 646-648 *)
  | Int8PtrParam => both "b"                                                    (* 694-698 *)
  | UInt8PtrParam => both "B"                                                   (* 723-727 *)
  | UnsignedInt16PtrParam => both "H"                                           (* 750-755 *)
  end.

(** convert_python_to_c of each return value class, called for a reverse wrapper; [value] is self.value (the variable
    declared with the return type), [tmp] the name declare_variable returned for the temporary. *)
Definition return_to_c (h : return_handler) (value tmp : string) : list istmt :=
  let via cs := [IDeclare "int" tmp None; IParse "i" tmp false true; ICheck After cs; IStore value tmp] in
  match h with
  | IntReturn => [IParse "i" value false true]                                              (* 122-123 *)
  | UnsignedIntReturn => [IParse "I" value false true]                                      (* 136-137 *)
  | UInt16Return => via [(tmp, Greater, "0xffff")]                                          (* 256-262 *)
  | Int16Return => via [(tmp, Greater, "32767"); (tmp, Less, "-32768")]                     (* 275-281 *)
  | UInt8Return => via [(tmp, Greater, "0xff")]                                             (* 411-417 *)
  | Int8Return => via [(tmp, Greater, "128"); (tmp, Less, "-127")]                          (* 466-472 *)
  | UnsignedLongLongReturn => [IParse "K" value false true]                                 (* 513-514 *)
  | UnsignedLongReturn => [IParse "k" value false true]                                     (* 553-554 *)
  | LongReturn => [IParse "l" value false true]                                             (* 592-593 *)
  | SizeTReturn => [IDeclare "unsigned PY_LONG_LONG" tmp None; IParse "K" tmp false true; IStore value tmp] (* 606-612 *)
  | LongLongReturn => [IParse "L" value false true]                                         (* 672-673 *)
  end.
(** convert_c_to_python of each return value class, called for a forward wrapper. *)
Definition return_to_python (h : return_handler) (value : string) : list istmt :=
  match h with
  | IntReturn => [IBuild "i" (Var value) true]                                              (* 125-126 *)
  | UnsignedIntReturn => [IBuild "N" (FromUnsignedLong value) true]                         (* 139-140 *)
  | UInt16Return | Int16Return | Int8Return => [IBuild "i" (Var value) true]                (* 264-265, 283-284, 474-475 *)
  | UInt8Return => [IBuild "i" (Cast "int" value) true]                                     (* 419-420 *)
  | UnsignedLongLongReturn => [IBuild "K" (Var value) true]                                 (* 516-517 *)
  | UnsignedLongReturn => [IBuild "k" (Var value) true]                                     (* 556-557 *)
  | LongReturn => [IBuild "l" (Var value) true]                                             (* 595-596 *)
  | SizeTReturn => [IBuild "K" (Cast "unsigned PY_LONG_LONG" value) true]                   (* 614-615 *)
  | LongLongReturn => [IBuild "L" (Var value) true]                                         (* 675-676 *)
  end.

(** The same calls as seen by the wrapper (Model/ForwardWrapper.v). *)
Definition check_text (cs : list (string * comparison * string)) : string :=
  join " || " (map (fun c => (fst (fst c) ++ operator (snd (fst c)) ++ snd c)%string) cs).
Definition bexpr_text (e : bexpr) : string :=
  match e with
  | Var v => v
  | Deref v => String.append "*" v
  | Cast c v => ("(" ++ c ++ ") " ++ v)%string
  | FromUnsignedLong v => ("PyLong_FromUnsignedLong(" ++ v ++ ")")%string
  end.
Definition quiet_frag (t : string) : frag := {| f_text := t; f_acts := [ALocal t]; f_pass := [] |}.
Definition passing_text (how : passing) (n : string) : string := match how with ByAddress => String.append "&" n | _ => n end.
Definition render (keyword : option string) (s : istmt) : hact :=
  match s with
  | IDeclare t n i => XDeclare t n i None
  | IParse u n opt pre => XParse {| p_template := u; p_values := [String.append "&" n]; p_name := keyword; p_optional := opt |} pre
  | IParseInto u e => XParse {| p_template := u; p_values := [e]; p_name := keyword; p_optional := false |} false
  | ICheck w cs => XCheck w (quiet_frag (check_text cs))
                     (Some (py_frag ("PyErr_SetString(PyExc_ValueError, " ++ dquote ++ "Out of range" ++ dquote ++ ");")%string))
  | IStore d s => XCode After (quiet_frag (d ++ " = " ++ s ++ ";")%string)
  | ICall how n => XCallParam (passing_text how n)
  | IBuild u e pre => XBuild {| b_template := u; b_values := [bexpr_text e]; b_cleanup := None |} pre
  end.
Definition int_handler (keyword : option string) (l : list istmt) : handler := {| h_acts := map (render keyword) l; h_raise := None |}.

(** ** What the code does *)
(** Variables: name, type, value (None: not initialised). *)
Definition env : Type := list (string * (cint * option Z)).
Fixpoint get (e : env) (n : string) : option (cint * option Z) :=
  match e with
  | [] => None
  | (k, v) :: r => if String.eqb k n then Some v else get r n
  end.
Fixpoint put (e : env) (n : string) (z : Z) : env :=
  match e with
  | [] => []
  | (k, (t, v)) :: r => if String.eqb k n then (k, (t, Some (wrap t z))) :: r else (k, (t, v)) :: put r n z
  end.
Inductive outcome (A : Type) : Type := Passed (a : A) | Rejected (e : argerr) | Undefined.
Arguments Passed {A} a.
Arguments Rejected {A} e.
Arguments Undefined {A}.
Definition obind {A B} (o : outcome A) (f : A -> outcome B) : outcome B :=
  match o with Passed a => f a | Rejected e => Rejected e | Undefined => Undefined end.

(** Storing a parsed value through the address of a variable: undefined unless the sizes agree. *)
Definition store (e : env) (n : string) (t : cint) (z : Z) : outcome env :=
  match get e n with
  | Some (vt, _) => if bits vt =? bits t then Passed (put e n z) else Undefined
  | None => Undefined
  end.
(** The argument for one format unit: None if an optional argument was not given. *)
Definition parse_one (p : platform) (e : env) (u n : string) (opt : bool) (a : option pyvalue) : outcome env :=
  match a with
  | None => if opt then Passed e else Rejected TypeE
  | Some v => match parse_unit p u v with
              | Stored t z => store e n t z
              | Failed x => Rejected x
              | BadUnit => Undefined
              end
  end.
Definition compare (c : comparison) (x y : Z) : bool := match c with Greater => y <? x | Less => x <? y end.
Definition check_one (e : env) (c : string * comparison * string) : option bool :=
  match get e (fst (fst c)), constant (snd c) with
  | Some (_, Some x), Some y => Some (compare (snd (fst c)) x y)
  | _, _ => None
  end.
Fixpoint check_any (e : env) (cs : list (string * comparison * string)) : option bool :=
  match cs with
  | [] => Some false
  | c :: r => match check_one e c with Some true => Some true | Some false => check_any e r | None => None end
  end.
Definition value_of (e : env) (n : string) : outcome Z :=
  match get e n with Some (_, Some z) => Passed z | _ => Undefined end.

Section Run.
  Variable p : platform.
  (** The value of the C expressions given as default values. *)
  Variable eval : string -> Z.

  Fixpoint declare_all (l : list istmt) (e : env) : outcome env :=
    match l with
    | [] => Passed e
    | IDeclare t n i :: r =>
        match c_type p t with
        | Some ct => declare_all r (e ++ [(n, (ct, match i with Some d => Some (wrap ct (eval d)) | None => None end))])
        | None => Undefined
        end
    | _ :: r => declare_all r e
    end.
  (** PyArg_ParseTuple: the units in order; it stops at the first error. *)
  Fixpoint parse_all (l : list istmt) (args : list (option pyvalue)) (e : env) : outcome env :=
    match l with
    | [] => Passed e
    | IParse u n opt _ :: r =>
        match args with
        | a :: args' => obind (parse_one p e u n opt a) (parse_all r args')
        | [] => Rejected TypeE
        end
    | IParseInto _ _ :: _ => Undefined
    | _ :: r => parse_all r args e
    end.
  (** The code before the call. *)
  Fixpoint check_all (l : list istmt) (e : env) : outcome unit :=
    match l with
    | [] => Passed tt
    | ICheck _ cs :: r =>
        match check_any e cs with
        | Some true => Rejected ValueE
        | Some false => check_all r e
        | None => Undefined
        end
    | _ :: r => check_all r e
    end.
  (** What the C++ function receives: [types] are the types of its parameters. *)
  Fixpoint pass_all (l : list istmt) (types : list string) (e : env) : outcome (list Z) :=
    match l with
    | [] => Passed []
    | ICall how n :: r =>
        match types with
        | t :: types' =>
            match c_type p t, get e n with
            | Some ct, Some (vt, Some z) =>
                if match how with ByValue => true | _ => bits ct =? bits vt end
                then obind (pass_all r types' e) (fun zs => Passed (wrap ct z :: zs)) else Undefined
            | _, _ => Undefined
            end
        | [] => Undefined
        end
    | _ :: r => pass_all r types e
    end.

  (** A wrapper for a C++ function with integer parameters. *)
  Record param : Type := mk_param { pa_handler : param_handler; pa_ctype : string; pa_name : string; pa_default : option string }.
  Definition param_code (x : param) : list istmt := param_to_c (pa_handler x) (pa_ctype x) (pa_name x) (pa_default x) true false.
  Definition call_function (ps : list param) (args : list (option pyvalue)) : outcome (list Z) :=
    let code := flat_map param_code ps in
    obind (declare_all code []) (fun e =>
    obind (parse_all code args e) (fun e =>
    obind (check_all code e) (fun _ =>
    pass_all code (map (fun x => value_type (pa_handler x) (pa_ctype x)) ps) e))).

  (** The value returned by a Python override, as C++ receives it: 'retval' has the return type. *)
  Fixpoint store_all (l : list istmt) (e : env) : outcome env :=
    match l with
    | [] => Passed e
    | IStore d s :: r => match get e d, value_of e s with Some _, Passed z => store_all r (put e d z) | _, _ => Undefined end
    | _ :: r => store_all r e
    end.
  Definition override_returns (h : return_handler) (ctype : string) (v : pyvalue) : outcome Z :=
    match c_type p ctype with
    | None => Undefined
    | Some ct =>
        let code := return_to_c h "retval" "tmp" in
        obind (declare_all code [("retval", (ct, None))]) (fun e =>
        obind (parse_all code [Some v] e) (fun e =>
        obind (check_all code e) (fun _ =>
        obind (store_all code e) (fun e => value_of e "retval"))))
    end.

  (** The Python integer built from a C++ value [z] of type [ctype]. *)
  Definition build_one (ct : cint) (z : Z) (u : string) (e : bexpr) : outcome Z :=
    let arg := match e with
               | Var _ | Deref _ => Some (ct, z)
               | Cast c _ => match c_type p c with Some t => Some (t, wrap t z) | None => None end
               | FromUnsignedLong _ => None
               end in
    match e, arg with
    | FromUnsignedLong _, _ => if String.eqb u "N" then Passed (wrap (ulong p) z) else Undefined
    | _, None => Undefined
    | _, Some (t, x) =>
        match built_type p u with
        | Some bt => if bits bt =? bits (promoted t) then Passed (wrap bt (wrap (promoted t) x)) else Undefined
        | None => Undefined
        end
    end.
  Definition built (l : list istmt) (ctype : string) (z : Z) : outcome Z :=
    match l, c_type p ctype with
    | [IBuild u e _], Some ct => build_one ct z u e
    | _, _ => Undefined
    end.
  (** The result of a function; an argument passed to a Python override; an output parameter. *)
  Definition function_returns (h : return_handler) (ctype : string) (z : Z) : outcome Z := built (return_to_python h "retval") ctype z.
  Definition override_receives (h : param_handler) (ctype : string) (z : Z) : outcome Z :=
    built (param_to_python h "value" true false) (value_type h ctype) z.
  Definition output_parameter (h : param_handler) (ctype : string) (z : Z) : outcome Z :=
    built (filter (fun s => match s with IBuild _ _ _ => true | _ => false end) (param_to_c h ctype "value" None false true)) (value_type h ctype) z.
  (** An output parameter set from the result of a Python override: the parameter is a pointer or a reference to a variable
      of type [ctype]; the address of the variable must be given to the parser. *)
  Definition output_parsed (h : param_handler) (ctype : string) (v : pyvalue) : outcome Z :=
    match param_to_python h "value" false true, c_type p (value_type h ctype) with
    | [IParseInto u e], Some ct =>
        match param_passing h with
        | ByAddress =>
            match parse_unit p u v with
            | Stored t z => if String.eqb e "value" && (bits ct =? bits t) then Passed (wrap ct z) else Undefined
            | Failed x => Rejected x
            | BadUnit => Undefined
            end
        | _ => if String.eqb e "&value" then
                 match parse_unit p u v with
                 | Stored t z => if bits ct =? bits t then Passed (wrap ct z) else Undefined
                 | Failed x => Rejected x
                 | BadUnit => Undefined
                 end
               else Undefined (* the value of the variable is taken for an address *)
        end
    | _, _ => Undefined
    end.
End Run.
