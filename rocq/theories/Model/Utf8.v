(** UTF-8 as CPython encodes and decodes it with strict error handling (Objects/unicodeobject.c, not part of /repo; trusted).
    A Python string is the list of its code points, a byte string the list of its bytes. *)
From Coq Require Import ZArith List Bool.
Import ListNotations.
Local Open Scope Z_scope.

Definition surrogate (c : Z) : bool := (0xD800 <=? c) && (c <=? 0xDFFF).

(** One code point; None: UnicodeEncodeError. *)
Definition encode_one (c : Z) : option (list Z) :=
  if c <? 0 then None
  else if c <=? 0x7F then Some [c]
  else if c <=? 0x7FF then Some [0xC0 + c / 64; 0x80 + c mod 64]
  else if surrogate c then None
  else if c <=? 0xFFFF then Some [0xE0 + c / 4096; 0x80 + (c / 64) mod 64; 0x80 + c mod 64]
  else if c <=? 0x10FFFF then Some [0xF0 + c / 262144; 0x80 + (c / 4096) mod 64; 0x80 + (c / 64) mod 64; 0x80 + c mod 64]
  else None.
Fixpoint encode (l : list Z) : option (list Z) :=
  match l with
  | [] => Some []
  | c :: r => match encode_one c, encode r with Some b, Some s => Some (b ++ s) | _, _ => None end
  end.

(** None: UnicodeDecodeError (bad start byte, bad continuation byte, overlong form, surrogate, or a truncated sequence). *)
Definition is_tail (b : Z) : bool := (0x80 <=? b) && (b <=? 0xBF).
Definition within (lo x hi : Z) : bool := (lo <=? x) && (x <=? hi).
Definition push (c : Z) (o : option (list Z)) : option (list Z) := match o with Some l => Some (c :: l) | None => None end.
Fixpoint decode (l : list Z) : option (list Z) :=
  match l with
  | [] => Some []
  | a :: r =>
      if within 0 a 0x7F then push a (decode r)
      else if within 0xC2 a 0xDF then
        match r with
        | b :: r2 => if is_tail b then push ((a - 0xC0) * 64 + (b - 0x80)) (decode r2) else None
        | _ => None
        end
      else if within 0xE0 a 0xEF then
        match r with
        | b :: c :: r3 =>
            let v := (a - 0xE0) * 4096 + (b - 0x80) * 64 + (c - 0x80) in
            if is_tail b && is_tail c && (0x800 <=? v) && negb (surrogate v) then push v (decode r3) else None
        | _ => None
        end
      else if within 0xF0 a 0xF4 then
        match r with
        | b :: c :: d :: r4 =>
            let v := (a - 0xF0) * 262144 + (b - 0x80) * 4096 + (c - 0x80) * 64 + (d - 0x80) in
            if is_tail b && is_tail c && is_tail d && (0x10000 <=? v) && (v <=? 0x10FFFF) then push v (decode r4) else None
        | _ => None
        end
      else None
  end.

(** The bytes before the first NUL: what a C string holds. *)
Fixpoint c_string (l : list Z) : list Z :=
  match l with
  | [] => []
  | b :: r => if b =? 0 then [] else b :: c_string r
  end.
Definition has_nul (l : list Z) : bool := existsb (Z.eqb 0) l.
