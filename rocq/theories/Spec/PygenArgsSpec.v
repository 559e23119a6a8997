(** What Python understands when it reads an expression of the script: a small reader of Python expressions (strings, integers, names,
    lists, calls with positional and keyword arguments), and what the arguments of the calls mean.  Of the model only the type of values is used. *)
From Verif.Model Require Import Py PygenArgs.
Require Import Permutation.
Open Scope string_scope.
Open Scope list_scope.

Definition white (c : ascii) : bool := Ascii.eqb c " " || Ascii.eqb c (ascii_of_nat 10).
Fixpoint skip (t : text) : text := match t with c :: r => if white c then skip r else t | [] => [] end.
Definition name_char (c : ascii) : bool := is_ident_char c || Ascii.eqb c ".".
Fixpoint word (t : text) : text * text :=
  match t with c :: r => if name_char c then (c :: fst (word r), snd (word r)) else ([], t) | [] => ([], []) end.
Fixpoint digits (t : text) : text * text :=
  match t with c :: r => if is_digit c then (c :: fst (digits r), snd (digits r)) else ([], t) | [] => ([], []) end.
Definition number (t : text) : Z := fold_left (fun z c => (10 * z + Z.of_N (N_of_ascii c - 48))%Z) t 0%Z.
Definition hex_value (c : ascii) : option nat :=
  let n := nat_of_ascii c in
  if (48 <=? n)%nat && (n <=? 57)%nat then Some (n - 48)
  else if (97 <=? n)%nat && (n <=? 102)%nat then Some (n - 87)
  else if (65 <=? n)%nat && (n <=? 70)%nat then Some (n - 55) else None.
(** The rest of a string after the opening quote [q]. *)
Fixpoint string_rest (q : ascii) (t : text) : option (text * text) :=
  match t with
  | [] => None
  | c :: r =>
      if Ascii.eqb c q then Some ([], r)
      else if Ascii.eqb c (ascii_of_nat 10) then None
      else if Ascii.eqb c "\" then
        match r with
        | e :: r' =>
            let go x := match string_rest q r' with Some (s, r'') => Some (x :: s, r'') | None => None end in
            if Ascii.eqb e "\" || Ascii.eqb e "'" || Ascii.eqb e (ascii_of_nat 34) then go e
            else if Ascii.eqb e "n" then go (ascii_of_nat 10)
            else if Ascii.eqb e "t" then go (ascii_of_nat 9)
            else if Ascii.eqb e "r" then go (ascii_of_nat 13)
            else if Ascii.eqb e "x" then
              match r' with
              | a :: b :: r'' =>
                  match hex_value a, hex_value b, string_rest q r'' with
                  | Some x, Some y, Some (s, r3) => Some (ascii_of_nat (16 * x + y) :: s, r3)
                  | _, _, _ => None
                  end
              | _ => None
              end
            else None
        | [] => None
        end
      else match string_rest q r with Some (s, r') => Some (c :: s, r') | None => None end
  end.

(** Items separated by commas, up to [close]; an item may be a keyword argument. *)
Definition item := (option string * value)%type.
Section Items.
  Context (expr : text -> option (value * text)).
  Definition one (t : text) : option (item * text) :=
    match word t with
    | (c :: k, "="%char :: r) => match expr r with Some (v, r') => Some ((Some (string_of_list_ascii (c :: k)), v), r') | None => None end
    | _ => match expr t with Some (v, r) => Some ((None, v), r) | None => None end
    end.
  Fixpoint items (n : nat) (close : ascii) (t : text) : option (list item * text) :=
    match n with
    | O => None
    | S n =>
        match skip t with
        | [] => None
        | c :: r =>
            if Ascii.eqb c close then Some ([], r)
            else match one (c :: r) with
                 | None => None
                 | Some (x, t') =>
                     match skip t' with
                     | [] => None
                     | d :: r' =>
                         if Ascii.eqb d close then Some ([x], r')
                         else if Ascii.eqb d "," then match items n close r' with Some (xs, r'') => Some (x :: xs, r'') | None => None end
                         else None
                     end
                 end
        end
    end.
End Items.
(** Keyword arguments come after the positional ones and are different. *)
Fixpoint keywords_only (l : list item) : option keywords :=
  match l with
  | [] => Some []
  | (Some k, v) :: r => match keywords_only r with Some kw => if existsb (String.eqb k) (map fst kw) then None else Some ((k, v) :: kw) | None => None end
  | (None, _) :: _ => None
  end.
Fixpoint arguments (l : list item) : option (list value * keywords) :=
  match l with
  | (None, v) :: r => match arguments r with Some (a, kw) => Some (v :: a, kw) | None => None end
  | _ => match keywords_only l with Some kw => Some ([], kw) | None => None end
  end.
Fixpoint elements (l : list item) : option (list value) :=
  match l with [] => Some [] | (None, v) :: r => match elements r with Some a => Some (v :: a) | None => None end | _ => None end.
Fixpoint expression (n : nat) (t : text) : option (value * text) :=
  match n with
  | O => None
  | S n =>
      match t with
      | [] => None
      | c :: r =>
          if Ascii.eqb c "'" || Ascii.eqb c (ascii_of_nat 34) then
            match string_rest c r with Some (s, r') => Some (VStr (string_of_list_ascii s), r') | None => None end
          else if Ascii.eqb c "-" then match digits r with ([], _) => None | (d, r') => Some (VInt (- number d), r') end
          else if is_digit c then Some (VInt (number (fst (digits t))), snd (digits t))
          else if Ascii.eqb c "[" then
            match items (expression n) (length t) "]" r with
            | Some (l, r') => match elements l with Some v => Some (VList v, r') | None => None end
            | None => None
            end
          else match word t with
            | ([], _) => None
            | (w, rest) =>
                let name := string_of_list_ascii w in
                match rest with
                | "("%char :: r' =>
                    match items (expression n) (length t) ")" r' with
                    | Some (l, r'') => match arguments l with Some (a, kw) => Some (VCall name a kw, r'') | None => None end
                    | None => None
                    end
                | "["%char :: r' =>
                    if String.eqb name "root_module" then
                      match items (expression n) (length t) "]" r' with
                      | Some ([(None, VStr s)], r'') => Some (VClass s, r'')
                      | _ => None
                      end
                    else None
                | _ =>
                    if String.eqb name "None" then Some (VNone, rest)
                    else if String.eqb name "True" then Some (VBool true, rest)
                    else if String.eqb name "False" then Some (VBool false, rest)
                    else None
                end
            end
      end
  end.
(** A statement of the script that is a call: what is called, and with what. *)
Definition calls (t : text) (f : string) (args : list value) (kwargs : keywords) : Prop := expression (length t) t = Some (VCall f args kwargs, []).

(** param(...) and retval(...) in the script, and a string as a return value, stand for arguments (utils.py:218-264). *)
Definition stands_for (f : string) (v : value) (spec : list value * keywords) : Prop :=
  exists kw, (v = VCall f (fst spec) kw \/ f = "retval" /\ kw = [] /\ exists s, v = VStr s /\ fst spec = [VStr s]) /\ Permutation kw (snd spec).

(** Arguments that can be written: names of keywords are different identifiers, and a class is written only as the whole value of a keyword or in
    the list for throw or parent. *)
Definition identifier (f : string) : Prop :=
  match lit f with [] => False | c :: r => is_digit c = false /\ Ascii.eqb c "." = false /\ forallb name_char (c :: r) = true end.
Fixpoint plain (v : value) : Prop :=
  match v with
  | VClass _ => False
  | VList l => fold_right (fun x P => plain x /\ P) True l
  | VCall f args kwargs =>
      identifier f /\ fold_right (fun x P => plain x /\ P) True args /\
      fold_right (fun kv P => identifier (fst kv) /\ plain (snd kv) /\ P) True kwargs /\ NoDup (map fst kwargs)
  | _ => True
  end.
Definition is_class (v : value) : Prop := exists n, v = VClass n.
Definition writable (kv : string * value) : Prop :=
  identifier (fst kv) /\ (plain (snd kv) /\ (fst kv = "throw" \/ fst kv = "parent" -> forall l, snd kv <> VList l) \/ is_class (snd kv) \/ (fst kv = "throw" \/ fst kv = "parent") /\ exists l, snd kv = VList l /\ Forall is_class l).
Definition good (spec : list value * keywords) : Prop := Forall plain (fst spec) /\ Forall writable (snd spec) /\ NoDup (map fst (snd spec)).
