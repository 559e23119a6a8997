(** The operators of classes in header files: /repo/pybindgen/castxmlparser.py:1722-1838 *)
From Verif.Model Require Import Py Annotations.
Open Scope list_scope.
Open Scope string_scope.

Section Scan.
  (** The types.  For the class [cls] that is scanned: [cls_type] is its own type, [convertible t] type_traits_classes.is_convertible(cls, t);
      [is_ostream] is castxmlparser.py:1722-1725; [class_of] get_class_wrapper (1752-1760): the full name of the class that is registered
      under the name of the type, if any; [spec] lookup_parameter(t, 'right', annotations), [known] whether Parameter.new knows it. *)
  Context {T P : Type} (cls_type : T) (is_ostream convertible : T -> bool) (class_of : T -> option string)
          (spec : T -> notes -> res P) (known : P -> bool).
  (** An operator: its symbol, the types, the annotations of 'right', access_type == 'public'. *)
  Record operator := mk_operator { o_symbol : string; o_return : T; o_args : list T; o_right : notes; o_public : bool }.
  Inductive call : Type :=
  | OutputStream                                             (* add_output_stream_operator() *)
  | Comparison (symbol : string)                             (* add_binary_comparison_operator(symbol) *)
  | Numeric (symbol result left : string) (right : P)        (* add_binary_numeric_operator(symbol, root_module[result], root_module[left], right) *)
  | Inplace (symbol : string) (right : P)                    (* add_inplace_numeric_operator(symbol, right) *)
  | Unary (symbol : string).                                 (* add_unary_numeric_operator(symbol) *)
  Inductive complaint : Type := NoResult | NoLeft | NoRight | WrongCount.
  (** What is written in the script, what is declared, what is warned about. *)
  Record output := mk_output { o_script : list call; o_memory : list call; o_warned : list complaint }.
  Definition write (c : call) (o : output) : output := mk_output (o_script o ++ [c])%list (o_memory o) (o_warned o).
  Definition declare (c : call) (o : output) : output := mk_output (o_script o) (o_memory o ++ [c])%list (o_warned o).
  Definition warn (w : complaint) (o : output) : output := mk_output (o_script o) (o_memory o) (o_warned o ++ [w])%list.
  Definition one_of (s : string) (l : list string) : bool := existsb (String.eqb s) l.
  (** castxmlparser.py:1729-1823.  [args] are the types of the arguments, with the class of a member in front. *)
  Definition handle (op : operator) (args : list T) (o : output) : res output :=
    if String.eqb (o_symbol op) "<<" && is_ostream (o_return op) && Nat.eqb (length (o_args op)) 2 &&
       match args with a :: b :: _ => is_ostream a && convertible b | _ => false end
    then Ok (write OutputStream (declare OutputStream o))
    else if one_of (o_symbol op) ["=="; "!="; "<"; "<="; ">"; ">="] &&
       match args with [a; b] => convertible a && convertible b | _ => false end
    then Ok (write (Comparison (o_symbol op)) (declare (Comparison (o_symbol op)) o))
    else
      match args with
      | [] => Err IndexError
      | a :: rest =>
          if negb (convertible a) then Ok o
          else
            match class_of (o_return op) with
            | None => Ok (warn NoResult o)
            | Some ret =>
                match class_of a with
                | None => Ok (warn NoLeft o)
                | Some arg0 =>
                    match rest with
                    | [b] =>
                        match spec b (o_right op) with
                        | Err e => Err e
                        | Ok p =>
                            let o1 := if known p then o else warn NoRight o in
                            let add c o := if known p then declare c (write c o) else write c o in
                            let o2 := if one_of (o_symbol op) ["+"; "-"; "/"; "*"] then add (Numeric (o_symbol op) ret arg0 p) o1 else o1 in
                            Ok (if one_of (o_symbol op) ["+="; "-="; "/="; "*="] then add (Inplace (o_symbol op) p) o2 else o2)
                        end
                    | [] => Ok (if one_of (o_symbol op) ["-"] then declare (Unary (o_symbol op)) (write (Unary (o_symbol op)) o) else o)
                    | _ => Ok (warn WrongCount o)
                    end
                end
            end
      end.
  Fixpoint handle_free (l : list operator) (o : output) : res output :=
    match l with [] => Ok o | op :: r => match handle op (o_args op) o with Ok o' => handle_free r o' | Err e => Err e end end.
  Fixpoint handle_members (l : list operator) (o : output) : res output :=
    match l with
    | [] => Ok o
    | op :: r =>
        if negb (o_public op) then handle_members r o
        else match handle op (cls_type :: o_args op) o with Ok o' => handle_members r o' | Err e => Err e end
    end.
  (** castxmlparser.py:1826-1838 *)
  Definition scan_operators (free members : list operator) : res output :=
    match handle_free free (mk_output [] [] []) with Ok o => handle_members members o | Err e => Err e end.
End Scan.
