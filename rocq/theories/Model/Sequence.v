(** Model of the sequence protocol of wrapped classes: the choice of the slots (/repo/pybindgen/cppclass.py:654-663, 2032-2033 and
    2161-2198), the functions generated for them (pytypeobject.py:259-535), and their use by Python 3.
    Not modelled: the texts of the error messages; the slice slots, which Python 3 does not have; number slots (Model/NumberOps.v),
    which Python tries first for + and *: here they are absent or decline. *)
From Verif.Model Require Import Py.
From Coq Require Import ZArith.
Open Scope string_scope.
Open Scope list_scope.
Local Open Scope Z_scope.

Definition cls : Type := nat.
(** An entry of the dictionary [methods] of a class: the number of wrappers, and whether one is a Function (add_function_as_method). *)
Record methods_entry : Type := mk_entry { e_wrappers : nat; e_function : bool }.
Definition world : Type := cls -> dict methods_entry.

(** ** The generated functions *)
Inductive error_name : Type := NRuntimeError | NIndexError.
Inductive unit_ : Type := UInt | UObject.     (* format units i (given the Py_ssize_t argument) and O *)
Inductive stmt : Type :=
| BuildArgs (l : list unit_)                  (* args = Py_BuildValue("(...)", ...) *)
| EmptyArgs                                   (* args = PyTuple_New(0) *)
| CallMethod (pass_args : bool)               (* result = method(py_self, args or NULL, NULL) *)
| DecrefArgs
| IfNull (body : list stmt)
| IfNotLong (body : list stmt)                (* !PyLong_Check(result) *)
| IfErrorStops (body : list stmt)             (* PyErr_ExceptionMatches IndexError or StopIteration *)
| SetError (e : error_name)
| XDecrefResult
| DecrefResult
| AsSsize                                     (* number = PyLong_AsSsize_t(result) *)
| AsInt                                       (* number = int(PyLong_AS_LONG(result)) *)
| ReturnNumber | ReturnMinusOne | ReturnResult | ReturnNull.

(** pytypeobject.py:284-535. *)
Definition templates : dict (list stmt) :=
  [("sq_length", [CallMethod false; IfNull [SetError NRuntimeError; XDecrefResult; ReturnMinusOne]; AsSsize; DecrefResult; ReturnNumber]);
   ("sq_length_ARGS", [EmptyArgs; CallMethod true; DecrefArgs; IfNull [SetError NRuntimeError; XDecrefResult; ReturnMinusOne]; AsSsize; DecrefResult; ReturnNumber]);
   ("sq_concat", [BuildArgs [UObject]; CallMethod true; DecrefArgs; ReturnResult]);
   ("sq_repeat", [BuildArgs [UInt]; CallMethod true; DecrefArgs; ReturnResult]);
   ("sq_item", [BuildArgs [UInt]; CallMethod true; DecrefArgs; IfErrorStops [XDecrefResult; ReturnNull]; ReturnResult]);
   ("sq_ass_item", [BuildArgs [UInt; UObject]; CallMethod true; DecrefArgs; IfNull [SetError NIndexError; ReturnMinusOne];
                    IfNotLong [SetError NIndexError; ReturnMinusOne]; AsInt; DecrefResult; ReturnNumber]);
   ("sq_contains", [BuildArgs [UObject]; CallMethod true; DecrefArgs; IfNull [SetError NRuntimeError; XDecrefResult; ReturnMinusOne];
                    IfNotLong [SetError NRuntimeError; XDecrefResult; ReturnMinusOne]; AsInt; DecrefResult; ReturnNumber]);
   ("sq_inplace_concat", [BuildArgs [UObject]; CallMethod true; DecrefArgs; ReturnResult]);
   ("sq_inplace_repeat", [BuildArgs [UInt]; CallMethod true; DecrefArgs; ReturnResult])].
(** cppclass.py:654-663, without the slice methods. *)
Definition valid_sequence_methods : dict string :=
  [("__len__", "sq_length"); ("__add__", "sq_concat"); ("__mul__", "sq_repeat"); ("__getitem__", "sq_item"); ("__setitem__", "sq_ass_item");
   ("__contains__", "sq_contains"); ("__iadd__", "sq_inplace_concat"); ("__imul__", "sq_inplace_repeat")].
(** cppclass.py:2170-2188: the slots of a class, each with the name of the method that it calls. *)
Definition slots (w : world) (c : cls) : dict (string * list stmt) :=
  flat_map (fun x => let '(py_name, slot_name) := x in
    match dict_get (w c) py_name with
    | Some m =>
        let template := if String.eqb py_name "__len__" && ((1 <? e_wrappers m)%nat || e_function m) then (slot_name ++ "_ARGS")%string else slot_name in
        match dict_get templates template with Some code => [(slot_name, (py_name, code))] | None => [] end
    | None => []
    end) valid_sequence_methods.

(** ** Execution *)
Section Run.
  (** Python objects, exceptions of the methods, the state of the C++ objects. *)
  Variables obj exc state : Type.
  (** The value of int objects (and of instances of classes derived from int, such as bool). *)
  Variable as_int : obj -> option Z.
  (** IndexError or StopIteration. *)
  Variable stops : exc -> bool.
  Inductive arg : Type := AInt (z : Z) | AObj (o : obj).
  (** The method wrapper of a class: self, and the argument tuple unless it is NULL. *)
  Variable meth : cls -> string -> obj -> option (list arg) -> state -> state * (obj + exc).

  Inductive error : Type := FromMethod (e : exc) | RuntimeE | IndexE | TypeE | OverflowE | SystemE.
  (** The local variables; [t_args]/[t_result]: the references that the function holds to the tuple and to the result. *)
  Record local : Type := mk_local {
    l_state : state; l_args : option (list arg); t_args : Z; l_result : option obj; t_result : Z; l_number : Z; l_error : option error }.
  Inductive value : Type := VNumber (z : Z) | VObject (o : obj) | VNull.
  Inductive flow : Type := Next (l : local) | Return (v : value) (l : local) | Crash.

  (** int and Py_ssize_t have 32 and 64 bits; the 'i' unit takes the low half of what is passed. *)
  Definition to_int (z : Z) : Z := (z + 2 ^ 31) mod 2 ^ 32 - 2 ^ 31.
  Definition in_ssize (z : Z) : bool := (- 2 ^ 63 <=? z) && (z <? 2 ^ 63).
  Definition stops_error (e : error) : bool := match e with FromMethod x => stops x | IndexE => true | _ => false end.

  Section Body.
    Variables (c : cls) (py_name : string) (self : obj).
    (** The other parameters of the function. *)
    Variables (py_i : Z) (py_val : option obj).
    Fixpoint build (l : list unit_) : option (list arg) :=
      match l with
      | [] => Some []
      | UInt :: r => option_map (cons (AInt (to_int py_i))) (build r)
      | UObject :: r => match py_val with Some o => option_map (cons (AObj o)) (build r) | None => None end
      end.
    Fixpoint run_stmt (x : stmt) (l : local) : flow :=
      let fix run_all (b : list stmt) (l : local) : flow :=
        match b with
        | [] => Next l
        | y :: r => match run_stmt y l with Next l1 => run_all r l1 | done => done end
        end in
      match x with
      | BuildArgs us =>
          match build us with
          | Some a => Next (mk_local (l_state l) (Some a) (t_args l + 1) (l_result l) (t_result l) (l_number l) (l_error l))
          | None => Next (mk_local (l_state l) None (t_args l) (l_result l) (t_result l) (l_number l) (Some SystemE))
          end
      | EmptyArgs => Next (mk_local (l_state l) (Some []) (t_args l + 1) (l_result l) (t_result l) (l_number l) (l_error l))
      | CallMethod pass =>
          match meth c py_name self (if pass then l_args l else None) (l_state l) with
          | (s, inl o) => Next (mk_local s (l_args l) (t_args l) (Some o) (t_result l + 1) (l_number l) (l_error l))
          | (s, inr e) => Next (mk_local s (l_args l) (t_args l) None (t_result l) (l_number l) (Some (FromMethod e)))
          end
      | DecrefArgs =>
          match l_args l with
          | Some _ => Next (mk_local (l_state l) (l_args l) (t_args l - 1) (l_result l) (t_result l) (l_number l) (l_error l))
          | None => Crash
          end
      | IfNull b => match l_result l with Some _ => Next l | None => run_all b l end
      | IfNotLong b => match l_result l with
                       | Some o => match as_int o with Some _ => Next l | None => run_all b l end
                       | None => Crash
                       end
      | IfErrorStops b => match l_error l with Some e => if stops_error e then run_all b l else Next l | None => Next l end
      | SetError e => Next (mk_local (l_state l) (l_args l) (t_args l) (l_result l) (t_result l) (l_number l)
                              (Some match e with NRuntimeError => RuntimeE | NIndexError => IndexE end))
      | XDecrefResult => match l_result l with
                         | Some _ => Next (mk_local (l_state l) (l_args l) (t_args l) (l_result l) (t_result l - 1) (l_number l) (l_error l))
                         | None => Next l
                         end
      | DecrefResult => match l_result l with
                        | Some _ => Next (mk_local (l_state l) (l_args l) (t_args l) (l_result l) (t_result l - 1) (l_number l) (l_error l))
                        | None => Crash
                        end
      | AsSsize =>
          match l_result l with
          | Some o => let put z e := Next (mk_local (l_state l) (l_args l) (t_args l) (l_result l) (t_result l) z e) in
                      match as_int o with
                      | Some z => if in_ssize z then put z (l_error l) else put (-1) (Some OverflowE)
                      | None => put (-1) (Some TypeE)
                      end
          | None => Crash
          end
      | AsInt =>
          match l_result l with
          | Some o => let put z e := Next (mk_local (l_state l) (l_args l) (t_args l) (l_result l) (t_result l) z e) in
                      match as_int o with
                      | Some z => if in_ssize z then put (to_int z) (l_error l) else put (-1) (Some OverflowE)
                      | None => put (-1) (Some TypeE)
                      end
          | None => Crash
          end
      | ReturnNumber => Return (VNumber (l_number l)) l
      | ReturnMinusOne => Return (VNumber (-1)) l
      | ReturnResult => match l_result l with
                        | Some o => Return (VObject o) (mk_local (l_state l) (l_args l) (t_args l) (l_result l) (t_result l - 1) (l_number l) (l_error l))
                        | None => Return VNull l
                        end
      | ReturnNull => Return VNull l
      end.
    Fixpoint run_body (b : list stmt) (l : local) : flow :=
      match b with
      | [] => Next l
      | y :: r => match run_stmt y l with Next l1 => run_body r l1 | done => done end
      end.
  End Body.
  Definition start (s : state) : local := mk_local s None 0 None 0 0 None.

  (** ** Python *)
  Variable line : cls -> list cls.
  Variable class_of : obj -> option cls.
  Variable w : world.
  (** typeobject.c inherit_slots: the nearest class with the slot. *)
  Definition inherited (slot : string) (c : cls) : option (cls * (string * list stmt)) :=
    fold_right (fun d r => match dict_get (slots w d) slot with Some f => Some (d, f) | None => r end) None (line c).
  Definition slot_of (slot : string) (x : obj) : option (cls * (string * list stmt)) :=
    match class_of x with Some c => inherited slot c | None => None end.
  (** What the function returned, with the pending error. *)
  Definition call_slot (f : cls * (string * list stmt)) (x : obj) (i : Z) (v : option obj) (s : state) : option (state * value * option error * Z * Z) :=
    match run_body (fst f) (fst (snd f)) x i v (snd (snd f)) (start s) with
    | Return r l => Some (l_state l, r, l_error l, t_args l, t_result l)
    | _ => None
    end.

  Inductive result : Type := Object (o : obj) | Number (z : Z) | Done | Raise (e : error) | Dies.
  (** The references of the functions that were called to tuples and objects that they did not give up. *)
  Definition outcome : Type := state * result * Z.
  Definition or_system (e : option error) : error := match e with Some x => x | None => SystemE end.

  (** Objects/abstract.c PyObject_Size. *)
  Definition size (x : obj) (s : state) : outcome :=
    match slot_of "sq_length" x with
    | Some f => match call_slot f x 0 None s with
                | Some (s1, VNumber z, e, a, r) => (s1, if z <? 0 then Raise (or_system e) else Number z, a + r)
                | Some (s1, _, e, a, r) => (s1, Dies, a + r)
                | None => (s, Dies, 0)
                end
    | None => (s, Raise TypeE, 0)
    end.
  (** PyNumber_AsSsize_t(key, too_large) *)
  Definition as_ssize (key : obj) (too_large : error) : Z + error :=
    match as_int key with Some z => if in_ssize z then inl z else inr too_large | None => inr TypeE end.
  (** PySequence_GetItem and PySequence_SetItem: negative indices. *)
  Definition adjust (x : obj) (i : Z) (s : state) : state * (Z + result) * Z :=
    if i <? 0 then
      match slot_of "sq_length" x with
      | Some _ => match size x s with
                  | (s1, Number n, k) => (s1, inl (i + n), k)
                  | (s1, r, k) => (s1, inr r, k)
                  end
      | None => (s, inl i, 0)
      end
    else (s, inl i, 0).
  Definition object_result (r : option (state * value * option error * Z * Z)) (s : state) (k : Z) : outcome :=
    match r with
    | Some (s1, VObject o, _, a, b) => (s1, Object o, k + a + b)
    | Some (s1, VNull, e, a, b) => (s1, Raise (or_system e), k + a + b)
    | Some (s1, VNumber _, _, a, b) => (s1, Dies, k + a + b)
    | None => (s, Dies, k)
    end.
  Definition get_index (x : obj) (i : Z) (s : state) : outcome :=
    match slot_of "sq_item" x with
    | Some f => match adjust x i s with
                | (s1, inl j, k) => object_result (call_slot f x j None s1) s1 k
                | (s1, inr r, k) => (s1, r, k)
                end
    | None => (s, Raise TypeE, 0)
    end.
  (** x[key] *)
  Definition get_item (x key : obj) (s : state) : outcome :=
    match slot_of "sq_item" x with
    | Some _ => match as_ssize key IndexE with inl i => get_index x i s | inr e => (s, Raise e, 0) end
    | None => (s, Raise TypeE, 0)
    end.
  (** x[key] = v, and del x[key] (no value) *)
  Definition set_item (x key : obj) (v : option obj) (s : state) : outcome :=
    match slot_of "sq_ass_item" x with
    | Some f =>
        match as_ssize key IndexE with
        | inl i =>
            match adjust x i s with
            | (s1, inl j, k) =>
                match call_slot f x j v s1 with
                | Some (s2, VNumber z, e, a, r) => (s2, if z =? 0 then Done else Raise (or_system e), k + a + r)
                | Some (s2, _, e, a, r) => (s2, Dies, k + a + r)
                | None => (s1, Dies, k)
                end
            | (s1, inr r, k) => (s1, r, k)
            end
        | inr e => (s, Raise e, 0)
        end
    | None => (s, Raise TypeE, 0)
    end.
  (** v in x, for a class that has __contains__: 1 or 0 *)
  Definition contains (x v : obj) (s : state) : outcome :=
    match slot_of "sq_contains" x with
    | Some f => match call_slot f x 0 (Some v) s with
                | Some (s1, VNumber z, e, a, r) => (s1, if z <? 0 then Raise (or_system e) else Number (if z =? 0 then 0 else 1), a + r)
                | Some (s1, _, e, a, r) => (s1, Dies, a + r)
                | None => (s, Dies, 0)
                end
    | None => (s, Raise TypeE, 0)
    end.
  (** x + y *)
  Definition concat (x y : obj) (s : state) : outcome :=
    match slot_of "sq_concat" x with
    | Some f => object_result (call_slot f x 0 (Some y) s) s 0
    | None => (s, Raise TypeE, 0)
    end.
  Definition repeat_with (f : cls * (string * list stmt)) (x n : obj) (s : state) : outcome :=
    match as_ssize n OverflowE with
    | inl i => object_result (call_slot f x i None s) s 0
    | inr e => (s, Raise e, 0)
    end.
  (** x * y: the repetition of x, otherwise that of y *)
  Definition repeat (x y : obj) (s : state) : outcome :=
    match slot_of "sq_repeat" x with
    | Some f => repeat_with f x y s
    | None => match slot_of "sq_repeat" y with Some f => repeat_with f y x s | None => (s, Raise TypeE, 0) end
    end.
  (** x += y and x *= y: what is assigned to x *)
  Definition inplace_concat (x y : obj) (s : state) : outcome :=
    match slot_of "sq_inplace_concat" x with
    | Some f => object_result (call_slot f x 0 (Some y) s) s 0
    | None => concat x y s
    end.
  Definition inplace_repeat (x y : obj) (s : state) : outcome :=
    match slot_of "sq_inplace_repeat" x with
    | Some f => repeat_with f x y s
    | None => repeat x y s
    end.
  (** for o in x, for a class without tp_iter (Objects/iterobject.c): the objects of [n] steps starting at index [i], and whether the
      iteration is over. *)
  Inductive iteration : Type := More (l : list obj) | Finished (l : list obj) | Failed (l : list obj) (r : result).
  Definition before (o : obj) (r : iteration) : iteration :=
    match r with More l => More (o :: l) | Finished l => Finished (o :: l) | Failed l r => Failed (o :: l) r end.
  Fixpoint iterate (x : obj) (i : Z) (n : nat) (s : state) : state * iteration * Z :=
    match n with
    | O => (s, More [], 0)
    | S m => match get_index x i s with
             | (s1, Object o, k) => let '(s2, r, k2) := iterate x (i + 1) m s1 in (s2, before o r, k + k2)
             | (s1, Raise e, k) => (s1, if stops_error e then Finished [] else Failed [] (Raise e), k)
             | (s1, r, k) => (s1, Failed [] r, k)
             end
    end.
End Run.
