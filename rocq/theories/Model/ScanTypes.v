(** The order in which the classes of header files are registered: /repo/pybindgen/castxmlparser.py:1133-1452 (the class part of
    ModuleParser._scan_namespace_types) *)
From Verif.Model Require Import Py.
Open Scope list_scope.

(** What the parser knows of a class: annotated "ignore"; without a name; an instance of a template of which an argument is a private
    class; its bases; the classes it has casting operators to; the public classes inside it, in the order of their names.
    Classes are numbers.  (Simplification: root_module[name] and _registered_classes agree; names, template instances, annotations
    other than ignore, containers, enumerations and typedefs are left out.) *)
Inductive cls : Type := mk_cls (id : nat) (ignored anonymous private : bool) (bases targets : list nat) (nested : list cls).
Definition c_id (c : cls) : nat := match c with mk_cls i _ _ _ _ _ _ => i end.
Definition c_ignored (c : cls) : bool := match c with mk_cls _ b _ _ _ _ _ => b end.
Definition c_anonymous (c : cls) : bool := match c with mk_cls _ _ b _ _ _ _ => b end.
Definition c_private (c : cls) : bool := match c with mk_cls _ _ _ b _ _ _ => b end.
Definition c_bases (c : cls) : list nat := match c with mk_cls _ _ _ _ l _ _ => l end.
Definition c_targets (c : cls) : list nat := match c with mk_cls _ _ _ _ _ l _ => l end.
Definition c_nested (c : cls) : list cls := match c with mk_cls _ _ _ _ _ _ l => l end.

(** What happens, in order. *)
Inductive event : Type :=
| ERegistered (c : nat) (parents : list nat) (outer : option nat) (* module.add_class, castxmlparser.py:1411-1420 *)
| EMissingBase (c base : nat)                                     (* warning, 1242-1247 *)
| EAnonymous (c : nat) (outer : option nat)                       (* 1210-1218: a warning, or taken into the outer class *)
| EConversion (c target : nat)                                    (* implicitly_converts_to, 1447 *)
| EMissingTarget (c target : nat).                                (* warning, 1440-1445 *)
(** What is still to do: the unregistered classes of a scope with the number of times each was postponed, and the casting operators
    of a class whose inner scope is done. *)
Inductive work : Type := WQueue (outer : option nat) (q : list (cls * nat)) | WConversions (c : cls).
Record scan := mk_scan { s_work : list work; s_registered : list nat; s_events : list event }.
Definition mem (n : nat) (l : list nat) : bool := existsb (Nat.eqb n) l.
Definition first_missing (registered l : list nat) : option nat := List.find (fun n => negb (mem n registered)) l.
Inductive verdict : Type := Drop (es : list event) | Postpone | Register.
(** castxmlparser.py:1195-1330 for the class [c] when [rest] are the other unregistered classes of the scope. *)
Definition look (registered : list nat) (outer : option nat) (rest : list nat) (c : cls) : verdict :=
  if c_ignored c then Drop []
  else if c_anonymous c then Drop [EAnonymous (c_id c) outer]
  else
    match first_missing registered (c_bases c) with
    | Some b => if mem b rest then Postpone else Drop [EMissingBase (c_id c) b]
    | None =>
        match first_missing registered (c_targets c) with
        | Some t => if mem t rest then Postpone else if c_private c then Drop [] else Register
        | None => if c_private c then Drop [] else Register
        end
    end.
Definition queue_ids (q : list (cls * nat)) : list nat := map (fun x => c_id (fst x)) q.
Definition new_queue (l : list cls) : list (cls * nat) := map (fun c => (c, 0)) l.
(** castxmlparser.py:1434-1452 *)
Definition conversions (registered : list nat) (c : cls) : list event :=
  map (fun t => if mem t registered then EConversion (c_id c) t else EMissingTarget (c_id c) t) (c_targets c).
Inductive outcome : Type := Running (s : scan) | Finished | Failed.
(** One turn; Failed: the AssertionError of castxmlparser.py:1165-1181 (a class postponed for the tenth time). *)
Definition step (s : scan) : outcome :=
  match s_work s with
  | [] => Finished
  | WQueue _ [] :: r => Running (mk_scan r (s_registered s) (s_events s))
  | WConversions c :: r => Running (mk_scan r (s_registered s) (s_events s ++ conversions (s_registered s) c))
  | WQueue o ((c, k) :: q) :: r =>
      match look (s_registered s) o (queue_ids q) c with
      | Drop es => Running (mk_scan (WQueue o q :: r) (s_registered s) (s_events s ++ es))
      | Postpone => if Nat.leb 10 (k + 1) then Failed else Running (mk_scan (WQueue o (q ++ [(c, k + 1)]) :: r) (s_registered s) (s_events s))
      | Register =>
          Running (mk_scan (WQueue (Some (c_id c)) (new_queue (c_nested c)) :: WConversions c :: WQueue o q :: r)
                     (s_registered s ++ [c_id c]) (s_events s ++ [ERegistered (c_id c) (c_bases c) o]))
      end
  end.
(** The events and whether the scan came to its end; None: the fuel was not enough. *)
Fixpoint run (fuel : nat) (s : scan) : option (list event * bool) :=
  match fuel with
  | O => None
  | S n => match step s with Running s' => run n s' | Finished => Some (s_events s, true) | Failed => Some (s_events s, false) end
  end.
(** The namespaces, each before those inside it (castxmlparser.py:1566-1581), with their classes in the order of their names. *)
Definition initial (namespaces : list (list cls)) : scan := mk_scan (map (fun l => WQueue None (new_queue l)) namespaces) [] [].
