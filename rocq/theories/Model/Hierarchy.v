(** Model of class hierarchies: the parts of CppClass concerned with parents, inherited settings, virtual methods, helper
    classes and the choice of what a constructor instantiates (/repo/pybindgen/cppclass.py, /repo/pybindgen/cppmethod.py).
    A class is a number: its position in the list of the classes created so far. *)
From Verif.Model Require Import Py PyState.
Open Scope string_scope.
Open Scope list_scope.
Open Scope st_scope.

Inductive visibility : Type := Public | Protected | Private.
Definition is_public (v : visibility) : bool := match v with Public => true | _ => false end.
Definition is_protected (v : visibility) : bool := match v with Protected => true | _ => false end.

(** A method object, reduced to what these parts of the code look at.  [mt_name] is mangled_name, [mt_ctypes] the ctype of
    each parameter; [mt_function] tells a function added as a method (not a CppMethod). *)
Record method : Type := mk_method {
  mt_name : string; mt_ctypes : list string; mt_const : bool; mt_virtual : bool; mt_pure : bool; mt_vis : visibility; mt_function : bool }.

(** cppmethod.py:183-193 matches_signature *)
Fixpoint same_types (a b : list string) : bool :=
  match a, b with
  | [], [] => true
  | x :: r, y :: s => String.eqb x y && same_types r s
  | _, _ => false
  end.
Definition matches_signature (a b : method) : bool :=
  String.eqb (mt_name a) (mt_name b) && same_types (mt_ctypes a) (mt_ctypes b) && Bool.eqb (mt_const a) (mt_const b).

(** cppclass.py:270-283 CppHelperClass: [hp_virtuals] are virtual_methods, each of which has a virtual proxy (308-310).
    Parent callers are not modelled. *)
Record helper : Type := mk_helper { hp_virtuals : list method; hp_cannot : bool }.

(** cppclass.py:532-742.  [k_policy] is the memory policy, by an identity; [k_pure] is _have_pure_virtual_methods;
    [k_cannot] is cannot_be_constructed. *)
Record cls : Type := mk_cls {
  k_bases : list nat; k_policy : option nat; k_narrowing : bool; k_subclassing : bool; k_singleton : bool;
  k_methods : dict (list method); k_nonpublic : list method; k_dummy : list method;
  k_pure : option bool; k_helper : option helper; k_disabled : bool; k_cannot : string;
  k_hooks : list nat; k_creation : option nat; k_post : option nat }.

Definition hier : Type := list cls.

Definition with_methods (m : dict (list method)) (k : cls) : cls :=
  mk_cls (k_bases k) (k_policy k) (k_narrowing k) (k_subclassing k) (k_singleton k) m (k_nonpublic k) (k_dummy k)
    (k_pure k) (k_helper k) (k_disabled k) (k_cannot k) (k_hooks k) (k_creation k) (k_post k).
Definition with_nonpublic (l : list method) (k : cls) : cls :=
  mk_cls (k_bases k) (k_policy k) (k_narrowing k) (k_subclassing k) (k_singleton k) (k_methods k) l (k_dummy k)
    (k_pure k) (k_helper k) (k_disabled k) (k_cannot k) (k_hooks k) (k_creation k) (k_post k).
Definition with_dummy (l : list method) (k : cls) : cls :=
  mk_cls (k_bases k) (k_policy k) (k_narrowing k) (k_subclassing k) (k_singleton k) (k_methods k) (k_nonpublic k) l
    (k_pure k) (k_helper k) (k_disabled k) (k_cannot k) (k_hooks k) (k_creation k) (k_post k).
Definition with_pure (b : option bool) (k : cls) : cls :=
  mk_cls (k_bases k) (k_policy k) (k_narrowing k) (k_subclassing k) (k_singleton k) (k_methods k) (k_nonpublic k) (k_dummy k)
    b (k_helper k) (k_disabled k) (k_cannot k) (k_hooks k) (k_creation k) (k_post k).
Definition with_helper (h : option helper) (k : cls) : cls :=
  mk_cls (k_bases k) (k_policy k) (k_narrowing k) (k_subclassing k) (k_singleton k) (k_methods k) (k_nonpublic k) (k_dummy k)
    (k_pure k) h (k_disabled k) (k_cannot k) (k_hooks k) (k_creation k) (k_post k).
Definition with_disabled (b : bool) (k : cls) : cls :=
  mk_cls (k_bases k) (k_policy k) (k_narrowing k) (k_subclassing k) (k_singleton k) (k_methods k) (k_nonpublic k) (k_dummy k)
    (k_pure k) (k_helper k) b (k_cannot k) (k_hooks k) (k_creation k) (k_post k).
Definition with_cannot (s : string) (k : cls) : cls :=
  mk_cls (k_bases k) (k_policy k) (k_narrowing k) (k_subclassing k) (k_singleton k) (k_methods k) (k_nonpublic k) (k_dummy k)
    (k_pure k) (k_helper k) (k_disabled k) s (k_hooks k) (k_creation k) (k_post k).
Definition with_hooks (l : list nat) (k : cls) : cls :=
  mk_cls (k_bases k) (k_policy k) (k_narrowing k) (k_subclassing k) (k_singleton k) (k_methods k) (k_nonpublic k) (k_dummy k)
    (k_pure k) (k_helper k) (k_disabled k) (k_cannot k) l (k_creation k) (k_post k).
Definition with_creation (n : option nat) (k : cls) : cls :=
  mk_cls (k_bases k) (k_policy k) (k_narrowing k) (k_subclassing k) (k_singleton k) (k_methods k) (k_nonpublic k) (k_dummy k)
    (k_pure k) (k_helper k) (k_disabled k) (k_cannot k) (k_hooks k) n (k_post k).
Definition with_post (n : option nat) (k : cls) : cls :=
  mk_cls (k_bases k) (k_policy k) (k_narrowing k) (k_subclassing k) (k_singleton k) (k_methods k) (k_nonpublic k) (k_dummy k)
    (k_pure k) (k_helper k) (k_disabled k) (k_cannot k) (k_hooks k) (k_creation k) n.

Fixpoint change (l : hier) (i : nat) (f : cls -> cls) : hier :=
  match l, i with
  | [], _ => []
  | k :: r, O => f k :: r
  | k :: r, S j => k :: change r j f
  end.
Definition get_cls (i : nat) : st hier cls :=
  fun w => (w, match nth_error w i with Some k => Ok k | None => Err Unmodelled end).
Definition update (i : nat) (f : cls -> cls) : st hier unit := modify (fun w => change w i f).

Definition bases (w : hier) (i : nat) : list nat := match nth_error w i with Some k => k_bases k | None => [] end.
Definition policy_of (w : hier) (i : nat) : option nat := match nth_error w i with Some k => k_policy k | None => None end.
Definition subclassing_of (w : hier) (i : nat) : bool := match nth_error w i with Some k => k_subclassing k | None => false end.
Definition narrowing_of (w : hier) (i : nat) : bool := match nth_error w i with Some k => k_narrowing k | None => false end.

(** ** Creation: cppclass.py:681-740.  [parents] is None, or the list of parents (one parent given alone is a list of
    one).  The settings are settings.automatic_type_narrowing and settings.allow_subclassing. *)
Record cdecl : Type := mk_cdecl {
  cd_parents : option (list nat); cd_policy : option nat; cd_narrowing : option bool; cd_subclassing : option bool;
  cd_singleton : bool; cd_destructor : visibility }.

(** cppclass.py:706-717 *)
Fixpoint inherited_policy (w : hier) (l : list nat) : option nat :=
  match l with
  | [] => None
  | b :: r => match policy_of w b with Some p => Some p | None => inherited_policy w r end
  end.
Definition memory_policy (w : hier) (l : list nat) (given : option nat) : res (option nat) :=
  match inherited_policy w l with
  | Some p => match given with None => Ok (Some p) | Some _ => Err AssertionError end
  | None => Ok given
  end.
(** cppclass.py:719-726 *)
Definition narrowing (default : bool) (w : hier) (l : list nat) (given : option bool) : bool :=
  match given with
  | Some b => b
  | None => match l with [] => default | b :: _ => narrowing_of w b end
  end.
(** cppclass.py:728-740 *)
Definition subclassing (default : bool) (w : hier) (l : list nat) (given : option bool) (destructor : visibility) : res bool :=
  match (match given with
         | None => Ok (match l with [] => default | b :: _ => subclassing_of w b end)
         | Some b => if existsb (subclassing_of w) l && negb b then Err ValueError else Ok b
         end) with
  | Err e => Err e
  | Ok b => Ok (match destructor with Private => false | _ => b end)
  end.

Section Classes.
  Variables default_narrowing default_subclassing : bool.

  Definition new_class (d : cdecl) : st hier nat := fun w =>
    match cd_parents d with
    | Some [] => (w, Err IndexError)
    | ps =>
        let l := match ps with Some l => l | None => [] end in
        if forallb (fun b => Nat.ltb b (length w)) l then
          match memory_policy w l (cd_policy d) with
          | Err e => (w, Err e)
          | Ok p =>
              match subclassing default_subclassing w l (cd_subclassing d) (cd_destructor d) with
              | Err e => (w, Err e)
              | Ok sub => (w ++ [mk_cls l p (narrowing default_narrowing w l (cd_narrowing d)) sub (cd_singleton d) [] [] []
                                   None None false "" [] None None], Ok (length w))
              end
          end
        else (w, Err Unmodelled) (* not a class *)
    end.
End Classes.

(** ** Method resolution order: cppclass.py:964-978.  [visited] is the set of the classes popped so far. *)
Definition seen (c : nat) (visited : list nat) : bool := existsb (Nat.eqb c) visited.
Fixpoint visit (fuel : nat) (w : hier) (to_visit visited : list nat) : res (list nat) :=
  match to_visit with
  | [] => Ok []
  | c :: q =>
      match fuel with
      | O => Err OutOfFuel
      | S f =>
          match visit f w (q ++ filter (fun b => negb (seen b (c :: visited))) (bases w c)) (c :: visited) with
          | Ok l => Ok (c :: l)
          | Err e => Err e
          end
      end
  end.
(** Enough fuel: the number of ways up from a class. *)
Fixpoint sum (l : list nat) : nat := match l with [] => 0 | x :: r => x + sum r end.
Fixpoint ways (fuel : nat) (w : hier) (i : nat) : nat :=
  match fuel with
  | O => 1
  | S f => 1 + sum (map (ways f w) (bases w i))
  end.
Definition get_mro (w : hier) (i : nat) : res (list nat) := visit (ways (S i) w i) w [i] [].

(** cppclass.py:1032-1037.  Simplification: [other] is a class. *)
Definition is_subclass (w : hier) (i other : nat) : res bool :=
  match get_mro w i with Ok l => Ok (existsb (Nat.eqb other) l) | Err e => Err e end.

(** ** What is inherited through the resolution order *)
(** The classes of an order. *)
Definition classes (w : hier) (l : list nat) : list cls :=
  flat_map (fun i => match nth_error w i with Some k => [k] | None => [] end) l.
Definition mro_classes (i : nat) : st hier (list cls) := fun w =>
  (w, match get_mro w i with Ok l => Ok (classes w l) | Err e => Err e end).

(** cppclass.py:1050-1059 _get_all_helper_class_hooks *)
Definition all_hooks (l : list cls) : list nat := fold_left (fun acc k => k_hooks k ++ acc) l [].

(** cppclass.py:1080-1093 get_instance_creation_function, get_post_instance_creation_function.  After the loop [cls] is the
    last class of the order. *)
Inductive creation : Type := CustomCreation (n : nat) | PolicyCreation (p : nat) | DefaultCreation.
Fixpoint instance_creation (l : list cls) : creation :=
  match l with
  | [] => DefaultCreation (* not reached: an order is not empty *)
  | k :: r =>
      match k_creation k with
      | Some n => CustomCreation n
      | None => match r with
                | [] => match k_policy k with Some p => PolicyCreation p | None => DefaultCreation end
                | _ => instance_creation r
                end
      end
  end.
Fixpoint post_creation (l : list cls) : option nat :=
  match l with
  | [] => None
  | k :: r => match k_post k with Some n => Some n | None => post_creation r end
  end.

(** cppclass.py:1296-1306 get_type_narrowing_root; 'parent' is the first base. *)
Definition first_parent (w : hier) (i : nat) : option nat := match bases w i with b :: _ => Some b | [] => None end.
Fixpoint climb (fuel : nat) (w : hier) (i : nat) : res nat :=
  match fuel with
  | O => Err OutOfFuel
  | S f => match first_parent w i with
           | Some b => if narrowing_of w b then climb f w b else Ok i
           | None => Ok i
           end
  end.
Definition type_narrowing_root (w : hier) (i : nat) : res (option nat) :=
  if narrowing_of w i then match climb (S i) w i with Ok r => Ok (Some r) | Err e => Err e end else Ok None.

(** cppclass.py:1801-1810 _get_wrapper_registry: the class whose registry is used *)
Fixpoint registry_owner (fuel : nat) (w : hier) (i : nat) : res nat :=
  match fuel with
  | O => Err OutOfFuel
  | S f => match first_parent w i with Some b => registry_owner f w b | None => Ok i end
  end.
Definition wrapper_registry (w : hier) (i : nat) : res nat := registry_owner (S i) w i.

(** ** Pure virtual methods: cppclass.py:980-1029 *)
Definition get_all_methods (k : cls) : list method := flat_map snd (k_methods k) ++ k_nonpublic k.
(** The CppMethods among get_all_methods and _dummy_methods. *)
Definition cpp_methods (k : cls) : list method := filter (fun m => negb (mt_function m)) (get_all_methods k ++ k_dummy k).

(** cppclass.py:1011-1023: in each child class the first virtual method with the same signature decides. *)
Definition implemented_in (m : method) (k : cls) : bool :=
  match find (fun c => mt_virtual c && matches_signature c m) (cpp_methods k) with
  | Some c => negb (mt_pure c)
  | None => false
  end.
(** [l] is mro_reversed from some position on. *)
Fixpoint unimplemented (l : list cls) : bool :=
  match l with
  | [] => false
  | k :: children => existsb (fun m => mt_pure m && negb (existsb (implemented_in m) children)) (cpp_methods k) || unimplemented children
  end.
Definition have_pure_virtual_methods (i : nat) : st hier bool :=
  k <~ get_cls i ;;
  match k_pure k with
  | Some b => ret b
  | None => l <~ mro_classes i ;;
            update i (with_pure (Some (unimplemented (rev l)))) ;~
            ret (unimplemented (rev l))
  end.

(** cppclass.py:1114-1122 get_construct_name: the class itself, or CodeGenerationError *)
Definition nonempty (s : string) : bool := negb (String.eqb s "").
Definition get_construct_name (i : nat) : st hier unit :=
  k <~ get_cls i ;;
  if nonempty (k_cannot k) then raise CodeGenerationError else
    b <~ have_pure_virtual_methods i ;;
    if b : bool then raise CodeGenerationError else ret tt.

(** ** Helper classes *)
(** cppclass.py:1283-1294 get_helper_class.  Simplification: the include added to the module is not modelled. *)
Definition get_helper_class (i : nat) : st hier (option helper) :=
  l <~ mro_classes i ;;
  k <~ get_cls i ;;
  if existsb k_disabled l then ret None
  else if negb (k_subclassing k) then ret None
  else match k_helper k with
       | Some h => ret (Some h)
       | None => if k_singleton k then ret None
                 else let h := mk_helper [] false in update i (with_helper (Some h)) ;~ ret (Some h)
       end.

(** cppclass.py:285-311 add_virtual_method; [dummy]: isinstance(method, CppDummyMethod) *)
Definition add_virtual_method (dummy : bool) (m : method) (h : helper) : helper :=
  if existsb (fun e => matches_signature m e) (hp_virtuals h) then h
  else if dummy then (if mt_pure m then mk_helper (hp_virtuals h) true else h)
  else mk_helper (hp_virtuals h ++ [m]) (hp_cannot h).

(** cppclass.py:1511-1516 *)
Definition add_to_helper (i : nat) (dummy : bool) (m : method) : st hier unit :=
  update i (with_pure None) ;~
  o <~ get_helper_class i ;;
  match o with
  | None => ret tt
  | Some h =>
      let h' := add_virtual_method dummy m h in
      update i (with_helper (Some h')) ;~
      if dummy && hp_cannot h' then update i (with_helper None) ;~ update i (with_disabled true) else ret tt
  end.

(** cppclass.py:1427-1516 _add_method_obj.  Protected methods that are not virtual are only given to the helper class (a
    parent caller, not modelled).  Simplification: the methods of one name are one list (OverloadedWrapper.wrappers). *)
Fixpoint add_overload (d : dict (list method)) (n : string) (m : method) : dict (list method) :=
  match d with
  | [] => [(n, [m])]
  | (k, l) :: r => if String.eqb k n then (k, l ++ [m]) :: r else (k, l) :: add_overload r n m
  end.
Definition add_method_obj (i : nat) (m : method) : st hier unit :=
  k <~ get_cls i ;;
  (if is_protected (mt_vis m) && negb (mt_virtual m) then
     _ <~ get_helper_class i ;; ret tt
   else if is_public (mt_vis m) then update i (with_methods (add_overload (k_methods k) (mt_name m) m))
   else update i (with_nonpublic (k_nonpublic k ++ [m]))) ;~
  if mt_virtual m then add_to_helper i false m else ret tt.

(** The arguments of add_method.  [md_wrappable]: the types are known; if not, CppMethod(...) raises SkipWrapper (the error
    handler having accepted the error). *)
Record mdecl : Type := mk_mdecl {
  md_name : string; md_ctypes : list string; md_const : bool; md_virtual : option bool; md_pure : bool; md_vis : visibility;
  md_wrappable : bool }.
(** cppmethod.py:79-80: is_virtual defaults to is_pure_virtual *)
Definition method_of (d : mdecl) : method :=
  mk_method (md_name d) (md_ctypes d) (md_const d) (match md_virtual d with Some b => b | None => md_pure d end) (md_pure d) (md_vis d) false.

(** cppclass.py:1518-1575 add_method.  Simplification: the deprecated forms taking a method object are not modelled. *)
Definition add_method (i : nat) (d : mdecl) : st hier bool :=
  if md_wrappable d then add_method_obj i (method_of d) ;~ ret true
  else
    (match md_virtual d with
     | Some true =>
         k <~ get_cls i ;;
         update i (with_dummy (k_dummy k ++ [method_of d])) ;~
         add_to_helper i true (method_of d)
     | _ => ret tt
     end) ;~ ret false.

(** cppclass.py:1577-1588 add_function_as_method: never virtual (1443-1446) *)
Definition add_function_as_method (i : nat) (name : string) : st hier unit :=
  add_method_obj i (mk_method name [] false false false Public true).

(** ** Generation *)
Section Generation.
  (** Whether the code of the virtual proxy of a method can be generated (if not, the error handler accepts the error). *)
  Variable proxy_ok : method -> bool.

  (** cppclass.py:1787-1799 _inherit_helper_class_parent_virtuals, for the classes after the first of the order *)
  Definition inherit_virtuals (h : helper) (l : list cls) : helper :=
    fold_left (fun h m => add_virtual_method false m h) (filter mt_virtual (flat_map get_all_methods l)) h.

  (** cppclass.py:358-367 and 446-465: the proxies are tried; a failure for a pure virtual method makes the helper class
      impossible.  Result: the proxies the helper class declares. *)
  Definition helper_proxies (h : helper) : option (list method) :=
    if existsb (fun m => mt_pure m && negb (proxy_ok m)) (hp_virtuals h) then None
    else Some (filter proxy_ok (hp_virtuals h)).

  (** cppclass.py:1854-1864, the part of generate_forward_declarations about the helper class; the answer is the list of
      proxies declared in the helper class, if there is one, and the hooks called.  Simplifications: hooks do not change the
      helper class; the class is not imported. *)
  Definition generate_forward (i : nat) : st hier (option (list method) * list nat) :=
    k <~ get_cls i ;;
    a <~ match k_helper k with
         | None => ret (None, [])
         | Some h =>
             l <~ mro_classes i ;;
             let h' := inherit_virtuals h (tl l) in
             match helper_proxies h', hp_cannot h' with
             | Some proxies, false => update i (with_helper (Some h')) ;~ ret (Some proxies, all_hooks l)
             | _, _ => update i (with_helper None) ;~ update i (with_disabled true) ;~ ret (None, all_hooks l)
             end
         end ;;
    b <~ have_pure_virtual_methods i ;;
    k' <~ get_cls i ;;
    (if b && match k_helper k' with None => true | Some _ => false end
     then update i (with_cannot "have pure virtual methods but no helper class") else ret tt) ;~
    ret a.

  (** What 'new' is applied to in the code of a constructor: the class, its helper class, or nothing (TypeError). *)
  Inductive made : Type := MClass | MHelper | MNothing.
  (** What the code of a constructor creates for an instance of a Python subclass, and for one of the class itself. *)
  Record ctor_code : Type := mk_ctor_code { cc_subclass : made; cc_exact : made }.

  (** cppmethod.py:644-700 and 720-729: generate of a constructor.  Simplification: the creation function does not raise
      (default_instance_creation_function raises for incomplete types). *)
  Definition generate_constructor (i : nat) (v : visibility) : st hier ctor_code :=
    k <~ get_cls i ;;
    match v, k_helper k with
    | Private, _ => raise SkipWrapper
    | Protected, None => raise SkipWrapper
    | _, None => get_construct_name i ;~ ret (mk_ctor_code MClass MClass)
    | _, Some _ =>
        ok <~ (if is_public v then
                 try_except (get_construct_name i ;~ ret true)
                   (fun e => if exc_eq_dec e CodeGenerationError then ret false else raise e)
               else ret false) ;;
        ret (mk_ctor_code MHelper (if ok : bool then MClass else MNothing))
    end.

  (** cppclass.py:2250-2252: whether constructors are generated at all, or the 'no constructor' function. *)
  Definition constructors_enabled (k : cls) : bool :=
    negb (nonempty (k_cannot k)) || match k_helper k with Some h => negb (hp_cannot h) | None => false end.
End Generation.

(** ** Scripts *)
Inductive hcall : Type :=
| HClass (d : cdecl)
| HMethod (i : nat) (d : mdecl)
| HFunction (i : nat) (name : string)
| HHook (i n : nat)
| HCreation (i n : nat)
| HPost (i n : nat)
| HDisable (i : nat) (b : bool)
| HCannot (i : nat) (reason : string)
| HPure (i : nat)                     (* have_pure_virtual_methods *)
| HForward (i : nat)                  (* generation of the forward declarations *)
| HConstructor (i : nat) (v : visibility).
Inductive hanswer : Type :=
| RClass (i : nat)
| RBool (b : bool)
| RProxies (l : option (list method))
| RCtor (c : ctor_code)
| RNothing.

Section Run.
  Variables default_narrowing default_subclassing : bool.
  Variable proxy_ok : method -> bool.
  Definition run_hcall (c : hcall) : st hier hanswer :=
    match c with
    | HClass d => i <~ new_class default_narrowing default_subclassing d ;; ret (RClass i)
    | HMethod i d => b <~ add_method i d ;; ret (RBool b)
    | HFunction i n => add_function_as_method i n ;~ ret RNothing
    | HHook i n => k <~ get_cls i ;; update i (with_hooks (k_hooks k ++ [n])) ;~ ret RNothing
    | HCreation i n => _ <~ get_cls i ;; update i (with_creation (Some n)) ;~ ret RNothing
    | HPost i n => _ <~ get_cls i ;; update i (with_post (Some n)) ;~ ret RNothing
    | HDisable i b => _ <~ get_cls i ;; update i (with_disabled b) ;~ ret RNothing
    | HCannot i s => _ <~ get_cls i ;; update i (with_cannot s) ;~ ret RNothing
    | HPure i => b <~ have_pure_virtual_methods i ;; ret (RBool b)
    | HForward i => a <~ generate_forward proxy_ok i ;; ret (RProxies (fst a))
    | HConstructor i v => c <~ generate_constructor i v ;; ret (RCtor c)
    end.
  (** A script goes on after a failed call. *)
  Fixpoint hscript (cs : list hcall) (w : hier) : hier * list (hcall * res hanswer) :=
    match cs with
    | [] => (w, [])
    | c :: r => let x := run_hcall c w in let y := hscript r (fst x) in (fst y, (c, snd x) :: snd y)
    end.
End Run.
