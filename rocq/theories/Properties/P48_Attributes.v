(** C48: attributes of wrapped classes. *)
From Verif.Model Require Import Py Attributes.
From Verif.Spec Require Import AttributeSpec.
From Verif.Proofs Require Import StrLemmas AttributeProofs AttributeRun.
From Coq Require Import Lia.
Open Scope string_scope.
Open Scope list_scope.

(** A declaration is refused (AssertionError) exactly when it is constant and has a setter. *)
Theorem C48_declared decls : Forall2 (fun d a => (acceptable d -> a = Ok tt) /\ (~ acceptable d -> a = Err AssertionError)) decls (snd (declare_all decls no_attrs)).
Proof.
  destruct (declare_all_spec decls no_attrs) as (_ & -> & _ & _). induction decls as [|d l IH]; cbn [map]; constructor; [|exact IH].
  rewrite <- accept_spec. destruct (accept d); split; congruence.
Qed.

(** Code is generated, and compiles: every declaration has its own ReturnValue, names are different, values can be converted. *)
Theorem C48_generates decls order pystruct get_fails set_fails handler :
  unshared decls -> NoDup order -> distinct_names decls -> unambiguous pystruct order ->
  (forall d, In d decls -> get_fails (type_of d) = None /\ (read_only d \/ set_fails (type_of d) = None)) ->
  exists funs tabs, generate pystruct get_fails set_fails handler decls order = Ok (funs, tabs) /\ compiles funs = true.
Proof.
  intros U N D A C. destruct (generates decls order pystruct get_fails set_fails handler U N) as [[funs tabs] G].
  - intros k Hk. split; [now apply names_in_class|]. intros d H. apply in_mine in H. destruct H as [H _]. apply filter_In in H. destruct (C d (proj1 H)) as [C1 C2]. split.
    + rewrite type_of_d in C1. unfold get_error. rewrite C1. exact Logic.I.
    + intros F. destruct C2 as [C2|C2]; [apply read_only_d in C2; congruence|]. rewrite type_of_d in C2. rewrite C2. exact Logic.I.
  - exists funs, tabs. split; [exact G|]. destruct (generated decls order pystruct get_fails set_fails handler funs tabs U N G) as (-> & _ & _). now apply all_compile.
Qed.
(** With an error handler that skips, conversions that are not supported do not stop the generation. *)
Theorem C48_generates_skipping decls order pystruct get_fails set_fails :
  unshared decls -> NoDup order -> distinct_names decls -> unambiguous pystruct order ->
  (forall d e, In d decls -> get_fails (type_of d) = Some e -> In e [TypeConfigurationError; CodeGenerationError; NotSupportedError; NotImplementedError]) ->
  (forall d e, In d decls -> set_fails (type_of d) = Some e -> In e [TypeConfigurationError; CodeGenerationError; NotSupportedError]) ->
  exists funs tabs, generate pystruct get_fails set_fails (Some true) decls order = Ok (funs, tabs) /\ compiles funs = true.
Proof.
  intros U N D A C1 C2. destruct (generates decls order pystruct get_fails set_fails (Some true) U N) as [[funs tabs] G].
  - intros k Hk. split; [now apply names_in_class|]. intros d H. apply in_mine in H. destruct H as [H _]. apply filter_In in H. specialize (C1 d). specialize (C2 d). rewrite type_of_d in *. split.
    + unfold get_error. destruct (get_fails (d_vt d)) as [e|]; [|exact Logic.I]. destruct (C1 e (proj1 H) eq_refl) as [<-|[<-|[<-|[<-|[]]]]]; reflexivity.
    + intros _. destruct (set_fails (d_vt d)) as [e|]; [|exact Logic.I]. destruct (C2 e (proj1 H) eq_refl) as [<-|[<-|[<-|[]]]]; reflexivity.
  - exists funs, tabs. split; [exact G|]. destruct (generated decls order pystruct get_fails set_fails (Some true) funs tabs U N G) as (-> & _ & _). now apply all_compile.
Qed.
(** Two instance attributes, or two static ones, of one class with the same C++ name are never accepted. *)
Theorem C48_duplicates decls order pystruct get_fails set_fails handler funs tabs l1 d l2 e l3 :
  unshared decls -> NoDup order -> generate pystruct get_fails set_fails handler decls order = Ok (funs, tabs) ->
  decls = l1 ++ d :: l2 ++ e :: l3 -> acceptable d -> acceptable e -> (is_static d <-> is_static e) -> class_of d = class_of e -> In (class_of d) order -> cpp_name_of d <> cpp_name_of e.
Proof.
  intros U N G E Ad Ae S C K Nm. destruct (generated decls order pystruct get_fails set_fails handler funs tabs U N G) as (_ & _ & X). destruct (X _ K) as [[D1 D2] _].
  assert (S' : d_static d = d_static e). { rewrite !static_of_d in S. destruct (d_static d), (d_static e); intuition congruence. }
  assert (D : NoDup (map d_name (filter (of_class (class_of d) (d_static d)) (filter accept decls)))) by (destruct (d_static d); assumption). clear D1 D2.
  rewrite E in D. rewrite !filter_app in D. cbn [filter] in D. rewrite (proj2 (accept_spec d) Ad) in D. cbn [filter] in D. rewrite !filter_app in D. cbn [filter] in D. rewrite (proj2 (accept_spec e) Ae) in D. cbn [filter] in D.
  assert (Cd : of_class (class_of d) (d_static d) d = true) by (apply of_class_spec; split; [destruct d|]; reflexivity). assert (Ce : of_class (class_of d) (d_static d) e = true) by (apply of_class_spec; split; [rewrite C; destruct e; reflexivity|congruence]).
  rewrite Cd, Ce in D. rewrite map_app in D. cbn [map] in D. apply NoDup_remove_2 in D. apply D. apply in_or_app. right. rewrite map_app. apply in_or_app. right. left. symmetry. exact Nm.
Qed.

Section Run.
  Variables (decls : list adecl) (order : list nat) (pystruct : nat -> string) (get_fails set_fails : nat -> option pyexc) (handler : option bool).
  Variables (funs : list (string * cfun)) (tabs : list (nat * tables)).
  Variables (St Val Py Obj : Type) (P : program St Val Py Obj) (parents : nat -> list nat) (methods : nat -> list string).
  Definition built : Prop := unshared decls /\ NoDup order /\ generate pystruct get_fails set_fails handler decls order = Ok (funs, tabs) /\ compiles funs = true /\ ordered parents /\ forall d, In d decls -> In (class_of d) order.
  Notation read := (read P parents methods funs tabs).
  Notation write := (write P parents methods funs tabs).
  Notation static_read := (static_read P parents methods funs tabs).
  Notation static_write := (static_write P parents funs tabs).

  (** Reading an attribute of an instance of class [i] gives the value of the member, method or function that the declaration of
      the nearest class names, converted by the declared type. *)
  Theorem C48_read i o n d s : built -> nearest decls parents methods i n (class_of d) -> first_line parents i (class_of d) -> mro parents i <> None ->
    the_attribute decls methods d n -> get_fails (type_of d) = None -> reads P d o s (read i o n s).
  Proof.
    intros (U & N & G & C & W & K) Nr F M Th Gf. assert (H : In d decls) by (destruct Th as (_ & _ & _ & _ & b & a & -> & _); apply in_elt). unfold Attributes.read.
    rewrite (with_row_found decls order pystruct get_fails set_fails handler funs tabs U N G parents methods W d n i _ Nr Th (K d H) M).
    pose proof (get_row_spec decls order pystruct get_fails set_fails handler funs tabs U N G C P parents W d i o s H) as X. rewrite Gf in X. apply X; [apply Th|now apply K|now right].
  Qed.
  (** Writing converts by the declared type (TypeError if it cannot), and stores through the member, method or function. *)
  Theorem C48_write i o n d x s : built -> nearest decls parents methods i n (class_of d) -> first_line parents i (class_of d) -> mro parents i <> None ->
    the_attribute decls methods d n -> ~ read_only d -> set_fails (type_of d) = None -> writes P d o x s (write i o n (Some x) s).
  Proof.
    intros (U & N & G & C & W & K) Nr F M Th R Gf. assert (H : In d decls) by (destruct Th as (_ & _ & _ & _ & b & a & -> & _); apply in_elt). unfold Attributes.write.
    rewrite (with_row_found decls order pystruct get_fails set_fails handler funs tabs U N G parents methods W d n i _ Nr Th (K d H) M).
    pose proof (set_row_spec decls order pystruct get_fails set_fails handler funs tabs U N G C P parents W d i o x s H) as X. rewrite Gf in X. apply X; [apply Th|now apply K|now right|exact R].
  Qed.
  (** A constant attribute cannot be written or deleted. *)
  Theorem C48_read_only i o n d x s : built -> nearest decls parents methods i n (class_of d) -> mro parents i <> None ->
    the_attribute decls methods d n -> read_only d -> write i o n x s = Raised AttributeError.
  Proof.
    intros (U & N & G & C & W & K) Nr M Th R. assert (H : In d decls) by (destruct Th as (_ & _ & _ & _ & b & a & -> & _); apply in_elt). unfold Attributes.write.
    rewrite (with_row_found decls order pystruct get_fails set_fails handler funs tabs U N G parents methods W d n i _ Nr Th (K d H) M). now apply set_row_const.
  Qed.
  (** An attribute whose conversion was skipped is there, but cannot be read or written. *)
  Theorem C48_skipped i o n d x s : built -> nearest decls parents methods i n (class_of d) -> first_line parents i (class_of d) -> mro parents i <> None -> the_attribute decls methods d n ->
    (get_fails (type_of d) <> None -> read i o n s = Raised AttributeError) /\ (set_fails (type_of d) <> None -> write i o n (Some x) s = Raised AttributeError).
  Proof.
    intros B Nr F M Th. pose proof B as (U & N & G & C & W & K). assert (H : In d decls) by (destruct Th as (_ & _ & _ & _ & b & a & -> & _); apply in_elt). unfold Attributes.read, Attributes.write. split; intros Gf.
    - rewrite (with_row_found decls order pystruct get_fails set_fails handler funs tabs U N G parents methods W d n i _ Nr Th (K d H) M).
      pose proof (get_row_spec decls order pystruct get_fails set_fails handler funs tabs U N G C P parents W d i o s H) as X. destruct (get_fails (type_of d)); [|congruence]. apply X; [apply Th|now apply K|now right].
    - destruct (d_const d) eqn:R; [apply (C48_read_only i o n d (Some x) s B Nr M Th); now apply read_only_d|].
      rewrite (with_row_found decls order pystruct get_fails set_fails handler funs tabs U N G parents methods W d n i _ Nr Th (K d H) M).
      pose proof (set_row_spec decls order pystruct get_fails set_fails handler funs tabs U N G C P parents W d i o x s H) as X. destruct (set_fails (type_of d)); [|congruence]. apply X; [apply Th|now apply K|now right|rewrite read_only_d; congruence].
  Qed.
  (** A name that no class of the instance offers is not there. *)
  Theorem C48_absent i o n x s : built -> mro parents i <> None -> (forall j, ancestor parents i j -> ~ offers decls methods j n) ->
    read i o n s = Raised AttributeError /\ write i o n x s = Raised AttributeError.
  Proof.
    intros (U & N & G & C & W & K) M A. unfold Attributes.read, Attributes.write, with_row. destruct (mro parents i) as [l|] eqn:E; [|congruence].
    rewrite (not_in_types decls order pystruct get_fails set_fails handler funs tabs U N G methods n l); [auto|]. intros j Hj. apply A. now apply (mro_ancestors parents W i l E).
  Qed.

  (** Static attributes are attributes of the class object, and of the classes that have it as a first parent. *)
  Theorem C48_static_read i o n d s : built -> nearest_static decls parents i n (class_of d) -> the_static decls d n -> get_fails (type_of d) = None -> reads P d o s (static_read i o n s).
  Proof.
    intros (U & N & G & C & W & K) (l & F & Q) Th Gf. assert (H : In d decls) by apply Th. unfold Attributes.static_read. destruct (line_first parents W i l _ F) as [r ->].
    rewrite (found_in_metatypes decls order pystruct get_fails set_fails handler funs tabs U N G d n l r Th (K d H) Q).
    pose proof (get_row_spec decls order pystruct get_fails set_fails handler funs tabs U N G C P parents W d i o s H) as X. rewrite Gf in X. apply X; [apply Th|now apply K|left; apply Th].
  Qed.
  Theorem C48_static_write i o n d x s : built -> nearest_static decls parents i n (class_of d) -> the_static decls d n -> ~ read_only d -> set_fails (type_of d) = None -> writes P d o x s (static_write i o n (Some x) s).
  Proof.
    intros (U & N & G & C & W & K) (l & F & Q) Th R Gf. assert (H : In d decls) by apply Th. unfold Attributes.static_write. destruct (line_first parents W i l _ F) as [r ->].
    rewrite (found_in_metatypes decls order pystruct get_fails set_fails handler funs tabs U N G d n l r Th (K d H) Q).
    pose proof (set_row_spec decls order pystruct get_fails set_fails handler funs tabs U N G C P parents W d i o x s H) as X. rewrite Gf in X. apply X; [apply Th|now apply K|left; apply Th|exact R].
  Qed.
  Theorem C48_static_read_only i o n d x s : built -> nearest_static decls parents i n (class_of d) -> the_static decls d n -> read_only d -> static_write i o n x s = Raised AttributeError.
  Proof.
    intros (U & N & G & C & W & K) (l & F & Q) Th R. assert (H : In d decls) by apply Th. unfold Attributes.static_write. destruct (line_first parents W i l _ F) as [r ->].
    rewrite (found_in_metatypes decls order pystruct get_fails set_fails handler funs tabs U N G d n l r Th (K d H) Q). now apply set_row_const.
  Qed.
End Run.
Print Assumptions C48_declared.
Print Assumptions C48_generates.
Print Assumptions C48_generates_skipping.
Print Assumptions C48_duplicates.
Print Assumptions C48_read.
Print Assumptions C48_write.
Print Assumptions C48_read_only.
Print Assumptions C48_skipped.
Print Assumptions C48_absent.
Print Assumptions C48_static_read.
Print Assumptions C48_static_write.
Print Assumptions C48_static_read_only.

(** ** A case *)
(** One object; its members, and what its methods and functions see, are integers by class and name; values are unsigned. *)
Definition state : Type := list (nat * string * Z).
Definition get (k : nat) (n : string) (s : state) : Z := match find (fun x => Nat.eqb (fst (fst x)) k && String.eqb (snd (fst x)) n) s with Some x => snd x | None => 0%Z end.
Definition put (k : nat) (n : string) (v : Z) (s : state) : state := (k, n, v) :: s.
Definition demo : program state Z Z unit :=
  mk_program _ _ _ _ (fun _ => get) (fun _ => put) (fun _ k g s => (get k (g ++ "()") s, put k "calls" (get k "calls" s + 1) s)) (fun _ k m => put k (m ++ "()"))
    (fun _ k g _ s => (get k g s, s)) (fun _ k f _ => put k f) get put (fun _ v => v) (fun _ x => if (x <? 0)%Z then None else Some x).
(** Class 0: Point; class 1: Widget(Point); class 2: Other; class 3: Both(Widget, Other). *)
Definition family (i : nat) : list nat := match i with 1 => [0] | 3 => [1; 2] | _ => [] end.
Definition point_methods (i : nat) : list string := match i with 0 => ["move"] | _ => [] end.
Definition names (i : nat) : string := match i with 0 => "PyPoint" | 1 => "PyWidget" | 2 => "PyOther" | _ => "PyBoth" end.
Definition fields : list adecl :=
  [AInstance 0 "x" 0 false None None None; AInstance 0 "y" 1 false (Some "GetY") (Some "SetY") (Some "height"); AInstance 0 "id" 2 true None None None;
   AInstance 0 "bad" 3 true None (Some "SetBad") None; AStatic 0 "count" 4 false; ACustom 1 "area" 5 false "get_area" (Some "set_area") None ["int"] [];
   AStatic 1 "limit" 6 true; AInstance 2 "z" 7 false None None None; AStatic 2 "total" 8 false].
Definition all_ok (vt : nat) : option pyexc := None.
Definition result := generate names all_ok all_ok None fields [0; 1; 2; 3].
Definition the_funs := match result with Ok x => fst x | Err _ => [] end.
Definition the_tabs := match result with Ok x => snd x | Err _ => [] end.
Example fields_built : built fields [0; 1; 2; 3] names all_ok all_ok None the_funs the_tabs family.
Proof.
  split; [|split; [|split; [|split; [|split]]]].
  - unfold unshared. vm_compute. repeat constructor; cbn; intuition lia.
  - repeat constructor; cbn; intuition lia.
  - vm_compute. reflexivity.
  - vm_compute. reflexivity.
  - intros [|[|[|[|i]]]] b H; cbn in H; intuition lia.
  - intros d H. cbn in H. repeat (destruct H as [<-|H]; [cbn; tauto|]). destruct H.
Qed.
Example fields_distinct : distinct_names fields.
Proof.
  intros l1 d l2 e l3 E _ _ C N. assert (X : NoDup (map (fun d => (class_of d, cpp_name_of d)) fields)) by (vm_compute; repeat constructor; cbn; intuition discriminate).
  rewrite E, map_app in X. cbn [map] in X. apply NoDup_remove_2 in X. apply X. apply in_or_app. right. rewrite map_app. apply in_or_app. right. left. now rewrite C, N.
Qed.
Example names_unambiguous : unambiguous names [0; 1; 2; 3].
Proof. intros i j Hi Hj N. cbn in Hi, Hj. destruct Hi as [<-|[<-|[<-|[<-|[]]]]], Hj as [<-|[<-|[<-|[<-|[]]]]]; try congruence; (split; [discriminate|intros x E; discriminate E]). Qed.
Example x_of_a_widget : nearest fields family point_methods 1 "x" 0 /\ first_line family 1 0 /\ mro family 1 <> None /\ the_attribute fields point_methods (AInstance 0 "x" 0 false None None None) "x".
Proof.
  split; [|split; [|split]].
  - left. exists [1]. split; [econstructor; [reflexivity|constructor]|]. intros j [<-|[]]. split; [reflexivity|]. intros [[]|(d & H & _ & _ & C & Nm)]. cbn in H. repeat (destruct H as [<-|H]; [cbn in C, Nm; discriminate|]). destruct H.
  - exists [1]. econstructor; [reflexivity|constructor].
  - discriminate.
  - split; [cbn; tauto|]. split; [intros [X _]; discriminate X|]. split; [reflexivity|]. split; [cbn; intuition discriminate|]. exists [], (tl fields). split; [reflexivity|intros e []].
Qed.
Example runs : let s0 := [(0, "x", 7%Z); (0, "GetY()", 9%Z); (0, "count", 5%Z); (1, "get_area", 30%Z)] in
  read demo family point_methods the_funs the_tabs 1 tt "x" s0 = Done 7%Z s0 /\
  write demo family point_methods the_funs the_tabs 1 tt "x" (Some 8%Z) s0 = Stored (put 0 "x" 8 s0) /\
  write demo family point_methods the_funs the_tabs 1 tt "x" (Some (-1)%Z) s0 = Raised TypeError /\
  read demo family point_methods the_funs the_tabs 3 tt "height" s0 = Done 9%Z (put 0 "calls" 1 s0) /\
  write demo family point_methods the_funs the_tabs 3 tt "height" (Some 4%Z) s0 = Stored (put 0 "SetY()" 4 s0) /\
  write demo family point_methods the_funs the_tabs 0 tt "id" (Some 4%Z) s0 = Raised AttributeError /\
  read demo family point_methods the_funs the_tabs 0 tt "bad" s0 = Raised AttributeError /\
  read demo family point_methods the_funs the_tabs 1 tt "area" s0 = Done 30%Z s0 /\
  static_read demo family point_methods the_funs the_tabs 3 tt "count" s0 = Done 5%Z s0 /\
  static_write demo family the_funs the_tabs 3 tt "count" (Some 6%Z) s0 = Stored (put 0 "count" 6 s0) /\
  static_write demo family the_funs the_tabs 1 tt "limit" (Some 6%Z) s0 = Raised AttributeError.
Proof. vm_compute. repeat split. Qed.
Example skipping : exists funs tabs, generate names (fun v => if Nat.eqb v 2 then Some NotImplementedError else None) (fun v => if Nat.eqb v 0 then Some CodeGenerationError else None) (Some true) fields [0; 1; 2; 3] = Ok (funs, tabs) /\
  read demo family point_methods funs tabs 1 tt "id" [] = Raised AttributeError /\ write demo family point_methods funs tabs 1 tt "x" (Some 1%Z) [] = Raised AttributeError /\ read demo family point_methods funs tabs 1 tt "x" [] = Done 0%Z [].
Proof. eexists. eexists. split; [vm_compute; reflexivity|]. vm_compute. auto. Qed.

(** ** What does not hold *)
(** Attributes declared with one ReturnValue object read each other: p.x gives y and p.y gives x. *)
Theorem C48_shared_type_refuted : exists decls funs tabs s, distinct_names decls /\ generate names all_ok all_ok None decls [0] = Ok (funs, tabs) /\ compiles funs = true /\
  read demo family point_methods funs tabs 0 tt "x" s = Done (get 0 "y" s) s /\ read demo family point_methods funs tabs 0 tt "y" s = Done (get 0 "x" s) s /\ get 0 "x" s <> get 0 "y" s.
Proof.
  exists [AInstance 0 "x" 0 false None None None; AInstance 0 "y" 0 false None None None]. eexists. eexists. exists [(0, "x", 1%Z); (0, "y", 2%Z)]. split.
  - intros l1 d l2 e l3 E _ _ C Nm. destruct l1 as [|a [|b l1]]; [|destruct l2; discriminate|destruct l1; [discriminate|discriminate]]. injection E as <- E. destruct l2 as [|b l2]; [injection E as <- _; discriminate|]. destruct l2; discriminate.
  - split; [vm_compute; reflexivity|]. vm_compute. repeat split; congruence.
Qed.
(** An attribute of a second parent is read at the wrong address. *)
Theorem C48_second_parent_refuted : built fields [0; 1; 2; 3] names all_ok all_ok None the_funs the_tabs family /\ nearest fields family point_methods 3 "z" 2 /\ mro family 3 <> None /\
  the_attribute fields point_methods (AInstance 2 "z" 7 false None None None) "z" /\ forall s, read demo family point_methods the_funs the_tabs 3 tt "z" s = Undefined.
Proof.
  split; [exact fields_built|]. split; [|split; [vm_compute; congruence|split; [|reflexivity]]].
  - right. split; [apply (ancestor_up family 3 2 2); [cbn; tauto|constructor]|]. intros j _ [H|(d & H & _ & _ & C & Nm)]; [destruct j as [|[|[|[|j]]]]; cbn in H; intuition discriminate|]. cbn in H. repeat (destruct H as [<-|H]; [cbn in C, Nm; try discriminate; congruence|]). destruct H.
  - split; [cbn; tauto|]. split; [intros [X _]; discriminate X|]. split; [reflexivity|]. split; [cbn; intuition discriminate|]. exists (firstn 7 fields), [AStatic 2 "total" 8 false]. split; [reflexivity|].
    intros e H. cbn in H. repeat (destruct H as [<-|H]; [cbn; intros; (discriminate || tauto || congruence)|]). destruct H.
Qed.
(** A static attribute of a second parent is not found in the class. *)
Theorem C48_second_parent_static_refuted : built fields [0; 1; 2; 3] names all_ok all_ok None the_funs the_tabs family /\ ancestor family 3 2 /\ the_static fields (AStatic 2 "total" 8 false) "total" /\
  (forall s, static_read demo family point_methods the_funs the_tabs 2 tt "total" s = Done (get 2 "total" s) s) /\ forall s, static_read demo family point_methods the_funs the_tabs 3 tt "total" s = Raised AttributeError.
Proof. split; [exact fields_built|]. split; [apply (ancestor_up family 3 2 2); [cbn; tauto|constructor]|]. split; [|split; intros; reflexivity]. split; [exact Logic.I|]. split; [intros [X _]; discriminate X|]. split; [reflexivity|]. cbn. tauto. Qed.
(** A static attribute cannot be read from an instance. *)
Theorem C48_static_by_instance_refuted : built fields [0; 1; 2; 3] names all_ok all_ok None the_funs the_tabs family /\ the_static fields (AStatic 0 "count" 4 false) "count" /\
  forall s, read demo family point_methods the_funs the_tabs 0 tt "count" s = Raised AttributeError.
Proof. split; [exact fields_built|]. split; [|reflexivity]. split; [exact Logic.I|]. split; [intros [X _]; discriminate X|]. split; [reflexivity|]. cbn. tauto. Qed.
(** Deleting an attribute that can be written crashes. *)
Theorem C48_delete_refuted : built fields [0; 1; 2; 3] names all_ok all_ok None the_funs the_tabs family /\ forall s, write demo family point_methods the_funs the_tabs 0 tt "x" None s = Crash.
Proof. split; [exact fields_built|reflexivity]. Qed.
(** A method hides an attribute of the same name. *)
Theorem C48_method_hides_refuted : exists decls funs tabs, unshared decls /\ distinct_names decls /\ generate names all_ok all_ok None decls [0] = Ok (funs, tabs) /\ compiles funs = true /\
  forall s, read demo family point_methods funs tabs 0 tt "move" s = NotAttribute.
Proof.
  exists [AInstance 0 "move" 0 false None None None]. eexists. eexists. split; [vm_compute; repeat constructor; intros []|]. split; [|split; [vm_compute; reflexivity|split; [reflexivity|intros; reflexivity]]].
  intros l1 d l2 e l3 E. destruct l1 as [|a l1]; [destruct l2; discriminate|destruct l1; discriminate].
Qed.
(** An instance and a static attribute of one class with one name give functions of the same name. *)
Theorem C48_instance_and_static_refuted : exists decls funs tabs, unshared decls /\ generate names all_ok all_ok None decls [0] = Ok (funs, tabs) /\ compiles funs = false.
Proof. exists [AInstance 0 "x" 0 true None None None; AStatic 0 "x" 1 true]. eexists. eexists. split; [vm_compute; repeat constructor; cbn; intuition lia|]. split; [vm_compute; reflexivity|reflexivity]. Qed.
(** A conversion to C that is not implemented stops the generation even if the error handler would skip it. *)
Theorem C48_not_implemented_refuted : exists decls, unshared decls /\ generate names all_ok (fun _ => Some NotImplementedError) (Some true) decls [0] = Err NotImplementedError /\
  exists x, generate names (fun _ => Some NotImplementedError) all_ok (Some true) decls [0] = Ok x.
Proof. exists [AInstance 0 "x" 0 false None None None]. split; [vm_compute; repeat constructor; intros []|]. split; [reflexivity|]. eexists. vm_compute. reflexivity. Qed.
(** Of two attributes with one custom name the second is lost. *)
Theorem C48_same_custom_name_refuted : exists decls funs tabs s, unshared decls /\ distinct_names decls /\ generate names all_ok all_ok None decls [0] = Ok (funs, tabs) /\ compiles funs = true /\
  read demo family point_methods funs tabs 0 tt "v" s = Done (get 0 "x" s) s /\ read demo family point_methods funs tabs 0 tt "y" s = Raised AttributeError.
Proof.
  exists [AInstance 0 "x" 0 false None None (Some "v"); AInstance 0 "y" 1 false None None (Some "v")]. eexists. eexists. exists []. split; [vm_compute; repeat constructor; cbn; intuition lia|]. split.
  - intros l1 d l2 e l3 E _ _ C Nm. destruct l1 as [|a [|b l1]]; [|destruct l2; discriminate|destruct l1; [discriminate|discriminate]]. injection E as <- E. destruct l2 as [|b l2]; [injection E as <- _; discriminate|]. destruct l2; discriminate.
  - split; [vm_compute; reflexivity|]. vm_compute. repeat split.
Qed.
