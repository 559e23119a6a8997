(** C44: the methods of a wrapped class, its own and the inherited ones, and the objects they are called on. *)
From Verif.Model Require Import Py PyState Hierarchy MethodTable.
From Verif.Spec Require Import HierarchySpec MethodTableSpec.
From Verif.Proofs Require Import HierarchyTop TableTop TableLookup TableOrder.
Open Scope string_scope.
Open Scope list_scope.

(** A script [cs] declares the classes and methods; then the tables of the classes in [order] are generated.
    [ok]: there is code for the wrapper of a method; [callers], [copyable]: see the model. *)
Section Statements.
  Variables (narrow sub : bool) (proxy ok : method -> bool) (callers : nat -> list string) (copyable : nat -> bool).
  Variables (cs : list hcall) (order : list nat).
  Let result := hscript narrow sub proxy cs [].
  Let classes := fst result.
  Let answers := snd result.
  Let parents := declared_parents answers.
  Let tables := generate_tables ok callers copyable order classes.
  (** No functions as methods; every class is generated once. *)
  Definition generated_once : Prop :=
    (forall j n, ~ In (HFunction j n) cs) /\ NoDup order /\ forall c, In c order -> c < length classes.

  (** The public methods a class declares are in its table: under each name, the wrappers of all of them for which there is
      code, in the order of their declarations. *)
  Theorem C44_own i n : generated_once -> In i order -> ~ In n slot_names -> filter ok (public_methods answers i n) <> [] ->
    table_get (table_of tables i) n = Some (TWrappers (map (fun m => mk_wrapper m i) (filter ok (public_methods answers i n)))).
  Proof. rewrite <- special_slots. intros (NF & ND & IN). exact (own_ok narrow sub proxy ok callers copyable cs NF order ND IN i n). Qed.

  (** A class with several parents has wrappers of its own for what it inherits: if it does not declare [n] and only one of
      the classes above it does, its table has the public methods that class declares, except those it hides itself.  (If a
      class can be reached on several ways up, they may be there several times.) *)
  Theorem C44_inherited i n a m : generated_once -> In i order -> several answers i -> ~ In n slot_names ->
    ~ offers answers i n -> above answers i a -> (forall b, above answers i b -> offers answers b n -> b = a) -> ~ In n (callers i) ->
    In m (public_methods answers a n) -> ok m = true -> ~ hides answers i m ->
    exists keep k, (forall m, keep m = true <-> ~ hides answers i m) /\ 1 <= k /\ (NoDup (levels parents i i) -> k = 1) /\
      table_get (table_of tables i) n =
        Some (TWrappers (concat (repeat (map (fun m => mk_wrapper m a) (filter (fun m => ok m && keep m) (public_methods answers a n))) k))).
  Proof. rewrite <- special_slots. intros (NF & ND & IN). exact (inherited_ok narrow sub proxy ok callers copyable cs NF order ND IN i n a m). Qed.

  (** Nothing else is in a table: the wrappers of an entry are those of the methods the class declares, or, in a class with
      several parents that does not declare the name, wrappers of public methods of the classes above, all taken from one of
      them, and none that the class hides. *)
  Theorem C44_only i n l : generated_once -> In (n, TWrappers l) (table_of tables i) ->
    In i order /\ ~ In n slot_names /\ l <> [] /\
    (l = map (fun m => mk_wrapper m i) (filter ok (public_methods answers i n)) \/
     several answers i /\ ~ offers answers i n /\ exists a, above answers i a /\ forall x, In x l ->
       wr_class x = a /\ ok (wr_method x) = true /\ ~ hides answers i (wr_method x) /\
       exists b, (b = a \/ above answers a b) /\ In (wr_method x) (public_methods answers b n)).
  Proof. rewrite <- special_slots. intros (NF & ND & IN). exact (table_sound narrow sub proxy ok callers copyable cs NF order ND IN i n l). Qed.

  (** No name has two entries with wrappers. *)
  Theorem C44_once i : generated_once ->
    NoDup (map fst (filter (fun x => match snd x with TWrappers _ => true | _ => false end) (table_of tables i))).
  Proof. intros (NF & ND & IN). exact (table_once narrow sub proxy ok callers copyable cs NF order ND IN i). Qed.

  (** What a class or a class above it offers is found by Python. *)
  Theorem C44_found i n a m l : generated_once -> type_mro classes i = Some l -> ancestor parents i a -> In a order -> ~ In n slot_names ->
    In m (public_methods answers a n) -> ok m = true -> find_method tables classes i n <> None.
  Proof. rewrite <- special_slots. intros (NF & ND & IN). exact (found_ok narrow sub proxy ok callers copyable cs NF order ND IN i n a m l). Qed.

  (** Python searches the classes depth first, if none of them is reached on two ways up; so then the types can be created. *)
  Theorem C44_order i l : preorder parents i l -> NoDup l -> type_mro classes i = Some l.
  Proof. exact (order_tree narrow sub proxy cs i l). Qed.

  (** With single inheritance, the nearest class that offers the name provides the method. *)
  Theorem C44_nearest i before c after n : generated_once -> line parents i (before ++ c :: after) -> ~ In n slot_names -> n <> "__copy__" ->
    (forall b, In b before -> ~ In n (callers b)) -> In c order ->
    (forall b m, In b before -> In m (public_methods answers b n) -> ok m = false) -> (exists m, In m (public_methods answers c n) /\ ok m = true) ->
    find_method tables classes i n = Some (c, TWrappers (map (fun m => mk_wrapper m c) (filter ok (public_methods answers c n)))).
  Proof. rewrite <- special_slots. intros (NF & ND & IN). exact (line_found narrow sub proxy ok callers copyable cs NF order ND IN i before c after n). Qed.

  (** With multiple inheritance, the wrapper that Python finds for an object of class [i] is one of a class whose C++ object
      is at the same address, if there is no confusion about the name in [i] and the classes on its first line. *)
  Theorem C44_aim i n k t : generated_once -> n <> "__copy__" -> (forall c, ancestor parents i c -> In c order /\ ~ In n (callers c)) ->
    (forall x, first_line answers i x -> several answers x -> tidy answers ok x n) ->
    find_method tables classes i n = Some (k, t) -> first_line answers i k.
  Proof. intros (NF & ND & IN) Ny Ac Td. exact (aim_ok narrow sub proxy ok callers copyable cs NF order ND IN n Ny i Ac Td k t). Qed.
End Statements.

(** ** Examples and limits *)
Definition cpp (ps : option (list nat)) : hcall := HClass (mk_cdecl ps None None (Some false) false Public).
Definition has (i : nat) (n : string) (types : list string) (v : visibility) : hcall := HMethod i (mk_mdecl n types false None false v true).
Definition all_ok (m : method) : bool := true.
Definition no_callers (i : nat) : list string := [].
Definition nobody (i : nat) : bool := false.
Definition mth (n : string) (types : list string) : method := mk_method n types false false false Public false.

(** A, B, and C with parents A and B. *)
Definition diamond : list hcall :=
  [cpp None; cpp None; cpp (Some [0; 1]); has 0 "f" [] Public; has 1 "g" ["int"] Public; has 1 "g" [] Public; has 2 "h" [] Public].
Definition run_script (cs : list hcall) := hscript true true all_ok cs [].
Definition tables_of (copyable : nat -> bool) (cs : list hcall) (order : list nat) :=
  generate_tables all_ok no_callers copyable order (fst (run_script cs)).

Example two_parents : generated_once true true all_ok diamond [0; 1; 2] /\
  table_of (tables_of nobody diamond [0; 1; 2]) 2 =
    [("h", TWrappers [mk_wrapper (mth "h" []) 2]); ("f", TWrappers [mk_wrapper (mth "f" []) 0]);
     ("g", TWrappers [mk_wrapper (mth "g" ["int"]) 1; mk_wrapper (mth "g" []) 1])] /\
  find_method (tables_of nobody diamond [0; 1; 2]) (fst (run_script diamond)) 2 "g" =
    Some (2, TWrappers [mk_wrapper (mth "g" ["int"]) 1; mk_wrapper (mth "g" []) 1]) /\
  several (snd (run_script diamond)) 2 /\ tidy (snd (run_script diamond)) all_ok 2 "g".
Proof.
  split; [|split; [reflexivity|split; [reflexivity|]]].
  - split; [intros j n H; repeat (destruct H as [H|H]; [discriminate|]); destruct H|]. split.
    + repeat (constructor; [cbn; intuition discriminate|]); constructor.
    + intros c H. cbn in H. cbn. intuition; subst; auto with arith.
  - split; [apply Nat.leb_le; reflexivity|]. right. split; [intros H; apply H; reflexivity|].
    assert (Ab : forall a, above (snd (run_script diamond)) 2 a -> a = 0 \/ a = 1).
    { intros a (b & Hb & A). cbn in Hb. destruct Hb as [<-|[<-|[]]]; inversion A as [|? c ? Hc]; subst; auto; destruct Hc. }
    split.
    + intros a b Ha Hb Oa Ob. assert (Only : forall q, above (snd (run_script diamond)) 2 q -> offers (snd (run_script diamond)) q "g" -> q = 1).
      { intros q Hq Oq. destruct (Ab q Hq) as [-> | ->]; [elim Oq; reflexivity|reflexivity]. }
      rewrite (Only a Ha Oa), (Only b Hb Ob). reflexivity.
    + intros a m Ha Hm Om. exists m. split; [assumption|]. split; [assumption|]. intros (p & (d & r & Hd & _ & _ & ->) & V & _).
      cbn in Hd. repeat (destruct Hd as [Hd|Hd]; [try discriminate; injection Hd as <- _; apply V; reflexivity|]). destruct Hd.
Qed.

(** A, B derived from A, C, and D with parents B and C. *)
Example four_classes : let script := [cpp None; cpp (Some [0]); cpp None; cpp (Some [1; 2])] in
  preorder (declared_parents (snd (run_script script))) 3 [3; 1; 0; 2] /\ type_mro (fst (run_script script)) 3 = Some [3; 1; 0; 2].
Proof.
  split; [|reflexivity]. assert (P0 : forall i, declared_parents (snd (run_script [cpp None; cpp (Some [0]); cpp None; cpp (Some [1; 2])])) i = [] ->
    preorder (declared_parents (snd (run_script [cpp None; cpp (Some [0]); cpp None; cpp (Some [1; 2])]))) i [i]).
  { intros i E. apply (preorder_at _ i []). rewrite E. constructor. }
  apply (preorder_at _ 3 [[1; 0]; [2]]). constructor; [|constructor; [|constructor]].
  - apply (preorder_at _ 1 [[0]]). constructor; [apply P0; reflexivity|constructor].
  - apply P0; reflexivity.
Qed.

(** If two of the classes above declare the name - here B, and its parent A, whose method it overrides - the class gets no
    wrapper: Python finds the wrapper of B, the second parent, which takes the pointer to the object for a pointer to a B. *)
Theorem C44_two_declare_refuted : exists cs i k t n,
  generated_once true true all_ok cs [0; 1; 2; 3] /\
  find_method (tables_of nobody cs [0; 1; 2; 3]) (fst (run_script cs)) i n = Some (k, t) /\ ~ first_line (snd (run_script cs)) i k.
Proof.
  exists [cpp None; cpp None; cpp (Some [1]); cpp (Some [0; 2]); has 1 "f" [] Public; has 2 "f" [] Public], 3, 2,
    (TWrappers [mk_wrapper (mth "f" []) 2]), "f". split; [|split; [reflexivity|]].
  - split; [intros j n H; repeat (destruct H as [H|H]; [discriminate|]); destruct H|]. split.
    + repeat (constructor; [cbn; intuition discriminate|]); constructor.
    + intros c H. cbn in H. cbn. intuition; subst; auto with arith.
  - intros F. inversion F as [|? b r ? E F']; subst. cbn in E. injection E as <- <-. inversion F' as [|? b r ? E F'']; subst. discriminate.
Qed.

(** A class that redeclares the method of its second parent as private does not have it in its table, but Python still finds
    that of the parent, again for the wrong address. *)
Theorem C44_hidden_refuted : exists cs i k t n,
  generated_once true true all_ok cs [0; 1; 2] /\
  find_method (tables_of nobody cs [0; 1; 2]) (fst (run_script cs)) i n = Some (k, t) /\
  (forall m, In m (public_methods (snd (run_script cs)) k n) -> hides (snd (run_script cs)) i m) /\ ~ first_line (snd (run_script cs)) i k.
Proof.
  exists [cpp None; cpp None; cpp (Some [0; 1]); has 1 "f" [] Public; has 2 "f" [] Private], 2, 1,
    (TWrappers [mk_wrapper (mth "f" []) 1]), "f". split; [|split; [reflexivity|split]].
  - split; [intros j n H; repeat (destruct H as [H|H]; [discriminate|]); destruct H|]. split.
    + repeat (constructor; [cbn; intuition discriminate|]); constructor.
    + intros c H. cbn in H. cbn. intuition; subst; auto with arith.
  - intros m [<-|[]]. exists (mk_method "f" [] false false false Private false). split; [|split; [discriminate|reflexivity]].
    exists (mk_mdecl "f" [] false None false Private true), (RBool true). split; [cbn; tauto|]. split; [|split; reflexivity].
    unfold recorded. cbn. intros [H _]. discriminate.
  - intros F. inversion F as [|? b r ? E F']; subst. cbn in E. injection E as <- <-. inversion F' as [|? b r ? E F'']; subst. discriminate.
Qed.

(** The same with copying: __copy__ is not among the methods given again to a class with several parents, so that copying an
    object of a class that cannot be copied, whose second parent can, copies from the wrong address. *)
Theorem C44_copy_refuted : exists cs i k,
  generated_once true true all_ok cs [0; 1; 2] /\
  find_method (tables_of (Nat.eqb 1) cs [0; 1; 2]) (fst (run_script cs)) i "__copy__" = Some (k, TCopy) /\ ~ first_line (snd (run_script cs)) i k.
Proof.
  exists [cpp None; cpp None; cpp (Some [0; 1])], 2, 1. split; [|split; [reflexivity|]].
  - split; [intros j n H; repeat (destruct H as [H|H]; [discriminate|]); destruct H|]. split.
    + repeat (constructor; [cbn; intuition discriminate|]); constructor.
    + intros c H. cbn in H. cbn. intuition; subst; auto with arith.
  - intros F. inversion F as [|? b r ? E F']; subst. cbn in E. injection E as <- <-. inversion F' as [|? b r ? E F'']; subst. discriminate.
Qed.

Print Assumptions C44_own.
Print Assumptions C44_inherited.
Print Assumptions C44_only.
Print Assumptions C44_once.
Print Assumptions C44_found.
Print Assumptions C44_order.
Print Assumptions C44_nearest.
Print Assumptions C44_aim.
Print Assumptions C44_two_declare_refuted.
Print Assumptions C44_hidden_refuted.
Print Assumptions C44_copy_refuted.
