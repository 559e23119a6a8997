(** C02, C03: variable names and declarations. *)
From Coq Require Import String Ascii List NArith.
From Verif.Model Require Import Py CodeSink Decls.
From Verif.Spec Require Import DeclSpec.
From Verif.Proofs Require DeclProofs.
Import ListNotations.
Open Scope string_scope.

(** C02: the names handed out over any history on a family of scopes sharing one table are pairwise
    distinct, provided no requested base name ends in a digit. *)
Theorem C02_names_distinct : forall h,
  (forall b, In b (requests h) -> ~ ends_in_digit b) ->
  NoDup (names (snd (drun scopes_init h))).
Proof. exact DeclProofs.names_nodup. Qed.
Print Assumptions C02_names_distinct.

(** The same holds again after [clear]. *)
Theorem C02_names_distinct_after_clear : forall s i h,
  (forall b, In b (requests h) -> ~ ends_in_digit b) ->
  NoDup (names (snd (drun (clear_scope s i) h))).
Proof. exact DeclProofs.names_nodup_clear. Qed.
Print Assumptions C02_names_distinct_after_clear.

(** Which name: the k-th request for a base gets the base itself (k = 1) or base followed by the decimal
    numeral of k; so the first request always gets exactly its base name. No restriction on names. *)
Theorem C02_kth_name : forall h i o b n,
  nth_error h i = Some o ->
  (exists sc t ini arr, o = DDeclare sc t b ini arr) \/ o = DReserve b ->
  nth_error (snd (drun scopes_init h)) i = Some (Some (Ok n)) ->
  kth_name b (S (count_occ string_dec (requests (firstn i h)) b)) n.
Proof. exact DeclProofs.kth_answers. Qed.
Print Assumptions C02_kth_name.

(** A request fails only because the type cannot be joined with a name. *)
Theorem C02_failures : forall h i o e,
  nth_error h i = Some o -> nth_error (snd (drun scopes_init h)) i = Some (Some (Err e)) ->
  exists sc t b ini arr v, o = DDeclare sc t b ini arr /\ join_ctype_and_name t v = Err e.
Proof. exact DeclProofs.failures. Qed.
Print Assumptions C02_failures.

(** Without the proviso distinctness is false of the code: foo2, foo, foo. *)
Theorem C02_distinct_refuted : exists h, ~ NoDup (names (snd (drun scopes_init h))).
Proof.
  exists [DReserve "foo2"; DDeclare 0 "int" "foo" None None; DDeclare 0 "int" "foo" None None].
  vm_compute. intros H. inversion H as [|x l Hx _]. apply Hx. right. now left.
Qed.
Print Assumptions C02_distinct_refuted.

Example C02_example :
  let h := [DReserve "args"; DDeclare 0 "char*" "retval" None None; DChild;
            DDeclare 1 "int" "retval" (Some "0") None] in
  (forall b, In b (requests h) -> ~ ends_in_digit b) /\
  names (snd (drun scopes_init h)) = ["args"; "retval"; "retval2"].
Proof.
  split; [|reflexivity].
  intros b H (p & c & E & Hd). cbn in H.
  assert (Hl : last_char b = Some c) by (apply DeclProofs.last_char_spec; eauto).
  unfold digit in Hd.
  destruct H as [<-|[<-|[<-|[]]]]; injection Hl as <-; vm_compute in Hd; destruct Hd as [H1 H2];
    congruence.
Qed.

(** C03: joining a type and a name. *)
Theorem C03_join : forall ct name r,
  join_ctype_and_name ct name = Ok r ->
  exists a b sep, ct = a ++ b /\ r = a ++ sep ++ b ++ name /\ (sep = "" \/ sep = " ") /\
    (forall c, In c (list_ascii_of_string b) -> c = "*"%char) /\
    exists p c, a ++ sep ++ b = p ++ String c "" /\ (c = " "%char \/ c = "*"%char).
Proof. exact DeclProofs.join_ok. Qed.
Print Assumptions C03_join.

Theorem C03_join_errors : forall ct name e,
  join_ctype_and_name ct name = Err e <->
  (ct = "" /\ e = IndexError) \/
  (ct <> "" /\ (forall c, In c (list_ascii_of_string ct) -> c = "*"%char) /\ e = ValueError).
Proof. exact DeclProofs.join_err. Qed.
Print Assumptions C03_join_errors.

(** The declaration statement written: declarator, array suffix, initialiser, semicolon; to the scope's
    own sink only. *)
Theorem C03_declaration_line : forall s i m t b ini arr s' v,
  declare_variable s i t b ini arr = (s', Ok v) ->
  nth_error (sinks s) i = Some m ->
  exists decl, join_ctype_and_name t v = Ok decl /\
    nth_error (sinks s') i =
      Some (mem_writeln m (decl ++ (match arr with Some a => a | None => "" end)
                                ++ (match ini with Some x => " = " ++ x | None => "" end) ++ ";")) /\
    forall j, j <> i -> nth_error (sinks s') j = nth_error (sinks s) j.
Proof. exact DeclProofs.declare_writes. Qed.
Print Assumptions C03_declaration_line.

Example C03_examples :
  join_ctype_and_name "void**" "foo" = Ok "void **foo" /\
  join_ctype_and_name "void *" "foo" = Ok "void *foo" /\
  join_ctype_and_name "int" "foo" = Ok "int foo" /\
  join_ctype_and_name "**" "foo" = Err ValueError.
Proof. repeat split. Qed.
