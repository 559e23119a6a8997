(** C20: overloads that cannot be generated. *)
From Verif.Model Require Import Py PyState Errors Overloading.
From Verif.Spec Require Import OverloadSpec.
From Verif.Proofs Require OverloadProofs.
From Coq Require Import Sorting.Permutation Sorting.Sorted.
Open Scope string_scope.
Open Scope list_scope.

(** Normalising the flags of an overload set terminates; it either leaves exactly the survivors, in order, reporting
    the others, or is aborted by the failure of one wrapper of the set. *)
Theorem C20_normalize : forall p ws s, length ws <> 1 ->
  (exists ks s', survive None ws ks /\ normalize_flags rec_note p ws s = (s', Ok (map force ks)) /\ rec_out s' = rec_out s /\
     forall h, p = Some h -> accepts h ws -> exists l, reports None ws l /\ rec_log s' = rec_log s ++ l) \/
  (exists w e s', In w ws /\ rejects p w e /\ normalize_flags rec_note p ws s = (s', Err e) /\ rec_out s' = rec_out s).
Proof. exact OverloadProofs.normalize_record. Qed.
Print Assumptions C20_normalize.

(** The survivors are a part of the set, in the given order, and all have the flags of the first. *)
Theorem C20_survivors : forall ws ks, survive None ws ks ->
  in_order ks ws /\
  (forall w, In w ks -> exists f, fw_body w true = Ok f) /\
  (forall a b f g, In a ks -> In b ks -> fw_body a true = Ok f -> fw_body b true = Ok g -> same_flags f g) /\
  (forall a w b f, ws = a ++ w :: b -> fw_body w true = Ok f -> (forall u, In u a -> exists e, fw_body u true = Err e) ->
     forall v g, In v ws -> fw_body v true = Ok g -> same_flags f g -> In v ks).
Proof. exact OverloadProofs.survivors_ok. Qed.
Print Assumptions C20_survivors.

(** With a handler that accepts the errors, the C functions written are those of the survivors only (as if nothing
    else had been declared); a set without survivors is skipped as a whole and nothing is written. *)
Theorem C20_generate : forall h ws s, length ws <> 1 -> accepts h ws ->
  exists ks log, survive None ws ks /\ reports None ws log /\
  match ks with
  | [] => generate_overload rec_note rec_write (Some h) ws s = (mk_record (rec_log s ++ log) (rec_out s), Err SkipWrapper)
  | w :: _ => exists f new, fw_body w true = Ok f /\ filter no_blank new = functions_of ks (mem "METH_KEYWORDS" f) /\
      generate_overload rec_note rec_write (Some h) ws s =
        (mk_record (rec_log s ++ log) (rec_out s ++ new), Ok (map force ks, fw_base w))
  end.
Proof. exact OverloadProofs.generate_survivors. Qed.
Print Assumptions C20_generate.

(** In particular the dropped overloads leave no trace in the code: the same set without them generates the same. *)
Theorem C20_no_trace : forall h ws ks s s1 r1, length ws <> 1 -> length ks <> 1 -> accepts h ws -> survive None ws ks ->
  generate_overload rec_note rec_write (Some h) ws s = (s1, r1) ->
  exists s2, generate_overload rec_note rec_write (Some h) ks s = (s2, r1) /\ rec_out s2 = rec_out s1 /\ rec_log s2 = rec_log s.
Proof. exact OverloadProofs.no_trace. Qed.
Print Assumptions C20_no_trace.

(** An error comes out only when nothing survives or because of the failure of a wrapper of the set that was not
    accepted; then nothing has been written. *)
Theorem C20_rejected : forall p ws s s' e, length ws <> 1 -> generate_overload rec_note rec_write p ws s = (s', Err e) ->
  rec_out s' = rec_out s /\
  ((e = SkipWrapper /\ survive None ws []) \/ (exists w, In w ws /\ rejects p w e)).
Proof. exact OverloadProofs.generate_rejected_out. Qed.
Print Assumptions C20_rejected.

(** One wrapper on its own is generated under its own name and its errors follow the general policy. *)
Theorem C20_single : forall p w s, fw_needs_interface w = false ->
  (exists f, fw_body w (fw_forced w) = Ok f /\ generate_overload rec_note rec_write p [w] s =
     (mk_record (rec_log s) (rec_out s ++ [CFunction (fw_id w) (fw_base w) false]), Ok ([w], fw_base w))) \/
  (exists e s' e', fw_body w (fw_forced w) = Err e /\ generate_overload rec_note rec_write p [w] s = (s', Err e') /\ rec_out s' = rec_out s /\
     match p with
     | None => e' = e /\ rec_log s' = rec_log s
     | Some h => (In e [TypeConfigurationError; CodeGenerationError; NotSupportedError] /\ rec_log s' = rec_log s ++ [(fw_id w, e)] /\
                  (h (fw_id w) e = Ok true /\ e' = SkipWrapper \/ h (fw_id w) e = Ok false /\ e' = e \/ h (fw_id w) e = Err e')) \/
                 (~ In e [TypeConfigurationError; CodeGenerationError; NotSupportedError] /\ rec_log s' = rec_log s /\ e' = e)
     end).
Proof. exact OverloadProofs.generate_one. Qed.
Print Assumptions C20_single.

(** The method table row of an overload set has the flags of the first survivor, in sorted order, and the common
    docstring; docstrings that differ are a code generation error. *)
Theorem C20_row : forall p ws ks name (s : record), survive None ws ks -> ks <> [] -> ~ alone ks ->
  exists w r f, ks = w :: r /\ fw_body w true = Ok f /\
    (forall d, common_doc ks d -> get_row rec_note p (map force ks) (fw_base w) name s = (s, Ok (mk_row name (fw_base w) (sorted f) d))) /\
    (doc_conflict ks -> get_row rec_note p (map force ks) (fw_base w) name s = (s, Err CodeGenerationError)).
Proof. exact (OverloadProofs.row_many rec_note). Qed.
Print Assumptions C20_row.

Theorem C20_row_sorted : forall l, Permutation (sorted l) l /\ Sorted (fun a b => String.compare a b <> Gt) (sorted l).
Proof. exact OverloadProofs.sorted_ok. Qed.
Print Assumptions C20_row_sorted.

Theorem C20_row_alone : forall p ws w f name (s : record), survive None ws [w] -> fw_needs_interface w = false -> fw_body w true = Ok f ->
  get_row rec_note p (map force [w]) (fw_base w) name s =
    (s, Ok (mk_row name (fw_base w) (sorted f) (Some match fw_doc w with Some d => d | None => fw_autodoc w end))).
Proof. exact (OverloadProofs.row_alone rec_note). Qed.
Print Assumptions C20_row_alone.

(** Either a docstring is common to the set or there is a conflict. *)
Theorem C20_row_total : forall ks, (exists d, common_doc ks d) \/ doc_conflict ks.
Proof. exact OverloadProofs.doc_total. Qed.
Print Assumptions C20_row_total.

(** ** Without an error handler *)
Definition kw : list string := ["METH_VARARGS"; "METH_KEYWORDS"].
Definition demo (i : nat) (b : res (list string)) : fwrapper := mk_fwrapper i "__main__" "_wrap_m_f" false false None None "" (fun _ => b).

(** wrappers with other flags are not dropped: generation fails with AttributeError. *)
Theorem C20_no_handler_refuted : exists ws s,
  (exists k l, survive None ws (k :: l)) /\
  (forall w, In w ws -> exists f, fw_body w true = Ok f) /\
  generate_overload rec_note rec_write None ws s = (s, Err AttributeError).
Proof.
  exists [demo 0 (Ok kw); demo 1 (Ok ["METH_NOARGS"])], (mk_record [] []). split; [|split].
  - exists (demo 0 (Ok kw)), []. eapply sv_first; [reflexivity|]. eapply sv_differs; [reflexivity| |constructor].
    intros H. specialize (H "METH_NOARGS"). destruct H as [H _]. destruct (H (or_introl eq_refl)) as [X|[X|[]]]; discriminate.
  - intros w [<-|[<-|[]]]; eexists; reflexivity.
  - reflexivity.
Qed.
Print Assumptions C20_no_handler_refuted.

(** Concrete cases. *)
Definition yes : handler := fun _ _ => Ok true.
Definition demo_set : list fwrapper :=
  [demo 0 (Err TypeConfigurationError); demo 1 (Ok kw); demo 2 (Ok ["METH_NOARGS"]); demo 3 (Ok ["METH_KEYWORDS"; "METH_VARARGS"]);
   demo 4 (Err CodeGenerationError)].
Example C20_demo_accepts : accepts yes demo_set.
Proof.
  intros w W. split; [|exists true; reflexivity]. intros e.
  destruct W as [<-|[<-|[<-|[<-|[<-|[]]]]]]; intros E; inversion E; split; cbn; auto.
Qed.
Example C20_demo_survive : survive None demo_set [demo 1 (Ok kw); demo 3 (Ok ["METH_KEYWORDS"; "METH_VARARGS"])].
Proof.
  eapply sv_fail; [reflexivity|]. eapply sv_first; [reflexivity|]. eapply sv_differs; [reflexivity| |].
  - intros H. specialize (H "METH_NOARGS"). destruct H as [H _]. destruct (H (or_introl eq_refl)) as [X|[X|[]]]; discriminate.
  - eapply sv_same; [reflexivity| |].
    + intros x. cbn [In kw]. tauto.
    + eapply sv_fail; [reflexivity|constructor].
Qed.
Example C20_demo_generate : generate_overload rec_note rec_write (Some yes) demo_set (mk_record [] []) =
  (mk_record [(0, TypeConfigurationError); (0, SkipWrapper); (2, SkipWrapper); (4, CodeGenerationError); (4, SkipWrapper)]
     [CBlank; CFunction 1 "_wrap_m_f__0" true; CBlank; CFunction 3 "_wrap_m_f__1" true; CBlank;
      CAggregator "_wrap_m_f" ["_wrap_m_f__0"; "_wrap_m_f__1"] true],
   Ok (map force [demo 1 (Ok kw); demo 3 (Ok ["METH_KEYWORDS"; "METH_VARARGS"])], "_wrap_m_f")).
Proof. reflexivity. Qed.
