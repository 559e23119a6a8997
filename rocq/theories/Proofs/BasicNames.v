(** The names handed out to the parameters of a wrapper. *)
From Verif.Model Require Import Py Decls CodeBlock Params IntHandlers BasicHandlers.
From Verif.Spec Require Import DeclSpec IntSpec BasicSpec.
From Verif.Proofs Require Import DeclProofs BasicFrame.
From Coq Require Import ZArith Lia.
Open Scope string_scope.
Open Scope list_scope.

Fixpoint named (pre bs : list string) : list string :=
  match bs with [] => [] | b :: r => var_name b (N.of_nat (S (count b pre))) :: named (pre ++ [b]) r end.
Lemma named_app pre a : forall b, named pre (a ++ b) = named pre a ++ named (pre ++ a) b.
Proof. revert pre. induction a as [|x a IH]; intros pre b; [cbn; rewrite app_nil_r; reflexivity|]. cbn [app named]. rewrite IH, <- app_assoc. reflexivity. Qed.
Lemma named_length pre bs : length (named pre bs) = length bs.
Proof. revert pre. induction bs as [|b bs IH]; intros pre; [reflexivity|]. cbn. rewrite IH. reflexivity. Qed.

Lemma named_same bs : forall pre, NoDup (pre ++ bs) -> named pre bs = bs.
Proof.
  induction bs as [|b bs IH]; intros pre H; [reflexivity|]. cbn [named].
  assert (C : count b pre = 0%nat). { apply count_occ_not_In. intros I. apply NoDup_app_iff' in H as (_ & _ & H). apply (H b I). left. reflexivity. }
  rewrite C, IH; [reflexivity|]. rewrite <- app_assoc. exact H.
Qed.
Lemma named_answers bs : forall pre, answers pre (map DReserve bs) (map (fun n => Some (Ok n)) (named pre bs)).
Proof. induction bs as [|b bs IH]; intros pre; [constructor|]. cbn [map named]. apply a_name; [reflexivity|apply IH]. Qed.
Lemma requests_reserve bs : requests (map DReserve bs) = bs.
Proof. induction bs as [|b bs IH]; [reflexivity|]. cbn [map]. rewrite requests_cons. cbn [op_base]. rewrite IH. reflexivity. Qed.
Lemma names_ok l : names (map (fun n => Some (Ok n)) l) = l.
Proof. induction l as [|n l IH]; [reflexivity|]. cbn. f_equal. exact IH. Qed.
Lemma named_nodup bs : (NoDup bs \/ Forall (fun n => ~ ends_in_a_digit n) bs) -> NoDup (named [] bs).
Proof.
  intros [H|H]; [rewrite named_same; exact H|].
  assert (A := named_answers bs []). apply answers_nodup in A; [|intros b []|].
  - destruct A as [A _]. rewrite names_ok in A. exact A.
  - intros b I (q & c & -> & D). rewrite requests_reserve in I. rewrite Forall_forall in H. apply (H _ I). exists q, c. split; [reflexivity|].
    unfold digit in D. unfold nat_of_ascii. lia.
Qed.

(** Types the declarations accept. *)
Definition joinable (t : string) : Prop := forall v, exists d, join_ctype_and_name t v = Ok d.
Lemma wants_joinable x w : In (bp_ctype x) (basic_ctypes (bp_handler x)) -> In w (wants x) -> joinable (fst (fst w)).
Proof.
  destruct x as [h ct nm df inp out]. cbn [bp_ctype bp_handler]. intros C I v.
  destruct h as [h| | | | | | | | | | | | | |t|t]; cbn [basic_ctypes In] in C.
  1: { unfold wants in I. cbn [bp_handler] in I. unfold int_wants in I. cbn [bp_ctype bp_name bp_default bp_in bp_out] in I.
       destruct h; cbn [param_ctypes In] in C; repeat (destruct C as [<-|C]; [destruct inp, out; cbn in I; repeat (destruct I as [<-|I]; [eexists; reflexivity|]); destruct I|]); destruct C. }
  all: repeat (destruct C as [<-|C]; [try destruct t; try destruct inp; cbn in I; repeat (destruct I as [<-|I]; [eexists; reflexivity|]); destruct I|]); destruct C.
Qed.

Definition bases (x : bparam) : list string := map (fun w => snd (fst w)) (wants x).
Lemma run_wants ws : forall pre s, table_ok pre s -> Forall (fun w => joinable (fst (fst w))) ws ->
  returned (snd (drun s (map want_op ws))) = Ok (named pre (map (fun w => snd (fst w)) ws)) /\
  table_ok (pre ++ map (fun w => snd (fst w)) ws) (fst (drun s (map want_op ws))).
Proof.
  intros pre s T J. destruct (drun_answers (map want_op ws) pre s T) as [A T']. split.
  - revert A J. generalize (snd (drun s (map want_op ws))). clear. revert pre. induction ws as [|w ws IH]; intros pre rs A J.
    + inversion A; subst. reflexivity.
    + cbn [map] in A. inversion J as [|? ? J1 J2]; subst. inversion A; subst.
      * match goal with H : op_base (want_op w) = Some _ |- _ => injection H as <- end. cbn [returned map named]. erewrite IH; [reflexivity|eassumption|exact J2].
      * exfalso. destruct (J1 (var_name (snd (fst w)) (N.of_nat (S (count (snd (fst w)) pre))))) as (d & E). congruence.
  - assert (R : requests (map want_op ws) = map (fun w => snd (fst w)) ws). { clear. induction ws as [|w ws IH]; [reflexivity|]. cbn [map]. rewrite requests_cons. cbn [op_base want_op]. rewrite IH. reflexivity. }
    rewrite <- R. exact T'.
Qed.
Lemma convert_ok ps : forall pre s, table_ok pre s -> Forall (fun x => In (bp_ctype x) (basic_ctypes (bp_handler x))) ps ->
  exists l, convert_params s ps = Ok l /\ map fst l = ps /\ Forall (fun xn => length (snd xn) = length (wants (fst xn))) l /\
    flat_map snd l = named pre (flat_map bases ps).
Proof.
  induction ps as [|x ps IH]; intros pre s T C.
  - exists []. repeat split; constructor.
  - inversion C as [|? ? C1 C2]; subst. cbn [convert_params].
    destruct (run_wants (wants x) pre s T) as [R T']. { apply Forall_forall. intros w I. eapply wants_joinable; eassumption. }
    destruct (drun s (map want_op (wants x))) as [s' rs]. cbn [fst snd] in R, T'. rewrite R.
    destruct (IH _ _ T' C2) as (l & E & M & L & F). rewrite E. eexists. split; [reflexivity|]. split; [cbn; rewrite M; reflexivity|]. split.
    + constructor; [|exact L]. cbn [fst snd]. rewrite named_length, map_length. reflexivity.
    + cbn [flat_map snd]. rewrite named_app, F. reflexivity.
Qed.

Definition first_names (r : breturn) : list string := ["py_retval"] ++ (match r with RVoid => [] | _ => ["retval"] end) ++ ["args"; "kwargs"].
Definition retval_names (r : breturn) : list string := match r with RVoid => [] | _ => ["retval"] end.
Lemma first_table r : (match r with RInt h c => In c (return_ctypes h) | _ => True end) -> table_ok (first_names r) (fst (drun scopes_init (first_ops r))).
Proof.
  intros _. destruct (drun_answers (first_ops r) [] scopes_init table_ok_init) as [_ T]. cbn [app] in T.
  assert (R : requests (first_ops r) = first_names r) by (destruct r; reflexivity). rewrite <- R. exact T.
Qed.
Theorem generate_names r ps : (match r with RInt h c => In c (return_ctypes h) | _ => True end) ->
  Forall (fun x => In (bp_ctype x) (basic_ctypes (bp_handler x))) ps -> clear_names r ps ->
  exists l, generate r ps = Ok (wrapper_of r l) /\ map fst l = ps /\ Forall (fun xn => length (snd xn) = length (wants (fst xn))) l /\
    NoDup (retval_names r ++ flat_map snd l).
Proof.
  intros RC C CN. destruct (convert_ok ps _ _ (first_table r RC) C) as (l & E & M & L & F). exists l. unfold generate. rewrite E. split; [reflexivity|]. split; [exact M|]. split; [exact L|].
  assert (D : NoDup (named [] (first_names r ++ flat_map bases ps))). { apply named_nodup. unfold first_names. rewrite <- !app_assoc. exact CN. }
  rewrite named_app in D. cbn [app] in D. rewrite <- F in D.
  assert (FN : named [] (first_names r) = first_names r) by (destruct r; reflexivity). rewrite FN in D.
  apply NoDup_app_iff' in D as (_ & D2 & D3). apply NoDup_app_iff'. split; [destruct r; repeat constructor; intros []|]. split; [exact D2|].
  intros n I. apply D3. unfold first_names. apply in_or_app. right. apply in_or_app. left. exact I.
Qed.
