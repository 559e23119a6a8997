(** C04: an error check releases exactly the resources still registered, newest first. *)
From Coq Require Import String List Arith ZArith.
From Verif.Model Require Import Py CodeSink CodeBlock.
From Verif.Spec Require Import BlockSpec.
From Verif.Proofs Require BlockProofs.
Import ListNotations.
Open Scope list_scope.

(** After any successful history [h], for any block [b] there are a predecessor chain [lin] and an error
    return [ret], both determined by [h], such that an error check, a cleanup or an error return written
    now contains exactly [due h lin] (see BlockSpec): live cleanups of [b] newest first, then those of its
    predecessors; the failure code of the caller first, the error return last; nothing else changes. *)
Theorem C04_error_branch : forall (A : Type) (h : list (bop A)) st,
  brun [] h = Ok st -> forall b, b < List.length (created h) ->
  exists lin ret,
    lineage h b lin /\ error_return_of h b ret /\
    (forall cond fail, exists st',
      brun [] (h ++ [BCheck b cond fail]) = Ok st' /\
      BlockProofs.out_of st' b = BlockProofs.out_of st b ++
        [ICheck cond (match fail with Some f => [f] | None => [] end ++ due h lin ++ [ret])] /\
      (forall b', b' <> b -> nth_error st' b' = nth_error st b')) /\
    (exists st',
      brun [] (h ++ [BCleanup b]) = Ok st' /\
      BlockProofs.out_of st' b = BlockProofs.out_of st b ++ map ICode (due h lin) /\
      (forall b', b' <> b -> nth_error st' b' = nth_error st b')) /\
    (exists st',
      brun [] (h ++ [BErrorReturn b]) = Ok st' /\
      BlockProofs.out_of st' b = BlockProofs.out_of st b ++ map ICode (due h lin ++ [ret]) /\
      (forall b', b' <> b -> nth_error st' b' = nth_error st b')).
Proof. exact (fun A => @BlockProofs.error_branch A). Qed.
Print Assumptions C04_error_branch.

Theorem C04_lineage_unique : forall (A : Type) (h : list (bop A)) b l1 l2,
  lineage h b l1 -> lineage h b l2 -> l1 = l2.
Proof. exact (fun A => @BlockProofs.lineage_fun A). Qed.
Print Assumptions C04_lineage_unique.

(** The text of the branch is the check, the branch body indented by 4, and the closing brace. *)
Theorem C04_error_branch_text : forall (l : list (item string)) s cond body,
  block_sink l = Ok s ->
  block_sink (l ++ [ICheck cond body]) =
  run s (OWrite (("if (" ++ cond ++ ") {")%string) :: OIndent 4 :: map OWrite body ++ [OUnindent; OWrite "}"%string]).
Proof. exact BlockProofs.error_branch_text. Qed.
Print Assumptions C04_error_branch_text.

(** The n-th registration on a block since its last clear gets handle n. *)
Theorem C04_handle_number : forall (A : Type) (h : list (bop A)) st, brun [] h = Ok st ->
  forall b a, b < List.length (created h) ->
  exists st', add_cleanup_code st b a = Ok (st', S (List.length (registered b (since_clear b h)))) /\
              brun [] (h ++ [BAdd b a]) = Ok st'.
Proof. exact (fun A => @BlockProofs.handle_number A). Qed.
Print Assumptions C04_handle_number.

(** Cancelling a live handle succeeds and writes nothing; a dead or unknown one raises KeyError. *)
Theorem C04_cancel : forall (A : Type) (h : list (bop A)) st, brun [] h = Ok st ->
  forall b n, b < List.length (created h) ->
  let h' := since_clear b h in
  (1 <= n <= List.length (registered b h') /\ cancelled b h' n = false ->
     exists st', brun [] (h ++ [BCancel b n]) = Ok st' /\
       (forall b', BlockProofs.out_of st' b' = BlockProofs.out_of st b')) /\
  (~ (1 <= n <= List.length (registered b h') /\ cancelled b h' n = false) ->
     brun [] (h ++ [BCancel b n]) = Err KeyError).
Proof. exact (fun A => @BlockProofs.cancel_exact A). Qed.
Print Assumptions C04_cancel.

(** Nothing else fails, except using a block that does not exist. *)
Theorem C04_failures : forall (A : Type) (h : list (bop A)) e, brun [] h = Err e ->
  exists h1 o h2 st, h = h1 ++ o :: h2 /\ brun [] h1 = Ok st /\ brun [] (h1 ++ [o]) = Err e /\
    ((e = NameError /\ ((exists b, BlockProofs.mentions o b /\ List.length (created h1) <= b) \/
                        (exists q err, o = BNew (Some q) err /\ List.length (created h1) <= q))) \/
     (e = KeyError /\ exists b n, o = BCancel b n)).
Proof. exact (fun A => @BlockProofs.failures A). Qed.
Print Assumptions C04_failures.

(** Non-vacuity: the history of the class's own docstring, on a block with a predecessor. *)
Example C04_example :
  let h := [BNew None "return NULL;"; BNew (Some 0) "return -1;"; BAdd 0 "p();"; BAdd 1 "clean1();";
            BAdd 1 "clean2();"; BAdd 1 "clean3();"; BCancel 1 2]%string in
  (exists st, brun [] h = Ok st /\ 1 < List.length (created h)) /\
  lineage h 1 [1; 0] /\ due h [1; 0] = ["clean3();"; "clean1();"; "p();"]%string /\
  (exists st, brun [] (h ++ [BCheck 1 "error()" (Some "error_clean()")]%string) = Ok st /\
     bind (block_sink (BlockProofs.out_of st 1)) (fun s => match s with Mem m => Ok (mlines m) | _ => Err KeyError end)
     = Ok ["if (error()) {"; "    error_clean()"; "    clean3();"; "    clean1();"; "    p();";
           "    return -1;"; "}"]%string).
Proof.
  split; [eexists; split; [reflexivity|cbn; auto]|]. split.
  - eapply lin_step; [reflexivity|]. eapply lin_root; reflexivity.
  - split; [reflexivity|]. eexists; split; reflexivity.
Qed.
