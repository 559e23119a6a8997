(** Enumerations of header files *)
From Coq Require Import Lia.
From Verif.Model Require Import Py Annotations PygenArgs EnumScan.
From Verif.Spec Require Import PygenArgsSpec ClassNotesSpec EnumScanSpec.
From Verif.Proofs Require Import PygenArgsProofs.
Open Scope string_scope.
Open Scope list_scope.

Lemma reserved_iff n : reserved n = true <-> exists rest, n = ("__" ++ rest)%string.
Proof.
  split.
  - destruct n as [|a [|b n]]; cbn; try discriminate. intros H. apply andb_true_iff in H as [A B]. apply Ascii.eqb_eq in A, B. subst. now exists n.
  - intros (rest & ->). reflexivity.
Qed.
Lemma note_some (l : notes) n v : note l n = Some v <-> first_of l [n] n v.
Proof.
  unfold note. split.
  - induction l as [|[m u] l IH]; cbn; [discriminate|]. destruct (String.eqb_spec n m) as [->|N].
    + intros [= ->]. exists [], l. repeat split; [now left|intros p q []].
    + intros H. destruct (IH H) as (a & b & -> & I & F). exists ((m, u) :: a), b. repeat split; [exact I|]. intros p q [E|E]; [injection E as <- <-; intros [J|[]]; congruence|eauto].
  - intros (a & b & -> & _ & F). induction a as [|[m u] a IH]; cbn.
    + now rewrite String.eqb_refl.
    + destruct (String.eqb_spec n m) as [->|N]; [elim (F m u (or_introl eq_refl)); now left|]. apply IH. intros p q H. exact (F p q (or_intror H)).
Qed.
Lemma note_none (l : notes) n : note l n = None <-> ~ annotated l n.
Proof.
  split.
  - intros H (v & I). unfold note in H. induction l as [|[m u] l IH]; [destruct I|]. cbn in H. destruct (String.eqb_spec n m) as [E|N]; [discriminate|]. destruct I as [E|I]; [congruence|auto].
  - intros N. destruct (note l n) as [v|] eqn:E; [|reflexivity]. apply note_some in E. destruct E as (a & b & -> & _). elim N. exists v. apply in_or_app. right. now left.
Qed.
Lemma skipped_iff outer e : skipped outer e = false <-> wanted outer e.
Proof.
  unfold skipped, wanted. rewrite orb_false_iff. rewrite <- note_none. split.
  - intros [A B]. split; [now destruct (note (e_notes e) "ignore")|]. intros c ->. apply orb_false_iff in A as [A1 A2]. apply negb_false_iff in A1. split; [exact A1|]. rewrite <- reserved_iff. congruence.
  - intros [A B]. rewrite A. split; [|reflexivity]. destruct outer as [c|]; [|reflexivity]. destruct (B c eq_refl) as [B1 B2]. rewrite B1. cbn. destruct (reserved (e_name e)) eqn:R; [|reflexivity]. apply reserved_iff in R. contradiction.
Qed.
Definition kw_of (outer : option string) (l : notes) : keywords :=
  match outer with Some c => [("outer_class", VClass c)] | None => [] end ++ match note l "import_from_module" with Some m => [("import_from_module", optional m)] | None => [] end.
Lemma kw_right outer l : enum_keywords outer l (kw_of outer l).
Proof.
  unfold kw_of. split.
  - destruct outer, (note l "import_from_module"); cbn; repeat constructor; cbn; intuition discriminate.
  - intros k v. rewrite in_app_iff. split.
    + intros [H|H].
      * destruct outer as [c|]; [|destruct H]. destruct H as [H|[]]. injection H as <- <-. left. eauto.
      * destruct (note l "import_from_module") as [m|] eqn:E; [|destruct H]. destruct H as [H|[]]. injection H as <- <-. right. split; [reflexivity|]. exists m. split; [now apply note_some|now destruct m].
    + intros [(-> & c & -> & ->)|(-> & m & F & ->)]; [left; now left|]. right. apply note_some in F. rewrite F. left. now destruct m.
Qed.
Lemma kw_writable outer l : Forall writable (kw_of outer l).
Proof.
  unfold kw_of. apply Forall_app. split.
  - destruct outer as [c|]; [|constructor]. constructor; [|constructor]. split; [repeat split|]. right. left. now exists c.
  - destruct (note l "import_from_module") as [m|]; [|constructor]. constructor; [|constructor]. split; [repeat split|]. left. cbn. split; [now destruct m|]. intros _ l' H. now destruct m.
Qed.
Lemma line_right outer e : adds outer e (add_enum_line outer e).
Proof.
  exists (kw_of outer (e_notes e)). split; [|apply kw_right].
  assert (P : plain (VList (map VStr (e_values e)))) by (cbn; induction (e_values e); cbn; auto).
  assert (V : values_text (e_values e) = repr (VList (map VStr (e_values e)))) by (cbn; unfold values_text; rewrite map_map; reflexivity).
  set (ps := [([], repr_str (e_name e), VStr (e_name e)); ([], repr (VList (map VStr (e_values e))), VList (map VStr (e_values e)))] : list positional).
  set (kw := kw_of outer (e_notes e)). set (ws := map (fun _ : string * value => [] : list ascii) kw).
  assert (E : add_enum_line outer e = lit "module.add_enum" ++ ["("%char] ++ join comma (map pos_text ps ++ map (fun x => fst x ++ snd x) (combine ws (map pygen_kwarg kw))) ++ [")"%char]).
  { unfold add_enum_line. rewrite V. change (lit "module.add_enum(") with (lit "module.add_enum" ++ ["("%char]). change (lit ")") with [")"%char]. rewrite <- app_assoc. f_equal. f_equal. f_equal. f_equal.
    assert (W : map (fun x : list ascii * list ascii => fst x ++ snd x) (combine ws (map pygen_kwarg kw)) = map pygen_kwarg kw) by (unfold ws; clear; induction kw as [|k r IH]; cbn; [reflexivity|now rewrite IH]).
    rewrite W. unfold ps, kw, kw_of, pos_text. rewrite map_app. cbn [map fst snd app]. f_equal. f_equal. f_equal; [now destruct outer|]. now destruct (note (e_notes e) "import_from_module") as [[m|]|]. }
  destruct (call_text "module.add_enum" ps ws kw) as [_ H].
  - repeat split.
  - apply Forall_cons; [split; [reflexivity|apply ok_str]|]. apply Forall_cons; [split; [reflexivity|apply plain_ok; exact P]|constructor].
  - unfold ws. clear. induction kw; constructor; [reflexivity|assumption].
  - unfold ws. now rewrite map_length.
  - apply kw_writable.
  - apply kw_right.
  - unfold calls. rewrite E. set (t := lit "module.add_enum" ++ _) in *. destruct (H (length t) [] (le_n _) Logic.I) as [Q _]. now rewrite app_nil_r in Q.
Qed.
Lemma scan_right outer : forall l o o', scan_enums outer l o = Ok o' ->
  exists s m, o_script o' = o_script o ++ s /\ o_memory o' = o_memory o ++ m /\ scanned outer l s m.
Proof.
  induction l as [|e l IH]; intros o o'; cbn [scan_enums].
  - intros [= <-]. exists [], []. rewrite !app_nil_r. repeat split. constructor.
  - destruct (skipped outer e) eqn:S.
    + intros H. destruct (IH _ _ H) as (s & m & A & B & C). exists s, m. repeat split; try assumption. constructor; [|exact C]. rewrite <- skipped_iff. congruence.
    + apply skipped_iff in S. destruct (e_part e) as [k|] eqn:K.
      * destruct (comment_lines e) as [c|] eqn:L; [|discriminate]. intros H. destruct (IH _ _ H) as (s & m & A & B & C). cbn [o_script o_memory] in A, B.
        exists (map (pair k) (c ++ [add_enum_line outer e]) ++ s), (memory_call outer e :: m). rewrite A, B, <- !app_assoc. split; [reflexivity|]. split; [reflexivity|].
        apply ScWrite; try assumption; [|now intros ->|now intros x ->]. unfold comment_lines in L.
        destruct (note (e_notes e) "pygen_comment") as [[t|]|] eqn:N; [|discriminate|]; injection L as <-.
        -- apply note_some in N. apply LComment; [exact N|apply line_right].
        -- apply note_none in N. apply LPlain; [exact N|apply line_right].
      * intros H. destruct (IH _ _ H) as (s & m & A & B & C). cbn [o_script o_memory] in A, B. exists s, (memory_call outer e :: m). rewrite A, B, <- !app_assoc. split; [reflexivity|]. split; [reflexivity|].
        apply ScSilent; try assumption; [now intros ->|now intros x ->].
Qed.
Lemma scan_total outer : forall l o, (exists o', scan_enums outer l o = Ok o') <->
  forall e, In e l -> wanted outer e -> e_part e <> None -> ~ first_of (e_notes e) ["pygen_comment"] "pygen_comment" None.
Proof.
  induction l as [|e l IH]; intros o; cbn [scan_enums].
  - split; [intros _ e []|eauto].
  - destruct (skipped outer e) eqn:S.
    + rewrite IH. split; intros H x I; [|apply H; now right]. destruct I as [<-|I]; [intros W; apply skipped_iff in W; congruence|auto].
    + pose proof (proj1 (skipped_iff _ _) S) as W. destruct (e_part e) as [k|] eqn:K.
      * unfold comment_lines. destruct (note (e_notes e) "pygen_comment") as [[t|]|] eqn:N.
        -- rewrite IH. split; intros H x I; [|apply H; now right]. destruct I as [<-|I]; [|auto]. intros _ _ F. apply note_some in F. congruence.
        -- split; [intros (? & [=])|]. intros H. exfalso. apply (H e (or_introl eq_refl) W); [congruence|now apply note_some].
        -- rewrite IH. split; intros H x I; [|apply H; now right]. destruct I as [<-|I]; [|auto]. intros _ _ F. apply note_some in F. congruence.
      * rewrite IH. split; intros H x I; [|apply H; now right]. destruct I as [<-|I]; [congruence|auto].
Qed.
