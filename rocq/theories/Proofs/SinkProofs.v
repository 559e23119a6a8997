From Coq Require Import Lia.
From Verif.Model Require Import Py CodeSink.
From Verif.Spec Require Import SinkSpec.
From Verif.Proofs Require Import StrLemmas.
Open Scope string_scope.
Open Scope py_scope.

Lemma spaces_pad l : spaces l = pad l.
Proof. unfold spaces, pad. induction (Z.to_nat l); cbn; [reflexivity|now f_equal]. Qed.

Lemma pad_no_nl l : no_newline (pad l).
Proof.
  unfold no_newline, pad. induction (Z.to_nat l) as [|n IH]; cbn; [tauto|].
  intros [H|H]; [discriminate H|auto].
Qed.

Lemma no_newline_app a b : no_newline a -> no_newline b -> no_newline (a ++ b).
Proof. unfold no_newline. rewrite chars_app. intros Ha Hb H. apply in_app_or in H. tauto. Qed.

Lemma lines_of_split t : lines_of t (split_char nl_char t).
Proof.
  repeat split.
  - apply split_char_nonempty.
  - apply split_char_no_sep.
  - apply split_char_join.
Qed.

Lemma lines_of_fun t ls : lines_of t ls -> split_char nl_char t = ls.
Proof. intros (Hne & Hf & Hc). now apply split_char_unique. Qed.

Lemma is_space_blank c : is_space c = true <-> blank c.
Proof.
  unfold is_space, blank. destruct c as [[|] [|] [|] [|] [|] [|] [|] [|]]; cbn;
  (split; [intros H; try discriminate H; lia | intros H; try reflexivity; exfalso; lia]).
Qed.

Lemma rstrip_trimmed s : trimmed s (rstrip s).
Proof.
  destruct (rstrip_spec s) as (tail & E & Ht & Hl). exists tail. repeat split; [exact E| |].
  - intros c Hc. apply is_space_blank. auto.
  - intros t' c Hc Hb. apply is_space_blank in Hb. specialize (Hl t' c Hc). congruence.
Qed.

Lemma blank_of_is_space_false c : is_space c = false -> ~ blank c.
Proof. intros H Hb. apply is_space_blank in Hb. congruence. Qed.

(** Base-state invariant: the current level is the sum of open indents and the stack holds the
    levels of the enclosing contexts. *)
Fixpoint stack_of (st : list Z) : list Z :=
  match st with
  | [] => []
  | _ :: r => sumZ r :: stack_of r
  end.

Definition base_of (st : list Z) : base :=
  {| indent_level := sumZ st; indent_stack := stack_of st |}.

Definition sink_base (s : sink) : base :=
  match s with Mem m => mbase m | File f => fbase f | Null b => b end.

Lemma open_indents_snoc h o : open_indents (h ++ [o]) = opened (open_indents h) o.
Proof. unfold open_indents. now rewrite fold_left_app. Qed.

Lemma level_after_some h st : open_indents h = Some st -> level_after h = Some (sumZ st).
Proof. unfold level_after. now intros ->. Qed.

(** Outcome of one step on a memory sink in the invariant. *)
Lemma run_mem h : forall pre st lines,
  open_indents pre = Some st ->
  match open_indents (pre ++ h) with
  | Some st' => exists out,
      run (Mem {| mbase := base_of st; mlines := lines |}) h
        = Ok (Mem {| mbase := base_of st';
                     mlines := (lines ++ map indented out)%list |})
      /\ written pre h out
  | None => run (Mem {| mbase := base_of st; mlines := lines |}) h = Err IndexError
  end.
Proof.
  induction h as [|o h IH]; intros pre st lines Hpre.
  - rewrite app_nil_r, Hpre. exists []. split; [cbn; now rewrite app_nil_r|constructor].
  - replace (pre ++ o :: h)%list with ((pre ++ [o]) ++ h)%list by now rewrite <- app_assoc.
    pose proof (open_indents_snoc pre o) as Hs. rewrite Hpre in Hs.
    destruct o as [text|l|]; cbn [opened] in Hs.
    + cbn [run step writeln bind mem_writeln mbase mlines].
      specialize (IH _ st (lines ++ format_code (base_of st) text)%list Hs).
      destruct (open_indents ((pre ++ [OWrite text]) ++ h)) as [st'|] eqn:E.
      * destruct IH as (out & Hr & Hw).
        exists (map (fun l => (sumZ st, l)) (split_char nl_char text) ++ out)%list.
        split.
        -- etransitivity; [exact Hr|]. do 3 f_equal. rewrite map_app, app_assoc. do 2 f_equal.
           unfold format_code. rewrite map_map. apply map_ext. intros a. unfold indented. cbn.
           now rewrite spaces_pad.
        -- apply w_write; [now apply level_after_some|apply lines_of_split|exact Hw].
      * exact IH.
    + cbn [run step indent bind mem_indent mbase mlines].
      assert (Hb : base_indent (base_of st) l = base_of (l :: st)).
      { unfold base_of, base_indent, sumZ. cbn [indent_level indent_stack stack_of fold_right].
        now rewrite Z.add_comm. }
      unfold mem_indent; cbn [mbase mlines]. rewrite Hb.
      specialize (IH _ (l :: st) lines Hs).
      destruct (open_indents ((pre ++ [OIndent l]) ++ h)) as [st'|] eqn:E.
      * destruct IH as (out & Hr & Hw). exists out. split; [exact Hr|now constructor].
      * exact IH.
    + destruct st as [|x st].
      * assert (Hn : open_indents ((pre ++ [OUnindent]) ++ h) = None).
        { unfold open_indents in *. rewrite fold_left_app, Hs.
          clear. induction h as [|o h IH]; [reflexivity|exact IH]. }
        rewrite Hn. reflexivity.
      * cbn [run step unindent mem_unindent base_unindent bind mbase mlines base_of indent_stack
             stack_of].
        specialize (IH _ st lines Hs).
        destruct (open_indents ((pre ++ [OUnindent]) ++ h)) as [st'|] eqn:E.
        -- destruct IH as (out & Hr & Hw). exists out. split; [exact Hr|now constructor].
        -- exact IH.
Qed.

Lemma written_no_nl pre h out : written pre h out -> Forall (fun p => no_newline (snd p)) out.
Proof.
  induction 1; try assumption; [constructor|].
  apply Forall_app. split; [|assumption].
  destruct H0 as (_ & Hf & _). clear -Hf. induction Hf; constructor; auto.
Qed.

Lemma written_fun pre h o1 : written pre h o1 -> forall o2, written pre h o2 -> o1 = o2.
Proof.
  induction 1 as [pre|pre text h lvl ls out Hl Hls Hw IH|pre l h out Hw IH|pre h out Hw IH];
    intros o2 H2; inversion H2; subst; auto.
  match goal with
  | Hl' : level_after pre = Some ?l', Hls' : lines_of text ?ls' |- _ =>
      assert (lvl = l') by congruence; subst;
      rewrite <- (lines_of_fun _ _ Hls), <- (lines_of_fun _ _ Hls')
  end.
  f_equal. now apply IH.
Qed.

(** What one newline-free line does to a receiving sink. *)
Lemma format_single b t : no_newline t -> format_code b t = [pad (indent_level b) ++ t].
Proof.
  intros H. unfold format_code. rewrite split_char_single by exact H. cbn. now rewrite spaces_pad.
Qed.

Lemma trim_no_newline s t : trimmed s t -> no_newline s -> no_newline t.
Proof.
  intros (tail & -> & _). unfold no_newline. rewrite chars_app. intros H Hin. apply H.
  apply in_or_app. now left.
Qed.

Lemma trimmed_fun s t u : trimmed s t -> trimmed s u -> t = u.
Proof.
  intros (a & E & Ha & Hta) (b & E' & Hb & Htb). subst s.
  (* compare lengths of t and u *)
  assert (Haux : forall t u a b,
            t ++ a = u ++ b ->
            (forall c, In c (chars a) -> blank c) -> (forall c, In c (chars b) -> blank c) ->
            (forall t' c, t = t' ++ String c "" -> ~ blank c) ->
            (forall t' c, u = t' ++ String c "" -> ~ blank c) -> t = u).
  { clear. induction t as [|x t IH]; intros u a b E Ha Hb Ht Hu.
    - destruct u as [|y u]; [reflexivity|]. cbn in E. subst a. exfalso.
      assert (Hl : exists t' c, String y u = t' ++ String c "").
      { clear. revert y. induction u as [|z u IH]; intros y.
        - now exists "", y.
        - destruct (IH z) as (t' & c & E). exists (String y t'), c. cbn. now rewrite E. }
      destruct Hl as (t' & c & E). apply (Hu t' c E). apply Ha.
      change (String y (u ++ b)) with (String y u ++ b). rewrite E, !chars_app. cbn.
      apply in_or_app. left. apply in_or_app. right. now left.
    - destruct u as [|y u].
      + cbn in E. subst b. exfalso.
        assert (Hl : exists t' c, String x t = t' ++ String c "").
        { clear. revert x. induction t as [|z u IH]; intros y.
          - now exists "", y.
          - destruct (IH z) as (t' & c & E). exists (String y t'), c. cbn. now rewrite E. }
        destruct Hl as (t' & c & E). apply (Ht t' c E). apply Hb.
        change (String x (t ++ a)) with (String x t ++ a). rewrite E, !chars_app. cbn.
        apply in_or_app. left. apply in_or_app. right. now left.
      + cbn in E. injection E as -> E. f_equal.
        apply (IH u a b E Ha Hb).
        * intros t' c ->. apply (Ht (String y t') c). reflexivity.
        * intros t' c ->. apply (Hu (String y t') c). reflexivity. }
  exact (Haux t u a b E' Ha Hb Hta Htb).
Qed.

Lemma trimmed_rstrip s t : trimmed s t -> rstrip s = t.
Proof. intros H. eapply trimmed_fun; [apply rstrip_trimmed|exact H]. Qed.

(** Effect of a list of newline-free lines delivered to each kind of sink. *)
Lemma deliver_mem ls : forall m,
  Forall no_newline ls ->
  fold_left (fun d line => writeln d (rstrip line)) ls (Mem m)
  = Mem {| mbase := mbase m;
           mlines := (mlines m ++ map (fun l => indented (indent_level (mbase m), rstrip l)) ls)%list |}.
Proof.
  induction ls as [|l ls IH]; intros m H; cbn [fold_left map].
  - rewrite app_nil_r. now destruct m.
  - inversion H as [|? ? Hl Hr]; subst. cbn [writeln]. rewrite IH by assumption.
    cbn [mem_writeln mbase mlines]. rewrite format_single
      by (eapply trim_no_newline; [apply rstrip_trimmed|assumption]).
    now rewrite <- app_assoc.
Qed.

Lemma deliver_file ls : forall f,
  Forall no_newline ls ->
  fold_left (fun d line => writeln d (rstrip line)) ls (File f)
  = File {| fbase := fbase f;
            ftext := ftext f ++ String.concat "" (map (fun l => pad (indent_level (fbase f)) ++ rstrip l ++ nl) ls) |}.
Proof.
  induction ls as [|l ls IH]; intros f H; cbn [fold_left map].
  - cbn. rewrite app_nil_r_s. now destruct f.
  - inversion H as [|? ? Hl Hr]; subst. cbn [writeln]. rewrite IH by assumption.
    cbn [file_writeln fbase ftext]. rewrite format_single
      by (eapply trim_no_newline; [apply rstrip_trimmed|assumption]).
    f_equal. f_equal. unfold join.
    match goal with |- context [String.concat nl [?x]] =>
      change (String.concat nl [x]) with x end.
    now rewrite concat_empty_cons, !app_assoc_s.
Qed.

Lemma deliver_null ls : forall b,
  fold_left (fun d line => writeln d (rstrip line)) ls (Null b) = Null b.
Proof. induction ls; intros b; cbn; auto. Qed.

(** The level in force, for every kind of sink. *)
Lemma step_base s o st :
  sink_base s = base_of st ->
  match opened (Some st) o with
  | Some st' => exists s', step s o = Ok s' /\ sink_base s' = base_of st'
  | None => step s o = Err IndexError
  end.
Proof.
  intros Hb. destruct o as [t|l|]; cbn [opened].
  - exists (writeln s t). split; [reflexivity|]. destruct s; exact Hb.
  - exists (indent s l). split; [reflexivity|].
    assert (Hi : base_indent (base_of st) l = base_of (l :: st)).
    { unfold base_of, base_indent, sumZ. cbn [indent_level indent_stack stack_of fold_right].
      now rewrite Z.add_comm. }
    destruct s as [[b ls]|[b t]|b]; cbn in Hb |- *; subst b; exact Hi.
  - destruct st as [|x st].
    + destruct s as [[b ls]|[b t]|b]; cbn in Hb |- *; subst b; reflexivity.
    + destruct s as [[b ls]|[b t]|b]; cbn in Hb; subst b; eexists; split; reflexivity.
Qed.

Lemma run_base h : forall s st,
  sink_base s = base_of st ->
  match fold_left opened h (Some st) with
  | Some st' => exists s', run s h = Ok s' /\ sink_base s' = base_of st'
  | None => run s h = Err IndexError
  end.
Proof.
  induction h as [|o h IH]; intros s st Hb; cbn [fold_left run].
  - exists s. now split.
  - pose proof (step_base s o st Hb) as H. destruct (opened (Some st) o) as [st'|].
    + destruct H as (s' & -> & Hb'). cbn [bind]. apply IH, Hb'.
    + rewrite H. cbn [bind].
      assert (E : fold_left opened h None = None)
        by (clear; induction h as [|o h IH]; [reflexivity|exact IH]).
      now rewrite E.
Qed.

Lemma level_in_force h s s' :
  sink_base s = base_init -> run s h = Ok s' ->
  level_after h = Some (indent_level (sink_base s')).
Proof.
  intros Hb Hr. pose proof (run_base h s [] Hb) as H. unfold level_after, open_indents.
  destruct (fold_left opened h (Some [])) as [st|].
  - destruct H as (s2 & Hr2 & Hb2). rewrite Hr in Hr2. injection Hr2 as ->. now rewrite Hb2.
  - congruence.
Qed.

Lemma underflow h s :
  sink_base s = base_init ->
  (run s h = Err IndexError <-> level_after h = None) /\
  (forall e, run s h = Err e -> e = IndexError).
Proof.
  intros Hb. pose proof (run_base h s [] Hb) as H. unfold level_after, open_indents.
  destruct (fold_left opened h (Some [])) as [st|].
  - destruct H as (s2 & Hr2 & Hb2). rewrite Hr2. split; [split; discriminate|discriminate].
  - rewrite H. split; [tauto|]. intros e [= <-]. reflexivity.
Qed.

Lemma map_trimmed l : Forall2 trimmed l (map rstrip l).
Proof. induction l; constructor; auto using rstrip_trimmed. Qed.

Definition delivered (dst : sink) (ts : list string) (dst' : sink) : Prop :=
  match dst with
  | Mem m => dst' = Mem {| mbase := mbase m;
                           mlines := (mlines m ++ map (fun t => indented (indent_level (mbase m), t)) ts)%list |}
  | File f => dst' = File {| fbase := fbase f;
                             ftext := ftext f ++ String.concat ""
                               (map (fun t => indented (indent_level (fbase f), t) ++ String newline "") ts) |}
  | Null b => dst' = Null b
  end.

Lemma indented_no_nl out :
  Forall (fun p => no_newline (snd p)) out -> Forall no_newline (map indented out).
Proof.
  induction 1; constructor; auto. apply no_newline_app; [apply pad_no_nl|assumption].
Qed.

Lemma flush_delivers h :
  level_after h <> None ->
  exists src out,
    run (Mem mem_init) h = Ok (Mem src) /\ written [] h out /\
    mlines src = map indented out /\
    forall dst, exists src' ts dst',
      flush_to (Mem src) dst = Ok (Mem src', dst') /\
      Forall2 trimmed (map indented out) ts /\
      delivered dst ts dst' /\
      mbase src' = mbase src /\
      forall d, flush_to (Mem src') d = Ok (Mem src', d).
Proof.
  intros Hl. unfold level_after in Hl.
  pose proof (run_mem h [] [] [] eq_refl) as H. cbn [app] in H.
  destruct (open_indents h) as [st|]; [|congruence].
  destruct H as (out & Hr & Hw). cbn [app] in Hr.
  eexists; exists out. split; [exact Hr|]. split; [exact Hw|]. split; [reflexivity|].
  intros dst. pose proof (indented_no_nl _ (written_no_nl _ _ _ Hw)) as Hn.
  eexists; exists (map rstrip (map indented out)); eexists. split; [reflexivity|].
  split; [apply map_trimmed|]. split; [|split; [reflexivity|reflexivity]].
  cbn [mlines]. destruct dst as [m|f|b]; cbn [delivered].
  - rewrite deliver_mem by assumption. now rewrite (map_map rstrip).
  - rewrite deliver_file by assumption. do 4 f_equal. rewrite (map_map rstrip). apply map_ext.
    intros a. unfold indented. cbn. now rewrite app_assoc_s.
  - apply deliver_null.
Qed.

Lemma flush_text h :
  level_after h <> None ->
  exists src out lvl,
    run (Mem mem_init) h = Ok (Mem src) /\ written [] h out /\ level_after h = Some lvl /\
    snd (mem_flush src) =
      String.concat (String newline "") (map (fun p => pad lvl ++ indented p) out) ++ String newline "" /\
    mlines (fst (mem_flush src)) = [].
Proof.
  intros Hl. unfold level_after in *.
  pose proof (run_mem h [] [] [] eq_refl) as H. cbn [app] in H.
  destruct (open_indents h) as [st|]; [|congruence].
  destruct H as (out & Hr & Hw). cbn [app] in Hr.
  eexists; exists out, (sumZ st). split; [exact Hr|]. split; [exact Hw|]. split; [reflexivity|].
  split; [|reflexivity]. cbn [mem_flush snd mlines mbase].
  pose proof (indented_no_nl _ (written_no_nl _ _ _ Hw)) as Hn.
  f_equal. unfold join. f_equal. clear -Hn.
  induction out as [|p out IH]; [reflexivity|].
  inversion Hn as [|? ? Hp Hr]; subst. cbn [map flat_map].
  rewrite format_single by assumption. cbn. f_equal. now apply IH.
Qed.

Lemma null_refuses b dst : flush_to (Null b) dst = Err TypeError.
Proof. reflexivity. Qed.
