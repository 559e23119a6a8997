(** Free functions: the whole scan *)
From Coq Require Import Lia Permutation Sorted.
From Verif.Model Require Import Py Annotations FunctionScan.
From Verif.Spec Require Import AnnotationSpec FunctionScanSpec.
From Verif.Proofs Require Import StrLemmas AnnotationProofs FunctionTextProofs FunctionScanProofs.
Open Scope list_scope.
Open Scope string_scope.

Section Scan.
  Context {R P : Type} (lookup_return : string -> notes -> res R) (lookup_parameter : string -> string -> notes -> option string -> res P)
          (known_return : R -> bool) (known_parameter : P -> bool) (find_class : string -> res string)
          (exceptions_of : option string -> res (list string)).
  Lemma return_iff f : dict_like (f_notes f) -> forall r, returned lookup_return f = Ok r <-> return_of lookup_return f r.
  Proof.
    intros N r. unfold returned, return_of. destruct (true_text (get (f_notes f) "is_constructor_of")) eqn:T.
    - apply true_text_some in T. destruct T as (c & C & G). apply get_iff in G; [|exact N]. split.
      + intros H. exists (notes_of f "return"). split; [now apply notes_iff|]. left. exists c. split; [exact C|]. split; [exact G|]. eexists. split; [apply dict_set_updated|exact H].
      + intros (d & D & [(c' & _ & _ & d' & U & H)|(X & _)]); [|elim (X c C G)]. apply notes_iff in D. subst d. apply updated_fun in U. now subst d'.
    - assert (X : forall c, c <> "" -> ~ noted f "is_constructor_of" (Some c)).
      { intros c C G. apply (proj2 (get_iff _ _ _ N)) in G. assert (Q : true_text (get (f_notes f) "is_constructor_of") = true) by (apply true_text_some; eauto). congruence. }
      split.
      + intros H. exists (notes_of f "return"). split; [now apply notes_iff|]. right. split; [exact X|exact H].
      + intros (d & D & [(c & C & G & _)|(_ & H)]); [elim (X c C G)|]. apply notes_iff in D. now subst d.
  Qed.
  Lemma parameter_iff f a p : lookup_parameter (a_type a) (a_name a) (notes_of f (a_name a)) (a_default a) = Ok p <-> parameter_of lookup_parameter f a p.
  Proof.
    unfold parameter_of. split; [intros H; exists (notes_of f (a_name a)); split; [now apply notes_iff|exact H]|]. intros (d & D & H). apply notes_iff in D. now subst.
  Qed.
  Lemma object_iff f a p : lookup_parameter (a_type a) (a_name a) (defaulted (notes_of f (a_name a))) (a_default a) = Ok p <-> object_of lookup_parameter f a p.
  Proof.
    unfold object_of, defaulted. split.
    - intros H. do 3 eexists. split; [now apply notes_iff|]. split; [now apply preset_iff|]. split; [now apply preset_iff|exact H].
    - intros (d & d1 & d2 & D & A & B & H). apply notes_iff in D. apply preset_iff in A, B. now subst.
  Qed.
  Lemma arguments_rest f m : forall l ps, arguments lookup_parameter f false m l = Ok ps <-> Forall2 (parameter_of lookup_parameter f) l ps.
  Proof.
    induction l as [|a l IH]; intros ps; cbn [arguments].
    - split; [intros [= <-]; constructor|intros H; inversion H; reflexivity].
    - cbn [andb]. destruct (lookup_parameter (a_type a) (a_name a) (notes_of f (a_name a)) (a_default a)) as [p|e] eqn:E; cbn [bind].
      + destruct (arguments lookup_parameter f false m l) as [qs|e] eqn:Q; cbn [bind].
        * split; [intros [= <-]; constructor; [now apply parameter_iff|now apply IH]|]. intros H. inversion H as [|? p' ? qs' A B]; subst. apply parameter_iff in A. apply IH in B. congruence.
        * split; [discriminate|]. intros H. inversion H as [|? p' ? qs' A B]; subst. apply IH in B. congruence.
      + split; [discriminate|]. intros H. inversion H as [|? p' ? qs' A B]; subst. apply parameter_iff in A. congruence.
  Qed.
  Lemma arguments_iff f (m : bool) ps : arguments lookup_parameter f true m (f_args f) = Ok ps <-> parameters_of lookup_parameter f (m = true) ps.
  Proof.
    unfold parameters_of. destruct (f_args f) as [|a l]; cbn [arguments].
    - destruct ps; split; try (intros; congruence); try contradiction; try (intros [=]); try reflexivity.
    - assert (G : forall n, (forall p, lookup_parameter (a_type a) (a_name a) n (a_default a) = Ok p <->
          (m = true /\ a_pointer a = true /\ object_of lookup_parameter f a p \/ ~ (m = true /\ a_pointer a = true) /\ parameter_of lookup_parameter f a p)) ->
        (bind (lookup_parameter (a_type a) (a_name a) n (a_default a)) (fun p => bind (arguments lookup_parameter f false m l) (fun ps => Ok (p :: ps))) = Ok ps <->
         match ps with [] => False | p :: ps => (m = true /\ a_pointer a = true /\ object_of lookup_parameter f a p \/ ~ (m = true /\ a_pointer a = true) /\ parameter_of lookup_parameter f a p) /\ Forall2 (parameter_of lookup_parameter f) l ps end)).
      { intros n H. destruct (lookup_parameter (a_type a) (a_name a) n (a_default a)) as [p|e] eqn:E; cbn [bind].
        - destruct (arguments lookup_parameter f false m l) as [qs|e] eqn:Q; cbn [bind].
          + split; [intros [= <-]; split; [now apply H|now apply (arguments_rest f m)]|]. destruct ps as [|p' ps]; [contradiction|]. intros (A & B). apply H in A. apply (arguments_rest f m) in B. congruence.
          + split; [discriminate|]. destruct ps as [|p' ps]; [contradiction|]. intros (A & B). apply (arguments_rest f m) in B. congruence.
        - split; [discriminate|]. destruct ps as [|p' ps]; [contradiction|]. intros (A & B). apply H in A. congruence. }
      apply G. intros p. destruct m, (a_pointer a) eqn:X; cbn [andb].
      + rewrite object_iff. split; [intros H; left; auto|]. intros [(_ & _ & H)|(N & _)]; [exact H|elim N; auto].
      + rewrite parameter_iff. split; [intros H; right; split; [intros (_ & Y); discriminate|exact H]|]. intros [(_ & Y & _)|(_ & H)]; [discriminate|exact H].
      + rewrite parameter_iff. split; [intros H; right; split; [intros (Y & _); discriminate|exact H]|]. intros [(Y & _)|(_ & H)]; [discriminate|exact H].
      + rewrite parameter_iff. split; [intros H; right; split; [intros (Y & _); discriminate|exact H]|]. intros [(Y & _)|(_ & H)]; [discriminate|exact H].
  Qed.
  Lemma comment_iff f : dict_like (f_notes f) -> forall co, comment_of f = Ok co <-> comment_is f co.
  Proof.
    intros N co. unfold comment_of, comment_is, noted. destruct (dict_get (f_notes f) "pygen_comment") as [[t|]|] eqn:E.
    - apply (dict_get_in _ _ _ N) in E. split; [intros [= <-]; exact E|]. destruct co as [u|]; [|intros H; elim (H _ E)]. intros H. apply (dict_get_in _ _ _ N) in E, H. congruence.
    - apply (dict_get_in _ _ _ N) in E. split; [discriminate|]. destruct co as [u|]; [|intros H; elim (H _ E)]. intros H. apply (dict_get_in _ _ _ N) in E, H. congruence.
    - pose proof (proj1 (dict_get_none _ _) E) as X. split; [intros [= <-]; exact X|]. destruct co as [u|]; [intros H; elim (X _ H)|reflexivity].
  Qed.
  Lemma names_iff f : dict_like (f_notes f) -> forall targs own,
    (let names := get (f_notes f) "template_instance_names" in
     if true_text names then match names with Some s => instance_name targs (split_char "|" s) | None => Ok None end else Ok None) = Ok own <->
    ((exists names mappings, names <> "" /\ noted f "template_instance_names" (Some names) /\ pieces "|" names mappings /\ mapped targs mappings own)
     \/ (forall names, names <> "" -> ~ noted f "template_instance_names" (Some names)) /\ own = None).
  Proof.
    intros N targs own. cbv zeta. destruct (true_text (get (f_notes f) "template_instance_names")) eqn:T.
    - apply true_text_some in T. destruct T as (s & S & G). rewrite G. apply get_iff in G; [|exact N]. rewrite instance_name_iff. split.
      + intros M. left. exists s, (split_char "|" s). split; [exact S|]. split; [exact G|]. split; [apply pieces_iff; reflexivity|exact M].
      + intros [(s' & l & _ & G' & Q & M)|(X & _)]; [|elim (X s S G)]. apply pieces_iff in Q. apply (get_iff _ _ _ N) in G, G'. rewrite G in G'. injection G' as <-. now subst l.
    - assert (X : forall c, c <> "" -> ~ noted f "template_instance_names" (Some c)).
      { intros c C G. apply (proj2 (get_iff _ _ _ N)) in G. assert (Q : true_text (get (f_notes f) "template_instance_names") = true) by (apply true_text_some; eauto). congruence. }
      split; [intros [= <-]; right; auto|]. intros [(s & l & S & G & _)|(_ & ->)]; [elim (X s S G)|reflexivity].
  Qed.
  Lemma keywords_iff f d : dict_like (f_notes f) -> read_right exceptions_of (f_notes f) none d ->
    forall k, keywords_of f d = Ok k <-> keywords_right exceptions_of f k.
  Proof.
    intros N (_ & _ & Hn & _ & Hu & Ht & _) k. unfold keywords_of. cbn [none v_name v_unblock v_throw] in Hn, Hu, Ht.
    assert (Name : v_name d = get (f_notes f) "name") by (rewrite Hn; reflexivity).
    assert (U : forall u, (match u with Some b => exists s, noted f "unblock_threads" (Some s) /\ boolean s b | None => forall v, ~ noted f "unblock_threads" v end) <-> u = v_unblock d).
    { intros u. unfold noted. destruct (dict_get (f_notes f) "unblock_threads") as [v|] eqn:E.
      - destruct Hu as (b & B & ->). apply (dict_get_in _ _ _ N) in E. apply parse_boolean_iff in B. destruct B as (s & -> & B). split; [|intros ->; eauto]. destruct u as [b'|]; [|intros H; elim (H _ E)].
        intros (s' & H & B'). apply (dict_get_in _ _ _ N) in E, H. assert (s' = s) by congruence. subst. f_equal. now apply (boolean_fun s).
      - rewrite Hu. pose proof (proj1 (dict_get_none _ _) E) as X. split; [|intros ->; exact X]. destruct u as [b|]; [|reflexivity]. intros (s & H & _). elim (X _ H). }
    assert (T : forall t, ((f_throws f <> [] /\ t = Some (f_throws f)) \/ (f_throws f = [] /\ match t with Some l => exists v, noted f "throw" v /\ exceptions_of v = Ok l | None => forall v, ~ noted f "throw" v end)) <->
                t = match f_throws f with [] => v_throw d | l => Some l end).
    { intros t. destruct (f_throws f) as [|x l]; [|split; [intros [(_ & H)|(H & _)]; [exact H|discriminate]|intros ->; left; split; [discriminate|reflexivity]]].
      unfold noted. destruct (dict_get (f_notes f) "throw") as [v|] eqn:E.
      - destruct Ht as (b & B & ->). apply (dict_get_in _ _ _ N) in E. split; [|intros ->; right; eauto]. intros [(H & _)|(_ & H)]; [congruence|]. destruct t as [l|]; [|elim (H _ E)].
        destruct H as (v' & H & Q). apply (dict_get_in _ _ _ N) in E, H. congruence.
      - rewrite Ht. pose proof (proj1 (dict_get_none _ _) E) as X. split; [|intros ->; right; auto]. intros [(H & _)|(_ & H)]; [congruence|]. destruct t as [l|]; [|reflexivity]. destruct H as (v & H & _). elim (X _ H). }
    assert (W : forall own n, ((exists n', n' <> "" /\ noted f "name" (Some n') /\ n = Some n') \/ (forall n', n' <> "" -> ~ noted f "name" (Some n')) /\ n = own) <->
                n = (if true_text (v_name d) then v_name d else own)).
    { intros own n. rewrite Name. destruct (true_text (get (f_notes f) "name")) eqn:E.
      - apply true_text_some in E. destruct E as (s & S & G). rewrite G. apply get_iff in G; [|exact N]. split; [|intros ->; left; eauto]. intros [(s' & _ & H & ->)|(X & _)]; [|elim (X s S G)].
        apply (get_iff _ _ _ N) in G, H. congruence.
      - assert (X : forall c, c <> "" -> ~ noted f "name" (Some c)).
        { intros c C G. apply (proj2 (get_iff _ _ _ N)) in G. assert (Q : true_text (get (f_notes f) "name") = true) by (apply true_text_some; eauto). congruence. }
        split; [intros [(s & S & G & _)|(_ & H)]; [elim (X s S G)|exact H]|intros ->; right; auto]. }
    destruct (after (f_name f) (f_demangled f)) as [rest|] eqn:A.
    2:{ split; [discriminate|]. intros [_ _ _ (rest & C & _)]. apply after_iff in C. congruence. }
    apply after_iff in A. destruct (check_template rest) eqn:C.
    - pose proof (names_iff f N (get_template_arg rest)) as G. cbv zeta in G. cbv zeta.
      match goal with |- context [bind (bind ?z _) _] => destruct z as [own|er] eqn:Q; cbn [bind] end.
      + split.
        * intros [= <-]. split; cbn [k_unblock k_throw k_deprecated k_templates k_name fst snd]; [now apply U|now apply T|reflexivity|]. exists rest. split; [exact A|]. exists own. split; [|now apply W].
          split; [now apply check_iff|]. split; [now apply get_template_arg_iff|now apply G].
        * intros [KU KT KD (rest' & C' & own' & B & KN)]. assert (rest' = rest) by (eapply comes_after_fun; eauto). subst rest'. destruct k as [ku kt ks kn kd]. cbn [k_unblock k_throw k_deprecated k_templates k_name] in *.
          apply U in KU. apply T in KT. apply W in KN. destruct ks as [targs|]; [|elim (proj1 B); now apply check_iff]. destruct B as (_ & B & D). apply (get_template_arg_iff rest C) in B. subst targs.
          apply G in D. assert (own = own') by congruence. subst own'. cbn [fst snd]. congruence.
      + split; [discriminate|]. intros [KU KT KD (rest' & C' & own' & B & KN)]. assert (rest' = rest) by (eapply comes_after_fun; eauto). subst rest'.
        destruct (k_templates k) as [targs|]; [|elim (proj1 B); now apply check_iff]. destruct B as (_ & B & D). apply (get_template_arg_iff rest C) in B. subst targs. apply G in D. congruence.
    - cbn [bind fst snd]. assert (NI : ~ an_instance rest) by (intros H; apply check_iff in H; congruence). split.
      + intros [= <-]. split; cbn [k_unblock k_throw k_deprecated k_templates k_name]; [now apply U|now apply T|reflexivity|]. exists rest. split; [exact A|]. exists None. split; [split; [exact NI|reflexivity]|now apply W].
      + intros [KU KT KD (rest' & C' & own' & B & KN)]. assert (rest' = rest) by (eapply comes_after_fun; eauto). subst rest'. destruct k as [ku kt ks kn kd]. cbn [k_unblock k_throw k_deprecated k_templates k_name] in *.
        apply U in KU. apply T in KT. apply W in KN. destruct ks as [targs|]; [elim NI; apply B|]. destruct B as (_ & ->). congruence.
  Qed.
  Notation described := (described lookup_return lookup_parameter find_class exceptions_of).
  Notation scan_function := (scan_function lookup_return lookup_parameter find_class exceptions_of).
  Lemma readable_read f : readable exceptions_of f -> exists d, read exceptions_of (f_notes f) none = Ok d.
  Proof. intros (A & B). now apply read_total. Qed.
  Lemma params_ext f p q ps : (p <-> q) -> parameters_of lookup_parameter f p ps -> parameters_of lookup_parameter f q ps.
  Proof. intros E. unfold parameters_of. destruct (f_args f), ps; auto. intros ([H|H] & F); (split; [|exact F]); [left|right]; tauto. Qed.
  Lemma function_iff f : dict_like (f_notes f) -> forall x, scan_function f = Ok (strange_names (f_notes f), x) <-> described f x.
  Proof.
    intros N x. unfold scan_function. split.
    - destruct (read exceptions_of (f_notes f) none) as [d|] eqn:E; cbn [bind]; [|discriminate]. pose proof (read_readable _ _ _ _ E) as Rd. apply read_ok in E; [|exact N].
      pose proof E as (Hm & Hc & Hn & Hi & Hu & Ht & Hw). cbn in Hm, Hc, Hn, Hi. unfold value_in in *.
      destruct (v_ignore d) eqn:I.
      + intros [= _ <-]. destruct (dict_get (f_notes f) "ignore") as [v|] eqn:G; [|discriminate]. apply (dict_get_in _ _ _ N) in G. exact (DIgnored _ _ _ _ f v Rd G).
      + assert (NI : forall v, ~ noted f "ignore" v). { apply dict_get_none. destruct (dict_get (f_notes f) "ignore"); [discriminate|reflexivity]. }
        destruct (returned lookup_return f) as [r|] eqn:Er; cbn [bind]; [|discriminate]. apply (return_iff f N) in Er.
        destruct (arguments lookup_parameter f true (match v_method d with Some _ => true | None => false end) (f_args f)) as [ps|] eqn:Ep; cbn [bind]; [|discriminate]. apply arguments_iff in Ep.
        change (match dict_get (f_notes f) "as_method" with Some v => v | None => None end) with (get (f_notes f) "as_method") in Hm.
        change (match dict_get (f_notes f) "of_class" with Some v => v | None => None end) with (get (f_notes f) "of_class") in Hc.
        destruct (v_method d) as [m|].
        * symmetry in Hm. apply (get_iff _ _ _ N) in Hm. destruct (v_class d) as [c|]; [|discriminate]. symmetry in Hc. apply (get_iff _ _ _ N) in Hc. destruct (find_class c) as [c'|] eqn:Ec; cbn [bind]; [|discriminate].
          destruct (comment_of f) as [co|] eqn:Eo; cbn [bind]; [|discriminate]. apply (comment_iff f N) in Eo. intros [= _ <-]. eapply DMethod; eauto. eapply params_ext; [|exact Ep]. tauto.
        * symmetry in Hm. pose proof (proj1 (get_none _ _ N) Hm) as Um. destruct (get (f_notes f) "is_constructor_of") as [c|] eqn:Eg.
          -- apply (get_iff _ _ _ N) in Eg. destruct (find_class c) as [c'|] eqn:Ec; cbn [bind]; [|discriminate]. destruct (comment_of f) as [co|] eqn:Eo; cbn [bind]; [|discriminate]. apply (comment_iff f N) in Eo. intros [= _ <-].
             eapply DConstructor; eauto. eapply params_ext; [|exact Ep]. split; [discriminate|contradiction].
          -- pose proof (proj1 (get_none _ _ N) Eg) as Uc. destruct (keywords_of f d) as [k|] eqn:Ek; cbn [bind]; [|discriminate]. apply (keywords_iff f d N E) in Ek.
             destruct (comment_of f) as [co|] eqn:Eo; cbn [bind]; [|discriminate]. apply (comment_iff f N) in Eo. intros [= _ <-]. eapply DFunction; eauto. eapply params_ext; [|exact Ep]. split; [discriminate|contradiction].
    - intros D. assert (Rd : readable exceptions_of f) by (destruct D; assumption). destruct (readable_read f Rd) as (d & E). rewrite E. cbn [bind]. apply read_ok in E; [|exact N].
      pose proof E as (Hm & Hc & Hn & Hi & Hu & Ht & Hw). cbn in Hm, Hc, Hn, Hi, Hw. unfold value_in in *. rewrite Hw.
      change (match dict_get (f_notes f) "as_method" with Some v => v | None => None end) with (get (f_notes f) "as_method") in Hm.
      change (match dict_get (f_notes f) "of_class" with Some v => v | None => None end) with (get (f_notes f) "of_class") in Hc.
      assert (NI : (forall v, ~ noted f "ignore" v) -> v_ignore d = false). { intros X. apply dict_get_none in X. now rewrite Hi, X. }
      destruct D as [v _ G|m c full r ps co _ G M C F Er Ep Eo|c full r ps co _ G M C F Er Ep Eo|r ps k co _ G M C Er Ep Ek Eo].
      + apply (dict_get_in _ _ _ N) in G. rewrite Hi, G. reflexivity.
      + rewrite (NI G). apply (return_iff f N) in Er. rewrite Er. cbn [bind]. apply (get_iff _ _ _ N) in M, C. rewrite Hm, M. assert (Ep' : parameters_of lookup_parameter f (true = true) ps) by (eapply params_ext; [|exact Ep]; tauto).
        apply arguments_iff in Ep'. rewrite Ep'. cbn [bind]. rewrite Hc, C, F. cbn [bind]. apply (comment_iff f N) in Eo. rewrite Eo. reflexivity.
      + rewrite (NI G). apply (return_iff f N) in Er. rewrite Er. cbn [bind]. apply (get_iff _ _ _ N) in C. apply (get_none _ _ N) in M. rewrite Hm, M. assert (Ep' : parameters_of lookup_parameter f (false = true) ps) by (eapply params_ext; [|exact Ep]; split; [contradiction|discriminate]).
        apply arguments_iff in Ep'. rewrite Ep'. cbn [bind]. rewrite C, F. cbn [bind]. apply (comment_iff f N) in Eo. rewrite Eo. reflexivity.
      + rewrite (NI G). apply (return_iff f N) in Er. rewrite Er. cbn [bind]. apply (get_none _ _ N) in M, C. rewrite Hm, M. assert (Ep' : parameters_of lookup_parameter f (false = true) ps) by (eapply params_ext; [|exact Ep]; split; [contradiction|discriminate]).
        apply arguments_iff in Ep'. rewrite Ep'. cbn [bind]. rewrite C. apply (keywords_iff f d N E) in Ek. rewrite Ek. cbn [bind]. apply (comment_iff f N) in Eo. rewrite Eo. reflexivity.
  Qed.
  Lemma function_warned f w x : dict_like (f_notes f) -> scan_function f = Ok (w, x) -> w = strange_names (f_notes f).
  Proof.
    intros N. unfold scan_function. destruct (read exceptions_of (f_notes f) none) as [d|] eqn:E; cbn [bind]; [|discriminate]. apply read_ok in E; [|exact N]. destruct E as (_ & _ & _ & _ & _ & _ & Hw). cbn in Hw. rewrite <- Hw.
    repeat match goal with |- context [match ?e with _ => _ end] => destruct e; cbn [bind] | |- context [bind ?e _] => destruct e; cbn [bind] end; try discriminate; intros [= <- _]; reflexivity.
  Qed.
  Lemma described_fun f x y : dict_like (f_notes f) -> described f x -> described f y -> x = y.
  Proof. intros N A B. apply (function_iff f N) in A, B. congruence. Qed.

  Notation types_known := (types_known known_return known_parameter).
  Notation known_calls := (known_calls known_return known_parameter).
  Lemma known_iff (c : @call R P) : call_known known_return known_parameter c = true <-> types_known c.
  Proof. destruct c; cbn; rewrite Bool.andb_true_iff, forallb_forall; reflexivity. Qed.
  Lemma known_app l : forall m l' m', known_calls l m -> known_calls l' m' -> known_calls (l ++ l')%list (m ++ m')%list.
  Proof. induction l as [|x l IH]; intros m l' m' A B; inversion A; subst; cbn [app]; [exact B| |]; constructor; auto. Qed.
  Notation scan_functions := (scan_functions lookup_return lookup_parameter known_return known_parameter find_class exceptions_of).
  Lemma functions_sound l : Forall (fun f => dict_like (f_notes f)) l -> forall o o', scan_functions l o = Ok o' ->
    exists xs, Forall2 described l xs /\ o_script o' = (o_script o ++ present xs)%list /\ (exists m, o_memory o' = (o_memory o ++ m)%list /\ known_calls (present xs) m) /\
      o_warned o' = (o_warned o ++ flat_map strange l)%list.
  Proof.
    induction 1 as [|f l N F IH]; intros o o'; cbn [FunctionScan.scan_functions].
    - intros [= <-]. exists []. cbn. rewrite !app_nil_r. repeat split; [constructor|]. exists []. rewrite app_nil_r. split; [reflexivity|constructor].
    - destruct (scan_function f) as [[w x]|] eqn:E; cbn [bind]; [|discriminate]. pose proof (function_warned f w x N E) as ->. apply (function_iff f N) in E. cbn [fst snd]. intros H. apply IH in H. destruct H as (xs & A & B & (m & C & K) & D).
      assert (S : map (fun n => (f_name f, n)) (strange_names (f_notes f)) = strange f). { unfold strange_names, strange. now rewrite map_map. }
      exists (x :: xs). split; [constructor; assumption|]. destruct x as [[co c]|]; cbn [o_script o_memory o_warned present flat_map] in *.
      + rewrite B, D, S, <- !app_assoc. cbn [app]. split; [reflexivity|]. split; [|reflexivity]. destruct (call_known known_return known_parameter c) eqn:Q.
        * exists (c :: m). rewrite C, <- app_assoc. split; [reflexivity|]. constructor; [now apply known_iff|exact K].
        * exists m. split; [exact C|]. constructor; [|exact K]. intros X. apply known_iff in X. congruence.
      + rewrite B, D, S, <- !app_assoc. split; [reflexivity|]. split; [exists m; auto|reflexivity].
  Qed.
  Lemma functions_total l : Forall (fun f => dict_like (f_notes f)) l -> (forall f, In f l -> exists x, described f x) -> forall o, exists o', scan_functions l o = Ok o'.
  Proof.
    induction 1 as [|f l N F IH]; intros H o; cbn [FunctionScan.scan_functions]; [eauto|]. destruct (H f ltac:(now left)) as (x & X). apply (function_iff f N) in X. rewrite X. cbn [bind]. apply IH. intros g G. apply H. now right.
  Qed.
  Notation scan := (scan lookup_return lookup_parameter known_return known_parameter find_class exceptions_of).
  Lemma scanned_in fs f : In f (scanned fs) -> In f fs /\ ~ hidden f.
  Proof. unfold scanned. intros H. apply sort_in, filter_In in H. destruct H as (H & S). split; [exact H|now apply shown_iff]. Qed.
  Lemma scan_sound fs o : (forall f, In f fs -> dict_like (f_notes f)) -> scan fs = Ok o ->
    exists l xs, ordered fs l /\ Forall2 described l xs /\ o_script o = present xs /\ known_calls (o_script o) (o_memory o) /\ o_warned o = flat_map strange l.
  Proof.
    intros N H. apply functions_sound in H.
    - destruct H as (xs & A & B & (m & C & K) & D). cbn in B, C, D. exists (scanned fs), xs. split; [apply scanned_ordered|]. split; [exact A|]. split; [exact B|]. split; [|exact D]. rewrite B, C. exact K.
    - apply Forall_forall. intros f F. apply N. now apply scanned_in in F.
  Qed.
  Lemma scan_total fs : (forall f, In f fs -> dict_like (f_notes f)) -> (forall f, In f fs -> ~ hidden f -> exists x, described f x) -> exists o, scan fs = Ok o.
  Proof.
    intros N H. apply functions_total.
    - apply Forall_forall. intros f F. apply N. now apply scanned_in in F.
    - intros f F. apply scanned_in in F. now apply H.
  Qed.
End Scan.
