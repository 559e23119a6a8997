From Verif.Model Require Import Py PyState Mangle Errors Overloading Module.
From Verif.Spec Require Import OverloadSpec ModuleSpec PolicySpec SectionSpec.
From Verif.Proofs Require Import StrLemmas OverloadProofs ModuleProofs ModuleSteps ModuleNames ModulePaths Steps GenSteps PruneProofs EscapeProofs DeclaredProofs ScriptProofs EscapeTop OfferProofs PlaceProofs HeaderProofs OnceProofs CompleteProofs.
From Coq Require Import Lia Permutation.
Open Scope string_scope.
Open Scope list_scope.
Open Scope st_scope.

(** Without an error handler the code of every function is written. *)
Lemma numbered_in base ks : forall n w, In w ks -> exists nm, In (fw_id w, nm) (numbered base n ks).
Proof.
  induction ks as [|u ks IH]; intros n w I; [destruct I|]. cbn [numbered]. destruct I as [<-|I]; [eexists; left; reflexivity|].
  destruct (IH (Datatypes.S n) w I) as (nm & J). exists nm. now right.
Qed.
Lemma functions_of_in ks kw w : In w ks -> exists nm b, In (CFunction (fw_id w) nm b) (functions_of ks kw).
Proof.
  intros I. unfold functions_of. destruct ks as [|u r]; [destruct I|].
  destruct (match r with [] => negb (fw_needs_interface u) | _ => false end) eqn:D.
  - destruct r as [|u2 r]; [|discriminate]. destruct I as [->|[]]. eexists _, _. now left.
  - destruct (numbered_in (fw_base u) (u :: r) 0 w I) as (nm & J). exists nm, true. apply in_or_app. left. apply in_map_iff. exists (fw_id w, nm). auto.
Qed.
Lemma written k cs g c : In c cs -> In (k, PChunk c) (g_out (writes (write_to k) cs g)).
Proof.
  assert (M : forall cs g x, In x (g_out g) -> In x (g_out (writes (write_to k) cs g))).
  { clear. induction cs as [|c cs IH]; intros g x I; [exact I|]. apply (IH (write_to k c g)). cbn. apply in_or_app. now left. }
  revert g. induction cs as [|c' cs IH]; intros g I; [destruct I|]. destruct I as [->|I].
  - apply (M cs (write_to k c g)). cbn. apply in_or_app. right. now left.
  - exact (IH (write_to k c' g) I).
Qed.
Lemma function_written multi f g g' r : no_skips f -> fs_wrappers f <> [] -> gen_function None multi f g = (g', Ok r) ->
  forall w, In w (fs_wrappers f) -> exists nm b, In (place multi (set_section_of f), PChunk (CFunction (fw_id w) nm b)) (g_out g').
Proof.
  intros NS NE G w I. pose proof (function_no_handler multi f g g' r NS NE G) as (_ & K).
  destruct (gen_function_eq multi None f g) as (g1 & _ & E). set (k := place multi (set_section_of f)) in *.
  assert (X : exists cs g2 res, generate_overload gnote (write_to k) None (fs_wrappers f) g1 = (writes (write_to k) cs g2, Ok res) /\
    exists nm b, In (CFunction (fw_id w) nm b) cs).
  { destruct (Nat.eq_dec (length (fs_wrappers f)) 1) as [L|L].
    - destruct (fs_wrappers f) as [|u [|u2 l]]; try discriminate L. destruct I as [->|[]].
      assert (C : clean [w]).
      { left. exists w. split; [reflexivity|]. unfold sole_problem in K. destruct (fw_body w (fw_forced w)) as [fl|]; [|discriminate].
        split; [eauto|]. intros N. rewrite N in K. destruct (fw_body w true); [eauto|discriminate]. }
      destruct (clean_overload _ C) as (cs & ks' & base & Go & _ & (w0 & r0 & E0 & _ & fl & _ & Fc) & _). exists cs, g1, (ks', base). split; [apply Go|].
      destruct (functions_of_in [w] (mem "METH_KEYWORDS" fl) w (or_introl eq_refl)) as (nm & b & J). exists nm, b. rewrite <- Fc in J. apply filter_In in J. apply J.
    - assert (Sv : survive None (fs_wrappers f) (fs_wrappers f)) by (destruct (fs_wrappers f) as [|u [|u2 l]]; [exact K|now destruct L|exact K]).
      destruct (normalize_cases gnote None (fs_wrappers f) g1 L) as [(ks & s' & Sv' & N & _)|(u & e1 & s' & Iu & Rj & N)].
      + assert (ks = fs_wrappers f) by exact (survive_det _ _ _ Sv' _ Sv). subst ks.
        pose proof (generate_many gnote (write_to k) None _ _ g1 s' L N Sv) as M. destruct (fs_wrappers f) as [|u0 r0] eqn:Fw; [now destruct NE|].
        destruct M as (fl & _ & M). eexists _, s', _. split; [exact M|].
        destruct (functions_of_in (u0 :: r0) (mem "METH_KEYWORDS" fl) w I) as (nm & b & J). exists nm, b. rewrite <- chunks_functions in J. apply filter_In in J. apply J.
      + exfalso. assert (Go : generate_overload gnote (write_to k) None (fs_wrappers f) g1 = (s', Err e1)) by (unfold generate_overload; now rewrite (sbind_err _ _ _ _ _ N)).
        assert (Hd : exists a, handled None (fs_id f) (generate_overload gnote (write_to k) None (fs_wrappers f)) g1 = (s', a) /\ (a = Err e1 \/ e1 = SkipWrapper)).
        { unfold handled, try_except. unfold sbind, call_with_error_handling. rewrite Go. destruct (exc_eq_dec e1 SkipWrapper); eexists; (split; [reflexivity|auto]). }
        destruct Hd as (a & Hd & [->| ->]); [rewrite (E _ _ Hd) in G; discriminate|]. destruct Rj as [B|B]; [exact (NS u true Iu B)|discriminate]. }
  destruct X as (cs & g2 & [ws base] & Go & nm & b & J). pose proof (written k cs g2 _ J) as W. exists nm, b.
  rewrite (E _ _ (handled_ok None (fs_id f) _ _ _ _ Go)) in G.
  assert (St : steps grows (rest None f k ws)).
  { unfold rest. apply steps_bind; [exact grows_trans| |].
    - apply steps_handled; [exact grows_refl|exact grows_trans|intros; apply gr_note, grows_refl|]. apply steps_bind; [exact grows_trans| |].
      + apply steps_overload; [exact grows_refl|exact grows_trans|intros; apply gr_note, grows_refl|intros; apply grows_refl].
      + intros x. apply steps_bind; [exact grows_trans|apply grows_put|]. intros _. apply steps_ret, grows_refl.
    - intros [[ws' b']|]; [|apply steps_ret, grows_refl]. apply steps_bind; [exact grows_trans|apply grows_put|]. intros _.
      apply steps_bind; [exact grows_trans|apply steps_row; [exact grows_refl|exact grows_trans|intros; apply gr_note, grows_refl]|]. intros x. apply steps_ret, grows_refl. }
  eapply grows_out; [exact (step_of _ _ _ _ St G)|exact W].
Qed.

Section Top.
  Context {V : Type} (make : list string -> list (string * string) -> res V).
  Lemma in_names i n (tr : list (call V * res answer)) : forall now d s, In (d, s) (functions_from i n now tr) -> In n (names_of i tr).
  Proof.
    induction tr as [|e tr IH]; intros now d s I; [destruct I|]. change (e :: tr) with ([e] ++ tr). rewrite names_app. apply in_or_app.
    cbn [functions_from] in I. apply in_app_or in I. destruct I as [I|I]; [left|right; eapply IH; eauto].
    destruct e as [c r]. destruct c; try contradiction. destruct r as [[]|]; try contradiction. cbn [names_of]. destruct (Nat.eqb i0 i); cbn [andb] in I; [|destruct I].
    destruct (String.eqb_spec name n); [subst; now left|destruct I].
  Qed.
  Lemma script_module_of_type p0 name ns cs w tr i d full s : run make p0 cs (new_root name ns) = (w, tr) -> In (d, full, s) (types_in i tr) ->
    exists m t, nth_error (w_mods w) i = Some m /\ In t (m_types m) /\ describes (d, full, s) t.
  Proof.
    intros H I. pose proof (run_types make p0 i cs _ _ _ [] H) as T. destruct (root_at name ns i) as (_ & R2). rewrite R2 in T. specialize (T (Forall2_nil _)).
    change (w_section (new_root name ns)) with "__main__" in T. cbn [app] in T. fold (types_in i tr) in T. unfold types_at in T.
    destruct (nth_error (w_mods w) i) as [m|].
    - exists m. revert I. induction T as [|x y l l' D _ IH]; intros I; [destruct I|]. destruct I as [->|I].
      + exists y. split; [reflexivity|]. split; [now left|exact D].
      + destruct (IH I) as (t & A & B & C). exists t. split; [exact A|]. split; [now right|exact C].
    - inversion T as [X|]. rewrite <- X in I. destruct I.
  Qed.
  Lemma script_set_of p0 name ns cs w tr i n d s : run make p0 cs (new_root name ns) = (w, tr) -> In (d, s) (functions_named i n tr) ->
    exists m f, nth_error (w_mods w) i = Some m /\ In f (m_functions m) /\ fs_name f = n.
  Proof.
    intros H I. apply in_names in I. destruct (run_sets make p0 i cs _ _ _ [] (fun _ => []) H) as (A & _).
    { destruct (root_at name ns i) as (R1 & _). rewrite R1. split; [reflexivity|contradiction]. } { reflexivity. }
    cbn [app] in A. apply first_in in I. rewrite <- A in I. unfold functions_at in I. destruct (nth_error (w_mods w) i) as [m|]; [|destruct I].
    apply in_map_iff in I. destruct I as (f & E & I). exists m, f. auto.
  Qed.
  (** Everything a type writes is in the file of its section. *)
  Theorem script_types_complete p0 name ns cs w tr p multi g : run make p0 cs (new_root name ns) = (w, tr) -> generate p multi w = (g, Ok tt) ->
    forall i d full s, In (d, full, s) (types_in i tr) ->
    (forall x, In (AText x) (td_body d) -> In (file_of multi s, PText x (td_id d)) (g_out g)) /\
    (td_kind d <> KEnum -> forall x, In (AText x) (td_forward d) -> In (SHeader, PForward x (td_id d)) (g_out g)).
  Proof.
    intros H G i d full s I. destruct (script_module_of_type _ _ _ _ _ _ _ _ _ _ H I) as (m & t & E & It & D).
    destruct (script_sets make p0 name ns cs w tr i m H E) as (_ & _ & _ & B). destruct (generate_ran p multi w g G i m B E) as (_ & Rt & Rf).
    unfold describes in D. cbn [fst snd] in D. destruct D as (D1 & D2 & _ & _ & D5 & _ & _ & D8 & D9). split.
    - intros x Ix. destruct (type_ran multi t g (Rt t It)) as (Q & _). rewrite D1, D5, D9 in Q. auto.
    - intros K x Ix. rewrite <- D2 in K. destruct (Rf t It K) as (Q & _). rewrite D1, D8 in Q. auto.
  Qed.
  (** Without an error handler every function is written, together with those of its name. *)
  Theorem script_functions_complete p0 name ns cs w tr multi g : run make p0 cs (new_root name ns) = (w, tr) -> generate None multi w = (g, Ok tt) ->
    forall i n d s, In (d, s) (functions_named i n tr) -> (forall d' s', In (d', s') (functions_named i n tr) -> forall r ps b, fd_body d' r ps b <> Err SkipWrapper) ->
    exists d0 s0 ds nm b, functions_named i n tr = (d0, s0) :: ds /\ In (file_of multi s0, PChunk (CFunction (fd_id d) nm b)) (g_out g).
  Proof.
    intros H G i n d s I NS. destruct (script_set_of _ _ _ _ _ _ _ _ _ _ H I) as (m & f & E & If & <-).
    destruct (script_sets make p0 name ns cs w tr i m H E) as (_ & F & _ & B). destruct (F f If) as (Fa & NE).
    destruct (generate_ran None multi w g G i m B E) as (Rf & _ & _). destruct (Rf f If) as (g1 & g2 & r & Gf & Gr).
    assert (Sk : no_skips f).
    { intros u b Iu. clear -Fa Iu NS. induction Fa as [|[d' s'] y l l' W Fa IH]; [destruct Iu|]. destruct Iu as [<-|Iu].
      - destruct W as (_ & _ & _ & _ & _ & _ & _ & rv & ps & _ & _ & Bd). rewrite Bd. apply (NS d' s'). now left.
      - apply IH; [|exact Iu]. intros d1 s1 I1. apply (NS d1 s1). now right. }
    assert (X : exists u, In u (fs_wrappers f) /\ fw_id u = fd_id d).
    { clear -Fa I. induction Fa as [|x y l l' W Fa IH]; [destruct I|]. destruct I as [->|I].
      - exists y. split; [now left|apply W].
      - destruct (IH I) as (u & A & C). exists u. split; [now right|exact C]. }
    destruct X as (u & Iu & <-). destruct (function_written multi f g1 g2 r Sk NE Gf u Iu) as (nm & b & J).
    destruct (declared_set make p0 name ns cs w tr f H) as (i' & d0 & s0 & ds & Efn & Sec & _); [exists i, m; auto|].
    destruct (fs_wrappers f) as [|v vs] eqn:Fw; [now destruct NE|]. inversion Fa as [|x ? l ? Wv Wl El Er]. subst. destruct x as [d1 s1].
    exists d1, s1, l, nm, b. split; [reflexivity|]. eapply grows_out; [exact Gr|].
    replace (file_of multi s1) with (place multi (set_section_of f)); [exact J|]. unfold set_section_of. rewrite Fw. unfold place, file_of.
    destruct Wv as (_ & Q & _). cbn [snd] in Q. rewrite Q. reflexivity.
  Qed.
  Lemma enum_claims p0 name ns cs w tr : run make p0 cs (new_root name ns) = (w, tr) -> no_enum_claims tr ->
    forall i m t, nth_error (w_mods w) i = Some m -> In t (m_types m) -> ti_kind t = KEnum -> ti_claim t = None.
  Proof.
    intros H N i m t E I K. destruct (script_sets make p0 name ns cs w tr i m H E) as (_ & _ & D & _).
    assert (X : exists x, In x (types_in i tr) /\ describes x t).
    { clear -D I. induction D as [|x y l l' W D IH]; [destruct I|]. destruct I as [->|I]; [exists x; split; [now left|exact W]|].
      destruct (IH I) as (z & A & B). exists z. split; [now right|exact B]. }
    destruct X as ([[d full] s] & J & Q). unfold describes in Q. cbn [fst snd] in Q. destruct Q as (_ & Q2 & _ & _ & _ & _ & Q7 & _).
    rewrite Q7. apply (N i d full s J). congruence.
  Qed.
  (** One-time definitions: none twice, none claimed before. *)
  Theorem script_once p0 name ns cs w tr p multi g r : run make p0 cs (new_root name ns) = (w, tr) -> no_enum_claims tr ->
    generate p multi w = (g, r) -> NoDup (definitions (g_out g) ++ claimed tr).
  Proof.
    intros H N G. destruct (script_fields make p0 _ _ _ _ _ H) as (_ & Eo & ND & _).
    destruct (defined_once p multi w g r) as (L & (_ & _ & A & B) & _); [now rewrite Eo|exact (enum_claims _ _ _ _ _ _ H N)|exact G|].
    rewrite Eo in B. pose proof (Permutation_NoDup B A) as Q. clear -Q.
    rewrite (Permutation_app_comm L), app_assoc in Q. revert Q. generalize (definitions (g_out g) ++ claimed tr). intros l Q. induction l as [|x l IH]; [constructor|].
    cbn [app] in Q. inversion Q as [|? ? Nx Nl]. subst. constructor; [|auto]. intros I. apply Nx, in_or_app. now left.
  Qed.
  (** What a type asks for is defined, unless it was claimed before. *)
  Theorem script_once_complete p0 name ns cs w tr p multi g : run make p0 cs (new_root name ns) = (w, tr) -> no_enum_claims tr ->
    generate p multi w = (g, Ok tt) -> forall i d full s n, In (d, full, s) (types_in i tr) ->
    (td_claim d = Some n \/ (exists b, In (AOnce n b) (td_body d)) \/ (td_kind d <> KEnum /\ exists b, In (AOnce n b) (td_forward d))) ->
    In n (definitions (g_out g)) \/ In n (claimed tr).
  Proof.
    intros H N G i d full s n I A. destruct (script_fields make p0 _ _ _ _ _ H) as (_ & Eo & ND & _).
    destruct (defined_once p multi w g (Ok tt)) as (L & (_ & _ & _ & B) & El); [now rewrite Eo|exact (enum_claims _ _ _ _ _ _ H N)|exact G|].
    rewrite (El eq_refl), Eo in B. cbn [app] in B. apply in_app_or. eapply Permutation_in; [exact B|].
    destruct (script_module_of_type _ _ _ _ _ _ _ _ _ _ H I) as (m & t & E & It & D).
    destruct (script_sets make p0 name ns cs w tr i m H E) as (_ & _ & _ & Bl). destruct (generate_ran p multi w g G i m Bl E) as (_ & Rt & Rf).
    unfold describes in D. cbn [fst snd] in D. destruct D as (D1 & D2 & _ & _ & D5 & _ & D7 & D8 & D9). destruct A as [A|[(b & A)|(K & b & A)]].
    - assert (K : ti_kind t <> KEnum) by (intros K; rewrite D2 in K; rewrite (N _ _ _ _ I K) in A; discriminate).
      destruct (Rf t It K) as (_ & _ & Q). apply Q. congruence.
    - destruct (type_ran multi t g (Rt t It)) as (_ & Q). rewrite D9 in Q. eauto.
    - rewrite <- D2 in K. destruct (Rf t It K) as (_ & Q & _). rewrite D8 in Q. eauto.
  Qed.
End Top.
Section Top2.
  Context {V : Type} (make : list string -> list (string * string) -> res V).
  Theorem script_own_section p0 name ns cs w tr multi g : run make p0 cs (new_root name ns) = (w, tr) -> generate None multi w = (g, Ok tt) ->
    forall i n d s, In (d, s) (functions_named i n tr) -> (forall d' s', In (d', s') (functions_named i n tr) -> s' = s) ->
    (forall d' s', In (d', s') (functions_named i n tr) -> forall r ps b, fd_body d' r ps b <> Err SkipWrapper) ->
    exists nm b, In (file_of multi s, PChunk (CFunction (fd_id d) nm b)) (g_out g).
  Proof.
    intros H G i n d s I Same NS. destruct (script_functions_complete make _ _ _ _ _ _ _ _ H G i n d s I NS) as (d0 & s0 & ds & nm & b & E & J).
    exists nm, b. replace s with s0; [exact J|]. apply (Same d0). rewrite E. now left.
  Qed.
  Theorem script_section p0 name ns cs w tr : run make p0 cs (new_root name ns) = (w, tr) -> w_section w = current tr.
  Proof. intros H. apply (script_fields make p0 _ _ _ _ _ H). Qed.
  Theorem script_begin_end p0 name ns cs w tr i s : run make p0 cs (new_root name ns) = (w, tr) -> i < length (w_mods w) ->
    (snd (run_call make p0 (CBegin i s) w) = Ok RNone <-> i = 0 /\ current tr = "__main__" /\ s <> "__main__") /\
    (snd (run_call make p0 (CEnd i s) w) = Ok RNone <-> i = 0 /\ current tr = s).
  Proof.
    intros H L. destruct (valid_nth (w_mods w) i L) as (m & E). destruct (run_inv make p0 _ _ _ _ (root_wf name ns) (root_prefixed name ns) H) as (W & _ & _).
    rewrite <- (script_section _ _ _ _ _ _ H).
    assert (R : is_root i w = true <-> i = 0).
    { unfold is_root. rewrite E. split.
      - destruct (m_parent m) eqn:P; [discriminate|]. intros _. exact (wf_only _ W _ _ E P).
      - intros ->. destruct (wf_root _ W) as (m0 & E0 & P0). replace m with m0 by congruence. now rewrite P0. }
    assert (Gm : get_mod i w = (w, Ok m)) by (unfold get_mod; now rewrite E). cbn [run_call]. rewrite !(sbind_ok _ _ _ _ _ Gm). split.
    - unfold sbind, begin_section. destruct (String.eqb_spec (w_section w) "__main__") as [Es|Es]; cbn [negb].
      + destruct (String.eqb_spec s "__main__") as [->|Ns]; cbn [snd]; [split; [discriminate|tauto]|].
        destruct (is_root i w) eqn:Ri; cbn [snd ret].
        * split; [intros _; split; [now apply R|auto]|reflexivity].
        * split; [discriminate|]. intros (Z & _). apply R in Z. congruence.
      + cbn [snd]. split; [discriminate|tauto].
    - unfold sbind, end_section. destruct (is_root i w) eqn:Ri.
      + destruct (String.eqb_spec (w_section w) s) as [Es|Es]; cbn [snd ret]; [split; [intros _; split; [now apply R|exact Es]|reflexivity]|split; [discriminate|tauto]].
      + cbn [snd]. split; [discriminate|]. intros (Z & _). apply R in Z. congruence.
  Qed.
  Theorem script_declare_once p0 name ns cs w tr i s : run make p0 cs (new_root name ns) = (w, tr) -> i < length (w_mods w) ->
    snd (run_call make p0 (COnce i s) w) = if mem s (claimed tr) then Err KeyError else Ok RNone.
  Proof.
    intros H L. destruct (valid_nth (w_mods w) i L) as (m & E). destruct (script_fields make p0 _ _ _ _ _ H) as (_ & <- & _).
    assert (Gm : get_mod i w = (w, Ok m)) by (unfold get_mod; now rewrite E). cbn [run_call]. rewrite !(sbind_ok _ _ _ _ _ Gm).
    unfold sbind, declare_one_time_definition. destruct (mem s (w_once w)); reflexivity.
  Qed.
  Theorem script_add_include p0 name ns cs w tr i s : run make p0 cs (new_root name ns) = (w, tr) -> i < length (w_mods w) ->
    (include_form s -> snd (run_call make p0 (CInclude i s) w) = Ok RNone) /\ (~ include_form s -> snd (run_call make p0 (CInclude i s) w) = Err AssertionError).
  Proof.
    intros H L. destruct (valid_nth (w_mods w) i L) as (m & E). destruct (script_fields make p0 _ _ _ _ _ H) as (_ & _ & _ & I).
    assert (Gm : get_mod i w = (w, Ok m)) by (unfold get_mod; now rewrite E). cbn [run_call]. rewrite !(sbind_ok _ _ _ _ _ Gm).
    unfold sbind, add_include. rewrite I.
    assert (F : include_form s <-> include_ok s = true).
    { clear. unfold include_ok, include_form, double_quote, quote_char.
      assert (Lc : forall t b, last_char (t ++ String b "") = Some b) by (induction t as [|x t IH]; intros b; [reflexivity|]; cbn; rewrite IH; now destruct t).
      assert (Lx : forall t x b, last_char (String x (t ++ String b "")) = Some b) by (intros t x b; apply (Lc (String x t) b)).
      split.
      - intros (a & b & t & A & B & [-> | (-> & <-)]).
        + rewrite Lx. cbn [first_char is_char]. destruct A as [-> | ->], B as [-> | ->]; reflexivity.
        + cbn [first_char last_char is_char]. destruct A as [-> | ->], B as [B|B]; try discriminate B; reflexivity.
      - intros H. apply andb_prop in H. destruct H as (A & B). destruct s as [|a r]; [discriminate A|]. cbn [first_char is_char] in A.
        assert (Z : r = "" \/ exists t b, r = (t ++ String b "")%string).
        { clear. induction r as [|x r IH]; [now left|]. right. destruct IH as [-> | (t & b & ->)]; [exists "", x; reflexivity|exists (String x t), b; reflexivity]. }
        assert (A' : a = ascii_of_nat 34 \/ a = "<"%char) by (apply orb_prop in A; destruct A as [A|A]; apply Ascii.eqb_eq in A; auto).
        destruct Z as [-> | (t & b & ->)].
        + cbn [last_char is_char] in B. apply orb_prop in B. exists a, a, "". split; [exact A'|]. split; [|auto]. destruct B as [B|B]; apply Ascii.eqb_eq in B; auto.
        + rewrite Lx in B. cbn [is_char] in B. apply orb_prop in B. exists a, b, t. split; [exact A'|]. split; [|auto]. destruct B as [B|B]; apply Ascii.eqb_eq in B; auto. }
    split; intros X.
    - apply F in X. rewrite X. destruct (mem s _); reflexivity.
    - destruct (include_ok s); [exfalso; now apply X, F|reflexivity].
  Qed.
End Top2.
Lemma type_in_script {V} (make : list string -> list (string * string) -> res V) p cs : forall w i now d full s,
  In (d, full, s) (types_from i now (snd (run make p cs w))) -> In (CType i d) cs.
Proof.
  induction cs as [|c cs IH]; intros w i now d full s I; cbn [run snd types_from] in I; [destruct I|]. apply in_app_or in I. destruct I as [I|I].
  - left. destruct c; try contradiction. destruct (snd (run_call make p _ w)) as [[]|]; try contradiction. destruct (Nat.eqb_spec i0 i); [|destruct I].
    destruct I as [I|[]]. assert (t = d) by exact (f_equal (fun x => fst (fst x)) I). now subst.
  - right. eapply IH; eauto.
Qed.
