From Verif.Model Require Import Py PyState Mangle Errors Overloading Module.
From Verif.Spec Require Import OverloadSpec ModuleSpec PolicySpec.
From Verif.Proofs Require Import StrLemmas OverloadProofs ModuleProofs ModuleSteps.
From Coq Require Import Lia.
Open Scope string_scope.
Open Scope list_scope.
Open Scope st_scope.

(** ** Sets without problems *)
Definition clean (ks : list fwrapper) : Prop :=
  (exists w, ks = [w] /\ (exists f, fw_body w (fw_forced w) = Ok f) /\ (fw_needs_interface w = true -> exists f, fw_body w true = Ok f)) \/
  (2 <= length ks /\ map force ks = ks /\ exists fl, fine None ks fl).

Lemma handling_ok {S A} (note : nat -> pyexc -> S -> S) p l k (m : st S A) s s' a : m s = (s', Ok a) -> call_with_error_handling note p l k m s = (s', Ok a).
Proof. intros E. unfold call_with_error_handling. destruct p; [unfold try_except|]; now rewrite E. Qed.

Lemma fine_ok fl ws fl' : fine fl ws fl' -> forall w, In w ws -> exists f, fw_body w true = Ok f.
Proof. induction 1 as [fl|w f ws ex B H IH|w f g ws ex B Q H IH]; intros u I; [destruct I|..]; destruct I as [<-|I]; eauto. Qed.

(** What generating a clean set gives, whatever the policy. *)
Lemma clean_overload ks : clean ks -> exists cs ks' base,
  (forall S (note : nat -> pyexc -> S -> S) write p s, generate_overload note write p ks s = (writes write cs s, Ok (ks', base))) /\ clean ks' /\
  (exists w r, ks = w :: r /\ base = fw_base w /\ exists f, fw_body w (fw_forced w) = Ok f /\ filter no_blank cs = functions_of ks (mem "METH_KEYWORDS" f)) /\ ks' = (if match ks with [w] => negb (fw_needs_interface w) | _ => false end then ks else map force ks).
Proof.
  intros [(w & -> & (f & B) & NI)|(L & F & fl & Fi)].
  - destruct (fw_needs_interface w) eqn:N.
    + destruct (NI eq_refl) as (f' & B').
      exists (delegate_chunks (fw_base w) 0 [w] ++ [CBlank; CAggregator (fw_base w) (map snd (numbered (fw_base w) 0 [w])) (mem "METH_KEYWORDS" f)]), [force w], (fw_base w).
      split; [|split; [|split; [exists w, []; split; [reflexivity|]; split; [reflexivity|]; exists f; split; [exact B|cbn [functions_of]; now rewrite N]|reflexivity]]].
      * intros S note write p s. unfold generate_overload. cbn [normalize_flags].
        rewrite (sbind_ok _ _ _ _ _ (eq_refl : ret [w] s = (s, Ok [w]))). rewrite N. cbn [negb].
        assert (G : lift (get_flags w) s = (s, Ok f)) by (unfold lift, get_flags; now rewrite B).
        rewrite (sbind_ok _ _ _ _ _ G).
        assert (D : generate_delegates note write p (fw_base w) 0 [w] s = (writes write (delegate_chunks (fw_base w) 0 [w]) s, Ok (map snd (numbered (fw_base w) 0 [w])))).
        { cbn [generate_delegates].
          assert (X : call_with_error_handling note p generation_errors (fw_id w) (generate_wrapper write (force w) (actual_name w (delegate_name (fw_base w) 0)) true) (write CBlank s)
            = (write (CFunction (fw_id w) (actual_name w (delegate_name (fw_base w) 0)) true) (write CBlank s), Ok tt)).
          { apply handling_ok. unfold generate_wrapper, sbind, lift. change (get_flags (force w)) with (fw_body w true). rewrite B'. reflexivity. }
          unfold sbind at 1, modify at 1. unfold sbind at 1. unfold try_except at 1. unfold sbind at 1. rewrite X. reflexivity. }
        rewrite (sbind_ok _ _ _ _ _ D). reflexivity.
      * left. exists (force w). split; [reflexivity|]. split; [exists f'; exact B'|]. intros _. exists f'. exact B'.
    + exists [CFunction (fw_id w) (fw_base w) false], [w], (fw_base w).
      split; [|split; [|split; [exists w, []; split; [reflexivity|]; split; [reflexivity|]; exists f; split; [exact B|cbn [functions_of]; now rewrite N]|reflexivity]]].
      * intros S note write p s. unfold generate_overload. cbn [normalize_flags].
        rewrite (sbind_ok _ _ _ _ _ (eq_refl : ret [w] s = (s, Ok [w]))). rewrite N. cbn [negb].
        assert (X : call_with_error_handling note p generation_errors (fw_id w) (generate_wrapper write w (fw_base w) false) s = (write (CFunction (fw_id w) (fw_base w) false) s, Ok tt)).
        { apply handling_ok. unfold generate_wrapper, sbind, lift, get_flags. rewrite B. reflexivity. }
        rewrite (sbind_ok _ _ _ _ _ X). reflexivity.
      * left. exists w. split; [reflexivity|]. split; [eauto|]. rewrite N. discriminate.
  - destruct ks as [|w [|w2 r]]; cbn [length] in L; [lia|lia|]. set (ks := w :: w2 :: r) in *.
    pose proof (proj1 (fine_all _ _ _ Fi)) as Sv.
    destruct (fine_ok _ _ _ Fi w (or_introl eq_refl)) as (f & B).
    exists (chunks_of ks (mem "METH_KEYWORDS" f)), ks, (fw_base w). split; [|split; [|split; [|cbn [ks]; exact (eq_sym F)]]].
    + intros S note write p s. assert (NL : length ks <> 1) by (cbn; lia).
      assert (N : normalize_flags note p ks s = (s, Ok (map force ks))) by (rewrite <- F at 1; apply normalize_fine; eauto).
      pose proof (generate_many note write p ks ks s s NL N Sv) as M. cbn [ks] in M. destruct M as (f' & B' & M).
      assert (f' = f) by congruence. subst f'. fold ks in M. now rewrite F in M.
    + right. split; [cbn; lia|]. eauto.
    + exists w, (w2 :: r). split; [reflexivity|]. split; [reflexivity|]. exists f. split; [|apply chunks_functions].
      assert (Fw : force w = w) by exact (f_equal (hd w) F). rewrite <- Fw. exact B.
Qed.

Lemma clean_row ks : clean ks -> forall base name, exists r, forall S (note : nat -> pyexc -> S -> S) p s, get_row note p ks base name s = (s, r).
Proof.
  intros C base name. destruct C as [(w & -> & (f & B) & NI)|(L & F & fl & Fi)].
  - destruct (fw_needs_interface w) eqn:N.
    + eexists. intros S note p s. unfold get_row. rewrite N. cbn [negb normalize_flags].
      rewrite (sbind_ok _ _ _ _ _ (eq_refl : ret [w] s = (s, Ok [w]))).
      assert (G : lift (get_flags w) s = (s, Ok f)) by (unfold lift, get_flags; now rewrite B).
      rewrite (sbind_ok _ _ _ _ _ G).
      assert (K : lift (check_flags f [w]) s = (s, Ok tt)).
      { unfold lift. cbn [check_flags]. unfold get_flags. rewrite B. assert (Q : set_eq f f = true) by (apply set_eq_spec; intros x; tauto). now rewrite Q. }
      rewrite (sbind_ok _ _ _ _ _ K).
      instantiate (1 := match distinct (flat_map (fun w => match fw_doc w with Some d => [d] | None => [] end) [w]) with
        | [] => Ok (mk_row name base (sorted f) None) | [d] => Ok (mk_row name base (sorted f) (Some d)) | _ => Err CodeGenerationError end).
      destruct (distinct _) as [|d [|d2 l]]; reflexivity.
    + eexists. intros S note p s. unfold get_row. rewrite N. cbn [negb].
      assert (G : lift (get_flags w) s = (s, Ok f)) by (unfold lift, get_flags; now rewrite B).
      rewrite (sbind_ok _ _ _ _ _ G). reflexivity.
  - destruct ks as [|w [|w2 r]]; cbn [length] in L; [lia|lia|]. set (ks := w :: w2 :: r) in *.
    destruct (fine_ok _ _ _ Fi w (or_introl eq_refl)) as (f & B).
    assert (Fw : force w = w) by exact (f_equal (hd w) F).
    assert (Bw : get_flags w = Ok f) by (rewrite <- Fw; exact B).
    assert (K : check_flags f ks = Ok tt).
    { rewrite <- F. apply check_all. intros u I. inversion Fi; subst.
      match goal with X : fw_body w true = Ok ?f' |- _ => assert (f' = f) by congruence; subst f' end.
      destruct I as [<-|I]; [exists f; split; [exact B|intros x; tauto]|]. eapply fine_flags; eauto. }
    exists (match distinct (flat_map (fun w => match fw_doc w with Some d => [d] | None => [] end) ks) with
        | [] => Ok (mk_row name base (sorted f) None) | [d] => Ok (mk_row name base (sorted f) (Some d)) | _ => Err CodeGenerationError end).
    intros S note p s.
    assert (N : normalize_flags note p ks s = (s, Ok (map force ks))) by (rewrite <- F at 1; apply normalize_fine; eauto).
    unfold get_row. change (match ks with [] => _ | w0 :: r0 => _ end) with
      (_ <~ normalize_flags note p ks ;; flags <~ lift (get_flags w) ;; _ <~ lift (check_flags flags ks) ;;
          match distinct (flat_map (fun w => match fw_doc w with Some d => [d] | None => [] end) ks) with
          | [] => ret (mk_row name base (sorted flags) None)
          | [d] => ret (mk_row name base (sorted flags) (Some d))
          | _ => raise CodeGenerationError
          end).
    rewrite (sbind_ok _ _ _ _ _ N).
    assert (G : lift (get_flags w) s = (s, Ok f)) by (unfold lift; now rewrite Bw).
    rewrite (sbind_ok _ _ _ _ _ G).
    assert (K' : lift (check_flags f ks) s = (s, Ok tt)) by (unfold lift; now rewrite K).
    rewrite (sbind_ok _ _ _ _ _ K').
    destruct (distinct _) as [|d [|d2 l]]; reflexivity.
Qed.

(** ** Effects on the output *)
Definition adds (l : list (sink * piece)) (a b : gstate) : Prop :=
  same_module (g_world b) (g_world a) /\ essential (g_out b) = essential (g_out a) ++ l /\ g_header b = g_header a.
Lemma adds_refl a : adds [] a a.
Proof. split; [repeat split|]. split; [now rewrite app_nil_r|reflexivity]. Qed.
Lemma adds_trans l l' a b c : adds l a b -> adds l' b c -> adds (l ++ l') a c.
Proof.
  intros ((A1 & A2 & A3 & A4) & B & C) ((A1' & A2' & A3' & A4') & B' & C'). split; [repeat split; congruence|]. split; [|congruence].
  now rewrite B', B, app_assoc.
Qed.
Lemma adds_emit k x a : adds (if essential_piece (k, x) then [(k, x)] else []) a (emit k x a).
Proof.
  split; [repeat split|]. split; [|reflexivity]. unfold emit, essential. cbn [g_out]. rewrite filter_app. reflexivity.
Qed.
Lemma adds_note k e a : adds [] a (gnote k e a).
Proof. split; [repeat split|]. split; [cbn; now rewrite app_nil_r|reflexivity]. Qed.
Lemma adds_notes l : forall a, adds [] a (notes gnote l a).
Proof.
  unfold notes. induction l as [|x l IH]; intros a; cbn [fold_left]; [apply adds_refl|].
  exact (adds_trans [] [] _ _ _ (adds_note _ _ a) (IH _)).
Qed.
Lemma adds_writes k cs : forall a, adds (map (fun c => (k, PChunk c)) (filter no_blank cs)) a (writes (write_to k) cs a).
Proof.
  unfold writes. induction cs as [|c cs IH]; intros a; cbn [fold_left]; [apply adds_refl|].
  cbn [filter]. replace (map _ (if no_blank c then c :: filter no_blank cs else filter no_blank cs)) with
    ((if essential_piece (k, PChunk c) then [(k, PChunk c)] else []) ++ map (fun c => (k, PChunk c)) (filter no_blank cs)) by (destruct c; reflexivity).
  exact (adds_trans _ _ _ _ _ (adds_emit k (PChunk c) a) (IH _)).
Qed.
Lemma writes_null {W} cs (a : W) : writes (fun _ g => g) cs a = a.
Proof. unfold writes. induction cs as [|c cs IH]; [reflexivity|exact IH]. Qed.

Section Fun.
  Context (multi : bool).
  Definition place (s : option string) : sink := if multi then match s with None => SMain | Some s => SSection s end else SMain.
  Lemma sink_for_adds s g : exists g', sink_for multi s g = (g', Ok (place s)) /\ adds [] g g'.
  Proof.
    unfold sink_for, place. destruct multi; [|eexists; split; [reflexivity|apply adds_refl]].
    destruct s as [s|]; [|eexists; split; [reflexivity|apply adds_refl]].
    destruct (mem s (g_started g)); [eexists; split; [reflexivity|apply adds_refl]|].
    eexists. split; [reflexivity|]. repeat split. cbn. unfold essential. rewrite filter_app. reflexivity.
  Qed.

  Lemma handled_ok {A} p k (m : st gstate A) g g' a : m g = (g', Ok a) -> handled p k m g = (g', Ok (Some a)).
  Proof. intros E. unfold handled, try_except. rewrite (sbind_ok _ _ _ _ _ (handling_ok gnote p generation_errors k m _ _ _ E)). reflexivity. Qed.

  (** generate_declaration and the row of the method table *)
  Definition rest (p : policy) (f : fset) (k : sink) (ws : list fwrapper) : st gstate (option row) :=
    b <~ handled p (fs_id f) (x <~ generate_overload gnote (fun _ g => g) p ws ;; put SMain (PDeclare (snd x)) ;~ ret x) ;;
    match b with
    | None => ret None
    | Some (ws, actual) =>
        put k PBlank ;~
        r <~ get_row gnote p ws actual (fs_name f) ;;
        ret (Some r)
    end.
  Lemma clean_rest k ws name : clean ws -> exists base r, (exists w l, ws = w :: l /\ base = fw_base w) /\ forall p f g, fs_name f = name -> exists g', rest p f k ws g = (g', r) /\ adds [(SMain, PDeclare base)] g g'.
  Proof.
    intros C. destruct (clean_overload ws C) as (cs & ws' & base & G & C' & (w0 & l0 & Fst & Fb & _) & _).
    destruct (clean_row ws' C' base name) as (r & R).
    exists base, (match r with Ok x => Ok (Some x) | Err e => Err e end). split; [eauto|]. intros p f g <-.
    assert (H : handled p (fs_id f) (x <~ generate_overload gnote (fun _ g => g) p ws ;; put SMain (PDeclare (snd x)) ;~ ret x) g
      = (emit SMain (PDeclare base) g, Ok (Some (ws', base)))).
    { apply handled_ok. rewrite (sbind_ok _ _ _ _ _ (G _ gnote (fun _ g => g) p g)). rewrite writes_null. reflexivity. }
    unfold rest. rewrite (sbind_ok _ _ _ _ _ H). unfold put. unfold sbind at 1, modify at 1.
    exists (emit k PBlank (emit SMain (PDeclare base) g)). split.
    - destruct r as [x|e].
      + rewrite (sbind_ok _ _ _ _ _ (R _ gnote p _)). reflexivity.
      + rewrite (sbind_err _ _ _ _ _ (R _ gnote p _)). reflexivity.
    - exact (adds_trans _ [] _ _ _ (adds_emit SMain (PDeclare base) g) (adds_emit k PBlank _)).
  Qed.
  Lemma gen_function_eq p f g : exists g1, adds [] g g1 /\ forall a g2,
    handled p (fs_id f) (generate_overload gnote (write_to (place (set_section_of f))) p (fs_wrappers f)) g1 = (g2, a) ->
    gen_function p multi f g = match a with Ok (Some (ws, _)) => rest p f (place (set_section_of f)) ws g2 | Ok None => (g2, Ok None) | Err e => (g2, Err e) end.
  Proof.
    destruct (sink_for_adds (set_section_of f) g) as (g0 & E & A). exists (emit (place (set_section_of f)) PBlank g0). split.
    - exact (adds_trans [] [] _ _ _ A (adds_emit (place (set_section_of f)) PBlank g0)).
    - intros a g2 H. unfold gen_function. rewrite (sbind_ok _ _ _ _ _ E). unfold put at 1. unfold sbind at 1, modify at 1.
      destruct a as [[[ws b]|]|e].
      + rewrite (sbind_ok _ _ _ _ _ H). reflexivity.
      + rewrite (sbind_ok _ _ _ _ _ H). reflexivity.
      + rewrite (sbind_err _ _ _ _ _ H). reflexivity.
  Qed.

  Definition effect (p : policy) (f : fset) (l : list (sink * piece)) (r : res (option row)) : Prop :=
    forall g, exists g', gen_function p multi f g = (g', r) /\ adds l g g'.

  (** The first phase gives [cs] and [ws], clean. *)
  Lemma effect_intro p f cs ws base r w0 l0 :
    (forall g, exists g', adds [] g g' /\ generate_overload gnote (write_to (place (set_section_of f))) p (fs_wrappers f) g = (writes (write_to (place (set_section_of f))) cs g', Ok (ws, base))) ->
    ws = w0 :: l0 ->
    (forall p f' g, fs_name f' = fs_name f -> exists g', rest p f' (place (set_section_of f)) ws g = (g', r) /\ adds [(SMain, PDeclare (fw_base w0))] g g') ->
    effect p f (map (fun c => (place (set_section_of f), PChunk c)) (filter no_blank cs) ++ [(SMain, PDeclare (fw_base w0))]) r.
  Proof.
    intros G -> R g. destruct (gen_function_eq p f g) as (g1 & A1 & E). destruct (G g1) as (g2 & A2 & G2).
    rewrite (E _ _ (handled_ok p (fs_id f) _ _ _ _ G2)).
    destruct (R p f (writes (write_to (place (set_section_of f))) cs g2) eq_refl) as (g' & -> & A'). exists g'. split; [reflexivity|].
    refine (adds_trans _ _ _ _ _ _ A').
    exact (adds_trans [] _ _ _ _ A1 (adds_trans [] _ _ _ _ A2 (adds_writes _ _ g2))).
  Qed.

  Lemma clean_effect f : clean (fs_wrappers f) -> exists l r, forall p, effect p f l r.
  Proof.
    intros C. destruct (clean_overload _ C) as (cs & ws' & base & G & C' & _ & _).
    destruct (clean_rest (place (set_section_of f)) ws' (fs_name f) C') as (b2 & r & (w0 & l0 & E & ->) & R).
    eexists _, r. intros p. eapply (effect_intro p f cs ws' base r w0 l0); [|exact E|exact R].
    intros g. exists g. split; [apply adds_refl|]. apply G.
  Qed.

  Lemma set_section_kept f ks : ks <> [] -> (forall w, In w ks -> exists v, In v (fs_wrappers f) /\ fw_section w = fw_section v) -> one_section f ->
    set_section_of (mk_fset (fs_name f) (fs_id f) ks) = set_section_of f.
  Proof.
    intros N I O. unfold set_section_of. cbn [fs_wrappers]. destruct ks as [|w ks]; [now destruct N|].
    destruct (I w (or_introl eq_refl)) as (v & J & E). unfold one_section in O. destruct (fs_wrappers f) as [|u us]; [destruct J|].
    rewrite E. f_equal. apply O; [exact J|now left].
  Qed.

  Lemma survive_sub fl ws ks : survive fl ws ks -> forall w, In w ks -> In w ws.
  Proof. induction 1; intros u I; cbn [In] in *; auto; try tauto; destruct I as [<-|I]; auto. Qed.

  Lemma survive_clean ws ks : survive None ws ks -> ks <> [] -> clean (map force ks).
  Proof.
    intros Sv N. destruct (survive_fine _ _ _ Sv) as (fl & Fi). destruct ks as [|w [|w2 r]]; [now destruct N|..].
    - destruct (fine_ok _ _ _ Fi w (or_introl eq_refl)) as (f & B). left. exists (force w). split; [reflexivity|]. split; [exists f; exact B|].
      intros _. exists f. exact B.
    - right. split; [cbn; lia|]. split; [rewrite map_map; reflexivity|]. exists fl.
      clear - Fi. induction Fi as [ex|v f ws ex B H IH|v f g ws ex B Q H IH]; cbn [map]; [constructor|..].
      + eapply fi_first; eauto.
      + eapply fi_same; eauto.
  Qed.

  Lemma functions_force ks kw : functions_of (map force ks) kw = functions_of ks kw.
  Proof.
    assert (Nu : forall base n, numbered base n (map force ks) = numbered base n ks).
    { intros base. induction ks as [|w r IH]; intros n; cbn [map numbered]; [reflexivity|]. now rewrite IH. }
    unfold functions_of. destruct ks as [|w r]; [reflexivity|]. cbn [map]. change (fw_base (force w)) with (fw_base w).
    change (force w :: map force r) with (map force (w :: r)). rewrite !Nu. destruct r; reflexivity.
  Qed.

  (** A set with problems the handler accepts. *)
  Lemma dirty h f ks : kept (fs_id f) (fs_wrappers f) ks -> accepted h f -> one_section f ->
    match ks with
    | [] => effect (Some h) f [] (Ok None)
    | _ => exists l r, effect (Some h) f l r /\ forall p, effect p (mk_fset (fs_name f) (fs_id f) ks) l r
    end.
  Proof.
    intros K A O. unfold accepted in A.
    remember (fs_wrappers f) as ws0 eqn:EW. destruct K as [w Sp|w x Sp|ws ks L Sv].
    - assert (C : clean [w]).
      { left. exists w. split; [reflexivity|]. unfold sole_problem in Sp. destruct (fw_body w (fw_forced w)) as [fl|]; [|discriminate].
        split; [eauto|]. intros N. rewrite N in Sp. destruct (fw_body w true); [eauto|discriminate]. }
      rewrite EW in C. destruct (clean_effect f C) as (l & r & E). exists l, r. split; [apply E|].
      replace (mk_fset (fs_name f) (fs_id f) [w]) with f by (destruct f; cbn in *; congruence). exact E.
    - (* the only wrapper cannot be generated *)
      destruct x as [id e]. destruct (A id e Sp) as [I H]. apply is_instance_in in I. fold generation_errors in I. intros g.
      destruct (gen_function_eq (Some h) f g) as (g1 & A1 & E). rewrite <- EW in E.
      assert (X : exists g2, handled (Some h) (fs_id f) (generate_overload gnote (write_to (place (set_section_of f))) (Some h) [w]) g1 = (g2, Ok None) /\ adds [] g1 g2).
      { unfold sole_problem in Sp. unfold handled.
        destruct (fw_body w (fw_forced w)) as [fl|e0] eqn:B.
        - destruct (fw_needs_interface w) eqn:N; [|discriminate]. destruct (fw_body w true) as [?|e1] eqn:B1; [discriminate|].
          assert (id = fw_id w /\ e = e1) as [-> ->] by (split; congruence).
          set (k := place (set_section_of f)).
          assert (D : generate_delegates gnote (write_to k) (Some h) (fw_base w) 0 [w] g1 = (gnote (fw_id w) e1 (write_to k CBlank g1), Ok [])).
          { cbn [generate_delegates]. unfold sbind at 1, modify at 1. unfold sbind at 1. unfold try_except at 1. unfold sbind at 1.
            assert (Y : call_with_error_handling gnote (Some h) generation_errors (fw_id w) (generate_wrapper (write_to k) (force w) (actual_name w (delegate_name (fw_base w) 0)) true) (write_to k CBlank g1)
              = (gnote (fw_id w) e1 (write_to k CBlank g1), Err SkipWrapper)).
            { unfold call_with_error_handling, try_except, generate_wrapper, sbind, lift. change (get_flags (force w)) with (fw_body w true). rewrite B1.
              rewrite I. unfold handle_error, sbind, modify, lift. rewrite H. reflexivity. }
            rewrite Y. reflexivity. }
          exists (gnote (fw_id w) e1 (write_to k CBlank g1)). split; [|exact (adds_trans [] [] _ _ _ (adds_emit k (PChunk CBlank) g1) (adds_note _ _ _))].
          assert (Y : generate_overload gnote (write_to k) (Some h) [w] g1 = (gnote (fw_id w) e1 (write_to k CBlank g1), Err SkipWrapper)).
          { unfold generate_overload. cbn [normalize_flags]. rewrite (sbind_ok _ _ _ _ _ (eq_refl : ret [w] g1 = (g1, Ok [w]))). rewrite N. cbn [negb].
            assert (G : lift (get_flags w) g1 = (g1, Ok fl)) by (unfold lift, get_flags; now rewrite B).
            rewrite (sbind_ok _ _ _ _ _ G). rewrite (sbind_ok _ _ _ _ _ D). reflexivity. }
          unfold try_except at 1. unfold sbind at 1. unfold call_with_error_handling, try_except. rewrite Y. reflexivity.
        - injection Sp as <- <-. destruct (fw_needs_interface w) eqn:N.
          + exists (gnote (fs_id f) e0 g1). split; [|apply adds_note].
            assert (Y : generate_overload gnote (write_to (place (set_section_of f))) (Some h) [w] g1 = (g1, Err e0)).
            { unfold generate_overload. cbn [normalize_flags]. rewrite (sbind_ok _ _ _ _ _ (eq_refl : ret [w] g1 = (g1, Ok [w]))). rewrite N. cbn [negb].
              apply (sbind_err (lift (get_flags w))). unfold lift, get_flags. now rewrite B. }
            unfold try_except at 1. unfold sbind at 1. unfold call_with_error_handling, try_except. rewrite Y, I.
            unfold handle_error, sbind, modify, lift. rewrite H. reflexivity.
          + exists (gnote (fw_id w) e0 g1). split; [|apply adds_note].
            assert (Y : generate_overload gnote (write_to (place (set_section_of f))) (Some h) [w] g1 = (gnote (fw_id w) e0 g1, Err SkipWrapper)).
            { unfold generate_overload. cbn [normalize_flags]. rewrite (sbind_ok _ _ _ _ _ (eq_refl : ret [w] g1 = (g1, Ok [w]))). rewrite N. cbn [negb].
              apply (sbind_err (call_with_error_handling gnote (Some h) generation_errors (fw_id w) (generate_wrapper (write_to (place (set_section_of f))) w (fw_base w) false))).
              unfold call_with_error_handling, try_except, generate_wrapper, sbind, lift, get_flags. rewrite B, I.
              unfold handle_error, sbind, modify, lift. rewrite H. reflexivity. }
            unfold try_except at 1. unfold sbind at 1. unfold call_with_error_handling, try_except. rewrite Y. reflexivity. }
      destruct X as (g2 & X & A2). exists g2. rewrite (E _ _ X). split; [reflexivity|]. exact (adds_trans [] [] _ _ _ A1 A2).
    - subst ws. assert (Ac : accepts h (fs_wrappers f)) by (destruct (fs_wrappers f) as [|w [|w2 r]]; [exact A|now destruct L|exact A]).
      assert (N : forall g, exists l, normalize_flags gnote (Some h) (fs_wrappers f) g = (notes gnote l g, Ok (map force ks))).
      { intros g. destruct (normalize_cases gnote (Some h) (fs_wrappers f) g L) as [(ks' & s' & Sv' & Nf & R)|(w & e & s' & I & Rj & _)].
        - destruct (R h eq_refl Ac) as (l & _ & ->). exists l. rewrite Nf. now rewrite (survive_det _ _ _ Sv _ Sv').
        - exfalso. exact (accepts_not_rejects h _ w e Ac I Rj). }
      destruct ks as [|w r].
      + cbn [map]. intros g. destruct (gen_function_eq (Some h) f g) as (g1 & A1 & E). destruct (N g1) as (l & Nf).
        pose proof (generate_many gnote (write_to (place (set_section_of f))) (Some h) _ [] g1 _ L Nf Sv) as M. cbn iota in M.
        assert (X : handled (Some h) (fs_id f) (generate_overload gnote (write_to (place (set_section_of f))) (Some h) (fs_wrappers f)) g1 = (notes gnote l g1, Ok None)).
        { unfold handled, try_except at 1. unfold sbind at 1. unfold call_with_error_handling, try_except. rewrite M. reflexivity. }
        exists (notes gnote l g1). rewrite (E _ _ X). split; [reflexivity|]. exact (adds_trans [] [] _ _ _ A1 (adds_notes l g1)).
      + assert (NE : w :: r <> []) by discriminate.
        pose proof (survive_clean _ _ Sv NE) as C.
        change (match map force (w :: r) with [] => effect (Some h) f [] (Ok None) | _ :: _ => exists l r0, effect (Some h) f l r0 /\ forall p, effect p (mk_fset (fs_name f) (fs_id f) (map force (w :: r))) l r0 end)
          with (exists l r0, effect (Some h) f l r0 /\ forall p, effect p (mk_fset (fs_name f) (fs_id f) (map force (w :: r))) l r0).
        set (f' := mk_fset (fs_name f) (fs_id f) (map force (w :: r))).
        assert (S' : set_section_of f' = set_section_of f).
        { apply set_section_kept; [discriminate| |exact O]. intros u I. apply in_map_iff in I. destruct I as (v & <- & I).
          exists v. split; [exact (survive_sub _ _ _ Sv v I)|reflexivity]. }
        destruct (clean_rest (place (set_section_of f)) (map force (w :: r)) (fs_name f) C) as (b2 & res & (w0 & l0 & Ew & ->) & R).
        destruct (survive_ok _ _ _ Sv w (or_introl eq_refl)) as (fl & B).
        destruct (clean_overload _ C) as (cs' & ws' & base' & G' & C' & (w1 & r1 & Ew1 & -> & fl1 & B1 & Fc) & Ews').
        assert (ws' = map force (w :: r)) as ->.
        { rewrite Ews'. destruct (match map force (w :: r) with [w2] => negb (fw_needs_interface w2) | _ => false end); [reflexivity|].
          rewrite map_map. reflexivity. }
        exists (map (fun c => (place (set_section_of f), PChunk c)) (filter no_blank cs') ++ [(SMain, PDeclare (fw_base w0))]), res. split.
        * assert (Q : filter no_blank cs' = filter no_blank (chunks_of (w :: r) (mem "METH_KEYWORDS" fl))).
          { rewrite Fc, chunks_functions, functions_force. f_equal. f_equal. cbn [map] in Ew1. injection Ew1 as <- _. change (fw_body w true = Ok fl1) in B1. congruence. }
          rewrite Q. eapply (effect_intro (Some h) f _ (map force (w :: r)) (fw_base w) res w0 l0); [|exact Ew|exact R].
          intros g. destruct (N g) as (l & Nf). exists (notes gnote l g). split; [apply adds_notes|].
          pose proof (generate_many gnote (write_to (place (set_section_of f))) (Some h) _ _ g _ L Nf Sv) as M. cbn iota in M.
          destruct M as (fl' & B' & M). assert (fl' = fl) by congruence. subst fl'. exact M.
        * intros p. rewrite <- S'. eapply (effect_intro p f' cs' (map force (w :: r)) (fw_base w1) res w0 l0); [|exact Ew|rewrite S'; exact R].
          intros g. exists g. split; [apply adds_refl|]. apply G'.
  Qed.
End Fun.
