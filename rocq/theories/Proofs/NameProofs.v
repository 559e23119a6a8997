From Verif.Model Require Import Py PyState Mangle Errors Overloading Module.
From Verif.Spec Require Import OverloadSpec ModuleSpec PolicySpec SectionSpec NameSpec.
From Verif.Proofs Require Import StrLemmas ModuleProofs ModuleSteps ModuleNames ModulePaths PolicyProofs DeclaredProofs.
From Coq Require Import Lia.
Open Scope string_scope.
Open Scope list_scope.
Open Scope st_scope.

Lemma after_prefix p : forall s, after p s = if String.prefix p s then Some (String.substring (String.length p) (String.length s - String.length p) s) else None.
Proof.
  assert (Z : forall s, String.substring 0 (String.length s) s = s) by (induction s as [|b s IH]; cbn; [reflexivity|now rewrite IH]).
  induction p as [|a p IH]; intros [|b s]; cbn [after String.prefix]; try reflexivity.
  - cbn [String.length Nat.sub]. symmetry. f_equal. apply (Z (String b s)).
  - cbn [String.length]. destruct (Ascii.eqb_spec a b) as [->|N].
    + destruct (Ascii.ascii_dec b b) as [_|N]; [|congruence]. rewrite IH. destruct (String.prefix p s); reflexivity.
    + destruct (Ascii.ascii_dec a b); [congruence|reflexivity].
Qed.
Lemma strip_without p s : strip_prefix p s = without p s.
Proof. unfold strip_prefix, without. rewrite after_prefix. now destruct (String.prefix p s). Qed.
Lemma after_some p : forall s t, after p s = Some t <-> s = (p ++ t)%string.
Proof.
  induction p as [|a p IH]; intros [|b s] t; cbn [after String.append]; try (split; congruence).
  destruct (Ascii.eqb_spec a b) as [->|N]; [|split; congruence]. rewrite IH. split; [now intros ->|congruence].
Qed.
Lemma without_spec p s t : without p s = t <-> s = (p ++ t)%string \/ ((forall u, s <> (p ++ u)%string) /\ t = s).
Proof.
  unfold without. destruct (after p s) as [u|] eqn:E.
  - split; [intros ->; left; now apply after_some|]. intros [->|(N & _)]; [|exfalso; apply (N u); now apply after_some].
    assert (X : after p (p ++ t)%string = Some t) by now apply after_some. congruence.
  - split.
    + intros ->. right. split; [|reflexivity]. intros u ->. assert (X : after p (p ++ u)%string = Some u) by now apply after_some. congruence.
    + intros [->|(_ & ->)]; [|reflexivity]. assert (X : after p (p ++ t)%string = Some t) by now apply after_some. congruence.
Qed.
Lemma undot_spec s : undot s = dots_to_underscores s.
Proof. unfold undot. induction s as [|c s IH]; [reflexivity|]. cbn [replace_char dots_to_underscores]. rewrite IH. now destruct (Ascii.eqb c "."). Qed.

(** A field of the modules. *)
Section Field.
  Context {X : Type} (P : modul -> X).
  Definition at_ (w : world) (i : nat) : option X := option_map P (nth_error (w_mods w) i).
  Lemma at_upd f w j : (forall m, P (f m) = P m) -> forall i, at_ (upd_mod j f w) i = at_ w i.
  Proof.
    intros F i. unfold at_, upd_mod, set_mods. cbn [w_mods]. rewrite upd_nth. destruct (Nat.eqb_spec i j) as [->|]; [|reflexivity].
    destruct (nth_error (w_mods w) j); [cbn [option_map]; now rewrite F|reflexivity].
  Qed.
  Lemma at_register j name full v w : (forall m d, P (with_dict d m) = P m) -> forall i, at_ (fst (register_type j name full v w)) i = at_ w i.
  Proof.
    intros D i. unfold register_type. cbn [fst].
    assert (B : at_ (match name with Some n => if String.eqb n "" then w else set_in n v j w | None => w end) i = at_ w i).
    { destruct name as [n|]; [destruct (String.eqb n "")|]; auto. unfold set_in. apply at_upd. intros; apply D. }
    destruct full as [f|]; [|exact B]. destruct (String.eqb f ""); [exact B|]. rewrite <- B.
    match goal with |- at_ (fold_left _ ?l ?w0) i = _ => generalize l; intros l'; generalize w0 end. clear B.
    induction l' as [|k l' IH]; intros w0; cbn [fold_left]; [reflexivity|]. rewrite IH. unfold set_in. apply at_upd. intros; apply D.
  Qed.
End Field.

Definition same_option {A B} (a b : option (A -> B)) : Prop :=
  match a, b with Some f, Some g => forall s, f s = g s | None, None => True | _, _ => False end.

Section Names.
  Context {V : Type} (make : list string -> list (string * string) -> res V) (p : policy).
  Notation tr_at := (at_ m_transform).

  (** The prefix of a module does not change; new modules get that of their parent and their name. *)
  Definition pre_step (w w' : world) : Prop :=
    (forall i m, nth_error (w_mods w) i = Some m -> exists m', nth_error (w_mods w') i = Some m' /\ m_prefix m' = m_prefix m /\ m_parent m' = m_parent m /\ m_name m' = m_name m) /\
    (forall i m, nth_error (w_mods w) i = None -> nth_error (w_mods w') i = Some m ->
       exists j q, m_parent m = Some j /\ nth_error (w_mods w) j = Some q /\ m_prefix m = (m_prefix q ++ "_" ++ m_name m)%string).
  Definition fields (m : modul) := (m_prefix m, m_parent m, m_name m).
  Lemma pre_same w w' : (forall i, at_ fields w' i = at_ fields w i) -> pre_step w w'.
  Proof.
    intros H. split; intros i m E; specialize (H i); unfold at_ in H; rewrite E in H; cbn [option_map] in H.
    - destruct (nth_error (w_mods w') i) as [m'|]; [|discriminate H]. cbn [option_map] in H. injection H as A B D. eauto.
    - intros E'. rewrite E' in H. discriminate H.
  Qed.
  Lemma pre_sub j m name ns w : nth_error (w_mods w) j = Some m -> pre_step w (with_sub j m name ns w).
  Proof.
    intros E. split.
    - intros i x Ex. rewrite (with_sub_nth _ _ _ _ _ _ E). pose proof (nth_valid _ _ _ Ex). destruct (Nat.eqb_spec i (length (w_mods w))) as [->|]; [lia|].
      destruct (Nat.eqb_spec i j) as [->|]; [|eauto]. assert (x = m) as -> by congruence. eexists. split; [reflexivity|]. auto.
    - intros i x N. rewrite (with_sub_nth _ _ _ _ _ _ E). destruct (Nat.eqb_spec i (length (w_mods w))) as [->|].
      + intros Ex. injection Ex as <-. exists j, m. split; [reflexivity|]. split; [exact E|]. unfold new_module. cbn [m_prefix m_name]. now rewrite E.
      + destruct (Nat.eqb_spec i j) as [->|]; [congruence|]. congruence.
  Qed.
  Lemma sub_at j m name ns w : nth_error (w_mods w) j = Some m -> forall i,
    tr_at (with_sub j m name ns w) i = if Nat.eqb i (length (w_mods w)) then Some (strip_prefix (name ++ "_")%string) else tr_at w i.
  Proof.
    intros E i. unfold at_. rewrite (with_sub_nth _ _ _ _ _ _ E). destruct (Nat.eqb_spec i (length (w_mods w))) as [->|]; [reflexivity|].
    destruct (Nat.eqb_spec i j) as [->|]; [now rewrite E|reflexivity].
  Qed.
  Lemma at_none w : at_ m_transform w (length (w_mods w)) = None.
  Proof. unfold at_. assert (L : nth_error (w_mods w) (length (w_mods w)) = None) by (apply nth_error_None; lia). now rewrite L. Qed.

  (** What a call does to the wrappers of a module. *)
  Definition added (c : call V) (r : res answer) (w w' : world) : Prop :=
    (forall i, functions_at w' i = functions_at w i) \/
    exists i d n m f, c = CFunctionC i d /\ r = Ok (RObject n) /\ nth_error (w_mods w) i = Some m /\ n = python_name m d /\
      fw_id f = fd_id d /\ fw_base f = ("_wrap_" ++ m_prefix m ++ "_" ++ mangled_name d)%string /\
      forall j, functions_at w' j = if Nat.eqb j i then add_to n d f (functions_at w j) else functions_at w j.
  Definition named (c : call V) (r : res answer) (w : world) : Prop :=
    match c, r with CFunctionC i d, Ok (RObject n) => exists m, nth_error (w_mods w) i = Some m /\ n = python_name m d | _, _ => True end.

  Lemma same_refl {A B} (a : option (A -> B)) : same_option a a.
  Proof. destruct a; cbn; auto. Qed.
  Definition good (c : call V) (r : res answer) (w w' : world) : Prop :=
    (forall i now, same_option (tr_at w i) now -> same_option (tr_at w' i) (renamed i now (c, r))) /\ pre_step w w' /\ added c r w w' /\ named c r w.
  Lemma good_same c r w w' : (forall i now, renamed i now (c, r) = now) -> named c r w ->
    (forall X (P : modul -> X), (forall m d, P (with_dict d m) = P m) -> forall i, at_ P w' i = at_ P w i) -> good c r w w'.
  Proof.
    intros B N F. split; [intros i now S; rewrite F, B; auto|]. split; [apply pre_same; apply F; reflexivity|]. split; [left|exact N].
    intros i. specialize (F _ m_functions (fun _ _ => eq_refl) i). unfold at_ in F. unfold functions_at. destruct (nth_error (w_mods w') i), (nth_error (w_mods w) i); cbn in F; congruence.
  Qed.
  Lemma good_refl c r w : (forall i now, renamed i now (c, r) = now) -> named c r w -> good c r w w.
  Proof. intros. apply good_same; auto. Qed.
  Ltac same H := match type of H with (?a, ?x) = (?b, ?y) => replace b with a by congruence; replace y with x by congruence end.
  Lemma step_names c w w' r : run_call make p c w = (w', r) -> good c r w w'.
  Proof.
    destruct c as [j n ns|j n|i d|i t|i o k a|i s|i s|i s|i s|i s|i f]; intros H.
    - cbn [run_call] in H. destruct (nth_error (w_mods w) j) as [m|] eqn:E.
      + rewrite (sbind_ok _ _ _ _ _ (new_submodule_eq j n ns w m E)) in H. unfold ret in H. same H.
        split; [|split; [now apply pre_sub|split; [left; apply (content_sub j m n ns w E)|exact Logic.I]]].
        intros i now S. rewrite (sub_at j m n ns w E). cbn [renamed]. rewrite Nat.eqb_sym. destruct (Nat.eqb_spec (length (w_mods w)) i) as [<-|]; [|exact S].
        rewrite at_none in S. destruct now; [destruct S|]. intros s. apply strip_without.
      + assert (X : new_submodule j n ns w = (w, Err Unmodelled)) by (unfold new_submodule; apply sbind_err; unfold get_mod; now rewrite E).
        rewrite (sbind_err _ _ _ _ _ X) in H. same H. now apply good_refl.
    - cbn [run_call] in H. destruct (namespace_cases j n w) as [(E & X)|(m & E & [(i & F & X)|(F & X)])].
      + rewrite (sbind_err _ _ _ _ _ X) in H. same H. now apply good_refl.
      + rewrite (sbind_ok _ _ _ _ _ X) in H. unfold ret in H. same H. split; [|split; [now apply pre_same|split; [now left|exact Logic.I]]].
        intros i' now S. cbn [renamed]. destruct (Nat.eqb_spec i i') as [<-|]; [|exact S]. destruct now; [exact S|]. exfalso.
        assert (V0 : exists x, nth_error (w_mods w) i = Some x).
        { clear -F. revert F. generalize (m_submodules m). induction l as [|y l IH]; cbn [find_submodule]; [discriminate|].
          destruct (nth_error (w_mods w) y) as [x|] eqn:Y; [|exact IH]. destruct (String.eqb (m_name x) n); [intros Z; injection Z as <-; eauto|exact IH]. }
        destruct V0 as (x & Ex). unfold at_ in S. rewrite Ex in S. exact S.
      + rewrite (sbind_ok _ _ _ _ _ X) in H. unfold ret in H. same H.
        split; [|split; [now apply pre_sub|split; [left; apply (content_sub j m n (Some n) w E)|exact Logic.I]]].
        intros i now S. rewrite (sub_at j m n (Some n) w E). cbn [renamed]. rewrite Nat.eqb_sym. destruct (Nat.eqb_spec (length (w_mods w)) i) as [<-|]; [|exact S].
        rewrite at_none in S. destruct now; [destruct S|]. intros s. apply strip_without.
    - destruct (function_cases make p i d w) as [(E & X)|(m & l & E & [(e & _ & X)|[(_ & X)|(v & A & X)]])]; rewrite X in H; same H.
      + now apply good_refl.
      + now apply good_same.
      + now apply good_same.
      + split; [|split; [|split]].
        * intros i' now S. cbn [renamed]. unfold with_function. rewrite at_upd; [exact S|reflexivity].
        * apply pre_same. intros i'. unfold with_function. now rewrite at_upd.
        * right. exists i, d, (python_name m d), m, (the_wrapper m (w_section w) d v). repeat (split; [auto; reflexivity|]).
          intros j. unfold with_function, functions_at, upd_mod, set_mods. cbn [w_mods w_section logged]. rewrite upd_nth. destruct (Nat.eqb_spec j i) as [->|]; rewrite ?E; reflexivity.
        * exists m. auto.
    - destruct (type_cases make p i t w) as [(E & X)|(m & l & E & [(e & _ & X)|[(_ & X)|(A & X)]])]; cbv zeta in X; rewrite X in H; same H.
      + now apply good_refl.
      + now apply good_same.
      + now apply good_same.
      + split; [|split; [|split; [left|exact Logic.I]]].
        * intros i' now S. cbn [renamed]. rewrite at_register by reflexivity. unfold with_type. rewrite at_upd; [exact S|reflexivity].
        * apply pre_same. intros i'. rewrite at_register by reflexivity. unfold with_type. now rewrite at_upd.
        * intros j. match goal with |- functions_at (fst (register_type ?a ?b ?c ?d ?e)) j = _ => destruct (content_register a b c d e) as (Cf & _); rewrite Cf end.
          unfold with_type, functions_at, upd_mod, set_mods. cbn [w_mods logged]. rewrite upd_nth. destruct (Nat.eqb_spec j i) as [->|]; rewrite ?E; reflexivity.
    - cbn [run_call] in H. unfold add_typedef, sbind, get_mod in H.
      assert (Z : forall r0 i0 now, renamed i0 now (CTypedef i o k a : call V, r0) = now) by (intros [[| |]|]; reflexivity).
      destruct (nth_error (w_mods w) i); [|same H; now apply good_refl]. destruct (nth_error (w_mods w) o); [|same H; now apply good_refl].
      destruct (register_type i (Some a) (Some a) k w) as [w1 x1] eqn:R1. assert (x1 = Ok tt) as -> by (unfold register_type in R1; congruence).
      destruct (register_type o None (Some a) k w1) as [w2 x2] eqn:R2. assert (x2 = Ok tt) as -> by (unfold register_type in R2; congruence).
      unfold gets in H. match type of H with context [register_type o None (Some ?f) k w2] => set (full := f) in * end.
      destruct (register_type o None (Some full) k w2) as [w3 x3] eqn:R3. assert (x3 = Ok tt) as -> by (unfold register_type in R3; congruence).
      unfold ret in H. same H. apply good_same; [apply Z|exact Logic.I|]. intros X P D i'.
      rewrite <- (f_equal fst R3 : _ = w3), at_register by exact D. rewrite <- (f_equal fst R2 : _ = w2), at_register by exact D. rewrite <- (f_equal fst R1 : _ = w1), at_register by exact D. reflexivity.
    - cbn [run_call] in H. unfold sbind, get_mod, add_include, ret in H. destruct (nth_error (w_mods w) i); [|same H; now apply good_refl].
      destruct (include_ok s); [|same H; now apply good_refl]. destruct (w_includes w); [|same H; now apply good_refl].
      same H. destruct (mem s l); now apply good_same.
    - cbn [run_call] in H. unfold sbind, get_mod, declare_one_time_definition, ret in H. destruct (nth_error (w_mods w) i); [|same H; now apply good_refl].
      destruct (mem s (w_once w)); same H; now apply good_same.
    - cbn [run_call] in H. unfold sbind, get_mod, begin_section, ret in H. destruct (nth_error (w_mods w) i); [|same H; now apply good_refl].
      destruct (negb _); [same H; now apply good_refl|]. destruct (String.eqb s "__main__"); [same H; now apply good_refl|].
      destruct (is_root i w); same H; now apply good_same.
    - cbn [run_call] in H. unfold sbind, get_mod, end_section, ret in H. destruct (nth_error (w_mods w) i); [|same H; now apply good_refl].
      destruct (is_root i w); [|same H; now apply good_refl]. destruct (String.eqb (w_section w) s); same H; now apply good_same.
    - cbn [run_call] in H. unfold sbind, get_mod, modify, ret in H. destruct (nth_error (w_mods w) i) as [m|] eqn:E; [|same H; now apply good_refl].
      same H. split; [|split; [apply pre_same; intros i'; now rewrite at_upd|split; [left; now apply content_upd|exact Logic.I]]].
      intros i' now S. cbn [renamed]. unfold at_, upd_mod, set_mods. cbn [w_mods]. rewrite upd_nth. rewrite Nat.eqb_sym.
      destruct (Nat.eqb_spec i i') as [<-|]; [|exact S]. rewrite E. intros x. apply strip_without.
    - cbn [run_call] in H. unfold sbind, get_mod, modify, ret in H. destruct (nth_error (w_mods w) i) as [m|] eqn:E; [|same H; now apply good_refl].
      same H. split; [|split; [apply pre_same; intros i'; now rewrite at_upd|split; [left; now apply content_upd|exact Logic.I]]].
      intros i' now S. cbn [renamed]. unfold at_, upd_mod, set_mods. cbn [w_mods]. rewrite upd_nth. rewrite Nat.eqb_sym.
      destruct (Nat.eqb_spec i i') as [<-|]; [|exact S]. rewrite E. intros x. reflexivity.
  Qed.

  (** Naming over a script. *)
  Lemma run_naming i cs : forall w w' tr now, run make p cs w = (w', tr) -> same_option (tr_at w i) now -> same_option (tr_at w' i) (fold_left (renamed i) tr now).
  Proof.
    induction cs as [|c cs IH]; intros w w' tr now H S; cbn [run] in H.
    - replace w' with w by congruence. replace tr with (@nil (call V * res answer)) by congruence. exact S.
    - destruct (run_call make p c w) as [w1 r] eqn:C. cbn [fst snd] in H. destruct (run make p cs w1) as [w2 t] eqn:R. cbn [fst snd] in H.
      replace w' with w2 by congruence. replace tr with ((c, r) :: t) by congruence. cbn [fold_left]. eapply IH; [exact R|].
      destruct (step_names _ _ _ _ C) as (N & _). now apply N.
  Qed.
  Lemma run_split cs : forall w w' t1 c r t2, run make p cs w = (w', t1 ++ (c, r) :: t2) ->
    exists cs1 cs2 w1 w2, run make p cs1 w = (w1, t1) /\ run_call make p c w1 = (w2, r) /\ run make p cs2 w2 = (w', t2).
  Proof.
    induction cs as [|c0 cs IH]; intros w w' t1 c r t2 H; cbn [run] in H.
    - exfalso. destruct t1; discriminate (f_equal snd H).
    - destruct (run_call make p c0 w) as [w1 r0] eqn:C. cbn [fst snd] in H. destruct (run make p cs w1) as [w2 t] eqn:R. cbn [fst snd] in H.
      destruct t1 as [|[c1 r1] t1]; cbn [app] in H.
      + injection H as -> -> -> ->. exists [], cs, w, w1. split; [reflexivity|]. auto.
      + injection H as -> -> -> ->. destruct (IH _ _ _ _ _ _ R) as (cs1 & cs2 & wa & wb & A & B & D). exists (c1 :: cs1), cs2, wa, wb.
        split; [|auto]. cbn [run]. rewrite C. cbn [fst snd]. rewrite A. reflexivity.
  Qed.
  Lemma python_name_spec m (d : fdecl V) t : (forall s, m_transform m s = t s) -> in_python t d (python_name m d).
  Proof.
    intros T. unfold in_python, python_name, custom_name, mangled_name, plain_name, default_name. destruct (fd_custom d) as [c|].
    - destruct (String.eqb_spec c (get_mangled_name (fd_name d) (fd_template d))) as [E|N]; [right|left; auto]. rewrite T. auto.
    - rewrite String.eqb_refl. now rewrite T.
  Qed.
  Theorem python_names name ns cs w t1 i d n t2 : run make p cs (new_root name ns) = (w, t1 ++ (CFunctionC i d, Ok (RObject n)) :: t2) ->
    exists t, naming name i t1 = Some t /\ in_python t d n.
  Proof.
    intros H. destruct (run_split _ _ _ _ _ _ _ H) as (cs1 & cs2 & w1 & w2 & A & B & _). destruct (step_names _ _ _ _ B) as (_ & _ & _ & m & E & ->).
    assert (S : same_option (tr_at w1 i) (naming name i t1)).
    { eapply run_naming; [exact A|]. destruct i as [|i]; cbn [Nat.eqb]; [intros s; apply strip_without|]. unfold at_. cbn. destruct i; exact Logic.I. }
    unfold at_ in S. rewrite E in S. cbn [option_map] in S. destruct (naming name i t1) as [t|]; [|destruct S]. exists t. split; [reflexivity|]. now apply python_name_spec.
  Qed.

  (** Prefixes. *)
  Definition prefixes_ok (w : world) : Prop := forall i m, nth_error (w_mods w) i = Some m -> c_prefix (w_mods w) i (m_prefix m).
  Lemma pre_mono w w' i s : pre_step w w' -> c_prefix (w_mods w) i s -> c_prefix (w_mods w') i s.
  Proof.
    intros (G & _) H. induction H as [i m E P|i m j s E P _ IH]; destruct (G i m E) as (m' & E' & _ & P' & N').
    - rewrite <- N'. apply xp_root; congruence.
    - rewrite <- N'. eapply xp_sub; [exact E'|rewrite P'; exact P|exact IH].
  Qed.
  Lemma pre_ok w w' : pre_step w w' -> prefixes_ok w -> prefixes_ok w'.
  Proof.
    intros S O i m' E'. destruct (nth_error (w_mods w) i) as [m|] eqn:E.
    - destruct S as (G & N). destruct (G i m E) as (x & Ex & Px & _). assert (x = m') as -> by congruence. rewrite Px. eapply pre_mono; [split; eauto|]. auto.
    - pose proof S as (_ & N). destruct (N i m' E E') as (j & q & P & Q & ->). eapply xp_sub; [exact E'|exact P|]. eapply pre_mono; eauto.
  Qed.
  Lemma pre_unique mods i a b : c_prefix mods i a -> c_prefix mods i b -> a = b.
  Proof.
    intros H. revert b. induction H as [i m E P|i m j s E P _ IH]; intros b B; inversion B as [i' m' E' P'|i' m' j' s' E' P' Q']; subst; assert (m' = m) as -> by congruence.
    - reflexivity.
    - congruence.
    - congruence.
    - assert (j' = j) as -> by congruence. now rewrite (IH _ Q').
  Qed.
  (** The wrappers of the modules come from declarations. *)
  Definition declared (w : world) (decl : nat -> string -> fdecl V -> Prop) : Prop :=
    forall i m f x, nth_error (w_mods w) i = Some m -> In f (m_functions m) -> In x (fs_wrappers f) ->
    exists d, decl i (fs_name f) d /\ fw_id x = fd_id d /\ fw_base x = c_function (m_prefix m) d.
  Lemma in_add_to n (d : fdecl V) g f x l : In f (add_to n d g l) -> In x (fs_wrappers f) -> (x = g /\ fs_name f = n) \/ exists f', In f' l /\ fs_name f' = fs_name f /\ In x (fs_wrappers f').
  Proof.
    induction l as [|y l IH]; cbn [add_to].
    - intros [<-|[]] [<-|[]]. auto.
    - destruct (String.eqb_spec (fs_name y) n) as [En|Nn].
      + intros [<-|I] Ix.
        * cbn [fs_wrappers fs_name] in *. apply in_app_or in Ix. destruct Ix as [Ix|[<-|[]]]; [right; exists y; cbn; auto|auto].
        * right. exists f. cbn. auto.
      + intros [<-|I] Ix; [right; exists y; cbn; auto|]. destruct (IH I Ix) as [Q|(f' & A & B & D)]; [auto|]. right. exists f'. cbn. auto.
  Qed.
  Lemma step_declared c w w' r decl : run_call make p c w = (w', r) -> declared w decl ->
    declared w' (fun i n d => decl i n d \/ (c = CFunctionC i d /\ r = Ok (RObject n))).
  Proof.
    intros H D i m' f x E' If Ix. destruct (step_names _ _ _ _ H) as (_ & P & A & _). destruct P as (G & N).
    assert (F' : In f (functions_at w' i)) by (unfold functions_at; now rewrite E').
    destruct A as [A|(k & d & n & m & g & -> & -> & Ek & -> & Id & Ba & A)].
    - rewrite A in F'. unfold functions_at in F'. destruct (nth_error (w_mods w) i) as [m|] eqn:E; [|destruct F'].
      destruct (G i m E) as (y & Ey & Py & _). assert (y = m') as -> by congruence. destruct (D i m f x E F' Ix) as (d & Q1 & Q2 & Q3). exists d. rewrite Py. auto.
    - rewrite A in F'. destruct (Nat.eqb_spec i k) as [->|Ne].
      + destruct (G k m Ek) as (y & Ey & Py & _). assert (y = m') as -> by congruence. unfold functions_at in F'. rewrite Ek in F'. destruct (in_add_to _ _ _ _ _ _ F' Ix) as [(-> & <-)|(f' & I' & En & Ix')].
        * exists d. rewrite Py. auto.
        * destruct (D k m f' x Ek I' Ix') as (d' & Q1 & Q2 & Q3). exists d'. rewrite Py. rewrite En in Q1. auto.
      + unfold functions_at in F'. destruct (nth_error (w_mods w) i) as [m0|] eqn:E; [|destruct F'].
        destruct (G i m0 E) as (y & Ey & Py & _). assert (y = m') as -> by congruence. destruct (D i m0 f x E F' Ix) as (d' & Q1 & Q2 & Q3). exists d'. rewrite Py. auto.
  Qed.
  Lemma run_declared cs : forall w w' tr decl, run make p cs w = (w', tr) -> declared w decl -> prefixes_ok w ->
    declared w' (fun i n d => decl i n d \/ In (CFunctionC i d, Ok (RObject n)) tr) /\ prefixes_ok w'.
  Proof.
    induction cs as [|c cs IH]; intros w w' tr decl H D P; cbn [run] in H.
    - replace w' with w by congruence. split; [|exact P]. intros i m f x E If Ix. destruct (D i m f x E If Ix) as (d & Q & Q'). exists d. auto.
    - destruct (run_call make p c w) as [w1 r] eqn:C. cbn [fst snd] in H. destruct (run make p cs w1) as [w2 t] eqn:R. cbn [fst snd] in H.
      replace w' with w2 by congruence. replace tr with ((c, r) :: t) by congruence. destruct (step_names _ _ _ _ C) as (_ & Pr & _).
      destruct (IH _ _ _ _ R (step_declared _ _ _ _ _ C D) (pre_ok _ _ Pr P)) as (A & B). split; [|exact B].
      intros i m f x E If Ix. destruct (A i m f x E If Ix) as (d & [[Q|(-> & ->)]|Q] & Q'); exists d; cbn [In]; auto.
  Qed.
  Theorem c_names name ns cs w tr : run make p cs (new_root name ns) = (w, tr) ->
    (forall i m, nth_error (w_mods w) i = Some m -> c_prefix (w_mods w) i (m_prefix m)) /\
    forall i m f x, nth_error (w_mods w) i = Some m -> In f (m_functions m) -> In x (fs_wrappers f) ->
    exists d, In (CFunctionC i d, Ok (RObject (fs_name f))) tr /\ fw_id x = fd_id d /\ fw_base x = c_function (m_prefix m) d.
  Proof.
    intros H. destruct (run_declared cs _ _ _ (fun _ _ _ => False) H) as (A & B).
    - intros [|i] m f x E; [injection E as <-; intros []|destruct i; discriminate E].
    - intros [|i] m E; [|destruct i; discriminate E]. injection E as <-. cbn [m_prefix new_module]. rewrite undot_spec. now apply (xp_root _ 0 (new_module name None ns (mk_world [] "__main__" (Some []) [] []))).
    - split; [exact B|]. intros i m f x E If Ix. destruct (A i m f x E If Ix) as (d & [[]|Q] & Q'). exists d. auto.
  Qed.
End Names.
