(** C50: annotations in header files. *)
From Verif.Model Require Import Py Annotations.
From Verif.Spec Require Import AnnotationSpec.
From Verif.Proofs Require Import AnnotationRx AnnotationItems AnnotationProofs.
From Coq Require Import Lia.
Open Scope string_scope.
Open Scope list_scope.

(** A declaration has the annotations of the comments directly above it, and no others, whatever was read before: [block] are these
    lines, from the nearest upwards, [items] what they say. *)
Theorem C50_annotations fs history sc file pre block decl rest items :
  get_all fs new_scanner history = Ok sc -> file <> "" -> fs file = Some (pre ++ rev block ++ decl :: rest) ->
  ~ annotation_line (last pre (last (decl :: rest) decl)) ->
  Forall2 (fun line its => exists t, text_of line t /\ says t its) block items ->
  exists sc' global params, get_annotations fs sc (mk_declaration false file (Z.of_nat (length pre + length block) + 1)) = Ok (sc', (global, params, [])) /\
    (forall k, dict_get global k = note_in (concat items) k) /\ NoDup (map fst global) /\
    (forall p, match dict_get params p with
               | Some l => NoDup (map fst l) /\ exists said, about_in (concat items) p = Some said /\ forall k, dict_get l k = value_in said k
               | None => about_in (concat items) p = None
               end).
Proof.
  intros H Nf Fl St F. pose proof (known_all fs history [] new_scanner sc (known_new fs) H) as K. cbn [app] in K. unfold get_annotations. cbn [d_artificial d_file d_line].
  destruct (String.eqb_spec file "") as [E|_]; [contradiction|]. set (lines := pre ++ rev block ++ decl :: rest) in *.
  assert (X : exists files, match dict_get (sc_files sc) file with Some l => Some (l, sc_files sc) | None => option_map (fun l => (l, dict_set (sc_files sc) file l)) (fs file) end = Some (lines, files)).
  { destruct (dict_get (sc_files sc) file) as [l|] eqn:E; [|rewrite Fl; cbn; eauto]. apply (kn_files _ _ _ K) in E. destruct E as (E & _). rewrite Fl in E. injection E as <-. eauto. }
  destruct X as (files & ->). replace (Z.of_nat (length pre + length block) + 1 - 2)%Z with (Z.of_nat (length pre + length block) - 1)%Z by lia.
  assert (L : length lines = length pre + length block + S (length rest)) by (unfold lines; rewrite !app_length, rev_length; cbn; lia).
  assert (Stop : py_nth lines (Z.of_nat (length pre) - 1) = Some (last pre (last (decl :: rest) decl))).
  { destruct pre as [|a pre] using rev_ind.
    - cbn [length last Z.of_nat]. change (0 - 1)%Z with (-1)%Z. unfold lines. cbn [app]. assert (Z : exists b z, decl :: rest = b ++ [z]) by (destruct (@exists_last _ (decl :: rest)) as (b & z & E); [discriminate|eauto]). destruct Z as (b & z & E).
      change (match rest with [] => decl | _ :: _ => last rest decl end) with (last (decl :: rest) decl). rewrite E. rewrite last_last. rewrite app_assoc. apply py_nth_last.
    - clear IHpre. rewrite last_last. unfold lines. rewrite app_length. cbn [length]. replace (Z.of_nat (length pre + 1) - 1)%Z with (Z.of_nat (length pre)) by lia. rewrite <- app_assoc. apply py_nth_app. }
  rewrite (upwards_block file _ pre block items F lines (decl :: rest) _ _ [] [] [] eq_refl Stop St) by lia.
  eexists _, _, _. split; [reflexivity|]. split; [|split].
  - intros k. rewrite items_notes. now destruct (note_in (concat items) k).
  - apply items_nodup. constructor.
  - intros p. rewrite items_abouts. destruct (about_in (concat items) p) as [said|]; [|reflexivity]. split; [apply pairs_nodup; constructor|]. exists said. split; [reflexivity|]. intros k. rewrite pairs_get. now destruct (value_in said k).
Qed.
(** Comments that belong to no declaration are reported, each once, and nothing else is. *)
Theorem C50_unused fs history sc : get_all fs new_scanner history = Ok sc ->
  NoDup (warn_unused sc) /\
  forall w, In w (warn_unused sc) <-> exists file lines n, w = WUnused file n /\ fs file = Some lines /\ annotated lines n /\
    (exists d, In d history /\ d_artificial d = false /\ file <> "" /\ d_file d = file) /\
    ~ exists d, In d history /\ d_artificial d = false /\ d_file d = file /\ belongs lines n (d_line d).
Proof.
  intros H. pose proof (known_all fs history [] new_scanner sc (known_new fs) H) as K. cbn [app] in K. unfold warn_unused. split.
  - apply nodup_flat; [|intros; apply unused_nodup|].
    + apply (NoDup_map_inv fst). apply (kn_keys _ _ _ K).
    + intros [f l] [g m] w Hf Hg Hx Hy. cbn [fst snd] in *. apply unused_in in Hx, Hy. destruct Hx as (j & x & _ & _ & _ & ->), Hy as (j' & y & _ & _ & _ & E). injection E as <- _.
      apply (dict_get_in _ _ _ (kn_keys _ _ _ K)) in Hf, Hg. congruence.
  - intros w. rewrite in_flat_map. split.
    + intros ([file lines] & I & X). cbn [fst snd] in X. apply unused_in in X. destruct X as (j & l & Hj & An & Nu & ->). apply (dict_get_in _ _ _ (kn_keys _ _ _ K)) in I. apply (kn_files _ _ _ K) in I. destruct I as (Fl & d & I & (R1 & R2) & Ef).
      replace (0 + Z.of_nat j + 1)%Z with (Z.of_nat j + 1)%Z in * by lia. exists file, lines, (Z.of_nat j + 1)%Z. split; [reflexivity|]. split; [exact Fl|]. split; [|split].
      * exists l. split; [|exact An]. split; [lia|]. replace (Z.to_nat (Z.of_nat j + 1 - 1)) with j by lia. exact Hj.
      * exists d. split; [exact I|]. split; [exact R1|]. split; [congruence|exact Ef].
      * intros (e & Ie & Re & Fe & B). apply Nu. change (In (Z.of_nat j + 1)%Z (used_of (sc_used sc) file)). apply (kn_used _ _ _ K file lines _ Fl); [lia|]. exists e. split; [exact Ie|]. split; [|now split]. split; [exact Re|congruence].
    + intros (file & lines & n & -> & Fl & (l & (N & La) & An) & (d & I & R1 & R2 & Ef) & Nb). exists (file, lines). split.
      * apply (dict_get_in _ _ _ (kn_keys _ _ _ K)). apply (kn_files _ _ _ K). split; [exact Fl|]. exists d. split; [exact I|]. split; [|exact Ef]. split; [exact R1|congruence].
      * cbn [fst snd]. apply unused_in. exists (Z.to_nat (n - 1)), l. replace (0 + Z.of_nat (Z.to_nat (n - 1)) + 1)%Z with n by lia. split; [exact La|]. split; [exact An|]. split; [|reflexivity].
        intros X. apply Nb. change (In n (used_of (sc_used sc) file)) in X. apply (kn_used _ _ _ K file lines n Fl N) in X. destruct X as (e & Ie & (Re & _) & Fe & B). exists e. now repeat (split; [assumption|]).
Qed.
(** Reading annotations never fails for a declaration that is in the file. *)
Theorem C50_total fs history sc d lines decl : get_all fs new_scanner history = Ok sc -> d_artificial d = false -> d_file d <> "" -> fs (d_file d) = Some lines ->
  line_at lines (d_line d) decl -> ~ annotation_line decl -> exists r, get_annotations fs sc d = Ok r.
Proof.
  intros H Ar Nf Fl (L1 & L2) Na. pose proof (known_all fs history [] new_scanner sc (known_new fs) H) as K. cbn [app] in K. unfold get_annotations. rewrite Ar. destruct (String.eqb_spec (d_file d) "") as [E|_]; [contradiction|].
  assert (X : exists files, match dict_get (sc_files sc) (d_file d) with Some l => Some (l, sc_files sc) | None => option_map (fun l => (l, dict_set (sc_files sc) (d_file d) l)) (fs (d_file d)) end = Some (lines, files)).
  { destruct (dict_get (sc_files sc) (d_file d)) as [l|] eqn:E; [|rewrite Fl; cbn; eauto]. apply (kn_files _ _ _ K) in E. destruct E as (E & _). rewrite Fl in E. injection E as <-. eauto. }
  destruct X as (files & ->). assert (Len : (Z.to_nat (d_line d - 1) < length lines)) by (apply nth_error_Some; congruence).
  assert (S : py_nth lines (d_line d - 1 - Z.of_nat (length lines)) = Some decl).
  { unfold py_nth. replace (d_line d - 1 - Z.of_nat (length lines) >=? 0)%Z with false by (symmetry; rewrite Z.geb_leb; apply Z.leb_gt; lia).
    replace (Z.of_nat (length lines) + (d_line d - 1 - Z.of_nat (length lines)))%Z with (d_line d - 1)%Z by lia. replace (d_line d - 1 >=? 0)%Z with true by (symmetry; apply Z.geb_le; lia). exact L2. }
  match goal with |- context [upwards ?a ?b ?l ?i0 ?u0 ?f0] => assert (Z : exists r, upwards a b l i0 u0 f0 = Ok r) by (apply (upwards_ok b l (d_line d - 1 - Z.of_nat (length lines)) decl); [lia|exact S|exact Na|lia|lia]) end. destruct Z as ([u f] & E).
  rewrite E. eauto.
Qed.
(** The annotations of a parameter become its options; names that are not known are reported and have no effect; a default value in
    C++ comes before one in an annotation. *)
Theorem C50_parameter l default : NoDup (map fst l) -> proper parameter_option parameter_names l ->
  exists kw ws, lookup_parameter l default = Ok (kw, ws) /\
    (forall n v k, In (n, Some v) l -> parameter_option n v k -> (n = "default_value" -> default = None \/ default = Some "") -> dict_get kw n = Some k) /\
    (forall d, default = Some d -> d <> "" -> dict_get kw "default_value" = Some (KString d)) /\
    (forall n, (forall v, In (n, v) l -> ~ In n parameter_names) -> (n = "default_value" -> default = None \/ default = Some "") -> dict_get kw n = None) /\
    (forall n v, In (n, v) l -> ~ In n parameter_names -> In (WName n) ws) /\
    ((forall n v, In (n, v) l -> In n parameter_names) -> ws = []).
Proof.
  intros N P. unfold lookup_parameter. destruct (notes_read _ _ _ _ l parameter_reads parameter_known parameter_fun N P ([], [])) as (kw & w & E & A & B & C & D). rewrite parameter_run, E. cbn [bind fst snd app] in *.
  assert (D' : (forall n v, In (n, v) l -> In n parameter_names) -> w = []) by (intros H; apply D; intros n v I; split; [exact (H n v I)|exact Logic.I]).
  assert (Z : forall k, kw = k -> exists kw ws, Ok (k, w) = Ok (kw, ws) /\ kw = k /\ ws = w) by (intros k _; now exists k, w).
  destruct default as [d|]; [destruct (String.eqb_spec d "") as [->|Nd]|].
  - exists kw, w. split; [reflexivity|]. split; [intros n v k I O _; now apply (A n v k)|]. split; [intros d [= <-]; congruence|]. split; [intros n H _; rewrite B by exact H; reflexivity|]. now split.
  - eexists _, w. split; [reflexivity|]. cbn [fst]. split; [intros n v k I O X; destruct (String.eqb_spec n "default_value") as [->|Nn]; [destruct (X eq_refl); congruence|]; rewrite StrLemmas.dict_get_set_other by congruence; now apply (A n v k)|].
    split; [intros d' [= <-] _; apply StrLemmas.dict_get_set_same|]. split; [|now split]. intros n H X. destruct (String.eqb_spec n "default_value") as [->|Nn]; [destruct (X eq_refl); congruence|]. rewrite StrLemmas.dict_get_set_other by congruence. now rewrite B.
  - exists kw, w. split; [reflexivity|]. split; [intros n v k I O _; now apply (A n v k)|]. split; [discriminate|]. split; [intros n H _; rewrite B by exact H; reflexivity|]. now split.
Qed.
(** Those of the return value likewise. *)
Theorem C50_return l : NoDup (map fst l) -> proper return_option return_names l ->
  exists kw ws, lookup_return l ([], []) = Ok (kw, ws) /\
    (forall n v k, In (n, Some v) l -> return_option n v k -> dict_get kw n = Some k) /\
    (forall n, (forall v, In (n, v) l -> ~ In n return_names) -> dict_get kw n = None) /\
    (forall n v, In (n, v) l -> ~ In n return_names -> In (WName n) ws) /\
    ((forall n v, In (n, v) l -> In n return_names /\ n <> "caller_owns_return") -> ws = []).
Proof.
  intros N P. destruct (notes_read _ _ _ _ l return_reads return_known return_fun N P ([], [])) as (kw & w & E & A & B & C & D). rewrite return_run, E. cbn [bind fst snd app] in *. exists kw, w. now repeat (split; [assumption||reflexivity|]).
Qed.
(** Every parameter and the return value of a function get their own. *)
Theorem C50_function (params : dict notes) args : (forall p l, dict_get params p = Some l -> NoDup (map fst l)) ->
  (forall l, dict_get params "return" = Some l -> proper return_option return_names l) ->
  (forall a l, In a args -> dict_get params (fst a) = Some l -> proper parameter_option parameter_names l) ->
  exists r kws, function_specs params args = Ok (r, kws) /\
    (forall n k, dict_get r n = Some k -> exists l v, dict_get params "return" = Some l /\ In (n, v) l) /\
    (forall l n v k, dict_get params "return" = Some l -> In (n, Some v) l -> return_option n v k -> dict_get r n = Some k) /\
    Forall2 (fun a kw =>
      (forall l n v k, dict_get params (fst a) = Some l -> In (n, Some v) l -> parameter_option n v k -> n <> "default_value" -> dict_get kw n = Some k) /\
      (forall n k, dict_get kw n = Some k -> n <> "default_value" -> exists l v, dict_get params (fst a) = Some l /\ In (n, v) l) /\
      (forall d, snd a = Some d -> d <> "" -> dict_get kw "default_value" = Some (KString d))) args kws.
Proof.
  intros Nd Pr Pp. unfold function_specs.
  assert (Nof : forall p, NoDup (map fst (notes_of params p))) by (intros p; unfold notes_of; destruct (dict_get params p) eqn:E; [exact (Nd p _ E)|constructor]).
  assert (Has : forall n (l : notes), (forall v, ~ In (n, v) l) \/ exists v, In (n, v) l).
  { intros n l. induction l as [|[m w] l IH]; [left; intros v []|]. destruct (String.eqb_spec m n) as [->|N]; [right; exists w; now left|]. destruct IH as [IH|(v & IH)]; [left; intros v [H|H]; [congruence|now apply (IH v)]|right; exists v; now right]. }
  destruct (C50_return (notes_of params "return") (Nof _)) as (r & w & -> & A & B & _).
  { unfold notes_of. destruct (dict_get params "return") eqn:E; [now apply Pr|intros ? ? []]. }
  cbn [bind fst].
  assert (Args : exists kws, argument_specs params args = Ok kws /\ Forall2 (fun a kw =>
      (forall l n v k, dict_get params (fst a) = Some l -> In (n, Some v) l -> parameter_option n v k -> n <> "default_value" -> dict_get kw n = Some k) /\
      (forall n k, dict_get kw n = Some k -> n <> "default_value" -> exists l v, dict_get params (fst a) = Some l /\ In (n, v) l) /\
      (forall d, snd a = Some d -> d <> "" -> dict_get kw "default_value" = Some (KString d))) args kws).
  { induction args as [|a args IH]; [exists []; split; [reflexivity|constructor]|]. cbn [argument_specs]. destruct (C50_parameter (notes_of params (fst a)) (snd a) (Nof _)) as (kw & w' & -> & A' & D' & B' & _).
    - unfold notes_of. destruct (dict_get params (fst a)) eqn:E; [apply (Pp a); [now left|exact E]|intros ? ? []].
    - cbn [bind fst]. destruct IH as (kws & -> & F); [intros b l Hb; apply Pp; now right|]. cbn [bind]. exists (kw :: kws). split; [reflexivity|]. constructor; [|exact F]. split; [|split; [|exact D']].
      + intros l n v k El I O Ne. apply (A' n v k); [unfold notes_of; now rewrite El|exact O|congruence].
      + intros n k E Ne. destruct (Has n (notes_of params (fst a))) as [N|(v & I)].
        * rewrite B' in E; [discriminate|intros v I; now apply N in I|congruence].
        * unfold notes_of in I. destruct (dict_get params (fst a)) as [l|]; [now exists l, v|destruct I]. }
  destruct Args as (kws & -> & F). cbn [bind]. exists r, kws. split; [reflexivity|]. split; [|split; [|exact F]].
  - intros n k E. destruct (Has n (notes_of params "return")) as [N|(v & I)].
    + rewrite B in E; [discriminate|intros v I; now apply N in I].
    + unfold notes_of in I. destruct (dict_get params "return") as [l|]; [now exists l, v|destruct I].
  - intros l n v k El I O. apply (A n v k); [unfold notes_of; now rewrite El|exact O].
Qed.
Print Assumptions C50_annotations.
Print Assumptions C50_unused.
Print Assumptions C50_total.
Print Assumptions C50_parameter.
Print Assumptions C50_return.
Print Assumptions C50_function.

(** ** An example *)
Definition header : list string :=
  ["#include <x>" ++ nl; "  // -#- name=foo; @x(transfer_ownership=true, null_ok=on) ; ignore -#-" ++ nl; "/* -#- @return(caller_owns_return=True); name=bar -#- */" ++ nl; "A* f(A *x);" ++ nl;
   "" ++ nl; "// -#- lost -#-" ++ nl; "" ++ nl]%string.
Definition fs (f : string) : option (list string) := if String.eqb f "a.h" then Some header else None.
Definition what_is_said : list (list item) :=
  [[About "return" [("caller_owns_return", Some "True")]; Note "name" (Some "bar")];
   [Note "name" (Some "foo"); About "x" [("transfer_ownership", Some "true"); ("null_ok", Some "on")]; Note "ignore" None]].
Example read_example : exists sc,
  get_annotations fs new_scanner (mk_declaration false "a.h" 4) =
    Ok (sc, ([("name", Some "foo"); ("ignore", None)], [("return", [("caller_owns_return", Some "True")]); ("x", [("transfer_ownership", Some "true"); ("null_ok", Some "on")])], []))
  /\ warn_unused sc = [WUnused "a.h" 6].
Proof. eexists. split; vm_compute; reflexivity. Qed.
Ltac charall := let c := fresh in let X := fresh in intros c X; cbn in X; repeat (destruct X as [X|X]; [subst c|]); try contradiction; try reflexivity; (split; [reflexivity|discriminate]).
Lemma meaning (line t : string) : match re_match comment_rx line with Some g => (match group g 1 with Some s => Some s | None => group g 2 end) = Some t | None => False end -> text_of line t.
Proof. destruct (re_match comment_rx line) as [g|] eqn:E; [|intros []]. destruct (comment_some line g E) as (t' & T & ->). intros [= <-]. exact T. Qed.
(** The hypotheses of C50_annotations hold for it. *)
Example example_hypotheses :
  header = [nth 0 header ""] ++ rev [nth 2 header ""; nth 1 header ""] ++ nth 3 header "" :: skipn 4 header /\
  ~ annotation_line (last [nth 0 header ""] (last (nth 3 header "" :: skipn 4 header) (nth 3 header ""))) /\
  Forall2 (fun line its => exists t, text_of line t /\ says t its) [nth 2 header ""; nth 1 header ""] what_is_said.
Proof.
  split; [reflexivity|]. split; [apply comment_none; vm_compute; reflexivity|]. constructor; [|constructor; [|constructor]].
  - exists " @return(caller_owns_return=True); name=bar ". split; [apply meaning; vm_compute; reflexivity|]. split; [discriminate|]. exists [" @return(caller_owns_return=True)"; " name=bar "]. split; [reflexivity|].
    constructor; [|constructor; [|constructor]].
    + exists "@return(caller_owns_return=True)". split; [exists " ", ""; repeat split; charall|]. split; [split; [discriminate|charall]|]. split; [discriminate|]. exists ["caller_owns_return=True"]. split; [reflexivity|]. constructor; [|constructor].
      split; [intros X; cbn in X; intuition discriminate|]. exists "caller_owns_return=True". split; [exists "", ""; repeat split; charall|]. split; [split; [discriminate|charall]|]. split; [split; [discriminate|charall]|reflexivity].
    + exists "name=bar". split; [exists " ", " "; repeat split; charall|]. split; [split; [discriminate|charall]|]. split; [split; [discriminate|charall]|reflexivity].
  - exists " name=foo; @x(transfer_ownership=true, null_ok=on) ; ignore ". split; [apply meaning; vm_compute; reflexivity|]. split; [discriminate|]. exists [" name=foo"; " @x(transfer_ownership=true, null_ok=on) "; " ignore "]. split; [reflexivity|].
    constructor; [|constructor; [|constructor; [|constructor]]].
    + exists "name=foo". split; [exists " ", ""; repeat split; charall|]. split; [split; [discriminate|charall]|]. split; [split; [discriminate|charall]|reflexivity].
    + exists "@x(transfer_ownership=true, null_ok=on)". split; [exists " ", " "; repeat split; charall|]. split; [split; [discriminate|charall]|]. split; [discriminate|]. exists ["transfer_ownership=true"; " null_ok=on"]. split; [reflexivity|]. constructor; [|constructor; [|constructor]].
      * split; [intros X; cbn in X; intuition discriminate|]. exists "transfer_ownership=true". split; [exists "", ""; repeat split; charall|]. split; [split; [discriminate|charall]|]. split; [split; [discriminate|charall]|reflexivity].
      * split; [intros X; cbn in X; intuition discriminate|]. exists "null_ok=on". split; [exists " ", ""; repeat split; charall|]. split; [split; [discriminate|charall]|]. split; [split; [discriminate|charall]|reflexivity].
    + exists "ignore". split; [exists " ", " "; repeat split; charall|]. split; [split; [discriminate|charall]|reflexivity].
Qed.
Example options_example : lookup_parameter [("transfer_ownership", Some "TRUE"); ("direction", Some "InOut"); ("custodian", Some "-12"); ("colour", Some "red")] (Some "0") =
  Ok ([("transfer_ownership", KBool true); ("direction", KDirection 3); ("custodian", KInt (-12)); ("default_value", KString "0")], [WName "colour"]).
Proof. reflexivity. Qed.
Example options_proper : proper parameter_option parameter_names [("transfer_ownership", Some "TRUE"); ("custodian", Some "-12"); ("colour", Some "red")].
Proof.
  intros n v [H|[H|[H|[]]]]; injection H as <- <-.
  - left. exists "TRUE", (KBool true). split; [reflexivity|]. constructor. left. reflexivity.
  - left. exists "-12", (KInt (-12)). split; [reflexivity|]. constructor. exists 12%N. right. split; reflexivity.
  - right. cbn. intuition discriminate.
Qed.

(** ** What does not hold *)
Definition one_file (l : list string) (f : string) : option (list string) := Some l.
(** An indented /* -#- ... -#- */ comment is not seen, and not reported either. *)
Theorem C50_indented_refuted : exists lines sc, get_annotations (one_file lines) new_scanner (mk_declaration false "a.h" 2) = Ok (sc, ([], [], [])) /\ warn_unused sc = [] /\ nth_error lines 0 = Some ("  /* -#- ignore -#- */" ++ nl)%string.
Proof. exists ["  /* -#- ignore -#- */" ++ nl; "int f();" ++ nl]%string. eexists. split; [vm_compute; reflexivity|]. now split. Qed.
(** A declaration in the first line gets the annotations at the end of the file. *)
Theorem C50_first_line_refuted : exists lines sc, get_annotations (one_file lines) new_scanner (mk_declaration false "a.h" 1) = Ok (sc, ([("ignore", None)], [], [])) /\ nth_error lines 0 = Some ("int f();" ++ nl)%string.
Proof. exists ["int f();" ++ nl; "// -#- ignore -#-" ++ nl]%string. eexists. split; [vm_compute; reflexivity|reflexivity]. Qed.
(** Blanks around = lose the value silently. *)
Theorem C50_blanks_refuted : exists lines sc, get_annotations (one_file lines) new_scanner (mk_declaration false "a.h" 2) = Ok (sc, ([("name", None)], [], [])) /\ nth_error lines 0 = Some ("// -#- name = foo -#-" ++ nl)%string.
Proof. exists ["// -#- name = foo -#-" ++ nl; "int f();" ++ nl]%string. eexists. split; [vm_compute; reflexivity|reflexivity]. Qed.
(** Annotations of one parameter in two lines are not joined. *)
Theorem C50_joined_refuted : exists lines sc, get_annotations (one_file lines) new_scanner (mk_declaration false "a.h" 3) = Ok (sc, ([], [("x", [("null_ok", Some "on")])], [])) /\ nth_error lines 1 = Some ("// -#- @x(transfer_ownership=true) -#-" ++ nl)%string.
Proof. exists ["// -#- @x(null_ok=on) -#-" ++ nl; "// -#- @x(transfer_ownership=true) -#-" ++ nl; "int f(A *x);" ++ nl]%string. eexists. split; [vm_compute; reflexivity|reflexivity]. Qed.
(** A boolean annotation without a value is an AttributeError; caller_owns_return is accepted and yet reported. *)
Theorem C50_flag_refuted : exists l, lookup_parameter l None = Err AttributeError /\ l = [("transfer_ownership", None)].
Proof. exists [("transfer_ownership", None)]. now split. Qed.
Theorem C50_caller_owns_refuted : exists l, lookup_return l ([], []) = Ok ([("caller_owns_return", KBool true)], [WName "caller_owns_return"]) /\ l = [("caller_owns_return", Some "true")].
Proof. exists [("caller_owns_return", Some "true")]. now split. Qed.
(** What cannot be parsed is reported two lines too early. *)
Theorem C50_line_number_refuted : exists lines sc, get_annotations (one_file lines) new_scanner (mk_declaration false "a.h" 4) = Ok (sc, ([], [], [WUnparsed "=3" "a.h" 1])) /\ line_at lines 3 ("// -#- =3 -#-" ++ nl).
Proof. exists [nl; nl; "// -#- =3 -#-" ++ nl; "int f();" ++ nl]%string. eexists. split; [vm_compute; reflexivity|]. split; [lia|reflexivity]. Qed.
