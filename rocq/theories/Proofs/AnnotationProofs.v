(** Lines above declarations, unused annotations, options. *)
From Verif.Model Require Import Py Tokenizer Annotations.
From Verif.Spec Require Import AnnotationSpec.
From Verif.Spec Require DeclSpec.
From Verif.Proofs Require Import StrLemmas DeclProofs AnnotationRx AnnotationItems.
From Coq Require Import Lia.
Open Scope string_scope.
Open Scope list_scope.

(** ** Lines *)
Lemma py_nth_in l i : (0 <= i < Z.of_nat (length l))%Z -> exists x, py_nth l i = Some x.
Proof.
  intros H. unfold py_nth. replace (i >=? 0)%Z with true by (symmetry; apply Z.geb_le; lia). destruct (nth_error l (Z.to_nat i)) eqn:E; [eauto|]. apply nth_error_None in E. lia.
Qed.
Lemma py_nth_negative l i : (- Z.of_nat (length l) <= i < 0)%Z -> exists x, py_nth l i = Some x.
Proof.
  intros H. unfold py_nth. replace (i >=? 0)%Z with false by (symmetry; rewrite Z.geb_leb; apply Z.leb_gt; lia). replace (Z.of_nat (length l) + i >=? 0)%Z with true by (symmetry; apply Z.geb_le; lia).
  destruct (nth_error l (Z.to_nat (Z.of_nat (length l) + i))) eqn:E; [eauto|]. apply nth_error_None in E. lia.
Qed.
Lemma py_nth_line l i x : (0 <= i)%Z -> (py_nth l i = Some x <-> line_at l (i + 1) x).
Proof.
  intros H. unfold py_nth, line_at. replace (i >=? 0)%Z with true by (symmetry; apply Z.geb_le; lia). replace (i + 1 - 1)%Z with i by lia. split; [intros E; split; [lia|exact E]|tauto].
Qed.
Lemma py_nth_app (a : list string) x b : py_nth (a ++ x :: b) (Z.of_nat (length a)) = Some x.
Proof. unfold py_nth. replace (Z.of_nat (length a) >=? 0)%Z with true by (symmetry; apply Z.geb_le; lia). rewrite Nat2Z.id. rewrite nth_error_app2 by lia. now rewrite Nat.sub_diag. Qed.
Lemma py_nth_last (a : list string) x : py_nth (a ++ [x]) (-1) = Some x.
Proof.
  unfold py_nth. cbn [Z.geb Z.compare]. rewrite app_length. cbn [length]. replace (Z.of_nat (length a + 1) + -1 >=? 0)%Z with true by (symmetry; apply Z.geb_le; lia).
  replace (Z.to_nat (Z.of_nat (length a + 1) + -1)) with (length a) by lia. rewrite nth_error_app2 by lia. now rewrite Nat.sub_diag.
Qed.

(** The block of comments above a line. *)
Fixpoint block_used (u : dict (list Z)) (file : string) (n : nat) (i : Z) : dict (list Z) :=
  match n with O => u | S m => block_used (declare_used u file (i - 1 + 2)) file m (i - 1) end.
Lemma upwards_block file stop pre block items : Forall2 (fun line its => exists t, text_of line t /\ says t its) block items ->
  forall lines rest fuel u gl ps ws, lines = pre ++ rev block ++ rest -> py_nth lines (Z.of_nat (length pre) - 1) = Some stop -> ~ annotation_line stop -> length block < fuel ->
  upwards fuel file lines (Z.of_nat (length pre + length block) - 1) u (gl, ps, ws) =
  Ok (block_used u file (length block) (Z.of_nat (length pre + length block) - 1), (fst (fold_left put_item (concat items) (gl, ps)), snd (fold_left put_item (concat items) (gl, ps)), ws)).
Proof.
  intros F. induction F as [|line its block items (t & T & Sy) F IH]; intros lines rest fuel u gl ps ws E St Na L.
  - destruct fuel; [cbn in L; lia|]. cbn [upwards length]. rewrite Nat.add_0_r, St. rewrite (proj2 (comment_none stop) Na). reflexivity.
  - destruct fuel as [|fuel]; [cbn in L; lia|]. cbn [upwards length]. replace (Z.of_nat (length pre + S (length block)) - 1)%Z with (Z.of_nat (length (pre ++ rev block))) by (rewrite app_length, rev_length; lia).
    assert (E' : lines = (pre ++ rev block) ++ line :: rest) by (rewrite E; cbn [rev]; now rewrite <- !app_assoc). rewrite E' at 1. rewrite py_nth_app.
    destruct (re_match comment_rx line) as [g|] eqn:R.
    2:{ exfalso. apply comment_none in R. apply R. exists t. apply T. }
    destruct (comment_some line g R) as (t' & T' & ->). rewrite <- (comment_unique line t t' T T'). rewrite (text_items file _ ws t its Sy gl ps).
    replace (Z.of_nat (length (pre ++ rev block)) - 1)%Z with (Z.of_nat (length pre + length block) - 1)%Z by (rewrite app_length, rev_length; lia).
    rewrite (IH lines (line :: rest) fuel _ _ _ ws); [|rewrite E'; now rewrite <- app_assoc|exact St|exact Na|cbn in L; lia].
    cbn [concat block_used]. rewrite fold_left_app. destruct (fold_left put_item its (gl, ps)) as [a b].
    replace (Z.of_nat (length (pre ++ rev block)) - 1)%Z with (Z.of_nat (length pre + length block) - 1)%Z by (rewrite app_length, rev_length; lia). reflexivity.
Qed.

(** ** Used lines *)
Definition used_of (u : dict (list Z)) (file : string) : list Z := match dict_get u file with Some l => l | None => [] end.
Lemma used_declare u file n file' : used_of (declare_used u file n) file' = if String.eqb file' file then used_of u file ++ [n] else used_of u file'.
Proof. unfold used_of, declare_used. rewrite dict_get_set. now destruct (String.eqb file' file). Qed.
Lemma upwards_used file lines : forall fuel i u f u' f', upwards fuel file lines i u f = Ok (u', f') ->
  (forall file', file' <> file -> used_of u' file' = used_of u file') /\
  (forall n, (1 <= n)%Z -> (In n (used_of u' file) <-> In n (used_of u file) \/ (n <= i + 1)%Z /\ forall m, (n <= m <= i + 1)%Z -> annotated lines m)).
Proof.
  induction fuel as [|fuel IH]; intros i u f u' f'; [discriminate|]. cbn [upwards]. destruct (py_nth lines i) as [line|] eqn:P; [|discriminate]. destruct (re_match comment_rx line) as [g|] eqn:R.
  - destruct (comment_some line g R) as (t & (C & _) & ->). intros H. apply IH in H. destruct H as (A & B). split.
    + intros file' N. rewrite (A file' N), used_declare. apply (proj2 (String.eqb_neq file' file)) in N. now rewrite N.
    + intros n N. rewrite (B n N), used_declare, String.eqb_refl, in_app_iff. cbn [In]. assert (Here : (0 <= i)%Z -> annotated lines (i + 1)) by (intros I0; exists line; split; [now apply py_nth_line|now exists t]).
      split.
      * intros [[X|[X|[]]]|(X & Y)]; [now left| |].
        -- right. split; [lia|]. intros m Hm. replace m with (i + 1)%Z by lia. apply Here. lia.
        -- right. split; [lia|]. intros m Hm. destruct (Z.eq_dec m (i + 1)) as [->|Nm]; [apply Here; lia|]. apply Y. lia.
      * intros [X|(X & Y)]; [now left; left|]. destruct (Z.eq_dec n (i + 1)) as [->|Nn]; [left; right; left; lia|]. right. split; [lia|]. intros m Hm. apply Y. lia.
  - intros [= <- <-]. split; [reflexivity|]. intros n N. split; [now left|]. intros [X|(X & Y)]; [exact X|]. exfalso. destruct (Y (i + 1)%Z) as (l & La & An); [lia|]. apply py_nth_line in La; [|lia]. rewrite P in La. injection La as <-. now apply comment_none in R.
Qed.
(** ** No error *)
Lemma upwards_ok file lines j stop : (- Z.of_nat (length lines) <= j)%Z -> py_nth lines j = Some stop -> ~ annotation_line stop ->
  forall fuel i u f, (j <= i < Z.of_nat (length lines))%Z -> (i - j < Z.of_nat fuel)%Z -> exists r, upwards fuel file lines i u f = Ok r.
Proof.
  intros J P Na. induction fuel as [|fuel IH]; intros i u f Hi L; [lia|]. cbn [upwards].
  assert (X : exists x, py_nth lines i = Some x) by (destruct (Z.leb_spec 0 i); [apply py_nth_in; lia|apply py_nth_negative; lia]). destruct X as (line & E). rewrite E.
  destruct (re_match comment_rx line) as [g|] eqn:R; [|eauto]. destruct (comment_some line g R) as (t & (C & _) & ->). apply IH; [|lia].
  destruct (Z.eq_dec i j) as [->|]; [|lia]. exfalso. rewrite P in E. injection E as ->. apply Na. now exists t.
Qed.

(** ** The history *)
Definition real (d : declaration) : Prop := d_artificial d = false /\ d_file d <> "".
Record known (fs : string -> option (list string)) (ds : list declaration) (sc : scanner) : Prop := {
  kn_keys : NoDup (map fst (sc_files sc));
  kn_files : forall file lines, dict_get (sc_files sc) file = Some lines <-> fs file = Some lines /\ exists d, In d ds /\ real d /\ d_file d = file;
  kn_used : forall file lines n, fs file = Some lines -> (1 <= n)%Z -> (In n (used_of (sc_used sc) file) <-> exists d, In d ds /\ real d /\ d_file d = file /\ belongs lines n (d_line d))
}.
Lemma known_new fs : known fs [] new_scanner.
Proof. split; [constructor| |]; cbn; [intros; split; [discriminate|intros (_ & d & [] & _)]|intros; split; [intros []|intros (d & [] & _)]]. Qed.
Lemma known_step fs ds sc d sc' f : known fs ds sc -> get_annotations fs sc d = Ok (sc', f) -> known fs (ds ++ [d]) sc'.
Proof.
  intros [K F U] H. unfold get_annotations in H.
  assert (Same : ~ real d -> sc' = sc -> known fs (ds ++ [d]) sc').
  { intros Nr ->. split; [exact K| |].
    - intros file lines. rewrite F. split; intros (A & e & I & R & E); (split; [exact A|]); exists e; (split; [|now split]); [apply in_app_iff; now left|]. apply in_app_iff in I. destruct I as [I|[<-|[]]]; [exact I|contradiction].
    - intros file lines n Fl N. rewrite (U file lines n Fl N). split; intros (e & I & R & E); exists e; (split; [|now split]); [apply in_app_iff; now left|]. apply in_app_iff in I. destruct I as [I|[<-|[]]]; [exact I|contradiction]. }
  destruct (d_artificial d) eqn:Ar. { injection H as <- <-. apply Same; [|reflexivity]. intros (A & _). congruence. }
  destruct (String.eqb_spec (d_file d) "") as [Ef|Nf]. { injection H as <- <-. apply Same; [|reflexivity]. intros (_ & A). congruence. }
  assert (Rd : real d) by (now split). clear Same.
  assert (X : exists lines files, fs (d_file d) = Some lines /\ NoDup (map fst files) /\
     (forall g l, dict_get files g = Some l <-> fs g = Some l /\ exists e, In e (ds ++ [d]) /\ real e /\ d_file e = g) /\
     match upwards (Z.to_nat (d_line d - 2 + Z.of_nat (length lines) + 1)) (d_file d) lines (d_line d - 2) (sc_used sc) ([], [], []) with Ok (u, f) => Ok (mk_scanner files u, f) | Err e => Err e end = Ok (sc', f)).
  { destruct (dict_get (sc_files sc) (d_file d)) as [l|] eqn:E.
    - exists l, (sc_files sc). pose proof (proj1 (F _ _) E) as (Fl & _). split; [exact Fl|]. split; [exact K|]. split; [|exact H].
      intros g l'. rewrite F. split; intros (A & e & I & R & Ee); (split; [exact A|]).
      + exists e. split; [apply in_app_iff; now left|now split].
      + apply in_app_iff in I. destruct I as [I|[<-|[]]]; [exists e; now split|]. subst g. apply F in E. destruct E as (_ & e & E). now exists e.
    - destruct (fs (d_file d)) as [l|] eqn:Fl; [|discriminate]. cbn [option_map] in H. exists l, (dict_set (sc_files sc) (d_file d) l). split; [reflexivity|]. split; [now apply dict_set_nodup|]. split; [|exact H].
      intros g l'. rewrite dict_get_set. destruct (String.eqb_spec g (d_file d)) as [->|Ng].
      + split; [intros [= <-]; split; [exact Fl|]; exists d; split; [apply in_app_iff; right; now left|now split]|]. intros (A & _). congruence.
      + rewrite F. split; intros (A & e & I & R & Ee); (split; [exact A|]); exists e; (split; [|now split]); [apply in_app_iff; now left|]. apply in_app_iff in I. destruct I as [I|[<-|[]]]; [exact I|congruence]. }
  destruct X as (lines & files & Fl & Nd & Fi & Up). destruct (upwards _ _ _ _ _ _) as [[u f']|] eqn:E; [|discriminate]. injection Up as <- <-. apply upwards_used in E. destruct E as (O1 & O2). split; cbn [sc_files sc_used]; [exact Nd|exact Fi|].
  intros file ls n Hf N. destruct (String.eqb_spec file (d_file d)) as [->|Ng].
  - assert (ls = lines) as -> by congruence. rewrite (O2 n N), (U _ _ n Fl N). unfold belongs. split.
    + intros [(e & I & R & Ee & B)|(A & B)]; [exists e; split; [apply in_app_iff; now left|now split]|]. exists d. split; [apply in_app_iff; right; now left|]. split; [exact Rd|]. split; [reflexivity|]. split; [lia|]. intros m Hm. apply B. lia.
    + intros (e & I & R & Ee & B1 & B2). apply in_app_iff in I. destruct I as [I|[<-|[]]]; [left; exists e; split; [exact I|split; [exact R|split; [exact Ee|split; assumption]]]|]. right. split; [lia|]. intros m Hm. apply B2. lia.
  - rewrite (O1 file Ng), (U _ _ n Hf N). split; intros (e & I & R & Ee & B); exists e; (split; [|now split]); [apply in_app_iff; now left|]. apply in_app_iff in I. destruct I as [I|[<-|[]]]; [exact I|congruence].
Qed.
Lemma known_all fs ds : forall done sc sc', known fs done sc -> get_all fs sc ds = Ok sc' -> known fs (done ++ ds) sc'.
Proof.
  induction ds as [|d ds IH]; intros done sc sc' K H; cbn [get_all] in H; [injection H as <-; now rewrite app_nil_r|].
  destruct (get_annotations fs sc d) as [[sc1 f]|] eqn:E; [|discriminate]. apply (known_step fs done sc d sc1 f K) in E. apply (IH (done ++ [d]) sc1 sc' E) in H. now rewrite <- app_assoc in H.
Qed.
Lemma unused_in file used lines : forall n0 w, In w (unused_lines file used n0 lines) <-> exists j l, nth_error lines j = Some l /\ annotation_line l /\ ~ In (n0 + Z.of_nat j + 1)%Z used /\ w = WUnused file (n0 + Z.of_nat j + 1).
Proof.
  induction lines as [|l lines IH]; intros n0 w; cbn [unused_lines]; [split; [intros []|intros ([|j] & l & H & _); discriminate]|]. rewrite in_app_iff, IH. split.
  - intros [H|(j & x & Hj & An & Nu & ->)].
    + destruct (re_match comment_rx l) as [g|] eqn:R; [|destruct H]. destruct (comment_some l g R) as (t & (C & _) & _). destruct (existsb (Z.eqb (n0 + 1)) used) eqn:Ex; [destruct H|]. destruct H as [<-|[]].
      exists 0, l. split; [reflexivity|]. split; [now exists t|]. replace (n0 + Z.of_nat 0 + 1)%Z with (n0 + 1)%Z by lia. split; [|reflexivity]. intros X. assert (Y : existsb (Z.eqb (n0 + 1)) used = true) by (apply existsb_exists; exists (n0 + 1)%Z; split; [exact X|apply Z.eqb_refl]). congruence.
    + exists (S j), x. split; [exact Hj|]. split; [exact An|]. replace (n0 + Z.of_nat (S j) + 1)%Z with (n0 + 1 + Z.of_nat j + 1)%Z by lia. now split.
  - intros ([|j] & x & Hj & An & Nu & ->); cbn [nth_error] in Hj.
    + left. injection Hj as ->. destruct (re_match comment_rx x) as [g|] eqn:R; [|now apply comment_none in R]. replace (n0 + Z.of_nat 0 + 1)%Z with (n0 + 1)%Z in * by lia.
      destruct (existsb (Z.eqb (n0 + 1)) used) eqn:Ex; [|now left]. exfalso. apply Nu. apply existsb_exists in Ex. destruct Ex as (y & Y & E). apply Z.eqb_eq in E. now subst.
    + right. exists j, x. split; [exact Hj|]. split; [exact An|]. replace (n0 + Z.of_nat (S j) + 1)%Z with (n0 + 1 + Z.of_nat j + 1)%Z in * by lia. now split.
Qed.
Lemma unused_nodup file used lines : forall n0, NoDup (unused_lines file used n0 lines).
Proof.
  induction lines as [|l lines IH]; intros n0; cbn [unused_lines]; [constructor|]. destruct (re_match comment_rx l); [|apply IH]. destruct (existsb (Z.eqb (n0 + 1)) used); [apply IH|]. cbn [app]. constructor; [|apply IH].
  intros H. apply unused_in in H. destruct H as (j & x & _ & _ & _ & E). injection E as E. lia.
Qed.
Lemma dict_get_in {V} (d : dict V) k v : NoDup (map fst d) -> (dict_get d k = Some v <-> In (k, v) d).
Proof.
  induction d as [|[k' v'] d IH]; cbn [dict_get map fst In]; intros N; [split; [discriminate|intros []]|]. inversion N as [|? ? N1 N2]; subst. destruct (String.eqb_spec k k') as [->|Ne].
  - split; [intros [= ->]; now left|]. intros [H|H]; [congruence|]. exfalso. apply N1. apply in_map_iff. now exists (k', v).
  - rewrite (IH N2). split; [now right|]. intros [H|H]; [congruence|exact H].
Qed.
Lemma nodup_flat {A B} (f : A -> list B) l : NoDup l -> (forall x, In x l -> NoDup (f x)) -> (forall x y z, In x l -> In y l -> In z (f x) -> In z (f y) -> x = y) -> NoDup (flat_map f l).
Proof.
  induction l as [|a l IH]; intros N F D; cbn [flat_map]; [constructor|]. inversion N as [|? ? N1 N2]; subst.
  assert (G : NoDup (flat_map f l)) by (apply IH; [exact N2|intros x H; apply F; now right|intros x y z Hx Hy; apply D; now right]).
  assert (H : forall z, In z (f a) -> ~ In z (flat_map f l)). { intros z Hz Hf. apply in_flat_map in Hf. destruct Hf as (y & Hy & Hz'). assert (a = y) as -> by (apply (D a y z); [now left|now right|exact Hz|exact Hz']). contradiction. }
  clear -F G H. assert (Fa : NoDup (f a)) by (apply F; now left). clear F. induction (f a) as [|b m IHm]; [exact G|]. cbn [app]. inversion Fa as [|? ? X1 X2]; subst. constructor.
  - rewrite in_app_iff. intros [Y|Y]; [contradiction|]. apply (H b); [now left|exact Y].
  - apply IHm; [intros z Z; apply H; now right|exact X2].
Qed.

(** ** Options *)
Lemma small_lower c : small c = lower_char c.
Proof. destruct c as [[] [] [] [] [] [] [] []]; reflexivity. Qed.
Lemma spells_lower s w : spells s w -> lower s = w.
Proof.
  unfold spells. revert w. induction s as [|c s IH]; intros [|d w] H; cbn in *; try discriminate; [reflexivity|]. injection H as E H. rewrite small_lower in E. rewrite E. f_equal. now apply IH.
Qed.
Lemma boolean_parse s b : boolean s b -> parse_boolean (Some s) = Ok b.
Proof. unfold parse_boolean, boolean. destruct b; intros [H|H]; apply spells_lower in H; rewrite H; reflexivity. Qed.
Lemma digits_numeral s : s <> "" -> (forall c, In c (list_ascii_of_string s) -> DeclSpec.digit c) -> digits s 0 false = Some (Z.of_N (DeclSpec.value_from 0 s)).
Proof.
  assert (D : forall c, DeclSpec.digit c -> is_digit c = true) by (intros c (A & B); unfold is_digit; apply andb_true_iff; split; now apply N.leb_le).
  assert (V : forall c (acc : N), DeclSpec.digit c -> (Z.of_N acc * 10 + (Z.of_nat (nat_of_ascii c) - 48))%Z = Z.of_N (10 * acc + (N_of_ascii c - 48))).
  { intros c acc (A & B). unfold nat_of_ascii. rewrite N_nat_Z. lia. }
  assert (G : forall s, (forall c, In c (list_ascii_of_string s) -> DeclSpec.digit c) -> forall acc, digits s (Z.of_N acc) true = Some (Z.of_N (DeclSpec.value_from acc s))).
  { clear s. induction s as [|c s IH]; intros H acc; [reflexivity|]. cbn [digits DeclSpec.value_from]. rewrite (D c (H c (or_introl eq_refl))). rewrite (V c acc (H c (or_introl eq_refl))). apply IH. intros d X. apply H. now right. }
  intros N H. destruct s as [|c s]; [contradiction|]. specialize (G (String c s) H 0%N). cbn [digits] in *. now rewrite (D c (H c (or_introl eq_refl))) in *.
Qed.
Lemma integer_parse s z : integer s z -> parse_int (Some s) = Ok z.
Proof.
  intros (n & H). destruct (decimal_numeral n) as (N & D & V & _). pose proof (digits_numeral _ N D) as P. rewrite V in P. destruct H as [(-> & ->)|(-> & ->)]; unfold parse_int.
  - destruct (decimal n) as [|c r] eqn:E; [contradiction|]. assert (C : DeclSpec.digit c) by (apply D; now left). destruct C as (C1 & C2).
    destruct c as [[] [] [] [] [] [] [] []]; try (vm_compute in C1; congruence); try (vm_compute in C2; congruence); now rewrite P.
  - cbn [append]. now rewrite P.
Qed.
Definition reads (note : spec -> string -> option string -> res spec) (option_of : string -> string -> kwarg -> Prop) (names : list string) (fine : string -> Prop) : Prop :=
  (forall s n v k, option_of n v k -> exists w, note s n (Some v) = Ok (dict_set (fst s) n k, snd s ++ w) /\ (fine n -> w = [])) /\
  (forall s n v, ~ In n names -> note s n v = Ok (fst s, snd s ++ [WName n])).
Lemma parameter_reads : reads parameter_note parameter_option parameter_names (fun _ => True).
Proof.
  split.
  - intros s n v k H. exists []. rewrite app_nil_r. split; [|reflexivity]. destruct H as [v b H|v b H|v H|v H|v H|v z H|v z H|v]; unfold parameter_note; cbn [String.eqb Ascii.eqb Bool.eqb bind];
      try (rewrite (boolean_parse _ _ H); reflexivity); try (rewrite (integer_parse _ _ H); reflexivity); try (rewrite (spells_lower _ _ H); reflexivity); reflexivity.
  - intros s n v H. unfold parameter_note. cbn [parameter_names In] in H.
    repeat match goal with |- context [String.eqb n ?x] => destruct (String.eqb_spec n x) as [->|_]; [exfalso; apply H; tauto|] end. reflexivity.
Qed.
Lemma return_reads : reads return_note return_option return_names (fun n => n <> "caller_owns_return").
Proof.
  split.
  - intros s n v k H. destruct H as [v b H|v b H|v b H|v b H|v z H].
    + exists [WName "caller_owns_return"]. split; [|congruence]. unfold return_note. cbn [String.eqb Ascii.eqb Bool.eqb bind]. now rewrite (boolean_parse _ _ H).
    + exists []. rewrite app_nil_r. split; [|reflexivity]. unfold return_note. cbn [String.eqb Ascii.eqb Bool.eqb bind]. now rewrite (boolean_parse _ _ H).
    + exists []. rewrite app_nil_r. split; [|reflexivity]. unfold return_note. cbn [String.eqb Ascii.eqb Bool.eqb bind]. now rewrite (boolean_parse _ _ H).
    + exists []. rewrite app_nil_r. split; [|reflexivity]. unfold return_note. cbn [String.eqb Ascii.eqb Bool.eqb bind]. now rewrite (boolean_parse _ _ H).
    + exists []. rewrite app_nil_r. split; [|reflexivity]. unfold return_note. cbn [String.eqb Ascii.eqb Bool.eqb bind]. now rewrite (integer_parse _ _ H).
  - intros s n v H. unfold return_note. cbn [return_names In] in H.
    repeat match goal with |- context [String.eqb n ?x] => destruct (String.eqb_spec n x) as [->|_]; [exfalso; apply H; tauto|] end. reflexivity.
Qed.
Fixpoint run_notes (note : spec -> string -> option string -> res spec) (l : notes) (s : spec) : res spec :=
  match l with [] => Ok s | (n, v) :: r => bind (note s n v) (run_notes note r) end.
Lemma parameter_run l : forall s, parameter_notes l s = run_notes parameter_note l s.
Proof. induction l as [|[n v] l IH]; intros s; [reflexivity|]. cbn. destruct (parameter_note s n v); [apply IH|reflexivity]. Qed.
Lemma return_run l : forall s, lookup_return l s = run_notes return_note l s.
Proof. induction l as [|[n v] l IH]; intros s; [reflexivity|]. cbn. destruct (return_note s n v); [apply IH|reflexivity]. Qed.
Lemma notes_read note option_of names fine l : reads note option_of names fine -> (forall n v k, option_of n v k -> In n names) -> (forall n v k k', option_of n v k -> option_of n v k' -> k = k') -> NoDup (map fst l) -> proper option_of names l ->
  forall s, exists kw w, run_notes note l s = Ok (kw, snd s ++ w) /\
    (forall n v k, In (n, Some v) l -> option_of n v k -> dict_get kw n = Some k) /\
    (forall n, (forall v, In (n, v) l -> ~ In n names) -> dict_get kw n = dict_get (fst s) n) /\
    (forall n v, In (n, v) l -> ~ In n names -> In (WName n) w) /\
    ((forall n v, In (n, v) l -> In n names /\ fine n) -> w = []).
Proof.
  intros (R1 & R2) Kn Un. induction l as [|[n v] l IH]; intros Nd Pr s.
  - exists (fst s), []. rewrite app_nil_r. cbn [run_notes]. split; [now destruct s|]. split; [intros ? ? ? []|]. split; [reflexivity|]. split; [intros ? ? []|reflexivity].
  - cbn [map fst] in Nd. inversion Nd as [|? ? N1 N2]; subst. assert (Pr' : proper option_of names l) by (intros a b H; apply Pr; now right).
    assert (Fresh : forall w, ~ In (n, w) l) by (intros w H; apply N1; apply in_map_iff; now exists (n, w)).
    cbn [run_notes]. destruct (Pr n v (or_introl eq_refl)) as [(x & k & -> & O)|No].
    + destruct (R1 s n x k O) as (w0 & -> & F0). cbn [bind]. destruct (IH N2 Pr' (dict_set (fst s) n k, snd s ++ w0)) as (kw & w & -> & A & B & C & D). cbn [fst snd] in *. exists kw, (w0 ++ w). rewrite app_assoc. split; [reflexivity|]. split; [|split; [|split]].
      * intros m u k' [H|H] O'; [|now apply (A m u)]. injection H as <- <-. rewrite B by (intros u H; now apply Fresh in H). rewrite dict_get_set_same. now rewrite (Un _ _ _ _ O O').
      * intros m H. rewrite B by (intros u I; apply (H u); now right). apply dict_get_set_other. intros <-. apply (H (Some x) (or_introl eq_refl)). now apply (Kn n x k).
      * intros m u [H|H] No; [injection H as <- <-; exfalso; apply No; now apply (Kn n x k)|]. apply in_app_iff. right. now apply (C m u).
      * intros H. rewrite F0 by (apply (H n (Some x)); now left). apply D. intros m u I. apply (H m u). now right.
    + rewrite (R2 s n v No). cbn [bind]. destruct (IH N2 Pr' (fst s, snd s ++ [WName n])) as (kw & w & -> & A & B & C & D). cbn [fst snd] in *. exists kw, ([WName n] ++ w). rewrite app_assoc. split; [reflexivity|]. split; [|split; [|split]].
      * intros m u k' [H|H] O'; [|now apply (A m u)]. injection H as <- ->. exfalso. apply No. now apply (Kn n u k').
      * intros m H. apply B. intros u I. apply (H u). now right.
      * intros m u [H|H] No'; [injection H as <- <-; now left|]. right. now apply (C m u).
      * intros H. exfalso. apply No. apply (H n v). now left.
Qed.
Lemma boolean_fun s b b' : boolean s b -> boolean s b' -> b = b'.
Proof. intros A B. apply boolean_parse in A, B. congruence. Qed.
Lemma integer_fun s z z' : integer s z -> integer s z' -> z = z'.
Proof. intros A B. apply integer_parse in A, B. congruence. Qed.
Lemma parameter_fun n v k k' : parameter_option n v k -> parameter_option n v k' -> k = k'.
Proof.
  intros A B. destruct A; inversion B; subst; try reflexivity; try (f_equal; eapply boolean_fun; eassumption); try (f_equal; eapply integer_fun; eassumption);
    repeat match goal with H : spells _ _ |- _ => apply spells_lower in H end; congruence.
Qed.
Lemma return_fun n v k k' : return_option n v k -> return_option n v k' -> k = k'.
Proof. intros A B. destruct A; inversion B; subst; try (f_equal; eapply boolean_fun; eassumption); try (f_equal; eapply integer_fun; eassumption). Qed.
Lemma parameter_known n v k : parameter_option n v k -> In n parameter_names.
Proof. intros []; cbn; tauto. Qed.
Lemma return_known n v k : return_option n v k -> In n return_names.
Proof. intros []; cbn; tauto. Qed.
