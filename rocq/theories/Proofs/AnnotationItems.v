(** From the text of a comment to dictionaries. *)
From Verif.Model Require Import Py Annotations.
From Verif.Spec Require Import AnnotationSpec.
From Verif.Proofs Require Import StrLemmas AnnotationRx.
From Coq Require Import Lia.
Open Scope list_scope.
Open Scope string_scope.

(** ** Blanks *)
Definition tight (x : string) : Prop := stops is_space x /\ exists y c, x = y ++ String c "" /\ is_space c = false.
Lemma lstrip_blank a x : blank a -> stops is_space x -> lstrip (a ++ x) = x.
Proof.
  intros B S. induction a as [|c a IH]; cbn [append lstrip].
  - destruct x as [|c x]; [reflexivity|]. cbn in *. now rewrite S.
  - rewrite (B c (or_introl eq_refl)). apply IH. intros d H. apply B. now right.
Qed.
Lemma rstrip_all_blank b : blank b -> rstrip b = "".
Proof. intros B. induction b as [|c b IH]; [reflexivity|]. cbn [rstrip]. rewrite IH by (intros d H; apply B; now right). now rewrite (B c (or_introl eq_refl)). Qed.
Lemma rstrip_app u v : rstrip v <> "" -> rstrip (u ++ v) = u ++ rstrip v.
Proof.
  intros N. induction u as [|c u IH]; [reflexivity|]. cbn [append rstrip]. rewrite IH. destruct (u ++ rstrip v) as [|d w] eqn:E; [|reflexivity].
  exfalso. apply N. destruct u; [exact E|discriminate].
Qed.
Lemma rstrip_tight y c b : is_space c = false -> blank b -> rstrip ((y ++ String c "") ++ b) = y ++ String c "".
Proof.
  intros S B. rewrite s_assoc. assert (E : rstrip (String c "" ++ b) = String c "") by (cbn [append rstrip]; now rewrite (rstrip_all_blank b B), S).
  rewrite rstrip_app, E; [reflexivity|]. now rewrite E.
Qed.
Lemma strip_padded x s : tight x -> padded x s -> strip s = x.
Proof.
  intros (S & y & c & -> & C) (a & b & A & B & ->). unfold strip. rewrite lstrip_blank; [now apply rstrip_tight|exact A|].
  destruct y as [|d y]; exact S.
Qed.
Lemma tight_nonempty x : tight x -> x <> "".
Proof. intros (_ & y & c & -> & _). destruct y; discriminate. Qed.
(** The blanks around the whole text are blanks around the first and the last piece. *)
Definition pieces_of {A} (P : string -> A -> Prop) (pieces : list string) (l : list A) : Prop := Forall2 (fun p i => exists x, padded x p /\ P x i) pieces l.
Lemma separated_cons sep x y l : separated sep (x :: y :: l) = x ++ sep ++ separated sep (y :: l).
Proof. reflexivity. Qed.
Lemma lstrip_pieces {A} (P : string -> A -> Prop) sep pieces l : (forall x i, P x i -> tight x) -> l <> [] -> pieces_of P pieces l ->
  exists pieces', lstrip (separated sep pieces) = separated sep pieces' /\ pieces_of P pieces' l.
Proof.
  intros T N H. destruct H as [|p i ps is (x & (a & b & B & B' & ->) & X) H]; [contradiction|]. exists ((x ++ b) :: ps).
  assert (S : forall r, stops is_space ((x ++ b) ++ r)).
  { intros r. destruct (T x i X) as (S & _). pose proof (tight_nonempty x (T x i X)) as Nx. destruct x; [contradiction|]. exact S. }
  split; [|constructor; [exists x; split; [exists "", b; repeat split; [intros d []|exact B']|exact X]|exact H]].
  destruct ps as [|q ps].
  - change (separated sep [a ++ x ++ b]) with (a ++ x ++ b). rewrite lstrip_blank; [reflexivity|exact B|]. rewrite <- (s_nil (x ++ b)). apply S.
  - rewrite !separated_cons, s_assoc. rewrite lstrip_blank; [reflexivity|exact B|]. apply S.
Qed.
Lemma rstrip_pieces {A} (P : string -> A -> Prop) sep pieces l : (forall x i, P x i -> tight x) -> l <> [] -> pieces_of P pieces l ->
  exists pieces', rstrip (separated sep pieces) = separated sep pieces' /\ pieces_of P pieces' l /\ separated sep pieces' <> "".
Proof.
  intros T N H. induction H as [|p i ps is (x & (a & b & B & B' & ->) & X) H IH]; [contradiction|]. destruct ps as [|q ps].
  - inversion H; subst. exists [a ++ x]. pose proof (tight_nonempty x (T x i X)) as Nx. destruct (T x i X) as (S & y & c & -> & C). split; [|split].
    + change (separated sep [a ++ (y ++ String c "") ++ b]) with (a ++ (y ++ String c "") ++ b). change (separated sep [a ++ y ++ String c ""]) with (a ++ y ++ String c "").
      rewrite <- !s_assoc. rewrite (s_assoc a y). rewrite <- (s_assoc a y). rewrite (rstrip_tight (a ++ y) c b C B'). now rewrite s_assoc.
    + constructor; [|constructor]. exists (y ++ String c ""). split; [|exact X]. exists a, "". repeat split; [exact B|intros d []|now rewrite s_nil].
    + change (separated sep [a ++ y ++ String c ""]) with (a ++ y ++ String c ""). intros E. destruct a; [|discriminate]. now destruct y.
  - destruct IH as (ps' & E & F & Ne); [inversion H; discriminate|]. exists ((a ++ x ++ b) :: ps'). inversion F as [|p' i' r' is' F1 F2]; subst; [inversion H|].
    split; [|split].
    + rewrite separated_cons. rewrite separated_cons. rewrite <- E. rewrite <- s_assoc, rstrip_app, s_assoc; [reflexivity|]. now rewrite E.
    + constructor; [|exact F]. exists x. split; [exists a, b; now repeat split|exact X].
    + rewrite separated_cons. pose proof (tight_nonempty x (T x i X)) as Nx. intros Z. destruct a; [|discriminate]. destruct x; [contradiction|discriminate].
Qed.
Lemma strip_pieces {A} (P : string -> A -> Prop) sep pieces l : (forall x i, P x i -> tight x) -> l <> [] -> pieces_of P pieces l ->
  exists pieces', strip (separated sep pieces) = separated sep pieces' /\ pieces_of P pieces' l.
Proof.
  intros T N H. unfold strip. destruct (lstrip_pieces P sep pieces l T N H) as (p1 & -> & H1). destruct (rstrip_pieces P sep p1 l T N H1) as (p2 & -> & H2 & _). now exists p2.
Qed.
Lemma separated_concat sep l : separated sep l = String.concat sep l.
Proof. induction l as [|x l IH]; [reflexivity|]. destruct l; [reflexivity|]. rewrite separated_cons, concat_cons_s, IH. reflexivity. Qed.
Lemma split_separated c l : l <> [] -> (forall x, In x l -> ~ has c x) -> split_char c (separated (String c "") l) = l.
Proof. intros N H. apply split_char_unique; [exact N| |symmetry; apply separated_concat]. apply Forall_forall. exact H. Qed.

(** ** name, name=value *)
Lemma ident_word c : is_ident_char c = true -> is_word_char c = true.
Proof. unfold is_word_char. intros ->. reflexivity. Qed.
Lemma ident_not_space c : is_ident_char c = true -> is_space c = false.
Proof. destruct c as [[] [] [] [] [] [] [] []]; vm_compute; congruence. Qed.
Lemma ident_not c d : is_ident_char c = true -> is_ident_char d = false -> c <> d.
Proof. congruence. Qed.
Lemma last_char x : x <> "" -> exists y c, x = y ++ String c "".
Proof. induction x as [|c x IH]; [contradiction|]. intros _. destruct x as [|d x]; [now exists "", c|]. destruct IH as (y & e & ->); [discriminate|]. now exists (String c y), e. Qed.
Lemma tight_of x : (forall c, has c x -> is_space c = false) -> x <> "" -> tight x.
Proof.
  intros H N. split; [destruct x; [exact Logic.I|]; apply H; now left|]. destruct (last_char x N) as (y & c & ->). exists y, c. split; [reflexivity|]. apply H, has_app. right. now left.
Qed.
Lemma word_tight k : word k -> tight k.
Proof. intros (N & H). apply tight_of; [|exact N]. intros c X. apply ident_not_space. auto. Qed.
Lemma pair_no_space x kv : pair_text x kv -> x <> "" /\ forall c, has c x -> is_space c = false /\ c <> ";"%char.
Proof.
  destruct kv as [k [v|]]; intros ((N & W) & H); cbn [fst snd] in *.
  - destruct H as ((Nv & V) & ->). split; [destruct k; [contradiction|discriminate]|]. intros c X. apply has_app in X. destruct X as [X|X].
    + apply W in X. split; [now apply ident_not_space|]. intros ->. discriminate.
    + cbn in X. destruct X as [<-|X]; [split; [reflexivity|discriminate]|now apply V].
  - subst x. split; [exact N|]. intros c X. apply W in X. split; [now apply ident_not_space|]. intros ->. discriminate.
Qed.
Lemma pair_tight x kv : pair_text x kv -> tight x.
Proof. intros H. apply pair_no_space in H. apply tight_of; [|tauto]. intros c X. now apply H. Qed.
Lemma plus_exact {A} p a b g (k : string -> groups -> option A) x : all p a -> a <> "" -> stops p b -> k b g = Some x -> rx_match (plus p) (a ++ b) g k = Some x.
Proof.
  intros Al N S K. destruct a as [|c a]; [contradiction|]. apply all_cons in Al. destruct Al as (P & Al). unfold plus. cbn [rx_match append]. rewrite P. now apply star_exact.
Qed.
Lemma global_pair x kv : pair_text x kv -> exists g, re_match global_rx x = Some g /\ group g 1 = Some (fst kv) /\ group g 2 = snd kv.
Proof.
  destruct kv as [k [v|]]; intros ((N & W) & H); cbn [fst snd] in *.
  - destruct H as ((Nv & V) & ->). exists [(2, v); (1, k)]. split; [|now split].
    enough (Z : re_match global_rx (k ++ "=" ++ (v ++ "")) = Some [(2, v); (1, k)]) by (now rewrite s_nil in Z).
    unfold re_match, global_rx. unfold seq. cbn [fold_right rx_match].
    assert (E : forall g, rx_match (plus (fun c => negb (is_space c) && negb (Ascii.eqb c ";"))) (v ++ "") g (fun s' g' => Some ((2, consumed (v ++ "") s') :: g')) = Some ((2, v) :: g)).
    { intros g. apply plus_exact; [|exact Nv|exact Logic.I|now rewrite consumed_app]. intros c X. destruct (V c X) as (-> & B). apply (proj2 (Ascii.eqb_neq c ";"%char)) in B. now rewrite B. }
    apply plus_exact; [intros c X; now apply ident_word, W|exact N|reflexivity|]. rewrite consumed_app. cbn [append one rx_match]. rewrite Ascii.eqb_refl. rewrite E. reflexivity.
  - subst x. exists [(1, k)]. split; [|now split]. enough (Z : re_match global_rx (k ++ "") = Some [(1, k)]) by (now rewrite s_nil in Z).
    unfold re_match, global_rx. unfold seq. cbn [fold_right rx_match].
    apply plus_exact; [intros c X; now apply ident_word, W|exact N|exact Logic.I|]. rewrite consumed_app. reflexivity.
Qed.
Lemma star_back {A} p a d (k : string -> option A) x : all p a -> p d = true -> k "" = None -> k (String d "") = Some x -> star p (a ++ String d "") k = Some x.
Proof.
  intros Al P K0 K1. induction a as [|c a IH]; cbn [append star]; [now rewrite P, K0|]. apply all_cons in Al. destruct Al as (Pc & Al). now rewrite Pc, (IH Al).
Qed.
Lemma global_at x : re_match global_rx (String "@" x) = None.
Proof. reflexivity. Qed.
Lemma param_match p t : word p -> t <> "" -> ~ has ";" t -> exists g, re_match param_rx ("@" ++ p ++ "(" ++ t ++ ")") = Some g /\ group g 1 = Some p /\ group g 2 = Some t.
Proof.
  intros (N & W) Nt T. exists [(2, t); (1, p)]. split; [|now split]. unfold re_match, param_rx. unfold seq. cbn [fold_right rx_match append one]. rewrite Ascii.eqb_refl.
  change (p ++ String "(" (t ++ ")")) with (p ++ ("(" ++ t ++ ")")).
  apply plus_exact; [intros c X; now apply ident_word, W|exact N|reflexivity|]. rewrite consumed_app. cbn [append]. rewrite Ascii.eqb_refl. unfold plus. cbn [rx_match].
  destruct t as [|c t]; [contradiction|]. assert (Q : forall d, has d (String c t) -> negb (Ascii.eqb d ";") = true).
  { intros d X. destruct (Ascii.eqb_spec d ";"%char) as [->|]; [contradiction|reflexivity]. }
  cbn [append]. rewrite (Q c (or_introl eq_refl)). apply star_back; [intros d X; apply Q; now right|reflexivity|reflexivity|].
  cbv beta. rewrite Ascii.eqb_refl. change (String c (t ++ ")")) with (String c t ++ ")"). now rewrite consumed_app.
Qed.

(** ** Dictionaries *)
Definition put_pair (d : notes) (kv : string * option string) : notes := dict_set d (fst kv) (snd kv).
Definition put_item (f : notes * dict notes) (i : item) : notes * dict notes :=
  match i with Note k v => (dict_set (fst f) k v, snd f) | About p l => (fst f, dict_set (snd f) p (fold_left put_pair l [])) end.
Lemma elements_pairs file line ws es l : pieces_of pair_text es l -> forall d, elements file line es (d, ws) = (fold_left put_pair l d, ws).
Proof.
  intros H. induction H as [|e kv es l (y & Pd & Pt) H IH]; intros d; [reflexivity|]. cbn [elements fold_left]. rewrite (strip_padded y e (pair_tight _ _ Pt) Pd).
  destruct (global_pair y kv Pt) as (g & -> & G1 & G2). cbn [fst snd]. rewrite G1, G2. apply IH.
Qed.
Lemma has_separated c d l : has c (separated (String d "") l) -> c = d \/ exists x, In x l /\ has c x.
Proof.
  induction l as [|x l IH]; [intros []|]. destruct l as [|y l]; [intros H; right; exists x; split; [now left|exact H]|]. rewrite separated_cons. intros H.
  apply has_app in H. destruct H as [H|H]; [right; exists x; split; [now left|exact H]|]. cbn [append] in H. apply has_cons in H. destruct H as [H|H]; [now left|].
  destruct (IH H) as [E|(z & Z & X)]; [now left|right; exists z; split; [now right|exact X]].
Qed.
Lemma padded_has c x s : padded x s -> has c s -> is_space c = true \/ has c x.
Proof. intros (a & b & A & B & ->) H. apply has_app in H. destruct H as [H|H]; [left; auto|]. apply has_app in H. destruct H as [H|H]; [now right|left; auto]. Qed.
Lemma about_text p l x : item_text x (About p l) -> exists es, x = "@" ++ p ++ "(" ++ separated "," es ++ ")" /\ word p /\ es <> [] /\ (forall e, In e es -> ~ has "," e) /\ pieces_of pair_text es l /\ separated "," es <> "" /\ ~ has ";" (separated "," es).
Proof.
  intros (W & N & es & -> & F). exists es. split; [reflexivity|]. split; [exact W|]. assert (Ne : es <> []) by (inversion F; subst; [contradiction|discriminate]). split; [exact Ne|].
  assert (A : forall e, In e es -> ~ has "," e /\ e <> "" /\ ~ has ";" e).
  { clear -F. induction F as [|e kv es l (C & y & Pd & Pt) F IH]; [intros e []|]. intros f [<-|H]; [|now apply IH]. split; [exact C|]. apply pair_no_space in Pt. destruct Pt as (Ny & Py). split.
    - destruct Pd as (a & b & _ & _ & ->). intros Z. destruct a; [|discriminate]. destruct y; [contradiction|discriminate].
    - intros Z. apply (padded_has _ _ _ Pd) in Z. destruct Z as [Z|Z]; [discriminate|]. apply Py in Z. now destruct Z. }
  split; [intros e H; now apply A|]. split; [clear -F; induction F as [|e kv es l (C & H) F IH]; constructor; [exact H|exact IH]|]. split.
  - destruct es as [|e [|f es]]; [contradiction| |].
    + cbn. apply A. now left.
    + rewrite separated_cons. destruct (A e (or_introl eq_refl)) as (_ & Z & _). destruct e; [contradiction|discriminate].
  - intros H. apply has_separated in H. destruct H as [H|(e & I & H)]; [discriminate|]. now apply (A e I) in H.
Qed.
Lemma item_tight x i : item_text x i -> tight x.
Proof.
  destruct i as [k v|p l]; [apply pair_tight|]. intros H. destruct (about_text p l x H) as (es & -> & W & _). split; [reflexivity|].
  exists ("@" ++ p ++ "(" ++ separated "," es), ")"%char. split; [|reflexivity]. cbn [append]. rewrite !s_assoc. reflexivity.
Qed.
Lemma item_semicolon x i : item_text x i -> ~ has ";" x.
Proof.
  destruct i as [k v|p l].
  - intros H X. apply pair_no_space in H. apply H in X. now destruct X.
  - intros H. destruct (about_text p l x H) as (es & -> & (_ & W) & _ & _ & _ & _ & S). intros X. cbn [append] in X. apply has_cons in X. destruct X as [X|X]; [discriminate|].
    apply has_app in X. destruct X as [X|X]; [apply W in X; discriminate|]. apply has_cons in X. destruct X as [X|X]; [discriminate|]. apply has_app in X. destruct X as [X|X]; [contradiction|]. cbn in X. destruct X as [X|[]]. discriminate.
Qed.
Lemma annotation_item file line gl ps ws p i : (exists x, padded x p /\ item_text x i) ->
  annotation file line (gl, ps, ws) p = (fst (put_item (gl, ps) i), snd (put_item (gl, ps) i), ws).
Proof.
  intros (x & Pd & T). unfold annotation. rewrite (strip_padded x p (item_tight x i T) Pd). destruct i as [k v|q l].
  - destruct (global_pair x (k, v) T) as (g & -> & G1 & G2). cbn [fst snd] in *. rewrite G1, G2. reflexivity.
  - destruct (about_text q l x T) as (es & -> & W & Ne & C & F & Nt & S). change ("@" ++ q ++ "(" ++ separated "," es ++ ")") with (String "@" (q ++ "(" ++ separated "," es ++ ")")) at 1. rewrite global_at.
    destruct (param_match q (separated "," es) W Nt S) as (g & -> & -> & ->). rewrite (split_separated "," es Ne C). rewrite (elements_pairs file line ws es l F). reflexivity.
Qed.
Lemma annotations_items file line ws items pieces : pieces_of item_text pieces items -> forall gl ps,
  fold_left (annotation file line) pieces (gl, ps, ws) = (fst (fold_left put_item items (gl, ps)), snd (fold_left put_item items (gl, ps)), ws).
Proof.
  intros H. induction H as [|p i ps' is H0 H IH]; intros gl ps; [reflexivity|]. cbn [fold_left]. rewrite (annotation_item file line gl ps ws p i H0). destruct (put_item (gl, ps) i) as [a b]. apply IH.
Qed.
Lemma text_items file line ws t items : says t items -> forall gl ps,
  fold_left (annotation file line) (split_char ";" (strip t)) (gl, ps, ws) = (fst (fold_left put_item items (gl, ps)), snd (fold_left put_item items (gl, ps)), ws).
Proof.
  intros (N & pieces & -> & F) gl ps. destruct (strip_pieces item_text ";" pieces items item_tight N F) as (p' & -> & F').
  rewrite split_separated; [now apply annotations_items| |].
  - inversion F'; subst; [contradiction|discriminate].
  - clear -F'. induction F' as [|p i ps is (x & Pd & T) F IH]; [intros x []|]. intros q [<-|H]; [|now apply IH]. intros X. apply (padded_has _ _ _ Pd) in X. destruct X as [X|X]; [discriminate|]. now apply item_semicolon in T.
Qed.

Lemma dict_get_set {V} (d : dict V) k v k' : dict_get (dict_set d k v) k' = if String.eqb k' k then Some v else dict_get d k'.
Proof. destruct (String.eqb_spec k' k) as [->|N]; [apply dict_get_set_same|apply dict_get_set_other; congruence]. Qed.
Lemma dict_set_keys {V} (d : dict V) k v : map fst (dict_set d k v) = if existsb (String.eqb k) (map fst d) then map fst d else (map fst d ++ [k])%list.
Proof.
  induction d as [|[k' v'] d IH]; [reflexivity|]. cbn [dict_set map existsb fst]. destruct (String.eqb_spec k k') as [->|N]; [reflexivity|]. cbn [map fst orb]. rewrite IH. now destruct (existsb (String.eqb k) (map fst d)).
Qed.
Lemma dict_set_nodup {V} (d : dict V) k v : NoDup (map fst d) -> NoDup (map fst (dict_set d k v)).
Proof.
  intros H. rewrite dict_set_keys. destruct (existsb (String.eqb k) (map fst d)) eqn:E; [exact H|]. apply NoDup_rev in H. rewrite <- (rev_involutive (map fst d ++ [k])%list). apply NoDup_rev. rewrite rev_app_distr. cbn. constructor; [|exact H].
  rewrite <- in_rev. intros X. assert (Y : existsb (String.eqb k) (map fst d) = true) by (apply existsb_exists; exists k; split; [exact X|apply String.eqb_refl]). congruence.
Qed.
Lemma pairs_get l : forall d k, dict_get (fold_left put_pair l d) k = match value_in l k with Some v => Some v | None => dict_get d k end.
Proof.
  induction l as [|[k' v'] l IH]; intros d k; [reflexivity|]. cbn [fold_left value_in]. rewrite IH. destruct (value_in l k); [reflexivity|]. unfold put_pair. cbn [fst snd]. rewrite dict_get_set. now destruct (String.eqb k k').
Qed.
Lemma pairs_nodup l : forall d, NoDup (map fst d) -> NoDup (map fst (fold_left put_pair l d)).
Proof. induction l as [|kv l IH]; intros d H; [exact H|]. cbn [fold_left]. apply IH. now apply dict_set_nodup. Qed.
Lemma items_notes l : forall f k, dict_get (fst (fold_left put_item l f)) k = match note_in l k with Some v => Some v | None => dict_get (fst f) k end.
Proof.
  induction l as [|[k' v'|p n] l IH]; intros f k; [reflexivity| |]; cbn [fold_left note_in]; rewrite IH; [|reflexivity].
  destruct (note_in l k); [reflexivity|]. cbn [put_item fst]. rewrite dict_get_set. now destruct (String.eqb k k').
Qed.
Lemma items_abouts l : forall f p, dict_get (snd (fold_left put_item l f)) p = match about_in l p with Some n => Some (fold_left put_pair n []) | None => dict_get (snd f) p end.
Proof.
  induction l as [|[k' v'|q n] l IH]; intros f p; [reflexivity| |]; cbn [fold_left about_in]; rewrite IH; [reflexivity|].
  destruct (about_in l p); [reflexivity|]. cbn [put_item snd]. rewrite dict_get_set. now destruct (String.eqb p q).
Qed.
Lemma items_nodup l : forall f, NoDup (map fst (fst f)) -> NoDup (map fst (fst (fold_left put_item l f))).
Proof. induction l as [|[k v|p n] l IH]; intros f H; [exact H| |]; cbn [fold_left]; apply IH; cbn [put_item fst]; [now apply dict_set_nodup|exact H]. Qed.
