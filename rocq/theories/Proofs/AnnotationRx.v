(** The regular expressions of the annotations. *)
From Verif.Model Require Import Py Annotations.
From Verif.Spec Require Import AnnotationSpec.
From Coq Require Import Lia.
Open Scope list_scope.
Open Scope string_scope.

Lemma s_assoc (a b d : string) : (a ++ b) ++ d = a ++ b ++ d.
Proof. induction a; cbn; congruence. Qed.
Lemma s_nil (a : string) : a ++ "" = a.
Proof. induction a; cbn; congruence. Qed.
Lemma s_length (a b : string) : String.length (a ++ b) = String.length a + String.length b.
Proof. induction a; cbn; congruence. Qed.
Lemma has_app c a b : has c (a ++ b) <-> has c a \/ has c b.
Proof. unfold has. induction a; cbn; [tauto|]. rewrite IHa. tauto. Qed.
Lemma has_cons c x s : has c (String x s) <-> x = c \/ has c s.
Proof. reflexivity. Qed.
Definition all (p : ascii -> bool) (s : string) : Prop := forall c, has c s -> p c = true.
Lemma all_cons p x s : all p (String x s) <-> p x = true /\ all p s.
Proof. unfold all. split; [intros H; split; [apply H; now left|intros c X; apply H; now right]|intros (A & B) c [<-|X]; auto]. Qed.
Lemma all_nil p : all p "". Proof. intros c []. Qed.
Lemma all_app p a b : all p (a ++ b) <-> all p a /\ all p b.
Proof. unfold all. split; [intros H; split; intros c X; apply H, has_app; tauto|intros (A & B) c X; apply has_app in X; destruct X; auto]. Qed.

(** ** Repetition *)
Lemma star_none {A} p s (k : string -> option A) : star p s k = None <-> forall a b, s = a ++ b -> all p a -> k b = None.
Proof.
  induction s as [|c t IH]; cbn [star].
  - split; [intros H [|x a] b E _; [cbn in E; now subst|discriminate]|intros H; apply (H "" ""); [reflexivity|apply all_nil]].
  - destruct (p c) eqn:P.
    + split.
      * destruct (star p t k) eqn:E; [discriminate|]. intros K a b Eq Al. destruct a as [|x a]; [cbn in Eq; now subst|]. cbn in Eq. injection Eq as <- ->. apply all_cons in Al. now apply (proj1 IH eq_refl a b).
      * intros H. assert (E : star p t k = None). { apply IH. intros a b -> Al. apply (H (String c a) b); [reflexivity|]. now apply all_cons. }
        rewrite E. apply (H "" (String c t)); [reflexivity|apply all_nil].
    + split; [|intros H; apply (H "" (String c t)); [reflexivity|apply all_nil]]. intros K [|x a] b Eq Al; [cbn in Eq; now subst|]. cbn in Eq. injection Eq as <- ->. apply all_cons in Al. destruct Al. congruence.
Qed.
Lemma star_some {A} p s (k : string -> option A) x : star p s k = Some x ->
  exists a b, s = a ++ b /\ all p a /\ k b = Some x /\ forall a' b', s = a' ++ b' -> all p a' -> String.length a < String.length a' -> k b' = None.
Proof.
  induction s as [|c t IH]; cbn [star].
  - intros K. exists "", "". split; [reflexivity|]. split; [apply all_nil|]. split; [exact K|]. intros [|y a'] b' E _ L; cbn in *; [lia|discriminate].
  - destruct (p c) eqn:P.
    + destruct (star p t k) eqn:E.
      * intros [= ->]. destruct (IH eq_refl) as (a & b & -> & Al & K & Mx). exists (String c a), b. split; [reflexivity|]. split; [now apply all_cons|]. split; [exact K|].
        intros [|y a'] b' Eq Al' L; cbn in *; [lia|]. injection Eq as <- Eq. apply (Mx a' b' Eq); [now apply all_cons in Al'|lia].
      * intros K. exists "", (String c t). split; [reflexivity|]. split; [apply all_nil|]. split; [exact K|]. intros [|y a'] b' Eq Al' L; cbn in *; [lia|]. injection Eq as <- ->. apply all_cons in Al'. now apply (proj1 (star_none p _ k) E a' b').
    + intros K. exists "", (String c t). split; [reflexivity|]. split; [apply all_nil|]. split; [exact K|]. intros [|y a'] b' Eq Al' L; cbn in *; [lia|]. injection Eq as <- ->. apply all_cons in Al'. destruct Al'. congruence.
Qed.
(** When the rest begins with a character outside the class, the repetition takes exactly the class. *)
Definition stops (p : ascii -> bool) (s : string) : Prop := match s with EmptyString => True | String c _ => p c = false end.
Lemma span_unique p a b a' b' : a ++ b = a' ++ b' -> all p a -> all p a' -> stops p b -> stops p b' -> a = a' /\ b = b'.
Proof.
  revert a'. induction a as [|x a IH]; intros [|y a'] E A A' S S'; cbn in E.
  - now split.
  - subst b. cbn in S. apply all_cons in A'. destruct A'. congruence.
  - subst b'. cbn in S'. apply all_cons in A. destruct A. congruence.
  - injection E as <- E. apply all_cons in A, A'. destruct (IH a' E (proj2 A) (proj2 A') S S') as (-> & ->). now split.
Qed.
Lemma star_exact {A} p a b (k : string -> option A) x : all p a -> stops p b -> k b = Some x -> star p (a ++ b) k = Some x.
Proof.
  intros Al S K. induction a as [|c a IH]; cbn [star append].
  - destruct b as [|c b]; cbn [star]; [exact K|]. cbn in S. now rewrite S.
  - apply all_cons in Al. destruct Al as (P & Al). rewrite P, (IH Al). reflexivity.
Qed.
(** ** Literal text *)
Lemma text_exact {A} t r g (k : string -> groups -> option A) : rx_match (text_rx t) (t ++ r) g k = k r g.
Proof. revert k. induction t as [|c t IH]; intros k; cbn [text_rx rx_match append one]; [reflexivity|]. rewrite Ascii.eqb_refl. apply IH. Qed.
Lemma text_some {A} t s g (k : string -> groups -> option A) x : rx_match (text_rx t) s g k = Some x -> exists r, s = t ++ r /\ k r g = Some x.
Proof.
  revert s k. induction t as [|c t IH]; intros s k; cbn [text_rx rx_match one]; [intros H; now exists s|]. destruct s as [|d s]; [discriminate|]. destruct (Ascii.eqb_spec c d) as [<-|]; [|discriminate].
  intros H. destruct (IH s k H) as (r & -> & K). exists r. split; [reflexivity|exact K].
Qed.
Lemma text_none {A} t s g (k : string -> groups -> option A) : rx_match (text_rx t) s g k = None -> forall r, s = t ++ r -> k r g = None.
Proof. intros H r ->. now rewrite text_exact in H. Qed.
Lemma consumed_app a b : consumed (a ++ b) b = a.
Proof.
  unfold consumed. rewrite s_length. replace (String.length a + String.length b - String.length b) with (String.length a) by lia.
  induction a as [|c a IH]; [destruct b; reflexivity|]. cbn. now rewrite IH.
Qed.

(** ** Comments *)
Definition after_mark (n : nat) (fin : rx) : rx := seq [plus is_space; text_rx "-#-"; RGroup n (RStar not_newline); text_rx "-#-"; fin].
Lemma not_nl s : all not_newline s <-> ~ has nl_char s.
Proof.
  unfold all, not_newline. split.
  - intros H X. apply H in X. now rewrite Ascii.eqb_refl in X.
  - intros H c X. destruct (Ascii.eqb_spec c nl_char) as [->|]; [contradiction|reflexivity].
Qed.
Definition re_line1 : rx := seq [RStar is_space; text_rx "//"; plus is_space; text_rx "-#-"; RGroup 1 (RStar not_newline); text_rx "-#-"; RStar is_space].
Definition re_line2 : rx := seq [text_rx "/*"; plus is_space; text_rx "-#-"; RGroup 2 (RStar not_newline); text_rx "-#-"; RStar is_space; text_rx "*/"].
Definition comment1 (t line : string) : Prop := ~ has nl_char t /\ exists indent gap rest, blank indent /\ blank gap /\ gap <> "" /\ line = indent ++ "//" ++ gap ++ "-#-" ++ t ++ "-#-" ++ rest.
Definition comment2 (t line : string) : Prop := ~ has nl_char t /\ exists gap gap' rest, blank gap /\ gap <> "" /\ blank gap' /\ line = "/*" ++ gap ++ "-#-" ++ t ++ "-#-" ++ gap' ++ "*/" ++ rest.
Lemma comment_cases t line : comment t line <-> comment1 t line \/ comment2 t line.
Proof. unfold comment, comment1, comment2. tauto. Qed.
Ltac seqs := unfold seq; cbn [fold_right].
Ltac rxs := cbn [rx_match].
(** Any two ways to read a line agree on where the text begins. *)
Lemma start1 i g i' g' x y : blank i -> blank g -> blank i' -> blank g' -> i ++ "//" ++ g ++ "-#-" ++ x = i' ++ "//" ++ g' ++ "-#-" ++ y -> i = i' /\ g = g' /\ x = y.
Proof.
  intros B G B' G' E. apply (span_unique is_space) in E; [|assumption..|reflexivity|reflexivity]. destruct E as (-> & E). cbn [append] in E. injection E as E.
  apply (span_unique is_space g ("-#-" ++ x) g' ("-#-" ++ y)) in E; [|assumption..|reflexivity|reflexivity]. destruct E as (-> & E). cbn [append] in E. injection E as ->. repeat split.
Qed.
Lemma start2 g g' x y : blank g -> blank g' -> "/*" ++ g ++ "-#-" ++ x = "/*" ++ g' ++ "-#-" ++ y -> g = g' /\ x = y.
Proof.
  intros G G' E. cbn [append] in E. injection E as E. apply (span_unique is_space g ("-#-" ++ x) g' ("-#-" ++ y)) in E; [|assumption..|reflexivity|reflexivity].
  destruct E as (-> & E). cbn [append] in E. injection E as ->. now split.
Qed.
Lemma not_both t t' line : comment1 t line -> ~ comment2 t' line.
Proof.
  intros (_ & i & g & r & B & G & _ & ->) (_ & g' & h & r' & _ & _ & _ & E). destruct i as [|c i]; cbn [append] in E; [discriminate|].
  injection E as -> E. assert (H : is_space "/" = true) by (apply B; now left). discriminate.
Qed.
Lemma plus_some {A} p s g (k : string -> groups -> option A) x : rx_match (plus p) s g k = Some x -> exists a b, s = a ++ b /\ all p a /\ a <> "" /\ k b g = Some x /\ forall a' b', s = a' ++ b' -> all p a' -> String.length a < String.length a' -> k b' g = None.
Proof.
  unfold plus. rxs. destruct s as [|c s]; [discriminate|]. destruct (p c) eqn:P; [|discriminate]. intros H. destruct (star_some _ _ _ _ H) as (a & b & -> & Al & K & Mx).
  exists (String c a), b. split; [reflexivity|]. split; [now apply all_cons|]. split; [discriminate|]. split; [exact K|].
  intros [|y a'] b' E Al' L; cbn in *; [lia|]. injection E as <- E. apply all_cons in Al'. apply (Mx a' b' E); [tauto|lia].
Qed.
Lemma plus_none {A} p s g (k : string -> groups -> option A) : rx_match (plus p) s g k = None <-> forall a b, s = a ++ b -> all p a -> a <> "" -> k b g = None.
Proof.
  unfold plus. rxs. destruct s as [|c s].
  - split; [|reflexivity]. intros _ [|x a] b E _ N; [contradiction|discriminate].
  - destruct (p c) eqn:P.
    + rewrite star_none. split.
      * intros H [|x a] b E Al N; [contradiction|]. cbn in E. injection E as <- ->. apply all_cons in Al. now apply (H a b).
      * intros H a b -> Al. apply (H (String c a) b); [reflexivity|now apply all_cons|discriminate].
    + split; [|reflexivity]. intros _ [|x a] b E Al N; [contradiction|]. cbn in E. injection E as <- ->. apply all_cons in Al. destruct Al. congruence.
Qed.
Lemma line1_some line g : re_match re_line1 line = Some g -> exists t, g = [(1, t)] /\ comment1 t line /\ forall t', comment1 t' line -> String.length t' <= String.length t.
Proof.
  unfold re_match, re_line1. seqs. cbn [rx_match]. intros H.
  destruct (star_some _ _ _ _ H) as (i & s1 & -> & B & H1 & _). clear H.
  destruct (text_some _ _ _ _ _ H1) as (s2 & -> & H2). clear H1. change (rx_match (RSeq (plus is_space) (RSeq (text_rx "-#-") (RSeq (RGroup 1 (RStar not_newline)) (RSeq (text_rx "-#-") (RSeq (RStar is_space) REmpty))))) s2 [] (fun _ g => Some g) = Some g) in H2.
  cbn [rx_match] in H2. destruct (plus_some _ _ _ _ _ H2) as (gp & s3 & -> & G & N & H3 & _). clear H2.
  destruct (text_some _ _ _ _ _ H3) as (s4 & -> & H4). clear H3. cbn [rx_match] in H4.
  destruct (star_some _ _ _ _ H4) as (t & s5 & -> & T & H5 & Mx). clear H4. cbv beta in H5. rewrite consumed_app in H5.
  destruct (text_some _ _ _ _ _ H5) as (s6 & -> & H6). clear H5. destruct (star_some _ _ _ _ H6) as (h & s7 & -> & Hh & H7 & _). cbn [rx_match] in H7. injection H7 as <-.
  exists t. split; [reflexivity|]. split.
  - split; [now apply not_nl|]. exists i, gp, (h ++ s7). repeat split; assumption.
  - intros t' (T' & i' & g' & r' & B' & G' & N' & E). apply start1 in E; try assumption. destruct E as (_ & _ & E).
    destruct (Nat.leb_spec (String.length t') (String.length t)) as [L|L]; [exact L|]. exfalso.
    specialize (Mx t' ("-#-" ++ r') E (proj2 (not_nl t') T') L). cbv beta in Mx. rewrite text_exact in Mx. pose proof (proj1 (star_none _ _ _) Mx "" r' eq_refl (all_nil _)) as K. discriminate.
Qed.
Lemma line1_none line : re_match re_line1 line = None -> forall t, ~ comment1 t line.
Proof.
  unfold re_match, re_line1. seqs. cbn [rx_match]. intros H t (T & i & g & r & B & G & N & ->).
  pose proof (proj1 (star_none _ _ _) H i _ eq_refl B) as H1. cbv beta in H1. rewrite text_exact in H1.
  pose proof (proj1 (plus_none is_space _ _ _) H1 g _ eq_refl G N) as H2. cbv beta in H2. rewrite text_exact in H2.
  pose proof (proj1 (star_none _ _ _) H2 t _ eq_refl (proj2 (not_nl t) T)) as H3. cbv beta in H3. rewrite text_exact in H3.
  pose proof (proj1 (star_none _ _ _) H3 "" r eq_refl (all_nil _)) as K. discriminate.
Qed.
Lemma line2_some line g : re_match re_line2 line = Some g -> exists t, g = [(2, t)] /\ comment2 t line /\ forall t', comment2 t' line -> String.length t' <= String.length t.
Proof.
  unfold re_match, re_line2. seqs. cbn [rx_match]. intros H1.
  destruct (text_some "/*" _ _ _ _ H1) as (s2 & -> & H2). clear H1.
  cbn [rx_match] in H2. destruct (plus_some _ _ _ _ _ H2) as (gp & s3 & -> & G & N & H3 & _). clear H2.
  destruct (text_some _ _ _ _ _ H3) as (s4 & -> & H4). clear H3. cbn [rx_match] in H4.
  destruct (star_some _ _ _ _ H4) as (t & s5 & -> & T & H5 & Mx). clear H4. cbv beta in H5. rewrite consumed_app in H5.
  destruct (text_some _ _ _ _ _ H5) as (s6 & -> & H6). clear H5. destruct (star_some _ _ _ _ H6) as (h & s7 & -> & Hh & H7 & _).
  destruct (text_some "*/" _ _ _ _ H7) as (s8 & -> & H8). cbn [rx_match] in H8. injection H8 as <-.
  exists t. split; [reflexivity|]. split.
  - split; [now apply not_nl|]. exists gp, h, s8. repeat split; assumption.
  - intros t' (T' & g' & h' & r' & G' & N' & Hh' & E). apply start2 in E; try assumption. destruct E as (_ & E).
    destruct (Nat.leb_spec (String.length t') (String.length t)) as [L|L]; [exact L|]. exfalso.
    specialize (Mx t' ("-#-" ++ h' ++ "*/" ++ r') E (proj2 (not_nl t') T') L). cbv beta in Mx. rewrite text_exact in Mx.
    pose proof (proj1 (star_none _ _ _) Mx h' _ eq_refl Hh') as K. cbv beta in K. pose proof (text_none "*/" _ _ _ K _ eq_refl) as K'. discriminate.
Qed.
Lemma line2_none line : re_match re_line2 line = None -> forall t, ~ comment2 t line.
Proof.
  unfold re_match, re_line2. seqs. cbn [rx_match]. intros H t (T & g & h & r & G & N & B & ->).
  pose proof (text_none "/*" _ _ _ H _ eq_refl) as H1. cbv beta in H1. 
  pose proof (proj1 (plus_none is_space _ _ _) H1 g _ eq_refl G N) as H2. cbv beta in H2. rewrite text_exact in H2.
  pose proof (proj1 (star_none _ _ _) H2 t _ eq_refl (proj2 (not_nl t) T)) as H3. cbv beta in H3. rewrite text_exact in H3.
  pose proof (proj1 (star_none _ _ _) H3 h _ eq_refl B) as K. cbv beta in K. pose proof (text_none "*/" _ _ _ K _ eq_refl) as K'. discriminate.
Qed.
Lemma comment_alt line : re_match comment_rx line = match re_match re_line1 line with Some g => Some g | None => re_match re_line2 line end.
Proof. reflexivity. Qed.
Lemma comment_some line g : re_match comment_rx line = Some g -> exists t, text_of line t /\ (match group g 1 with Some s => Some s | None => group g 2 end) = Some t.
Proof.
  rewrite comment_alt. destruct (re_match re_line1 line) as [g1|] eqn:E.
  - intros [= <-]. destruct (line1_some line g1 E) as (t & -> & C & M). exists t. split; [|reflexivity]. split; [apply comment_cases; now left|].
    intros t' H. apply comment_cases in H. destruct H as [H|H]; [now apply M|]. now apply not_both with (t' := t') in C.
  - intros H. destruct (line2_some line g H) as (t & -> & C & M). exists t. split; [|reflexivity]. split; [apply comment_cases; now right|].
    intros t' X. apply comment_cases in X. destruct X as [X|X]; [|now apply M]. now apply not_both with (t' := t) in X.
Qed.
Lemma comment_none line : re_match comment_rx line = None <-> ~ annotation_line line.
Proof.
  split.
  - rewrite comment_alt. destruct (re_match re_line1 line) as [g1|] eqn:E; [discriminate|]. intros H (t & C). apply comment_cases in C. destruct C as [C|C]; [now apply (line1_none line E t)|now apply (line2_none line H t)].
  - intros H. destruct (re_match comment_rx line) as [g|] eqn:E; [|reflexivity]. destruct (comment_some line g E) as (t & (C & _) & _). exfalso. apply H. now exists t.
Qed.
Lemma app_prefix (a b a' b' : string) : a ++ b = a' ++ b' -> String.length a = String.length a' -> a = a'.
Proof. revert a'. induction a as [|x a IH]; intros [|y a'] E L; cbn in *; try discriminate; [reflexivity|]. injection E as <- E. f_equal. apply IH; [exact E|lia]. Qed.
Lemma comment_unique line t t' : text_of line t -> text_of line t' -> t = t'.
Proof.
  intros (C & M) (C' & M'). assert (L : String.length t = String.length t') by (apply Nat.le_antisymm; auto). apply comment_cases in C, C'. destruct C as [C|C], C' as [C'|C'].
  - destruct C as (_ & i & g & r & B & G & _ & ->), C' as (_ & i' & g' & r' & B' & G' & _ & E). apply start1 in E; try assumption. destruct E as (_ & _ & E). now apply app_prefix in E.
  - now apply not_both with (t' := t') in C.
  - now apply not_both with (t' := t) in C'.
  - destruct C as (_ & g & h & r & B & G & _ & ->), C' as (_ & g' & h' & r' & B' & G' & _ & E). apply start2 in E; try assumption. destruct E as (_ & E). now apply app_prefix in E.
Qed.
