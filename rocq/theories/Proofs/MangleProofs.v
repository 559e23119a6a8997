(** Proofs for C17. *)
From Verif.Model Require Import Py Mangle.
From Verif.Spec Require Import MangleSpec.
From Verif.Proofs Require Import StrLemmas.
From Coq Require Import Lia.
Open Scope string_scope.
Open Scope list_scope.

Lemma app_assoc_s (a b c : string) : ((a ++ b) ++ c = a ++ (b ++ c))%string.
Proof. induction a as [|x a IH]; cbn; [reflexivity|now rewrite IH]. Qed.

Lemma replace_app c w a b : replace_char c w (a ++ b) = (replace_char c w a ++ replace_char c w b)%string.
Proof. induction a as [|x a IH]; cbn [append replace_char]; [reflexivity|]. now rewrite IH, app_assoc_s. Qed.

Lemma replace_one c w d : replace_char c w (String d "") = if Ascii.eqb d c then w else String d "".
Proof. cbn [replace_char]. destruct (Ascii.eqb d c); [|reflexivity]. induction w as [|x w IH]; cbn; [reflexivity|now rewrite IH]. Qed.

Definition all_chars : list ascii := map ascii_of_nat (seq 0 256).
Lemma all_chars_in c : In c all_chars.
Proof.
  unfold all_chars. rewrite <- (ascii_nat_embedding c). apply in_map. apply in_seq.
  pose proof (nat_ascii_bounded c). lia.
Qed.
Lemma by_char (f : ascii -> bool) : forallb f all_chars = true -> forall c, f c = true.
Proof. intros H c. rewrite forallb_forall in H. apply H, all_chars_in. Qed.

Lemma mangle_app a b : mangle_name (a ++ b) = (mangle_name a ++ mangle_name b)%string.
Proof. unfold mangle_name. now rewrite !replace_app. Qed.

Lemma mangle_one c : mangle_name (String c "") = code c.
Proof.
  assert (F : String.eqb (mangle_name (String c "")) (code c) = true).
  { apply (by_char (fun c => String.eqb (mangle_name (String c "")) (code c))). vm_compute. reflexivity. }
  now apply String.eqb_eq in F.
Qed.

Lemma mangle_encode s : mangle_name s = encode s.
Proof.
  induction s as [|c r IH]; [reflexivity|]. change (String c r) with ((String c "" ++ r)%string).
  rewrite mangle_app, mangle_one, IH. reflexivity.
Qed.

Lemma code_ident c : type_char c = true -> forall_char is_ident_char (code c) = true.
Proof.
  intros H. assert (F : (implb (type_char c) (forall_char is_ident_char (code c))) = true).
  { apply (by_char (fun c => implb (type_char c) (forall_char is_ident_char (code c)))). vm_compute. reflexivity. }
  now rewrite H in F.
Qed.

Lemma encode_ident s : forall_char type_char s = true -> forall_char is_ident_char (encode s) = true.
Proof.
  induction s as [|c r IH]; [reflexivity|]. cbn [forall_char encode]. intros H. apply andb_prop in H. destruct H as [Hc Hr].
  rewrite forall_char_app, (code_ident c Hc). now apply IH.
Qed.

Lemma mangle_valid s : forall_char type_char s = true -> forall_char is_ident_char (mangle_name s) = true.
Proof. rewrite mangle_encode. apply encode_ident. Qed.

Lemma code_start c : type_char c = true -> is_digit c = false -> exists d r, code c = String d r /\ (is_alpha d = true \/ d = "_"%char).
Proof.
  intros H D. assert (F : (implb (type_char c && negb (is_digit c)) match code c with String d _ => is_alpha d || Ascii.eqb d "_" | "" => false end) = true).
  { apply (by_char (fun c => implb (type_char c && negb (is_digit c)) match code c with String d _ => is_alpha d || Ascii.eqb d "_" | "" => false end)).
    vm_compute. reflexivity. }
  rewrite H, D in F. cbn [negb andb implb] in F. destruct (code c) as [|d r]; [discriminate|].
  exists d, r. split; [reflexivity|]. apply orb_prop in F. destruct F as [F|F]; [auto|]. right. now apply Ascii.eqb_eq in F.
Qed.

Lemma mangle_identifier c r : forall_char type_char (String c r) = true -> is_digit c = false -> identifier (mangle_name (String c r)).
Proof.
  intros H D. pose proof (mangle_valid _ H) as V. rewrite mangle_encode in *. cbn [encode] in *.
  cbn [forall_char] in H. apply andb_prop in H. destruct H as [Hc Hr].
  destruct (code_start c Hc D) as (d & w & E & A). rewrite E in *. cbn [append] in *.
  exists d, (w ++ encode r)%string. split; [reflexivity|]. split; [exact A|]. cbn [forall_char] in V. now apply andb_prop in V.
Qed.

Lemma code_keep c : is_ident_char c = true -> code c = String c "".
Proof.
  intros H. assert (F : implb (is_ident_char c) (String.eqb (code c) (String c "")) = true).
  { apply (by_char (fun c => implb (is_ident_char c) (String.eqb (code c) (String c "")))). vm_compute. reflexivity. }
  rewrite H in F. now apply String.eqb_eq in F.
Qed.
Lemma mangle_keep s : forall_char is_ident_char s = true -> mangle_name s = s.
Proof.
  rewrite mangle_encode. induction s as [|c r IH]; [reflexivity|]. cbn [forall_char encode]. intros H. apply andb_prop in H.
  destruct H as [Hc Hr]. rewrite (code_keep c Hc), (IH Hr). reflexivity.
Qed.

(** ** Telling names apart *)
Inductive kind (c : ascii) : Prop :=
| k_blank : c = " "%char -> kind c
| k_word : code c = String c "" -> c <> "_"%char -> kind c
| k_op : (exists a w, code c = String "_" (String "_" (String a w)) /\ a <> "_"%char /\
          forall c', plain_char c' = true -> (exists w', code c' = String "_" (String "_" (String a w'))) -> c' = c) -> kind c.

Definition kindb (c : ascii) : bool :=
  Ascii.eqb c " " || String.eqb (code c) (String c "") && negb (Ascii.eqb c "_") ||
  match code c with
  | String x (String y (String a w)) =>
      Ascii.eqb x "_" && Ascii.eqb y "_" && negb (Ascii.eqb a "_") &&
      forallb (fun c' => implb (plain_char c' && match code c' with
        | String x' (String y' (String a' w')) => Ascii.eqb x' "_" && Ascii.eqb y' "_" && Ascii.eqb a' a | _ => false end) (Ascii.eqb c' c)) all_chars
  | _ => false end.

Lemma kind_of c : plain_char c = true -> kind c.
Proof.
  intros P. assert (F : implb (plain_char c) (kindb c) = true).
  { apply (by_char (fun c => implb (plain_char c) (kindb c))). vm_compute. reflexivity. }
  rewrite P in F. cbn [implb] in F. unfold kindb in F. apply orb_prop in F. destruct F as [F|F]; [apply orb_prop in F; destruct F as [F|F]|].
  - apply k_blank. now apply Ascii.eqb_eq in F.
  - apply andb_prop in F. destruct F as [A B]. apply k_word; [now apply String.eqb_eq in A|].
    intros ->. discriminate B.
  - destruct (code c) as [|x [|y [|a w]]] eqn:E; try discriminate.
    apply andb_prop in F. destruct F as [F G]. apply andb_prop in F. destruct F as [F N]. apply andb_prop in F. destruct F as [X Y].
    apply Ascii.eqb_eq in X, Y. subst x y. apply k_op. exists a, w. split; [exact E|]. split; [intros ->; discriminate N|].
    intros c' P' (w' & E'). rewrite forallb_forall in G. specialize (G c' (all_chars_in c')). rewrite P', E', Ascii.eqb_refl in G.
    cbn [implb andb] in G. rewrite ?Ascii.eqb_refl in G. cbn [implb andb] in G. now apply Ascii.eqb_eq in G.
Qed.

Lemma code_blank : code " " = "_".
Proof. reflexivity. Qed.

Lemma app_inj_l a b c : (a ++ b = a ++ c)%string -> b = c.
Proof. induction a as [|x a IH]; cbn; [auto|]. intros [= E]. auto. Qed.

Lemma encode_nonempty c r : plain_char c = true -> encode (String c r) <> "".
Proof.
  intros P. cbn [encode]. destruct (kind_of c P) as [->|E _|(a & w & E & _)]; rewrite ?E; discriminate.
Qed.

(** A blank is not followed by a second blank, so "_" followed by something not "_" after one more "_"... *)
Lemma blank_not_op r a w : forall_char plain_char r = true -> no_double_blank (String " " r) -> a <> "_"%char ->
  encode r <> String "_" (String a w).
Proof.
  intros P N A. destruct r as [|c r]; [discriminate|]. cbn [forall_char] in P. apply andb_prop in P. destruct P as [P _].
  cbn [encode]. destruct (kind_of c P) as [->|E NE|(b & v & E & NB & _)].
  - cbn [no_double_blank] in N. exfalso. apply (proj1 N). auto.
  - rewrite E. cbn [append]. intros [= Q _]. congruence.
  - rewrite E. cbn [append]. intros [= Q _]. congruence.
Qed.

Lemma encode_inj s1 : forall s2, forall_char plain_char s1 = true -> forall_char plain_char s2 = true ->
  no_double_blank s1 -> no_double_blank s2 -> encode s1 = encode s2 -> s1 = s2.
Proof.
  induction s1 as [|c1 r1 IH]; intros [|c2 r2] P1 P2 N1 N2 E.
  - reflexivity.
  - exfalso. cbn [forall_char] in P2. apply andb_prop in P2. symmetry in E. now apply encode_nonempty in E.
  - exfalso. cbn [forall_char] in P1. apply andb_prop in P1. now apply encode_nonempty in E.
  - cbn [forall_char] in P1, P2. apply andb_prop in P1, P2. destruct P1 as [Q1 P1], P2 as [Q2 P2].
    assert (M1 : no_double_blank r1) by (destruct r1; [exact I|apply N1]).
    assert (M2 : no_double_blank r2) by (destruct r2; [exact I|apply N2]).
    assert (C : c1 = c2).
    { cbn [encode] in E.
      destruct (kind_of c1 Q1) as [->|E1 NE1|(a1 & w1 & E1 & NB1 & U1)];
      destruct (kind_of c2 Q2) as [->|E2 NE2|(a2 & w2 & E2 & NB2 & U2)];
      rewrite ?E1, ?E2, ?code_blank in E; cbn [append] in E.
      - reflexivity.
      - exfalso. injection E as <- _. now apply NE2.
      - exfalso. injection E as E. now apply blank_not_op in E.
      - exfalso. injection E as -> _. now apply NE1.
      - now injection E.
      - exfalso. injection E as -> _. now apply NE1.
      - exfalso. injection E as E. symmetry in E. now apply blank_not_op in E.
      - exfalso. injection E as <- _. now apply NE2.
      - injection E as -> _. symmetry. apply U1; [exact Q2|]. eauto. }
    subst c2. f_equal. apply IH; try assumption. cbn [encode] in E. now apply app_inj_l in E.
Qed.

Lemma mangle_inj s1 s2 : forall_char plain_char s1 = true -> forall_char plain_char s2 = true ->
  no_double_blank s1 -> no_double_blank s2 -> mangle_name s1 = mangle_name s2 -> s1 = s2.
Proof. rewrite !mangle_encode. apply encode_inj. Qed.

(** ** Converter functions *)
Lemma eqb_in n l : existsb (String.eqb n) l = true <-> In n l.
Proof.
  rewrite existsb_exists. split; [intros (x & I & E); apply String.eqb_eq in E; now subst|].
  intros I. exists n. split; [exact I|apply String.eqb_refl].
Qed.

Lemma converters_run prefix types : forall c, exists new,
  conv_code (fst (generate_converters prefix c types)) = conv_code c ++ new /\
  conv_defined (fst (generate_converters prefix c types)) = conv_defined c ++ map fst new /\
  snd (generate_converters prefix c types) = map (converter_name prefix) types /\
  NoDup (map fst new) /\ (forall n, In n (map fst new) -> ~ In n (conv_defined c)) /\
  (forall n t, In (n, t) new -> n = converter_name prefix t /\ exists a b, types = a ++ t :: b /\ ~ In n (map (converter_name prefix) a)) /\
  (forall t, In t types -> In (converter_name prefix t) (conv_defined c ++ map fst new)).
Proof.
  induction types as [|t r IH]; intros c; cbn [generate_converters].
  - exists []. cbn. rewrite !app_nil_r. split; [reflexivity|]. split; [reflexivity|]. split; [reflexivity|]. split; [constructor|].
    split; [intros n []|]. split; [intros n t []|intros t []].
  - unfold generate_converter at 1 2 3. set (n := converter_name prefix t).
    destruct (existsb (String.eqb n) (conv_defined c)) eqn:D.
    + apply eqb_in in D. destruct (IH c) as (new & A & B & C & N & F & G & I).
      destruct (generate_converters prefix c r) as [c2 ns]. cbn [fst snd] in *. exists new.
      split; [exact A|]. split; [exact B|]. split; [cbn [map]; now rewrite C|]. split; [exact N|]. split; [exact F|]. split.
      * intros m u J. destruct (G m u J) as (-> & a & b & -> & NI). split; [reflexivity|]. exists (t :: a), b. split; [reflexivity|].
        cbn [map]. intros [Q|Q]; [|contradiction]. apply (F (converter_name prefix u)); [apply in_map_iff; exists (converter_name prefix u, u); auto|].
        rewrite <- Q. exact D.
      * intros u [<-|J]; [apply in_app_iff; now left|now apply I].
    + assert (ND : ~ In n (conv_defined c)) by (rewrite <- eqb_in; congruence).
      destruct (IH (mk_converters (conv_defined c ++ [n]) (conv_code c ++ [(n, t)]))) as (new & A & B & C & N & F & G & I).
      destruct (generate_converters prefix _ r) as [c2 ns]. cbn [fst snd conv_defined conv_code] in *. exists ((n, t) :: new).
      cbn [map fst]. split; [now rewrite A, <- app_assoc|]. split; [now rewrite B, <- app_assoc|]. split; [cbn [map]; now rewrite C|].
      assert (NN : ~ In n (map fst new)) by (intros J; apply (F n J); apply in_app_iff; right; now left).
      split; [now constructor|]. split; [|split].
      * intros m [<-|J]; [exact ND|]. intros Q. apply (F m J). apply in_app_iff. now left.
      * intros m u [J|J].
        -- injection J as <- <-. split; [reflexivity|]. exists [], r. split; [reflexivity|intros []].
        -- destruct (G m u J) as (-> & a & b & -> & NI). split; [reflexivity|]. exists (t :: a), b. split; [reflexivity|].
           cbn [map]. intros [Q|Q]; [|contradiction]. apply (F (converter_name prefix u)); [apply in_map_iff; exists (converter_name prefix u, u); auto|].
           rewrite <- Q. apply in_app_iff. right. now left.
      * intros u [<-|J]; [apply in_app_iff; right; now left|]. specialize (I u J). rewrite <- app_assoc in I. exact I.
Qed.

Definition empty_converters : converters := mk_converters [] [].

(** Each request is answered with a function that exists, once, and converts the first type requested under that name. *)
Lemma converters_ok prefix types c ns : generate_converters prefix empty_converters types = (c, ns) ->
  NoDup (map fst (conv_code c)) /\
  forall i t n, nth_error types i = Some t -> nth_error ns i = Some n ->
  exists t' a b, In (n, t') (conv_code c) /\ types = a ++ t' :: b /\ converter_name prefix t' = n /\
    (forall u, In u a -> converter_name prefix u <> n).
Proof.
  intros E. destruct (converters_run prefix types empty_converters) as (new & A & B & C & N & F & G & I).
  rewrite E in *. cbn [fst snd empty_converters conv_code conv_defined app] in *. rewrite A. split; [exact N|].
  intros i t n Ht Hn. rewrite C in Hn. rewrite nth_error_map, Ht in Hn. cbn [option_map] in Hn. injection Hn as <-.
  specialize (I t (nth_error_In _ _ Ht)). apply in_map_iff in I. destruct I as ([m t'] & Em & J). cbn [fst] in Em. subst m.
  destruct (G _ _ J) as (E' & a & b & -> & NI). exists t', a, b. split; [exact J|]. split; [reflexivity|]. split; [auto|].
  intros u Iu Q. apply NI. rewrite <- Q. now apply in_map.
Qed.

Lemma append_inj_l a b c : (a ++ b = a ++ c)%string -> b = c. Proof. apply app_inj_l. Qed.

(** Hence the right one when the names tell the types apart. *)
Lemma converters_right prefix types c ns : generate_converters prefix empty_converters types = (c, ns) ->
  (forall t, In t types -> forall_char plain_char t = true /\ no_double_blank t) ->
  forall i t n, nth_error types i = Some t -> nth_error ns i = Some n -> In (n, t) (conv_code c) /\
    forall t', In (n, t') (conv_code c) -> t' = t.
Proof.
  intros E P i t n Ht Hn. destruct (converters_ok prefix types c ns E) as [N K].
  destruct (K i t n Ht Hn) as (t' & a & b & J & ET & EN & _).
  destruct (converters_run prefix types empty_converters) as (new & A & B & C & _ & _ & G & _).
  rewrite E in *. cbn [fst snd empty_converters conv_code conv_defined app] in *.
  assert (EN2 : n = converter_name prefix t).
  { rewrite C, nth_error_map, Ht in Hn. cbn [option_map] in Hn. congruence. }
  assert (U : forall u, In u types -> converter_name prefix u = n -> u = t).
  { intros u Iu Q. rewrite EN2 in Q. unfold converter_name in Q. apply app_inj_l in Q. apply mangle_inj; try exact Q.
    - apply (P u Iu). - apply (P t (nth_error_In _ _ Ht)). - apply (P u Iu). - apply (P t (nth_error_In _ _ Ht)). }
  assert (t' = t) by (apply U; [rewrite ET; apply in_app_iff; right; now left|exact EN]). subst t'.
  split; [exact J|]. intros t' J'. rewrite A in J'. destruct (G _ _ J') as (Q & a' & b' & -> & _).
  apply U; [apply in_app_iff; right; now left|auto].
Qed.

Lemma encode_app a b : encode (a ++ b)%string = (encode a ++ encode b)%string.
Proof. induction a as [|c a IH]; cbn [encode append]; [reflexivity|]. rewrite IH. now rewrite StrLemmas.app_assoc_s. Qed.

Lemma encode_join l : encode (join "," l) = join "_" (map encode l).
Proof.
  induction l as [|x [|y r] IH]; [reflexivity|reflexivity|].
  change (join "," (x :: y :: r)) with (x ++ "," ++ join "," (y :: r))%string. rewrite encode_app.
  change (encode ("," ++ join "," (y :: r))%string) with ("_" ++ encode (join "," (y :: r)))%string. rewrite IH. reflexivity.
Qed.

Lemma mangle_template base a r :
  get_mangled_name base (a :: r) = mangle_name (base ++ "<" ++ join "," (a :: r) ++ ">")%string.
Proof.
  unfold get_mangled_name. rewrite !mangle_encode, !encode_app, encode_join.
  rewrite (map_ext _ _ mangle_encode). reflexivity.
Qed.
