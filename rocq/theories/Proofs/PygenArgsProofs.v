From Verif.Model Require Import Py PygenArgs.
From Verif.Spec Require Import DeclSpec PygenArgsSpec.
From Verif.Proofs Require Import DeclProofs.
Require Import Lia Permutation.
Open Scope string_scope.
Open Scope list_scope.

Fixpoint value_induction (P : value -> Prop) (H0 : P VNone) (H1 : forall b, P (VBool b)) (H2 : forall z, P (VInt z)) (H3 : forall s, P (VStr s))
    (H4 : forall n, P (VClass n)) (H5 : forall l, Forall P l -> P (VList l))
    (H6 : forall f a kw, Forall P a -> Forall (fun kv => P (snd kv)) kw -> P (VCall f a kw)) (v : value) : P v :=
  let rec := value_induction P H0 H1 H2 H3 H4 H5 H6 in
  match v with
  | VNone => H0 | VBool b => H1 b | VInt z => H2 z | VStr s => H3 s | VClass n => H4 n
  | VList l => H5 l ((fix go l : Forall P l := match l with [] => Forall_nil _ | x :: r => Forall_cons _ (rec x) (go r) end) l)
  | VCall f a kw => H6 f a kw ((fix go l : Forall P l := match l with [] => Forall_nil _ | x :: r => Forall_cons _ (rec x) (go r) end) a)
      ((fix go l : Forall (fun kv => P (snd kv)) l := match l with [] => Forall_nil _ | x :: r => Forall_cons _ (rec (snd x)) (go r) end) kw)
  end.

(** ** What it means that a text is read as a value *)
Definition boundary (rest : text) : Prop := match rest with [] => True | c :: _ => c = ","%char \/ c = "]"%char \/ c = ")"%char end.
Definition starts (t : text) : Prop := match t with [] => False | c :: _ => white c = false /\ c <> "]"%char /\ c <> ")"%char end.
Definition ok (t : text) (v : value) : Prop :=
  starts t /\ forall n rest, length t <= n -> boundary rest ->
  expression n (t ++ rest) = Some (v, rest) /\ match word (t ++ rest) with (_ :: _, "="%char :: _) => False | _ => True end.
Definition reads (t : text) (x : item) : Prop :=
  starts t /\ forall n rest, length t <= n -> boundary rest -> one (expression n) (t ++ rest) = Some (x, rest).
Lemma reads_positional t v : ok t v -> reads t (None, v).
Proof.
  intros [S H]. split; [exact S|]. intros n rest L B. destruct (H n rest L B) as [E W]. unfold one.
  destruct (word (t ++ rest)) as [[|c k] r]. { now rewrite E. }
  destruct r as [|d r]. { now rewrite E. }
  destruct d as [[] [] [] [] [] [] [] []]; try (now rewrite E). destruct W.
Qed.
Lemma word_app w d r : forallb name_char w = true -> name_char d = false -> word (w ++ d :: r) = (w, d :: r).
Proof.
  intros F D. induction w as [|c w IH]. { cbn. now rewrite D. }
  cbn in F. apply andb_true_iff in F as [F1 F2]. cbn [app word]. rewrite F1, (IH F2). reflexivity.
Qed.
Lemma word_boundary w rest : forallb name_char w = true -> boundary rest -> word (w ++ rest) = (w, rest).
Proof.
  intros F B. destruct rest as [|d r]. 2: { apply word_app; [exact F|]. cbn in B. destruct B as [->|[->| ->]]; reflexivity. }
  rewrite app_nil_r. induction w as [|c w IH]; [reflexivity|]. cbn in F. apply andb_true_iff in F as [F1 F2]. cbn. now rewrite F1, (IH F2).
Qed.
Lemma name_starts c w : name_char c = true -> starts (c :: w).
Proof.
  intros N. unfold starts. split; [|split].
  - destruct (white c) eqn:W; [|reflexivity]. unfold white in W. apply orb_true_iff in W as [W|W]; apply Ascii.eqb_eq in W; subst c; discriminate N.
  - intros ->. discriminate N.
  - intros ->. discriminate N.
Qed.
Lemma reads_keyword k t v : identifier k -> ok t v -> reads (lit k ++ ["="%char] ++ t) (Some k, v).
Proof.
  intros I [S H]. unfold identifier in I. destruct (lit k) as [|c w] eqn:K; [destruct I|]. destruct I as [D [P F]].
  split. { cbn in F. apply andb_true_iff in F as [F _]. exact (name_starts c _ F). }
  intros n rest L B. unfold one. rewrite <- app_assoc. cbn [app]. rewrite app_comm_cons, word_app; [|exact F|reflexivity].
  rewrite (proj1 (H n rest ltac:(cbn in L; rewrite app_length in L; cbn in L; lia) B)). rewrite <- K. unfold lit. now rewrite string_of_list_ascii_of_string.
Qed.

(** ** Items *)
Definition whites (w : text) : Prop := forallb white w = true.
Lemma skip_whites w t : whites w -> skip (w ++ t) = skip t.
Proof. induction w as [|c w IH]; intros W; [reflexivity|]. cbn in W. apply andb_true_iff in W as [W1 W2]. cbn [app skip]. rewrite W1. exact (IH W2). Qed.
Lemma skip_starts t r : starts t -> skip (t ++ r) = t ++ r.
Proof. destruct t as [|c t]; intros S; [destruct S|]. cbn in *. destruct S as [W _]. now rewrite W. Qed.
Definition piece := (text * text * item)%type.
Definition shown (p : piece) : text := fst (fst p) ++ snd (fst p).
Definition fine (p : piece) : Prop := whites (fst (fst p)) /\ reads (snd (fst p)) (snd p).
Definition closer (c : ascii) : Prop := c = "]"%char \/ c = ")"%char.
Lemma closer_facts c : closer c -> white c = false /\ Ascii.eqb "," c = false /\ boundary (c :: []) /\ forall r, boundary (c :: r).
Proof. intros [->| ->]; repeat split; cbn; auto. Qed.
Lemma items_pieces close (C : closer close) n l : Forall fine l -> Forall (fun p => length (snd (fst p)) <= n) l ->
  forall m w rest, whites w -> length l < m -> items (expression n) m close (w ++ join comma (map shown l) ++ close :: rest) = Some (map snd l, rest).
Proof.
  destruct (closer_facts close C) as [W0 [E0 [_ B0]]]. intros F L. induction l as [|p l IH]; intros m w rest W M.
  { destruct m as [|m]; [cbn in M; lia|]. cbn [items map join app]. rewrite (skip_whites _ _ W). cbn [skip]. rewrite W0, Ascii.eqb_refl. reflexivity. }
  destruct m as [|m]; [cbn in M; lia|]. inversion_clear F as [|? ? F1 F2]. inversion_clear L as [|? ? L1 L2]. destruct F1 as [WP [S R]].
  cbn [items]. rewrite (skip_whites _ _ W).
  assert (J : exists tail, join comma (map shown (p :: l)) ++ close :: rest = fst (fst p) ++ snd (fst p) ++ tail /\
    (l = [] /\ tail = close :: rest \/ l <> [] /\ tail = "," %char :: [" "%char] ++ join comma (map shown l) ++ close :: rest)).
  { destruct l as [|q l]. { exists (close :: rest). split; [|now left]. unfold shown. cbn. now rewrite <- app_assoc. }
    exists (","%char :: [" "%char] ++ join comma (map shown (q :: l)) ++ close :: rest). split; [|right; split; [discriminate|reflexivity]].
    change (join comma (map shown (p :: q :: l))) with ((fst (fst p) ++ snd (fst p)) ++ comma ++ join comma (map shown (q :: l))).
    rewrite <- !app_assoc. reflexivity. }
  destruct J as [tail [-> T]]. destruct p as [[w1 t] x]. cbn [fst snd] in *. rewrite (skip_whites _ _ WP), (skip_starts _ _ S).
  assert (B : boundary tail). { destruct T as [[_ ->]|[_ ->]]; [apply B0|]. cbn. now left. }
  assert (R' := R n tail L1 B). destruct t as [|c t]; [destruct S|]. cbn [app]. cbn [app] in R'. rewrite R'.
  assert (Ascii.eqb c close = false) as ->. { destruct S as [_ [S1 S2]]. apply Ascii.eqb_neq. destruct C as [->| ->]; assumption. }
  destruct T as [[-> ->]|[_ ->]].
  - cbn [skip]. rewrite W0, Ascii.eqb_refl. reflexivity.
  - cbn [skip]. change (white ",") with false. cbn iota. rewrite E0. change (Ascii.eqb "," ",") with true. cbn iota.
    rewrite (IH F2 L2 m [" "%char] rest); [reflexivity|reflexivity|cbn in M; lia].
Qed.
Lemma join_length l p : In p l -> length (snd (fst p)) <= length (join comma (map shown l)).
Proof.
  induction l as [|x l IH]; intros I; [destruct I|]. cbn [map join]. destruct I as [->|I].
  - destruct (map shown l); unfold shown; rewrite !app_length; lia.
  - specialize (IH I). destruct (map shown l) as [|y r] eqn:E. { destruct l; [destruct I|discriminate E]. } rewrite !app_length. lia.
Qed.
Lemma join_count l : Forall fine l -> length l <= length (join comma (map shown l)).
Proof.
  induction l as [|x l IH]; intros F; [cbn; lia|]. inversion_clear F as [|? ? F1 F2]. specialize (IH F2). destruct F1 as [_ [S _]].
  assert (1 <= length (shown x)). { unfold shown. rewrite app_length. destruct (snd (fst x)); [destruct S|]. cbn. lia. }
  cbn [map join length]. destruct (map shown l) as [|y r] eqn:E. { destruct l; [cbn; lia|discriminate E]. } rewrite !app_length. change (length comma) with 2. lia.
Qed.

(** ** Strings *)
Lemma escape_read q c r : q = quote \/ q = double_quote -> string_rest q (escape q c ++ r) = match string_rest q r with Some (s, r') => Some (c :: s, r') | None => None end.
Proof. intros [->| ->]; destruct c as [[] [] [] [] [] [] [] []]; reflexivity. Qed.
Lemma string_read q t r : q = quote \/ q = double_quote -> string_rest q (flat_map (escape q) t ++ q :: r) = Some (t, r).
Proof.
  intros Q. induction t as [|c t IH]. { cbn. now rewrite Ascii.eqb_refl. }
  cbn [flat_map]. rewrite <- app_assoc, (escape_read q c _ Q), IH. reflexivity.
Qed.
Lemma repr_str_shape s : exists q, (q = quote \/ q = double_quote) /\ repr_str s = q :: flat_map (escape q) (lit s) ++ [q].
Proof. unfold repr_str. cbn zeta. destruct (existsb _ _ && _); eexists; split; [now right| |now left|]; reflexivity. Qed.
Lemma ok_str s : ok (repr_str s) (VStr s).
Proof.
  destruct (repr_str_shape s) as [q [Q ->]]. split. { destruct Q as [->| ->]; repeat split; discriminate. }
  intros n rest L B. destruct n as [|n]; [cbn in L; lia|]. cbn [app]. split.
  - cbn [expression]. assert (Ascii.eqb q "'" || Ascii.eqb q (ascii_of_nat 34) = true) as ->. { destruct Q as [->| ->]; reflexivity. }
    rewrite <- app_assoc. cbn [app]. rewrite (string_read q (lit s) rest Q). unfold lit. now rewrite string_of_list_ascii_of_string.
  - destruct Q as [->| ->]; exact I.
Qed.

Lemma expression_minus n r : expression (S n) ("-"%char :: r) = match digits r with ([], _) => None | (d, r') => Some (VInt (- number d), r') end.
Proof. reflexivity. Qed.
Lemma expression_list n r : expression (S n) ("["%char :: r) =
  match items (expression n) (length ("["%char :: r)) "]" r with
  | Some (l, r') => match elements l with Some v => Some (VList v, r') | None => None end
  | None => None
  end.
Proof. reflexivity. Qed.
Lemma expression_root n r rest : word ("r"%char :: r) = (lit "root_module", "["%char :: rest) ->
  expression (S n) ("r"%char :: r) = match items (expression n) (length ("r"%char :: r)) "]" rest with
                                     | Some ([(None, VStr s)], r'') => Some (VClass s, r'')
                                     | _ => None
                                     end.
Proof. intros W. transitivity (match word ("r"%char :: r) with
            | ([], _) => None
            | (w, rest) =>
                let name := string_of_list_ascii w in
                match rest with
                | "("%char :: r' =>
                    match items (expression n) (length ("r"%char :: r)) ")" r' with
                    | Some (l, r'') => match arguments l with Some (a, kw) => Some (VCall name a kw, r'') | None => None end
                    | None => None
                    end
                | "["%char :: r' =>
                    if String.eqb name "root_module" then
                      match items (expression n) (length ("r"%char :: r)) "]" r' with
                      | Some ([(None, VStr s)], r'') => Some (VClass s, r'')
                      | _ => None
                      end
                    else None
                | _ =>
                    if String.eqb name "None" then Some (VNone, rest)
                    else if String.eqb name "True" then Some (VBool true, rest)
                    else if String.eqb name "False" then Some (VBool false, rest)
                    else None
                end
            end). { reflexivity. } rewrite W. reflexivity. Qed.

(** ** Integers *)
Lemma number_value s : forall a, fold_left (fun z c => (10 * z + Z.of_N (N_of_ascii c - 48))%Z) (lit s) (Z.of_N a) = Z.of_N (value_from a s).
Proof.
  induction s as [|c s IH]; intros a; [reflexivity|]. cbn [lit list_ascii_of_string fold_left value_from]. rewrite <- IH. f_equal. now rewrite N2Z.inj_add, N2Z.inj_mul.
Qed.
Lemma decimal_facts n : exists c r, lit (decimal n) = c :: r /\ forallb is_digit (c :: r) = true /\ number (lit (decimal n)) = Z.of_N n.
Proof.
  destruct (decimal_numeral n) as [N [D [V _]]]. destruct (decimal n) as [|c r] eqn:E; [now destruct N|].
  exists c, (lit r). split; [reflexivity|]. split.
  - apply forallb_forall. intros x X. apply is_digit_iff, D, X.
  - unfold number. change 0%Z with (Z.of_N 0). now rewrite number_value, V.
Qed.
Lemma digits_boundary d rest : forallb is_digit d = true -> boundary rest -> digits (d ++ rest) = (d, rest).
Proof.
  intros F B. induction d as [|c d IH].
  - destruct rest as [|c r]; [reflexivity|]. cbn in B. destruct B as [->|[->| ->]]; reflexivity.
  - cbn in F. apply andb_true_iff in F as [F1 F2]. cbn. now rewrite F1, (IH F2).
Qed.
Lemma digit_facts c : is_digit c = true -> name_char c = true /\ Ascii.eqb c "'" || Ascii.eqb c (ascii_of_nat 34) = false /\ Ascii.eqb c "-" = false.
Proof. destruct c as [[] [] [] [] [] [] [] []]; intros H; try discriminate H; repeat split. Qed.
Lemma no_equals (w rest : text) : boundary rest -> match (w, rest) with (_ :: _, "="%char :: _) => False | _ => True end.
Proof. intros B. destruct w; [exact I|]. destruct rest as [|d r]; [exact I|]. cbn in B. destruct B as [->|[->| ->]]; exact I. Qed.
Lemma ok_int z : ok (repr_int z) (VInt z).
Proof.
  unfold repr_int. destruct (decimal_facts (Z.abs_N z)) as [c [r [E [D V]]]]. rewrite V in * || idtac. rewrite E in *.
  assert (DC : is_digit c = true). { cbn in D. now apply andb_true_iff in D as [D _]. }
  destruct (digit_facts c DC) as [N [Q M]].
  destruct (Z.ltb_spec z 0) as [Z0|Z0]; cbn [app].
  - split. { repeat split; discriminate. } intros n rest L B. destruct n as [|n]; [cbn in L; lia|]. split; [|exact I].
    assert (X := digits_boundary _ _ D B). cbn [app] in X |- *. rewrite expression_minus, X, V. do 3 f_equal. rewrite N2Z.inj_abs_N. lia.
  - split. { now apply name_starts. } intros n rest L B. destruct n as [|n]; [cbn in L; lia|]. split.
    + cbn [app expression]. rewrite Q, M, DC. rewrite app_comm_cons, (digits_boundary _ _ D B). cbn [fst snd]. rewrite V. do 3 f_equal. rewrite N2Z.inj_abs_N. lia.
    + rewrite word_boundary; [exact (no_equals (c :: r) rest B)| |exact B]. apply forallb_forall. intros x X. apply digit_facts. exact (proj1 (forallb_forall _ _) D x X).
Qed.

(** ** Names, lists and calls *)
Lemma identifier_facts c : name_char c = true -> is_digit c = false ->
  Ascii.eqb c "'" || Ascii.eqb c (ascii_of_nat 34) = false /\ Ascii.eqb c "-" = false /\ Ascii.eqb c "[" = false.
Proof. destruct c as [[] [] [] [] [] [] [] []]; intros H D; try discriminate H; try discriminate D; repeat split. Qed.
Lemma ok_none : ok (lit "None") VNone.
Proof.
  split. { repeat split; discriminate. } intros n rest L B. destruct n as [|n]; [cbn in L; lia|].
  split; [|rewrite (word_boundary (lit "None") rest eq_refl B); exact (no_equals (lit "None") rest B)].
  assert (W := word_boundary (lit "None") rest eq_refl B). cbn [lit list_ascii_of_string app] in *. cbn [expression]. rewrite W.
  destruct rest as [|d r]; [reflexivity|]. cbn in B. destruct B as [->|[->| ->]]; reflexivity.
Qed.
Lemma ok_bool (b : bool) : ok (lit (if b then "True" else "False")) (VBool b).
Proof.
  destruct b.
  - split. { repeat split; discriminate. } intros n rest L B. destruct n as [|n]; [cbn in L; lia|].
    split; [|rewrite (word_boundary (lit "True") rest eq_refl B); exact (no_equals (lit "True") rest B)].
    assert (W := word_boundary (lit "True") rest eq_refl B). cbn [lit list_ascii_of_string app] in *. cbn [expression]. rewrite W.
    destruct rest as [|d r]; [reflexivity|]. cbn in B. destruct B as [->|[->| ->]]; reflexivity.
  - split. { repeat split; discriminate. } intros n rest L B. destruct n as [|n]; [cbn in L; lia|].
    split; [|rewrite (word_boundary (lit "False") rest eq_refl B); exact (no_equals (lit "False") rest B)].
    assert (W := word_boundary (lit "False") rest eq_refl B). cbn [lit list_ascii_of_string app] in *. cbn [expression]. rewrite W.
    destruct rest as [|d r]; [reflexivity|]. cbn in B. destruct B as [->|[->| ->]]; reflexivity.
Qed.
Lemma elements_none l : elements (map (pair None) l) = Some l.
Proof. induction l as [|v l IH]; [reflexivity|]. cbn. now rewrite IH. Qed.
Lemma pieces_small l n : length (join comma (map shown l)) <= n -> Forall (fun p : piece => length (snd (fst p)) <= n) l.
Proof. intros L. apply Forall_forall. intros p P. assert (H := join_length l p P). lia. Qed.
Lemma ok_list l vs : Forall fine l -> map snd l = map (pair None) vs -> ok (["["%char] ++ join comma (map shown l) ++ ["]"%char]) (VList vs).
Proof.
  intros F E. split. { repeat split; discriminate. } intros n rest L B. destruct n as [|n]; [cbn in L; lia|]. split; [|exact I].
  rewrite !app_length in L. cbn in L. assert (K := join_count l F).
  rewrite <- !app_assoc. cbn [app]. rewrite expression_list.
  assert (P := items_pieces "]" (or_introl eq_refl) n l F (pieces_small l n ltac:(lia)) (length ("["%char :: join comma (map shown l) ++ "]"%char :: rest)) [] rest eq_refl).
  cbn [app] in P. rewrite P by (cbn [length]; rewrite app_length; cbn [length]; lia). rewrite E, elements_none. reflexivity.
Qed.
Lemma keywords_only_all kw : NoDup (map fst kw) -> keywords_only (map (fun kv => (Some (fst kv), snd kv)) kw) = Some kw.
Proof.
  induction kw as [|[k v] kw IH]; intros N; [reflexivity|]. cbn in N. inversion_clear N as [|? ? N1 N2]. cbn. rewrite (IH N2).
  destruct (existsb (String.eqb k) (map fst kw)) eqn:E; [|reflexivity]. apply existsb_exists in E as [x [X E]]. apply String.eqb_eq in E. now subst x.
Qed.
Definition as_items (a : list value) (kw : keywords) : list item := map (pair None) a ++ map (fun kv => (Some (fst kv), snd kv)) kw.
Lemma arguments_all a kw : NoDup (map fst kw) -> arguments (as_items a kw) = Some (a, kw).
Proof.
  intros N. unfold as_items. induction a as [|v a IH]. 2: { cbn. now rewrite IH. }
  cbn [map app]. assert (K := keywords_only_all kw N). destruct kw as [|[k v] kw]; [reflexivity|]. cbn [map fst snd] in *. cbn [arguments]. now rewrite K.
Qed.
Lemma ok_call f l a kw : identifier f -> Forall fine l -> map snd l = as_items a kw -> NoDup (map fst kw) ->
  ok (lit f ++ ["("%char] ++ join comma (map shown l) ++ [")"%char]) (VCall f a kw).
Proof.
  intros I F E N. unfold identifier in I. destruct (lit f) as [|c w] eqn:K; [destruct I|]. destruct I as [D [P NC]].
  assert (NC1 : name_char c = true). { cbn in NC. now apply andb_true_iff in NC as [NC _]. }
  destruct (identifier_facts c NC1 D) as [Q1 [Q2 Q3]].
  split. { exact (name_starts c _ NC1). } intros n rest L B. destruct n as [|n]; [cbn in L; lia|].
  rewrite !app_length in L. cbn [length] in L. assert (J := join_count l F).
  assert (W : word (((c :: w) ++ ["("%char] ++ join comma (map shown l) ++ [")"%char]) ++ rest) = (c :: w, "("%char :: join comma (map shown l) ++ ")"%char :: rest)).
  { rewrite <- !app_assoc. cbn [app]. rewrite app_comm_cons. apply word_app; [exact NC|reflexivity]. }
  split; [|rewrite W; exact I]. 
  set (whole := ((c :: w) ++ ["("%char] ++ join comma (map shown l) ++ [")"%char]) ++ rest) in *.
  assert (WH : exists r, whole = c :: r) by (eexists; reflexivity). assert (LEN : length l < length whole).
  { unfold whole. rewrite !app_length. cbn [length]. lia. } clearbody whole. destruct WH as [r ->].
  cbn [expression]. rewrite Q1, Q2, D, Q3, W.
  assert (IT := items_pieces ")" (or_intror eq_refl) n l F (pieces_small l n ltac:(lia)) (length (c :: r)) [] rest eq_refl LEN).
  cbn [app] in IT. rewrite IT, E, (arguments_all a kw N). rewrite <- K. unfold lit. now rewrite string_of_list_ascii_of_string.
Qed.
Lemma ok_root_module n : ok (root_module n) (VClass n).
Proof.
  unfold root_module. pose (p := (([] : text), repr_str n, (None, VStr n)) : piece).
  assert (F : Forall fine [p]). { constructor; [|constructor]. split; [reflexivity|]. apply reads_positional, ok_str. }
  change (repr_str n) with (join comma (map shown [p])). 
  split. { repeat split; discriminate. } intros m rest L B. destruct m as [|m]; [cbn in L; lia|].
  set (body := join comma (map shown [p])) in *. rewrite !app_length in L. cbn [length lit list_ascii_of_string] in L.
  assert (W : word ((lit "root_module[" ++ body ++ lit "]") ++ rest) = (lit "root_module", "["%char :: body ++ "]"%char :: rest)).
  { rewrite <- !app_assoc. exact (word_app (lit "root_module") "[" (body ++ "]"%char :: rest) eq_refl eq_refl). }
  split; [|rewrite W; exact I].
  assert (IT := fun n' H => items_pieces "]" (or_introl eq_refl) m [p] F (pieces_small [p] m ltac:(fold body; lia)) n' [] rest eq_refl H). fold body in IT. cbn [app] in IT.
  set (whole := (lit "root_module[" ++ body ++ lit "]") ++ rest) in *.
  assert (LEN : length [p] < length whole). { unfold whole. rewrite !app_length. cbn [length lit list_ascii_of_string]. lia. }
  assert (WH : exists r, whole = "r"%char :: r) by (eexists; reflexivity). clearbody whole body. destruct WH as [r ->].
  rewrite (expression_root _ _ _ W), (IT _ LEN). reflexivity.
Qed.

(** ** Values, keywords and calls *)
Definition piece_of (w t : text) (x : item) : piece := (w, t, x).
Lemma fine_positional w t v : whites w -> ok t v -> fine (piece_of w t (None, v)).
Proof. intros W H. split; [exact W|]. now apply reads_positional. Qed.
Lemma fine_keyword w k t v : whites w -> identifier k -> ok t v -> fine (piece_of w (lit k ++ ["="%char] ++ t) (Some k, v)).
Proof. intros W I H. split; [exact W|]. now apply reads_keyword. Qed.
Lemma plain_ok v : plain v -> ok (repr v) v.
Proof.
  induction v as [|b|z|s|n|l IH|f a kw IHa IHk] using value_induction; intros P.
  - exact ok_none.
  - exact (ok_bool b).
  - exact (ok_int z).
  - exact (ok_str s).
  - destruct P.
  - cbn [plain] in P. cbn [repr]. pose (ps := map (fun v => piece_of [] (repr v) (None, v)) l).
    assert (map repr l = map shown ps) as ->. { unfold ps. rewrite map_map. reflexivity. }
    apply ok_list.
    + unfold ps. clear ps. induction l as [|v l IHl]; [constructor|]. inversion_clear IH as [|? ? A B]. destruct P as [P1 P2].
      constructor; [|exact (IHl B P2)]. apply fine_positional; [reflexivity|exact (A P1)].
    + unfold ps. rewrite map_map. reflexivity.
  - cbn [plain] in P. destruct P as [F [Pa [Pk N]]]. cbn [repr].
    pose (ps := map (fun v => piece_of [] (repr v) (None, v)) a ++ map (fun kv => piece_of [] (lit (fst kv) ++ ["="%char] ++ repr (snd kv)) (Some (fst kv), snd kv)) kw).
    assert (map repr a ++ map (fun kv => lit (fst kv) ++ ["="%char] ++ repr (snd kv)) kw = map shown ps) as ->.
    { unfold ps. rewrite map_app, !map_map. reflexivity. }
    apply ok_call; [exact F| | |exact N].
    + unfold ps. clear ps N. apply Forall_app. split.
      * clear IHk Pk. induction a as [|v a IHl]; [constructor|]. inversion_clear IHa as [|? ? A B]. destruct Pa as [P1 P2].
        constructor; [|exact (IHl B P2)]. apply fine_positional; [reflexivity|exact (A P1)].
      * clear IHa Pa. induction kw as [|[k v] kw IHl]; [constructor|]. inversion_clear IHk as [|? ? A B]. destruct Pk as [I [P1 P2]].
        constructor; [|exact (IHl B P2)]. apply fine_keyword; [reflexivity|exact I|exact (A P1)].
    + unfold ps, as_items. rewrite map_app, !map_map. reflexivity.
Qed.
Lemma ok_classes l : Forall is_class l -> ok (lit "[" ++ join comma (map in_root_module l) ++ lit "]") (VList l).
Proof.
  intros F. pose (ps := map (fun v => piece_of [] (in_root_module v) (None, v)) l).
  assert (map in_root_module l = map shown ps) as ->. { unfold ps. rewrite map_map. reflexivity. }
  apply (ok_list ps l).
  - unfold ps. apply Forall_forall. intros p P. apply in_map_iff in P as [v [<- V]]. destruct (proj1 (Forall_forall _ _) F v V) as [n ->].
    apply fine_positional; [reflexivity|exact (ok_root_module n)].
  - unfold ps. rewrite map_map. reflexivity.
Qed.
Lemma writable_reads kv w : whites w -> writable kv -> fine (piece_of w (pygen_kwarg kv) (Some (fst kv), snd kv)).
Proof.
  destruct kv as [k v]. intros W [I P]. cbn [fst snd] in *. unfold pygen_kwarg. apply fine_keyword; [exact W|exact I|].
  destruct P as [[P NL]|[[n ->]|[T [l [-> C]]]]].
  - destruct v as [|b|z|s|n|l|f a kw]; try exact (plain_ok _ P). { destruct P. }
    destruct (String.eqb k "throw") eqn:E1. { apply String.eqb_eq in E1. now destruct (NL (or_introl E1) l). }
    destruct (String.eqb k "parent") eqn:E2. { apply String.eqb_eq in E2. now destruct (NL (or_intror E2) l). }
    exact (plain_ok _ P).
  - exact (ok_root_module n).
  - assert (String.eqb k "throw" || String.eqb k "parent" = true) as ->. { destruct T as [->| ->]; reflexivity. } exact (ok_classes l C).
Qed.
Lemma insert_permutation x l : Permutation (insert x l) (x :: l).
Proof. induction l as [|y l IH]; [reflexivity|]. cbn. destruct (String.leb (fst x) (fst y)); [reflexivity|]. rewrite IH. apply perm_swap. Qed.
Lemma sorted_permutation l : Permutation (sorted l) l.
Proof. induction l as [|x l IH]; [reflexivity|]. cbn. rewrite insert_permutation. now rewrite IH. Qed.
Lemma sorted_writable l : Forall writable l -> Forall writable (sorted l).
Proof. intros F. apply Forall_forall. intros x X. apply (proj1 (Forall_forall _ _) F). exact (Permutation_in _ (sorted_permutation l) X). Qed.
Lemma sorted_distinct l : NoDup (map fst l) -> NoDup (map fst (sorted l)).
Proof. intros N. refine (Permutation_NoDup _ N). apply Permutation_map. symmetry. apply sorted_permutation. Qed.

(* positional texts, and keywords, each after some white space *)
Definition positional := (text * text * value)%type.
Definition pos_text (p : positional) : text := fst (fst p) ++ snd (fst p).
Lemma call_text f (ps : list positional) (ws : list text) kwargs :
  identifier f -> Forall (fun p => whites (fst (fst p)) /\ ok (snd (fst p)) (snd p)) ps -> Forall whites ws -> length ws = length kwargs ->
  Forall writable kwargs -> NoDup (map fst kwargs) ->
  ok (lit f ++ ["("%char] ++ join comma (map pos_text ps ++ map (fun x => fst x ++ snd x) (combine ws (map pygen_kwarg kwargs))) ++ [")"%char]) (VCall f (map snd ps) kwargs).
Proof.
  intros I F W L K N.
  pose (l := map (fun p : positional => piece_of (fst (fst p)) (snd (fst p)) (None, snd p)) ps ++
             map (fun x => piece_of (fst x) (pygen_kwarg (snd x)) (Some (fst (snd x)), snd (snd x))) (combine ws kwargs)).
  assert (map pos_text ps ++ map (fun x => fst x ++ snd x) (combine ws (map pygen_kwarg kwargs)) = map shown l) as ->.
  { unfold l. rewrite map_app, !map_map. f_equal. clear - L. revert kwargs L. induction ws as [|w ws IH]; intros [|k kw] L; try discriminate L; [reflexivity|].
    cbn in L. injection L as L. cbn [combine map]. apply f_equal2; [reflexivity|exact (IH kw L)]. }
  apply ok_call; [exact I| | |exact N]; unfold l; clear l.
  - apply Forall_app. split.
    + apply Forall_forall. intros p P. apply in_map_iff in P as [q [<- Q]]. destruct (proj1 (Forall_forall _ _) F q Q). now apply fine_positional.
    + apply Forall_forall. intros p P. apply in_map_iff in P as [[w kv] [<- Q]]. cbn [fst snd]. apply writable_reads.
      * apply (proj1 (Forall_forall _ _) W). exact (in_combine_l _ _ _ _ Q).
      * apply (proj1 (Forall_forall _ _) K). exact (in_combine_r _ _ _ _ Q).
  - unfold as_items. rewrite map_app, !map_map. f_equal. clear - L. revert kwargs L. induction ws as [|w ws IH]; intros [|k kw] L; try discriminate L; [reflexivity|].
    cbn in L. injection L as L. cbn [combine map]. apply f_equal2; [reflexivity|exact (IH kw L)].
Qed.
Lemma no_whites (l : list text) : map (fun x => fst x ++ snd x) (combine (map (fun _ => []) l) l) = l.
Proof. induction l as [|t l IH]; [reflexivity|]. cbn. now rewrite IH. Qed.
Lemma ok_args f args kwargs : identifier f -> good (args, kwargs) ->
  ok (lit f ++ ["("%char] ++ pygen_args_kwargs args kwargs ++ [")"%char]) (VCall f args (sorted kwargs)).
Proof.
  intros I [A [K N]]. cbn [fst snd] in *. unfold pygen_args_kwargs, pygen_kwargs.
  assert (H := call_text f (map (fun v => ([], repr v, v)) args) (map (fun _ => []) (map pygen_kwarg (sorted kwargs))) (sorted kwargs) I).
  rewrite no_whites in H. rewrite !map_map in H. cbn [snd] in H. rewrite map_id in H. apply H.
  - apply Forall_forall. intros p P. apply in_map_iff in P as [v [<- V]]. split; [reflexivity|]. apply plain_ok. exact (proj1 (Forall_forall _ _) A v V).
  - apply Forall_forall. intros w X. apply in_map_iff in X as [? [<- _]]. reflexivity.
  - now rewrite map_length.
  - now apply sorted_writable.
  - now apply sorted_distinct.
Qed.
Lemma identifier_param : identifier "param". Proof. repeat split. Qed.
Lemma identifier_retval : identifier "retval". Proof. repeat split. Qed.
Lemma param_ok spec : good spec -> exists v, ok (pygen_param spec) v /\ stands_for "param" v spec.
Proof.
  destruct spec as [args kwargs]. intros G. exists (VCall "param" args (sorted kwargs)). split.
  - exact (ok_args "param" args kwargs identifier_param G).
  - exists (sorted kwargs). split; [now left|apply sorted_permutation].
Qed.
Lemma retval_ok spec : good spec -> (exists s, fst spec = [VStr s]) -> exists v, ok (pygen_retval spec) v /\ stands_for "retval" v spec.
Proof.
  destruct spec as [args kwargs]. intros G [s E]. cbn in E. subst args. destruct kwargs as [|kv kwargs].
  - exists (VStr s). split; [exact (ok_str s)|]. exists []. split; [|constructor]. right. split; [reflexivity|]. split; [reflexivity|]. now exists s.
  - exists (VCall "retval" [VStr s] (sorted (kv :: kwargs))). split; [exact (ok_args "retval" _ _ identifier_retval G)|].
    exists (sorted (kv :: kwargs)). split; [now left|apply sorted_permutation].
Qed.
Lemma params_ok specs : Forall good specs -> exists vs, ok (pygen_params specs) (VList vs) /\ Forall2 (stands_for "param") vs specs.
Proof.
  intros F. assert (H : exists ps : list (text * value), map fst ps = map pygen_param specs /\ Forall (fun p => ok (fst p) (snd p)) ps /\ Forall2 (stands_for "param") (map snd ps) specs).
  { induction F as [|s l G F IH]. { exists []. repeat split; constructor. }
    destruct IH as [ps [E [O S]]]. destruct (param_ok s G) as [v [V W]]. exists ((pygen_param s, v) :: ps).
    split; [cbn; now rewrite E|]. split; constructor; assumption. }
  destruct H as [ps [E [O S]]]. exists (map snd ps). split; [|exact S]. unfold pygen_params. rewrite <- E.
  pose (l := map (fun p => piece_of [] (fst p) (None, snd p)) ps). assert (map fst ps = map shown l) as ->. { unfold l. rewrite map_map. reflexivity. }
  apply (ok_list l (map snd ps)).
  - unfold l. apply Forall_forall. intros p P. apply in_map_iff in P as [q [<- Q]]. apply fine_positional; [reflexivity|]. exact (proj1 (Forall_forall _ _) O q Q).
  - unfold l. rewrite !map_map. reflexivity.
Qed.
Definition indentation (n : nat) : text := newline :: repeat " "%char n.
Lemma whites_indentation n : whites (indentation n).
Proof. unfold whites, indentation. cbn. induction n; [reflexivity|exact IHn]. Qed.
Lemma on_new_line_whites n l : exists ws, Forall whites ws /\ length ws = length l /\ on_new_line n l = map (fun x => fst x ++ snd x) (combine ws l).
Proof.
  destruct l as [|t l]. { exists []. repeat split; constructor. }
  exists (indentation n :: map (fun _ => []) l). split; [|split].
  - constructor; [apply whites_indentation|]. apply Forall_forall. intros w X. apply in_map_iff in X as [? [<- _]]. reflexivity.
  - cbn. now rewrite map_length.
  - unfold on_new_line, new_line. cbn [combine map fst snd]. now rewrite no_whites.
Qed.
Lemma line_calls f (ps : list positional) kwargs (texts : list text) ws :
  identifier f -> Forall (fun p => whites (fst (fst p)) /\ ok (snd (fst p)) (snd p)) ps -> Forall writable kwargs -> NoDup (map fst kwargs) ->
  Forall whites ws -> length ws = length (pygen_kwargs kwargs) -> texts = map pos_text ps ++ map (fun x => fst x ++ snd x) (combine ws (pygen_kwargs kwargs)) ->
  calls (lit f ++ ["("%char] ++ join comma texts ++ [")"%char]) f (map snd ps) (sorted kwargs).
Proof.
  intros I F K N W L ->. unfold pygen_kwargs in L. rewrite map_length in L.
  destruct (call_text f ps ws (sorted kwargs) I F W L (sorted_writable _ K) (sorted_distinct _ N)) as [_ H].
  unfold calls, pygen_kwargs. set (t := lit f ++ _) in *. destruct (H (length t) [] (le_n _) Logic.I) as [E _]. now rewrite app_nil_r in E.
Qed.
Lemma function_line name retval params kwargs f n :
  identifier f -> good retval -> (exists s, fst retval = [VStr s]) -> Forall good params -> Forall writable kwargs -> NoDup (map fst kwargs) ->
  exists r ps kw,
    calls (lit f ++ ["("%char] ++ join comma (repr_str name :: new_line n (pygen_retval retval) :: new_line n (pygen_params params) :: on_new_line n (pygen_kwargs kwargs)) ++ [")"%char])
      f [VStr name; r; VList ps] kw /\
    stands_for "retval" r retval /\ Forall2 (stands_for "param") ps params /\ Permutation kw kwargs.
Proof.
  intros I G S GP K N. destruct (retval_ok retval G S) as [r [R1 R2]]. destruct (params_ok params GP) as [ps [P1 P2]].
  exists r, ps, (sorted kwargs). split; [|split; [exact R2|split; [exact P2|apply sorted_permutation]]].
  destruct (on_new_line_whites n (pygen_kwargs kwargs)) as [ws [W [L E]]]. rewrite E.
  apply (line_calls f [([], repr_str name, VStr name); (indentation n, pygen_retval retval, r); (indentation n, pygen_params params, VList ps)] kwargs _ ws I); try assumption.
  - apply Forall_cons; [split; [reflexivity|apply ok_str]|]. apply Forall_cons; [split; [apply whites_indentation|exact R1]|].
    apply Forall_cons; [split; [apply whites_indentation|exact P1]|]. constructor.
  - reflexivity.
Qed.
Lemma constructor_line params kwargs : Forall good params -> Forall writable kwargs -> NoDup (map fst kwargs) ->
  exists ps kw, calls (add_constructor_line params kwargs) "cls.add_constructor" [VList ps] kw /\ Forall2 (stands_for "param") ps params /\ Permutation kw kwargs.
Proof.
  intros GP K N. destruct (params_ok params GP) as [ps [P1 P2]]. exists ps, (sorted kwargs). split; [|split; [exact P2|apply sorted_permutation]].
  destruct (on_new_line_whites 20 (pygen_kwargs kwargs)) as [ws [W [L E]]]. unfold add_constructor_line. rewrite E.
  apply (line_calls "cls.add_constructor" [([], pygen_params params, VList ps)] kwargs (pygen_params params :: map (fun x => fst x ++ snd x) (combine ws (pygen_kwargs kwargs))) ws); try assumption.
  - repeat split.
  - apply Forall_cons; [split; [reflexivity|exact P1]|constructor].
  - reflexivity.
Qed.
Lemma class_line name kwargs : Forall writable kwargs -> NoDup (map fst kwargs) ->
  exists kw, calls (add_class_line name kwargs) "module.add_class" [VStr name] kw /\ Permutation kw kwargs.
Proof.
  intros K N. exists (sorted kwargs). split; [|apply sorted_permutation]. unfold add_class_line.
  apply (line_calls "module.add_class" [([], repr_str name, VStr name)] kwargs (repr_str name :: pygen_kwargs kwargs) (map (fun _ => []) (pygen_kwargs kwargs))); try assumption.
  - repeat split.
  - apply Forall_cons; [split; [reflexivity|apply ok_str]|constructor].
  - apply Forall_forall. intros w X. apply in_map_iff in X as [? [<- _]]. reflexivity.
  - now rewrite map_length.
  - cbn [map app]. now rewrite no_whites.
Qed.
Lemma attribute_line static name spec is_const : good spec -> (exists s, fst spec = [VStr s]) ->
  exists r, calls (add_attribute_line static name spec is_const) (if static then "cls.add_static_attribute" else "cls.add_instance_attribute")
    [VStr name; r] [("is_const", VBool is_const)] /\ stands_for "retval" r spec.
Proof.
  intros G S. destruct (retval_ok spec G S) as [r [R1 R2]]. exists r. split; [|exact R2].
  assert (C : forall f, identifier f -> calls (lit f ++ ["("%char] ++ join comma [repr_str name; pygen_retval spec; lit "is_const=" ++ repr (VBool is_const)] ++ [")"%char])
    f [VStr name; r] [("is_const", VBool is_const)]).
  { intros f I. apply (line_calls f [([], repr_str name, VStr name); ([], pygen_retval spec, r)] [("is_const", VBool is_const)] _ [[]] I).
    - apply Forall_cons; [split; [reflexivity|apply ok_str]|]. apply Forall_cons; [split; [reflexivity|exact R1]|constructor].
    - apply Forall_cons; [|constructor]. split; [repeat split|]. left. split; [exact Logic.I|]. intros [H|H]; discriminate H.
    - cbn. constructor; [intros []|constructor].
    - constructor; [reflexivity|constructor].
    - reflexivity.
    - reflexivity. }
  unfold add_attribute_line. destruct static.
  - assert (H := C "cls.add_static_attribute" ltac:(repeat split)). change (lit "cls.add_static_attribute(") with (lit "cls.add_static_attribute" ++ ["("%char]). change (lit ")") with [")"%char].
    rewrite <- ?app_assoc in *. cbn [join] in H. rewrite <- ?app_assoc in *. match goal with |- ?goal => let have := type of H in constr_eq goal have end. exact H.
  - assert (H := C "cls.add_instance_attribute" ltac:(repeat split)). change (lit "cls.add_instance_attribute(") with (lit "cls.add_instance_attribute" ++ ["("%char]). change (lit ")") with [")"%char].
    rewrite <- ?app_assoc in *. cbn [join] in H. rewrite <- ?app_assoc in *. match goal with |- ?goal => let have := type of H in constr_eq goal have end. exact H.
Qed.
