(** Proofs for C20. *)
From Verif.Model Require Import Py PyState Errors Overloading.
From Verif.Spec Require Import OverloadSpec.
From Coq Require Import Lia Sorting.Permutation Sorting.Sorted.
Open Scope string_scope.
Open Scope list_scope.

Lemma subset_spec a b : subset a b = true <-> (forall x, In x a -> In x b).
Proof.
  unfold subset. rewrite forallb_forall. split.
  - intros H x I. specialize (H x I). apply existsb_exists in H. destruct H as (y & J & E). apply String.eqb_eq in E. now subst.
  - intros H x I. apply existsb_exists. exists x. split; [auto|apply String.eqb_refl].
Qed.
Lemma set_eq_spec a b : set_eq a b = true <-> same_flags a b.
Proof.
  unfold set_eq, same_flags. rewrite andb_true_iff, !subset_spec. split; [intros [A B] x; split; auto|].
  intros H. split; intros x I; now apply H.
Qed.
Lemma set_eq_neg a b : set_eq a b = false <-> ~ same_flags a b.
Proof. rewrite <- set_eq_spec. destruct (set_eq a b); split; try congruence; try discriminate; intros H; now destruct H. Qed.

Lemma is_instance_in e l : is_instance e l = true <-> In e l.
Proof.
  unfold is_instance. rewrite existsb_exists. split.
  - intros (x & I & E). destruct (exc_eq_dec e x); [now subst|discriminate].
  - intros I. exists e. split; [exact I|]. now destruct (exc_eq_dec e e).
Qed.

(** ** A pass *)
Inductive fine : option (list string) -> list fwrapper -> option (list string) -> Prop :=
| fi_nil : forall ex, fine ex [] ex
| fi_first : forall w f ws ex, fw_body w true = Ok f -> fine (Some f) ws ex -> fine None (w :: ws) ex
| fi_same : forall w f g ws ex, fw_body w true = Ok f -> same_flags f g -> fine (Some g) ws ex -> fine (Some g) (w :: ws) ex.

Definition bad (ex : option (list string)) (w : fwrapper) : Prop :=
  (exists e, fw_body w true = Err e) \/ exists f g, ex = Some g /\ fw_body w true = Ok f /\ ~ same_flags f g.
Definition bad_reports (w : fwrapper) : list (nat * pyexc) :=
  match fw_body w true with Err e => [(fw_id w, e); (fw_id w, SkipWrapper)] | Ok _ => [(fw_id w, SkipWrapper)] end.

Lemma fine_survive ex a ex' b ks : fine ex a ex' -> survive ex' b ks -> survive ex (a ++ b) (a ++ ks).
Proof. induction 1; cbn [app]; intros V; [exact V|eapply sv_first; eauto|eapply sv_same; eauto]. Qed.
Lemma fine_survive_inv ex a ex' : fine ex a ex' -> forall b ks, survive ex (a ++ b) ks -> exists k, ks = a ++ k /\ survive ex' b k.
Proof.
  induction 1 as [ex|w f ws ex B H IH|w f g ws ex B E H IH]; intros b ks S; cbn [app] in *; [eauto|..];
    inversion S; subst; try congruence.
  - assert (f0 = f) by congruence. subst f0.
    match goal with X : survive _ (_ ++ _) _ |- _ => destruct (IH _ _ X) as (k & -> & K) end. eauto.
  - match goal with X : survive _ (_ ++ _) _ |- _ => destruct (IH _ _ X) as (k & -> & K) end. eauto.
Qed.
Lemma fine_reports ex a ex' b l : fine ex a ex' -> reports ex' b l -> reports ex (a ++ b) l.
Proof. induction 1; cbn [app]; intros V; [exact V|eapply rp_first; eauto|eapply rp_same; eauto]. Qed.
Lemma fine_reports_inv ex a ex' : fine ex a ex' -> forall b l, reports ex (a ++ b) l -> reports ex' b l.
Proof.
  induction 1 as [ex|w f ws ex B H IH|w f g ws ex B E H IH]; intros b l S; cbn [app] in *; [exact S|..];
    inversion S; subst; try congruence.
  - assert (f0 = f) by congruence. subst f0. auto.
  - auto.
Qed.
Lemma bad_survive ex w b ks : bad ex w -> survive ex b ks -> survive ex (w :: b) ks.
Proof. intros [(e & E)|(f & g & -> & E & N)] S; [eapply sv_fail; eauto|eapply sv_differs; eauto]. Qed.
Lemma bad_reported ex w b l : bad ex w -> reports ex b l -> reports ex (w :: b) (bad_reports w ++ l).
Proof.
  unfold bad_reports. intros [(e & E)|(f & g & -> & E & N)] S; rewrite E; [eapply rp_fail; eauto|eapply rp_differs; eauto].
Qed.

Section S.
  Context {S : Type} (note : nat -> pyexc -> S -> S) (write : chunk -> S -> S).
  Definition notes (l : list (nat * pyexc)) (s : S) : S := fold_left (fun s x => note (fst x) (snd x) s) l s.

  (** What happens to one wrapper. *)
  Lemma pass_cases p ws : forall ex seen s,
    (exists ex', fine ex ws ex' /\ normalize_pass note p ex seen (map force ws) s = (s, Ok (rev seen ++ map force ws, false))) \/
    (exists a w b ex' s', ws = a ++ w :: b /\ fine ex a ex' /\ bad ex' w /\
      (forall h, p = Some h -> accepts h [w] -> s' = notes (bad_reports w) s) /\
      normalize_pass note p ex seen (map force ws) s = (s', Ok (rev seen ++ map force (a ++ b), true))) \/
    (exists w e s', In w ws /\ rejects p w e /\ normalize_pass note p ex seen (map force ws) s = (s', Err e)).
  Proof.
    induction ws as [|w ws IH]; intros ex seen s; cbn [map normalize_pass].
    { left. exists ex. split; [constructor|]. unfold ret. now rewrite app_nil_r. }
    change (get_flags (force w)) with (fw_body w true). change (fw_id (force w)) with (fw_id w).
    assert (NEXT : forall f ex1, fw_body w true = Ok f -> (ex = None /\ ex1 = Some f \/ exists g, ex = Some g /\ same_flags f g /\ ex1 = Some g) ->
      forall k, k = normalize_pass note p ex1 (force w :: seen) (map force ws) s ->
      (exists ex', fine ex (w :: ws) ex' /\ k = (s, Ok (rev seen ++ map force (w :: ws), false))) \/
      (exists a w0 b ex' s', w :: ws = a ++ w0 :: b /\ fine ex a ex' /\ bad ex' w0 /\
        (forall h, p = Some h -> accepts h [w0] -> s' = notes (bad_reports w0) s) /\
        k = (s', Ok (rev seen ++ map force (a ++ b), true))) \/
      (exists w0 e s', In w0 (w :: ws) /\ rejects p w0 e /\ k = (s', Err e))).
    { intros f ex1 B X k ->.
      assert (F : forall l ex', fine ex1 l ex' -> fine ex (w :: l) ex').
      { intros l ex' H. destruct X as [[-> ->]|(g & -> & Q & ->)]; [eapply fi_first; eauto|eapply fi_same; eauto]. }
      destruct (IH ex1 (force w :: seen) s) as [(ex' & H & ->)|[(a & w0 & b & ex' & s' & -> & H & Bd & N & ->)|(w0 & e & s' & I & R & ->)]].
      - left. exists ex'. split; [now apply F|]. cbn [rev map]. rewrite <- app_assoc. reflexivity.
      - right. left. exists (w :: a), w0, b, ex', s'. split; [reflexivity|]. split; [now apply F|]. split; [exact Bd|]. split; [exact N|].
        cbn [rev map app]. rewrite <- app_assoc. reflexivity.
      - right. right. exists w0, e, s'. split; [now right|]. auto. }
    unfold sbind at 1. unfold try_except, sbind at 1. unfold call_with_error_handling, report, try_except, handle_error, sbind, modify, lift, ret, raise.
    destruct (fw_body w true) as [f|e] eqn:B.
    - (* generated *)
      assert (R : forall X : S * res (list string), X = (s, Ok f) ->
         forall K : S * res (list fwrapper * bool),
         K = match ex with
             | Some ex0 => if set_eq f ex0 then normalize_pass note p ex (force w :: seen) (map force ws) s
                           else match (match p with Some h => match h (fw_id w) SkipWrapper with Ok _ => (note (fw_id w) SkipWrapper s, Ok tt) | Err e => (note (fw_id w) SkipWrapper s, Err e) end | None => (s, Err AttributeError) end) with
                                | (s', Ok _) => (s', Ok (rev seen ++ map force ws, true))
                                | (s', Err e) => (s', Err e) end
             | None => normalize_pass note p (Some f) (force w :: seen) (map force ws) s
             end ->
         (exists ex', fine ex (w :: ws) ex' /\ K = (s, Ok (rev seen ++ map force (w :: ws), false))) \/
         (exists a w0 b ex' s', w :: ws = a ++ w0 :: b /\ fine ex a ex' /\ bad ex' w0 /\
           (forall h, p = Some h -> accepts h [w0] -> s' = notes (bad_reports w0) s) /\
           K = (s', Ok (rev seen ++ map force (a ++ b), true))) \/
         (exists w0 e s', In w0 (w :: ws) /\ rejects p w0 e /\ K = (s', Err e))).
      { intros _ _ K ->. destruct ex as [g|].
        - destruct (set_eq f g) eqn:Q.
          + apply set_eq_spec in Q. eapply NEXT; [reflexivity| |reflexivity]. right. eauto.
          + apply set_eq_neg in Q. destruct p as [h|].
            * destruct (h (fw_id w) SkipWrapper) as [b|e] eqn:H.
              -- right. left. exists [], w, ws, (Some g), (note (fw_id w) SkipWrapper s). split; [reflexivity|]. split; [constructor|].
                 split; [right; eauto 6|]. split; [|reflexivity]. intros h' _ _. unfold bad_reports. rewrite B. reflexivity.
              -- right. right. exists w, e, (note (fw_id w) SkipWrapper s). split; [now left|]. split; [|reflexivity].
                 right. exists SkipWrapper. auto.
            * right. right. exists w, AttributeError, s. split; [now left|]. split; [now right|reflexivity].
        - eapply NEXT; [reflexivity| |reflexivity]. now left. }
      apply (R (s, Ok f) eq_refl). destruct p as [h|]; [|destruct ex as [g|]; [destruct (set_eq f g)|]; reflexivity].
      destruct ex as [g|]; [|reflexivity]. destruct (set_eq f g); [reflexivity|].
      destruct (h (fw_id w) SkipWrapper); reflexivity.
    - destruct p as [h|].
      + destruct (is_instance e generation_errors) eqn:HI.
        * apply is_instance_in in HI.
          destruct (h (fw_id w) e) as [[|]|e'] eqn:H.
          -- destruct (exc_eq_dec SkipWrapper SkipWrapper) as [_|Q]; [|now destruct Q].
             destruct (h (fw_id w) SkipWrapper) as [b|e'] eqn:H2.
             ++ right. left. exists [], w, ws, ex, (note (fw_id w) SkipWrapper (note (fw_id w) e s)). split; [reflexivity|]. split; [constructor|].
                split; [left; eauto|]. split; [|reflexivity]. intros h' _ _. unfold bad_reports. rewrite B. reflexivity.
             ++ right. right. exists w, e', (note (fw_id w) SkipWrapper (note (fw_id w) e s)). split; [now left|]. split; [|reflexivity]. right. eauto.
          -- destruct (exc_eq_dec e SkipWrapper) as [->|NE]; [exfalso; repeat (destruct HI as [HI|HI]; [discriminate HI|]); exact HI|].
             right. right. exists w, e, (note (fw_id w) e s). split; [now left|]. split; [|reflexivity]. left. auto.
          -- destruct (exc_eq_dec e' SkipWrapper) as [->|NE].
             ++ destruct (h (fw_id w) SkipWrapper) as [b|e2] eqn:H2.
                ** right. left. exists [], w, ws, ex, (note (fw_id w) SkipWrapper (note (fw_id w) e s)). split; [reflexivity|]. split; [constructor|].
                   split; [left; eauto|]. split; [|reflexivity]. intros h' _ _. unfold bad_reports. rewrite B. reflexivity.
                ** right. right. exists w, e2, (note (fw_id w) SkipWrapper (note (fw_id w) e s)). split; [now left|]. split; [|reflexivity]. right. eauto.
             ++ right. right. exists w, e', (note (fw_id w) e s). split; [now left|]. split; [|reflexivity]. right. eauto.
        * destruct (exc_eq_dec e SkipWrapper) as [->|NE].
          -- destruct (h (fw_id w) SkipWrapper) as [b|e2] eqn:H2.
             ++ right. left. exists [], w, ws, ex, (note (fw_id w) SkipWrapper s). split; [reflexivity|]. split; [constructor|].
                split; [left; eauto|]. split; [|reflexivity]. intros h' _ AC. exfalso.
                destruct (AC w (or_introl eq_refl)) as [X _]. destruct (X _ B) as [Y _].
                repeat (destruct Y as [Y|Y]; [discriminate Y|]); exact Y.
             ++ right. right. exists w, e2, (note (fw_id w) SkipWrapper s). split; [now left|]. split; [|reflexivity]. right. eauto.
          -- right. right. exists w, e, s. split; [now left|]. split; [|reflexivity]. left. split; [exact B|]. split; [exact NE|]. left.
             intros X. apply is_instance_in in X. unfold generation_errors in HI. congruence.
      + destruct (exc_eq_dec e SkipWrapper) as [->|NE].
        * right. right. exists w, AttributeError, s. split; [now left|]. split; [now right|reflexivity].
        * right. right. exists w, e, s. split; [now left|]. split; [now left|reflexivity].
  Qed.

  Lemma fine_all ex ws ex' : fine ex ws ex' -> survive ex ws ws /\ reports ex ws [].
  Proof.
    intros F. split.
    - rewrite <- (app_nil_r ws). eapply fine_survive; [exact F|constructor].
    - rewrite <- (app_nil_r ws). eapply fine_reports; [exact F|constructor].
  Qed.

  Lemma accepts_in h ws w : accepts h ws -> In w ws -> accepts h [w].
  Proof. intros A I u [<-|[]]. now apply A. Qed.

  Lemma loop_ok p fuel : forall ws s, length ws < fuel ->
    (exists ks s', survive None ws ks /\ normalize_loop note p fuel (map force ws) s = (s', Ok (map force ks)) /\
       forall h, p = Some h -> accepts h ws -> exists l, reports None ws l /\ s' = notes l s) \/
    (exists w e s', In w ws /\ rejects p w e /\ normalize_loop note p fuel (map force ws) s = (s', Err e)).
  Proof.
    induction fuel as [|fuel IH]; intros ws s L; [lia|]. cbn [normalize_loop]. unfold sbind.
    destruct (pass_cases p ws None [] s) as [(ex' & F & ->)|[(a & w & b & ex' & s1 & -> & F & Bd & N & ->)|(w & e & s' & I & R & ->)]].
    - left. exists ws, s. cbn [fst snd rev app]. split; [apply (fine_all _ _ _ F)|]. split; [reflexivity|]. intros h _ _. exists [].
      split; [apply (fine_all _ _ _ F)|reflexivity].
    - cbn [fst snd rev app]. destruct (IH (a ++ b) s1) as [(ks & s' & Sv & -> & Rp)|(w0 & e & s' & I & R & ->)].
      + rewrite app_length in *. cbn [length] in L. lia.
      + left. exists ks, s'. destruct (fine_survive_inv _ _ _ F _ _ Sv) as (k & -> & K). split; [|split; [reflexivity|]].
        * eapply fine_survive; [exact F|]. now apply bad_survive.
        * intros h -> AC. destruct (Rp h eq_refl) as (l & RL & ->).
          { intros u I. apply AC. apply in_app_iff in I. apply in_app_iff. destruct I; [now left|right; now right]. }
          exists (bad_reports w ++ l). split.
          -- eapply fine_reports; [exact F|]. apply bad_reported; [exact Bd|]. eapply fine_reports_inv; eauto.
          -- unfold notes. rewrite fold_left_app. f_equal. unfold notes in N. apply (N h); [reflexivity|]. apply (accepts_in _ _ _ AC).
             apply in_app_iff. right. now left.
      + right. exists w0, e, s'. split; [|split; [exact R|reflexivity]]. apply in_app_iff in I. apply in_app_iff. destruct I; [now left|right; now right].
    - right. exists w, e, s'. auto.
  Qed.

  Theorem normalize_cases p ws s : length ws <> 1 ->
    (exists ks s', survive None ws ks /\ normalize_flags note p ws s = (s', Ok (map force ks)) /\
       forall h, p = Some h -> accepts h ws -> exists l, reports None ws l /\ s' = notes l s) \/
    (exists w e s', In w ws /\ rejects p w e /\ normalize_flags note p ws s = (s', Err e)).
  Proof.
    intros L. unfold normalize_flags. destruct ws as [|w [|w' ws]]; [|now destruct L|].
    - left. exists [], s. split; [constructor|]. split; [reflexivity|]. intros h _ _. exists []. split; [constructor|reflexivity].
    - apply loop_ok. lia.
  Qed.

  Lemma accepts_not_rejects h ws w e : accepts h ws -> In w ws -> ~ rejects (Some h) w e.
  Proof.
    intros A I [(B & _ & R)|(e' & [B| ->] & R)].
    - destruct (proj1 (A w I) e B) as [X Y]. destruct R as [R|R]; [contradiction|congruence].
    - destruct (proj1 (A w I) e' B) as [X Y]. congruence.
    - destruct (proj2 (A w I)) as (b & X). congruence.
  Qed.

  (** ** Generation *)
  Definition writes (l : list chunk) (s : S) : S := fold_left (fun s c => write c s) l s.
  Lemma writes_app a b s : writes (a ++ b) s = writes b (writes a s).
  Proof. apply fold_left_app. Qed.

  Definition delegate_chunks (base : string) (n : nat) (ks : list fwrapper) : list chunk :=
    flat_map (fun x => [CBlank; CFunction (fst x) (snd x) true]) (numbered base n ks).

  Lemma force_force w : force (force w) = force w.
  Proof. reflexivity. Qed.

  Lemma delegates_ok p base ks : forall n s, (forall w, In w ks -> exists f, fw_body w true = Ok f) ->
    generate_delegates note write p base n (map force ks) s =
      (writes (delegate_chunks base n ks) s, Ok (map snd (numbered base n ks))).
  Proof.
    induction ks as [|w ks IH]; intros n s G; cbn [map generate_delegates]; [reflexivity|].
    destruct (G w (or_introl eq_refl)) as (f & B).
    assert (X : forall k, call_with_error_handling note p generation_errors k (generate_wrapper write (force (force w)) (actual_name (force w) (delegate_name base n)) true) (write CBlank s)
      = (write (CFunction (fw_id w) (actual_name w (delegate_name base n)) true) (write CBlank s), Ok tt)).
    { intros k. unfold call_with_error_handling, generate_wrapper, sbind, lift, try_except, modify.
      change (get_flags (force (force w))) with (fw_body w true). rewrite B. destruct p; reflexivity. }
    unfold sbind at 1. unfold modify at 1. unfold sbind at 1. unfold try_except at 1. unfold sbind at 1.
    rewrite X. unfold ret at 1. unfold sbind at 1.
    replace (n + 1) with (Datatypes.S n) by lia. rewrite IH by (intros u I; apply G; now right). unfold ret. reflexivity.
  Qed.

  Lemma survive_ok fl ws ks : survive fl ws ks -> forall w, In w ks -> exists f, fw_body w true = Ok f.
  Proof. induction 1; intros u [<-|I] || intros u I; eauto; destruct I. Qed.

  (** Everything generated for the survivors [ks]. *)
  Definition chunks_of (ks : list fwrapper) (kw : bool) : list chunk :=
    match ks with
    | [] => []
    | w :: r =>
        if match r with [] => negb (fw_needs_interface w) | _ => false end
        then [CFunction (fw_id w) (fw_base w) false]
        else delegate_chunks (fw_base w) 0 ks ++
             [CBlank; CAggregator (fw_base w) (map snd (numbered (fw_base w) 0 ks)) kw]
    end.
  Lemma chunks_functions ks kw : filter no_blank (chunks_of ks kw) = functions_of ks kw.
  Proof.
    unfold chunks_of, functions_of. destruct ks as [|w r]; [reflexivity|].
    destruct (match r with [] => negb (fw_needs_interface w) | _ => false end); [reflexivity|].
    rewrite filter_app. cbn [filter no_blank]. f_equal. unfold delegate_chunks.
    induction (numbered (fw_base w) 0 (w :: r)) as [|x l IH]; [reflexivity|]. cbn [flat_map app filter no_blank map]. now rewrite IH.
  Qed.

  Lemma numbered_nonempty base n w r : map snd (numbered base n (w :: r)) <> [].
  Proof. discriminate. Qed.

  (** Overload sets of other sizes than one. *)
  Theorem generate_many p ws ks s s' : length ws <> 1 -> normalize_flags note p ws s = (s', Ok (map force ks)) ->
    survive None ws ks ->
    match ks with
    | [] => generate_overload note write p ws s = (s', Err SkipWrapper)
    | w :: _ => exists f, fw_body w true = Ok f /\
        generate_overload note write p ws s =
          (writes (chunks_of ks (mem "METH_KEYWORDS" f)) s', Ok (map force ks, fw_base w))
    end.
  Proof.
    intros L N Sv.
    pose proof (survive_ok _ _ _ Sv) as G. destruct ks as [|w r]; [unfold generate_overload, sbind; now rewrite N|].
    destruct (G w (or_introl eq_refl)) as (f & B). exists f. split; [exact B|].
    unfold generate_overload. unfold sbind at 1. rewrite N. cbn [map].
    change (fw_needs_interface (force w)) with (fw_needs_interface w). change (fw_base (force w)) with (fw_base w).
    unfold chunks_of.
    assert (EQ : match map force r with [] => negb (fw_needs_interface w) | _ => false end = match r with [] => negb (fw_needs_interface w) | _ => false end)
      by (destruct r; reflexivity).
    rewrite EQ. destruct (match r with [] => negb (fw_needs_interface w) | _ => false end) eqn:X.
    - unfold call_with_error_handling, generate_wrapper, sbind, lift, try_except, modify.
      change (get_flags (force w)) with (fw_body w true). rewrite B. destruct p; reflexivity.
    - unfold sbind at 1. unfold lift. change (get_flags (force w)) with (fw_body w true). rewrite B.
      unfold sbind at 1. change (force w :: map force r) with (map force (w :: r)). rewrite (delegates_ok p (fw_base w) (w :: r) 0 s' G).
      destruct (map snd (numbered (fw_base w) 0 (w :: r))) as [|d ds] eqn:E; [now apply numbered_nonempty in E|].
      unfold sbind, modify, ret. rewrite writes_app. rewrite map_map. reflexivity.
  Qed.
End S.

(** Notes leave alone what they do not touch. *)
Section Inv.
  Context {S : Type} (note : nat -> pyexc -> S -> S) (P : S -> Prop) (HP : forall w e s, P s -> P (note w e s)).

  Lemma handling_inv {A} p l w (m : st S A) s : P s -> (P (fst (m s))) -> P (fst (call_with_error_handling note p l w m s)).
  Proof.
    intros H M. unfold call_with_error_handling. destruct p as [h|]; [|exact M]. unfold try_except.
    destruct (m s) as [s1 [a|e]]; [exact M|]. cbn [fst] in M. destruct (is_instance e l); [|exact M].
    unfold sbind, handle_error, sbind, modify, lift. destruct (h w e) as [[|]|]; cbn; auto.
  Qed.
  Lemma report_inv p w e s : P s -> P (fst (report note p w e s)).
  Proof. intros H. unfold report, handle_error, sbind, modify, lift, raise. destruct p as [h|]; [destruct (h w e); cbn; auto|exact H]. Qed.

  Lemma pass_inv p ws : forall ex seen s, P s -> P (fst (normalize_pass note p ex seen ws s)).
  Proof.
    induction ws as [|w ws IH]; intros ex seen s H; cbn [normalize_pass]; [exact H|].
    unfold sbind at 1. unfold try_except at 1. unfold sbind at 1.
    pose proof (handling_inv p generation_errors (fw_id w) (lift (get_flags w)) s H H) as X.
    destruct (call_with_error_handling note p generation_errors (fw_id w) (lift (get_flags w)) s) as [s1 [f|e]]; cbn [fst] in X.
    - unfold ret at 1. cbn [fst]. assert (Y : P (fst ((report note p (fw_id w) SkipWrapper;~ ret (rev seen ++ ws, true)) s1))).
      { pose proof (report_inv p (fw_id w) SkipWrapper s1 X) as Y. unfold sbind, ret.
        destruct (report note p (fw_id w) SkipWrapper s1) as [s2 [u|e2]]; exact Y. }
      destruct ex as [g|]; [destruct (set_eq f g)|]; auto.
    - destruct (exc_eq_dec e SkipWrapper); [|exact X]. pose proof (report_inv p (fw_id w) SkipWrapper s1 X) as Y. unfold sbind.
      destruct (report note p (fw_id w) SkipWrapper s1) as [s2 [u|e2]]; exact Y.
  Qed.
  Lemma loop_inv p fuel : forall ws s, P s -> P (fst (normalize_loop note p fuel ws s)).
  Proof.
    induction fuel as [|fuel IH]; intros ws s H; cbn [normalize_loop]; [exact H|]. unfold sbind.
    pose proof (pass_inv p ws None [] s H) as X. destruct (normalize_pass note p None [] ws s) as [s1 [[l b]|e]]; [|exact X].
    cbn [fst snd] in *. destruct b; [now apply IH|exact X].
  Qed.
  Lemma normalize_inv p ws s : P s -> P (fst (normalize_flags note p ws s)).
  Proof. intros H. unfold normalize_flags. destruct ws as [|w [|w' ws]]; [|exact H|]; now apply loop_inv. Qed.
End Inv.

(** ** The recording state *)
Lemma rec_notes l : forall s, notes rec_note l s = mk_record (rec_log s ++ l) (rec_out s).
Proof.
  unfold notes. induction l as [|x l IH]; intros [lg o]; cbn [fold_left rec_log rec_out]; [now rewrite app_nil_r|].
  rewrite IH. cbn [rec_note rec_log rec_out]. rewrite <- app_assoc. destruct x. reflexivity.
Qed.
Lemma rec_writes l : forall s, writes rec_write l s = mk_record (rec_log s) (rec_out s ++ l).
Proof.
  unfold writes. induction l as [|x l IH]; intros [lg o]; cbn [fold_left rec_log rec_out]; [now rewrite app_nil_r|].
  rewrite IH. cbn [rec_write rec_log rec_out]. rewrite <- app_assoc. reflexivity.
Qed.

(** With a handler that accepts, the survivors are generated as if nothing else had been declared. *)
Theorem generate_survivors h ws s : length ws <> 1 -> accepts h ws ->
  exists ks log, survive None ws ks /\ reports None ws log /\
  match ks with
  | [] => generate_overload rec_note rec_write (Some h) ws s = (mk_record (rec_log s ++ log) (rec_out s), Err SkipWrapper)
  | w :: _ => exists f new, fw_body w true = Ok f /\ filter no_blank new = functions_of ks (mem "METH_KEYWORDS" f) /\
      generate_overload rec_note rec_write (Some h) ws s =
        (mk_record (rec_log s ++ log) (rec_out s ++ new), Ok (map force ks, fw_base w))
  end.
Proof.
  intros L A. destruct (normalize_cases rec_note (Some h) ws s L) as [(ks & s' & Sv & N & R)|(w & e & s' & I & Rj & N)].
  - destruct (R h eq_refl A) as (log & Rp & ->). exists ks, log. split; [exact Sv|]. split; [exact Rp|].
    rewrite rec_notes in N. pose proof (generate_many rec_note rec_write (Some h) ws ks s _ L N Sv) as G.
    destruct ks as [|w r]; [exact G|]. destruct G as (f & B & G). exists f, (chunks_of (w :: r) (mem "METH_KEYWORDS" f)).
    split; [exact B|]. split; [apply chunks_functions|]. rewrite G, rec_writes. reflexivity.
  - exfalso. eapply accepts_not_rejects; eauto.
Qed.

(** Without, or with one that declines, the error comes out and nothing is written. *)
Theorem generate_rejected p ws s s' e : length ws <> 1 -> generate_overload rec_note rec_write p ws s = (s', Err e) ->
  (e = SkipWrapper /\ exists ks, survive None ws ks /\ ks = [] /\ rec_out s' = rec_out s) \/
  (exists w, In w ws /\ rejects p w e).
Proof.
  intros L G. destruct (normalize_cases rec_note p ws s L) as [(ks & s1 & Sv & N & R)|(w & e1 & s1 & I & Rj & N)].
  - pose proof (generate_many rec_note rec_write p ws ks s s1 L N Sv) as M. destruct ks as [|w r].
    + rewrite M in G. left. assert (s' = s1 /\ e = SkipWrapper) as [-> ->] by (split; congruence). split; [reflexivity|]. exists []. split; [exact Sv|].
      split; [reflexivity|]. pose proof (normalize_inv rec_note (fun x => rec_out x = rec_out s) (fun w e x X => X) p ws s eq_refl) as Y. now rewrite N in Y.
    + destruct M as (f & _ & M). rewrite M in G. discriminate.
  - right. exists w. split; [exact I|]. unfold generate_overload, sbind in G. rewrite N in G. congruence.
Qed.

(** ** The row of the method table *)
Lemma survive_fine fl ws ks : survive fl ws ks -> exists fl', fine fl ks fl'.
Proof.
  induction 1 as [fl|fl w e ws ks B H IH|w f ws ks B H (fl' & IH)|w f g ws ks B Q H (fl' & IH)|w f g ws ks B Q H IH]; eauto using fi_nil, fi_first, fi_same.
Qed.
Lemma fine_flags fl ws fl' : fine fl ws fl' -> forall g, fl = Some g -> forall w, In w ws -> exists f, fw_body w true = Ok f /\ same_flags f g.
Proof.
  induction 1 as [fl|w f ws ex B H IH|w f g ws ex B Q H IH]; intros g0 E u I; [destruct I|discriminate|].
  injection E as <-. destruct I as [<-|I]; [eauto|]. now apply (IH g).
Qed.

Lemma distinct_in x l : In x (distinct l) <-> In x l.
Proof.
  induction l as [|y l IH]; [tauto|]. cbn [distinct]. destruct (existsb (String.eqb y) l) eqn:X.
  - rewrite IH. split; [now right|]. intros [<-|I]; [|exact I]. apply existsb_exists in X. destruct X as (z & I & E). apply String.eqb_eq in E. now subst.
  - cbn [In]. now rewrite IH.
Qed.
Lemma distinct_nodup l : NoDup (distinct l).
Proof.
  induction l as [|y l IH]; [constructor|]. cbn [distinct]. destruct (existsb (String.eqb y) l) eqn:X; [exact IH|].
  constructor; [|exact IH]. rewrite distinct_in. intros I. assert (existsb (String.eqb y) l = true); [|congruence].
  apply existsb_exists. exists y. split; [exact I|apply String.eqb_refl].
Qed.

Definition docs (ks : list fwrapper) : list string := flat_map (fun w => match fw_doc w with Some d => [d] | None => [] end) ks.
Lemma docs_in ks d : In d (docs ks) <-> exists w, In w ks /\ fw_doc w = Some d.
Proof.
  unfold docs. rewrite in_flat_map. split; intros (w & I & H); exists w; (split; [exact I|]).
  - destruct (fw_doc w); [|destruct H]. destruct H as [->|[]]. reflexivity.
  - rewrite H. now left.
Qed.
Lemma docs_force ks : docs (map force ks) = docs ks.
Proof. unfold docs. induction ks as [|w ks IH]; [reflexivity|]. cbn [map flat_map]. now rewrite IH. Qed.
Lemma doc_cases ks :
  match distinct (docs ks) with
  | [] => common_doc ks None
  | [d] => common_doc ks (Some d)
  | _ => doc_conflict ks
  end.
Proof.
  pose proof (distinct_nodup (docs ks)) as ND.
  assert (I : forall d, In d (distinct (docs ks)) <-> exists w, In w ks /\ fw_doc w = Some d) by (intros d; rewrite distinct_in; apply docs_in).
  destruct (distinct (docs ks)) as [|d [|d2 l]].
  - intros w W. destruct (fw_doc w) as [d|] eqn:D; [|reflexivity]. exfalso. apply (I d). eauto.
  - split; [apply I; now left|]. intros w W. destruct (fw_doc w) as [d'|] eqn:D; [|now left]. right.
    assert (In d' [d]) as [<-|[]] by (apply I; eauto). reflexivity.
  - destruct (proj1 (I d) (or_introl eq_refl)) as (a & A1 & A2). destruct (proj1 (I d2) (or_intror (or_introl eq_refl))) as (b & B1 & B2).
    exists a, b, d, d2. split; [exact A1|]. split; [exact B1|]. split; [exact A2|]. split; [exact B2|]. intros ->. apply NoDup_cons_iff in ND. apply (proj1 ND). now left.
Qed.
Lemma common_doc_unique ks a b : common_doc ks a -> common_doc ks b -> a = b.
Proof.
  destruct a as [a|], b as [b|]; cbn; intros A B; try reflexivity.
  - destruct A as [(w & I & E) _]. destruct B as [_ B]. destruct (B w I); congruence.
  - destruct A as [(w & I & E) _]. rewrite (B w I) in E. discriminate.
  - destruct B as [(w & I & E) _]. rewrite (A w I) in E. discriminate.
Qed.
Lemma common_no_conflict ks a : common_doc ks a -> doc_conflict ks -> False.
Proof.
  intros A (u & v & s & t & U & V & E & F & N). destruct a as [a|]; cbn in A.
  - destruct A as [_ A]. destruct (A u U), (A v V); congruence.
  - rewrite (A u U) in E. discriminate.
Qed.

Lemma check_all g l : (forall w, In w l -> exists f, fw_body w true = Ok f /\ same_flags f g) -> check_flags g (map force l) = Ok tt.
Proof.
  induction l as [|w l IH]; intros H; [reflexivity|]. cbn [map check_flags]. change (get_flags (force w)) with (fw_body w true).
  destruct (H w (or_introl eq_refl)) as (f & B & Q). rewrite B. apply set_eq_spec in Q. rewrite Q. apply IH. intros u I. apply H. now right.
Qed.

Section RowProofs.
  Context {S : Type} (note : nat -> pyexc -> S -> S).

  Lemma fine_pass p ex l fl : fine ex l fl -> forall seen s, normalize_pass note p ex seen (map force l) s = (s, Ok (rev seen ++ map force l, false)).
  Proof.
    intros Y. induction Y as [ex|v f ws ex B Y IH|v f g ws ex B Q Y IH]; intros seen s0.
    - cbn [map normalize_pass]. unfold ret. now rewrite app_nil_r.
    - cbn [map normalize_pass]. unfold sbind at 1, try_except at 1, sbind at 1, call_with_error_handling, try_except, lift.
      change (get_flags (force v)) with (fw_body v true). rewrite B. specialize (IH (force v :: seen) s0). cbn [rev] in IH. rewrite <- app_assoc in IH.
      destruct p; exact IH.
    - cbn [map normalize_pass]. unfold sbind at 1, try_except at 1, sbind at 1, call_with_error_handling, try_except, lift.
      change (get_flags (force v)) with (fw_body v true). rewrite B. apply set_eq_spec in Q. specialize (IH (force v :: seen) s0). cbn [rev] in IH. rewrite <- app_assoc in IH.
      destruct p; unfold ret at 1; cbn [ret]; rewrite Q; exact IH.
  Qed.
  Lemma normalize_fine p ks s : (exists fl, fine None ks fl) -> normalize_flags note p (map force ks) s = (s, Ok (map force ks)).
  Proof.
    intros (fl & F). destruct ks as [|w [|w' r]]; [reflexivity|reflexivity|].
    assert (E : map force (map force (w :: w' :: r)) = map force (w :: w' :: r)) by (rewrite map_map; reflexivity).
    unfold normalize_flags. cbn [map]. change (force w :: force w' :: map force r) with (map force (w :: w' :: r)).
    change (force (force w) :: force (force w') :: map force (map force r)) with (map force (map force (w :: w' :: r))).
    rewrite E. cbn [normalize_loop]. unfold sbind. rewrite (fine_pass p None _ _ F). reflexivity.
  Qed.

  Theorem row_alone p ws w f name s : survive None ws [w] -> fw_needs_interface w = false -> fw_body w true = Ok f ->
    get_row note p (map force [w]) (fw_base w) name s =
      (s, Ok (mk_row name (fw_base w) (sorted f) (Some match fw_doc w with Some d => d | None => fw_autodoc w end))).
  Proof.
    intros Sv N B. cbn [map get_row]. change (fw_needs_interface (force w)) with (fw_needs_interface w). rewrite N. cbn [negb].
    unfold sbind, lift. change (get_flags (force w)) with (fw_body w true). rewrite B. unfold ret.
    change (fw_doc (force w)) with (fw_doc w). destruct (fw_doc w); reflexivity.
  Qed.

  Theorem row_many p ws ks name s : survive None ws ks -> ks <> [] -> ~ alone ks ->
    exists w r f, ks = w :: r /\ fw_body w true = Ok f /\
      (forall d, common_doc ks d -> get_row note p (map force ks) (fw_base w) name s = (s, Ok (mk_row name (fw_base w) (sorted f) d))) /\
      (doc_conflict ks -> get_row note p (map force ks) (fw_base w) name s = (s, Err CodeGenerationError)).
  Proof.
    intros Sv NE NA. destruct ks as [|w r]; [now destruct NE|].
    destruct (survive_fine _ _ _ Sv) as (fl & F).
    assert (exists f, fw_body w true = Ok f /\ fine (Some f) r fl) as (f & B & Fr) by (inversion F; subst; eauto).
    exists w, r, f. split; [reflexivity|]. split; [exact B|].
    assert (R : get_row note p (map force (w :: r)) (fw_base w) name s =
      match distinct (docs (w :: r)) with
      | [] => (s, Ok (mk_row name (fw_base w) (sorted f) None))
      | [d] => (s, Ok (mk_row name (fw_base w) (sorted f) (Some d)))
      | _ => (s, Err CodeGenerationError) end).
    { unfold get_row. cbn [map]. change (fw_needs_interface (force w)) with (fw_needs_interface w).
      assert (X : match map force r with [] => negb (fw_needs_interface w) | _ => false end = false).
      { destruct r; [|reflexivity]. cbn [map]. destruct (fw_needs_interface w) eqn:Y; [reflexivity|]. exfalso. apply NA. exists w. auto. }
      rewrite X. change (force w :: map force r) with (map force (w :: r)).
      unfold sbind at 1. rewrite (normalize_fine p (w :: r) s (ex_intro _ fl F)).
      unfold sbind at 1, lift. change (get_flags (force w)) with (fw_body w true). rewrite B.
      unfold sbind at 1. rewrite check_all.
      2:{ intros u [<-|I]; [exists f; split; [exact B|intros x; tauto]|]. eapply fine_flags; eauto. }
      change (flat_map _ (map force (w :: r))) with (docs (map force (w :: r))). rewrite docs_force.
      destruct (distinct (docs (w :: r))) as [|d [|d2 l]]; reflexivity. }
    pose proof (doc_cases (w :: r)) as D. split; intros.
    - rewrite R. destruct (distinct (docs (w :: r))) as [|d1 [|d2 l]].
      + now rewrite (common_doc_unique _ _ _ H D).
      + now rewrite (common_doc_unique _ _ _ H D).
      + exfalso. eapply common_no_conflict; eauto.
    - rewrite R. destruct (distinct (docs (w :: r))) as [|d1 [|d2 l]]; [exfalso; eapply common_no_conflict; eauto|exfalso; eapply common_no_conflict; eauto|reflexivity].
  Qed.
End RowProofs.

(** ** Sets of one wrapper *)
Theorem generate_one p w s : fw_needs_interface w = false ->
  (exists f, fw_body w (fw_forced w) = Ok f /\ generate_overload rec_note rec_write p [w] s =
     (mk_record (rec_log s) (rec_out s ++ [CFunction (fw_id w) (fw_base w) false]), Ok ([w], fw_base w))) \/
  (exists e s' e', fw_body w (fw_forced w) = Err e /\ generate_overload rec_note rec_write p [w] s = (s', Err e') /\ rec_out s' = rec_out s /\
     match p with
     | None => e' = e /\ rec_log s' = rec_log s
     | Some h => (In e [TypeConfigurationError; CodeGenerationError; NotSupportedError] /\ rec_log s' = rec_log s ++ [(fw_id w, e)] /\
                  (h (fw_id w) e = Ok true /\ e' = SkipWrapper \/ h (fw_id w) e = Ok false /\ e' = e \/ h (fw_id w) e = Err e')) \/
                 (~ In e [TypeConfigurationError; CodeGenerationError; NotSupportedError] /\ rec_log s' = rec_log s /\ e' = e)
     end).
Proof.
  intros N.
  assert (E : generate_overload rec_note rec_write p [w] s =
    sbind (call_with_error_handling rec_note p generation_errors (fw_id w) (generate_wrapper rec_write w (fw_base w) false)) (fun _ => ret ([w], fw_base w)) s).
  { unfold generate_overload, normalize_flags. unfold sbind at 1, ret at 1. rewrite N. reflexivity. }
  rewrite E. clear E.
  unfold call_with_error_handling, generate_wrapper, sbind, lift, try_except, modify, get_flags.
  destruct (fw_body w (fw_forced w)) as [f|e] eqn:B.
  - left. exists f. split; [reflexivity|]. destruct p; reflexivity.
  - right. exists e. destruct p as [h|].
    + unfold handle_error, sbind, modify, lift. destruct (is_instance e generation_errors) eqn:I.
      * apply is_instance_in in I. destruct (h (fw_id w) e) as [[|]|e2] eqn:H.
        -- exists (rec_note (fw_id w) e s), SkipWrapper. split; [reflexivity|]. split; [try rewrite H; reflexivity|]. split; [reflexivity|]. left. split; [exact I|]. split; [reflexivity|auto].
        -- exists (rec_note (fw_id w) e s), e. split; [reflexivity|]. split; [try rewrite H; reflexivity|]. split; [reflexivity|]. left. split; [exact I|]. split; [reflexivity|auto].
        -- exists (rec_note (fw_id w) e s), e2. split; [reflexivity|]. split; [try rewrite H; reflexivity|]. split; [reflexivity|]. left. split; [exact I|]. split; [reflexivity|auto].
      * exists s, e. split; [reflexivity|]. split; [reflexivity|]. split; [reflexivity|]. right. split; [|auto].
        intros X. apply is_instance_in in X. unfold generation_errors in I. congruence.
    + exists s, e. repeat split; reflexivity.
Qed.

Theorem normalize_record p ws s : length ws <> 1 ->
  (exists ks s', survive None ws ks /\ normalize_flags rec_note p ws s = (s', Ok (map force ks)) /\ rec_out s' = rec_out s /\
     forall h, p = Some h -> accepts h ws -> exists l, reports None ws l /\ rec_log s' = rec_log s ++ l) \/
  (exists w e s', In w ws /\ rejects p w e /\ normalize_flags rec_note p ws s = (s', Err e) /\ rec_out s' = rec_out s).
Proof.
  intros L. pose proof (normalize_inv rec_note (fun x => rec_out x = rec_out s) (fun w e x X => X) p ws s eq_refl) as Y.
  destruct (normalize_cases rec_note p ws s L) as [(ks & s' & Sv & N & R)|(w & e & s' & I & Rj & N)]; rewrite N in Y; cbn [fst] in Y.
  - left. exists ks, s'. split; [exact Sv|]. split; [exact N|]. split; [exact Y|]. intros h E A. destruct (R h E A) as (l & Rp & ->).
    exists l. split; [exact Rp|]. now rewrite rec_notes.
  - right. exists w, e, s'. auto.
Qed.

Theorem survivors_ok ws ks : survive None ws ks ->
  in_order ks ws /\
  (forall w, In w ks -> exists f, fw_body w true = Ok f) /\
  (forall a b f g, In a ks -> In b ks -> fw_body a true = Ok f -> fw_body b true = Ok g -> same_flags f g) /\
  (forall a w b f, ws = a ++ w :: b -> fw_body w true = Ok f -> (forall u, In u a -> exists e, fw_body u true = Err e) ->
     forall v g, In v ws -> fw_body v true = Ok g -> same_flags f g -> In v ks).
Proof.
  intros Sv. split; [|split; [|split]].
  - clear -Sv. induction Sv; eauto using io_nil, io_take, io_drop.
  - apply (survive_ok _ _ _ Sv).
  - intros a b f g A B Fa Fb. destruct (survive_fine _ _ _ Sv) as (fl & F).
    destruct ks as [|w r]; [destruct A|]. inversion F as [|? f0 ? ? B0 F0|]; subst.
    assert (G : forall u fu, In u (w :: r) -> fw_body u true = Ok fu -> same_flags fu f0).
    { intros u fu [<-|I] E; [assert (fu = f0) by congruence; subst; intros x; tauto|].
      destruct (fine_flags _ _ _ F0 f0 eq_refl u I) as (f1 & E1 & Q). assert (fu = f1) by congruence. now subst. }
    intros x. rewrite (G a f A Fa x). symmetry. apply (G b g B Fb).
  - intros a w b f E B Fail v g I Bv Q.
    assert (G : forall fl ws ks, survive fl ws ks -> fl = Some f -> forall v g, In v ws -> fw_body v true = Ok g -> same_flags f g -> In v ks).
    { clear. intros fl ws ks Sv. induction Sv as [fl|fl w e ws ks B Sv IH|w f0 ws ks B Sv IH|w f0 g0 ws ks B Q0 Sv IH|w f0 g0 ws ks B Q0 Sv IH]; intros E v g I Bv Q.
      - destruct I.
      - destruct I as [<-|I]; [congruence|eauto].
      - discriminate.
      - destruct I as [<-|I]; [now left|right; eauto].
      - injection E as ->. destruct I as [<-|I]; [|eauto]. exfalso. apply Q0. assert (f0 = g) by congruence. subst. intros x. symmetry. apply Q. }
    revert ws ks Sv E v g I Bv Q. induction a as [|u a IH]; cbn [app]; intros ws ks Sv E v g I Bv Q; subst ws.
    + inversion Sv; subst; [congruence|]. destruct I as [<-|I]; [now left|]. right. assert (f0 = f) by congruence. subst. eapply G; eauto.
    + destruct (Fail u (or_introl eq_refl)) as (e & Be). inversion Sv; subst; [|congruence].
      destruct I as [<-|I]; [congruence|]. eapply IH; eauto. intros; apply Fail; now right.
Qed.

Theorem generate_rejected_out p ws s s' e : length ws <> 1 -> generate_overload rec_note rec_write p ws s = (s', Err e) ->
  rec_out s' = rec_out s /\
  ((e = SkipWrapper /\ survive None ws []) \/ (exists w, In w ws /\ rejects p w e)).
Proof.
  intros L G. destruct (normalize_record p ws s L) as [(ks & s1 & Sv & N & O & R)|(w & e1 & s1 & I & Rj & N & O)].
  - pose proof (generate_many rec_note rec_write p ws ks s s1 L N Sv) as M. destruct ks as [|w r].
    + rewrite M in G. assert (s' = s1 /\ e = SkipWrapper) as [-> ->] by (split; congruence). split; [exact O|]. left. auto.
    + destruct M as (f & _ & M). rewrite M in G. discriminate.
  - unfold generate_overload, sbind in G. rewrite N in G. assert (s' = s1 /\ e = e1) as [-> ->] by (split; congruence).
    split; [exact O|]. right. eauto.
Qed.

Lemma doc_total ks : (exists d, common_doc ks d) \/ doc_conflict ks.
Proof. pose proof (doc_cases ks) as D. destruct (distinct (docs ks)) as [|d [|d2 l]]; eauto. Qed.

Lemma survive_det fl ws k1 : survive fl ws k1 -> forall k2, survive fl ws k2 -> k1 = k2.
Proof.
  induction 1 as [fl|fl w e ws ks B Sv IH|w f0 ws ks B Sv IH|w f0 g0 ws ks B Q0 Sv IH|w f0 g0 ws ks B Q0 Sv IH]; intros k2 V; inversion V; subst; try congruence; auto.
  - f_equal. assert (f = f0) by congruence. subst. auto.
  - f_equal. auto.
Qed.

Theorem no_trace h ws ks s s1 r1 : length ws <> 1 -> length ks <> 1 -> accepts h ws -> survive None ws ks ->
  generate_overload rec_note rec_write (Some h) ws s = (s1, r1) ->
  exists s2, generate_overload rec_note rec_write (Some h) ks s = (s2, r1) /\ rec_out s2 = rec_out s1 /\ rec_log s2 = rec_log s.
Proof.
  intros L1 L2 A Sv G. destruct (normalize_record (Some h) ws s L1) as [(ks' & s' & Sv' & N & O & _)|(w & e1 & s' & I & Rj & N & O)].
  2:{ exfalso. eapply accepts_not_rejects; eauto. }
  assert (ks' = ks) by (eapply survive_det; eauto). subst ks'.
  destruct (survive_fine _ _ _ Sv) as (fl & F). pose proof (proj1 (fine_all _ _ _ F)) as Sk.
  assert (N3 : normalize_flags rec_note (Some h) ks s = (s, Ok (map force ks))).
  { clear -F L2. unfold normalize_flags. destruct ks as [|w [|w' r]]; [reflexivity|now destruct L2|].
    cbn [normalize_loop]. unfold sbind. rewrite (fine_pass rec_note (Some h) None _ _ F). reflexivity. }
  pose proof (generate_many rec_note rec_write (Some h) ws ks s s' L1 N Sv) as M1.
  pose proof (generate_many rec_note rec_write (Some h) ks ks s s L2 N3 Sk) as M2.
  destruct ks as [|w r].
  - rewrite M1 in G. exists s. rewrite M2. split; [congruence|]. split; [|reflexivity]. assert (s1 = s') by congruence. now subst.
  - destruct M1 as (f1 & B1 & M1). destruct M2 as (f2 & B2 & M2). assert (f2 = f1) by congruence. subst f2. rewrite M1 in G. rewrite rec_writes in *.
    eexists. rewrite M2. split; [|split].
    + f_equal. congruence.
    + assert (E : s1 = mk_record (rec_log s') (rec_out s' ++ chunks_of (w :: r) (mem "METH_KEYWORDS" f1))) by congruence. rewrite E. cbn [rec_out]. now rewrite O.
    + reflexivity.
Qed.

(** ** sorted *)
Lemma insert_perm x l : Permutation (insert_sorted x l) (x :: l).
Proof.
  induction l as [|y l IH]; [reflexivity|]. cbn [insert_sorted]. destruct (str_leb x y); [reflexivity|].
  rewrite IH. constructor.
Qed.
Lemma sorted_perm l : Permutation (sorted l) l.
Proof. induction l as [|x l IH]; [reflexivity|]. cbn [sorted]. rewrite insert_perm. now constructor. Qed.
Definition le_str (a b : string) : Prop := String.compare a b <> Gt.
Lemma leb_le a b : str_leb a b = true <-> le_str a b.
Proof. unfold str_leb, le_str. destruct (String.compare a b); split; congruence. Qed.
Lemma leb_total a b : str_leb a b = false -> le_str b a.
Proof. unfold str_leb, le_str. rewrite (String.compare_antisym b a). destruct (String.compare a b); cbn; congruence. Qed.
Lemma insert_sorted_ok x l : Sorted le_str l -> Sorted le_str (insert_sorted x l).
Proof.
  induction l as [|y l IH]; intros H; cbn [insert_sorted]; [auto|]. destruct (str_leb x y) eqn:E.
  - apply leb_le in E. auto.
  - apply leb_total in E. inversion H as [|? ? H1 H2]; subst. constructor; [now apply IH|].
    destruct l as [|z l]; cbn [insert_sorted] in *; [auto|]. destruct (str_leb x z); [auto|]. inversion H2; auto.
Qed.
Theorem sorted_ok l : Permutation (sorted l) l /\ Sorted le_str (sorted l).
Proof.
  split; [apply sorted_perm|]. induction l as [|x l IH]; [constructor|]. now apply insert_sorted_ok.
Qed.
