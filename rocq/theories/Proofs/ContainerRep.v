From Verif.Model Require Import Py IntHandlers Containers.
From Verif.Spec Require Import ContainerSpec.
From Verif.Proofs Require Import ContainerConv.
From Coq Require Import Permutation Sorted Lia.
Open Scope list_scope.

Section Loops.
  Variables lval atom : Type.
  Variable add : list (cval lval) -> cval lval -> list (cval lval).
  Variable f : pyobj atom -> conv lval.
  Fixpoint seq_loop (l : list (option (pyobj atom))) (c : list (cval lval)) : conv lval :=
    match l with
    | [] => Done (CSeq c)
    | None :: _ => Crash
    | Some x :: r => match f x with Done v => seq_loop r (add c v) | Fails _ err => Fails (CSeq c) err | Crash => Crash end
    end.
  Variable madd : list (cval lval * cval lval) -> cval lval * cval lval -> list (cval lval * cval lval).
  Variable g : pyobj atom -> conv lval.
  Fixpoint map_loop (l : list (option (pyobj atom))) (c : list (cval lval * cval lval)) : conv lval :=
    match l with
    | [] => Done (CMap c)
    | None :: _ => Crash
    | Some (PTuple [x; y]) :: r =>
        match f x with
        | Done k => match g y with Done v => map_loop r (madd c (k, v)) | Fails _ err => Fails (CMap c) err | Crash => Crash end
        | Fails _ err => Fails (CMap c) err
        | Crash => Crash
        end
    | Some _ :: _ => Fails (CMap c) TypeE
    end.
End Loops.

Section Rep.
  Variables leaf lval atom : Type.
  Variable leaf_in : leaf -> pyobj atom -> lval + argerr.
  Variable less equal : cval lval -> cval lval -> bool.
  Variable place : list (cval lval) -> cval lval -> nat.
  Hypothesis swo : strict_weak_order lval less.
  Hypothesis eqv : equivalence lval equal.
  Variable look : nat -> option (string * option (cval lval)).
  Local Notation ctype := (ctype leaf).
  Local Notation cval := (cval lval).
  Local Notation pyobj := (pyobj atom).
  Local Notation convert := (convert leaf lval atom leaf_in less equal place look).
  Local Notation represents := (represents leaf lval atom leaf_in less equal look).
  Local Notation represent_all := (represent_all leaf lval atom leaf_in less equal look).
  Local Notation represent_pairs := (represent_pairs leaf lval atom leaf_in less equal look).
  Local Notation erroneous := (erroneous leaf lval atom leaf_in less equal look).
  Local Notation usable := (usable lval atom look).
  Local Notation seq_add := (seq_add lval less equal place).
  Local Notation map_add := (map_add lval less equal place).

  Lemma convert_seq n k e reads old : convert (TSeq n k e) (PList reads) old = seq_loop lval atom (seq_add k) (fun x => convert e x (CSeq [])) reads [].
  Proof. reflexivity. Qed.
  Lemma convert_map n s tk tv reads old : convert (TMap n s tk tv) (PList reads) old =
    map_loop lval atom (fun x => convert tk x (CSeq [])) (map_add s) (fun y => convert tv y (CSeq [])) reads [].
  Proof. reflexivity. Qed.

  (** What the conversion of an object should be. *)
  Definition good (ty : ctype) (o : pyobj) (r : conv lval) : Prop :=
    match r with Done v => represents ty o v | Fails _ e => erroneous ty o e | Crash => ~ usable o end.

  Definition usable_all (l : list (option pyobj)) : Prop :=
    (fix all l := match l with [] => True | Some x :: r => usable x /\ all r | None :: _ => False end) l.
  Lemma usable_list l : usable (PList l) = usable_all l.
  Proof. reflexivity. Qed.
  Lemma usable_pair x y : usable (PTuple [x; y]) = (usable x /\ usable y /\ True).
  Proof. reflexivity. Qed.

  Lemma seq_loop_ok e k (H : forall x, good e x (convert e x (CSeq []))) : forall l c,
    match seq_loop lval atom (seq_add k) (fun x => convert e x (CSeq [])) l c with
    | Done v => exists xs vs, l = map Some xs /\ represent_all e xs vs /\ v = CSeq (fold_left (seq_add k) vs c)
    | Fails v err => exists xs vs x after, l = map Some xs ++ Some x :: after /\ represent_all e xs vs /\ erroneous e x err /\ v = CSeq (fold_left (seq_add k) vs c)
    | Crash => ~ usable_all l
    end.
  Proof.
    induction l as [|[x|] r IH]; intros c; cbn [seq_loop].
    - exists [], []. repeat split. constructor.
    - assert (X := H x). destruct (convert e x (CSeq [])) as [v|left err|]; cbn [good] in X.
      + specialize (IH (seq_add k c v)). destruct (seq_loop _ _ _ _ r (seq_add k c v)) as [v'|left' err'|].
        * destruct IH as (xs & vs & -> & A & ->). exists (x :: xs), (v :: vs). split; [reflexivity|]. split; [constructor; assumption|reflexivity].
        * destruct IH as (xs & vs & z & after & -> & A & B & ->). exists (x :: xs), (v :: vs), z, after. split; [reflexivity|]. split; [constructor; assumption|]. split; [exact B|reflexivity].
        * intros [_ U]. exact (IH U).
      + exists [], [], x, r. repeat split; [constructor|exact X].
      + intros [U _]. exact (X U).
    - intros [].
  Qed.
  Lemma map_loop_ok tk tv s (H1 : forall x, good tk x (convert tk x (CSeq []))) (H2 : forall x, good tv x (convert tv x (CSeq []))) : forall l c,
    match map_loop lval atom (fun x => convert tk x (CSeq [])) (map_add s) (fun x => convert tv x (CSeq [])) l c with
    | Done v => exists xs kvs, l = map Some xs /\ represent_pairs tk tv xs kvs /\ v = CMap (fold_left (map_add s) kvs c)
    | Fails v err => exists xs kvs x after, l = map Some xs ++ Some x :: after /\ represent_pairs tk tv xs kvs /\ v = CMap (fold_left (map_add s) kvs c) /\
        (~ is_pair atom x /\ err = TypeE \/ exists a b, x = PTuple [a; b] /\ (erroneous tk a err \/ exists k, represents tk a k /\ erroneous tv b err))
    | Crash => ~ usable_all l
    end.
  Proof.
    assert (Bad : forall x r c, ~ is_pair atom x -> exists xs kvs z after, Some x :: r = map Some xs ++ Some z :: after /\ represent_pairs tk tv xs kvs /\
      CMap c = CMap (fold_left (map_add s) kvs c) /\ (~ is_pair atom z /\ TypeE = TypeE \/ exists a b, z = PTuple [a; b] /\ (erroneous tk a TypeE \/ exists k, represents tk a k /\ erroneous tv b TypeE))).
    { intros x r c N. exists [], [], x, r. split; [reflexivity|]. split; [constructor|]. split; [reflexivity|]. left. auto. }
    induction l as [|[x|] r IH]; intros c; cbn [map_loop].
    - exists [], []. repeat split. constructor.
    - destruct x as [a|[|x [|y [|z t]]]|reads|w]; try (apply Bad; cbn; tauto).
      assert (X := H1 x). assert (Y := H2 y). destruct (convert tk x (CSeq [])) as [k|left err|]; cbn [good] in X.
      + destruct (convert tv y (CSeq [])) as [v|left err|]; cbn [good] in Y.
        * specialize (IH (map_add s c (k, v))). destruct (map_loop _ _ _ _ _ r (map_add s c (k, v))) as [v'|left' err'|].
          -- destruct IH as (xs & vs & -> & A & ->). exists (PTuple [x; y] :: xs), ((k, v) :: vs). split; [reflexivity|]. split; [constructor; assumption|reflexivity].
          -- destruct IH as (xs & vs & z & after & -> & A & -> & B). exists (PTuple [x; y] :: xs), ((k, v) :: vs), z, after. split; [reflexivity|]. split; [constructor; assumption|]. split; [reflexivity|exact B].
          -- intros [_ U]. exact (IH U).
        * exists [], [], (PTuple [x; y]), r. split; [reflexivity|]. split; [constructor|]. split; [reflexivity|]. right. exists x, y. split; [reflexivity|]. right. exists k. auto.
        * intros [U _]. rewrite usable_pair in U. tauto.
      + exists [], [], (PTuple [x; y]), r. split; [reflexivity|]. split; [constructor|]. split; [reflexivity|]. right. exists x, y. auto.
      + intros [U _]. rewrite usable_pair in U. tauto.
    - intros [].
  Qed.

  Lemma wrapper_ok n w old : match from_wrapper look n w old with
    | Done v => look w = Some (n, Some v) | Fails v e => ~ is_wrapper_of lval atom look n (PRef w) /\ e = TypeE /\ v = old | Crash => ~ usable (PRef w) end.
  Proof.
    unfold from_wrapper. destruct (look w) as [[m obj]|] eqn:L.
    - destruct (String.eqb_spec m n) as [->|N]; [destruct obj as [v|]; [reflexivity|]|].
      + cbn [ContainerSpec.usable]. intros (n' & v & E). rewrite L in E. discriminate.
      + split; [|split; reflexivity]. cbn. intros (v & E). rewrite L in E. congruence.
    - cbn. intros (n' & v & E). rewrite L in E. discriminate.
  Qed.

  Theorem convert_good : forall ty o old, good ty o (convert ty o old).
  Proof.
    induction ty as [t|n k e IH|n s tk IH1 tv IH2]; intros o old.
    - cbn [Containers.convert]. destruct (leaf_in t o) as [v|err] eqn:L; cbn [good]; constructor; exact L.
    - destruct o as [a|l|reads|w].
      + cbn. apply err_seq; cbn; tauto.
      + cbn. apply err_seq; cbn; tauto.
      + rewrite convert_seq. assert (L := seq_loop_ok e k (fun x => IH x (CSeq [])) reads []). destruct (seq_loop _ _ _ _ reads []) as [v|left err|]; cbn [good].
        * destruct L as (xs & vs & -> & A & ->). apply rep_seq_list with vs; [exact A|]. apply gathers_ok; assumption.
        * destruct L as (xs & vs & x & after & -> & A & B & _). eapply err_item; eassumption.
        * rewrite usable_list. exact L.
      + change (convert (TSeq n k e) (PRef w) old) with (from_wrapper look n w old). assert (W := wrapper_ok n w old). destruct (from_wrapper look n w old) as [v|left err|]; cbn [good].
        * apply rep_seq_wrapper. exact W.
        * destruct W as (W & -> & _). apply err_seq; [cbn; tauto|exact W].
        * exact W.
    - destruct o as [a|l|reads|w].
      + cbn. apply err_map; cbn; tauto.
      + cbn. apply err_map; cbn; tauto.
      + rewrite convert_map. assert (L := map_loop_ok tk tv s (fun x => IH1 x (CSeq [])) (fun x => IH2 x (CSeq [])) reads []). destruct (map_loop _ _ _ _ _ reads []) as [v|left err|]; cbn [good].
        * destruct L as (xs & vs & -> & A & ->). apply rep_map_list with vs; [exact A|]. apply gathers_map_ok; assumption.
        * destruct L as (xs & kvs & x & after & -> & A & _ & [(B & ->)|(a & b & -> & [B|(k & B & C)])]).
          -- eapply err_pair; eassumption.
          -- eapply err_key; eassumption.
          -- eapply err_value; eassumption.
        * rewrite usable_list. exact L.
      + change (convert (TMap n s tk tv) (PRef w) old) with (from_wrapper look n w old). assert (W := wrapper_ok n w old). destruct (from_wrapper look n w old) as [v|left err|]; cbn [good].
        * apply rep_map_wrapper. exact W.
        * destruct W as (W & -> & _). apply err_map; [cbn; tauto|exact W].
        * exact W.
  Qed.

  (** The specification decides: what represents a value does not have an error, and there is one error. *)
  Lemma map_some_inj {A} (a b : list A) x y ra rb : map Some a ++ Some x :: ra = map Some b ++ Some y :: rb ->
    (a = b /\ x = y) \/ (exists c z, a = b ++ y :: c /\ z = x) \/ (exists c z, b = a ++ x :: c /\ z = y).
  Proof.
    revert b. induction a as [|u a IH]; intros [|v b] E; cbn in E.
    - injection E as E1 E2. auto.
    - injection E as E1 E2. right. right. exists b, y. subst. auto.
    - injection E as E1 E2. right. left. exists a, x. subst. auto.
    - injection E as E1 E2. subst v. destruct (IH b E2) as [(-> & ->)|[(c & z & -> & ->)|(c & z & -> & ->)]]; [auto| |]; right; [left|right]; [exists c, x|exists c, y]; auto.
  Qed.
  Lemma map_some_app {A} (a b : list A) x r : map Some a = map Some b ++ Some x :: r -> exists c, a = b ++ x :: c.
  Proof.
    revert b. induction a as [|u a IH]; intros [|v b] E; cbn in E; try discriminate.
    - injection E as E1 E2. subst. exists a. reflexivity.
    - injection E as E1 E2. subst. destruct (IH b E2) as (c & ->). exists c. reflexivity.
  Qed.
  Lemma all_member e xs vs : represent_all e xs vs -> forall b x c, xs = b ++ x :: c -> exists v, represents e x v.
  Proof.
    induction 1 as [e|e x xs v vs H1 H2 IH]; intros b z c E.
    - destruct b; discriminate.
    - destruct b as [|y b]; injection E as E1 E2; subst; [exists v; exact H1|exact (IH b z c eq_refl)].
  Qed.
  Lemma pairs_member tk tv xs kvs : represent_pairs tk tv xs kvs -> forall b x c, xs = b ++ x :: c -> exists a d k v, x = PTuple [a; d] /\ represents tk a k /\ represents tv d v.
  Proof.
    induction 1 as [tk tv|tk tv x y xs k v kvs H1 H2 H3 IH]; intros b z c E.
    - destruct b; discriminate.
    - destruct b as [|u b]; injection E as E1 E2; subst; [exists x, y, k, v; auto|exact (IH b z c eq_refl)].
  Qed.
  Lemma err_seq_inv n k e o err : erroneous (TSeq n k e) o err -> (~ is_list atom o /\ ~ is_wrapper_of lval atom look n o /\ err = TypeE) \/
    exists before vs x after, o = PList (map Some before ++ Some x :: after) /\ represent_all e before vs /\ erroneous e x err.
  Proof. intros E. inversion E; subst; [left; auto|right]. do 4 eexists. split; [reflexivity|]. split; eassumption. Qed.
  Definition pair_error tk tv (x : pyobj) err : Prop :=
    ~ is_pair atom x /\ err = TypeE \/ exists a b, x = PTuple [a; b] /\ (erroneous tk a err \/ exists k, represents tk a k /\ erroneous tv b err).
  Lemma err_map_inv n s tk tv o err : erroneous (TMap n s tk tv) o err -> (~ is_list atom o /\ ~ is_wrapper_of lval atom look n o /\ err = TypeE) \/
    exists before kvs x after, o = PList (map Some before ++ Some x :: after) /\ represent_pairs tk tv before kvs /\ pair_error tk tv x err.
  Proof.
    intros E. inversion E; subst; [left; auto|right|right|right]; do 4 eexists; (split; [reflexivity|]); (split; [eassumption|]).
    - left. auto.
    - right. do 2 eexists. split; [reflexivity|]. left. assumption.
    - right. do 2 eexists. split; [reflexivity|]. right. eexists. split; eassumption.
  Qed.
  Lemma rep_seq_inv n k e o v : represents (TSeq n k e) o v -> is_wrapper_of lval atom look n o \/ exists xs vs, o = PList (map Some xs) /\ represent_all e xs vs.
  Proof. intros R. inversion R; subst; [left; cbn; eauto|right; eauto]. Qed.
  Lemma rep_map_inv n s tk tv o v : represents (TMap n s tk tv) o v -> is_wrapper_of lval atom look n o \/ exists xs kvs, o = PList (map Some xs) /\ represent_pairs tk tv xs kvs.
  Proof. intros R. inversion R; subst; [left; cbn; eauto|right; eauto]. Qed.
  Lemma exclusive : forall ty o e, erroneous ty o e -> (forall v, ~ represents ty o v) /\ (forall e', erroneous ty o e' -> e' = e).
  Proof.
    induction ty as [t|n k te IH|n s tk IH1 tv IH2]; intros o err E.
    - inversion E; subst. split; [intros v R; inversion R; congruence|intros e' E'; inversion E'; congruence].
    - destruct (err_seq_inv _ _ _ _ _ E) as [(NL & NW & ->)|(before & vs & x & after & -> & A & B)].
      + split.
        * intros v R. destruct (rep_seq_inv _ _ _ _ _ R) as [W|(xs & vs & -> & _)]; [exact (NW W)|apply NL; exact I].
        * intros e' E'. destruct (err_seq_inv _ _ _ _ _ E') as [(_ & _ & ->)|(before & vs & x & after & -> & _)]; [reflexivity|]. exfalso. apply NL. exact I.
      + split.
        * intros v R. destruct (rep_seq_inv _ _ _ _ _ R) as [W|(xs & vs' & EQ & R1)]; [exact W|]. injection EQ as EQ. symmetry in EQ. destruct (map_some_app _ _ _ _ EQ) as (c & Q).
          destruct (all_member _ _ _ R1 _ _ _ Q) as (u & U). exact (proj1 (IH _ _ B) u U).
        * intros e' E'. destruct (err_seq_inv _ _ _ _ _ E') as [(NL & _)|(before' & vs' & x' & after' & EQ & A' & B')]; [exfalso; apply NL; exact I|].
          injection EQ as EQ. destruct (map_some_inj _ _ _ _ _ _ EQ) as [(Q1 & Q2)|[(c & z & Q & _)|(c & z & Q & _)]].
          -- subst. exact (proj2 (IH _ _ B) _ B').
          -- exfalso. destruct (all_member _ _ _ A _ _ _ Q) as (u & U). exact (proj1 (IH _ _ B') u U).
          -- exfalso. destruct (all_member _ _ _ A' _ _ _ Q) as (u & U). exact (proj1 (IH _ _ B) u U).
    - assert (N : forall x e', pair_error tk tv x e' -> forall a d k v, x = PTuple [a; d] -> represents tk a k -> represents tv d v -> False).
      { intros x e' B a d k v -> R1 R2. destruct B as [(B & _)|(a' & b' & EQ & [B|(k' & _ & B)])].
        - apply B. exact I.
        - injection EQ as -> ->. exact (proj1 (IH1 _ _ B) k R1).
        - injection EQ as -> ->. exact (proj1 (IH2 _ _ B) v R2). }
      destruct (err_map_inv _ _ _ _ _ _ E) as [(NL & NW & ->)|(before & kvs & x & after & -> & A & B)].
      + split.
        * intros v R. destruct (rep_map_inv _ _ _ _ _ _ R) as [W|(xs & vs & -> & _)]; [exact (NW W)|apply NL; exact I].
        * intros e' E'. destruct (err_map_inv _ _ _ _ _ _ E') as [(_ & _ & ->)|(before & vs & x & after & -> & _)]; [reflexivity|]. exfalso. apply NL. exact I.
      + split.
        * intros v R. destruct (rep_map_inv _ _ _ _ _ _ R) as [W|(xs & vs' & EQ & R1)]; [exact W|]. injection EQ as EQ. symmetry in EQ. destruct (map_some_app _ _ _ _ EQ) as (c & Q).
          destruct (pairs_member _ _ _ _ R1 _ _ _ Q) as (a & d & k & u & U1 & U2 & U3). exact (N _ _ B a d k u U1 U2 U3).
        * intros e' E'. destruct (err_map_inv _ _ _ _ _ _ E') as [(NL & _)|(before' & vs' & x' & after' & EQ & A' & B')]; [exfalso; apply NL; exact I|].
          injection EQ as EQ. destruct (map_some_inj _ _ _ _ _ _ EQ) as [(Q1 & Q2)|[(c & z & Q & _)|(c & z & Q & _)]].
          -- subst x'. destruct B as [(B & ->)|(a & b & -> & B)], B' as [(B' & ->)|(a' & b' & EQ' & B')].
             ++ reflexivity.
             ++ exfalso. apply B. subst x. exact I.
             ++ exfalso. apply B'. exact I.
             ++ injection EQ' as <- <-. destruct B as [B|(k & K & B)], B' as [B'|(k' & K' & B')].
                ** exact (proj2 (IH1 _ _ B) _ B').
                ** exfalso. exact (proj1 (IH1 _ _ B) _ K').
                ** exfalso. exact (proj1 (IH1 _ _ B') _ K).
                ** exact (proj2 (IH2 _ _ B) _ B').
          -- exfalso. destruct (pairs_member _ _ _ _ A _ _ _ Q) as (a & d & k & u & U1 & U2 & U3). exact (N _ _ B' a d k u U1 U2 U3).
          -- exfalso. destruct (pairs_member _ _ _ _ A' _ _ _ Q) as (a & d & k & u & U1 & U2 & U3). exact (N _ _ B a d k u U1 U2 U3).
  Qed.
  Theorem convert_total ty o old : usable o ->
    (exists v, convert ty o old = Done v /\ represents ty o v) \/ (exists left e, convert ty o old = Fails left e /\ erroneous ty o e /\ forall v, ~ represents ty o v).
  Proof.
    intros U. assert (G := convert_good ty o old). destruct (convert ty o old) as [v|left e|]; cbn [good] in G.
    - left. exists v. auto.
    - right. exists left, e. split; [reflexivity|]. split; [exact G|]. exact (proj1 (exclusive ty o e G)).
    - contradiction.
  Qed.

  (** ** Types *)
  Variable D : string -> option ctype.
  Local Notation declared_in := (declared_in leaf D).
  Local Notation has_type := (has_type leaf lval).
  Hypothesis typed : forall w n v, look w = Some (n, Some v) -> exists ty, D n = Some ty /\ has_type ty v.
  Lemma insert_sorted_in {A} key u (x : A) l y : In y (insert_sorted lval less key u x l) -> y = x \/ In y l.
  Proof.
    intros H. destruct (sorted_split lval less key u x l) as (l1 & l2 & -> & [E|[_ E]]); rewrite E in H; [|auto].
    apply in_app_or in H as [H|[<-|H]]; [right; apply in_or_app| |right; apply in_or_app]; auto.
  Qed.
  Lemma insert_at_in {A} n (x : A) l y : In y (insert_at n x l) -> y = x \/ In y l.
  Proof. intros H. destruct (insert_at_split n x l) as (l1 & l2 & -> & E). rewrite E in H. apply in_app_or in H as [H|[<-|H]]; [right; apply in_or_app| |right; apply in_or_app]; auto. Qed.
  Lemma seq_add_in k l x y : In y (seq_add k l x) -> y = x \/ In y l.
  Proof.
    destruct k as [|u|u]; cbn [Containers.seq_add].
    - intros H. apply in_app_or in H as [H|[<-|[]]]; auto.
    - apply insert_sorted_in.
    - destruct (u && existsb (equal x) l); [auto|apply insert_at_in].
  Qed.
  Lemma map_add_in s l x y : In y (map_add s l x) -> y = x \/ In y l.
  Proof.
    unfold Containers.map_add. destruct s; [apply insert_sorted_in|]. destruct (existsb _ l); [auto|apply insert_at_in].
  Qed.
  Lemma fresh_typed ty : is_container leaf ty -> has_type ty (fresh ty).
  Proof. destruct ty; cbn; [intros []|constructor|constructor]. Qed.
  Lemma convert_typed : forall ty o old v, declared_in ty -> convert ty o old = Done v -> has_type ty v.
  Proof.
    induction ty as [t|n k e IH|n s tk IH1 tv IH2]; intros o old v DI C.
    - cbn in C. destruct (leaf_in t o); [injection C as <-; exact I|discriminate].
    - destruct DI as [DN DI]. destruct o as [a|l|reads|w]; [discriminate C|discriminate C| |].
      + rewrite convert_seq in C. assert (G : forall l c, Forall (has_type e) c -> seq_loop lval atom (seq_add k) (fun x => convert e x (CSeq [])) l c = Done v -> has_type (TSeq n k e) v).
        { induction l as [|[x|] r IHl]; intros c F Q; cbn [seq_loop] in Q.
          - injection Q as <-. exact F.
          - destruct (convert e x (CSeq [])) as [u| |] eqn:X; try discriminate. apply (IHl (seq_add k c u)); [|exact Q].
            apply Forall_forall. intros y Y. apply seq_add_in in Y as [ -> |Y]; [exact (IH _ _ _ DI X)|rewrite Forall_forall in F; auto].
          - discriminate. }
        exact (G reads [] ltac:(constructor) C).
      + assert (W := wrapper_ok n w old). change (convert (TSeq n k e) (PRef w) old) with (from_wrapper look n w old) in C. rewrite C in W.
        destruct (typed _ _ _ W) as (ty & T1 & T2). rewrite DN in T1. injection T1 as <-. exact T2.
    - destruct DI as (DN & D1 & D2). destruct o as [a|l|reads|w]; [discriminate C|discriminate C| |].
      + rewrite convert_map in C. assert (G : forall l c, Forall (fun x => has_type tk (fst x) /\ has_type tv (snd x)) c ->
          map_loop lval atom (fun x => convert tk x (CSeq [])) (map_add s) (fun x => convert tv x (CSeq [])) l c = Done v -> has_type (TMap n s tk tv) v).
        { induction l as [|[x|] r IHl]; intros c F Q; cbn [map_loop] in Q.
          - injection Q as <-. exact F.
          - destruct x as [a|[|x [|y [|z t]]]|reads'|w]; try discriminate Q.
            destruct (convert tk x (CSeq [])) as [u| |] eqn:X; try discriminate. destruct (convert tv y (CSeq [])) as [u'| |] eqn:Y; try discriminate.
            apply (IHl (map_add s c (u, u'))); [|exact Q].
            apply Forall_forall. intros z Z. apply map_add_in in Z as [ -> |Z]; [split; [exact (IH1 _ _ _ D1 X)|exact (IH2 _ _ _ D2 Y)]|rewrite Forall_forall in F; auto].
          - discriminate. }
        exact (G reads [] ltac:(constructor) C).
      + assert (W := wrapper_ok n w old). change (convert (TMap n s tk tv) (PRef w) old) with (from_wrapper look n w old) in C. rewrite C in W.
        destruct (typed _ _ _ W) as (ty & T1 & T2). rewrite DN in T1. injection T1 as <-. exact T2.
  Qed.
End Rep.
