(** * What single calls do to ownership (C21, C22, C23) *)
From Coq Require Import List Arith Bool Lia.
From Verif.Model Require Import Ownership.
From Verif.Spec Require Import OwnSpec.
From Verif.Proofs Require Import OwnHeap OwnInv OwnEvents OwnStep OwnTop OwnProps OwnHist OwnWard.
Import ListNotations.

Lemma not_found cf s v : get (s_reg s) v = None \/ c_registry cf = false ->
  forall s1 e create k, s_reg s1 = s_reg s -> e_val e = v -> e_py e = VNull ->
  exec (if c_registry cf then Do SLookup (If CPyNull create k Done) else create) e s1 = exec create e s1.
Proof.
  intros H s1 e create k R V P. destruct (c_registry cf); [|reflexivity].
  destruct H as [H|H]; [|discriminate]. cbn [exec exec_stmt]. rewrite R, V, H. cbn [bind exec eval_cond e_py].
  assert (EE : Env VNull v (e_self e) (Ownership.e_new e) = e) by (destruct e; cbn in *; congruence).
  rewrite EE. destruct (exec create e s1) as [[e1 s2]|]; reflexivity.
Qed.

Lemma exec_seq c d : forall e s, exec (seq c d) e s = bind (exec c e s) (fun p => exec d (fst p) (snd p)).
Proof.
  induction c as [|st k IH|b x IHx y IHy k IHk]; intros e s; cbn [seq exec]; auto.
  - destruct (exec_stmt st e s) as [[e1 s1]|]; cbn [bind]; auto.
  - destruct (eval_cond b e s) as [t|]; cbn [bind]; auto.
    destruct (exec (if t then x else y) e s) as [[e1 s1]|]; cbn [bind]; auto.
Qed.

Lemma not_helper cf s1 e o c1 body : get (s_objs s1) (e_val e) = Some o -> o_helper o = false ->
  exec (if c_helper cf then If CHelper c1 body Done else body) e s1 = exec body e s1.
Proof.
  intros G H. destruct (c_helper cf); auto. cbn [exec eval_cond]. unfold live_obj. rewrite G. cbn [bind]. rewrite H.
  destruct (exec body e s1) as [[e1 s2]|]; reflexivity.
Qed.

(** The wrapper a pointer return makes, when there is none yet. *)
Lemma return_new cf p v b s o s' :
  object s v o -> o_helper o = false -> (get (s_reg s) v = None \/ c_registry cf = false) ->
  r_free p = false ->
  step_event cf (EvReturn (RPtr p) (Some v) b) s = Ok s' ->
  exists r, wrapper s' (length (s_wraps s)) r /\ w_st r = Live /\ w_refs r = 1 /\ w_ext r = 1
    /\ (forall x, x <> length (s_wraps s) -> get (s_wraps s') x = get (s_wraps s) x)
    /\ (c_registry cf = true -> forall c, w_obj r = Some c -> registered s' c (length (s_wraps s)))
    /\ (exists o', object s' v o' /\
        if r_owns p then w_obj r = Some v /\ w_owned r = true /\ o_cpp o' = pred (o_cpp o) /\ o_rc o' = o_rc o
        else o_cpp o' = o_cpp o /\
          if is_rc cf then w_obj r = Some v /\ (if r_manages p then w_owned r = true /\ o_rc o' = S (o_rc o)
                                                else w_owned r = false /\ o_rc o' = o_rc o)
          else if r_ref p || negb (r_manages p) then w_obj r = Some v /\ w_owned r = false
          else w_obj r = Some b /\ w_owned r = true /\ exists o2, object s' b o2 /\ o_cpp o2 = 0).
Proof.
  intros G NH NR NF E. red in G. cbn [step_event] in E.
  assert (X : exists s1 o1, run_code (gen_return cf (RPtr p)) (Env VNull v None b) s1 = Ok s' /\ s_wraps s1 = s_wraps s
    /\ s_reg s1 = s_reg s /\ s_objs s1 = put (s_objs s) v (Some o1) /\ o_helper o1 = false /\ o_rc o1 = o_rc o
    /\ o_cpp o1 = if r_owns p then pred (o_cpp o) else o_cpp o).
  { cbn [gives] in E. rewrite NF, orb_false_r in E. destruct (r_owns p); cbn [bind] in E.
    - unfold drop_cpp, live_obj in E. rewrite G in E. cbn [bind] in E.
      eexists _, _. split; [exact E|]. cbn. auto 10.
    - exists s, o. split; auto. repeat split; auto. symmetry. apply put_same. exact G. }
  clear E. destruct X as (s1 & o1 & E & W1 & R1 & O1 & H1 & RC1 & CPP1).
  assert (G1 : get (s_objs s1) v = Some o1) by (rewrite O1; apply get_put_eq).
  unfold gen_return, gen_shared_object_return, gen_lookup_or_create in E.
  destruct (gen_create_new_wrapper cf p) as [create|] eqn:CR; [|discriminate]. rewrite NF in E. cbn [run_code] in E.
  rewrite !exec_seq in E. rewrite (not_helper cf s1 (Env VNull v None b) o1) in E; auto.
  rewrite (not_found cf s v NR) in E; auto.
  destruct s1 as [objs wraps reg todo calls]. cbn [s_wraps s_reg s_objs] in W1, R1, O1, G1. subst wraps reg.
  set (w := length (s_wraps s)) in *.
  assert (FW : get (s_wraps s) w = None) by (apply fresh_id).
  unfold gen_create_new_wrapper, gen_register in CR, E.
  assert (GP : forall r0, get (put (s_wraps s) w (Some r0)) w = Some r0) by (intros; apply get_put_eq).
  assert (NE : forall r0 x, x <> w -> get (put (s_wraps s) w (Some r0)) x = get (s_wraps s) x) by (intros; apply get_put_ne; auto).
  destruct (r_owns p).
  - injection CR as <-. destruct (c_registry cf);
      cbn [app block exec exec_stmt bind fst snd] in E; unfold py_wrap, live_wrap, setw, set_wraps, set_reg in E;
      cbn [e_py e_val bind s_wraps s_objs s_reg s_todo s_calls fst snd] in E;
      fold w in E; 
      repeat (rewrite ?put_put, ?GP, ?G1 in E; cbn [fresh_wrap w_set_obj w_set_owned w_set_ext w_set_refs w_st w_obj w_ext w_refs w_owned w_wards w_sub w_virgin w_tmp bind fst snd s_wraps s_objs s_reg s_todo s_calls e_py e_val e_self Ownership.e_new] in E);
      injection E as <-; unfold wrapper, object, registered; cbn [s_wraps s_objs s_reg]; rewrite ?put_put, GP;
      (eexists; split; [reflexivity|]); cbn; repeat (split; [reflexivity|]); (split; [exact (NE _)|]);
      (split; [first [discriminate|intros _ c Q; injection Q as <-; apply get_put_eq]|]);
      exists o1; auto.
  - destruct (is_rc cf) eqn:IR; [destruct (r_manages p)|destruct (r_ref p); [|destruct (r_manages p); [destruct (c_copyable cf); [|discriminate]|]]];
    injection CR as <-; destruct (c_registry cf);
      cbn [app block exec exec_stmt bind fst snd] in E; unfold py_wrap, live_wrap, setw, set_wraps, set_reg, ref, source_ok, new_obj, live_obj, seto, set_objs in E;
      cbn [e_py e_val Ownership.e_new bind s_wraps s_objs s_reg s_todo s_calls fst snd] in E;
      fold w in E;
      repeat (rewrite ?put_put, ?GP, ?G1 in E; cbn [fresh_wrap w_set_obj w_set_owned w_set_ext w_set_refs w_st w_obj w_ext w_refs w_owned w_wards w_sub w_virgin w_tmp bind fst snd s_wraps s_objs s_reg s_todo s_calls e_py e_val e_self Ownership.e_new] in E);
      try (destruct (get objs b) as [ob|] eqn:Gb; [discriminate|]; cbn [bind] in E;
           repeat (rewrite ?put_put, ?GP, ?G1 in E; cbn [fresh_wrap w_set_obj w_set_owned w_set_ext w_set_refs w_st w_obj w_ext w_refs w_owned w_wards w_sub w_virgin w_tmp bind fst snd s_wraps s_objs s_reg s_todo s_calls e_py e_val e_self Ownership.e_new] in E));
      injection E as <-; unfold wrapper, object, registered; cbn [s_wraps s_objs s_reg]; rewrite ?put_put, ?GP;
      (eexists; split; [reflexivity|]); cbn; repeat (split; [reflexivity|]); (split; [exact (NE _)|]);
      (split; [first [discriminate|intros _ c Q; injection Q as <-; apply get_put_eq]|]).
    all: try (exists o1; split; [exact G1|]; auto; fail).
    all: try (eexists; split; [apply get_put_eq|]; cbn; auto; fail).
    all: try (exists o1; split; [rewrite get_put_ne; [exact G1|congruence]|]; split; [auto|]; split; [reflexivity|]; split; [reflexivity|];
         eexists; split; [apply get_put_eq|reflexivity]).
Qed.

(** Giving an owned object to C++. *)
Lemma pass_transfers cf s w r a o s' : is_rc cf = false -> wrapper s w r -> w_st r = Live -> w_obj r = Some a -> object s a o ->
  step_event cf (EvPass w true) s = Ok s' ->
  wrapper s' w (w_set_obj r None) /\ object s' a (o_set_cpp o (S (o_cpp o)))
  /\ (forall x, x <> w -> get (s_wraps s') x = get (s_wraps s) x)
  /\ (c_registry cf = true -> forall x, ~ registered s' a x).
Proof.
  intros IR G L O1 Go E. cbn [step_event] in E. unfold gen_pass in E. rewrite IR in E. unfold run_code in E.
  red in G, Go. destruct s as [objs wraps reg todo calls]. cbn [s_wraps s_objs] in G, Go.
  unfold gen_unregister in E. destruct (c_registry cf);
   cbn [app block exec exec_stmt eval_cond bind e_py] in E; unfold py_wrap, live_wrap, live_obj, seto, set_objs, set_reg in E;
   cbn [s_wraps s_objs s_reg s_todo s_calls e_py] in E;
   repeat (rewrite ?G, ?L, ?O1, ?Go in E; cbn [bind e_py s_wraps s_objs s_reg s_todo s_calls exec exec_stmt eval_cond block app] in E; unfold py_wrap, live_wrap, set_reg in E; cbn [s_wraps s_objs s_reg s_todo s_calls e_py] in E);
   injection E as <-; unfold wrapper, object, registered; cbn;
   (split; [apply get_put_eq|]); (split; [apply get_put_eq|]); (split; [intros; apply get_put_ne; auto|]).
  - intros _ x. rewrite get_put_eq. discriminate.
  - discriminate.
Qed.
