From Verif.Model Require Import Py CodeBlock Params MiniC ForwardWrapper IntHandlers.
From Verif.Spec Require Import HandlerSpec IntSpec.
From Coq Require Import ZArith Lia Znumtheory.
Open Scope string_scope.
Open Scope list_scope.
Local Open Scope Z_scope.

(** ** Conversions *)
Lemma wrap_range t z : 0 < bits t -> in_range t (wrap t z).
Proof.
  intros B. unfold in_range, lowest, highest, wrap. assert (P : 0 < 2 ^ bits t) by (apply Z.pow_pos_nonneg; lia).
  assert (M := Z.mod_pos_bound z (2 ^ bits t) P). assert (D : 2 ^ bits t = 2 * 2 ^ (bits t - 1)).
  { rewrite <- Z.pow_succ_r by lia. f_equal. lia. }
  destruct (is_signed t); cbn [andb]; [|lia]. destruct (Z.leb_spec (2 ^ (bits t - 1)) (z mod 2 ^ bits t)); lia.
Qed.
Lemma wrap_congruent t z : 0 < bits t -> exists k, z = wrap t z + k * 2 ^ bits t.
Proof.
  intros B. assert (P : 0 < 2 ^ bits t) by (apply Z.pow_pos_nonneg; lia). assert (D := Z.div_mod z (2 ^ bits t) ltac:(lia)).
  unfold wrap. destruct (is_signed t && (2 ^ (bits t - 1) <=? z mod 2 ^ bits t)).
  - exists (z / 2 ^ bits t + 1). lia.
  - exists (z / 2 ^ bits t). lia.
Qed.
Lemma wrap_wrapped t z : 0 < bits t -> wrapped t z (wrap t z).
Proof. intros B. split; [apply wrap_range; exact B|apply wrap_congruent; exact B]. Qed.
Lemma wrapped_unique t z x y : 0 < bits t -> wrapped t z x -> wrapped t z y -> x = y.
Proof.
  intros B [Rx [k Kx]] [Ry [j Ky]]. assert (P : 0 < 2 ^ bits t) by (apply Z.pow_pos_nonneg; lia).
  assert (D : 2 ^ bits t = 2 * 2 ^ (bits t - 1)). { rewrite <- Z.pow_succ_r by lia. f_equal. lia. }
  unfold in_range, lowest, highest in *. assert (W : - 2 ^ bits t < x - y < 2 ^ bits t) by (destruct (is_signed t); lia).
  assert (E' : x - y = (j - k) * 2 ^ bits t) by lia. assert (j - k = 0) by nia. nia.
Qed.
Lemma wrap_eq t z x : 0 < bits t -> wrapped t z x -> wrap t z = x.
Proof. intros B W. exact (wrapped_unique t z _ _ B (wrap_wrapped t z B) W). Qed.
Lemma wrap_id t z : 0 < bits t -> in_range t z -> wrap t z = z.
Proof. intros B R. apply wrap_eq; [exact B|]. split; [exact R|]. exists 0. lia. Qed.
(** Wrapping to a type with at least as many bits first does not matter. *)
Lemma wrap_wrap s t z : 0 < bits t <= bits s -> wrap t (wrap s z) = wrap t z.
Proof.
  intros B. apply wrap_eq; [lia|]. destruct (wrap_congruent s z ltac:(lia)) as [k K]. destruct (wrap_congruent t z ltac:(lia)) as [j J].
  split; [apply wrap_range; lia|]. assert (D : 2 ^ bits s = 2 ^ (bits s - bits t) * 2 ^ bits t). { rewrite <- Z.pow_add_r by lia. f_equal. lia. }
  exists (j - k * 2 ^ (bits s - bits t)). nia.
Qed.
Lemma wrap_mod t n z : 0 < bits t <= n -> wrap t (z mod 2 ^ n) = wrap t z.
Proof.
  intros B. assert (H := wrap_wrap (mk_cint false n) t z B). unfold wrap at 2 in H. cbn [is_signed bits andb] in H. exact H.
Qed.
Lemma wrap_unsigned n z : wrap (mk_cint false n) z = z mod 2 ^ n.
Proof. reflexivity. Qed.
Lemma fits_range t z : fits t z = true <-> in_range t z.
Proof. unfold fits, in_range, lowest, highest. destruct (is_signed t); rewrite andb_true_iff, Z.leb_le, Z.ltb_lt; lia. Qed.

(** ** The shape of the code of a parameter *)
Record shape : Type := mk_shape { s_var : cint; s_unit : string; s_checks : list (comparison * string) }.
Definition shape_of (p : platform) (h : param_handler) : shape :=
  let T := param_type p h in
  match h with
  | IntParam => mk_shape T "i" []
  | UnsignedIntParam => mk_shape T "I" []
  | UnsignedIntPtrParam => mk_shape T "I" []
  | IntPtrParam => mk_shape T "i" []
  | IntRefParam => mk_shape T "i" []
  | UnsignedIntRefParam => mk_shape T "I" []
  | UInt16Param => mk_shape sint "i" [(Greater, "0xffff")]
  | UInt16RefParam => mk_shape T "H" []
  | Int16Param => mk_shape sint "i" [(Greater, "0x7fff")]
  | Int16RefParam => mk_shape T "h" []
  | UInt8Param => mk_shape sint "i" [(Greater, "0xff")]
  | UInt8RefParam => mk_shape T "B" []
  | Int8Param => mk_shape sint "i" [(Greater, "0x7f")]
  | Int8RefParam => mk_shape T "b" []
  | UnsignedLongLongParam | UnsignedLongLongRefParam => mk_shape T "K" []
  | UnsignedLongParam | UnsignedLongRefParam => mk_shape T "k" []
  | LongParam | LongRefParam => mk_shape T "l" []
  | SizeTParam => mk_shape ullong "K" []
  | LongLongParam | LongLongRefParam => mk_shape T "L" []
  | Int8PtrParam => mk_shape T "b" []
  | UInt8PtrParam => mk_shape T "B" []
  | UnsignedInt16PtrParam => mk_shape T "H" []
  end.
(** Does a default value make the parameter optional, and is it stored? *)
Definition keeps_default (h : param_handler) : bool :=
  match h with
  | IntParam | UnsignedIntParam | UInt16Param | Int16Param | UInt8Param | Int8Param | UnsignedLongLongParam | UnsignedLongLongRefParam
  | UnsignedLongParam | UnsignedLongRefParam | LongParam | LongRefParam | SizeTParam | LongLongParam | LongLongRefParam => true
  | _ => false
  end.
Definition is_optional (x : param) : bool := keeps_default (pa_handler x) && nonempty_default (pa_default x).
Definition init_text (x : param) : option string :=
  if keeps_default (pa_handler x) then pa_default x else match pa_handler x with UnsignedInt16PtrParam => pa_default x | _ => None end.
Definition named_checks (n : string) (l : list (comparison * string)) : list (string * comparison * string) := map (fun c => (n, fst c, snd c)) l.

Lemma value_type_ok p x : declared x -> c_type p (value_type (pa_handler x) (pa_ctype x)) = Some (param_type p (pa_handler x)).
Proof.
  destruct x as [h c n d]. unfold declared. cbn [pa_handler pa_ctype]. destruct h; cbn [param_ctypes In]; intros I;
    repeat (destruct I as [<-|I]; [reflexivity|]); destruct I.
Qed.
Lemma declare_ok p eval x r e : declared x ->
  declare_all p eval (param_code x ++ r) e =
  declare_all p eval r (e ++ [(pa_name x, (s_var (shape_of p (pa_handler x)), match init_text x with Some d => Some (wrap (s_var (shape_of p (pa_handler x))) (eval d)) | None => None end))]).
Proof.
  intros D. assert (V := value_type_ok p x D). destruct x as [h c n d]. unfold declared in D. cbn [pa_handler pa_ctype pa_name pa_default] in *.
  unfold param_code, init_text. cbn [pa_handler pa_ctype pa_name pa_default].
  destruct h; cbn [param_ctypes In] in D; repeat (destruct D as [<-|D]; [reflexivity|]); destruct D.
Qed.
Lemma parse_ok p x r a args e :
  parse_all p (param_code x ++ r) (a :: args) e =
  obind (parse_one p e (s_unit (shape_of p (pa_handler x))) (pa_name x) (is_optional x) a) (parse_all p r args).
Proof. destruct x as [h c n d]. destruct h; reflexivity. Qed.
Lemma parse_short p x r e : parse_all p (param_code x ++ r) [] e = Rejected TypeE.
Proof. destruct x as [h c n d]. destruct h; reflexivity. Qed.
Lemma check_ok p x r e : check_all (param_code x ++ r) e =
  match check_any e (named_checks (pa_name x) (s_checks (shape_of p (pa_handler x)))) with
  | Some true => Rejected ValueE | Some false => check_all r e | None => Undefined end.
Proof. destruct x as [h c n d]. destruct h; reflexivity. Qed.
Lemma pass_ok p x r t types e : pass_all p (param_code x ++ r) (t :: types) e =
  match c_type p t, get e (pa_name x) with
  | Some ct, Some (vt, Some z) =>
      if match param_passing (pa_handler x) with ByValue => true | _ => bits ct =? bits vt end
      then obind (pass_all p r types e) (fun zs => Passed (wrap ct z :: zs)) else Undefined
  | _, _ => Undefined
  end.
Proof. destruct x as [h c n d]. destruct h; reflexivity. Qed.

(** ** One parameter among others *)
Definition slot := (cint * option Z)%type.
Definition initial (p : platform) (eval : string -> Z) (x : param) : slot :=
  (s_var (shape_of p (pa_handler x)), match init_text x with Some d => Some (wrap (s_var (shape_of p (pa_handler x))) (eval d)) | None => None end).
Definition parse_slot (p : platform) (x : param) (a : option pyvalue) (s : slot) : outcome slot :=
  match a with
  | None => if is_optional x then Passed s else Rejected TypeE
  | Some v => match parse_unit p (s_unit (shape_of p (pa_handler x))) v with
              | Stored t z => if bits (fst s) =? bits t then Passed (fst s, Some (wrap (fst s) z)) else Undefined
              | Failed e => Rejected e
              | BadUnit => Undefined
              end
  end.
Definition check_slot (p : platform) (x : param) (s : slot) : outcome unit :=
  match check_any [(pa_name x, s)] (named_checks (pa_name x) (s_checks (shape_of p (pa_handler x)))) with
  | Some true => Rejected ValueE | Some false => Passed tt | None => Undefined end.
Definition pass_slot (p : platform) (x : param) (s : slot) : outcome Z :=
  match snd s with
  | Some z => if match param_passing (pa_handler x) with ByValue => true | _ => bits (param_type p (pa_handler x)) =? bits (fst s) end
              then Passed (wrap (param_type p (pa_handler x)) z) else Undefined
  | None => Undefined
  end.
Definition single (p : platform) (eval : string -> Z) (x : param) (a : option pyvalue) : outcome (list Z) :=
  obind (parse_slot p x a (initial p eval x)) (fun s => obind (check_slot p x s) (fun _ => obind (pass_slot p x s) (fun z => Passed [z]))).

Definition names (l : list (param * slot)) : list string := map (fun y => pa_name (fst y)) l.
Definition env_of (l : list (param * slot)) : env := map (fun y => (pa_name (fst y), snd y)) l.
Lemma get_env l x s r : ~ In (pa_name x) (names l) -> get (env_of (l ++ (x, s) :: r)) (pa_name x) = Some s.
Proof.
  induction l as [|[y q] l IH]; cbn [names env_of map app fst snd get]; intros N.
  - rewrite String.eqb_refl. reflexivity.
  - destruct (String.eqb (pa_name y) (pa_name x)) eqn:Q.
    + exfalso. apply N. left. apply String.eqb_eq. exact Q.
    + apply IH. intros I. apply N. right. exact I.
Qed.
Lemma put_env l x s r z : ~ In (pa_name x) (names l) -> put (env_of (l ++ (x, s) :: r)) (pa_name x) z = env_of (l ++ (x, (fst s, Some (wrap (fst s) z))) :: r).
Proof.
  induction l as [|[y [q v]] l IH]; cbn [names env_of map app fst snd put]; intros N.
  - destruct s as [t v]. rewrite String.eqb_refl. reflexivity.
  - destruct (String.eqb (pa_name y) (pa_name x)) eqn:Q.
    + exfalso. apply N. left. apply String.eqb_eq. exact Q.
    + f_equal. apply IH. intros I. apply N. right. exact I.
Qed.
Lemma check_any_env e s n cs : get e n = Some s -> check_any e (named_checks n cs) = check_any [(n, s)] (named_checks n cs).
Proof.
  intros G. induction cs as [|c cs IH]; [reflexivity|]. cbn [named_checks map check_any]. unfold check_one. cbn [fst snd get]. rewrite G, String.eqb_refl.
  fold (named_checks n cs). rewrite IH. reflexivity.
Qed.

Lemma declare_all_ok p eval ps : Forall declared ps -> forall l,
  declare_all p eval (flat_map param_code ps) (env_of l) = Passed (env_of (l ++ map (fun x => (x, initial p eval x)) ps)).
Proof.
  induction 1 as [|x ps D _ IH]; intros l; cbn [flat_map map].
  - rewrite app_nil_r. reflexivity.
  - assert (G : env_of l ++ [(pa_name x, initial p eval x)] = env_of (l ++ [(x, initial p eval x)])) by (unfold env_of; rewrite map_app; reflexivity).
    etransitivity; [exact (declare_ok p eval x _ (env_of l) D)|]. change (declare_all p eval (flat_map param_code ps) (env_of l ++ [(pa_name x, initial p eval x)]) =
      Passed (env_of (l ++ (x, initial p eval x) :: map (fun x => (x, initial p eval x)) ps))).
    rewrite G, IH, <- app_assoc. reflexivity.
Qed.

(** Parsing all the arguments. *)
Fixpoint parse_slots (p : platform) (l : list (param * slot)) (args : list (option pyvalue)) : outcome (list (param * slot)) :=
  match l, args with
  | [], _ => Passed []
  | (x, s) :: r, a :: args' => obind (parse_slot p x a s) (fun s' => obind (parse_slots p r args') (fun l' => Passed ((x, s') :: l')))
  | _ :: _, [] => Rejected TypeE
  end.
Lemma parse_one_env p l x s r a : ~ In (pa_name x) (names l) ->
  parse_one p (env_of (l ++ (x, s) :: r)) (s_unit (shape_of p (pa_handler x))) (pa_name x) (is_optional x) a =
  obind (parse_slot p x a s) (fun s' => Passed (env_of (l ++ (x, s') :: r))).
Proof.
  intros N. unfold parse_one, parse_slot. destruct a as [v|]; [|destruct (is_optional x); reflexivity].
  destruct (parse_unit p _ v) as [t z|e|]; [|reflexivity|reflexivity]. unfold store. rewrite (get_env _ _ _ _ N). destruct s as [vt q]. cbn [fst].
  destruct (bits vt =? bits t); [|reflexivity]. cbn [obind]. rewrite (put_env _ _ _ _ _ N). reflexivity.
Qed.
Lemma parse_all_ok p r : forall l args, NoDup (names (l ++ r)) ->
  parse_all p (flat_map param_code (map fst r)) args (env_of (l ++ r)) = obind (parse_slots p r args) (fun r' => Passed (env_of (l ++ r'))).
Proof.
  induction r as [|[x s] r IH]; intros l args N; cbn [map flat_map fst parse_slots].
  - destruct args; reflexivity.
  - destruct args as [|a args]; [apply parse_short|]. rewrite (parse_ok p). rewrite parse_one_env.
    2: { unfold names in N. rewrite map_app in N. apply NoDup_remove_2 in N. intros I. apply N. apply in_or_app. left. exact I. }
    destruct (parse_slot p x a s) as [s'|e|]; cbn [obind]; [|reflexivity|reflexivity].
    change (l ++ (x, s') :: r) with (l ++ [(x, s')] ++ r). rewrite app_assoc. rewrite IH.
    + destruct (parse_slots p r args) as [r'|e|]; cbn [obind]; [|reflexivity|reflexivity]. rewrite <- app_assoc. reflexivity.
    + rewrite <- app_assoc. unfold names in *. rewrite map_app in *. exact N.
Qed.
Lemma parse_slots_fst p : forall l args l', parse_slots p l args = Passed l' -> map fst l' = map fst l.
Proof.
  induction l as [|[x s] l IH]; intros args l'; cbn [parse_slots].
  - destruct args; injection 1 as <-; reflexivity.
  - destruct args as [|a args]; [discriminate|]. destruct (parse_slot p x a s) as [s'|e|]; cbn [obind]; [|discriminate|discriminate].
    destruct (parse_slots p l args) as [r'|e|] eqn:Q; cbn [obind]; [|discriminate|discriminate]. injection 1 as <-. cbn [map fst]. f_equal. exact (IH _ _ Q).
Qed.

Fixpoint check_slots (p : platform) (l : list (param * slot)) : outcome unit :=
  match l with
  | [] => Passed tt
  | (x, s) :: r => obind (check_slot p x s) (fun _ => check_slots p r)
  end.
Fixpoint pass_slots (p : platform) (l : list (param * slot)) : outcome (list Z) :=
  match l with
  | [] => Passed []
  | (x, s) :: r => match pass_slot p x s with Passed z => obind (pass_slots p r) (fun zs => Passed (z :: zs)) | Rejected e => Rejected e | Undefined => Undefined end
  end.
Lemma check_all_ok p r : forall l, NoDup (names (l ++ r)) -> check_all (flat_map param_code (map fst r)) (env_of (l ++ r)) = check_slots p r.
Proof.
  induction r as [|[x s] r IH]; intros l N; cbn [map flat_map fst check_slots]; [reflexivity|]. rewrite (check_ok p).
  assert (G : get (env_of (l ++ (x, s) :: r)) (pa_name x) = Some s).
  { apply get_env. unfold names in N. rewrite map_app in N. apply NoDup_remove_2 in N. intros I. apply N. apply in_or_app. left. exact I. }
  rewrite (check_any_env _ _ _ _ G). unfold check_slot. destruct (check_any _ _) as [[|]|]; cbn [obind]; try reflexivity.
  change (l ++ (x, s) :: r) with (l ++ [(x, s)] ++ r) in *. rewrite app_assoc in *. apply IH. exact N.
Qed.
Lemma pass_all_ok p r : forall l, Forall declared (map fst r) -> NoDup (names (l ++ r)) ->
  pass_all p (flat_map param_code (map fst r)) (map (fun x => value_type (pa_handler x) (pa_ctype x)) (map fst r)) (env_of (l ++ r)) = pass_slots p r.
Proof.
  induction r as [|[x s] r IH]; intros l D N; cbn [map flat_map fst pass_slots]; [reflexivity|]. cbn [map fst] in D. inversion D; subst. rewrite pass_ok, value_type_ok by assumption.
  assert (G : get (env_of (l ++ (x, s) :: r)) (pa_name x) = Some s).
  { apply get_env. unfold names in N. rewrite map_app in N. apply NoDup_remove_2 in N. intros I. apply N. apply in_or_app. left. exact I. }
  rewrite G. unfold pass_slot. destruct s as [vt [z|]]; cbn [fst snd]; [|reflexivity].
  destruct (match param_passing (pa_handler x) with ByValue => true | _ => bits (param_type p (pa_handler x)) =? bits vt end); [|reflexivity].
  change (l ++ (x, (vt, Some z)) :: r) with (l ++ [(x, (vt, Some z))] ++ r) in *. rewrite app_assoc in *. rewrite IH by assumption. reflexivity.
Qed.

Lemma call_slots p eval ps args : Forall declared ps -> NoDup (map pa_name ps) ->
  call_function p eval ps args =
  obind (parse_slots p (map (fun x => (x, initial p eval x)) ps) args) (fun l => obind (check_slots p l) (fun _ => pass_slots p l)).
Proof.
  intros D N. unfold call_function. cbv zeta. rewrite (declare_all_ok p eval ps D [] : declare_all p eval (flat_map param_code ps) [] = _). cbn [obind app].
  set (L := map (fun x => (x, initial p eval x)) ps). assert (F : map fst L = ps) by (unfold L; rewrite map_map; cbn [fst]; apply map_id).
  assert (NL : NoDup (names ([] ++ L))). { unfold names, L. cbn [app]. rewrite map_map. cbn [fst]. exact N. }
  rewrite <- F at 1. rewrite (parse_all_ok p L [] args NL : parse_all p _ args (env_of L) = _). destruct (parse_slots p L args) as [l'|e|] eqn:Q; cbn [obind]; [|reflexivity|reflexivity].
  apply parse_slots_fst in Q. assert (F' : map fst l' = ps) by congruence.
  assert (N' : NoDup (names ([] ++ l'))). { unfold names in *. cbn [app] in *. rewrite <- (map_map fst pa_name) in *. rewrite Q. exact NL. }
  assert (C := check_all_ok p l' [] N'). rewrite F' in C. rewrite C. destruct (check_slots p l') as [u|e|]; cbn [obind]; [|reflexivity|reflexivity].
  assert (Q' := pass_all_ok p l' []). rewrite F' in Q'. exact (Q' D N').
Qed.
Lemma call_single p eval x a : declared x -> call_function p eval [x] [a] = single p eval x a.
Proof.
  intros D. rewrite call_slots; [|constructor; [exact D|constructor]|constructor; [intros []|constructor]]. cbn [map parse_slots]. unfold single.
  destruct (parse_slot p x a _) as [s|e|]; cbn [obind check_slots]; [|reflexivity|reflexivity]. destruct (check_slot p x s) as [u|e|]; cbn [obind pass_slots]; [|reflexivity|reflexivity].
  destruct (pass_slot p x s) as [z|e|]; reflexivity.
Qed.

(** ** Numbers *)
Lemma checked_ok p lo hi t z : valid_platform p -> - 2 ^ 31 <= lo -> hi < 2 ^ 31 ->
  checked p lo hi t z = if (lo <=? z) && (z <=? hi) then Stored t z else Failed OverflowE.
Proof.
  intros [V _] L H. unfold checked. destruct (fits (slong p) z) eqn:F.
  - destruct (Z.ltb_spec z lo), (Z.ltb_spec hi z), (Z.leb_spec lo z), (Z.leb_spec z hi); cbn [orb andb]; try lia; reflexivity.
  - destruct ((lo <=? z) && (z <=? hi)) eqn:B; [|reflexivity]. exfalso. apply andb_true_iff in B as [B1 B2]. rewrite Z.leb_le in B1, B2.
    assert (R : fits (slong p) z = true); [|congruence]. apply fits_range. unfold in_range, lowest, highest, slong. cbn [is_signed bits].
    destruct V as [-> | ->]; cbn; lia.
Qed.
Lemma masked_ok p t z : valid_platform p -> 0 < bits t <= 32 -> masked p t z = Stored t (wrap t z).
Proof. intros [V _] B. unfold masked. rewrite wrap_mod; [reflexivity|]. destruct V as [-> | ->]; lia. Qed.

Definition unit_result (p : platform) (u : string) (z : Z) : parsed :=
  if String.eqb u "b" then if (0 <=? z) && (z <=? 255) then Stored uchar z else Failed OverflowE
  else if String.eqb u "B" then Stored uchar (wrap uchar z)
  else if String.eqb u "h" then if (-32768 <=? z) && (z <=? 32767) then Stored sshort z else Failed OverflowE
  else if String.eqb u "H" then Stored ushort (wrap ushort z)
  else if String.eqb u "i" then if (-2147483648 <=? z) && (z <=? 2147483647) then Stored sint z else Failed OverflowE
  else if String.eqb u "I" then Stored uint (wrap uint z)
  else if String.eqb u "l" then if fits (slong p) z then Stored (slong p) z else Failed OverflowE
  else if String.eqb u "k" then Stored (ulong p) (wrap (ulong p) z)
  else if String.eqb u "L" then if fits sllong z then Stored sllong z else Failed OverflowE
  else if String.eqb u "K" then Stored ullong (wrap ullong z)
  else BadUnit.
Lemma unit_ok p u z : valid_platform p -> parse_unit p u (PyInt z) = unit_result p u z.
Proof.
  intros V. unfold parse_unit, unit_result.
  rewrite !checked_ok by (try exact V; lia). rewrite !masked_ok by (try exact V; cbn; lia). reflexivity.
Qed.

Lemma wrapped_wrap t z : 0 < bits t -> exists x, wrapped t z x /\ wrap t z = x.
Proof. intros B. exists (wrap t z). split; [apply wrap_wrapped; exact B|reflexivity]. Qed.
Lemma bits_pos p h : valid_platform p -> 0 < bits (param_type p h).
Proof. intros [[V|V] [W|W]]; destruct h; cbn [param_type bits]; rewrite ?V, ?W; lia. Qed.

(** A value stored in a variable of a type with at least as many bits and then passed is reduced once. *)
Lemma single_int p eval x v st y : parse_unit p (s_unit (shape_of p (pa_handler x))) v = Stored st y -> bits (s_var (shape_of p (pa_handler x))) = bits st ->
  single p eval x (Some v) =
  match check_any [(pa_name x, (s_var (shape_of p (pa_handler x)), Some (wrap (s_var (shape_of p (pa_handler x))) y)))]
    (named_checks (pa_name x) (s_checks (shape_of p (pa_handler x)))) with
  | Some true => Rejected ValueE
  | Some false => if match param_passing (pa_handler x) with ByValue => true | _ => bits (param_type p (pa_handler x)) =? bits (s_var (shape_of p (pa_handler x))) end
                  then Passed [wrap (param_type p (pa_handler x)) (wrap (s_var (shape_of p (pa_handler x))) y)] else Undefined
  | None => Undefined
  end.
Proof.
  intros P B. unfold single, parse_slot, initial. rewrite P. cbn [fst]. apply Z.eqb_eq in B. rewrite B. cbn [obind]. unfold check_slot.
  destruct (check_any _ _) as [[|]|]; cbn [obind]; try reflexivity. unfold pass_slot. cbn [fst snd].
  destruct (match param_passing (pa_handler x) with ByValue => true | _ => _ end); reflexivity.
Qed.
Lemma check_none n s : check_any [(n, s)] (named_checks n []) = Some false.
Proof. reflexivity. Qed.
Lemma check_greater n t z c k : constant c = Some k -> check_any [(n, (t, Some z))] (named_checks n [(Greater, c)]) = Some (k <? z).
Proof.
  intros K. cbn [named_checks map check_any]. unfold check_one. cbn [fst snd get]. rewrite String.eqb_refl, K. cbn [compare].
  destruct (k <? z); reflexivity.
Qed.

Ltac arith := unfold wrapped, in_range, lowest, highest, int_min, fits_int in *; cbn [is_signed bits param_type return_type] in *; lia.

(** The variable has at least as many bits as the parameter, and the same if its address is passed. *)
Definition sizes_ok (p : platform) (h : param_handler) : Prop :=
  0 < bits (param_type p h) <= bits (s_var (shape_of p h)) /\
  (match param_passing h with ByValue => true | _ => bits (param_type p h) =? bits (s_var (shape_of p h)) end) = true.
Lemma sizes p h : valid_platform p -> sizes_ok p h.
Proof.
  intros [[V|V] [W|W]]; unfold sizes_ok; destruct h; cbn [shape_of s_var param_type param_passing bits ullong sint]; rewrite ?V, ?W; (split; [lia|reflexivity]).
Qed.
Lemma kind_masked p eval x st z : valid_platform p -> s_checks (shape_of p (pa_handler x)) = [] -> bits (s_var (shape_of p (pa_handler x))) = bits st ->
  parse_unit p (s_unit (shape_of p (pa_handler x))) (PyInt z) = Stored st (wrap st z) ->
  single p eval x (Some (PyInt z)) = Passed [wrap (param_type p (pa_handler x)) z].
Proof.
  intros V C B P. destruct (sizes p (pa_handler x) V) as [S1 S2]. rewrite (single_int p eval x _ _ _ P B), C, check_none, S2.
  rewrite wrap_wrap by exact S1. rewrite wrap_wrap by (rewrite <- B; exact S1). reflexivity.
Qed.
Lemma kind_ranged p eval x st z (b : bool) : valid_platform p -> s_checks (shape_of p (pa_handler x)) = [] -> bits (s_var (shape_of p (pa_handler x))) = bits st ->
  parse_unit p (s_unit (shape_of p (pa_handler x))) (PyInt z) = (if b then Stored st z else Failed OverflowE) ->
  single p eval x (Some (PyInt z)) = if b then Passed [wrap (param_type p (pa_handler x)) z] else Rejected OverflowE.
Proof.
  intros V C B P. destruct b.
  - destruct (sizes p (pa_handler x) V) as [S1 S2]. rewrite (single_int p eval x _ _ _ P B), C, check_none, S2. rewrite wrap_wrap by exact S1. reflexivity.
  - unfold single, parse_slot. rewrite P. reflexivity.
Qed.
Lemma kind_checked p eval x c k z : valid_platform p -> s_checks (shape_of p (pa_handler x)) = [(Greater, c)] -> constant c = Some k ->
  s_var (shape_of p (pa_handler x)) = sint -> s_unit (shape_of p (pa_handler x)) = "i" ->
  single p eval x (Some (PyInt z)) = if fits_int z then if k <? z then Rejected ValueE else Passed [wrap (param_type p (pa_handler x)) z] else Rejected OverflowE.
Proof.
  intros V C K T U. assert (P : parse_unit p "i" (PyInt z) = if (-2147483648 <=? z) && (z <=? 2147483647) then Stored sint z else Failed OverflowE) by exact (unit_ok p "i" z V).
  rewrite <- U in P.
  assert (F : fits_int z = (-2147483648 <=? z) && (z <=? 2147483647)).
  { unfold fits_int, int_min. change (2 ^ 31) with 2147483648. f_equal. destruct (Z.ltb_spec z 2147483648), (Z.leb_spec z 2147483647); lia. }
  rewrite <- F in P. destruct (fits_int z) eqn:FI.
  - destruct (sizes p (pa_handler x) V) as [S1 S2]. rewrite (single_int p eval x _ _ _ P) by (rewrite T; reflexivity). rewrite C, (check_greater _ _ _ _ _ K), S2.
    rewrite T in S1 |- *. rewrite (wrap_id sint z); [destruct (k <? z); reflexivity|cbn; lia|].
    unfold fits_int, int_min in FI. apply andb_true_iff in FI as [F1 F2]. rewrite Z.leb_le in F1. rewrite Z.ltb_lt in F2.
    unfold in_range, lowest, highest, sint. cbn [is_signed bits]. change (2 ^ (32 - 1)) with (2 ^ 31). lia.
  - unfold single, parse_slot. rewrite P. reflexivity.
Qed.

Definition spec1 (p : platform) (h : param_handler) (o : outcome (list Z)) (z : Z) : Prop :=
  converts (param_accepts p h) (param_type p h) (param_error h) (fun y => [y]) o z.
Lemma spec_masked p h z : valid_platform p -> param_accepts p h z -> spec1 p h (Passed [wrap (param_type p h) z]) z.
Proof. intros V A. left. split; [exact A|]. exists (wrap (param_type p h) z). split; [apply wrap_wrapped; apply (sizes p h V)|reflexivity]. Qed.
Lemma spec_ranged p h z (b : bool) : valid_platform p -> (b = true <-> param_accepts p h z) -> param_error h z = OverflowE ->
  spec1 p h (if b then Passed [wrap (param_type p h) z] else Rejected OverflowE) z.
Proof.
  intros V A E'. destruct b.
  - apply spec_masked; [exact V|]. apply A. reflexivity.
  - right. split; [|rewrite E'; reflexivity]. intros H. apply A in H. discriminate.
Qed.
Lemma spec_checked p h z k : valid_platform p -> (param_accepts p h z <-> int_min <= z <= k) -> k < 2 ^ 31 -> param_error h z = (if fits_int z then ValueE else OverflowE) ->
  spec1 p h (if fits_int z then if k <? z then Rejected ValueE else Passed [wrap (param_type p h) z] else Rejected OverflowE) z.
Proof.
  intros V A K E'. destruct (fits_int z) eqn:F; unfold fits_int in F.
  - apply andb_true_iff in F as [F1 F2]. rewrite Z.leb_le in F1. rewrite Z.ltb_lt in F2. destruct (Z.ltb_spec k z).
    + right. split; [rewrite A; lia|rewrite E'; reflexivity].
    + apply spec_masked; [exact V|]. apply A. lia.
  - apply andb_false_iff in F. rewrite Z.leb_gt, Z.ltb_ge in F. right. split; [rewrite A; lia|rewrite E'; reflexivity].
Qed.
Lemma interval lo hi z : (lo <=? z) && (z <=? hi) = true <-> lo <= z <= hi.
Proof. rewrite andb_true_iff, !Z.leb_le. lia. Qed.

Lemma single_ok p eval x z : valid_platform p -> spec1 p (pa_handler x) (single p eval x (Some (PyInt z))) z.
Proof.
  intros V. destruct (pa_handler x) eqn:H;
  [ rewrite (kind_ranged p eval x sint z _ V ltac:(rewrite H; reflexivity) ltac:(rewrite H; reflexivity) ltac:(rewrite H; exact (unit_ok p "i" z V)))
  | rewrite (kind_masked p eval x uint z V ltac:(rewrite H; reflexivity) ltac:(rewrite H; reflexivity) ltac:(rewrite H; exact (unit_ok p "I" z V)))
  | rewrite (kind_masked p eval x uint z V ltac:(rewrite H; reflexivity) ltac:(rewrite H; reflexivity) ltac:(rewrite H; exact (unit_ok p "I" z V)))
  | rewrite (kind_ranged p eval x sint z _ V ltac:(rewrite H; reflexivity) ltac:(rewrite H; reflexivity) ltac:(rewrite H; exact (unit_ok p "i" z V)))
  | rewrite (kind_ranged p eval x sint z _ V ltac:(rewrite H; reflexivity) ltac:(rewrite H; reflexivity) ltac:(rewrite H; exact (unit_ok p "i" z V)))
  | rewrite (kind_masked p eval x uint z V ltac:(rewrite H; reflexivity) ltac:(rewrite H; reflexivity) ltac:(rewrite H; exact (unit_ok p "I" z V)))
  | rewrite (kind_checked p eval x "0xffff" 65535 z V ltac:(rewrite H; reflexivity) eq_refl ltac:(rewrite H; reflexivity) ltac:(rewrite H; reflexivity))
  | rewrite (kind_masked p eval x ushort z V ltac:(rewrite H; reflexivity) ltac:(rewrite H; reflexivity) ltac:(rewrite H; exact (unit_ok p "H" z V)))
  | rewrite (kind_checked p eval x "0x7fff" 32767 z V ltac:(rewrite H; reflexivity) eq_refl ltac:(rewrite H; reflexivity) ltac:(rewrite H; reflexivity))
  | rewrite (kind_ranged p eval x sshort z _ V ltac:(rewrite H; reflexivity) ltac:(rewrite H; reflexivity) ltac:(rewrite H; exact (unit_ok p "h" z V)))
  | rewrite (kind_checked p eval x "0xff" 255 z V ltac:(rewrite H; reflexivity) eq_refl ltac:(rewrite H; reflexivity) ltac:(rewrite H; reflexivity))
  | rewrite (kind_masked p eval x uchar z V ltac:(rewrite H; reflexivity) ltac:(rewrite H; reflexivity) ltac:(rewrite H; exact (unit_ok p "B" z V)))
  | rewrite (kind_checked p eval x "0x7f" 127 z V ltac:(rewrite H; reflexivity) eq_refl ltac:(rewrite H; reflexivity) ltac:(rewrite H; reflexivity))
  | rewrite (kind_ranged p eval x uchar z _ V ltac:(rewrite H; reflexivity) ltac:(rewrite H; reflexivity) ltac:(rewrite H; exact (unit_ok p "b" z V)))
  | rewrite (kind_masked p eval x ullong z V ltac:(rewrite H; reflexivity) ltac:(rewrite H; reflexivity) ltac:(rewrite H; exact (unit_ok p "K" z V)))
  | rewrite (kind_masked p eval x ullong z V ltac:(rewrite H; reflexivity) ltac:(rewrite H; reflexivity) ltac:(rewrite H; exact (unit_ok p "K" z V)))
  | rewrite (kind_masked p eval x (ulong p) z V ltac:(rewrite H; reflexivity) ltac:(rewrite H; reflexivity) ltac:(rewrite H; exact (unit_ok p "k" z V)))
  | rewrite (kind_masked p eval x (ulong p) z V ltac:(rewrite H; reflexivity) ltac:(rewrite H; reflexivity) ltac:(rewrite H; exact (unit_ok p "k" z V)))
  | rewrite (kind_ranged p eval x (slong p) z _ V ltac:(rewrite H; reflexivity) ltac:(rewrite H; reflexivity) ltac:(rewrite H; exact (unit_ok p "l" z V)))
  | rewrite (kind_ranged p eval x (slong p) z _ V ltac:(rewrite H; reflexivity) ltac:(rewrite H; reflexivity) ltac:(rewrite H; exact (unit_ok p "l" z V)))
  | rewrite (kind_masked p eval x ullong z V ltac:(rewrite H; reflexivity) ltac:(rewrite H; reflexivity) ltac:(rewrite H; exact (unit_ok p "K" z V)))
  | rewrite (kind_ranged p eval x sllong z _ V ltac:(rewrite H; reflexivity) ltac:(rewrite H; reflexivity) ltac:(rewrite H; exact (unit_ok p "L" z V)))
  | rewrite (kind_ranged p eval x sllong z _ V ltac:(rewrite H; reflexivity) ltac:(rewrite H; reflexivity) ltac:(rewrite H; exact (unit_ok p "L" z V)))
  | rewrite (kind_ranged p eval x uchar z _ V ltac:(rewrite H; reflexivity) ltac:(rewrite H; reflexivity) ltac:(rewrite H; exact (unit_ok p "b" z V)))
  | rewrite (kind_masked p eval x uchar z V ltac:(rewrite H; reflexivity) ltac:(rewrite H; reflexivity) ltac:(rewrite H; exact (unit_ok p "B" z V)))
  | rewrite (kind_masked p eval x ushort z V ltac:(rewrite H; reflexivity) ltac:(rewrite H; reflexivity) ltac:(rewrite H; exact (unit_ok p "H" z V))) ];
  rewrite H; first
  [ apply spec_masked; [exact V|exact I]
  | apply spec_ranged; [exact V| |reflexivity]; first [ rewrite interval; reflexivity | apply fits_range
      | rewrite interval; unfold param_accepts, in_range, lowest, highest; cbn [param_type is_signed bits]; change (2 ^ (32 - 1)) with 2147483648; change (2 ^ (16 - 1)) with 32768; lia ]
  | apply spec_checked; [exact V|reflexivity|reflexivity|reflexivity] ].
Qed.
