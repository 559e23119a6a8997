(** * Specification of custodian/ward declarations (C24) *)
From Coq Require Import List ZArith Bool.
From Verif.Model Require Import Ownership Custodians.
Import ListNotations.
Local Open Scope Z_scope.

(** The object a number of the API refers to: -1 the returned object, 0 self,
    k the k-th parameter. *)
Inductive denotes (n : cenv) : Z -> wid -> Prop :=
| den_ret w : n_ret n = Some (VObj w) -> denotes n (-1) w
| den_self w : n_self n = VObj w -> denotes n 0 w
| den_param k w : nth_error (n_params n) k = Some (Some (VObj w)) -> denotes n (Z.of_nat k + 1) w.

(** The relations a signature declares: (custodian, ward, added after the call). *)
Inductive declared (g : sig) : Z -> Z -> bool -> Prop :=
| dec_param k c : nth_error (g_params g) k = Some (Some c) ->
    declared g c (Z.of_nat k + 1) (c =? -1)
| dec_ret c : g_ret g = Some c -> declared g c (-1) true
| dec_internal : g_internal g = true -> declared g (-1) 0 true.
