(** What a run of a generated wrapper must respect, stated on the trace of actions alone. *)
From Coq Require Import String List.
From Verif.Model Require Import MiniC.
Import ListNotations.
Open Scope list_scope.

(** [lifo held t held']: starting with the resources [held] (newest first), [t] releases only the newest
    held resource each time, and ends holding [held'].  So from [] to []: everything acquired is released
    exactly once, in reverse order, and nothing else is released. *)
Inductive lifo : list nat -> list act -> list nat -> Prop :=
| lifo_nil : forall s, lifo s [] s
| lifo_acquire : forall s r t s', lifo (r :: s) t s' -> lifo s (AAcquire r :: t) s'
| lifo_release : forall s r t s', lifo s t s' -> lifo (r :: s) (ARelease r :: t) s'
| lifo_other : forall s a t s',
    (forall r, a <> AAcquire r) -> (forall r, a <> ARelease r) -> lifo s t s' -> lifo s (a :: t) s'.

(** A finished run: one return, at the very end, with nothing held. *)
Definition clean_return (t : list act) : Prop :=
  exists t0 w, t = t0 ++ [AReturn w] /\ (forall x, ~ In (AReturn x) t0) /\ lifo [] t0 [].

(** The interpreter lock in a forward wrapper (threads initialised): [lock held t held'].  Python API
    calls, reference handling and returning need the lock. *)
Inductive lock : bool -> list act -> bool -> Prop :=
| lock_nil : forall h, lock h [] h
| lock_py : forall w t h', lock true t h' -> lock true (APy w :: t) h'
| lock_acq : forall r t h', lock true t h' -> lock true (AAcquire r :: t) h'
| lock_rel : forall r t h', lock true t h' -> lock true (ARelease r :: t) h'
| lock_ret : forall w t h', lock true t h' -> lock true (AReturn w :: t) h'
| lock_cpp : forall h w t h', lock h t h' -> lock h (ACpp w :: t) h'
| lock_local : forall h w t h', lock h t h' -> lock h (ALocal w :: t) h'
| lock_save : forall t h', lock false t h' -> lock true (ASaveThread :: t) h'
| lock_restore : forall t h', lock true t h' -> lock false (ARestoreThread :: t) h'.

(** Code without lock operations. *)
Definition calm (a : act) : Prop :=
  match a with ASaveThread | ARestoreThread => False | _ => True end.
Definition calm_frag (f : frag) : Prop := Forall calm (f_acts f) /\ Forall calm (f_pass f).

(** Code that does not need the interpreter lock. *)
Definition cpp_only (a : act) : Prop := match a with ACpp _ | ALocal _ => True | _ => False end.

(** The interpreter lock taken by a reverse wrapper (PyGILState_Ensure) is the resource [gil]. *)
Definition gil : nat := 0.

(** A run of a reverse wrapper: takes the lock first, releases it once, then does nothing but C++ and returning;
    everything else acquired meanwhile is released, newest first, before the lock. *)
Definition reverse_run (t : list act) : Prop :=
  exists t1 t2 w, t = AAcquire gil :: t1 ++ ARelease gil :: t2 ++ [AReturn w] /\
    lifo [] t1 [] /\ (forall x, ~ In (AReturn x) t1) /\
    ~ In (AAcquire gil) t1 /\ ~ In (ARelease gil) t1 /\ Forall cpp_only t2.
